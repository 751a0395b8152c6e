(* Mechanics of the integrator: what the loops of one pass compute, and that they stay inside their
   arrays. *)
From Coq Require Import List ZArith Reals Arith Bool Lra Lia.
From Verif Require Import Base Gravity_model Gravity_proofs Spline_model Sgode_model Adams.
Import ListNotations.
Local Open Scope R_scope.

Lemma rd_ok a i : (i < a_len a)%nat -> rd a i = Ok (a_val a i).
Proof. intros L. unfold rd. destruct (Nat.ltb_spec i (a_len a)); [reflexivity|lia]. Qed.
Lemma wr_ok a i x : (i < a_len a)%nat -> wr a i x = Ok (Arr (a_len a) (fun k => if Nat.eqb k i then x else a_val a k)).
Proof. intros L. unfold wr. destruct (Nat.ltb_spec i (a_len a)); [reflexivity|lia]. Qed.
Lemma col_ok P j : (j < 16)%nat -> col P j = Ok (P j).
Proof. intros L. unfold col. destruct (Nat.ltb_spec j 16); [reflexivity|lia]. Qed.
Lemma setcol_ok P j u : (j < 16)%nat -> setcol P j u = Ok (fun i => if Nat.eqb i j then u else P i).
Proof. intros L. unfold setcol. destruct (Nat.ltb_spec j 16); [reflexivity|lia]. Qed.
Ltac eqb := cbv beta; repeat match goal with |- context [Nat.eqb ?a ?b] => destruct (Nat.eqb_spec a b); [try lia|try lia] end; cbv beta iota.
Ltac io := first [rewrite rd_ok by (cbn [a_len]; lia) | rewrite wr_ok by (cbn [a_len]; lia) | rewrite col_ok by lia | rewrite setcol_ok by lia]; cbn [obind a_len a_val].

(* the sizes of the arrays *)
Record sized (c : coef) : Prop := Sized {
  z_psi : a_len (psi c) = 12%nat; z_alpha : a_len (alpha c) = 12%nat; z_beta : a_len (beta c) = 12%nat; z_v : a_len (v c) = 12%nat;
  z_w : a_len (w c) = 12%nat; z_sig : a_len (sig c) = 13%nat; z_g : a_len (g c) = 13%nat }.

(* a[q] -= t a[q + 1], upwards *)
Lemma less_loop t a m : (m < a_len a)%nat -> exists a', iterate 0 m (fun iq a => less t a iq) a = Ok a' /\ a_len a' = a_len a /\
  forall q, a_val a' q = if Nat.ltb q m then a_val a q - t * a_val a (S q) else a_val a q.
Proof.
  intros L. destruct (iterate_inv (fun i b => a_len b = a_len a /\ forall q, a_val b q = if Nat.ltb q i then a_val a q - t * a_val a (S q) else a_val a q) (fun iq a => less t a iq) m 0 a) as (b & E & H).
  - split; [reflexivity|]. intros q. reflexivity.
  - intros i b B (Hl & Hv). unfold less. io. io. io. eexists. split; [reflexivity|]. cbn [a_len a_val]. split; [exact Hl|]. intros q. rewrite !Hv.
    destruct (Nat.eqb_spec q i) as [->|N]; [|destruct (Nat.ltb_spec q i), (Nat.ltb_spec q (S i)); try lia; reflexivity].
    destruct (Nat.ltb_spec i i); [lia|]. destruct (Nat.ltb_spec (i + 1) i); [lia|]. destruct (Nat.ltb_spec i (S i)); [|lia]. rewrite Nat.add_1_r. reflexivity.
  - exists b. rewrite Nat.add_0_l in H. split; [exact E|exact H].
Qed.
Lemma copy_loop n src dst : (n <= a_len src)%nat -> (n <= a_len dst)%nat -> exists a', copy n src dst = Ok a' /\ a_len a' = a_len dst /\ forall q, (q < n)%nat -> a_val a' q = a_val src q.
Proof.
  intros L L'. unfold copy. destruct (iterate_inv (fun i b => a_len b = a_len dst /\ forall q, (q < i)%nat -> a_val b q = a_val src q) (fun i d => do x <- rd src i; wr d i x) n 0 dst) as (b & E & H).
  - split; [reflexivity|]. intros q Q. lia.
  - intros i b B (Hl & Hv). io. io. eexists. split; [reflexivity|]. split; [exact Hl|]. intros q Q. cbn [a_val]. destruct (Nat.eqb_spec q i) as [->|N]; [reflexivity|apply Hv; lia].
  - exists b. split; [exact E|exact H].
Qed.
Lemma fresh_loop k vv : (k <= a_len vv)%nat -> exists a', fresh k vv = Ok a' /\ a_len a' = a_len vv /\ forall q, (q < k)%nat -> a_val a' q = 1 / ((INR q + 1) * (INR q + 2)).
Proof.
  intros L. unfold fresh. destruct (iterate_inv (fun i b => a_len b = a_len vv /\ forall q, (q < i)%nat -> a_val b q = 1 / ((INR q + 1) * (INR q + 2))) (fun iq a => wr a iq (1 / ((INR iq + 1) * (INR iq + 2)))) k 0 vv) as (b & E & H).
  - split; [reflexivity|]. intros q Q. lia.
  - intros i b B (Hl & Hv). io. eexists. split; [reflexivity|]. split; [exact Hl|]. intros q Q. cbn [a_val]. destruct (Nat.eqb_spec q i) as [->|N]; [reflexivity|apply Hv; lia].
  - exists b. split; [exact E|exact H].
Qed.
(* the diagonal, downwards *)
Lemma diagonal_loop k ns al vv : (2 <= ns <= k)%nat -> (k <= 12)%nat -> a_len al = 12%nat -> a_len vv = 12%nat -> exists a', diagonal k ns al vv = Ok a' /\ a_len a' = 12%nat /\
  a_val a' (k - 1) = 1 / (INR k * (INR k + 1)) /\
  (forall j, (1 <= j <= ns - 2)%nat -> a_val a' (k - 1 - j) = a_val vv (k - 1 - j) - a_val al j * a_val a' (k - j)) /\
  (forall q, (q < k + 1 - ns)%nat -> a_val a' q = a_val vv q).
Proof.
  intros N K La Lv. unfold diagonal. io.
  set (v0 := Arr _ _). destruct (iterate_inv (fun i b => a_len b = 12%nat /\ a_val b (k - 1) = 1 / (INR k * (INR k + 1)) /\
     (forall j, (1 <= j < i)%nat -> a_val b (k - 1 - j) = a_val vv (k - 1 - j) - a_val al j * a_val b (k - j)) /\
     (forall q, (q < k - i)%nat -> a_val b q = a_val vv q)) (fun j a => do c <- rd al j; less c a (k - j - 1)) (ns - 2) 1 v0) as (b & E & H1 & H2 & H3 & H4).
  - subst v0. cbn [a_len a_val]. rewrite Nat.eqb_refl. split; [exact Lv|split; [reflexivity|split; [intros; lia|]]]. intros q Q. eqb. reflexivity.
  - intros i b B (H1 & H2 & H3 & H4). io. unfold less. io. io. io. eexists. split; [reflexivity|]. cbn [a_len a_val]. split; [exact H1|]. split; [|split].
    + eqb. exact H2.
    + intros j J. destruct (Nat.eq_dec j i) as [->|D].
      * replace (k - i - 1)%nat with (k - 1 - i)%nat by lia. rewrite Nat.eqb_refl. eqb. rewrite H4 by lia. replace (k - 1 - i + 1)%nat with (k - i)%nat by lia. reflexivity.
      * eqb. apply H3. lia.
    + intros q Q. eqb. apply H4. lia.
  - exists b. split; [exact E|]. split; [exact H1|]. split; [exact H2|]. split; [intros j J; apply H3; lia|intros q Q; apply H4; lia].
Qed.
(* the components that follow from the unequal steps *)
Definition turn (h : R) (ns : nat) (ps : arr) (i : nat) : R := if Nat.eqb i ns then h * INR ns else a_val ps (i - 2) + h.
Lemma old_loop h ns k ps be al sg : (1 <= ns <= k)%nat -> (k <= 12)%nat -> a_len ps = 12%nat -> a_len be = 12%nat -> a_len al = 12%nat -> a_len sg = 13%nat ->
  exists ps' be' al' sg', iterate ns (k - ns) (old_step h) (ps, be, al, sg, h * INR ns) = Ok (ps', be', al', sg', turn h ns ps k) /\
    a_len ps' = 12%nat /\ a_len be' = 12%nat /\ a_len al' = 12%nat /\ a_len sg' = 13%nat /\
    (forall j, (j < ns - 1 \/ k - 1 <= j)%nat -> a_val ps' j = a_val ps j) /\ (forall j, (ns - 1 <= j < k - 1)%nat -> a_val ps' j = turn h ns ps (j + 1)) /\
    (forall j, (j < ns)%nat -> a_val be' j = a_val be j) /\ (forall j, (ns <= j < k)%nat -> a_val be' j = a_val be' (j - 1) * turn h ns ps j / a_val ps (j - 1)) /\
    (forall j, (j < ns)%nat -> a_val al' j = a_val al j) /\ (forall j, (ns <= j < k)%nat -> a_val al' j = h / (a_val ps (j - 1) + h)).
Proof.
  intros N K Lp Lb La Ls.
  destruct (iterate_inv (fun i (s : arr * arr * arr * arr * R) => let '(ps', be', al', sg', t) := s in
    t = turn h ns ps i /\ a_len ps' = 12%nat /\ a_len be' = 12%nat /\ a_len al' = 12%nat /\ a_len sg' = 13%nat /\
    (forall j, (j < ns - 1 \/ i - 1 <= j)%nat -> a_val ps' j = a_val ps j) /\ (forall j, (ns - 1 <= j < i - 1)%nat -> a_val ps' j = turn h ns ps (j + 1)) /\
    (forall j, (j < ns)%nat -> a_val be' j = a_val be j) /\ (forall j, (ns <= j < i)%nat -> a_val be' j = a_val be' (j - 1) * turn h ns ps j / a_val ps (j - 1)) /\
    (forall j, (j < ns)%nat -> a_val al' j = a_val al j) /\ (forall j, (ns <= j < i)%nat -> a_val al' j = h / (a_val ps (j - 1) + h))) (old_step h) (k - ns) ns (ps, be, al, sg, h * INR ns)) as (r & E & H).
  - unfold turn at 1. rewrite Nat.eqb_refl. repeat (split; [first [assumption|reflexivity|intros; lia]|]). intros; lia.
  - intros i [[[[p1 b1] a1] s1] t1] B (T & Lp1 & Lb1 & La1 & Ls1 & P1 & P2 & B1 & B2 & A1 & A2). unfold old_step. do 9 io.
    eexists. split; [reflexivity|]. cbn [a_len a_val]. rewrite !(P1 (i - 1)%nat) by lia. rewrite Nat.eqb_refl.
    split; [unfold turn; eqb; f_equal; f_equal; lia|]. do 4 (split; [assumption|]). split; [|split; [|split; [|split; [|split]]]].
    + intros j J. eqb. apply P1. lia.
    + intros j J. destruct (Nat.eqb_spec j (i - 1)) as [->|D]; [rewrite T; f_equal; lia|]. apply P2. lia.
    + intros j J. eqb. apply B1. exact J.
    + intros j J. destruct (Nat.eqb_spec j i) as [->|D]; [|eqb; apply B2; lia]. eqb. rewrite T. reflexivity.
    + intros j J. eqb. apply A1. exact J.
    + intros j J. destruct (Nat.eqb_spec j i) as [->|D]; [reflexivity|apply A2; lia].
  - replace (ns + (k - ns))%nat with k in H by lia. destruct r as [[[[p1 b1] a1] s1] t1]. destruct H as (-> & H). exists p1, b1, a1, s1. split; [exact E|exact H].
Qed.

(* the integrals for equal steps: alpha_j = 1 / (j + 1) *)
Definition lv (i q : nat) : R := level (fun _ => 1) (fun j => 1 / INR (S j)) i q.
Definition la (al : arr) (i q : nat) : R := level (fun _ => 1) (a_val al) i q.
Lemma lv_1 q : lv 1 q = 1 / ((INR q + 1) * (INR q + 2)).
Proof. unfold lv. cbn [level]. change (INR 1) with 1. rewrite S_INR. field. pose proof (pos_INR q). lra. Qed.
Lemma lv_next i q : lv (S i) q = lv i q - 1 / INR (S i) * lv i (S q).
Proof. unfold lv. cbn [level]. ring. Qed.
Lemma la_next al i q : la al (S i) q = la al i q - a_val al i * la al i (S q).
Proof. unfold la. cbn [level]. ring. Qed.

(* the levels the work array v must hold before a pass of order k with ns equal steps *)
Definition v_ready (k kold ns : nat) (vv : arr) : Prop :=
  ((k <= kold)%nat -> forall q, (q <= k + 1 - ns)%nat -> a_val vv q = lv (ns - 1) q) /\
  ((kold < k)%nat -> (forall q, (q < k + 1 - ns)%nat -> a_val vv q = lv (ns - 1) q) /\ forall j, (1 <= j <= ns - 2)%nat -> a_val vv (k - 1 - j) = lv j (k - 1 - j)).
(* block 1 *)
Lemma coefficients_run h k kold ns c : sized c -> (1 <= ns <= k)%nat -> (k <= 12)%nat -> exists c', coefficients h k kold ns c = Ok c' /\ sized c' /\
  (forall j, (j < ns - 1)%nat -> a_val (psi c') j = a_val (psi c) j) /\ (forall j, (ns - 1 <= j < k)%nat -> a_val (psi c') j = turn h ns (psi c) (j + 1)) /\
  (forall j, (j < ns - 1)%nat -> a_val (beta c') j = a_val (beta c) j) /\ a_val (beta c') (ns - 1) = 1 /\
  (forall j, (ns <= j < k)%nat -> a_val (beta c') j = a_val (beta c') (j - 1) * turn h ns (psi c) j / a_val (psi c) (j - 1)) /\
  (forall j, (j < ns - 1)%nat -> a_val (alpha c') j = a_val (alpha c) j) /\ a_val (alpha c') (ns - 1) = 1 / INR ns /\
  (forall j, (ns <= j < k)%nat -> a_val (alpha c') j = h / (a_val (psi c) (j - 1) + h)) /\
  (forall j, (j < ns \/ j < 2 \/ k < j)%nat -> a_val (g c') j = a_val (g c) j) /\
  (ns = 1%nat -> forall q, (q < k)%nat -> a_val (v c') q = lv 1 q) /\
  ((2 <= ns)%nat -> v_ready k kold ns (v c) -> (forall j, (j < ns - 1)%nat -> a_val (alpha c) j = 1 / INR (S j)) ->
     (forall q, (q < k + 1 - ns)%nat -> a_val (v c') q = lv ns q) /\
     ((k <= kold)%nat -> forall q, (k + 1 - ns <= q)%nat -> a_val (v c') q = a_val (v c) q) /\
     ((kold < k)%nat -> forall q, (k + 1 - ns <= q < k)%nat -> a_val (v c') q = lv (k - q) q)) /\
  ((ns = 1%nat \/ v_ready k kold ns (v c)) -> (forall j, (j < ns - 1)%nat -> a_val (alpha c) j = 1 / INR (S j)) -> a_val (g c) 1 = 1 / 2 ->
     forall j, (ns <= j <= k)%nat -> a_val (g c') j = la (alpha c') j 0).
Proof.
  intros [Zp Za Zb Zv Zw Zs Zg] N K. unfold coefficients. destruct (Nat.ltb_spec k ns); [lia|]. do 3 io.
  set (be0 := Arr (a_len (beta c)) _). set (al0 := Arr (a_len (alpha c)) _). set (sg0 := Arr (a_len (sig c)) _).
  destruct (old_loop h ns k (psi c) be0 al0 sg0 N K Zp Zb Za Zs) as (ps & be & al & sg & -> & Lp & Lb & La & Ls & P1 & P2 & B1 & B2 & A1 & A2). cbn [obind].
  rewrite wr_ok by lia. cbn [obind]. set (ps' := Arr (a_len ps) _).
  assert (Al : forall j, (j < ns - 1)%nat -> a_val al j = a_val (alpha c) j) by (intros j J; rewrite A1 by lia; subst al0; cbn [a_val]; eqb; reflexivity).
  assert (An : a_val al (ns - 1) = 1 / INR ns) by (rewrite A1 by lia; subst al0; cbn [a_val]; rewrite Nat.eqb_refl; reflexivity).
  (* v, w, g before the last loop *)
  match goal with |- context [obind ?e _] => assert (V : exists vv ww gg, e = Ok (vv, ww, gg) /\ a_len vv = 12%nat /\ a_len ww = 12%nat /\ a_len gg = 13%nat /\
    (forall j, (j < ns \/ j < 2 \/ k < j)%nat -> a_val gg j = a_val (g c) j) /\
    (ns = 1%nat -> forall q, (q < k)%nat -> a_val vv q = lv 1 q) /\
    ((2 <= ns)%nat -> v_ready k kold ns (v c) -> (forall j, (j < ns - 1)%nat -> a_val (alpha c) j = 1 / INR (S j)) ->
      (forall q, (q < k + 1 - ns)%nat -> a_val vv q = lv ns q) /\
      ((k <= kold)%nat -> forall q, (k + 1 - ns <= q)%nat -> a_val vv q = a_val (v c) q) /\
      ((kold < k)%nat -> forall q, (k + 1 - ns <= q < k)%nat -> a_val vv q = lv (k - q) q)) /\
    ((ns = 1%nat \/ v_ready k kold ns (v c)) -> (forall j, (j < ns - 1)%nat -> a_val (alpha c) j = 1 / INR (S j)) -> a_val (g c) 1 = 1 / 2 ->
      (forall q, (q < k + 1 - ns)%nat -> a_val ww q = la al ns q) /\ a_val gg ns = la al ns 0)) end.
  { destruct (Nat.leb_spec ns 1) as [L1|L1].
    - assert (ns = 1)%nat as -> by lia. destruct (fresh_loop k (v c) ltac:(lia)) as (vv & -> & Lv & Vv). cbn [obind]. destruct (copy_loop k vv (w c) ltac:(lia) ltac:(lia)) as (ww & -> & Lw & Vw). cbn [obind].
      exists vv, ww, (g c). split; [reflexivity|]. split; [congruence|]. split; [congruence|]. split; [exact Zg|]. split; [reflexivity|]. split; [intros _ q Q; rewrite lv_1; apply Vv, Q|]. split; [intros; lia|].
      intros _ _ G1. assert (W1 : forall q, la al 1 q = lv 1 q) by (intros q; unfold la, lv; cbn [level]; change (1 - 1)%nat with 0%nat in An; rewrite An; reflexivity).
      split; [intros q Q; rewrite W1, lv_1, Vw, Vv by lia; reflexivity|]. rewrite W1, lv_1, G1. cbn [INR]. field.
    - (* equal steps before *)
      match goal with |- context [obind ?e _] => assert (D : exists vd, e = Ok vd /\ a_len vd = 12%nat /\
        (v_ready k kold ns (v c) -> (forall j, (j < ns - 1)%nat -> a_val (alpha c) j = 1 / INR (S j)) -> (forall q, (q <= k + 1 - ns)%nat -> a_val vd q = lv (ns - 1) q) /\
          ((k <= kold)%nat -> forall q, (k + 1 - ns <= q)%nat -> a_val vd q = a_val (v c) q) /\
          ((kold < k)%nat -> forall q, (k + 1 - ns <= q < k)%nat -> a_val vd q = lv (k - q) q))) end.
      { destruct (Nat.ltb_spec kold k) as [R|R].
        - destruct (diagonal_loop k ns al (v c) ltac:(lia) K La Zv) as (vd & -> & Ld & D1 & D2 & D3). exists vd. split; [reflexivity|]. split; [exact Ld|].
          intros (_ & (W1 & W2)%(fun f => f R)) Ha.
          assert (D : forall j, (j <= ns - 2)%nat -> a_val vd (k - 1 - j) = lv (S j) (k - 1 - j)).
          { induction j as [|j IH]; intros J.
            - rewrite Nat.sub_0_r, D1, lv_1. rewrite minus_INR by lia. cbn [INR]. f_equal. ring.
            - rewrite D2, W2 by lia. replace (k - S j)%nat with (k - 1 - j)%nat by lia. rewrite IH, Al, Ha by lia. rewrite (lv_next (S j)). do 2 f_equal. f_equal. lia. }
          split; [|split; [lia|]].
          + intros q Q. destruct (Nat.eq_dec q (k + 1 - ns)) as [->|]; [|rewrite D3 by lia; apply W1; lia].
            replace (k + 1 - ns)%nat with (k - 1 - (ns - 2))%nat by lia. rewrite D by lia. f_equal. lia.
          + intros _ q Q. replace q with (k - 1 - (k - 1 - q))%nat at 1 by lia. rewrite D by lia. f_equal; lia.
        - exists (v c). split; [reflexivity|]. split; [exact Zv|]. intros (W1%(fun f => f R) & _) _. split; [exact W1|]. split; [reflexivity|lia]. }
      destruct D as (vd & -> & Ld & D). cbn [obind]. io. destruct (less_loop (a_val al (ns - 1)) vd (k + 1 - ns)) as (vv & -> & Lv & Vv); [lia|]. cbn [obind].
      destruct (copy_loop (k + 1 - ns) vv (w c) ltac:(lia) ltac:(lia)) as (ww & -> & Lw & Vw). cbn [obind]. io. io.
      do 3 eexists. split; [reflexivity|]. cbn [a_len a_val]. split; [congruence|]. split; [congruence|]. split; [exact Zg|]. split; [intros j J; eqb; reflexivity|]. split; [lia|].
      assert (X : v_ready k kold ns (v c) -> (forall j, (j < ns - 1)%nat -> a_val (alpha c) j = 1 / INR (S j)) -> forall q, (q < k + 1 - ns)%nat -> a_val vv q = lv ns q).
      { intros W Ha q Q. destruct (D W Ha) as (D1 & _). rewrite Vv. destruct (Nat.ltb_spec q (k + 1 - ns)); [|lia]. rewrite !D1, An by lia.
        assert (Z : lv (S (ns - 1)) q = lv (ns - 1) q - 1 / INR (S (ns - 1)) * lv (ns - 1) (S q)) by apply lv_next. replace (S (ns - 1)) with ns in Z by lia. rewrite Z. reflexivity. }
      split.
      + intros _ W Ha. destruct (D W Ha) as (D1 & D2 & D3). split; [exact (X W Ha)|]. split; intros R q Q; rewrite Vv; (destruct (Nat.ltb_spec q (k + 1 - ns)); [lia|]); [apply D2|apply D3]; lia.
      + intros [W|W] Ha _; [lia|]. rewrite Nat.eqb_refl. assert (Y : forall q, lv ns q = la al ns q).
        { intros q. unfold lv, la. apply level_ext. intros j J. split; [reflexivity|]. destruct (Nat.eq_dec j (ns - 1)) as [->|]; [rewrite An; do 2 f_equal; lia|rewrite Al, Ha by lia; reflexivity]. }
        split; [intros q Q; rewrite <- Y, Vw by lia; apply X; assumption|]. rewrite <- Y, Vw by lia. apply X; (assumption || lia). }
  destruct V as (vv & ww & gg & -> & Lv & Lw & Lg & G1 & V1 & V2 & WG). cbn [obind].
  match goal with |- context [iterate (ns + 2) _ ?F _] => destruct (iterate_inv (fun i (s : arr * arr) => a_len (fst s) = 12%nat /\ a_len (snd s) = 13%nat /\
     (forall j, (j < ns \/ j < 2 \/ k < j)%nat -> a_val (snd s) j = a_val (g c) j) /\
     ((ns = 1%nat \/ v_ready k kold ns (v c)) -> (forall j, (j < ns - 1)%nat -> a_val (alpha c) j = 1 / INR (S j)) -> a_val (g c) 1 = 1 / 2 ->
       (forall q, (q < k + 3 - i)%nat -> a_val (fst s) q = la al (i - 2) q) /\ forall j, (ns <= j < i - 1)%nat -> a_val (snd s) j = la al j 0)) F (k + 1 - (ns + 1)) (ns + 2) (ww, gg)) as ((w' & g') & E & Lw' & Lg' & G' & W') end.
  - cbn [fst snd]. split; [exact Lw|]. split; [exact Lg|]. split; [exact G1|]. intros H1 H2 H3. destruct (WG H1 H2 H3) as (X1 & X2). split.
    + intros q Q. replace (ns + 2 - 2)%nat with ns by lia. apply X1. lia.
    + intros j J. replace j with ns by lia. exact X2.
  - intros i (w1 & g1) B (H1 & H2 & H3 & H4). cbn [fst snd] in *. io. destruct (less_loop (a_val al (i - 2)) w1 (k + 2 - i)) as (w2 & -> & Lw2 & Vw2); [lia|]. cbn [obind]. io. io.
    eexists. split; [reflexivity|]. cbn [fst snd a_len a_val]. split; [congruence|]. split; [exact H2|]. split; [intros j J; eqb; apply H3, J|]. intros X1 X2 X3. destruct (H4 X1 X2 X3) as (Y1 & Y2).
    assert (Q2 : forall q, (q < k + 3 - S i)%nat -> a_val w2 q = la al (S i - 2) q).
    { intros q Q. rewrite Vw2. destruct (Nat.ltb_spec q (k + 2 - i)); [|lia]. rewrite !Y1 by lia. replace (S i - 2)%nat with (S (i - 2)) by lia. rewrite (la_next al (i - 2)). reflexivity. }
    split; [exact Q2|]. intros j J. destruct (Nat.eqb_spec j (i - 1)) as [->|]; [rewrite Q2 by lia; f_equal; lia|apply Y2; lia].
  - cbn [fst snd] in *. rewrite E. cbn [obind fst snd]. eexists. split; [reflexivity|]. cbn [psi alpha beta v w sig g]. split; [constructor; cbn [a_len]; assumption|].
    split; [intros j J; subst ps'; cbn [a_val]; eqb; apply P1; lia|].
    split. { intros j J. subst ps'. cbn [a_val]. destruct (Nat.eqb_spec j (k - 1)) as [->|]; [f_equal; lia|apply P2; lia]. }
    split; [intros j J; rewrite B1 by lia; subst be0; cbn [a_val]; eqb; reflexivity|].
    split; [rewrite B1 by lia; subst be0; cbn [a_val]; rewrite Nat.eqb_refl; reflexivity|].
    split; [exact B2|]. split; [exact Al|]. split; [exact An|]. split; [exact A2|]. split; [exact G'|]. split; [exact V1|]. split; [exact V2|].
    intros X1 X2 X3 j J. destruct (W' X1 X2 X3) as (_ & Y). apply Y. lia.
Qed.

(* ---- the differences ---- *)
Lemma star_run k ns be ph : (k <= 12)%nat -> a_len be = 12%nat -> exists ph', star k ns be ph = Ok ph' /\
  forall i c, ph' i c = if Nat.leb ns i && Nat.ltb i k then a_val be i * ph i c else ph i c.
Proof.
  intros K Lb. unfold star. destruct (iterate_inv (fun i (p : cols) => forall j c, p j c = if Nat.leb ns j && Nat.ltb j (Nat.min i k) then a_val be j * ph j c else ph j c)
    (fun i ph => do b <- rd be i; do u <- col ph i; setcol ph i (vscale b u)) (k - ns) ns ph) as (p & E & H).
  - intros j c. destruct (Nat.leb_spec ns j), (Nat.ltb_spec j (Nat.min ns k)); cbn [andb]; try reflexivity. lia.
  - intros i p B H. do 3 io. eexists. split; [reflexivity|]. intros j c. cbv beta. destruct (Nat.eqb_spec j i) as [->|N].
    + unfold vscale. cbv beta iota. rewrite H. destruct (Nat.leb_spec ns i), (Nat.ltb_spec i (Nat.min i k)), (Nat.ltb_spec i (Nat.min (S i) k)); cbn [andb]; try lia. reflexivity.
    + rewrite H. destruct (Nat.leb_spec ns j), (Nat.ltb_spec j (Nat.min i k)), (Nat.ltb_spec j (Nat.min (S i) k)); cbn [andb]; try lia; reflexivity.
  - exists p. split; [exact E|]. intros i c. rewrite H. destruct (Nat.leb_spec ns i), (Nat.ltb_spec i k), (Nat.ltb_spec i (Nat.min (ns + (k - ns)) k)); cbn [andb]; try lia; reflexivity.
Qed.
Lemma predict_run k gg ph : (1 <= k <= 12)%nat -> a_len gg = 13%nat -> exists p ph', predict k gg ph = Ok (p, ph') /\
  (forall c, p c = sumn k (fun i => a_val gg i * ph i c)) /\ (forall i c, (i < k)%nat -> ph' i c = ph i c + ph' (S i) c) /\ (forall c, ph' k c = 0) /\
  (forall c, ph' (S k) c = ph k c) /\ (forall i c, (S k < i)%nat -> ph' i c = ph i c).
Proof.
  intros K Lg. unfold predict. do 3 io. set (p0 := fun i : nat => if Nat.eqb i k then vzero else _).
  assert (S0 : forall j c, (j <= k)%nat -> sumn k (fun i => a_val gg i * ph i c) = sumn (k - j) (fun i => a_val gg i * ph i c) + sumn j (fun i => a_val gg (k - 1 - i) * ph (k - 1 - i)%nat c)).
  { intros j c. induction j as [|j IH]; intros J; [rewrite Nat.sub_0_r; cbn [sumn]; ring|]. rewrite IH by lia. replace (k - j)%nat with (S (k - S j)) by lia. cbn [sumn]. replace (k - 1 - j)%nat with (k - S j)%nat by lia. ring. }
  match goal with |- context [iterate 0 k ?F _] => destruct (iterate_inv (fun j (s : vec * cols) => (forall c, fst s c = sumn j (fun i => a_val gg (k - 1 - i) * ph (k - 1 - i)%nat c)) /\
    (forall i c, (k - j <= i < k)%nat -> snd s i c = ph i c + snd s (S i) c) /\ (forall i c, (i < k - j)%nat -> snd s i c = ph i c) /\ (forall c, snd s k c = 0) /\ (forall c, snd s (S k) c = ph k c) /\ (forall i c, (S k < i)%nat -> snd s i c = ph i c)) F k 0 (vzero, p0)) as ((p & ph') & E & H1 & H2 & H3 & H4 & H5 & H6) end.
  - subst p0. cbn [fst snd sumn]. split; [reflexivity|]. split; [lia|]. split; [intros i c I; eqb; reflexivity|]. split; [intros c; rewrite Nat.eqb_refl; reflexivity|]. split; [intros c; eqb; reflexivity|intros i c I; eqb; reflexivity].
  - intros j (p & q) B (H1 & H2 & H3 & H4 & H5 & H6). cbn [fst snd] in *. do 4 io. eexists. split; [reflexivity|]. cbn [fst snd sumn]. split; [|split; [|split; [|split; [|split]]]].
    + intros c. unfold vadd, vscale. rewrite H1, H3 by lia. reflexivity.
    + intros i c I. cbv beta. destruct (Nat.eqb_spec i (k - 1 - j)) as [->|N]; eqb.
      * unfold vadd. rewrite H3 by lia. rewrite Nat.add_1_r. reflexivity.
      * apply H2. lia.
    + intros i c I. eqb. apply H3. lia.
    + intros c. eqb. apply H4.
    + intros c. eqb. apply H5.
    + intros i c I. eqb. apply H6, I.
  - cbn [fst snd] in *. rewrite Nat.add_0_l in *. exists p, ph'. split; [exact E|]. split; [intros c; rewrite H1, (S0 k c) by lia; rewrite Nat.sub_diag; cbn [sumn]; ring|]. split; [intros i c I; apply H2; lia|]. split; [exact H4|split; [exact H5|exact H6]].
Qed.
Lemma restore_run k h c ph : sized c -> (1 <= k <= 12)%nat -> exists c' ph', restore k h c ph = Ok (c', ph') /\ sized c' /\ alpha c' = alpha c /\ beta c' = beta c /\ v c' = v c /\ g c' = g c /\
  (forall i, (i < k - 1)%nat -> a_val (psi c') i = a_val (psi c) (S i) - h) /\ (forall i, (k - 1 <= i)%nat -> a_val (psi c') i = a_val (psi c) i) /\
  (forall i x, (i < k)%nat -> ph' i x = 1 / a_val (beta c) i * (ph i x - ph (S i) x)).
Proof.
  intros [Zp Za Zb Zv Zw Zs Zg] K. unfold restore.
  destruct (iterate_inv (fun j (p : cols) => (forall i x, (i < j)%nat -> p i x = 1 / a_val (beta c) i * (ph i x - ph (S i) x)) /\ forall i x, (j <= i)%nat -> p i x = ph i x)
    (fun i ph => do b <- rd (beta c) i; do a <- col ph i; do u <- col ph (i + 1); setcol ph i (vscale (1 / b) (vsub a u))) k 0 ph) as (p & -> & H1 & _).
  { split; [lia|reflexivity]. }
  { intros i p B (H1 & H2). do 4 io. eexists. split; [reflexivity|]. split; intros j x J; cbv beta; destruct (Nat.eqb_spec j i) as [->|N]; try lia; [|apply H1; lia|apply H2; lia].
    unfold vscale, vsub. cbv beta iota. rewrite !H2 by lia. rewrite Nat.add_1_r. reflexivity. }
  cbn [obind].
  destruct (iterate_inv (fun j ps => a_len ps = 12%nat /\ (forall i, (i < j - 1)%nat -> a_val ps i = a_val (psi c) (S i) - h) /\ (forall i, (j - 1 <= i)%nat -> a_val ps i = a_val (psi c) i))
    (fun i ps => do q <- rd ps i; wr ps (i - 1) (q - h)) (k - 1) 1 (psi c)) as (ps & -> & L & P1 & P2).
  { split; [exact Zp|]. split; [lia|reflexivity]. }
  { intros i q B (L & P1 & P2). do 2 io. eexists. split; [reflexivity|]. cbn [a_len a_val]. split; [exact L|]. split; intros j J; destruct (Nat.eqb_spec j (i - 1)) as [->|N]; try lia; [|apply P1; lia|apply P2; lia].
    rewrite P2 by lia. do 2 f_equal. lia. }
  cbn [obind]. eexists _, p. split; [reflexivity|]. cbn [psi alpha beta v w sig g]. split; [constructor; assumption|]. do 4 (split; [reflexivity|]). split; [intros i I; apply P1; lia|]. split; [intros i I; apply P2; lia|]. intros i x I. apply H1. lia.
Qed.

(* ---- one pass ---- *)
Lemma count_steps_pos s : (1 <= count_steps s)%nat.
Proof. unfold count_steps. destruct (Req_EM_T (s_h s) (s_hold s)); [destruct (Nat.leb_spec (s_ns s) (s_kold s)); lia|destruct (Nat.leb_spec 0 (s_kold s)); lia]. Qed.
(* the coefficients of a pass *)
Definition new_coef (s : ode) : outcome coef := coefficients (s_h s) (s_k s) (s_kold s) (count_steps s) (s_co s).
Lemma new_coef_ok s : sized (s_co s) -> (1 <= s_k s <= 12)%nat -> exists c, new_coef s = Ok c /\ sized c.
Proof.
  intros Z K. unfold new_coef. pose proof (count_steps_pos s). destruct (Nat.le_gt_cases (count_steps s) (s_k s)) as [L|L].
  - destruct (coefficients_run (s_h s) (s_k s) (s_kold s) (count_steps s) (s_co s) Z ltac:(lia) ltac:(lia)) as (c & E & Z' & _). exists c. split; assumption.
  - exists (s_co s). unfold coefficients. destruct (Nat.ltb_spec (s_k s) (count_steps s)); [|lia]. split; [reflexivity|exact Z].
Qed.
(* what a pass leaves, whatever it decides *)
Record passed (f : rhs) (s : ode) (c : coef) (ph : cols) (p yp : vec) : Prop := Passed {
  q_coef : new_coef s = Ok c; q_sized : sized c;
  q_p : forall x, p x = s_yy s x + s_h s * sumn (s_k s) (fun i => a_val (g c) i * (if Nat.leb (count_steps s) i then a_val (beta c) i * s_phi s i x else s_phi s i x));
  q_phi : forall i x, (i < s_k s)%nat -> ph i x = (if Nat.leb (count_steps s) i then a_val (beta c) i * s_phi s i x else s_phi s i x) + ph (S i) x;
  q_zero : forall x, ph (s_k s) x = 0; q_last : forall x, ph (S (s_k s)) x = s_phi s (s_k s) x;
  q_yp : yp = f (s_x s + s_h s) p }.
Lemma rle_true a b : rle a b = true <-> a <= b.
Proof. unfold rle, rgt. destruct (Rlt_dec b a); cbn [negb]; split; intros; try discriminate; try reflexivity; lra. Qed.
Lemma rle_false a b : rle a b = false <-> b < a.
Proof. unfold rle, rgt. destruct (Rlt_dec b a); cbn [negb]; split; intros; try discriminate; try reflexivity; lra. Qed.
(* the local error the test looks at *)
Definition local_error (n : nat) (s : ode) (c : coef) (ph : cols) (yp : vec) : R := Rabs (s_h s) * sqrt (norm2 n (vdiv (vsub yp (ph O)) (s_wt s))) * (a_val (g c) (s_k s - 1) - a_val (g c) (s_k s)).
Lemma attempt_cases f n eps ifail s : sized (s_co s) -> (1 <= s_k s <= 12)%nat -> s_nornd s = true -> exists c ph p yp, passed f s c ph p yp /\
  exists erk knew e1, (1 <= knew <= s_k s)%nat /\
  ((local_error n s c ph yp <= eps /\ attempt f n eps ifail s = Ok (Accepted (Ode (s_x s + s_h s) (s_h s) (s_hold s) (s_k s) (s_kold s) (count_steps s) (s_start s) (s_phase1 s) true (s_yy s) yp p (s_wt s) ph c) knew e1 erk)) \/
   (eps < local_error n s c ph yp /\ exists t2 k' c' ph', restore (s_k s) (s_h s) c ph = Ok (c', ph') /\ (1 <= k' <= s_k s)%nat /\
      ((3 < ifail + 1)%Z -> t2 = 1 / 2 /\ k' = knew) /\ ((ifail + 1 = 3)%Z -> t2 = 1 / 2 /\ k' = 1%nat) /\
      ((ifail + 1 < 3)%Z -> k' = 1%nat /\ t2 = if rgt (0.25 * erk) (0.5 * eps) then sqrt (0.5 * eps / erk) else 1 / 2) /\
      ((fouru * Rabs (s_x s) <= Rabs (t2 * s_h s) /\ attempt f n eps ifail s = Ok (Again (Ode (s_x s) (t2 * s_h s) (s_hold s) k' (s_kold s) (count_steps s) (s_start s) false true (s_yy s) yp p (s_wt s) ph' c') (ifail + 1))) \/
       (Rabs (t2 * s_h s) < fouru * Rabs (s_x s) /\ attempt f n eps ifail s = Ok (Crashed (Ode (s_x s) (copysign (fouru * Rabs (s_x s)) (t2 * s_h s)) (s_hold s) k' (s_kold s) (count_steps s) (s_start s) false true (s_yy s) yp p (s_wt s) ph' c') (eps + eps)))))).
Proof.
  intros Z K Nr. unfold attempt. destruct (new_coef_ok s Z K) as (c & E & Zc). unfold new_coef in E. rewrite E. cbn [obind]. pose proof Zc as [Zp Za Zb Zv Zw Zs Zg].
  destruct (star_run (s_k s) (count_steps s) (beta c) (s_phi s) ltac:(lia) Zb) as (ph1 & -> & H1). cbn [obind].
  destruct (predict_run (s_k s) (g c) ph1 K Zg) as (q & ph & -> & H2 & H3 & H4 & H5 & H6). cbn [obind]. rewrite Nr. cbn [negb].
  set (p := vadd (s_yy s) (vscale (s_h s) q)). set (yp := f (s_x s + s_h s) p). rewrite (col_ok ph 0) by lia. cbn [obind].
  assert (P : passed f s c ph p yp).
  { constructor; [exact E|exact Zc| | |exact H4| |reflexivity].
    - intros x. unfold p, vadd, vscale. rewrite H2. do 2 f_equal. apply sumn_ext. intros i I. rewrite H1. destruct (Nat.leb_spec (count_steps s) i), (Nat.ltb_spec i (s_k s)); cbn [andb]; try lia; reflexivity.
    - intros i x I. rewrite H3, H1 by lia. destruct (Nat.leb_spec (count_steps s) i), (Nat.ltb_spec i (s_k s)); cbn [andb]; try lia; reflexivity.
    - intros x. rewrite H5, H1. destruct (Nat.leb_spec (count_steps s) (s_k s)), (Nat.ltb_spec (s_k s) (s_k s)); cbn [andb]; try lia; reflexivity. }
  exists c, ph, p, yp. split; [exact P|].
  match goal with |- context [obind ?e _] => assert (M1 : exists e1, e = Ok e1) end.
  { destruct (Nat.leb_spec 2 (s_k s)); [|eexists; reflexivity]. rewrite col_ok by lia. cbn [obind]. rewrite rd_ok by lia. cbn [obind]. rewrite rd_ok by (cbn [gstr a_len]; lia). cbn [obind]. eexists. reflexivity. }
  destruct M1 as (e1 & ->). cbn [obind].
  match goal with |- context [obind ?e _] => assert (M2 : exists e2, e = Ok e2) end.
  { destruct (Nat.leb_spec 3 (s_k s)); [|eexists; reflexivity]. rewrite col_ok by lia. cbn [obind]. rewrite rd_ok by lia. cbn [obind]. rewrite rd_ok by (cbn [gstr a_len]; lia). cbn [obind]. eexists. reflexivity. }
  destruct M2 as (e2 & ->). cbn [obind].
  rewrite (rd_ok (g c) (s_k s - 1)) by lia. cbn [obind]. rewrite (rd_ok (g c) (s_k s)) by lia. cbn [obind]. rewrite (rd_ok (sig c) (s_k s)) by lia. cbn [obind]. rewrite (rd_ok gstr) by (cbn [gstr a_len]; lia). cbn [obind].
  set (erk := Rabs (s_h s) * sqrt _ * a_val (sig c) (s_k s) * _).
  set (knew := if Nat.leb 3 (s_k s) then _ else _). exists erk, knew, e1. split.
  { subst knew. destruct (Nat.leb_spec 3 (s_k s)); [destruct (rle _ _); lia|]. destruct (Nat.eqb_spec (s_k s) 2); [destruct (rle _ _); lia|lia]. }
  assert (KN : (1 <= knew <= s_k s)%nat).
  { subst knew. destruct (Nat.leb_spec 3 (s_k s)); [destruct (rle _ _); lia|]. destruct (Nat.eqb_spec (s_k s) 2); [destruct (rle _ _); lia|lia]. }
  fold (local_error n s c ph yp). destruct (rle (local_error n s c ph yp) eps) eqn:R.
  - left. apply rle_true in R. split; [exact R|reflexivity].
  - right. apply rle_false in R. split; [exact R|]. destruct (restore_run (s_k s) (s_h s) c ph Zc K) as (c' & ph' & Er & _). rewrite Er. cbn [obind fst snd].
    set (t2 := if Z.ltb _ 3 then _ else _). set (k' := if Z.leb _ 3 then _ else _). exists t2, k', c', ph'. split; [reflexivity|].
    assert (Hf : 0.5 = 1 / 2) by lra.
    split; [subst k'; destruct (Z.leb_spec (ifail + 1) 3); lia|].
    split; [intros I; subst t2 k'; destruct (Z.ltb_spec (ifail + 1) 3), (Z.leb_spec (ifail + 1) 3); try lia; auto|].
    split; [intros I; subst t2 k'; destruct (Z.ltb_spec (ifail + 1) 3), (Z.leb_spec (ifail + 1) 3); try lia; auto|].
    split; [intros I; subst t2 k'; destruct (Z.ltb_spec (ifail + 1) 3), (Z.leb_spec (ifail + 1) 3); try lia; rewrite <- Hf; auto|].
    destruct (rle (fouru * Rabs (s_x s)) (Rabs (t2 * s_h s))) eqn:C; [left; apply rle_true in C|right; apply rle_false in C]; (split; [exact C|reflexivity]).
Qed.
(* block 4 *)
Lemma settle_run f n eps s knew e1 erk : sized (s_co s) -> (1 <= s_k s <= 12)%nat -> (1 <= knew)%nat -> exists s', settle f n eps s knew e1 erk = Ok s' /\
  s_x s' = s_x s /\ s_hold s' = s_h s /\ (1 <= s_k s' <= 12)%nat /\ (s_k s' <= s_k s + 1)%nat /\ s_kold s' = s_k s /\ s_ns s' = s_ns s /\ s_start s' = s_start s /\ s_nornd s' = true /\ s_wt s' = s_wt s /\ s_co s' = s_co s /\
  (s_h s <> 0 -> 0 < s_h s * s_h s') /\
  (forall x, s_yy s' x = s_p s x + s_h s * a_val (g (s_co s)) (s_k s) * (s_yp s x - s_phi s O x)) /\ s_yp s' = f (s_x s) (s_yy s') /\
  (forall x, s_phi s' (s_k s) x = s_yp s' x - s_phi s O x) /\ (forall i x, (i < s_k s)%nat -> s_phi s' i x = s_phi s i x + (s_yp s' x - s_phi s O x)).
Proof.
  intros [Zp Za Zb Zv Zw Zs Zg] K KN. unfold settle. rewrite (rd_ok (g (s_co s))) by lia. cbn [obind]. rewrite (col_ok (s_phi s) 0) by lia. cbn [obind].
  set (yy := vadd _ _). set (yp := f (s_x s) yy). rewrite setcol_ok by lia. cbn [obind]. rewrite col_ok by lia. cbn [obind]. rewrite col_ok by lia. cbn [obind]. rewrite setcol_ok by lia. cbn [obind].
  set (d := vsub yp (s_phi s O)). rewrite Nat.eqb_refl. set (ph2 := fun i : nat => if Nat.eqb i (s_k s + 1) then _ else _).
  destruct (iterate_inv (fun j (q : cols) => (forall i x, (i < j)%nat -> q i x = s_phi s i x + d x) /\ (forall i x, (j <= i < s_k s)%nat -> q i x = s_phi s i x) /\ (forall x, q (s_k s) x = d x))
    (fun i ph => do u <- col ph i; do a <- col ph (s_k s); setcol ph i (vadd u a)) (s_k s) 0 ph2) as (ph & -> & H1 & _ & H3).
  { split; [lia|]. subst ph2. cbn beta. split; [intros i x I; eqb; reflexivity|intros x; eqb; reflexivity]. }
  { intros i q B (H1 & H2 & H3). do 3 io. eexists. split; [reflexivity|]. split; [|split].
    - intros j x J. cbv beta. destruct (Nat.eqb_spec j i) as [->|N]; [unfold vadd; cbv beta iota; rewrite H2, H3 by lia; reflexivity|apply H1; lia].
    - intros j x J. eqb. apply H2. lia.
    - intros x. eqb. apply H3. }
  cbn [obind]. set (phase1 := s_phase1 s && _).
  match goal with |- context [obind ?e _] => assert (M : exists deg erkp1, e = Ok (deg, erkp1) /\ (deg = (-1)%Z \/ deg = 0%Z \/ deg = 1%Z) /\ (deg = (-1)%Z -> (2 <= s_k s)%nat) /\ (deg = 1%Z -> (s_k s <= 11)%nat)) end.
  { destruct phase1 eqn:P1.
    - do 2 eexists. split; [reflexivity|]. split; [auto|]. split; [discriminate|]. intros _. subst phase1. apply andb_true_iff in P1. destruct P1 as (_ & P1). apply negb_true_iff, orb_false_iff in P1. destruct P1 as (_ & P1). apply Nat.eqb_neq in P1. lia.
    - destruct (Nat.eqb_spec (S knew) (s_k s)); [do 2 eexists; split; [reflexivity|]; split; [auto|]; split; [lia|discriminate]|].
      destruct (Nat.ltb_spec (s_ns s) (s_k s + 1)); [do 2 eexists; split; [reflexivity|]; split; [auto|]; split; discriminate|].
      rewrite col_ok by lia. cbn [obind]. rewrite rd_ok by (cbn [gstr a_len]; lia). cbn [obind]. do 2 eexists. split; [reflexivity|].
      destruct (Nat.ltb_spec 1 (s_k s)).
      + destruct (rle e1 _); [split; [auto|split; [lia|discriminate]]|]. destruct (Nat.eqb_spec (s_k s) 12); [rewrite orb_true_r|rewrite orb_false_r]; [split; [auto|split; discriminate]|]. destruct (rle erk _); (split; [auto|split; [discriminate|]]); [discriminate|lia].
      + destruct (rle _ _); (split; [auto|split; [discriminate|]]); [discriminate|lia]. }
  destruct M as (deg & erkp1 & -> & D1 & D2 & D3). cbn [obind].
  set (ke := if Z.eqb deg (-1) then _ else _). destruct ke as (k' & erk') eqn:KE.
  assert (K' : (1 <= k' <= 12)%nat /\ (k' <= s_k s + 1)%nat).
  { subst ke. destruct (Z.eqb_spec deg (-1)); [injection KE as <- <-; specialize (D2 ltac:(assumption)); lia|]. destruct (Z.eqb_spec deg 1); [injection KE as <- <-; specialize (D3 ltac:(assumption)); lia|injection KE as <- <-; lia]. }
  eexists. split; [reflexivity|]. cbn [s_x s_h s_hold s_k s_kold s_ns s_start s_phase1 s_nornd s_yy s_yp s_p s_wt s_phi s_co].
  do 2 (split; [reflexivity|]). split; [lia|]. split; [lia|]. do 6 (split; [reflexivity|]). split; [|split; [|split; [reflexivity|split]]].
  - intros Hh. pose proof (Rsqr_pos_lt _ Hh) as Sq. unfold Rsqr in Sq. clearbody phase1. destruct (phase1 || _); [lra|]. destruct (rgt _ _); [|lra].
    assert (A : 0 < Rabs (s_h s)) by (apply Rabs_pos_lt; exact Hh).
    set (m := Rmax (Rabs (s_h s) * _) _).
    assert (B : 0 < m).
    { subst m. eapply Rlt_le_trans; [|apply Rmax_l]. apply Rmult_lt_0_compat; [exact A|]. eapply Rlt_le_trans; [|apply Rmax_l]. lra. }
    unfold copysign. rewrite (Rabs_right m) by lra. destruct (Rlt_dec (s_h s) 0); nra.
  - intros x. unfold yy, vadd, vscale, vsub. reflexivity.
  - intros x. rewrite H3. reflexivity.
  - intros i x I. rewrite H1 by lia. reflexivity.
Qed.

(* ---- interpolation ---- *)
Definition gam (s : ode) (hi : R) (j : nat) : R := (hi + match j with O => 0 | S i => a_val (psi (s_co s)) i end) / a_val (psi (s_co s)) j.
Definition eta (s : ode) (hi : R) (j : nat) : R := hi / a_val (psi (s_co s)) j.
Lemma blend_loop gm et a m : (m < a_len a)%nat -> exists a', iterate 0 m (fun i a => do x <- rd a i; do y <- rd a (i + 1); wr a i (gm * x - et * y)) a = Ok a' /\ a_len a' = a_len a /\
  forall q, a_val a' q = if Nat.ltb q m then gm * a_val a q - et * a_val a (S q) else a_val a q.
Proof.
  intros L. destruct (iterate_inv (fun i b => a_len b = a_len a /\ forall q, a_val b q = if Nat.ltb q i then gm * a_val a q - et * a_val a (S q) else a_val a q) (fun i a => do x <- rd a i; do y <- rd a (i + 1); wr a i (gm * x - et * y)) m 0 a) as (b & E & H).
  - split; [reflexivity|]. intros q. reflexivity.
  - intros i b B (Hl & Hv). io. io. io. eexists. split; [reflexivity|]. cbn [a_len a_val]. split; [exact Hl|]. intros q. rewrite !Hv.
    destruct (Nat.eqb_spec q i) as [->|N]; [|destruct (Nat.ltb_spec q i), (Nat.ltb_spec q (S i)); try lia; reflexivity].
    destruct (Nat.ltb_spec i i); [lia|]. destruct (Nat.ltb_spec (i + 1) i); [lia|]. destruct (Nat.ltb_spec i (S i)); [|lia]. rewrite Nat.add_1_r. reflexivity.
  - exists b. rewrite Nat.add_0_l in H. split; [exact E|exact H].
Qed.
Lemma intrp_run s xout junk : sized (s_co s) -> (s_kold s <= 12)%nat -> exists yo ypo, intrp s xout junk = Ok (yo, ypo) /\
  (forall x, yo x = s_yy s x + (xout - s_x s) * sumn (S (s_kold s)) (fun i => level (gam s (xout - s_x s)) (eta s (xout - s_x s)) i 0 * s_phi s i x)) /\
  (forall x, ypo x = sumn (S (s_kold s)) (fun i => factors (gam s (xout - s_x s)) (eta s (xout - s_x s)) i 0 * s_phi s i x)).
Proof.
  intros [Zp Za Zb Zv Zw Zs Zg] K. unfold intrp. set (hi := xout - s_x s). rewrite !wr_ok by (cbn [a_len]; lia). cbn [obind a_len a_val]. replace (s_kold s + 1)%nat with (S (s_kold s)) by lia. set (ki := S (s_kold s)).
  destruct (iterate_inv (fun i a => a_len a = 13%nat /\ forall q, (q < i)%nat -> a_val a q = 1 / (INR q + 1)) (fun i a => wr a i (1 / (INR i + 1))) ki 0 (Arr 13 junk)) as (w0 & -> & L0 & W0).
  { split; [reflexivity|lia]. }
  { intros i a B (H1 & H2). unfold ki in B. io. eexists. split; [reflexivity|]. cbn [a_len a_val]. split; [exact H1|]. intros q Q. destruct (Nat.eqb_spec q i) as [->|]; [reflexivity|apply H2; lia]. }
  cbn [obind].
  match goal with |- context [iterate 1 _ ?G (?g0, _, ?r0, 0)] => destruct (iterate_inv (fun j (s' : arr * arr * arr * R) => let '(gg, ww, rho, term) := s' in a_len gg = 13%nat /\ a_len ww = 13%nat /\ a_len rho = 13%nat /\
     (forall q, (q <= ki - j)%nat -> a_val ww q = level (gam s hi) (eta s hi) (j - 1) q) /\ (forall i, (i < j)%nat -> a_val gg i = level (gam s hi) (eta s hi) i 0 /\ a_val rho i = factors (gam s hi) (eta s hi) i 0) /\
     term = match (j - 1)%nat with O => 0 | S i => a_val (psi (s_co s)) i end) G (ki - 1) 1 (g0, w0, r0, 0)) as ([[[gg ww] rho] term] & -> & Lg & _ & Lr & _ & H & _) end.
  { cbn [a_len a_val]. split; [reflexivity|]. split; [exact L0|]. split; [reflexivity|]. split; [intros q Q; rewrite W0 by (unfold ki in *; lia); reflexivity|]. split; [|reflexivity].
    intros i Li. assert (i = O) as -> by lia. cbn [Nat.eqb level INR]. unfold factors. cbn [prodn]. split; [field|reflexivity]. }
  { intros j [[[gg ww] rho] term] B (Lg & Lw & Lr & Hw & Hg & Ht). unfold ki in B. rewrite rd_ok by lia. cbn [obind].
    destruct (blend_loop ((hi + term) / a_val (psi (s_co s)) (j - 1)) (hi / a_val (psi (s_co s)) (j - 1)) ww (ki - j) ltac:(unfold ki; lia)) as (w1 & -> & L1 & W1). cbn [obind]. do 4 io.
    eexists. split; [reflexivity|]. cbn beta iota. cbn [a_len a_val].
    assert (C : (hi + term) / a_val (psi (s_co s)) (j - 1) = gam s hi (j - 1)) by (rewrite Ht; reflexivity).
    assert (W2 : forall q, (q < ki - j)%nat -> a_val w1 q = level (gam s hi) (eta s hi) j q).
    { intros q Q. rewrite W1. destruct (Nat.ltb_spec q (ki - j)); [|lia]. rewrite !Hw by lia. rewrite C. replace (level (gam s hi) (eta s hi) j q) with (level (gam s hi) (eta s hi) (S (j - 1)) q) by (f_equal; lia). reflexivity. }
    split; [exact Lg|]. split; [congruence|]. split; [exact Lr|]. split; [intros q Q; rewrite W2 by lia; f_equal; lia|]. split; [|replace (S j - 1)%nat with (S (j - 1)) by lia; reflexivity].
    intros i Li. destruct (Nat.eqb_spec i j) as [->|Ne]; [|apply Hg; lia]. split; [apply W2; unfold ki; lia|]. rewrite (proj2 (Hg (j - 1)%nat ltac:(lia))), C. replace j with (S (j - 1)) at 3 by lia. unfold factors. cbn [prodn]. ring. }
  replace (1 + (ki - 1))%nat with ki in H by (unfold ki; lia). cbn beta iota. cbn [obind].
  match goal with |- context [iterate 0 ki ?G (vzero, vzero)] => destruct (iterate_inv (fun j (s' : vec * vec) => (forall x, fst s' x = sumn j (fun i => level (gam s hi) (eta s hi) (ki - 1 - i) 0 * s_phi s (ki - 1 - i)%nat x)) /\
     forall x, snd s' x = sumn j (fun i => factors (gam s hi) (eta s hi) (ki - 1 - i) 0 * s_phi s (ki - 1 - i)%nat x)) G ki 0 (vzero, vzero)) as ((yo & ypo) & -> & H1 & H2) end.
  { split; reflexivity. }
  { intros j (yo & ypo) B (H1 & H2). cbn [fst snd] in *. unfold ki in B. rewrite rd_ok by lia. cbn [obind]. rewrite rd_ok by lia. cbn [obind]. rewrite col_ok by lia. cbn [obind]. eexists. split; [reflexivity|]. cbn [fst snd sumn].
    destruct (H (ki - 1 - j)%nat ltac:(unfold ki; lia)) as (G1 & G2). split; intros x; unfold vadd, vscale; [rewrite H1, G1|rewrite H2, G2]; reflexivity. }
  cbn [obind fst snd] in *. rewrite Nat.add_0_l in *. eexists _, _. split; [reflexivity|]. split; intros x; unfold vadd, vscale.
  - rewrite H1. do 2 f_equal. apply (sumn_rev ki (fun i => level (gam s hi) (eta s hi) i 0 * s_phi s i x)).
  - rewrite H2. apply (sumn_rev ki (fun i => factors (gam s hi) (eta s hi) i 0 * s_phi s i x)).
Qed.
