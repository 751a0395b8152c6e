(* Specification of, and proofs about, harmonic coefficient storage (C05-C09). *)
From Coq Require Import List ZArith Bool Lia Reals Lra Permutation Factorial.
From Verif Require Import Base Harmonics_model.
Import ListNotations.
Local Open Scope Z_scope.

(* ---- specification ------------------------------------------------------ *)

(* The coefficients of a set of degree n: C(i,j), 0<=j<=i<=n and S(i,j), 1<=j<=i<=n *)
Inductive coef := CC (i j : Z) | SS (i j : Z).
Definition legal (n : Z) (k : coef) : Prop :=
  match k with
  | CC i j => 0 <= j <= i /\ i <= n
  | SS i j => 1 <= j <= i /\ i <= n
  end.
Definition coef_eqb (a b : coef) : bool :=
  match a, b with
  | CC i j, CC i' j' => (i =? i') && (j =? j')
  | SS i j, SS i' j' => (i =? i') && (j =? j')
  | _, _ => false
  end.

(* ---- C05 ------------------------------------------------------------------ *)

Section Cells.
Variable V : Type.
Definition cell (h : hc V) (k : coef) : Z * Z :=
  match k with CC i j => C_cell h i j | SS i j => S_cell h i j end.

Definition cells_spec (n : Z) (cl : coef -> Z * Z) : Prop :=
  (forall k, legal n k -> 0 <= fst (cl k) <= n /\ 0 <= snd (cl k) <= n) /\
  (forall k k', legal n k -> legal n k' -> cl k = cl k' -> k = k') /\
  (forall r c, 0 <= r <= n -> 0 <= c <= n -> exists k, legal n k /\ cl k = (r, c)).

Lemma cells_ok (h : hc V) : cells_spec (h_degree h) (cell h).
Proof.
  set (n := h_degree h). split; [|split].
  - intros [i j|i j]; simpl; fold n; lia.
  - intros [i j|i j] [i' j'|i' j']; simpl; fold n; intros H H' E;
      injection E; intros; first [f_equal; lia | exfalso; lia].
  - intros r c Hr Hc. destruct (Z.le_gt_cases c r) as [L|G].
    + exists (CC r c). simpl. split; [lia|reflexivity].
    + exists (SS (n - r) (c - r)). unfold cell, S_cell, legal. fold n. split; [lia|]. f_equal; lia.
Qed.
End Cells.
Arguments cell {V}.

Lemma coef_eqb_spec a b : reflect (a = b) (coef_eqb a b).
Proof.
  destruct a as [i j|i j], b as [i' j'|i' j']; simpl; try (constructor; discriminate);
  destruct (Z.eqb_spec i i') as [->|]; destruct (Z.eqb_spec j j') as [->|]; simpl;
  constructor; congruence.
Qed.

(* ---- rectangular arrays ----------------------------------------------------- *)

Section Rect.
Variable V : Type.
Definition rect (n : Z) (rows : list (list V)) : Prop :=
  length rows = Z.to_nat (n + 1) /\ Forall (fun r => length r = Z.to_nat (n + 1)) rows.

Lemma rect_allocate junk n : rect n (@allocate V junk n).
Proof.
  unfold allocate. split.
  - rewrite map_length, seq_length. reflexivity.
  - apply Forall_forall. intros r Hr. apply in_map_iff in Hr.
    destruct Hr as (i & <- & _). rewrite map_length, seq_length. reflexivity.
Qed.

Lemma load2_ok n rows r c : rect n rows -> 0 <= r <= n -> 0 <= c <= n ->
  exists row v, nth_error rows (Z.to_nat r) = Some row /\
    nth_error row (Z.to_nat c) = Some v /\ load2 rows r c = Ok v /\
    length row = Z.to_nat (n + 1).
Proof.
  intros [L F] Hr Hc. unfold load2.
  destruct (nth_error rows (Z.to_nat r)) as [row|] eqn:E1.
  2:{ apply nth_error_None in E1. lia. }
  assert (Lr : length row = Z.to_nat (n + 1)).
  { rewrite Forall_forall in F. apply F. eapply nth_error_In, E1. }
  destruct (nth_error row (Z.to_nat c)) as [v|] eqn:E2.
  2:{ apply nth_error_None in E2. lia. }
  exists row, v. repeat split; try assumption.
  destruct (Z.ltb_spec r 0); [lia|]. destruct (Z.ltb_spec c 0); [lia|]. simpl.
  unfold load at 1. rewrite E1. simpl. unfold load. rewrite E2. reflexivity.
Qed.

Lemma modify2_ok n rows r c f : rect n rows -> 0 <= r <= n -> 0 <= c <= n ->
  exists rows', modify2 rows r c f = Ok rows' /\ rect n rows' /\
    (forall v, load2 rows r c = Ok v -> load2 rows' r c = Ok (f v)) /\
    (forall a b, 0 <= a -> 0 <= b -> (a, b) <> (r, c) -> load2 rows' a b = load2 rows a b).
Proof.
  intros R Hr Hc. destruct (load2_ok n rows r c R Hr Hc) as (row & v & E1 & E2 & E3 & Lr).
  destruct (store_ok row (Z.to_nat c) (f v)) as (row' & S1 & L1 & N1).
  { lia. }
  destruct R as [L F].
  destruct (store_ok rows (Z.to_nat r) row') as (rows' & S2 & L2 & N2).
  { lia. }
  exists rows'. split.
  { unfold modify2. destruct (Z.ltb_spec r 0); [lia|]. destruct (Z.ltb_spec c 0); [lia|]. simpl.
    unfold load at 1. rewrite E1. simpl. unfold load. rewrite E2. simpl. rewrite S1. simpl. exact S2. }
  split.
  { split; [lia|]. apply Forall_forall. intros x Hx. apply In_nth_error in Hx.
    destruct Hx as [k Hk]. rewrite N2 in Hk. destruct (Nat.eqb_spec k (Z.to_nat r)) as [Ek|D].
    - injection Hk as <-. lia.
    - rewrite Forall_forall in F. apply F. eapply nth_error_In, Hk. }
  split.
  - intros v' H. rewrite E3 in H. injection H as <-.
    unfold load2. destruct (Z.ltb_spec r 0); [lia|]. destruct (Z.ltb_spec c 0); [lia|]. simpl.
    unfold load at 1. rewrite N2, Nat.eqb_refl. simpl. unfold load. rewrite N1, Nat.eqb_refl.
    reflexivity.
  - intros a b Ha Hb D. unfold load2.
    destruct (Z.ltb_spec a 0); [lia|]. destruct (Z.ltb_spec b 0); [lia|]. simpl.
    unfold load at 1 3. rewrite N2. destruct (Nat.eqb_spec (Z.to_nat a) (Z.to_nat r)) as [Ea|Ea].
    + assert (a = r) by lia. subst a. rewrite E1. simpl. unfold load. rewrite N1.
      destruct (Nat.eqb_spec (Z.to_nat b) (Z.to_nat c)) as [Eb|Eb]; [|reflexivity].
      exfalso. apply D. f_equal. lia.
    + reflexivity.
Qed.

(* ---- C06 ------------------------------------------------------------------ *)
Definition hkey (o : hop V) : coef :=
  match o with PutC i j _ => CC i j | PutS i j _ => SS i j end.
Definition hval (o : hop V) : V :=
  match o with PutC _ _ v => v | PutS _ _ v => v end.

(* value last written to k by a history, if any *)
Fixpoint last_write (k : coef) (ops : list (hop V)) : option V :=
  match ops with
  | [] => None
  | o :: r => match last_write k r with
              | Some v => Some v
              | None => if coef_eqb (hkey o) k then Some (hval o) else None
              end
  end.

Definition coef_get (h : hc V) (k : coef) : outcome V :=
  match k with CC i j => C_get h i j | SS i j => S_get h i j end.

Lemma coef_get_cell h k : coef_get h k = load2 (h_rows h) (fst (cell h k)) (snd (cell h k)).
Proof. destruct k; reflexivity. Qed.

Lemma h_step_ok (h : hc V) o : rect (h_degree h) (h_rows h) -> legal (h_degree h) (hkey o) ->
  exists h', h_step h o = Ok h' /\ h_degree h' = h_degree h /\
    h_normalized h' = h_normalized h /\ rect (h_degree h') (h_rows h') /\
    forall k, legal (h_degree h) k ->
      coef_get h' k = if coef_eqb (hkey o) k then Ok (hval o) else coef_get h k.
Proof.
  intros R Lg. destruct (cells_ok V h) as (B & I & _).
  destruct (B _ Lg) as [B1 B2].
  assert (E : h_step h o = cell_put h (cell h (hkey o)) (hval o)) by (destruct o; reflexivity).
  rewrite E. unfold cell_put.
  destruct (modify2_ok _ (h_rows h) (fst (cell h (hkey o))) (snd (cell h (hkey o)))
              (fun _ => hval o) R B1 B2) as (rows' & M & R' & Hs & Ho).
  rewrite M. simpl. eexists. split; [reflexivity|]. simpl.
  split; [reflexivity|]. split; [reflexivity|]. split; [exact R'|].
  intros k Lk. rewrite !coef_get_cell. simpl.
  assert (Ec : cell (HC (h_normalized h) (h_degree h) rows') k = cell h k)
    by (destruct k; reflexivity).
  rewrite Ec. destruct (coef_eqb_spec (hkey o) k) as [<-|D].
  - destruct (load2_ok _ (h_rows h) _ _ R B1 B2) as (? & v & _ & _ & Lv & _).
    apply (Hs v Lv).
  - destruct (B _ Lk) as [K1 K2]. apply Ho; [lia|lia|].
    intros Q. apply D. symmetry. apply I; try assumption.
    rewrite (surjective_pairing (cell h k)), (surjective_pairing (cell h (hkey o))). exact Q.
Qed.

Lemma h_run_ok ops : forall (h : hc V), rect (h_degree h) (h_rows h) ->
  Forall (fun o => legal (h_degree h) (hkey o)) ops ->
  exists h', h_run h ops = Ok h' /\ h_degree h' = h_degree h /\
    forall k, legal (h_degree h) k ->
      coef_get h' k = match last_write k ops with Some v => Ok v | None => coef_get h k end.
Proof.
  induction ops as [|o r IH]; intros h R F; simpl.
  - exists h. split; [reflexivity|]. split; [reflexivity|]. intros; reflexivity.
  - inversion F as [|? ? Lo Fr]; subst.
    destruct (h_step_ok h o R Lo) as (h1 & E & D & _ & R1 & G). rewrite E. simpl.
    destruct (IH h1 R1) as (h2 & E2 & D2 & G2).
    { rewrite D. exact Fr. }
    exists h2. split; [exact E2|]. split; [congruence|].
    intros k Lk. rewrite G2 by (rewrite D; exact Lk).
    destruct (last_write k r) as [v|]; [reflexivity|].
    rewrite (G k Lk). destruct (coef_eqb (hkey o) k); reflexivity.
Qed.

Lemma new_readable junk n k : 0 <= n -> legal n k ->
  exists v, coef_get (hc_new junk n) k = Ok v.
Proof.
  intros Hn Lk. pose proof (rect_allocate junk n) as R.
  destruct (cells_ok V (hc_new junk n)) as (B & _). destruct (B k Lk) as [B1 B2].
  rewrite coef_get_cell. simpl.
  destruct (load2_ok n (allocate junk n) _ _ R B1 B2) as (? & v & _ & _ & E & _).
  exists v. exact E.
Qed.

Lemma coefficients_refine junk n ops : 0 <= n ->
  Forall (fun o => legal n (hkey o)) ops ->
  exists h', h_run (hc_new junk n) ops = Ok h' /\ h_degree h' = n /\
    forall k, legal n k ->
      match last_write k ops with
      | Some v => coef_get h' k = Ok v
      | None => coef_get h' k = coef_get (hc_new junk n) k
      end.
Proof.
  intros Hn F. destruct (h_run_ok ops (hc_new junk n) (rect_allocate junk n) F)
    as (h' & E & D & G).
  exists h'. split; [exact E|]. split; [exact D|]. intros k Lk. rewrite (G k Lk).
  destruct (last_write k ops); reflexivity.
Qed.
End Rect.
Arguments rect {V}. Arguments coef_get {V}. Arguments last_write {V}. Arguments hkey {V}.

Lemma J2_is_minus_C20 (h : hc R) : 2 <= h_degree h ->
  rect (h_degree h) (h_rows h) ->
  exists v, C_get h 2 0 = Ok v /\ J2 h = Ok (- v)%R.
Proof.
  intros Hd R0. destruct (load2_ok _ _ (h_rows h) 2 0 R0) as (? & v & _ & _ & E & _); [lia|lia|].
  exists v. unfold C_get, J2. simpl. rewrite E. split; reflexivity.
Qed.

Example coefficients_history_case :
  let ops := [PutC 2 0 (-5); PutS 2 1 7; PutS 2 2 8; PutC 2 1 3; PutC 2 0 4] in
  Forall (fun o => legal 2 (hkey o)) ops /\ last_write (CC 2 0) ops = Some 4 /\
  last_write (SS 2 1) ops = Some 7 /\ last_write (SS 1 1) ops = None.
Proof. split; [repeat constructor; simpl; lia|]. vm_compute. auto. Qed.

(* ---- C08 ------------------------------------------------------------------- *)
Local Open Scope R_scope.

(* documented normalisation factor (Montenbruck & Gill eq. 3.13) *)
Definition norm_factor (n m : nat) : R :=
  sqrt (INR (fact (n - m)) * (2 * INR n + 1) * (2 - if Nat.eqb m 0 then 1 else 0)
        / INR (fact (n + m))).

Lemma prod_from_fact a k : prod_from (Z.of_nat a + 1) k * INR (fact a) = INR (fact (a + k)).
Proof.
  induction k as [|k IH]; cbn [prod_from].
  - rewrite Nat.add_0_r. lra.
  - replace (a + S k)%nat with (S (a + k))%nat by lia.
    rewrite fact_simpl, mult_INR, <- IH.
    replace (IZR (Z.of_nat a + 1 + Z.of_nat k)) with (INR (S (a + k))).
    + ring.
    + rewrite INR_IZR_INZ. f_equal. lia.
Qed.

Lemma sum_fact (n m : nat) : (m <= n)%nat ->
  sum_ (Z.of_nat n) (Z.of_nat m) * INR (fact (n - m)) = INR (fact (n + m)).
Proof.
  intros H. unfold sum_. destruct (Z.eqb_spec (Z.of_nat m) 0) as [E|E].
  - replace m with 0%nat by lia. rewrite Nat.sub_0_r, Nat.add_0_r. lra.
  - replace (Z.of_nat n - Z.of_nat m + 1)%Z with (Z.of_nat (n - m) + 1)%Z by lia.
    rewrite prod_from_fact. do 2 f_equal. lia.
Qed.

Lemma INR_fact_pos n : 0 < INR (fact n).
Proof. apply lt_0_INR, lt_O_fact. Qed.

Lemma fac_inv (n m : nat) : (1 <= n)%nat -> (m <= n)%nat ->
  fac (Z.of_nat n) (Z.of_nat m) <> 0 /\
  forall x, x / fac (Z.of_nat n) (Z.of_nat m) = x * norm_factor n m.
Proof.
  intros Hn Hm.
  set (d := (2 - (if Nat.eqb m 0 then 1 else 0))%R).
  assert (Hd : IZR (2 - (if Z.of_nat m =? 0 then 1 else 0))%Z = d).
  { unfold d. destruct (Z.eqb_spec (Z.of_nat m) 0); destruct (Nat.eqb_spec m 0);
      try lia; rewrite minus_IZR; reflexivity. }
  assert (Dp : 0 < d) by (unfold d; destruct (Nat.eqb m 0); lra).
  assert (H2 : IZR (2 * Z.of_nat n + 1) = 2 * INR n + 1).
  { rewrite plus_IZR, mult_IZR, <- INR_IZR_INZ. reflexivity. }
  pose proof (INR_fact_pos (n - m)) as F1. pose proof (INR_fact_pos (n + m)) as F2.
  pose proof (pos_INR n) as Pn.
  set (A := INR (fact (n + m)) / (INR (fact (n - m)) * (2 * INR n + 1) * d)).
  assert (Ap : 0 < A).
  { unfold A. apply Rdiv_lt_0_compat; [exact F2|].
    apply Rmult_lt_0_compat; [|exact Dp]. apply Rmult_lt_0_compat; lra. }
  assert (Ef : fac (Z.of_nat n) (Z.of_nat m) = sqrt A).
  { unfold fac. rewrite Hd, H2. f_equal. unfold A. rewrite <- (sum_fact n m Hm).
    field. repeat split; lra. }
  assert (En : norm_factor n m = sqrt (/ A)).
  { unfold norm_factor. fold d. f_equal. unfold A. field. repeat split; lra. }
  assert (Sp : 0 < sqrt A) by (apply sqrt_lt_R0; exact Ap).
  rewrite Ef, En. split; [lra|]. intros x. rewrite sqrt_inv. reflexivity.
Qed.

(* -- loops over distinct cells -- *)
Lemma div_cells_app rows l1 l2 :
  div_cells rows (l1 ++ l2) = obind (div_cells rows l1) (fun r => div_cells r l2).
Proof.
  revert rows; induction l1 as [|[[r c] d] t IH]; intros rows; [reflexivity|].
  simpl. destruct (modify2 rows r c _); simpl; [apply IH|reflexivity].
Qed.

Definition in_square (n : Z) (p : Z * Z) : Prop := (0 <= fst p <= n)%Z /\ (0 <= snd p <= n)%Z.

Lemma div_cells_ok n l : forall rows, rect n rows ->
  NoDup (map fst l) -> Forall (fun x => in_square n (fst x)) l ->
  exists rows', div_cells rows l = Ok rows' /\ rect n rows' /\
    (forall rc d v, In (rc, d) l -> load2 rows (fst rc) (snd rc) = Ok v ->
        load2 rows' (fst rc) (snd rc) = Ok (v / d)) /\
    (forall a b, (0 <= a)%Z -> (0 <= b)%Z -> ~ In (a, b) (map fst l) ->
        load2 rows' a b = load2 rows a b).
Proof.
  induction l as [|[[r c] d] t IH]; intros rows R0 ND F; simpl.
  - exists rows. split; [reflexivity|]. split; [exact R0|]. split; [contradiction|reflexivity].
  - inversion F as [|? ? [Sq1 Sq2] Ft]; subst. inversion ND as [|? ? NI NDt]; subst. simpl in *.
    destruct (modify2_ok R n rows r c (fun v => v / d) R0 Sq1 Sq2) as (rows1 & M & R1 & Hs & Ho).
    rewrite M. simpl. destruct (IH rows1 R1 NDt Ft) as (rows2 & E2 & R2 & Hin & Hout).
    exists rows2. split; [exact E2|]. split; [exact R2|]. split.
    + intros [r' c'] d' v' [Q|Q] L; simpl in *.
      * injection Q as -> -> ->. rewrite Hout by (try lia; exact NI). apply Hs, L.
      * apply (Hin (r', c') d' v' Q). simpl. rewrite Ho; [exact L| | |].
        { rewrite Forall_forall in Ft. destruct (Ft _ Q) as [X _]. simpl in X. lia. }
        { rewrite Forall_forall in Ft. destruct (Ft _ Q) as [_ X]. simpl in X. lia. }
        intros E. apply NI. rewrite <- E. apply in_map_iff. exists ((r', c'), d'). auto.
    + intros a b Ha Hb NIn. rewrite Hout; [apply Ho; try assumption|assumption|assumption|].
      * intros E. apply NIn. left. symmetry. exact E.
      * intros X. apply NIn. right. exact X.
Qed.

(* the whole loop as one list of divided cells *)
Definition degree_cells (h : hc R) (order n : Z) : list (coef * R) :=
  let mm := Z.min order n in
  map (fun m => (CC n m, fac n m)) (zseq 0 (Z.to_nat (mm + 1))) ++
  map (fun m => (SS n m, fac n m)) (zseq 1 (Z.to_nat mm)).
Definition to_cells (h : hc R) (l : list (coef * R)) := map (fun x => (cell h (fst x), snd x)) l.

Lemma denorm_degree_list h rows order n :
  denorm_degree h rows order n = div_cells rows (to_cells h (degree_cells h order n)).
Proof.
  unfold denorm_degree, degree_cells, to_cells.
  rewrite map_app, div_cells_app, !map_map. reflexivity.
Qed.

Lemma denorm_loop_list h order ns : forall rows,
  denorm_loop h order rows ns =
  div_cells rows (to_cells h (flat_map (degree_cells h order) ns)).
Proof.
  induction ns as [|n t IH]; intros rows; [reflexivity|].
  cbn [denorm_loop flat_map]. rewrite denorm_degree_list.
  unfold to_cells at 2. rewrite map_app, div_cells_app.
  destruct (div_cells rows _); simpl; [apply IH|reflexivity].
Qed.

Lemma in_zseq s k x : In x (zseq s k) <-> (s <= x < s + Z.of_nat k)%Z.
Proof.
  unfold zseq. rewrite in_map_iff. split.
  - intros (y & <- & H). apply in_seq in H. lia.
  - intros H. exists (Z.to_nat (x - s)). split; [lia|]. apply in_seq. lia.
Qed.

Lemma NoDup_zseq s k : NoDup (zseq s k).
Proof.
  unfold zseq. apply FinFun.Injective_map_NoDup; [|apply seq_NoDup].
  intros a b H. lia.
Qed.

Lemma in_degree_cells h order n k d : (0 <= order)%Z -> (1 <= n)%Z ->
  (In (k, d) (degree_cells h order n) <->
   match k with
   | CC i m => i = n /\ (0 <= m <= Z.min order n)%Z
   | SS i m => i = n /\ (1 <= m <= Z.min order n)%Z
   end /\ d = match k with CC i m => fac i m | SS i m => fac i m end).
Proof.
  intros Ho Hn. unfold degree_cells. rewrite in_app_iff, !in_map_iff. split.
  - intros [(m & E & H)|(m & E & H)]; apply in_zseq in H; injection E as <- <-;
      repeat split; lia.
  - destruct k as [i m|i m]; intros [[-> Hm] ->]; [left|right]; exists m;
      (split; [reflexivity|apply in_zseq; lia]).
Qed.

Lemma NoDup_degree_cells h order n : NoDup (map fst (degree_cells h order n)).
Proof.
  unfold degree_cells. rewrite map_app, !map_map. simpl.
  assert (A : forall (f : Z -> coef) l, (forall a b, f a = f b -> a = b) -> NoDup l -> NoDup (map f l)).
  { intros f l Hf. induction 1 as [|x l NI ND IH]; simpl; constructor; [|exact IH].
    rewrite in_map_iff. intros (y & E & Hy). apply Hf in E. subst. contradiction. }
  assert (B : forall (l1 l2 : list coef), NoDup l1 -> NoDup l2 ->
             (forall x, In x l1 -> In x l2 -> False) -> NoDup (l1 ++ l2)).
  { intros l1 l2 H1 H2 H. induction H1 as [|x l NI ND IH]; simpl; [exact H2|].
    constructor.
    - rewrite in_app_iff. intros [X|X]; [contradiction|]. apply (H x); [left; reflexivity|exact X].
    - apply IH. intros y Hy. apply H. right. exact Hy. }
  apply B.
  - apply A; [intros a b E; injection E; auto|apply NoDup_zseq].
  - apply A; [intros a b E; injection E; auto|apply NoDup_zseq].
  - intros x. rewrite !in_map_iff. intros (a & <- & _) (b & E & _). discriminate.
Qed.

Lemma in_all_cells h order ns k d : (0 <= order)%Z -> (forall n, In n ns -> (1 <= n)%Z) ->
  (In (k, d) (flat_map (degree_cells h order) ns) <->
   match k with
   | CC i m => In i ns /\ (0 <= m <= Z.min order i)%Z
   | SS i m => In i ns /\ (1 <= m <= Z.min order i)%Z
   end /\ d = match k with CC i m => fac i m | SS i m => fac i m end).
Proof.
  intros Ho Hns. rewrite in_flat_map. split.
  - intros (n & Hn & H). apply in_degree_cells in H; [|exact Ho|apply Hns, Hn].
    destruct k as [i m|i m]; destruct H as [[-> Hm] ->]; auto.
  - destruct k as [i m|i m]; intros [[Hi Hm] ->]; exists i; (split; [exact Hi|]);
      apply in_degree_cells; auto.
Qed.

Lemma NoDup_all_cells h order ns : (0 <= order)%Z -> (forall n, In n ns -> (1 <= n)%Z) ->
  NoDup ns -> NoDup (map fst (flat_map (degree_cells h order) ns)).
Proof.
  intros Ho Hns ND. induction ND as [|n ns NI ND IH]; [constructor|].
  simpl. rewrite map_app.
  assert (B : forall (l1 l2 : list coef), NoDup l1 -> NoDup l2 ->
             (forall x, In x l1 -> In x l2 -> False) -> NoDup (l1 ++ l2)).
  { intros l1 l2 H1 H2 H. induction H1 as [|x l NI' ND' IH']; simpl; [exact H2|].
    constructor.
    - rewrite in_app_iff. intros [X|X]; [contradiction|]. apply (H x); [left; reflexivity|exact X].
    - apply IH'. intros y Hy. apply H. right. exact Hy. }
  apply B.
  - apply NoDup_degree_cells.
  - apply IH. intros x Hx. apply Hns. right. exact Hx.
  - intros k. rewrite !in_map_iff. intros ([k1 d1] & <- & H1) ([k2 d2] & E & H2).
    simpl in E. subst k2.
    apply in_degree_cells in H1; [|exact Ho|apply Hns; left; reflexivity].
    apply in_all_cells in H2; [|exact Ho|intros x Hx; apply Hns; right; exact Hx].
    destruct k1 as [i m|i m]; destruct H1 as [[-> _] _]; destruct H2 as [[Hi _] _]; contradiction.
Qed.

(* Statement C08: new value of every coefficient *)
Definition scaled (order : Z) (k : coef) (v : R) : R :=
  match k with
  | CC n m | SS n m =>
      if (1 <=? n)%Z && (m <=? order)%Z
      then v * norm_factor (Z.to_nat n) (Z.to_nat m) else v
  end.

Lemma denormalize_ok (h : hc R) order :
  rect (h_degree h) (h_rows h) -> (0 < h_degree h)%Z -> h_normalized h = true ->
  (order <= h_degree h)%Z ->
  exists h', denormalize h order = Ok (DRet 0 h') /\
    h_normalized h' = false /\ h_degree h' = h_degree h /\
    rect (h_degree h') (h_rows h') /\
    forall k v, legal (h_degree h) k -> coef_get h k = Ok v ->
      coef_get h' k = Ok (scaled (if (order <? 0)%Z then h_degree h else order) k v).
Proof.
  intros R0 Hd Hn Ho. unfold denormalize. rewrite Hn. simpl.
  set (ord := if (order <? 0)%Z then h_degree h else order).
  assert (Bo : (0 <= ord <= h_degree h)%Z) by (unfold ord; destruct (Z.ltb_spec order 0); lia).
  rewrite Z.gtb_ltb. destruct (Z.ltb_spec (h_degree h) ord); [lia|].
  rewrite Z.gtb_ltb. destruct (Z.ltb_spec 0 (h_degree h)); [simpl|lia].
  rewrite denorm_loop_list.
  set (ns := zseq 1 (Z.to_nat (h_degree h))).
  assert (Hns : forall n, In n ns <-> (1 <= n <= h_degree h)%Z).
  { intros n. unfold ns. rewrite in_zseq. lia. }
  assert (Hns1 : forall n, In n ns -> (1 <= n)%Z) by (intros n X; apply Hns in X; lia).
  set (L := flat_map (degree_cells h ord) ns).
  assert (Lg : forall k d, In (k, d) L -> legal (h_degree h) k).
  { intros k d X. apply in_all_cells in X; [|lia|exact Hns1].
    destruct k as [i m|i m]; destruct X as [[Xi Xm] _]; apply Hns in Xi; simpl; lia. }
  destruct (cells_ok R h) as (B & I & _).
  assert (ND : NoDup (map fst (to_cells h L))).
  { assert (G : NoDup (map fst L)).
    { apply NoDup_all_cells; [lia|exact Hns1|apply NoDup_zseq]. }
    unfold to_cells. rewrite map_map. simpl. clear -G Lg I.
    induction L as [|[k d] t IH]; simpl; [constructor|].
    inversion G as [|? ? NI G']; subst. constructor.
    - rewrite in_map_iff. intros ([k' d'] & E & X). simpl in E.
      apply NI. apply I in E; [|eapply Lg; right; exact X|eapply Lg; left; reflexivity].
      subst k'. apply in_map_iff. exists (k, d'). auto.
    - apply IH; [|exact G']. intros k' d' X. eapply Lg. right. exact X. }
  destruct (div_cells_ok (h_degree h) (to_cells h L) (h_rows h) R0 ND)
    as (rows' & E & R1 & Hin & Hout).
  { apply Forall_forall. intros x X. unfold to_cells in X. apply in_map_iff in X.
    destruct X as ([k d] & <- & X). simpl. apply B. eapply Lg, X. }
  rewrite E. simpl. eexists. split; [reflexivity|]. simpl.
  split; [reflexivity|]. split; [reflexivity|]. split; [exact R1|].
  intros k v Lk Gk. rewrite coef_get_cell in *. simpl.
  assert (Ec : cell (HC false (h_degree h) rows') k = cell h k) by (destruct k; reflexivity).
  rewrite Ec.
  assert (Cases : (exists n m : nat, (1 <= n)%nat /\ (m <= n)%nat /\
             In (k, fac (Z.of_nat n) (Z.of_nat m)) L /\
             scaled ord k v = v * norm_factor n m) \/
          ((forall d, ~ In (k, d) L) /\ scaled ord k v = v)).
  { destruct k as [i m|i m]; simpl in Lk |- *;
    destruct (Z.leb_spec 1 i); destruct (Z.leb_spec m ord); simpl.
    - left. exists (Z.to_nat i), (Z.to_nat m). split; [lia|]. split; [lia|]. split; [|reflexivity].
      rewrite !Z2Nat.id by lia. apply in_all_cells; [lia|exact Hns1|]. rewrite Hns.
      split; [split; lia|reflexivity].
    - right. split; [|reflexivity]. intros d X. apply in_all_cells in X; [|lia|exact Hns1].
      destruct X as [[_ X] _]. lia.
    - right. split; [|reflexivity]. intros d X. apply in_all_cells in X; [|lia|exact Hns1].
      destruct X as [[X _] _]. apply Hns in X. lia.
    - right. split; [|reflexivity]. intros d X. apply in_all_cells in X; [|lia|exact Hns1].
      destruct X as [[_ X] _]. lia.
    - left. exists (Z.to_nat i), (Z.to_nat m). split; [lia|]. split; [lia|]. split; [|reflexivity].
      rewrite !Z2Nat.id by lia. apply in_all_cells; [lia|exact Hns1|]. rewrite Hns.
      split; [split; lia|reflexivity].
    - right. split; [|reflexivity]. intros d X. apply in_all_cells in X; [|lia|exact Hns1].
      destruct X as [[_ X] _]. lia.
    - right. split; [|reflexivity]. intros d X. apply in_all_cells in X; [|lia|exact Hns1].
      destruct X as [[X _] _]. apply Hns in X. lia.
    - right. split; [|reflexivity]. intros d X. apply in_all_cells in X; [|lia|exact Hns1].
      destruct X as [[_ X] _]. lia. }
  destruct Cases as [(n & m & Hn1 & Hmn & X & ->)|[X ->]].
  - rewrite (Hin (cell h k) (fac (Z.of_nat n) (Z.of_nat m)) v); [|apply in_map_iff; exists (k, fac (Z.of_nat n) (Z.of_nat m)); auto|exact Gk].
    f_equal. apply fac_inv; assumption.
  - destruct (B k Lk) as [B1 B2]. rewrite Hout; [exact Gk|lia|lia|].
    rewrite <- surjective_pairing. unfold to_cells. rewrite map_map, in_map_iff.
    intros ([k' d'] & E' & Y). simpl in E'. apply I in E'; [|eapply Lg, Y|exact Lk].
    subst k'. apply (X d' Y).
Qed.

Lemma denormalize_noop (h : hc R) order : h_normalized h = false ->
  denormalize h order = Ok (DRet 0 h).
Proof. intros H. unfold denormalize. rewrite H. reflexivity. Qed.

Lemma denormalize_bad_order (h : hc R) order : h_normalized h = true ->
  (0 <= h_degree h)%Z -> (h_degree h < order)%Z ->
  denormalize h order = Ok (DRet 1 h).
Proof.
  intros Hn Hd Ho. unfold denormalize. rewrite Hn. simpl.
  destruct (Z.ltb_spec order 0); [lia|]. rewrite Z.gtb_ltb.
  destruct (Z.ltb_spec (h_degree h) order); [reflexivity|lia].
Qed.

(* a concrete instance: the factor of C(2,0) is sqrt 5, of S(2,2) sqrt(5/12) *)
Example norm_factor_20 : norm_factor 2 0 = sqrt 5 /\ norm_factor 2 2 = sqrt (5 / 12).
Proof.
  unfold norm_factor; simpl. split; f_equal; field.
Qed.

Example denormalize_case :
  let h := hc_new (fun _ _ => 1) 2 in
  rect (h_degree h) (h_rows h) /\ (0 < h_degree h)%Z /\ h_normalized h = true /\ (1 <= h_degree h)%Z.
Proof. simpl. split; [apply rect_allocate|]. repeat split; lia. Qed.

(* ---- C09: the flag after a partial de-normalisation ------------------------- *)
(* A coefficient is "still normalised" when it kept a value v<>0 that would have
   been changed by its (<>1) factor. *)
Definition still_normalised (h h' : hc R) (k : coef) : Prop :=
  exists v n m, (k = CC (Z.of_nat n) (Z.of_nat m) \/ k = SS (Z.of_nat n) (Z.of_nat m)) /\
    (1 <= n)%nat /\ coef_get h k = Ok v /\ coef_get h' k = Ok v /\
    v * norm_factor n m <> v.

Lemma flag_refuted : exists (h : hc R) order h' k,
  rect (h_degree h) (h_rows h) /\ h_normalized h = true /\
  denormalize h order = Ok (DRet 0 h') /\ h_normalized h' = false /\
  legal (h_degree h) k /\ still_normalised h h' k.
Proof.
  set (h := hc_new (fun _ _ => 1) 2).
  destruct (denormalize_ok h 0) as (h' & E & F & D & _ & G).
  - apply rect_allocate.
  - reflexivity.
  - reflexivity.
  - simpl. lia.
  - exists h, 0%Z, h', (CC 2 2). split; [apply rect_allocate|]. split; [reflexivity|].
    split; [exact E|]. split; [exact F|]. split; [simpl; lia|].
    exists 1, 2%nat, 2%nat. split; [left; reflexivity|]. split; [lia|].
    split; [reflexivity|]. split.
    + rewrite (G (CC 2 2) 1); [reflexivity|simpl; lia|reflexivity].
    + destruct norm_factor_20 as [_ ->]. rewrite Rmult_1_l. intros Q.
      assert (S : sqrt (5 / 12) * sqrt (5 / 12) = 5 / 12) by (apply sqrt_sqrt; lra).
      rewrite Q in S. lra.
Qed.

Lemma flag_full_order (h : hc R) order :
  rect (h_degree h) (h_rows h) -> (0 < h_degree h)%Z -> h_normalized h = true ->
  (order < 0 \/ order = h_degree h)%Z ->
  exists h', denormalize h order = Ok (DRet 0 h') /\ h_normalized h' = false /\
    forall k, legal (h_degree h) k -> ~ still_normalised h h' k.
Proof.
  intros R0 Hd Hn Ho. destruct (denormalize_ok h order R0 Hd Hn) as (h' & E & F & D & R1 & G); [lia|].
  exists h'. split; [exact E|]. split; [exact F|]. intros k Lk (v & n & m & Ek & Hn1 & G1 & G2 & N).
  rewrite (G k v Lk G1) in G2. injection G2 as G2. apply N. rewrite <- G2 at 2.
  assert (Hord : (if (order <? 0)%Z then h_degree h else order) = h_degree h).
  { destruct (Z.ltb_spec order 0); lia. }
  rewrite Hord. unfold scaled.
  destruct Ek as [-> | ->]; simpl in Lk; rewrite !Nat2Z.id;
  destruct (Z.leb_spec 1 (Z.of_nat n)); try lia;
  destruct (Z.leb_spec (Z.of_nat m) (h_degree h)); try lia; reflexivity.
Qed.

(* ---- C07: ownership --------------------------------------------------------- *)
Local Open Scope Z_scope.

Definition owned (o : option robj) : list nat :=
  match o with
  | Some (RObj _ (Some (a, l))) => a :: l
  | _ => []
  end.
Definition all_owned (l : list (option robj)) : list nat := flat_map owned l.

Definition obj_ok (o : option robj) : Prop :=
  match o with
  | None => True
  | Some (RObj d None) => d = 0
  | Some (RObj d (Some (_, l))) => 0 <= d /\ (Z.to_nat (d + 1) <= length l)%nat
  end.
Definition obj_tight (o : option robj) : Prop :=
  match o with
  | Some (RObj d (Some (_, l))) => length l = Z.to_nat (d + 1)
  | _ => True
  end.

(* [lk]: arrays that are live but owned by nobody (leaked) *)
Definition WInv (w : world) (lk : list nat) : Prop :=
  Permutation (hp_live (w_heap w)) (all_owned (w_objs w) ++ lk) /\
  NoDup (hp_live (w_heap w)) /\
  Forall (fun x => (x < hp_next (w_heap w))%nat) (hp_live (w_heap w)) /\
  Forall obj_ok (w_objs w).

Lemma upd_split {A} (l l' : list A) v x y : nth_error l v = Some y -> upd l v x = Some l' ->
  exists l1 l2, l = l1 ++ y :: l2 /\ l' = l1 ++ x :: l2 /\ length l1 = v.
Proof.
  revert v l'; induction l as [|h t IH]; intros v l' N U; [destruct v; discriminate|].
  destruct v as [|v]; simpl in *.
  - injection N as ->. injection U as <-. exists [], t. auto.
  - destruct (upd t v x) as [t'|] eqn:E; [|discriminate]. injection U as <-.
    destruct (IH v t' N E) as (l1 & l2 & -> & -> & L). exists (h :: l1), l2. simpl. auto.
Qed.

Lemma remove1_perm x l : In x l -> exists l', remove1 x l = Some l' /\ Permutation l (x :: l').
Proof.
  induction l as [|y t IH]; [contradiction|]. simpl. intros H.
  destruct (Nat.eqb_spec x y) as [->|D].
  - exists t. split; [reflexivity|apply Permutation_refl].
  - destruct H as [->|H]; [contradiction|]. destruct (IH H) as (l' & -> & P).
    exists (y :: l'). split; [reflexivity|]. rewrite P. apply perm_swap.
Qed.

Lemma h_free_l_ok xs : forall hp rest, Permutation (hp_live hp) (xs ++ rest) ->
  exists hp', h_free_l hp xs = Ok hp' /\ Permutation (hp_live hp') rest /\
    hp_next hp' = hp_next hp.
Proof.
  induction xs as [|x t IH]; intros hp rest P; simpl in *.
  - exists hp. auto.
  - destruct (remove1_perm x (hp_live hp)) as (l' & E & P').
    { rewrite P. left. reflexivity. }
    unfold h_free. rewrite E. simpl.
    destruct (IH (Heap (hp_next hp) l') rest) as (hp' & E' & Pr & Nx).
    + simpl. apply Permutation_cons_inv with x. rewrite <- P'. exact P.
    + exists hp'. auto.
Qed.

Lemma h_alloc_n_ok k : forall hp, NoDup (hp_live hp) ->
  Forall (fun x => (x < hp_next hp)%nat) (hp_live hp) ->
  exists l hp', h_alloc_n hp k = (l, hp') /\ length l = k /\
    Permutation (hp_live hp') (l ++ hp_live hp) /\ NoDup (hp_live hp') /\
    Forall (fun x => (x < hp_next hp')%nat) (hp_live hp').
Proof.
  induction k as [|k IH]; intros hp ND F; simpl.
  - exists [], hp. repeat split; auto.
  - destruct (IH (Heap (S (hp_next hp)) (hp_next hp :: hp_live hp))) as (l & hp' & E & L & P & ND' & F').
    + simpl. constructor; [|exact ND]. intros X. rewrite Forall_forall in F. specialize (F _ X). lia.
    + simpl. constructor; [lia|]. eapply Forall_impl; [|exact F]. simpl. intros a Ha. lia.
    + rewrite E. exists (hp_next hp :: l), hp'. split; [reflexivity|]. split; [simpl; lia|].
      split; [|auto]. rewrite P. simpl. apply Permutation_sym, Permutation_middle.
Qed.

Lemma o_allocate_ok hp d : NoDup (hp_live hp) ->
  Forall (fun x => (x < hp_next hp)%nat) (hp_live hp) ->
  exists hp' a l, o_allocate hp d = (hp', Some (a, l)) /\ length l = Z.to_nat (d + 1) /\
    Permutation (hp_live hp') ((a :: l) ++ hp_live hp) /\ NoDup (hp_live hp') /\
    Forall (fun x => (x < hp_next hp')%nat) (hp_live hp').
Proof.
  intros ND F. unfold o_allocate. cbn [h_alloc].
  destruct (h_alloc_n_ok (Z.to_nat (d + 1)) (Heap (S (hp_next hp)) (hp_next hp :: hp_live hp)))
    as (l & hp' & E & L & P & ND' & F').
  - simpl. constructor; [|exact ND]. intros X. rewrite Forall_forall in F. specialize (F _ X). lia.
  - simpl. constructor; [lia|]. eapply Forall_impl; [|exact F]. simpl. intros a Ha. lia.
  - rewrite E. exists hp', (hp_next hp), l. split; [reflexivity|]. split; [exact L|].
    split; [|auto]. rewrite P. simpl. apply Permutation_sym, Permutation_middle.
Qed.

(* freeing an object: what it cannot reach is leaked *)
Definition unreached (o : robj) : list nat :=
  match o_data o with
  | None => []
  | Some (_, l) => skipn (Z.to_nat (o_degree o + 1)) l
  end.

Lemma o_deallocate_ok hp o rest : obj_ok (Some o) ->
  Permutation (hp_live hp) (owned (Some o) ++ rest) ->
  exists hp', o_deallocate hp o = Ok hp' /\ hp_next hp' = hp_next hp /\
    Permutation (hp_live hp') (unreached o ++ rest).
Proof.
  destruct o as [d [[a l]|]]; unfold o_deallocate, unreached; simpl.
  - intros [Hd Hl] P. rewrite (proj2 (Nat.leb_le _ _)) by lia.
    destruct (h_free_l_ok (firstn (Z.to_nat (d + 1)) l) hp
                (a :: skipn (Z.to_nat (d + 1)) l ++ rest)) as (hp1 & E1 & P1 & N1).
    { rewrite P. rewrite <- (firstn_skipn (Z.to_nat (d + 1)) l) at 1.
      rewrite <- app_assoc. apply Permutation_middle. }
    rewrite E1. simpl.
    destruct (remove1_perm a (hp_live hp1)) as (l' & E & P').
    { rewrite P1. left. reflexivity. }
    unfold h_free. rewrite E. eexists. split; [reflexivity|]. split; [exact N1|]. simpl.
    apply Permutation_cons_inv with a. rewrite <- P'. exact P1.
  - intros _ P. exists hp. auto.
Qed.

(* ops that do not leak: never shrink, never move-assign over owned storage *)
Definition careful (w : world) (op : wop) : Prop :=
  match op with
  | WResize v n => match nth_error (w_objs w) v with
                   | Some (Some (RObj d (Some _))) => d <= n
                   | _ => True end
  | WMoveAssign dst _ => match nth_error (w_objs w) dst with
                   | Some (Some (RObj _ (Some _))) => False
                   | _ => True end
  | _ => True
  end.

Lemma Forall_upd {A} (P : A -> Prop) l l' v x : upd l v x = Some l' -> Forall P l -> P x -> Forall P l'.
Proof.
  revert v l'; induction l as [|h t IH]; intros v l' U F Px; [discriminate|].
  inversion F; subst. destruct v as [|v]; simpl in U.
  - injection U as <-. constructor; assumption.
  - destruct (upd t v x) eqn:E; [|discriminate]. injection U as <-. constructor; [assumption|].
    eapply IH; eauto.
Qed.

Lemma all_owned_upd l l' v x y : nth_error l v = Some y -> upd l v x = Some l' ->
  Permutation (owned y ++ all_owned l') (owned x ++ all_owned l).
Proof.
  intros N U. destruct (upd_split l l' v x y N U) as (l1 & l2 & -> & -> & _).
  unfold all_owned. rewrite !flat_map_app. simpl.
  rewrite (Permutation_app_swap_app (owned y)), (Permutation_app_swap_app (owned x)).
  apply Permutation_app_head. apply Permutation_app_swap_app.
Qed.

Lemma upd_some_of_nth {A} (l : list A) v y x : nth_error l v = Some y -> exists l', upd l v x = Some l'.
Proof.
  intros N. apply (proj1 (upd_Some_iff l v x)). apply nth_error_Some. congruence.
Qed.

Lemma upd_nth_same {A} (l l' : list A) v x : upd l v x = Some l' -> nth_error l' v = Some x.
Proof. intros U. rewrite (upd_nth _ _ _ _ U). rewrite Nat.eqb_refl. reflexivity. Qed.

Lemma forall_nth {A} (P : A -> Prop) l v y : Forall P l -> nth_error l v = Some y -> P y.
Proof. intros F N. rewrite Forall_forall in F. apply F. eapply nth_error_In, N. Qed.

Lemma all_owned_take l v y : nth_error l v = Some y ->
  exists l0, upd l v None = Some l0 /\ Permutation (all_owned l) (owned y ++ all_owned l0).
Proof.
  intros N. destruct (upd_some_of_nth l v y None N) as [l0 U]. exists l0. split; [exact U|].
  pose proof (all_owned_upd _ _ _ _ _ N U) as Q. simpl in Q. apply Permutation_sym, Q.
Qed.

Lemma unreached_tight o : obj_tight (Some o) -> unreached o = [].
Proof.
  destruct o as [d [[a l]|]]; unfold unreached; simpl; [|reflexivity].
  intros H. rewrite <- H. apply skipn_all.
Qed.

Lemma NoDup_sub (hp hp' : heap) (P : list nat) : NoDup (hp_live hp) ->
  Permutation (hp_live hp) (P ++ hp_live hp') -> NoDup (hp_live hp').
Proof.
  intros ND Q. apply (Permutation_NoDup Q) in ND. clear Q. induction P as [|x t IH]; [exact ND|].
  apply IH. inversion ND; assumption.
Qed.

(* moving storage from src to dst, dst's previous storage going to nobody *)
Lemma move_inv w lk dst src od o l1 l2 :
  WInv w lk -> nth_error (w_objs w) dst = Some od -> nth_error (w_objs w) src = Some (Some o) ->
  upd (w_objs w) dst (Some (RObj (o_degree o) (o_data o))) = Some l1 ->
  upd l1 src (Some (RObj 0 None)) = Some l2 ->
  WInv (World (w_heap w) l2) (owned od ++ lk) /\
  (Forall obj_tight (w_objs w) -> Forall obj_tight l2).
Proof.
  intros (P & ND & Fr & Fo) Nd Ns U1 U2.
  assert (Eo : RObj (o_degree o) (o_data o) = o) by (destruct o; reflexivity).
  rewrite Eo in U1.
  pose proof (forall_nth _ _ _ _ Fo Ns) as Oo.
  assert (Q1 := all_owned_upd _ _ _ _ _ Nd U1).
  assert (N1 : nth_error l1 src = Some (Some o)).
  { rewrite (upd_nth _ _ _ _ U1). destruct (Nat.eqb_spec src dst); [reflexivity|exact Ns]. }
  assert (Q2 := all_owned_upd _ _ _ _ _ N1 U2). simpl (owned (Some (RObj 0 None))) in Q2.
  simpl in Q2.
  split.
  - split; [|split; [exact ND|split; [exact Fr|]]]; simpl.
    + rewrite P. rewrite app_assoc. apply Permutation_app_tail.
      apply Permutation_app_inv_l with (owned (Some o)).
      rewrite <- Q1, <- Q2. rewrite (Permutation_app_swap_app (owned od)).
      apply Permutation_app_head, Permutation_app_comm.
    + eapply Forall_upd; [exact U2| |reflexivity]. eapply Forall_upd; [exact U1|exact Fo|exact Oo].
  - intros T. eapply Forall_upd; [exact U2| |exact I]. eapply Forall_upd; [exact U1|exact T|].
    exact (forall_nth _ _ _ _ T Ns).
Qed.

Lemma w_step_inv w lk op r : WInv w lk -> w_step w op = Some r ->
  exists w' lk', r = Ok w' /\ WInv w' lk' /\
    (Forall obj_tight (w_objs w) -> careful w op -> lk' = lk /\ Forall obj_tight (w_objs w')).
Proof.
  intros Inv E. pose proof Inv as (P & ND & Fr & Fo).
  destruct op as [v|v n|v n|dst src|dst src|v]; cbn [w_step] in E.
  - (* default construction *)
    destruct (nth_error (w_objs w) v) as [[o|]|] eqn:N; try discriminate.
    unfold w_set in E. destruct (upd (w_objs w) v _) as [l'|] eqn:U; [|discriminate].
    injection E as <-. exists (World (w_heap w) l'), lk. split; [reflexivity|]. split.
    + split; [|split; [exact ND|split; [exact Fr|]]]; simpl.
      * rewrite P. apply Permutation_app_tail.
        pose proof (all_owned_upd _ _ _ _ _ N U) as Q. simpl in Q. apply Permutation_sym, Q.
      * eapply Forall_upd; [exact U|exact Fo|reflexivity].
    + intros T _. split; [reflexivity|]. simpl. eapply Forall_upd; [exact U|exact T|exact I].
  - (* construction with degree n *)
    destruct (Z.ltb_spec n 0) as [|Hn]; [discriminate|].
    destruct (nth_error (w_objs w) v) as [[o|]|] eqn:N; try discriminate.
    destruct (o_allocate_ok (w_heap w) n ND Fr) as (hp' & a & l & EA & L & P' & ND' & F').
    rewrite EA in E. unfold w_set in E.
    destruct (upd (w_objs w) v _) as [l'|] eqn:U; [|discriminate].
    injection E as <-. exists (World hp' l'), lk. split; [reflexivity|]. split.
    + split; [|split; [exact ND'|split; [exact F'|]]]; cbn [w_heap w_objs].
      * rewrite P', P. pose proof (all_owned_upd _ _ _ _ _ N U) as Q. simpl in Q.
        rewrite Q. simpl. rewrite <- app_assoc. reflexivity.
      * eapply Forall_upd; [exact U|exact Fo|]. simpl. lia.
    + intros T _. split; [reflexivity|]. simpl. eapply Forall_upd; [exact U|exact T|]. simpl. exact L.
  - (* resize *)
    destruct (Z.ltb_spec n 0) as [|Hn]; [discriminate|].
    destruct (nth_error (w_objs w) v) as [[o|]|] eqn:N; try discriminate.
    pose proof (forall_nth _ _ _ _ Fo N) as Oo.
    destruct (Z.leb_spec n (o_degree o)) as [Le|Gt].
    + unfold w_set in E. destruct (upd (w_objs w) v _) as [l'|] eqn:U; [|discriminate].
      injection E as <-. exists (World (w_heap w) l'), lk. split; [reflexivity|]. split.
      * split; [|split; [exact ND|split; [exact Fr|]]]; simpl.
        -- rewrite P. apply Permutation_app_tail.
           pose proof (all_owned_upd _ _ _ _ _ N U) as Q.
           apply Permutation_app_inv_l with (owned (Some o)).
           rewrite Q. apply Permutation_app_tail. destruct o as [d [[a l]|]]; reflexivity.
        -- eapply Forall_upd; [exact U|exact Fo|]. destruct o as [d [[a l]|]]; simpl in *; lia.
      * intros T C. split; [reflexivity|]. simpl. eapply Forall_upd; [exact U|exact T|].
        pose proof (forall_nth _ _ _ _ T N) as To.
        destruct o as [d [[a l]|]]; simpl in *; [|exact I].
        rewrite N in C. rewrite To. f_equal. lia.
    + destruct (all_owned_take _ _ _ N) as (l0 & U0 & Q0).
      destruct (o_deallocate_ok (w_heap w) o (all_owned l0 ++ lk) Oo) as (hp1 & E1 & Nx & P1).
      { rewrite P, Q0, <- app_assoc. reflexivity. }
      rewrite E1 in E.
      assert (Sub : exists X, Permutation (hp_live (w_heap w)) (X ++ hp_live hp1)).
      { destruct o as [d [[a l]|]]; unfold unreached in P1; simpl in *.
        - exists (a :: firstn (Z.to_nat (d + 1)) l). rewrite P, Q0, P1. simpl.
          rewrite <- app_assoc. apply perm_skip.
          rewrite <- (firstn_skipn (Z.to_nat (d + 1)) l) at 1. rewrite <- !app_assoc. reflexivity.
        - exists []. simpl. rewrite P, Q0, P1. reflexivity. }
      destruct Sub as [X SX].
      assert (ND1 : NoDup (hp_live hp1)) by (eapply NoDup_sub; [exact ND|exact SX]).
      assert (F1 : Forall (fun x => (x < hp_next hp1)%nat) (hp_live hp1)).
      { rewrite Nx. apply (Permutation_Forall SX) in Fr. apply Forall_app in Fr. tauto. }
      destruct (o_allocate_ok hp1 n ND1 F1) as (hp' & a & l & EA & L & P' & ND' & F').
      rewrite EA in E. unfold w_set in E.
      destruct (upd (w_objs w) v _) as [l'|] eqn:U; [|discriminate].
      injection E as <-. exists (World hp' l'), (unreached o ++ lk). split; [reflexivity|]. split.
      * split; [|split; [exact ND'|split; [exact F'|]]]; cbn [w_heap w_objs].
        -- pose proof (all_owned_upd _ _ _ _ _ N U) as Q.
           simpl (owned (Some (RObj n (Some (a, l))))) in Q.
           assert (QQ : Permutation (all_owned l') ((a :: l) ++ all_owned l0)).
           { apply Permutation_app_inv_l with (owned (Some o)). rewrite Q, Q0.
             apply Permutation_app_swap_app. }
           rewrite P', P1, QQ. rewrite <- !app_assoc. apply Permutation_app_head.
           apply Permutation_app_swap_app.
        -- eapply Forall_upd; [exact U|exact Fo|]. simpl. lia.
      * intros T _. pose proof (forall_nth _ _ _ _ T N) as To.
        rewrite (unreached_tight _ To). split; [reflexivity|]. simpl.
        eapply Forall_upd; [exact U|exact T|]. simpl. exact L.
  - (* move construction *)
    destruct (nth_error (w_objs w) dst) as [[od|]|] eqn:Nd; try discriminate.
    destruct (nth_error (w_objs w) src) as [[o|]|] eqn:Ns; try discriminate.
    unfold w_set in E. destruct (upd (w_objs w) dst _) as [l1|] eqn:U1; [|discriminate].
    simpl in E. destruct (upd l1 src _) as [l2|] eqn:U2; [|discriminate].
    injection E as <-. destruct (move_inv _ _ _ _ _ _ _ _ Inv Nd Ns U1 U2) as [I2 T2].
    exists (World (w_heap w) l2), lk. split; [reflexivity|]. split; [exact I2|].
    intros T _. split; [reflexivity|apply T2, T].
  - (* move assignment *)
    destruct (nth_error (w_objs w) dst) as [[od|]|] eqn:Nd; try discriminate.
    destruct (nth_error (w_objs w) src) as [[o|]|] eqn:Ns; try discriminate.
    unfold w_set in E. destruct (upd (w_objs w) dst _) as [l1|] eqn:U1; [|discriminate].
    simpl in E. destruct (upd l1 src _) as [l2|] eqn:U2; [|discriminate].
    injection E as <-. destruct (move_inv _ _ _ _ _ _ _ _ Inv Nd Ns U1 U2) as [I2 T2].
    exists (World (w_heap w) l2), (owned (Some od) ++ lk). split; [reflexivity|]. split; [exact I2|].
    intros T C. simpl in C. rewrite Nd in C. split; [|apply T2, T].
    destruct od as [d [[a l]|]]; [contradiction|reflexivity].
  - (* destruction *)
    destruct (nth_error (w_objs w) v) as [[o|]|] eqn:N; try discriminate.
    pose proof (forall_nth _ _ _ _ Fo N) as Oo.
    destruct (all_owned_take _ _ _ N) as (l0 & U0 & Q0).
    destruct (o_deallocate_ok (w_heap w) o (all_owned l0 ++ lk) Oo) as (hp1 & E1 & Nx & P1).
    { rewrite P, Q0, <- app_assoc. reflexivity. }
    rewrite E1 in E. unfold w_set in E. rewrite U0 in E. injection E as <-.
    assert (Sub : exists X, Permutation (hp_live (w_heap w)) (X ++ hp_live hp1)).
    { destruct o as [d [[a l]|]]; unfold unreached in P1; simpl in *.
      - exists (a :: firstn (Z.to_nat (d + 1)) l). rewrite P, Q0, P1. simpl.
        rewrite <- app_assoc. apply perm_skip.
        rewrite <- (firstn_skipn (Z.to_nat (d + 1)) l) at 1. rewrite <- !app_assoc. reflexivity.
      - exists []. simpl. rewrite P, Q0, P1. reflexivity. }
    destruct Sub as [X SX].
    exists (World hp1 l0), (unreached o ++ lk). split; [reflexivity|]. split.
    + split; [|split; [|split]]; cbn [w_heap w_objs].
      * rewrite P1. apply Permutation_app_swap_app.
      * eapply NoDup_sub; [exact ND|exact SX].
      * rewrite Nx. apply (Permutation_Forall SX) in Fr. apply Forall_app in Fr. tauto.
      * eapply Forall_upd; [exact U0|exact Fo|exact I].
    + intros T _. pose proof (forall_nth _ _ _ _ T N) as To.
      rewrite (unreached_tight _ To). split; [reflexivity|]. simpl.
      eapply Forall_upd; [exact U0|exact T|exact I].
Qed.

Lemma w_init_inv n : WInv (w_init n) [] /\ Forall obj_tight (w_objs (w_init n)).
Proof.
  unfold WInv, w_init; simpl.
  assert (A : all_owned (repeat None n) = []) by (induction n; simpl; auto).
  assert (B : forall P : option robj -> Prop, P None -> Forall P (repeat None n)).
  { intros P HP. induction n; simpl; constructor; auto. }
  rewrite A. repeat split; try constructor; apply B; exact I.
Qed.

(* every prefix of a careful history is careful *)
Fixpoint careful_run (w : world) (ops : list wop) : Prop :=
  match ops with
  | [] => True
  | o :: r => careful w o /\
      match w_step w o with Some (Ok w') => careful_run w' r | _ => True end
  end.

Lemma w_run_inv ops : forall w lk r, WInv w lk -> w_run w ops = Some r ->
  exists w' lk', r = Ok w' /\ WInv w' lk' /\
    (Forall obj_tight (w_objs w) -> careful_run w ops -> lk' = lk /\ Forall obj_tight (w_objs w')).
Proof.
  induction ops as [|o t IH]; intros w lk r Inv E; simpl in E.
  - injection E as <-. exists w, lk. split; [reflexivity|]. split; [exact Inv|]. auto.
  - destruct (w_step w o) as [r1|] eqn:S; [|discriminate].
    destruct (w_step_inv w lk o r1 Inv S) as (w1 & lk1 & -> & Inv1 & C1).
    destruct (IH w1 lk1 r Inv1 E) as (w2 & lk2 & -> & Inv2 & C2).
    exists w2, lk2. split; [reflexivity|]. split; [exact Inv2|].
    intros T [Co Cr]. rewrite S in Cr. destruct (C1 T Co) as [-> T1].
    apply C2; assumption.
Qed.

(* memory safety for every history; every legal coefficient access of every
   object that owns storage hits a live array *)
Definition legal_address (o : robj) (k : coef) : Z * Z :=
  match k with CC i j => (i, j) | SS i j => (o_degree o - i, o_degree o - i + j) end.

Lemma history_safe nvars ops r : w_run (w_init nvars) ops = Some r ->
  exists w, r = Ok w /\
    forall v o k, nth_error (w_objs w) v = Some (Some o) -> o_data o <> None ->
      legal (o_degree o) k ->
      exists row, o_access w o (fst (legal_address o k)) (snd (legal_address o k)) = Ok row.
Proof.
  intros E. destruct (w_run_inv ops _ _ r (proj1 (w_init_inv nvars)) E) as (w & lk & -> & Inv & _).
  exists w. split; [reflexivity|]. intros v o k N D Lk.
  destruct Inv as (P & ND & Fr & Fo). pose proof (forall_nth _ _ _ _ Fo N) as Oo.
  destruct (all_owned_take _ _ _ N) as (l0 & _ & Q0).
  assert (Live : forall x, In x (owned (Some o)) -> existsb (Nat.eqb x) (hp_live (w_heap w)) = true).
  { intros x Hx. apply existsb_exists. exists x. split; [|apply Nat.eqb_refl].
    rewrite P, Q0. apply in_or_app. left. apply in_or_app. left. exact Hx. }
  destruct o as [d [[a l]|]]; [|contradiction]. simpl in *.
  set (rc := legal_address (RObj d (Some (a, l))) k).
  assert (Br : 0 <= fst rc <= d /\ 0 <= snd rc <= d).
  { unfold rc. destruct k as [i j|i j]; simpl in *; lia. }
  unfold o_access. simpl.
  destruct (Z.ltb_spec (fst rc) 0); [lia|]. destruct (Z.ltb_spec (snd rc) 0); [lia|]. simpl.
  unfold load. destruct (nth_error l (Z.to_nat (fst rc))) as [row|] eqn:En.
  2:{ apply nth_error_None in En. lia. }
  simpl. rewrite (proj2 (Nat.ltb_lt _ _)) by lia.
  rewrite (Live row), (Live a).
  - simpl. eexists; reflexivity.
  - left. reflexivity.
  - right. eapply nth_error_In, En.
Qed.

(* careful histories never leak: when all objects are gone, no array is live *)
Lemma careful_history_no_leak nvars ops w : w_run (w_init nvars) ops = Some (Ok w) ->
  careful_run (w_init nvars) ops -> Forall (fun o => o = None) (w_objs w) ->
  hp_live (w_heap w) = [].
Proof.
  intros E C N. destruct (w_init_inv nvars) as [I0 T0].
  destruct (w_run_inv ops _ _ _ I0 E) as (w' & lk & Q & (P & _) & G). injection Q as <-.
  destruct (G T0 C) as [-> _].
  assert (A : all_owned (w_objs w) = []).
  { clear -N. induction N as [|x l -> _ IH]; simpl; [reflexivity|exact IH]. }
  rewrite A in P. apply Permutation_sym, Permutation_nil in P. exact P.
Qed.

(* degree() is what was asked for last *)
Lemma degree_after_resize w v n w' : w_step w (WResize v n) = Some (Ok w') ->
  (exists d, nth_error (w_objs w') v = Some (Some (RObj n d))) /\
  forall u, u <> v -> nth_error (w_objs w') u = nth_error (w_objs w) u.
Proof.
  intros E. cbn [w_step] in E. destruct (n <? 0); [discriminate|].
  destruct (nth_error (w_objs w) v) as [[o|]|]; try discriminate.
  destruct (n <=? o_degree o).
  - unfold w_set in E. destruct (upd _ v _) as [l'|] eqn:U; [|discriminate].
    injection E as <-. split; [eexists; simpl; apply (upd_nth_same _ _ _ _ U)|].
    intros u Hu. simpl. rewrite (upd_nth _ _ _ _ U). destruct (Nat.eqb_spec u v); [contradiction|reflexivity].
  - destruct (o_deallocate _ o) as [hp|]; [|discriminate].
    destruct (o_allocate hp n) as [hp' d]. unfold w_set in E.
    destruct (upd _ v _) as [l'|] eqn:U; [|discriminate].
    injection E as <-. split; [eexists; simpl; apply (upd_nth_same _ _ _ _ U)|].
    intros u Hu. simpl. rewrite (upd_nth _ _ _ _ U). destruct (Nat.eqb_spec u v); [contradiction|reflexivity].
Qed.

(* shrinking leaks; so does move assignment over a live object; a default
   constructed object resized to degree 0 has no storage for C(0,0) *)
Lemma ownership_refuted :
  (exists w, w_run (w_init 1) [WNew 0 3; WResize 0 1; WDestroy 0] = Some (Ok w) /\
     Forall (fun o => o = None) (w_objs w) /\ hp_live (w_heap w) <> []) /\
  (exists w, w_run (w_init 2) [WNew 0 1; WNew 1 1; WMoveAssign 0 1; WDestroy 0; WDestroy 1] = Some (Ok w) /\
     Forall (fun o => o = None) (w_objs w) /\ hp_live (w_heap w) <> []) /\
  (exists w o, w_run (w_init 1) [WNewDefault 0; WResize 0 0] = Some (Ok w) /\
     nth_error (w_objs w) 0 = Some (Some o) /\ o_degree o = 0 /\ o_access w o 0 0 = UB).
Proof.
  split; [|split].
  - eexists. split; [vm_compute; reflexivity|]. split; [repeat constructor|discriminate].
  - eexists. split; [vm_compute; reflexivity|]. split; [repeat constructor|discriminate].
  - eexists. eexists. split; [vm_compute; reflexivity|]. split; [reflexivity|]. split; reflexivity.
Qed.

Example careful_case :
  let ops := [WNew 0 2; WResize 0 5; WNewDefault 1; WMoveAssign 1 0; WDestroy 0; WDestroy 1] in
  careful_run (w_init 2) ops /\ exists w, w_run (w_init 2) ops = Some (Ok w).
Proof. split; [vm_compute; repeat split; discriminate|]. eexists. vm_compute. reflexivity. Qed.

Lemma denormalize_twice (h h' : hc R) order order2 :
  denormalize h order = Ok (DRet 0 h') -> denormalize h' order2 = Ok (DRet 0 h').
Proof.
  intros E. apply denormalize_noop. unfold denormalize in E.
  destruct (h_normalized h) eqn:N; simpl in E.
  - destruct ((if order <? 0 then h_degree h else order) >? h_degree h) eqn:G; [discriminate|].
    destruct (h_degree h >? 0) eqn:D; simpl in E; [|discriminate].
    destruct (denorm_loop h _ _ _) as [rows'|]; simpl in E; [|discriminate].
    injection E as <-. reflexivity.
  - injection E as <-. exact N.
Qed.
