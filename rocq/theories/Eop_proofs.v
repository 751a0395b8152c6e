From Coq Require Import List Arith Bool Lia.
From Verif Require Import Base Poly_proofs Eop_model.
Import ListNotations.

(* ---- abstract tables: a capacity and the cells last written ---- *)
Section Spec.
Variable V : Type.
Definition amap := column -> nat -> option V.
Definition col_eqb (a b : column) : bool := Nat.eqb (col_nr a) (col_nr b).
Definition a_empty : amap := fun _ _ => None.
Definition a_put (f : amap) (c : column) (i : nat) (v : V) : amap :=
  fun c' i' => if col_eqb c c' && Nat.eqb i i' then Some v else f c' i'.
(* None: a row outside the capacity is used *)
Fixpoint a_run (cap : nat) (f : amap) (ops : list (eop V)) : option (nat * amap) :=
  match ops with
  | [] => Some (cap, f)
  | EWrite c i v :: rest => if i <? cap then a_run cap (a_put f c i v) rest else None
  | EResize n :: rest => if n <? cap then a_run cap f rest else a_run n a_empty rest
  end.

Lemma col_eqb_iff a b : col_eqb a b = true <-> a = b.
Proof. destruct a, b; cbn; split; intros; try reflexivity; try discriminate. Qed.

(* a table whose eight columns hold f *)
Definition holds (t : table V) (cap : nat) (f : amap) : Prop :=
  t_cap t = cap /\ t_base t = bases cap /\
  exists a, t_arena t = Some a /\ length a = cap * 8 /\
    forall c i, i < cap -> nth_error a (col_nr c * cap + i) = Some (f c i).

Lemma bases_nth cap c : load (bases cap) (col_nr c) = Ok (col_nr c * cap).
Proof. destruct c; reflexivity. Qed.
Lemma col_lt c : col_nr c < 8.
Proof. destruct c; cbn; lia. Qed.
Lemma col_inj a b : col_nr a = col_nr b -> a = b.
Proof. destruct a, b; cbn; congruence. Qed.
Lemma addr_lt cap c i : i < cap -> col_nr c * cap + i < cap * 8.
Proof. pose proof (col_lt c). nia. Qed.
Lemma addr_inj cap c i c' i' : i < cap -> i' < cap -> col_nr c * cap + i = col_nr c' * cap + i' -> c = c' /\ i = i'.
Proof.
  intros H H' E. assert (X : col_nr c = col_nr c').
  { destruct (Nat.lt_total (col_nr c) (col_nr c')) as [L|[?|L]]; [exfalso; nia|assumption|exfalso; nia]. }
  split; [apply col_inj, X|]. rewrite X in E. lia.
Qed.

Lemma new_holds cap : holds (t_new V cap) cap a_empty.
Proof.
  split; [reflexivity|]. split; [reflexivity|]. exists (fresh V cap). split; [reflexivity|].
  split; [apply repeat_length|]. intros c i H. unfold fresh. rewrite nth_error_repeat by (apply addr_lt, H). reflexivity.
Qed.

Lemma get_ok t cap f c i : holds t cap f -> i < cap -> t_get t c i = Ok (f c i).
Proof.
  intros (_ & B & a & A & L & N) H. unfold t_get. rewrite A, B, bases_nth. cbn [obind]. unfold load.
  rewrite N by exact H. reflexivity.
Qed.

Lemma set_holds t cap f c i v : holds t cap f -> i < cap ->
  exists t', t_set t c i v = Ok t' /\ holds t' cap (a_put f c i v).
Proof.
  intros (C & B & a & A & L & N) H. unfold t_set. rewrite A, B, bases_nth. cbn [obind].
  assert (LI : col_nr c * cap + i < length a) by (rewrite L; apply addr_lt, H).
  rewrite store_set by exact LI. cbn [obind]. eexists. split; [reflexivity|].
  split; [exact C|]. split; [reflexivity|]. eexists. split; [reflexivity|].
  split; [rewrite set_nth_length by exact LI; exact L|].
  intros c' i' H'. rewrite nth_set_nth by exact LI. unfold a_put.
  destruct (Nat.eqb_spec (col_nr c' * cap + i') (col_nr c * cap + i)) as [E|NE].
  - destruct (addr_inj _ _ _ _ _ H' H E) as [-> ->]. rewrite Nat.eqb_refl.
    replace (col_eqb c c) with true by (symmetry; apply col_eqb_iff; reflexivity). reflexivity.
  - rewrite N by exact H'. destruct (col_eqb c c') eqn:EC; [|reflexivity]. apply col_eqb_iff in EC. subst c'.
    destruct (Nat.eqb_spec i i') as [->|_]; [contradiction|reflexivity].
Qed.

Lemma resize_holds t cap f n : holds t cap f ->
  if n <? cap then holds (t_resize t n) cap f else holds (t_resize t n) n a_empty.
Proof.
  intros (C & B & a & A & L & N). unfold t_resize. rewrite C. destruct (n <? cap).
  - split; [reflexivity|]. split; [exact B|]. exists a. auto.
  - exact (new_holds n).
Qed.

Lemma columns_ok cap ops cap' f : a_run cap a_empty ops = Some (cap', f) ->
  exists t, e_run (t_new V cap) ops = Ok t /\ t_cap t = cap' /\
            forall c i, i < cap' -> t_get t c i = Ok (f c i).
Proof.
  assert (G : forall ops t cap g, holds t cap g -> a_run cap g ops = Some (cap', f) ->
    exists t', e_run t ops = Ok t' /\ holds t' cap' f).
  { clear. induction ops as [|op ops IH]; intros t cap g H E; cbn [a_run e_run] in *.
    - injection E as <- <-. exists t. auto.
    - destruct op as [c i v|n].
      + destruct (Nat.ltb_spec i cap); [|discriminate]. destruct (set_holds t cap g c i v H) as (t' & S & H'); [assumption|].
        cbn [e_step]. rewrite S. cbn [obind]. exact (IH _ _ _ H' E).
      + cbn [e_step obind]. pose proof (resize_holds t cap g n H) as R. destruct (n <? cap); exact (IH _ _ _ R E). }
  intros E. destruct (G ops (t_new V cap) cap a_empty (new_holds cap) E) as (t & R & H).
  exists t. split; [exact R|]. split; [exact (proj1 H)|]. intros c i L. exact (get_ok t cap' f c i H L).
Qed.

(* addresses: disjoint columns inside the arena *)
Lemma columns_disjoint cap ops t : e_run (t_new V cap) ops = Ok t ->
  exists a, t_arena t = Some a /\
    (forall c i, i < t_cap t -> exists b, nth_error (t_base t) (col_nr c) = Some b /\ b + i < length a) /\
    (forall c i c' i' b b', i < t_cap t -> i' < t_cap t ->
       nth_error (t_base t) (col_nr c) = Some b -> nth_error (t_base t) (col_nr c') = Some b' ->
       b + i = b' + i' -> c = c' /\ i = i') /\ t_sz t <= t_cap t.
Proof.
  assert (G : forall ops t0, (t_base t0 = bases (t_cap t0) /\ (exists a, t_arena t0 = Some a /\ length a = t_cap t0 * 8) /\ t_sz t0 <= t_cap t0) ->
     e_run t0 ops = Ok t -> t_base t = bases (t_cap t) /\ (exists a, t_arena t = Some a /\ length a = t_cap t * 8) /\ t_sz t <= t_cap t).
  { clear. induction ops as [|op ops IH]; intros t0 (B & (a & A & L) & S) E; cbn [e_run] in E.
    - injection E as <-. eauto.
    - destruct op as [c i v|n]; cbn [e_step] in E.
      + unfold t_set in E. rewrite A in E. destruct (load (t_base t0) (col_nr c)) as [b|]; cbn [obind] in E; [|discriminate].
        destruct (store a (b + i) (Some v)) as [a'|] eqn:ES; cbn [obind] in E; [|discriminate].
        apply IH in E; [exact E|]. cbn [t_base t_cap t_arena t_sz]. split; [exact B|]. split; [|exact S]. exists a'. split; [reflexivity|].
        unfold store in ES. destruct (upd a (b + i) (Some v)) eqn:U; [|discriminate]. injection ES as <-.
        rewrite (upd_length _ _ _ _ U). exact L.
      + cbn [obind] in E. apply IH in E; [exact E|]. unfold t_resize. destruct (Nat.ltb_spec n (t_cap t0)); cbn [t_base t_cap t_arena t_sz].
        * split; [exact B|]. split; [eauto|]. lia.
        * split; [reflexivity|]. split; [exists (fresh V n); split; [reflexivity|apply repeat_length]|lia]. }
  intros E. apply G in E; [|split; [reflexivity|split; [exists (fresh V cap); split; [reflexivity|apply repeat_length]|cbn; lia]]].
  destruct E as (B & (a & A & L) & S). exists a. split; [exact A|]. rewrite B.
  assert (NB : forall c, nth_error (bases (t_cap t)) (col_nr c) = Some (col_nr c * t_cap t)) by (intros []; reflexivity).
  split; [|split; [|exact S]].
  - intros c i H. rewrite NB. eexists. split; [reflexivity|]. rewrite L. apply addr_lt, H.
  - intros c i c' i' b b' H H' E1 E2 E3. rewrite NB in E1, E2. injection E1 as <-. injection E2 as <-.
    exact (addr_inj _ _ _ _ _ H H' E3).
Qed.

(* ---- C13 ---- *)
(* same number of records and the same values in every column and row *)
Definition same_contents (a b : table V) : Prop :=
  t_sz a = t_sz b /\ forall c i, i < t_sz a -> exists v, t_get a c i = Ok v /\ t_get b c i = Ok v.
(* a table produced by any history of constructions, writes and resizes *)
Definition built (t : table V) : Prop := exists cap ops, e_run (t_new V cap) ops = Ok t.

Lemma built_inv t : built t -> t_base t = bases (t_cap t) /\ (exists a, t_arena t = Some a /\ length a = t_cap t * 8) /\ t_sz t <= t_cap t.
Proof.
  intros (cap & ops & E).
  assert (G : forall ops t0, (t_base t0 = bases (t_cap t0) /\ (exists a, t_arena t0 = Some a /\ length a = t_cap t0 * 8) /\ t_sz t0 <= t_cap t0) ->
     e_run t0 ops = Ok t -> t_base t = bases (t_cap t) /\ (exists a, t_arena t = Some a /\ length a = t_cap t * 8) /\ t_sz t <= t_cap t).
  { clear. induction ops as [|op ops IH]; intros t0 (B & (a & A & L) & S) E; cbn [e_run] in E.
    - injection E as <-. eauto.
    - destruct op as [c i v|n]; cbn [e_step] in E.
      + unfold t_set in E. rewrite A in E. destruct (load (t_base t0) (col_nr c)) as [b|]; cbn [obind] in E; [|discriminate].
        destruct (store a (b + i) (Some v)) as [a'|] eqn:ES; cbn [obind] in E; [|discriminate].
        apply IH in E; [exact E|]. cbn [t_base t_cap t_arena t_sz]. split; [exact B|]. split; [|exact S]. exists a'. split; [reflexivity|].
        unfold store in ES. destruct (upd a (b + i) (Some v)) eqn:U; [|discriminate]. injection ES as <-.
        rewrite (upd_length _ _ _ _ U). exact L.
      + cbn [obind] in E. apply IH in E; [exact E|]. unfold t_resize. destruct (Nat.ltb_spec n (t_cap t0)); cbn [t_base t_cap t_arena t_sz].
        * split; [exact B|]. split; [eauto|]. lia.
        * split; [reflexivity|]. split; [exists (fresh V n); split; [reflexivity|apply repeat_length]|lia]. }
  apply (G ops (t_new V cap)); [|exact E].
  split; [reflexivity|split; [exists (fresh V cap); split; [reflexivity|apply repeat_length]|cbn; lia]].
Qed.

Lemma move_ok t dst : built t ->
  same_contents t (fst (t_move t)) /\ same_contents t (fst (t_move_assign dst t)) /\
  t_sz (snd (t_move t)) = 0 /\ t_arena (snd (t_move t)) = None.
Proof.
  intros H. destruct (built_inv t H) as (B & (a & A & L) & S).
  assert (X : same_contents t (fst (t_move t))).
  { split; [reflexivity|]. intros c i Hi. unfold t_move, t_get. cbn [fst t_arena t_base]. rewrite A, B, bases_nth.
    cbn [obind]. unfold load. destruct (nth_error a (col_nr c * t_cap t + i)) as [v|] eqn:E.
    - exists v. split; reflexivity.
    - apply nth_error_None in E. pose proof (addr_lt (t_cap t) c i). lia. }
  split; [exact X|]. split; [exact X|]. split; reflexivity.
Qed.

(* memcpy of [bytes] bytes *)
Lemma copy_cells_ok n : forall dst d src s, d + n <= length dst -> s + n <= length src ->
  exists r, copy_cells (V := V) n dst d src s = Ok r /\ length r = length dst /\
    forall j, nth_error r j = if (d <=? j) && (j <? d + n) then nth_error src (s + (j - d)) else nth_error dst j.
Proof.
  induction n as [|n IH]; intros dst d src s Hd Hs; cbn [copy_cells].
  - exists dst. split; [reflexivity|]. split; [reflexivity|]. intros j.
    destruct (Nat.leb_spec d j), (Nat.ltb_spec j (d + 0)); try lia; reflexivity.
  - unfold load. destruct (nth_error src s) as [v|] eqn:E; [|apply nth_error_None in E; lia]. cbn [of_option obind].
    rewrite store_set by lia. cbn [obind].
    destruct (IH (set_nth dst d v) (S d) src (S s)) as (r & R & LR & NR);
      [rewrite set_nth_length by lia; lia|lia|].
    exists r. split; [exact R|]. split; [rewrite LR; apply set_nth_length; lia|]. intros j. rewrite NR, nth_set_nth by lia.
    destruct (Nat.leb_spec (S d) j), (Nat.ltb_spec j (S d + n)), (Nat.leb_spec d j), (Nat.ltb_spec j (d + S n)), (Nat.eqb_spec j d);
      try lia; cbn [andb]; try reflexivity.
    + f_equal. lia.
    + subst j. replace (s + (d - d)) with s by lia. now rewrite E.
Qed.

Lemma memcpy_ok dst d src s bytes : d + (bytes + 7) / 8 <= length dst -> s + (bytes + 7) / 8 <= length src ->
  exists r, memcpy_bytes (V := V) dst d src s bytes = Ok r /\ length r = length dst /\
    (forall j, d <= j < d + bytes / 8 -> nth_error r j = nth_error src (s + (j - d))) /\
    (forall j, j < d \/ d + (bytes + 7) / 8 <= j -> nth_error r j = nth_error dst j) /\
    (bytes mod 8 <> 0 -> nth_error r (d + bytes / 8) = Some None).
Proof.
  intros Hd Hs. unfold memcpy_bytes.
  pose proof (Nat.div_mod bytes 8 ltac:(lia)) as DM. pose proof (Nat.mod_upper_bound bytes 8 ltac:(lia)) as MB.
  assert (Q : (bytes + 7) / 8 = bytes / 8 + (if Nat.eqb (bytes mod 8) 0 then 0 else 1)).
  { set (q := bytes / 8) in *. set (m := bytes mod 8) in *. rewrite DM. destruct (Nat.eqb_spec m 0) as [->|NZ].
    - replace (8 * q + 0 + 7) with (7 + q * 8) by lia. rewrite Nat.div_add by lia. change (7 / 8) with 0; lia.
    - replace (8 * q + m + 7) with ((m - 1) + (q + 1) * 8) by lia. rewrite Nat.div_add by lia. rewrite Nat.div_small by lia. lia. }
  destruct (copy_cells_ok (bytes / 8) dst d src s) as (r & R & LR & NR); [lia|lia|]. rewrite R. cbn [obind].
  destruct (Nat.eqb_spec (bytes mod 8) 0) as [M0|M1].
  - exists r. split; [reflexivity|]. split; [exact LR|]. split; [|split].
    + intros j Hj. rewrite NR. destruct (Nat.leb_spec d j), (Nat.ltb_spec j (d + bytes / 8)); try lia; reflexivity.
    + intros j Hj. rewrite NR. destruct (Nat.leb_spec d j), (Nat.ltb_spec j (d + bytes / 8)); try lia; reflexivity.
    + intros C. contradiction.
  - unfold load. destruct (nth_error src (s + bytes / 8)) eqn:E; [|apply nth_error_None in E; lia]. cbn [of_option obind].
    assert (LI : d + bytes / 8 < length r) by lia. rewrite store_set by exact LI. eexists. split; [reflexivity|].
    split; [rewrite set_nth_length by exact LI; exact LR|]. split; [|split].
    + intros j Hj. rewrite nth_set_nth, NR by exact LI.
      destruct (Nat.leb_spec d j), (Nat.ltb_spec j (d + bytes / 8)), (Nat.eqb_spec j (d + bytes / 8)); try lia; reflexivity.
    + intros j Hj. rewrite nth_set_nth, NR by exact LI.
      destruct (Nat.leb_spec d j), (Nat.ltb_spec j (d + bytes / 8)), (Nat.eqb_spec j (d + bytes / 8)); try lia; reflexivity.
    + intros _. rewrite nth_set_nth by exact LI. rewrite Nat.eqb_refl. reflexivity.
Qed.

Lemma ceil8_le n : (n + 7) / 8 <= n.
Proof. destruct n; [reflexivity|]. apply Nat.div_le_upper_bound; lia. Qed.
Lemma floor8_le n : n / 8 <= (n + 7) / 8.
Proof. apply Nat.div_le_mono; lia. Qed.

(* the eight copies, sz bytes each *)
Lemma copy_columns_ok sz dcap scap src : sz <= dcap -> sz <= scap -> length src = scap * 8 ->
  forall n k dst, length dst = dcap * 8 -> k + n <= 8 ->
  exists r, copy_columns (V := V) k n dst dcap src scap sz = Ok r /\ length r = dcap * 8 /\
    (forall q i, k <= q < k + n -> i < sz / 8 -> nth_error r (q * dcap + i) = nth_error src (q * scap + i)) /\
    (forall q i, q < k \/ k + n <= q -> i < dcap -> nth_error r (q * dcap + i) = nth_error dst (q * dcap + i)) /\
    (forall q, k <= q < k + n -> sz mod 8 <> 0 -> nth_error r (q * dcap + sz / 8) = Some None) /\
    (forall q i, k <= q < k + n -> (sz + 7) / 8 <= i < dcap -> nth_error r (q * dcap + i) = nth_error dst (q * dcap + i)).
Proof.
  intros Hd Hs Ls. pose proof (ceil8_le sz) as C8. pose proof (floor8_le sz) as F8.
  induction n as [|n IH]; intros k dst Ld Hk; cbn [copy_columns].
  - exists dst. split; [reflexivity|]. split; [exact Ld|]. repeat split; intros; try lia.
  - destruct (memcpy_ok dst (k * dcap) src (k * scap) sz) as (r1 & R1 & L1 & N1 & O1 & P1); [nia|nia|].
    rewrite R1. cbn [obind]. destruct (IH (S k) r1) as (r & R & LR & N & O & P & K); [lia|lia|].
    exists r. split; [exact R|]. split; [exact LR|].
    assert (OUT : forall q i, q <> k -> i < dcap -> nth_error r1 (q * dcap + i) = nth_error dst (q * dcap + i)).
    { intros q i Hq Hi. apply O1. destruct (Nat.lt_total q k) as [L|[?|L]]; [left; nia|contradiction|right; nia]. }
    split; [|split; [|split]].
    + intros q i Hq Hi. destruct (Nat.eq_dec q k) as [->|NE].
      * rewrite O by (try lia). rewrite N1 by lia. f_equal. lia.
      * apply N; lia.
    + intros q i Hq Hi. rewrite O by (try exact Hi; lia). apply OUT; [lia|exact Hi].
    + intros q Hq M. assert (sz / 8 < dcap).
      { assert ((sz + 7) / 8 = sz / 8 + 1).
        { pose proof (Nat.div_mod sz 8 ltac:(lia)). pose proof (Nat.mod_upper_bound sz 8 ltac:(lia)).
          set (a := sz / 8) in *. set (m := sz mod 8) in *. rewrite H.
          replace (8 * a + m + 7) with ((m - 1) + (a + 1) * 8) by lia. rewrite Nat.div_add by lia. rewrite Nat.div_small by lia. lia. }
        lia. }
      destruct (Nat.eq_dec q k) as [->|NE]; [rewrite O by (try lia); apply P1, M|apply P; [lia|exact M]].
    + intros q i Hq Hi. destruct (Nat.eq_dec q k) as [->|NE].
      * rewrite O by (try lia). apply O1. right. lia.
      * rewrite K by lia. apply OUT; [lia|lia].
Qed.

(* copy construction: row i arrives exactly when i < sz/8; the other rows are indeterminate *)
Lemma copy_ok t : built t -> exists t', t_copy t = Ok t' /\ t_sz t' = t_sz t /\
  forall c i, i < t_sz t ->
    if i <? t_sz t / 8 then exists v, t_get t c i = Ok v /\ t_get t' c i = Ok v
    else t_get t' c i = Ok None.
Proof.
  intros H. destruct (built_inv t H) as (B & (a & A & L) & S). unfold t_copy. rewrite A.
  destruct (copy_columns_ok (t_sz t) (t_sz t) (t_cap t) a (le_n _) S L 8 0 (fresh V (t_sz t)))
    as (r & R & LR & N & _ & P & K); [apply repeat_length|lia|].
  rewrite R. cbn [obind]. eexists. split; [reflexivity|]. split; [reflexivity|]. intros c i Hi.
  assert (G : t_get {| t_sz := t_sz t; t_cap := t_sz t; t_arena := Some r; t_base := bases (t_sz t) |} c i = load r (col_nr c * t_sz t + i)).
  { unfold t_get. cbn [t_arena t_base]. rewrite bases_nth. reflexivity. }
  pose proof (col_lt c) as CL. rewrite G. unfold load.
  destruct (Nat.ltb_spec i (t_sz t / 8)) as [Lt|Ge].
  - unfold t_get. rewrite A, B, bases_nth. cbn [obind]. unfold load. rewrite N by lia.
    destruct (nth_error a (col_nr c * t_cap t + i)) as [v|] eqn:E; [exists v; auto|].
    apply nth_error_None in E. pose proof (addr_lt (t_cap t) c i). lia.
  - destruct (Nat.le_gt_cases ((t_sz t + 7) / 8) i) as [G8|L8].
    + rewrite K by lia. unfold fresh. rewrite nth_error_repeat by (apply addr_lt, Hi). reflexivity.
    + pose proof (Nat.div_mod (t_sz t) 8 ltac:(lia)) as DM. pose proof (Nat.mod_upper_bound (t_sz t) 8 ltac:(lia)) as MB.
      assert (M : t_sz t mod 8 <> 0 /\ i = t_sz t / 8).
      { set (q := t_sz t / 8) in *. set (m := t_sz t mod 8) in *. rewrite DM in L8. destruct (Nat.eq_dec m 0) as [M0|M0].
        - exfalso. rewrite M0 in L8. replace (8 * q + 0 + 7) with (7 + q * 8) in L8 by lia. rewrite Nat.div_add in L8 by lia. change (7 / 8) with 0 in L8. lia.
        - split; [exact M0|]. replace (8 * q + m + 7) with ((m - 1) + (q + 1) * 8) in L8 by lia. rewrite Nat.div_add in L8 by lia.
          rewrite Nat.div_small in L8 by lia. lia. }
      destruct M as [M ->]. rewrite P by (try exact M; lia). reflexivity.
Qed.

(* copy assignment *)
Lemma copy_assign_ok dst t : built dst -> built t -> exists t', t_copy_assign dst t = Ok t' /\ t_sz t' = t_sz t /\
  forall c i, i < t_sz t / 8 -> exists v, t_get t c i = Ok v /\ t_get t' c i = Ok v.
Proof.
  intros Hdst H. destruct (built_inv t H) as (B & (a & A & L) & S).
  set (d := if Nat.eqb (t_sz dst) (t_sz t) then dst else t_resize dst (t_sz t)).
  assert (Hd : built d /\ t_sz d = t_sz t).
  { unfold d. destruct (Nat.eqb_spec (t_sz dst) (t_sz t)); [auto|]. split.
    - destruct Hdst as (cap & ops & E). exists cap, (ops ++ [EResize (t_sz t)]).
      clear -E. revert E. generalize (t_new V cap). induction ops as [|op ops IH]; intros u E; cbn [e_run app] in *.
      + injection E as ->. reflexivity.
      + destruct (e_step u op); cbn [obind] in *; [apply IH, E|discriminate].
    - unfold t_resize. destruct (_ <? _); reflexivity. }
  destruct Hd as [Hd ES]. destruct (built_inv d Hd) as (B' & (a' & A' & L') & S').
  unfold t_copy_assign. fold d. rewrite A, A', ES.
  destruct (copy_columns_ok (t_sz t) (t_cap d) (t_cap t) a ltac:(lia) S L 8 0 a' L' ltac:(lia)) as (r & R & LR & N & _).
  rewrite R. cbn [obind]. eexists. split; [reflexivity|]. split; [reflexivity|]. intros c i Hi.
  pose proof (col_lt c) as CL.
  assert (LS : i < t_sz t) by (pose proof (ceil8_le (t_sz t)); pose proof (floor8_le (t_sz t)); lia).
  unfold t_get. cbn [t_arena t_base]. rewrite A, B, !bases_nth. cbn [obind]. unfold load. rewrite N by lia.
  destruct (nth_error a (col_nr c * t_cap t + i)) as [v|] eqn:E; [exists v; auto|].
  apply nth_error_None in E. pose proof (addr_lt (t_cap t) c i). lia.
Qed.
End Spec.
Arguments a_run {V}. Arguments a_empty {V}. Arguments built {V}. Arguments same_contents {V}.

(* witnesses *)
Definition one_row : table nat := Table 1 1 (Some (map (fun k => Some k) (seq 10 8))) (bases 1).
Lemma one_row_built : built one_row.
Proof.
  exists 1, [EWrite Mjd 0 10; EWrite Xp 0 11; EWrite Yp 0 12; EWrite Ut1 0 13; EWrite Dx 0 14; EWrite Dy 0 15;
             EWrite Lod 0 16; EWrite Omega 0 17]. reflexivity.
Qed.
Lemma copy_refuted : built one_row /\ t_get one_row Xp 0 = Ok (Some 11) /\
  exists t', t_copy one_row = Ok t' /\ t_get t' Xp 0 = Ok None.
Proof. split; [exact one_row_built|]. split; [reflexivity|]. eexists. split; vm_compute; reflexivity. Qed.

(* moving a table that does not fill its capacity, then copying: xp comes from the mjd column *)
Definition part_ops : list (eop nat) := [EResize 8; EWrite Mjd 8 5; EWrite Xp 0 11].
Lemma move_then_copy_refuted : exists t t', e_run (t_new nat 10) part_ops = Ok t /\
  t_get t Xp 0 = Ok (Some 11) /\ t_get (fst (t_move t)) Xp 0 = Ok (Some 11) /\
  t_copy (fst (t_move t)) = Ok t' /\ t_get t' Xp 0 = Ok (Some 5).
Proof.
  eexists _, _. split; [vm_compute; reflexivity|]. split; [vm_compute; reflexivity|].
  split; [vm_compute; reflexivity|]. split; vm_compute; reflexivity.
Qed.
