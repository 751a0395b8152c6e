From Coq Require Import List ZArith QArith Qpower Qfield Bool Lia Lqa.
From Verif Require Import Base RfoFit_model.
Import ListNotations.
Local Open Scope Z_scope.

(* ---------- specification ---------- *)
(* the epochs of the range: up to the first one at or after its end *)
Fixpoint wanted (start fin : Z) (bs : list block) : list block :=
  match bs with
  | [] => []
  | b :: bs => if fin <=? b_tl1 b then [] else if start <=? b_tl1 b then b :: wanted start fin bs else wanted start fin bs
  end.
(* did the iteration reach the end of the file *)
Fixpoint to_the_end (fin : Z) (bs : list block) : bool :=
  match bs with [] => true | b :: bs => if fin <=? b_tl1 b then false else to_the_end fin bs end.
(* the offset of an epoch is recorded with its first beacon *)
Definition has_offset (f_idx : Z) (b : block) (v : Q) : Prop :=
  exists o os, b_obs b = o :: os /\ 0 <= f_idx /\ nth_error o (Z.to_nat f_idx) = Some v.
Definition date (use_tai : bool) (b : block) : Z := if use_tai then b_tl1 b else b_proper b.
Fixpoint sumQ (l : list Q) : Q := match l with [] => 0%Q | x :: l => (x + sumQ l)%Q end.
(* what a group of epochs contributes: the average of the offsets, against powers of the seconds from
   the reference to the middle (rounded to a nanosecond towards the first) of its first and last date *)
Definition middle_of (t0 t1 t : Z) : Prop := 2 * t = t0 + t1 \/ 2 * t = t0 + t1 - Z.sgn (t1 - t0).
Definition is_point (use_tai : bool) (f_idx tref : Z) (g : list block) (p : Q * Q) : Prop :=
  exists vs first last t,
    Forall2 (has_offset f_idx) g vs /\ nth_error g 0 = Some first /\ nth_error g (length g - 1) = Some last /\
    middle_of (date use_tai first) (date use_tai last) t /\
    (fst p * inject_Z (Z.of_nat (length g)) == sumQ vs)%Q /\ (snd p == inject_Z (t - tref) / 1000000000)%Q.
(* its line in the equations *)
Definition line_of (order : nat) (p : Q * Q) (r : row) : Prop :=
  (exists v, rw_b r = Some v /\ v == fst p)%Q /\ length (rw_a r) = (order + 1)%nat /\
  forall k, (k <= order)%nat -> (nth k (rw_a r) 0 == snd p ^ Z.of_nat k)%Q.
Definition point_of (use_tai : bool) (f_idx tref : Z) (order : nat) (g : list block) (r : row) : Prop :=
  exists p, is_point use_tai f_idx tref g p /\ line_of order p r.
(* a polynomial and the squares of the misclosures *)
Fixpoint poly (cf : list Q) (x : Q) : Q := match cf with [] => 0%Q | c :: cf => (c + x * poly cf x)%Q end.
Definition cost (pts : list (Q * Q)) (cf : list Q) : Q := sumQ (map (fun p => (fst p - poly cf (snd p)) * (fst p - poly cf (snd p)))%Q pts).
Fixpoint different (ds : list Q) : Prop := match ds with [] => True | d :: ds => (forall e, In e ds -> ~ (d == e)%Q) /\ different ds end.
(* n dates at least *)
Definition enough_dates (n : nat) (pts : list (Q * Q)) : Prop :=
  exists ds, length ds = n /\ different ds /\ forall d, In d ds -> exists p, In p pts /\ (snd p == d)%Q.
(* what is asked of the solver: positive definite equations *)
Fixpoint inner (a b : list Q) : Q := match a, b with x :: a, y :: b => (x * y + inner a b)%Q | _, _ => 0%Q end.
Definition positive_definite (m : nat) (M : list (list Q)) : Prop :=
  length M = m /\ Forall (fun r => length r = m) M /\
  forall x, length x = m -> (exists c, In c x /\ ~ (c == 0)%Q) -> (0 < inner x (map (fun r => inner r x) M))%Q.
Definition solver (solve : list (list Q) -> list Q -> list Q) : Prop :=
  forall m M r, positive_definite m M -> length r = m -> length (solve M r) = m /\
  Forall2 Qeq (map (fun l => inner l (solve M r)) M) r.

(* ---------- lemmas ---------- *)
Lemma F2_length : forall {A B} (P : A -> B -> Prop) l m, Forall2 P l m -> length l = length m.
Proof. intros A B P l m F. induction F; cbn; auto. Qed.
Lemma total_from : forall l a, (fold_left Qplus l a == a + sumQ l)%Q.
Proof. induction l as [|x l IH]; intros a; cbn; [ring|]. rewrite IH. ring. Qed.
Lemma total_sum : forall l, (total l == sumQ l)%Q.
Proof. intros l. unfold total. rewrite total_from. ring. Qed.
Lemma f_value_ok : forall b f v, has_offset f b v -> f_value b f = Ok v.
Proof.
  intros b f v (o & os & E & F & N). unfold f_value. rewrite E.
  replace (f <? 0) with false by (symmetry; apply Z.ltb_ge; lia). unfold load. rewrite N. reflexivity.
Qed.
Lemma f_value_inv : forall b f v, f_value b f = Ok v -> has_offset f b v.
Proof.
  intros b f v. unfold f_value. destruct (b_obs b) as [|o os] eqn:E; [discriminate|].
  destruct (f <? 0) eqn:F; [discriminate|]. apply Z.ltb_ge in F. unfold load.
  destruct (nth_error o (Z.to_nat f)) eqn:N; [|discriminate]. intros [= <-]. exists o, os. auto.
Qed.

Lemma powers_length : forall n a dt, length (powers a dt n) = n.
Proof. induction n; intros; cbn; auto. Qed.
Lemma Qpow_S : forall (q : Q) n, (q ^ Z.of_nat (S n) == q ^ Z.of_nat n * q)%Q.
Proof.
  intros q n. destruct n as [|n].
  - cbn. ring.
  - change (Z.of_nat (S n)) with (Zpos (Pos.of_succ_nat n)).
    replace (Z.of_nat (S (S n))) with (Zpos (Pos.of_succ_nat n + 1)) by (cbn; lia).
    cbn [Qpower]. rewrite Qpower_plus_positive. cbn. reflexivity.
Qed.
Lemma powers_nth : forall n k a dt m, (k < n)%nat -> (a == dt ^ Z.of_nat m)%Q ->
  (nth k (powers a dt n) 0 == dt ^ Z.of_nat (S (m + k)))%Q.
Proof.
  induction n as [|n IH]; intros k a dt m K A; [lia|]. cbn [powers].
  destruct k as [|k].
  - cbn [nth]. rewrite Nat.add_0_r, Qpow_S, A. reflexivity.
  - cbn [nth]. rewrite (IH k _ dt (S m)); [|lia|].
    + replace (S m + k)%nat with (m + S k)%nat by lia. reflexivity.
    + rewrite Qpow_S, A. reflexivity.
Qed.
Lemma design_spec : forall order dt, (1 <= order)%nat ->
  length (design order dt) = (order + 1)%nat /\
  forall k, (k <= order)%nat -> (nth k (design order dt) 0 == dt ^ Z.of_nat k)%Q.
Proof.
  intros order dt O. split.
  - unfold design. cbn [length]. rewrite powers_length. lia.
  - intros k K. unfold design. destruct k as [|[|k]].
    + cbn. reflexivity.
    + cbn. reflexivity.
    + cbn [nth]. rewrite (powers_nth _ _ _ _ 1%nat); [reflexivity|lia|]. cbn. reflexivity.
Qed.
Lemma middle_middle : forall a b, middle_of a b (middle a b).
Proof.
  intros a b. unfold middle_of, middle.
  pose proof (Z.quot_rem' (b - a) 2) as E. pose proof (Z.rem_bound_abs (b - a) 2 ltac:(lia)) as B.
  change (Z.abs 2) with 2 in B.
  destruct (Z.eq_dec (Z.rem (b - a) 2) 0) as [Z0|Z0]; [left; lia|].
  right. destruct (Z.lt_trichotomy (b - a) 0) as [L|[L|L]].
  - rewrite (Z.sgn_neg _ L). pose proof (Z.rem_nonpos (b - a) 2 ltac:(lia) ltac:(lia)). lia.
  - rewrite L in Z0. cbn in Z0. lia.
  - rewrite (Z.sgn_pos _ L). pose proof (Z.rem_nonneg (b - a) 2 ltac:(lia) ltac:(lia)). lia.
Qed.

Section Loop.
Variables (use_tai : bool) (every order cap : nat) (f_idx start fin tref : Z).
Notation take := (take_block use_tai every order cap f_idx tref).
Notation reads := (read_blocks use_tai every order cap f_idx start fin tref).
Fixpoint takes (st : rfo_state) (bs : list block) : outcome rfo_state :=
  match bs with [] => Ok st | b :: bs => do st <- take st b; takes st bs end.
Lemma reads_wanted : forall bs term st,
  reads term st bs = do s <- takes st (wanted start fin bs); Ok (s, if to_the_end fin bs then term else 0).
Proof.
  induction bs as [|b bs IH]; intros term st; cbn; [reflexivity|].
  destruct (fin <=? b_tl1 b) eqn:F.
  - apply Z.leb_le in F. replace (b_tl1 b <? fin) with false by (symmetry; apply Z.ltb_ge; lia).
    rewrite andb_false_r. reflexivity.
  - apply Z.leb_gt in F. replace (b_tl1 b <? fin) with true by (symmetry; apply Z.ltb_lt; lia).
    rewrite andb_true_r. destruct (start <=? b_tl1 b) eqn:S; cbn.
    + destruct (take st b) as [st'|]; cbn; [apply IH | reflexivity].
    + apply IH.
Qed.
Lemma takes_app : forall a b st, takes st (a ++ b) = do s <- takes st a; takes s b.
Proof.
  induction a as [|x a IH]; intros b st; cbn; [reflexivity|].
  destruct (take st x); cbn; auto.
Qed.

(* the buffer while a group is being collected *)
Definition part (q : nat) (rows : list row) (g : list block) (st : rfo_state) : Prop :=
  s_cval st = (q * every + length g)%nat /\ length (s_fs st) = every /\ s_rows st = rows /\
  exists vs, Forall2 (has_offset f_idx) g vs /\ firstn (length g) (s_fs st) = vs /\
  (forall b, nth_error g 0 = Some b -> s_t0 st = date use_tai b) /\
  (forall b, nth_error g (length g - 1) = Some b -> s_tend st = date use_tai b).

Lemma mod_at : forall q i, (i < every)%nat -> Nat.modulo (q * every + i) every = i.
Proof.
  intros q i L. rewrite Nat.add_comm, Nat.mod_add by lia. apply Nat.mod_small. exact L.
Qed.
Lemma store_ok : forall (l : list Q) i v, (i < length l)%nat -> exists l', store l i v = Ok l' /\
  length l' = length l /\ firstn (S i) l' = firstn i l ++ [v].
Proof.
  unfold store. induction l as [|x l IH]; intros i v L; [cbn in L; lia|].
  destruct i as [|i]; cbn [upd].
  - eexists. split; [reflexivity|]. cbn. auto.
  - cbn [length] in L. destruct (IH i v ltac:(lia)) as (l' & S1 & S2 & S3).
    destruct (upd l i v) as [l0|]; [|discriminate S1]. cbn in S1. injection S1 as ->.
    eexists. split; [reflexivity|]. cbn [length]. split; [congruence|].
    change (firstn (S (S i)) (x :: l')) with (x :: firstn (S i) l'). rewrite S3. reflexivity.
Qed.

Lemma part_step : forall q rows g st b v, (2 <= every)%nat -> part q rows g st -> (length g + 1 < every)%nat ->
  has_offset f_idx b v -> exists st', take st b = Ok st' /\ part q rows (g ++ [b]) st'.
Proof.
  intros q rows g st b v E (C & L & R & vs & V & F & T0 & TE) LG HO.
  unfold take_block. rewrite (f_value_ok _ _ _ HO). cbn.
  rewrite C. rewrite mod_at by lia.
  destruct (store_ok (s_fs st) (length g) v ltac:(lia)) as (fs & S1 & S2 & S3). rewrite S1. cbn.
  rewrite <- Nat.add_assoc. rewrite mod_at by lia.
  replace (Nat.eqb (length g + 1) 0) with false by (symmetry; apply Nat.eqb_neq; lia).
  eexists. split; [reflexivity|]. unfold part. cbn. rewrite app_length. cbn [length].
  repeat split; auto; try congruence.
  exists (vs ++ [v]). split; [|split; [|split]].
  - apply Forall2_app; auto.
  - rewrite Nat.add_1_r, S3, F. reflexivity.
  - intros b' N. destruct g as [|b0 g].
    + cbn in N. injection N as <-. cbn. reflexivity.
    + cbn [length]. cbn. cbn in N. apply T0. exact N.
  - intros b' N. replace (length g + 1 - 1)%nat with (length g) in N by lia.
    rewrite nth_error_app2 in N by lia. rewrite Nat.sub_diag in N. injection N as <-. reflexivity.
Qed.
Lemma part_last : forall q rows g st b v, (2 <= every)%nat -> (1 <= order)%nat -> part q rows g st -> (length g + 1 = every)%nat ->
  has_offset f_idx b v -> (length rows < cap)%nat ->
  exists st' r, take st b = Ok st' /\ part (S q) (rows ++ [r]) [] st' /\ point_of use_tai f_idx tref order (g ++ [b]) r.
Proof.
  intros q rows g st b v E OR (C & L & R & vs & V & F & T0 & TE) LG HO CAP.
  unfold take_block. rewrite (f_value_ok _ _ _ HO). cbn.
  rewrite C. rewrite mod_at by lia.
  destruct (store_ok (s_fs st) (length g) v ltac:(lia)) as (fs & S1 & S2 & S3). rewrite S1. cbn.
  replace (q * every + length g + 1)%nat with (S q * every + 0)%nat by lia. rewrite mod_at by lia. cbn [Nat.eqb].
  unfold push. rewrite R. replace (length rows <? cap)%nat with true by (symmetry; apply Nat.ltb_lt; exact CAP). cbn [obind].
  do 2 eexists. split; [reflexivity|]. split.
  - unfold part. cbn [s_cval s_fs s_rows length]. repeat split; auto; try congruence.
    exists []. split; [constructor|]. split; [reflexivity|]. split; intros b' N; discriminate N.
  - assert (FS : fs = vs ++ [v]).
    { rewrite F in S3. rewrite <- S3. symmetry. apply firstn_all2. rewrite S2, L. lia. }
    assert (G0 : exists b0, nth_error g 0 = Some b0).
    { destruct g as [|b0 g]; [cbn in LG; lia|]. exists b0. reflexivity. }
    destruct G0 as [b0 G0].
    eexists (_, _). split.
    + exists (vs ++ [v]), b0, b. eexists. cbn [fst snd]. rewrite app_length. cbn [length].
      split; [apply Forall2_app; auto|].
      split; [rewrite nth_error_app1; [exact G0 | destruct g; [discriminate | cbn; lia]]|].
      split; [replace (length g + 1 - 1)%nat with (length g) by lia; rewrite nth_error_app2, Nat.sub_diag by lia; reflexivity|].
      split; [apply middle_middle|].
      rewrite <- (T0 _ G0).
      split; [|unfold seconds_from; reflexivity].
      instantiate (1 := (total fs / inject_Z (Z.of_nat every))%Q).
      rewrite total_sum, FS, LG. field. intro Z0. unfold Qeq in Z0. cbn in Z0. lia.
    + unfold line_of. cbn [rw_b rw_a fst snd]. split; [eexists; split; reflexivity|].
      destruct (design_spec order (seconds_from (middle (s_t0 st) (if use_tai then b_tl1 b else b_proper b)) tref) OR) as [D1 D2].
      split; [exact D1|]. intros k K. rewrite (D2 k K). reflexivity.
Qed.
Lemma group_run : forall g2 g1 q rows st, (2 <= every)%nat -> (1 <= order)%nat -> part q rows g1 st ->
  (length g1 + length g2 = every)%nat -> g2 <> [] -> Forall (fun b => exists v, has_offset f_idx b v) g2 -> (length rows < cap)%nat ->
  exists st' r, takes st g2 = Ok st' /\ part (S q) (rows ++ [r]) [] st' /\ point_of use_tai f_idx tref order (g1 ++ g2) r.
Proof.
  induction g2 as [|b g2 IH]; intros g1 q rows st E OR P LG NE FO CAP; [congruence|].
  inversion FO as [|? ? [v HO] FO']; subst. cbn [takes].
  destruct g2 as [|b2 g2].
  - cbn [length] in LG. destruct (part_last q rows g1 st b v E OR P LG HO CAP) as (st' & r & T & P' & PT).
    rewrite T. cbn. exists st', r. auto.
  - cbn [length] in LG. destruct (part_step q rows g1 st b v E P ltac:(lia) HO) as (st1 & T & P1).
    rewrite T. cbn [obind].
    destruct (IH (g1 ++ [b]) q rows st1 E OR P1) as (st' & r & T' & P' & PT); auto.
    + rewrite app_length. cbn [length]. lia.
    + discriminate.
    + exists st', r. split; [exact T'|]. split; [exact P'|]. rewrite <- app_assoc in PT. exact PT.
Qed.
Lemma groups_run : forall gs q rows st, (2 <= every)%nat -> (1 <= order)%nat -> part q rows [] st ->
  Forall (fun g => length g = every) gs -> Forall (fun b => exists v, has_offset f_idx b v) (concat gs) -> (length rows + length gs <= cap)%nat ->
  exists st' rs, takes st (concat gs) = Ok st' /\ part (q + length gs) (rows ++ rs) [] st' /\
  Forall2 (point_of use_tai f_idx tref order) gs rs.
Proof.
  induction gs as [|g gs IH]; intros q rows st E OR P LG FO CAP.
  - exists st, []. cbn. rewrite app_nil_r, Nat.add_0_r. auto.
  - inversion LG as [|? ? L1 L2]; subst. cbn [concat length] in *. apply Forall_app in FO. destruct FO as [FO1 FO2].
    rewrite takes_app.
    destruct (group_run g [] q rows st E OR P) as (st1 & r & T & P1 & PT); auto; try (cbn; lia).
    { intros ->. cbn in L1. lia. }
    rewrite T. cbn [obind].
    destruct (IH (S q) (rows ++ [r]) st1 E OR P1 L2 FO2) as (st' & rs & T' & P' & PT').
    { rewrite app_length. cbn. lia. }
    exists st', (r :: rs). split; [exact T'|]. split.
    + replace (q + S (length gs))%nat with (S q + length gs)%nat by lia. rewrite <- app_assoc in P'. exact P'.
    + constructor; auto.
Qed.
(* some more epochs, less than a group *)
Lemma rest_run : forall g2 g1 q rows st, (2 <= every)%nat -> part q rows g1 st ->
  (length g1 + length g2 < every)%nat -> Forall (fun b => exists v, has_offset f_idx b v) g2 ->
  exists st', takes st g2 = Ok st' /\ part q rows (g1 ++ g2) st'.
Proof.
  induction g2 as [|b g2 IH]; intros g1 q rows st E P LG FO.
  - exists st. cbn. rewrite app_nil_r. auto.
  - inversion FO as [|? ? [v HO] FO']; subst. cbn [takes length] in *.
    destruct (part_step q rows g1 st b v E P ltac:(lia) HO) as (st1 & T & P1). rewrite T. cbn [obind].
    destruct (IH (g1 ++ [b]) q rows st1 E P1) as (st' & T' & P'); auto.
    + rewrite app_length. cbn. lia.
    + exists st'. rewrite <- app_assoc in P'. auto.
Qed.
End Loop.
Lemma part_start : forall use_tai every f_idx none rows, part use_tai every f_idx 0 rows [] (RS 0 (repeat 0%Q every) none none rows).
Proof.
  intros. unfold part. cbn. rewrite repeat_length. repeat split; auto.
  exists []. split; [constructor|]. split; [reflexivity|]. split; intros b N; discriminate N.
Qed.

Definition reference (tref : option Z) (file_ref : Z) : Z := match tref with Some t => t | None => file_ref end.

Lemma parse_groups : forall none use_tai every order cap f_idx start fin tref rows file_ref bs gs,
  (2 <= every)%nat -> (1 <= order)%nat ->
  wanted start fin bs = concat gs -> Forall (fun g => length g = every) gs -> gs <> [] ->
  Forall (fun b => exists v, has_offset f_idx b v) (concat gs) ->
  (length rows + length gs <= cap)%nat ->
  exists rs, parse_rinex_rfos none use_tai every order cap f_idx start fin tref rows file_ref (-1) bs = Ok (0, reference tref file_ref, rows ++ rs) /\
  Forall2 (point_of use_tai f_idx (reference tref file_ref) order) gs rs.
Proof.
  intros none use_tai every order cap f_idx start fin tref rows file_ref bs gs E OR W L NE FO CAP.
  destruct (groups_run use_tai every order cap f_idx (reference tref file_ref) gs 0 rows (RS 0 (repeat 0%Q every) none none rows) E OR (part_start _ _ _ _ _) L FO CAP) as (st & rs & T & P & PT).
  exists rs. split; [|exact PT].
  unfold parse_rinex_rfos. destruct every as [|e] eqn:EV; [lia|]. rewrite <- EV in *. 
  cbv zeta. fold (reference tref file_ref). rewrite reads_wanted, W, T. cbn [obind fst snd].
  replace (0 <? (if to_the_end fin bs then -1 else 0)) with false by (destruct (to_the_end fin bs); reflexivity).
  destruct P as (C & _ & R & _). unfold leftover. rewrite C. cbn [length].
  replace (Z.of_nat (0 + length gs) * 1) with (Z.of_nat (length gs)) by lia.
  assert (M : Z.rem (Z.of_nat ((0 + length gs) * every + 0) - 1) (Z.of_nat every) = Z.of_nat every - 1).
  { assert (1 <= length gs)%nat by (destruct gs; [congruence | cbn; lia]).
    replace (Z.of_nat ((0 + length gs) * every + 0) - 1) with ((Z.of_nat every - 1) + (Z.of_nat (length gs) - 1) * Z.of_nat every) by lia.
    rewrite Z.rem_mod_nonneg by lia. rewrite Z.mod_add by lia. apply Z.mod_small. lia. }
  rewrite M, Z.eqb_refl. cbn [obind]. rewrite R. reflexivity.
Qed.

(* the iterator's failure is reported *)
Lemma parse_reports : forall none use_tai every order cap f_idx start fin tref rows file_ref term bs r,
  to_the_end fin bs = true -> 0 < term ->
  parse_rinex_rfos none use_tai every order cap f_idx start fin tref rows file_ref term bs = Ok r -> fst (fst r) = 1.
Proof.
  intros none use_tai every order cap f_idx start fin tref rows file_ref term bs r TE T. unfold parse_rinex_rfos.
  destruct every as [|e]; [discriminate|]. cbv zeta. rewrite reads_wanted, TE.
  destruct (takes _ _ _ _ _ _ _ _) as [st|]; [|discriminate]. cbn [obind fst snd].
  replace (0 <? term) with true by (symmetry; apply Z.ltb_lt; exact T). intros [= <-]. reflexivity.
Qed.

(* epochs left over after the last complete group *)
Lemma parse_left : forall none use_tai every order cap f_idx start fin tref rows file_ref bs gs rest,
  (2 <= every)%nat -> (1 <= order)%nat ->
  wanted start fin bs = concat gs ++ rest -> Forall (fun g => length g = every) gs -> (2 <= length rest < every)%nat ->
  Forall (fun b => exists v, has_offset f_idx b v) (concat gs ++ rest) ->
  (length rows + length gs <= cap)%nat ->
  parse_rinex_rfos none use_tai every order cap f_idx start fin tref rows file_ref (-1) bs = UB.
Proof.
  intros none use_tai every order cap f_idx start fin tref rows file_ref bs gs rest E OR W L LR FO CAP.
  apply Forall_app in FO. destruct FO as [FO1 FO2].
  destruct (groups_run use_tai every order cap f_idx (reference tref file_ref) gs 0 rows (RS 0 (repeat 0%Q every) none none rows) E OR (part_start _ _ _ _ _) L FO1 CAP) as (st & rs & T & P & _).
  destruct (rest_run use_tai every order cap f_idx (reference tref file_ref) rest [] _ _ st E P ltac:(cbn; lia) FO2) as (st' & T' & P').
  unfold parse_rinex_rfos. destruct every as [|e] eqn:EV; [lia|]. rewrite <- EV in *.
  cbv zeta. fold (reference tref file_ref). rewrite reads_wanted, W, takes_app, T. cbn [obind]. rewrite T'. cbn [obind fst snd].
  replace (0 <? (if to_the_end fin bs then -1 else 0)) with false by (destruct (to_the_end fin bs); reflexivity).
  destruct P' as (C & _). unfold leftover. rewrite C. cbn [app].
  assert (M : Z.rem (Z.of_nat ((0 + length gs) * every + length rest) - 1) (Z.of_nat every) = Z.of_nat (length rest) - 1).
  { replace (Z.of_nat ((0 + length gs) * every + length rest) - 1) with ((Z.of_nat (length rest) - 1) + Z.of_nat (length gs) * Z.of_nat every) by lia.
    rewrite Z.rem_mod_nonneg by lia. rewrite Z.mod_add by lia. apply Z.mod_small. lia. }
  rewrite M. replace (Z.of_nat (length rest) - 1 =? Z.of_nat every - 1) with false by (symmetry; apply Z.eqb_neq; lia).
  replace (0 <? Z.of_nat (length rest) - 1) with true by (symmetry; apply Z.ltb_lt; lia). reflexivity.
Qed.
(* a single epoch left over *)
Lemma parse_left_one : forall none use_tai every order cap f_idx start fin tref rows file_ref bs gs b,
  (2 <= every)%nat -> (1 <= order)%nat ->
  wanted start fin bs = concat gs ++ [b] -> Forall (fun g => length g = every) gs ->
  Forall (fun b => exists v, has_offset f_idx b v) (concat gs ++ [b]) ->
  (length rows + length gs < cap)%nat ->
  exists rs a, parse_rinex_rfos none use_tai every order cap f_idx start fin tref rows file_ref (-1) bs = Ok (0, reference tref file_ref, rows ++ rs ++ [Row None a]).
Proof.
  intros none use_tai every order cap f_idx start fin tref rows file_ref bs gs b E OR W L FO CAP.
  apply Forall_app in FO. destruct FO as [FO1 FO2].
  destruct (groups_run use_tai every order cap f_idx (reference tref file_ref) gs 0 rows (RS 0 (repeat 0%Q every) none none rows) E OR (part_start _ _ _ _ _) L FO1 ltac:(lia)) as (st & rs & T & P & PTS).
  destruct (rest_run use_tai every order cap f_idx (reference tref file_ref) [b] [] _ _ st E P ltac:(cbn; lia) FO2) as (st' & T' & P').
  exists rs. eexists.
  unfold parse_rinex_rfos. destruct every as [|e] eqn:EV; [lia|]. rewrite <- EV in *.
  cbv zeta. fold (reference tref file_ref). rewrite reads_wanted, W, takes_app, T. cbn [obind]. rewrite T'. cbn [obind fst snd].
  replace (0 <? (if to_the_end fin bs then -1 else 0)) with false by (destruct (to_the_end fin bs); reflexivity).
  destruct P' as (C & _ & R & _). unfold leftover. rewrite C. cbn [app length].
  assert (M : Z.rem (Z.of_nat ((0 + length gs) * every + 1) - 1) (Z.of_nat every) = 0).
  { replace (Z.of_nat ((0 + length gs) * every + 1) - 1) with (Z.of_nat (length gs) * Z.of_nat every) by lia.
    rewrite Z.rem_mod_nonneg by lia. apply Z.mod_mul. lia. }
  rewrite M. replace (0 =? Z.of_nat every - 1) with false by (symmetry; apply Z.eqb_neq; lia).
  rewrite Z.ltb_irrefl. rewrite Z.eqb_refl. unfold push. rewrite R.
  replace (length (rows ++ rs) <? cap)%nat with true.
  - cbn [obind]. rewrite <- app_assoc. reflexivity.
  - symmetry. apply Nat.ltb_lt. rewrite app_length. rewrite <- (F2_length _ _ _ PTS). exact CAP.
Qed.
(* no epoch in the range *)
Lemma parse_empty : forall none use_tai every order cap f_idx start fin tref rows file_ref bs,
  (2 <= every)%nat -> wanted start fin bs = [] -> (length rows < cap)%nat ->
  exists v a, parse_rinex_rfos none use_tai every order cap f_idx start fin tref rows file_ref (-1) bs = Ok (0, reference tref file_ref, rows ++ [Row (Some v) a]) /\
  (v == 0)%Q /\ a = design order (days_from none (reference tref file_ref)).
Proof.
  intros none use_tai every order cap f_idx start fin tref rows file_ref bs E W CAP.
  unfold parse_rinex_rfos. destruct every as [|e] eqn:EV; [lia|]. rewrite <- EV in *.
  cbv zeta. fold (reference tref file_ref). rewrite reads_wanted, W. cbn [takes obind fst snd].
  replace (0 <? (if to_the_end fin bs then -1 else 0)) with false by (destruct (to_the_end fin bs); reflexivity).
  unfold leftover. cbn [s_cval s_rows s_fs s_t0 s_tend].
  assert (M : Z.rem (Z.of_nat 0 - 1) (Z.of_nat every) = -1).
  { change (Z.of_nat 0 - 1) with (- (1)). rewrite Z.rem_opp_l by lia. rewrite Z.rem_small by lia. reflexivity. }
  rewrite M. replace (-1 =? Z.of_nat every - 1) with false by (symmetry; apply Z.eqb_neq; lia).
  cbn [Z.ltb Z.compare Z.eqb]. unfold push. replace (length rows <? cap)%nat with true by (symmetry; apply Nat.ltb_lt; exact CAP).
  cbn [obind]. do 2 eexists. split; [reflexivity|]. split.
  - rewrite total_sum.
    assert (Z0 : forall n m, (sumQ (firstn n (repeat 0%Q m)) == 0)%Q).
    { induction n; destruct m; cbn; try reflexivity. rewrite IHn. reflexivity. }
    rewrite Z0. reflexivity.
  - unfold middle. rewrite Z.sub_diag. cbn [Z.quot Z.quotrem]. change (Z.quot 0 2) with 0. rewrite Z.add_0_r. reflexivity.
Qed.

(* ---------- the least squares solution ---------- *)
Lemma dotp_inner : forall a b, (dotp a b == inner a b)%Q.
Proof.
  intros a b. unfold dotp. rewrite total_sum. revert b.
  induction a as [|x a IH]; intros [|y b]; cbn; try reflexivity. rewrite IH. reflexivity.
Qed.
Lemma inner_comm : forall a b, (inner a b == inner b a)%Q.
Proof. induction a as [|x a IH]; intros [|y b]; cbn; try reflexivity. rewrite IH. ring. Qed.
Lemma inner_ext : forall a a', Forall2 Qeq a a' -> forall b b', Forall2 Qeq b b' -> (inner a b == inner a' b')%Q.
Proof.
  intros a a' F. induction F as [|x x' a a' E F IH]; intros b b' G; cbn; [reflexivity|].
  destruct G as [|y y' b b' E' G]; [reflexivity|]. rewrite E, E', (IH _ _ G). reflexivity.
Qed.
Lemma F2_refl : forall l, Forall2 Qeq l l.
Proof. induction l; constructor; auto; reflexivity. Qed.
Lemma F2_map : forall {A} (f g : A -> Q) l, (forall x, In x l -> (f x == g x)%Q) -> Forall2 Qeq (map f l) (map g l).
Proof.
  intros A f g l. induction l as [|x l IH]; intros H; cbn; constructor.
  - apply H. left. reflexivity.
  - apply IH. intros y I. apply H. right. exact I.
Qed.
Lemma inner_plus : forall {A} (f g : A -> Q) l y, (inner (map (fun k => f k + g k) l) y == inner (map f l) y + inner (map g l) y)%Q.
Proof.
  intros A f g l. induction l as [|x l IH]; intros [|y ys]; cbn; try ring. rewrite IH. ring.
Qed.
Lemma inner_scale : forall {A} (f : A -> Q) c l y, (inner (map (fun k => c * f k) l) y == c * inner (map f l) y)%Q.
Proof.
  intros A f c l. induction l as [|x l IH]; intros [|y ys]; cbn; try ring. rewrite IH. ring.
Qed.
Lemma inner_zero : forall a y, (forall c, In c a -> (c == 0)%Q) -> (inner a y == 0)%Q.
Proof.
  induction a as [|x a IH]; intros [|y ys] H; cbn; try reflexivity.
  rewrite (H x) by (left; reflexivity). rewrite IH by (intros; apply H; right; assumption). ring.
Qed.
Lemma nth_seq : forall (a : list Q), map (fun k => nth k a 0%Q) (seq 0 (length a)) = a.
Proof.
  intros a. induction a as [|x a IH]; cbn; [reflexivity|]. f_equal.
  rewrite <- seq_shift, map_map. exact IH.
Qed.
Lemma mat_apply : forall m (l : list (Q * list Q)) c y, Forall (fun r => length (snd r) = m) l ->
  (inner (map (fun k => inner c (col k l)) (seq 0 m)) y == inner c (map (fun r => inner (snd r) y) l))%Q.
Proof.
  intros m l. induction l as [|r l IH]; intros c y F.
  - cbn. rewrite inner_zero.
    + destruct c; reflexivity.
    + intros v I. apply in_map_iff in I. destruct I as (k & <- & _). destruct c; reflexivity.
  - inversion F as [|? ? F1 F2]; subst. destruct c as [|c0 c].
    + cbn. apply inner_zero. intros v I. apply in_map_iff in I. destruct I as (k & <- & _). reflexivity.
    + cbn [map inner col]. rewrite (inner_plus (fun k => c0 * nth k (snd r) 0)%Q (fun k => inner c (col k l))).
      rewrite inner_scale, nth_seq. change (map (fun r0 : Q * list Q => inner (snd r0) y) l) with (map (fun r0 : Q * list Q => inner (snd r0) y) l).
      rewrite IH by exact F2. reflexivity.
Qed.

Definition misfit (l : list (Q * list Q)) (y : list Q) : Q := sumQ (map (fun r => (fst r - inner (snd r) y) * (fst r - inner (snd r) y))%Q l).
Lemma inner_map_sum : forall {A} (f g : A -> Q) l, (inner (map f l) (map g l) == sumQ (map (fun x => f x * g x) l))%Q.
Proof. intros A f g l. induction l as [|x l IH]; cbn; [reflexivity|]. rewrite IH. reflexivity. Qed.
Lemma sum_plus : forall {A} (f g : A -> Q) l, (sumQ (map (fun x => f x + g x) l) == sumQ (map f l) + sumQ (map g l))%Q.
Proof. intros A f g l. induction l as [|x l IH]; cbn; [ring|]. rewrite IH. ring. Qed.
Lemma sum_scale : forall {A} (f : A -> Q) c l, (sumQ (map (fun x => c * f x) l) == c * sumQ (map f l))%Q.
Proof. intros A f c l. induction l as [|x l IH]; cbn; [ring|]. rewrite IH. ring. Qed.
Lemma sum_ext : forall {A} (f g : A -> Q) l, (forall x, In x l -> (f x == g x)%Q) -> (sumQ (map f l) == sumQ (map g l))%Q.
Proof.
  intros A f g l. induction l as [|x l IH]; intros H; cbn; [reflexivity|].
  rewrite (H x) by (left; reflexivity). rewrite IH by (intros; apply H; right; assumption). reflexivity.
Qed.
Lemma square_nonneg : forall q : Q, (0 <= q * q)%Q.
Proof. intros q. nra. Qed.
Lemma sum_nonneg : forall {A} (f : A -> Q) l, (forall x, In x l -> (0 <= f x)%Q) -> (0 <= sumQ (map f l))%Q.
Proof.
  intros A f l. induction l as [|x l IH]; intros H; cbn; [lra|].
  pose proof (H x (or_introl eq_refl)). pose proof (IH (fun y I => H y (or_intror I))). lra.
Qed.
Lemma sum_zero_squares : forall {A} (f : A -> Q) l, (sumQ (map (fun x => f x * f x) l) <= 0)%Q -> forall x, In x l -> (f x == 0)%Q.
Proof.
  intros A f l. induction l as [|y l IH]; intros H x I; [destruct I|]. cbn in H.
  pose proof (square_nonneg (f y)).
  assert (0 <= sumQ (map (fun x => f x * f x) l))%Q by (apply sum_nonneg; intros; apply square_nonneg).
  destruct I as [->|I].
  - assert (f x * f x == 0)%Q by lra. destruct (Qmult_integral _ _ H2); assumption.
  - apply IH; [lra|exact I].
Qed.
Lemma inner_sub : forall a y z, length y = length z -> (inner a z == inner a y + inner a (map (fun p => snd p - fst p) (combine y z)))%Q.
Proof.
  induction a as [|x a IH]; intros [|y ys] [|z zs] L; cbn in *; try discriminate; try ring.
  rewrite (IH ys zs) by lia. ring.
Qed.
Lemma F2_map_inv : forall {A} (f g : A -> Q) l, Forall2 Qeq (map f l) (map g l) -> forall x, In x l -> (f x == g x)%Q.
Proof.
  intros A f g l. induction l as [|y l IH]; intros H x I; [destruct I|].
  cbn in H. inversion H; subst. destruct I as [->|I]; auto.
Qed.
Lemma normal_min : forall m l y z, Forall (fun r => length (snd r) = m) l -> length y = m -> length z = m ->
  Forall2 Qeq (map (fun r => inner r y) (normal_matrix m l)) (normal_rhs m l) -> (misfit l y <= misfit l z)%Q.
Proof.
  intros m l y z F LY LZ N.
  set (d := map (fun p => snd p - fst p)%Q (combine y z)).
  set (e := fun r : Q * list Q => (fst r - inner (snd r) y)%Q).
  assert (O : (inner (map e l) (map (fun r => inner (snd r) d) l) == 0)%Q).
  { rewrite <- (mat_apply m) by exact F. apply inner_zero. intros c I.
    apply in_map_iff in I. destruct I as (i & <- & I).
    unfold normal_matrix, normal_rhs in N. rewrite map_map in N.
    pose proof (F2_map_inv _ _ _ N i I) as NI. cbn beta in NI. rewrite dotp_inner in NI.
    rewrite (inner_ext _ (map (fun k => inner (col i l) (col k l)) (seq 0 m)) (F2_map _ _ _ (fun k _ => dotp_inner _ _)) _ _ (F2_refl y)) in NI.
    rewrite (mat_apply m) in NI by exact F.
    unfold col in *. rewrite inner_map_sum in NI. rewrite inner_map_sum in NI. rewrite inner_map_sum.
    rewrite (sum_ext _ (fun r => nth i (snd r) 0 * fst r + (-1) * (nth i (snd r) 0 * inner (snd r) y))%Q) by (intros r _; unfold e; ring).
    rewrite sum_plus, sum_scale, NI. ring. }
  rewrite inner_map_sum in O. unfold misfit.
  rewrite (sum_ext (fun r => (fst r - inner (snd r) z) * (fst r - inner (snd r) z))%Q
    (fun r => e r * e r + ((-2) * (e r * inner (snd r) d) + inner (snd r) d * inner (snd r) d))%Q).
  2:{ intros r _. rewrite (inner_sub (snd r) y z) by lia. fold d. unfold e. ring. }
  rewrite sum_plus, sum_plus, sum_scale, O.
  assert (0 <= sumQ (map (fun r : Q * list Q => inner (snd r) d * inner (snd r) d) l))%Q by (apply sum_nonneg; intros; apply square_nonneg).
  change (sumQ (map (fun r : Q * list Q => (fst r - inner (snd r) y) * (fst r - inner (snd r) y))%Q l)) with (sumQ (map (fun r => e r * e r)%Q l)).
  lra.
Qed.
(* a polynomial with as many roots as coefficients is zero *)
Fixpoint quo (cf : list Q) (d : Q) : list Q :=
  match cf with [] => [] | c :: cf' => match cf' with [] => [] | _ => poly cf' d :: quo cf' d end end.
Lemma quo_length : forall cf d, length (quo cf d) = (length cf - 1)%nat.
Proof.
  induction cf as [|c cf IH]; intros d; [reflexivity|]. destruct cf as [|c' cf]; [reflexivity|].
  change (length (poly (c' :: cf) d :: quo (c' :: cf) d) = (length (c :: c' :: cf) - 1)%nat).
  cbn [length]. rewrite IH. cbn. lia.
Qed.
Lemma quo_spec : forall cf d x, (poly cf x == poly (quo cf d) x * (x - d) + poly cf d)%Q.
Proof.
  induction cf as [|c cf IH]; intros d x; [cbn; ring|]. destruct cf as [|c' cf]; [cbn; ring|].
  change (quo (c :: c' :: cf) d) with (poly (c' :: cf) d :: quo (c' :: cf) d).
  set (cf' := c' :: cf) in *. cbn [poly]. rewrite (IH d x). ring.
Qed.
Lemma quo_zero : forall cf d, (forall c, In c (quo cf d) -> (c == 0)%Q) -> (poly cf d == 0)%Q -> forall c, In c cf -> (c == 0)%Q.
Proof.
  induction cf as [|c cf IH]; intros d H P x I; [destruct I|].
  destruct cf as [|c' cf].
  - cbn in P. destruct I as [<-|[]]. rewrite <- P. ring.
  - change (quo (c :: c' :: cf) d) with (poly (c' :: cf) d :: quo (c' :: cf) d) in H.
    set (cf' := c' :: cf) in *.
    assert (P' : (poly cf' d == 0)%Q) by (apply H; left; reflexivity).
    destruct I as [<-|I].
    + cbn [poly] in P. rewrite P' in P. rewrite <- P. ring.
    + apply (IH d); auto. intros c0 I0. apply H. right. exact I0.
Qed.
Lemma roots_zero : forall ds cf, length cf = length ds -> different ds -> (forall d, In d ds -> (poly cf d == 0)%Q) ->
  forall c, In c cf -> (c == 0)%Q.
Proof.
  induction ds as [|d ds IH]; intros cf L D R c I.
  - destruct cf; [destruct I | discriminate].
  - destruct D as [D1 D2]. apply (quo_zero cf d).
    + apply IH; auto.
      * rewrite quo_length, L. cbn. lia.
      * intros x X. pose proof (quo_spec cf d x) as Q0. rewrite (R x) in Q0 by (right; exact X). rewrite (R d) in Q0 by (left; reflexivity).
        assert (Q1 : (poly (quo cf d) x * (x - d) == 0)%Q) by (rewrite Q0 at 1 || idtac; lra).
        destruct (Qmult_integral _ _ Q1) as [|Q2]; auto. exfalso. apply (D1 x X). lra.
    + apply R. left. reflexivity.
    + exact I.
Qed.
Lemma inner_powers : forall a x p dt, length a = length x -> (forall k, (k < length a)%nat -> (nth k a 0 == p * dt ^ Z.of_nat k)%Q) ->
  (inner a x == p * poly x dt)%Q.
Proof.
  induction a as [|v a IH]; intros [|y ys] p dt L H; cbn in L; try discriminate; [cbn; ring|].
  cbn [inner poly]. rewrite (IH ys (p * dt)%Q dt) by (try lia; intros k K; pose proof (H (S k) ltac:(cbn; lia)) as HK; cbn [nth] in HK; rewrite HK, Qpow_S; ring).
  pose proof (H 0%nat ltac:(cbn; lia)) as H0. cbn [nth] in H0. rewrite H0. cbn. ring.
Qed.
(* the equations of points *)
Lemma lines_finite : forall order pts rs, Forall2 (line_of order) pts rs -> exists l, finite rs = Some l /\
  Forall2 (fun p r => (fst r == fst p)%Q /\ length (snd r) = (order + 1)%nat /\ forall x, length x = (order + 1)%nat -> (inner (snd r) x == poly x (snd p))%Q) pts l.
Proof.
  intros order pts rs F. induction F as [|p r pts rs L F (l & E & IH)]; [exists []; split; [reflexivity|constructor]|].
  destruct L as ((v & V1 & V2) & L1 & L2). cbn. rewrite V1, E. eexists. split; [reflexivity|]. constructor; [|exact IH].
  cbn. split; [exact V2|]. split; [exact L1|]. intros x X. rewrite (inner_powers _ x 1%Q (snd p)); [ring|congruence|].
  intros k K. rewrite (L2 k) by lia. ring.
Qed.
Lemma misfit_cost : forall n pts l x, length x = n ->
  Forall2 (fun p r => (fst r == fst p)%Q /\ length (snd r) = n /\ forall x, length x = n -> (inner (snd r) x == poly x (snd p))%Q) pts l ->
  (misfit l x == cost pts x)%Q.
Proof.
  intros n pts l x X F. unfold misfit, cost. induction F as [|p r pts l (E1 & _ & E2) F IH]; cbn; [reflexivity|].
  rewrite IH, E1, (E2 x X). reflexivity.
Qed.
Lemma normal_positive : forall n pts l, (1 <= n)%nat -> enough_dates n pts ->
  Forall2 (fun p r => (fst r == fst p)%Q /\ length (snd r) = n /\ forall x, length x = n -> (inner (snd r) x == poly x (snd p))%Q) pts l ->
  positive_definite n (normal_matrix n l).
Proof.
  intros n pts l N (ds & LD & DD & ED) F. unfold positive_definite, normal_matrix.
  assert (FL : Forall (fun r => length (snd r) = n) l).
  { clear - F. induction F as [|p r pts l (_ & E & _) F IH]; constructor; auto. }
  split; [rewrite map_length, seq_length; reflexivity|].
  split; [apply Forall_map; apply Forall_forall; intros i _; rewrite map_length, seq_length; reflexivity|].
  intros x X (c & CI & CN). rewrite map_map.
  assert (E : (inner x (map (fun i => inner (map (fun k => dotp (col i l) (col k l)) (seq 0 n)) x) (seq 0 n)) ==
    sumQ (map (fun r => inner (snd r) x * inner (snd r) x) l))%Q).
  { rewrite inner_comm.
    assert (HH : forall i, In i (seq 0 n) -> (inner (map (fun k => dotp (col i l) (col k l)) (seq 0 n)) x == inner (map (fun r => inner (snd r) x) l) (col i l))%Q).
    { intros i _. rewrite (inner_ext _ (map (fun k => inner (col i l) (col k l)) (seq 0 n)) (F2_map _ _ _ (fun k _ => dotp_inner _ _)) _ _ (F2_refl x)).
      rewrite (mat_apply n) by exact FL. apply inner_comm. }
    rewrite (inner_ext _ _ (F2_map _ _ _ HH) _ _ (F2_refl x)).
    rewrite (mat_apply n) by exact FL. apply inner_map_sum. }
  rewrite E. apply Qnot_le_lt. intro NP. apply CN.
  pose proof (sum_zero_squares _ _ NP) as Z0.
  apply (roots_zero ds x); auto; [congruence|].
  intros d DI. destruct (ED d DI) as (p & PI & PE).
  assert (PZ : (poly x (snd p) == 0)%Q).
  { clear - F Z0 PI X. induction F as [|p' r pts l (_ & _ & E) F IH]; [destruct PI|].
    destruct PI as [->|PI].
    - rewrite <- (E x X). apply Z0. left. reflexivity.
    - apply IH; auto. intros r' I. apply Z0. right. exact I. }
  rewrite <- PZ. clear - PE. induction x as [|c x IH]; cbn [poly]; [reflexivity|]. rewrite IH, <- PE. reflexivity.
Qed.

(* ---------- the whole fit ---------- *)
(* a file whose epochs inside the range make complete groups *)
Definition complete (every : nat) (start fin : Z) (x : rinex) (gs : list (list block)) : Prop :=
  x_term x = -1 /\ wanted start fin (x_blocks x) = concat gs /\ gs <> [] /\ Forall (fun g => length g = every) gs /\
  Forall (fun b => exists v, has_offset (x_f x) b v) (concat gs).
(* the points of all files *)
Definition points (use_tai : bool) (tref : Z) (x : rinex) (gs : list (list block)) (pts : list (Q * Q)) : Prop :=
  Forall2 (is_point use_tai (x_f x) tref) gs pts.
Inductive all_points (use_tai : bool) (tref : Z) : list rinex -> list (list (list block)) -> list (Q * Q) -> Prop :=
| no_points : all_points use_tai tref [] [] []
| more_points : forall x xs gs gss p ps, points use_tai tref x gs p -> all_points use_tai tref xs gss ps ->
    all_points use_tai tref (x :: xs) (gs :: gss) (p ++ ps).
Fixpoint group_count (gss : list (list (list block))) : nat := match gss with [] => O | gs :: gss => (length gs + group_count gss)%nat end.

Lemma split_points : forall use_tai f tref order gs rs, Forall2 (point_of use_tai f tref order) gs rs ->
  exists ps, Forall2 (is_point use_tai f tref) gs ps /\ Forall2 (line_of order) ps rs.
Proof.
  intros use_tai f tref order gs rs F. induction F as [|g r gs rs (p & P1 & P2) F (ps & IH1 & IH2)].
  - exists []. split; constructor.
  - exists (p :: ps). split; constructor; auto.
Qed.
Lemma parse_all_run : forall none use_tai every order cap start fin t files gss rows, (2 <= every)%nat -> (1 <= order)%nat ->
  Forall2 (complete every start fin) files gss -> (length rows + group_count gss <= cap)%nat ->
  exists rs ps, parse_all none use_tai every order cap start fin (Some t) rows files = Ok (Some (Some t, rows ++ rs)) /\
  all_points use_tai t files gss ps /\ Forall2 (line_of order) ps rs.
Proof.
  intros none use_tai every order cap start fin t files gss rows E OR F. revert rows.
  induction F as [|x gs xs gss (T & W & NE & L & O) F IH]; intros rows CAP.
  - exists [], []. cbn. rewrite app_nil_r. repeat split; constructor.
  - cbn [group_count] in CAP. cbn [parse_all].
    destruct (parse_groups none use_tai every order cap (x_f x) start fin (Some t) rows (x_ref x) (x_blocks x) gs E OR W L NE O ltac:(lia)) as (rs & P & PT).
    rewrite T, P. cbn [obind Z.eqb reference].
    destruct (split_points _ _ _ _ _ _ PT) as (ps & PS1 & PS2).
    destruct (IH (rows ++ rs)) as (rs' & ps' & P' & A & LL).
    { rewrite app_length, <- (F2_length _ _ _ PT). lia. }
    exists (rs ++ rs'), (ps ++ ps'). rewrite P', app_assoc. split; [reflexivity|]. split.
    + constructor; assumption.
    + apply Forall2_app; assumption.
Qed.
(* the lines set aside for n groups: 17280 epochs a day, five seconds apart, and ten more *)
Definition fits (n every : nat) (num_days : Q) : Prop := (inject_Z (Z.of_nat n) <= inject_Z (17280 / Z.of_nat every) * num_days + 10)%Q.
Lemma room_fits : forall n every num_days, fits n every num_days -> (n <= room every num_days)%nat.
Proof.
  unfold fits, room. intros n every num_days. generalize (inject_Z (17280 / Z.of_nat every) * num_days + 10)%Q. intros [a d] H.
  unfold Qle, inject_Z in H. cbn [Qnum Qden] in *.
  assert (0 <= a) by nia. rewrite Z.quot_div_nonneg by lia.
  assert (Z.of_nat n <= a / Zpos d) by (apply Z.div_le_lower_bound; lia). lia.
Qed.
Lemma fit_least_squares : forall solve none use_tai every order start fin num_days x xs gss,
  solver solve -> (2 <= every)%nat -> (1 <= order)%nat -> Forall2 (complete every start fin) (x :: xs) gss ->
  fits (group_count gss) every num_days ->
  exists pts, all_points use_tai (x_ref x) (x :: xs) gss pts /\
  (enough_dates (order + 1) pts -> exists cf,
    fit_offsets solve none use_tai every order start fin num_days (x :: xs) = Ok (0, Some (Some (x_ref x), cf)) /\
    length cf = (order + 1)%nat /\ forall z, length z = (order + 1)%nat -> (cost pts cf <= cost pts z)%Q).
Proof.
  intros solve none use_tai every order start fin num_days x xs gss SO E OR F CAP. apply room_fits in CAP.
  assert (ST : parse_all none use_tai every order (room every num_days) start fin None [] (x :: xs) =
    parse_all none use_tai every order (room every num_days) start fin (Some (x_ref x)) [] (x :: xs)) by reflexivity.
  destruct (parse_all_run none use_tai every order (room every num_days) start fin (x_ref x) (x :: xs) gss [] E OR F CAP) as (rs & ps & P & A & L).
  exists ps. split; [exact A|]. intros ED.
  destruct (lines_finite _ _ _ L) as (l & FI & LL).
  pose proof (normal_positive (order + 1) ps l ltac:(lia) ED LL) as PD.
  assert (RL : length (normal_rhs (order + 1) l) = (order + 1)%nat) by (unfold normal_rhs; rewrite map_length, seq_length; reflexivity).
  destruct (SO _ _ _ PD RL) as [S1 S2].
  exists (solve (normal_matrix (order + 1) l) (normal_rhs (order + 1) l)).
  split; [|split; [exact S1|]].
  - unfold fit_offsets. destruct every as [|e] eqn:EV; [lia|]. rewrite <- EV in *. rewrite ST, P. cbn [obind app].
    rewrite FI. rewrite firstn_all2 by lia. reflexivity.
  - intros z ZL. rewrite <- (misfit_cost _ _ _ z ZL LL), <- (misfit_cost _ _ _ _ S1 LL).
    apply (normal_min (order + 1)); auto.
    clear - LL. induction LL as [|p r ps l (_ & H & _) LL IH]; constructor; auto.
Qed.
(* the code of a file that fails *)
Lemma fit_reports : forall solve none use_tai every order start fin num_days x xs r,
  to_the_end fin (x_blocks x) = true -> 0 < x_term x ->
  fit_offsets solve none use_tai every order start fin num_days (x :: xs) = Ok r -> r = (1, None).
Proof.
  intros solve none use_tai every order start fin num_days x xs r TE T. unfold fit_offsets. destruct every as [|e] eqn:EV; [discriminate|]. rewrite <- EV.
  cbn [parse_all].
  destruct (parse_rinex_rfos _ _ _ _ _ _ _ _ _ _ _ _ _) as [[[c t] rows]|] eqn:P; [|discriminate].
  pose proof (parse_reports _ _ _ _ _ _ _ _ _ _ _ _ _ _ TE T P) as C. cbn in C. subst c. cbn. intros [= <-]. reflexivity.
Qed.
(* a file left with part of a group *)
Lemma fit_left : forall solve none use_tai every order start fin num_days x xs gs rest,
  (2 <= every)%nat -> (1 <= order)%nat -> x_term x = -1 ->
  wanted start fin (x_blocks x) = concat gs ++ rest -> Forall (fun g => length g = every) gs -> (2 <= length rest < every)%nat ->
  Forall (fun b => exists v, has_offset (x_f x) b v) (concat gs ++ rest) ->
  fits (length gs) every num_days ->
  fit_offsets solve none use_tai every order start fin num_days (x :: xs) = UB.
Proof.
  intros solve none use_tai every order start fin num_days x xs gs rest E OR T W L LR O CAP. apply room_fits in CAP. unfold fit_offsets.
  destruct every as [|e] eqn:EV; [lia|]. rewrite <- EV in *. cbn [parse_all].
  rewrite T, (parse_left none use_tai every order (room every num_days) (x_f x) start fin None [] (x_ref x) (x_blocks x) gs rest E OR W L LR O CAP). reflexivity.
Qed.
Lemma finite_none : forall rows1 rows2 a, finite (rows1 ++ Row None a :: rows2) = None.
Proof.
  induction rows1 as [|r rows1 IH]; intros rows2 a; cbn; [reflexivity|].
  rewrite IH. destruct (rw_b r); reflexivity.
Qed.
Lemma fit_left_one : forall solve none use_tai every order start fin num_days x gs b,
  (2 <= every)%nat -> (1 <= order)%nat -> x_term x = -1 ->
  wanted start fin (x_blocks x) = concat gs ++ [b] -> Forall (fun g => length g = every) gs ->
  Forall (fun b => exists v, has_offset (x_f x) b v) (concat gs ++ [b]) ->
  fits (S (length gs)) every num_days ->
  fit_offsets solve none use_tai every order start fin num_days [x] = Ok (0, None).
Proof.
  intros solve none use_tai every order start fin num_days x gs b E OR T W L O CAP. apply room_fits in CAP. unfold fit_offsets.
  destruct every as [|e] eqn:EV; [lia|]. rewrite <- EV in *. cbn [parse_all].
  destruct (parse_left_one none use_tai every order (room every num_days) (x_f x) start fin None [] (x_ref x) (x_blocks x) gs b E OR W L O CAP) as (rs & a & P).
  rewrite T, P. cbn [obind app Z.eqb parse_all]. rewrite finite_none. reflexivity.
Qed.

(* ---------- a solver (elimination) ---------- *)
Fixpoint minus_row (t : list Q) (k : Q) (r : list Q) : list Q :=
  match t, r with a :: t, b :: r => (a - k * b)%Q :: minus_row t k r | _, _ => [] end.
Definition schur (p : Q) (r : list Q) (row : list Q) : list Q := match row with [] => [] | c :: t => minus_row t (c / p)%Q r end.
Fixpoint gauss (m : nat) (M : list (list Q)) (s : list Q) : list Q :=
  match m, M, s with
  | S n, (p :: r) :: rows, s0 :: s' =>
      let y := gauss n (map (schur p r) rows) (map (fun rs => snd rs - (match fst rs with [] => 0 | c :: _ => c / p end) * s0)%Q (combine rows s')) in
      ((s0 - inner r y) / p)%Q :: y
  | _, _, _ => []
  end.
Lemma minus_row_length : forall t k r, length t = length r -> length (minus_row t k r) = length t.
Proof. induction t as [|a t IH]; intros k [|b r] L; cbn in *; try discriminate; auto. Qed.
Lemma minus_row_inner : forall t k r y, length t = length r -> (inner (minus_row t k r) y == inner t y - k * inner r y)%Q.
Proof.
  induction t as [|a t IH]; intros k [|b r] [|y ys] L; cbn in *; try discriminate; try ring.
  rewrite IH by lia. ring.
Qed.
Lemma inner_repeat0 : forall n l, (inner (repeat 0%Q n) l == 0)%Q.
Proof. intros n l. apply inner_zero. intros c I. apply repeat_spec in I. rewrite I. reflexivity. Qed.
Lemma pd_head : forall n p r rows, positive_definite (S n) ((p :: r) :: rows) -> (0 < p)%Q.
Proof.
  intros n p r rows (L & F & P).
  specialize (P (1%Q :: repeat 0%Q n)). cbn in P. rewrite repeat_length in P.
  assert (H : (0 < 1 * (p * 1 + inner r (repeat 0 n)) + inner (repeat 0 n) (map (fun r0 => inner r0 (1 :: repeat 0 n)) rows))%Q).
  { apply P; [reflexivity|]. exists 1%Q. split; [left; reflexivity|]. discriminate. }
  rewrite inner_repeat0, (inner_comm r), inner_repeat0 in H. lra.
Qed.
Lemma pd_schur : forall n p r rows, positive_definite (S n) ((p :: r) :: rows) -> positive_definite n (map (schur p r) rows).
Proof.
  intros n p r rows PD. pose proof (pd_head _ _ _ _ PD) as PP. destruct PD as (L & F & P).
  cbn in L. injection L as L. inversion F as [|? ? F1 F2]; subst. cbn in F1. injection F1 as F1.
  split; [rewrite map_length; reflexivity|]. split.
  - apply Forall_map. eapply Forall_impl; [|exact F2]. intros [|c t] H; cbn in H; [discriminate|]. injection H as H.
    cbn. rewrite minus_row_length by congruence. exact H.
  - intros x X (c & CI & CN).
    specialize (P ((- inner r x / p)%Q :: x) ltac:(cbn; lia) (ex_intro _ c (conj (or_intror CI) CN))).
    cbn [map inner] in P.
    assert (E : (p * (- inner r x / p) + inner r x == 0)%Q) by (field; lra).
    rewrite E in P.
    rewrite (inner_ext x x (F2_refl x) _ (map (fun r0 => inner r0 x) (map (schur p r) rows))) in P; [lra|].
    rewrite map_map. apply F2_map. intros row I. rewrite Forall_forall in F2. specialize (F2 row I).
    destruct row as [|c0 t]; [discriminate|]. cbn in F2. injection F2 as F2. cbn [inner schur].
    rewrite minus_row_inner by congruence. field. lra.
Qed.
Lemma gauss_solves : forall m M s, positive_definite m M -> length s = m ->
  length (gauss m M s) = m /\ Forall2 Qeq (map (fun l => inner l (gauss m M s)) M) s.
Proof.
  induction m as [|n IH]; intros M s PD L.
  - destruct s; [|discriminate]. destruct PD as (LM & _). destruct M; [|discriminate]. cbn. auto.
  - destruct s as [|s0 s']; [discriminate|]. cbn in L. injection L as L.
    assert (LM := proj1 PD). destruct M as [|row0 rows]; [discriminate|]. cbn in LM. injection LM as LM.
    assert (FM := proj1 (proj2 PD)). inversion FM as [|? ? F1 F2]; subst x l. destruct row0 as [|p r]; [discriminate|]. cbn in F1. injection F1 as F1.
    pose proof (pd_head _ _ _ _ PD) as PP. cbn [gauss].
    set (s'' := map (fun rs : list Q * Q => (snd rs - match fst rs with [] => 0 | c :: _ => c / p end * s0)%Q) (combine rows s')).
    assert (LS : length s'' = n) by (unfold s''; rewrite map_length, combine_length; lia).
    destruct (IH _ s'' (pd_schur _ _ _ _ PD) LS) as [G1 G2].
    set (y := gauss n (map (schur p r) rows) s'') in *.
    split; [cbn; congruence|]. constructor.
    + cbn. field. lra.
    + rewrite map_map in G2. unfold s'' in G2. clearbody y. clear - G2 LM L F2 F1 PP.
      assert (LL : length rows = length s') by congruence. clear LM L. revert s' LL G2.
      induction rows as [|row rows IH]; intros [|s1 s'] LL G2; try discriminate; [constructor|].
      inversion F2 as [|? ? F3 F4]; subst. cbn in G2. inversion G2 as [|? ? ? ? E1 E2]; subst. cbn. constructor.
      * destruct row as [|c t]; [discriminate|]. cbn in F3. injection F3 as F3. cbn [inner].
        cbn [schur] in E1. rewrite minus_row_inner in E1 by congruence.
        assert (E3 : (inner t y == s1 - c / p * s0 + c / p * inner r y)%Q) by lra.
        rewrite E3. field. lra.
      * apply IH; auto.
Qed.
Definition elimination (M : list (list Q)) (s : list Q) : list Q := gauss (length M) M s.
Lemma elimination_solver : solver elimination.
Proof.
  intros m M r PD L. unfold elimination. pose proof (proj1 PD) as LM. rewrite LM. apply gauss_solves; assumption.
Qed.

(* ---------- one value at a time ---------- *)
Definition one_block (t : Z) (f : Q) : block := Blk t t [[f]].
Lemma one_refuted : exists none b r, b_tl1 b = b_proper b /\ parse_rinex_rfos none true 1 1 10 0 0 1000 None [] 0 (-1) [b] = Ok (0, 0, [r]) /\
  ~ point_of true 0 0 1 [b] r.
Proof.
  exists 0, (one_block 400 3), (Row (Some (3 / 1)%Q) [1%Q; (200 # 1000000000)%Q]).
  split; [reflexivity|]. split; [vm_compute; reflexivity|].
  intros (p & (vs & first & last & t & _ & F & L & M & _ & D) & _ & _ & LI).
  cbn in F, L. injection F as <-. injection L as <-. unfold middle_of in M.
  change (date true (one_block 400 3)) with 400 in M. change (Z.sgn (400 - 400)) with 0 in M.
  assert (T : t = 400) by lia. subst t.
  pose proof (LI 1%nat ltac:(lia)) as X. cbn in X. change (snd p ^ 1)%Q with (snd p) in X. rewrite D in X. discriminate X.
Qed.
(* more groups than lines *)
Lemma parse_overflow : forall none use_tai every order cap f_idx start fin tref rows file_ref term bs gs g more,
  (2 <= every)%nat -> (1 <= order)%nat ->
  wanted start fin bs = concat gs ++ g ++ more -> Forall (fun g => length g = every) (gs ++ [g]) ->
  Forall (fun b => exists v, has_offset f_idx b v) (concat gs ++ g) ->
  (length rows + length gs = cap)%nat ->
  parse_rinex_rfos none use_tai every order cap f_idx start fin tref rows file_ref term bs = UB.
Proof.
  intros none use_tai every order cap f_idx start fin tref rows file_ref term bs gs g more E OR W L FO CAP.
  apply Forall_app in FO. destruct FO as [FO1 FO2]. apply Forall_app in L. destruct L as [L1 L2]. inversion L2 as [|? ? LG _]; subst x l.
  destruct (groups_run use_tai every order cap f_idx (reference tref file_ref) gs 0 rows (RS 0 (repeat 0%Q every) none none rows) E OR (part_start _ _ _ _ _) L1 FO1 ltac:(lia)) as (st & rs & T & P & PTS).
  assert (GI : exists g' b, g = g' ++ [b] /\ (length g' + 1 = every)%nat).
  { destruct (rev g) as [|b g'] eqn:RG.
    - apply (f_equal (@length _)) in RG. rewrite rev_length in RG. cbn in RG. lia.
    - exists (rev g'), b. apply (f_equal (@rev _)) in RG. rewrite rev_involutive in RG. cbn in RG. split; [exact RG|].
      rewrite RG, app_length in LG. cbn in LG. lia. }
  destruct GI as (g' & b & -> & LG'). apply Forall_app in FO2. destruct FO2 as [FO2 FO3]. destruct (Forall_inv FO3) as [v HO].
  destruct (rest_run use_tai every order cap f_idx (reference tref file_ref) g' [] _ _ st E P ltac:(cbn; lia) FO2) as (st' & T' & P').
  unfold parse_rinex_rfos. destruct every as [|e] eqn:EV; [lia|]. rewrite <- EV in *.
  cbv zeta. fold (reference tref file_ref). rewrite reads_wanted, W, takes_app, T. cbn [obind].
  rewrite <- app_assoc. rewrite takes_app, T'. cbn [obind app takes].
  destruct P' as (C & LF & R & _). unfold take_block at 1. rewrite (f_value_ok _ _ _ HO). cbn [obind].
  rewrite C. cbn [app]. rewrite mod_at by lia.
  destruct (store_ok (s_fs st') (length g') v ltac:(lia)) as (fs & S1 & _). rewrite S1. cbn [obind].
  replace ((0 + length gs) * every + length g' + 1)%nat with (S (0 + length gs) * every + 0)%nat by lia. rewrite mod_at by lia. cbn [Nat.eqb].
  unfold push. rewrite R. rewrite app_length, <- (F2_length _ _ _ PTS), CAP, Nat.ltb_irrefl. reflexivity.
Qed.
