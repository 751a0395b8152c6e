(* Specification of, and proofs about, factorials and flag sets (C10, C11). *)
From Coq Require Import List ZArith Lia Bool Factorial Arith.
From Verif Require Import Base Util_model.
Import ListNotations.
Local Open Scope Z_scope.

Definition zfact (n : nat) : Z := Z.of_nat (fact n).

Lemma zfact_S n : zfact (S n) = zfact n * (Z.of_nat n + 1).
Proof. unfold zfact. change (fact (S n)) with (S n * fact n)%nat. lia. Qed.

Lemma zfact_pos n : 0 < zfact n.
Proof. unfold zfact. pose proof (lt_O_fact n). lia. Qed.

Lemma fact_loop_nth k : forall j i, (i < k)%nat ->
  nth_error (fact_loop (zfact j) (Z.of_nat j + 1) k) i = Some (zfact (j + 1 + i)).
Proof.
  induction k as [|k IH]; intros j i H; [lia|].
  cbn [fact_loop]. rewrite <- zfact_S. destruct i as [|i].
  - simpl. f_equal. f_equal. lia.
  - simpl. replace (Z.of_nat j + 1 + 1) with (Z.of_nat (S j) + 1) by lia.
    rewrite IH by lia. f_equal. f_equal. lia.
Qed.

Lemma fact_loop_length k : forall p i, length (fact_loop p i k) = k.
Proof. induction k; intros; simpl; auto. Qed.

Lemma factorial_table_ok N i : (1 <= N)%nat ->
  factorial_lookup N i = if (i <=? N)%nat then Ok (zfact i) else UB.
Proof.
  intros HN. unfold factorial_lookup, load, fact_table.
  destruct (Nat.leb_spec i N) as [L|G].
  - destruct i as [|[|i]]; [reflexivity|reflexivity|].
    simpl. change 1 with (zfact 1) at 1. change 2 with (Z.of_nat 1 + 1).
    rewrite fact_loop_nth by lia. reflexivity.
  - rewrite (proj2 (nth_error_None _ _)); [reflexivity|].
    simpl. rewrite fact_loop_length. lia.
Qed.

Lemma mul_range_fact k : forall d, mul_range (1) (Z.of_nat d + 1) k * zfact d = zfact (d + k).
Proof.
  assert (A : forall k acc i, mul_range acc i k = acc * mul_range 1 i k).
  { induction k0 as [|k0 IH]; intros acc i; cbn [mul_range]; [lia|].
    rewrite IH, (IH (1 * i)). lia. }
  induction k as [|k IH]; intros d; cbn [mul_range].
  - rewrite Nat.add_0_r. lia.
  - rewrite A. replace (Z.of_nat d + 1 + 1) with (Z.of_nat (S d) + 1) by lia.
    replace (d + S k)%nat with (S d + k)%nat by lia. rewrite <- (IH (S d)), zfact_S. lia.
Qed.

Lemma ratio_ge (N D : nat) : (D <= N)%nat ->
  factorialRatio (Z.of_nat N) (Z.of_nat D) * zfact D = zfact N.
Proof.
  intros H. unfold factorialRatio, ratio_max, ratio_min.
  assert (E1 : Z.of_nat N * b2z (Z.of_nat N >=? Z.of_nat D) +
               Z.of_nat D * b2z (Z.of_nat D >? Z.of_nat N) = Z.of_nat N).
  { rewrite Z.geb_leb, Z.gtb_ltb. destruct (Z.leb_spec (Z.of_nat D) (Z.of_nat N));
    destruct (Z.ltb_spec (Z.of_nat N) (Z.of_nat D)); simpl; lia. }
  assert (E2 : Z.of_nat N * b2z (Z.of_nat N <=? Z.of_nat D) +
               Z.of_nat D * b2z (Z.of_nat D <? Z.of_nat N) = Z.of_nat D).
  { destruct (Z.leb_spec (Z.of_nat N) (Z.of_nat D));
    destruct (Z.ltb_spec (Z.of_nat D) (Z.of_nat N)); simpl; lia. }
  rewrite E1, E2, mul_range_fact. f_equal. lia.
Qed.

Lemma ratio_lt (N D : nat) : (N <= D)%nat ->
  factorialRatio (Z.of_nat N) (Z.of_nat D) * zfact N = zfact D.
Proof.
  intros H. unfold factorialRatio, ratio_max, ratio_min.
  assert (E1 : Z.of_nat N * b2z (Z.of_nat N >=? Z.of_nat D) +
               Z.of_nat D * b2z (Z.of_nat D >? Z.of_nat N) = Z.of_nat D).
  { rewrite Z.geb_leb, Z.gtb_ltb. destruct (Z.leb_spec (Z.of_nat D) (Z.of_nat N));
    destruct (Z.ltb_spec (Z.of_nat N) (Z.of_nat D)); simpl; lia. }
  assert (E2 : Z.of_nat N * b2z (Z.of_nat N <=? Z.of_nat D) +
               Z.of_nat D * b2z (Z.of_nat D <? Z.of_nat N) = Z.of_nat N).
  { destruct (Z.leb_spec (Z.of_nat N) (Z.of_nat D));
    destruct (Z.ltb_spec (Z.of_nat D) (Z.of_nat N)); simpl; lia. }
  rewrite E1, E2, mul_range_fact. f_equal. lia.
Qed.

Lemma ratio_refuted : exists N D : nat,
  factorialRatio (Z.of_nat N) (Z.of_nat D) * zfact D <> zfact N.
Proof. exists 2%nat, 4%nat. vm_compute. discriminate. Qed.

Example ratio_case : (3 <= 7)%nat /\ factorialRatio 7 3 = 840.
Proof. split; [lia|reflexivity]. Qed.

(* ---- flag sets ---- *)
(* A flag enum: every enumerator is a distinct single bit, 2^b. *)
Definition flag (b : nat) : Z := 2 ^ Z.of_nat b.

Inductive fop := FSet (b : nat) | FClear (b : nat) | FClearAll.
Definition impl_op (o : fop) : bsop :=
  match o with FSet b => BSet (flag b) | FClear b => BClear (flag b) | FClearAll => BClearAll end.

(* member b after a history: decided by the last operation that concerns b *)
Definition member_step (b : nat) (cur : bool) (o : fop) : bool :=
  match o with
  | FSet c => if Nat.eqb b c then true else cur
  | FClear c => if Nat.eqb b c then false else cur
  | FClearAll => false
  end.
Definition member (b : nat) (start : bool) (ops : list fop) : bool :=
  fold_left (member_step b) ops start.

Lemma flag_testbit b k : 0 <= k -> Z.testbit (flag b) k = (k =? Z.of_nat b).
Proof. intros H. unfold flag. rewrite Z.pow2_bits_eqb by lia. apply Z.eqb_sym. Qed.

Lemma check_testbit s b : bs_check s (flag b) = Z.testbit s (Z.of_nat b).
Proof.
  unfold bs_check. destruct (Z.testbit s (Z.of_nat b)) eqn:T.
  - apply negb_true_iff, Z.eqb_neq. intros E.
    assert (Z.testbit (Z.land s (flag b)) (Z.of_nat b) = true).
    { rewrite Z.land_spec, T, flag_testbit by lia. rewrite Z.eqb_refl. reflexivity. }
    rewrite E, Z.bits_0 in H. discriminate.
  - apply negb_false_iff, Z.eqb_eq. apply Z.bits_inj'. intros k Hk.
    rewrite Z.land_spec, Z.bits_0, flag_testbit by exact Hk.
    destruct (Z.eqb_spec k (Z.of_nat b)) as [->|_]; [rewrite T; reflexivity|apply andb_false_r].
Qed.

Lemma step_check s o b :
  bs_check (bs_step s (impl_op o)) (flag b) = member_step b (bs_check s (flag b)) o.
Proof.
  rewrite !check_testbit. destruct o as [c|c|]; simpl.
  - unfold bs_set. rewrite Z.lor_spec, flag_testbit by lia.
    destruct (Nat.eqb_spec b c) as [->|D].
    + rewrite Z.eqb_refl. apply orb_true_r.
    + destruct (Z.eqb_spec (Z.of_nat b) (Z.of_nat c)); [lia|apply orb_false_r].
  - unfold bs_clear. rewrite Z.land_spec, Z.lnot_spec, flag_testbit by lia.
    destruct (Nat.eqb_spec b c) as [->|D].
    + rewrite Z.eqb_refl. apply andb_false_r.
    + destruct (Z.eqb_spec (Z.of_nat b) (Z.of_nat c)); [lia|apply andb_true_r].
  - unfold bs_clear_all. apply Z.bits_0.
Qed.

Lemma run_check ops : forall s b,
  bs_check (fold_left bs_step (map impl_op ops) s) (flag b) = member b (bs_check s (flag b)) ops.
Proof.
  induction ops as [|o r IH]; intros s b; [reflexivity|].
  cbn [map fold_left]. rewrite IH, step_check. reflexivity.
Qed.

Lemma bs_nonneg ops : forall s, 0 <= s -> 0 <= fold_left bs_step (map impl_op ops) s.
Proof.
  induction ops as [|o r IH]; intros s H; [exact H|].
  cbn [map fold_left]. apply IH. destruct o as [c|c|]; simpl.
  - apply Z.lor_nonneg. split; [exact H|]. unfold flag. lia.
  - apply Z.land_nonneg. left. exact H.
  - unfold bs_clear_all. lia.
Qed.

Lemma flags_ok ops :
  let s := fold_left bs_step (map impl_op ops) bs_empty in
  (forall b, bs_check s (flag b) = member b false ops) /\
  (bs_is_clean s = true <-> forall b, member b false ops = false).
Proof.
  intros s. assert (C : forall b, bs_check s (flag b) = member b false ops).
  { intros b. unfold s. rewrite run_check. reflexivity. }
  split; [exact C|].
  assert (P : 0 <= s) by (apply bs_nonneg; unfold bs_empty; lia).
  unfold bs_is_clean. rewrite Z.eqb_eq. split.
  - intros E b. rewrite <- C, E. reflexivity.
  - intros H. apply Z.bits_inj'. intros k Hk. rewrite Z.bits_0.
    specialize (H (Z.to_nat k)). rewrite <- C, check_testbit, Z2Nat.id in H by lia. exact H.
Qed.

(* constructor from a list = setting each; equality = same members *)
Lemma flags_of_list fs b :
  bs_check (bs_of_list (map flag fs)) (flag b) = existsb (Nat.eqb b) fs.
Proof.
  unfold bs_of_list. rewrite check_testbit.
  assert (A : forall l acc, Z.testbit (fold_left (fun a f => Z.lor a f) (map flag l) acc) (Z.of_nat b)
              = Z.testbit acc (Z.of_nat b) || existsb (Nat.eqb b) l).
  { induction l as [|x l IH]; intros acc; cbn [map fold_left existsb]; [rewrite orb_false_r; reflexivity|].
    rewrite IH, Z.lor_spec, flag_testbit by lia. rewrite <- orb_assoc. f_equal. f_equal.
    destruct (Z.eqb_spec (Z.of_nat b) (Z.of_nat x)); destruct (Nat.eqb_spec b x); try lia; reflexivity. }
  rewrite A, Z.bits_0. reflexivity.
Qed.

Lemma flags_equal ops1 ops2 :
  let s1 := fold_left bs_step (map impl_op ops1) bs_empty in
  let s2 := fold_left bs_step (map impl_op ops2) bs_empty in
  bs_eq s1 s2 = true <-> forall b, member b false ops1 = member b false ops2.
Proof.
  intros s1 s2. unfold bs_eq. rewrite Z.eqb_eq.
  destruct (flags_ok ops1) as [C1 _]. destruct (flags_ok ops2) as [C2 _].
  fold s1 in C1. fold s2 in C2. split.
  - intros E b. rewrite <- C1, <- C2, E. reflexivity.
  - intros H. apply Z.bits_inj'. intros k Hk.
    specialize (H (Z.to_nat k)). rewrite <- C1, <- C2, !check_testbit, Z2Nat.id in H by lia. exact H.
Qed.

Example flags_case : member 3 false [FSet 3; FSet 1; FClear 3; FSet 3] = true /\
  member 1 false [FSet 3; FSet 1; FClear 1] = false.
Proof. split; reflexivity. Qed.
