(* Property theorems C10, C11. *)
From Coq Require Import List ZArith.
From Verif Require Import Base Util_model Util_proofs.
Local Open Scope Z_scope.

(* C10 *)
Theorem factorial_table_is_exact : forall N i : nat, (1 <= N)%nat ->
  factorial_lookup N i = if (i <=? N)%nat then Ok (zfact i) else UB.
Proof. exact factorial_table_ok. Qed.
Print Assumptions factorial_table_is_exact.

(* C10: documented value N!/D! when D <= N. Missing: N < D (refuted below). *)
Theorem factorial_ratio_exact_partial : forall N D : nat, (D <= N)%nat ->
  factorialRatio (Z.of_nat N) (Z.of_nat D) * zfact D = zfact N.
Proof. exact ratio_ge. Qed.
Print Assumptions factorial_ratio_exact_partial.

(* C10: for N <= D the code returns the reciprocal D!/N! *)
Theorem factorial_ratio_reciprocal : forall N D : nat, (N <= D)%nat ->
  factorialRatio (Z.of_nat N) (Z.of_nat D) * zfact N = zfact D.
Proof. exact ratio_lt. Qed.
Print Assumptions factorial_ratio_reciprocal.

(* C10: false of the code in general *)
Theorem factorial_ratio_refuted : exists N D : nat,
  factorialRatio (Z.of_nat N) (Z.of_nat D) * zfact D <> zfact N.
Proof. exact ratio_refuted. Qed.
Print Assumptions factorial_ratio_refuted.

(* C11 *)
Theorem flag_sets_behave_as_finite_sets : forall ops : list fop,
  let s := fold_left bs_step (map impl_op ops) bs_empty in
  (forall b, bs_check s (flag b) = member b false ops) /\
  (bs_is_clean s = true <-> forall b, member b false ops = false).
Proof. exact flags_ok. Qed.
Print Assumptions flag_sets_behave_as_finite_sets.

(* C11 *)
Theorem flag_set_from_list : forall (fs : list nat) (b : nat),
  bs_check (bs_of_list (map flag fs)) (flag b) = existsb (Nat.eqb b) fs.
Proof. exact flags_of_list. Qed.
Print Assumptions flag_set_from_list.

(* C11 *)
Theorem flag_set_equality_is_extensional : forall ops1 ops2 : list fop,
  let s1 := fold_left bs_step (map impl_op ops1) bs_empty in
  let s2 := fold_left bs_step (map impl_op ops2) bs_empty in
  bs_eq s1 s2 = true <-> forall b, member b false ops1 = member b false ops2.
Proof. exact flags_equal. Qed.
Print Assumptions flag_set_equality_is_extensional.
