(* Property theorems C01-C04. *)
From Coq Require Import List.
From Verif Require Import Base Mat2D_model Mat2D_proofs.

(* C01 *)
Theorem trapezoid_indexing_is_bijective : forall s : shape,
  layout_spec Trapezoid s
    (num_elements Trapezoid s) (element_offset Trapezoid s) (slice Trapezoid s).
Proof. exact trap_layout. Qed.
Print Assumptions trapezoid_indexing_is_bijective.

(* C02 *)
Theorem rowwise_indexing_is_bijective : forall s : shape,
  layout_spec RowWise s
    (num_elements RowWise s) (element_offset RowWise s) (slice RowWise s).
Proof. exact row_layout. Qed.
Print Assumptions rowwise_indexing_is_bijective.

(* C02 *)
Theorem columnwise_indexing_is_bijective : forall s : shape,
  layout_spec ColumnWise s
    (num_elements ColumnWise s) (element_offset ColumnWise s) (slice ColumnWise s).
Proof. exact col_layout. Qed.
Print Assumptions columnwise_indexing_is_bijective.

(* C01, C02: distinct stored elements never share a slot *)
Theorem stored_elements_never_alias : forall k s i j i' j',
  stored k s i j -> stored k s i' j' ->
  element_offset k s i j = element_offset k s i' j' -> i = i' /\ j = j'.
Proof. exact offset_inj. Qed.
Print Assumptions stored_elements_never_alias.

(* C03 *)
Theorem matrix_behaves_as_independent_cells : forall (V : Type) k s (ops : list (mop V)),
  Forall (op_ok V k s) ops ->
  exists m', mat_run (mat_new k s) ops = Ok m' /\
    (forall i j, stored k s i j ->
       mat_get m' i j = Ok (fold_left (spec_step V k) ops (spec_init V) i j)) /\
    (forall i e, stored k s (fst (slice_entry k i e)) (snd (slice_entry k i e)) ->
       mat_slice_get m' i e =
       Ok (fold_left (spec_step V k) ops (spec_init V)
             (fst (slice_entry k i e)) (snd (slice_entry k i e)))).
Proof. exact mat_refines. Qed.
Print Assumptions matrix_behaves_as_independent_cells.

(* C04: the full statement is false of the code *)
Theorem trapezoid_admitted_accesses_refuted :
  (exists s i j i' j',
    admitted_by_assert s i j /\ admitted_by_assert s i' j' /\
    element_offset Trapezoid s i j = element_offset Trapezoid s i' j' /\
    ~ same_unordered i j i' j') /\
  (exists s i j, admitted_by_assert s i j /\
    num_elements Trapezoid s <= element_offset Trapezoid s i j).
Proof. exact trap_assert_refuted. Qed.
Print Assumptions trapezoid_admitted_accesses_refuted.

(* C04: exact extent of the failure (the lower triangle is C01) *)
Theorem trapezoid_upper_access_aliases_partial : forall s i j,
  admitted_by_assert s i j -> i < j -> cols s <= rows s + 1 ->
  num_elements Trapezoid s <= element_offset Trapezoid s i j \/
  exists i' j', stored Trapezoid s i' j' /\ i < i' /\
    element_offset Trapezoid s i j = element_offset Trapezoid s i' j'.
Proof. exact trap_upper_aliases. Qed.
Print Assumptions trapezoid_upper_access_aliases_partial.
