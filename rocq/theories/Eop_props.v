(* Property theorems C12 and C13. *)
From Coq Require Import List Arith.
From Verif Require Import Base Eop_model Eop_proofs.
Import ListNotations.

(* C12 *)
Theorem eop_table_behaves_as_independent_columns : forall (V : Type) cap (ops : list (eop V)) cap' f,
  a_run cap a_empty ops = Some (cap', f) ->
  exists t, e_run (t_new V cap) ops = Ok t /\ t_cap t = cap' /\
            forall c i, i < cap' -> t_get t c i = Ok (f c i).
Proof. exact columns_ok. Qed.
Print Assumptions eop_table_behaves_as_independent_columns.

(* C12 *)
Theorem eop_columns_are_disjoint_and_in_bounds : forall (V : Type) cap (ops : list (eop V)) t,
  e_run (t_new V cap) ops = Ok t ->
  exists a, t_arena t = Some a /\
    (forall c i, i < t_cap t -> exists b, nth_error (t_base t) (col_nr c) = Some b /\ b + i < length a) /\
    (forall c i c' i' b b', i < t_cap t -> i' < t_cap t ->
       nth_error (t_base t) (col_nr c) = Some b -> nth_error (t_base t) (col_nr c') = Some b' ->
       b + i = b' + i' -> c = c' /\ i = i') /\ t_sz t <= t_cap t.
Proof. exact columns_disjoint. Qed.
Print Assumptions eop_columns_are_disjoint_and_in_bounds.

(* a history with a shrinking and a growing resize *)
Example eop_history_case : exists f,
  a_run 3 a_empty [EWrite Xp 2 1; EWrite Yp 0 2; EResize 1; EWrite Xp 2 3; EWrite Omega 2 4] = Some (3, f) /\
  f Xp 2 = Some 3 /\ f Yp 0 = Some 2 /\ f Omega 2 = Some 4 /\ f Mjd 0 = None.
Proof. eexists. split; [reflexivity|]. repeat split; reflexivity. Qed.

(* C13: moves.  Full statement: the same for copies - refuted below. *)
Theorem eop_move_preserves_contents_partial : forall (V : Type) (t dst : table V), built t ->
  same_contents t (fst (t_move t)) /\ same_contents t (fst (t_move_assign dst t)) /\
  t_sz (snd (t_move t)) = 0 /\ t_arena (snd (t_move t)) = None.
Proof. intros V t dst. exact (move_ok V t dst). Qed.
Print Assumptions eop_move_preserves_contents_partial.

(* C13: a copy holds the right number of records, but only the first sz/8 rows
   arrive; every other row of a copy-constructed table is indeterminate *)
Theorem eop_copy_keeps_an_eighth_partial : forall (V : Type) (t : table V), built t ->
  exists t', t_copy t = Ok t' /\ t_sz t' = t_sz t /\
  forall c i, i < t_sz t ->
    if i <? t_sz t / 8 then exists v, t_get t c i = Ok v /\ t_get t' c i = Ok v
    else t_get t' c i = Ok None.
Proof. exact copy_ok. Qed.
Print Assumptions eop_copy_keeps_an_eighth_partial.

(* C13 *)
Theorem eop_copy_assignment_partial : forall (V : Type) (dst t : table V), built dst -> built t ->
  exists t', t_copy_assign dst t = Ok t' /\ t_sz t' = t_sz t /\
  forall c i, i < t_sz t / 8 -> exists v, t_get t c i = Ok v /\ t_get t' c i = Ok v.
Proof. exact copy_assign_ok. Qed.
Print Assumptions eop_copy_assignment_partial.

(* C13: a full one-row table loses its values when copied *)
Theorem eop_copy_refuted : built one_row /\ t_get one_row Xp 0 = Ok (Some 11) /\
  exists t', t_copy one_row = Ok t' /\ t_get t' Xp 0 = Ok None.
Proof. exact copy_refuted. Qed.
Print Assumptions eop_copy_refuted.

(* C13: moving and then copying reads a foreign column *)
Theorem eop_copy_after_move_refuted : exists t t', e_run (t_new nat 10) part_ops = Ok t /\
  t_get t Xp 0 = Ok (Some 11) /\ t_get (fst (t_move t)) Xp 0 = Ok (Some 11) /\
  t_copy (fst (t_move t)) = Ok t' /\ t_get t' Xp 0 = Ok (Some 5).
Proof. exact move_then_copy_refuted. Qed.
Print Assumptions eop_copy_after_move_refuted.

Example eop_copy_case : exists t t', e_run (t_new nat 9) [EWrite Xp 0 7; EWrite Omega 0 3; EWrite Lod 8 2] = Ok t /\
  t_copy t = Ok t' /\ t_get t' Xp 0 = Ok (Some 7) /\ t_get t' Omega 0 = Ok (Some 3) /\ t_get t' Lod 8 = Ok None.
Proof. eexists _, _. split; [vm_compute; reflexivity|]. split; [vm_compute; reflexivity|]. repeat split; vm_compute; reflexivity. Qed.
