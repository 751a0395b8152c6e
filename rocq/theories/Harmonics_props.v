(* Property theorems C05-C09. *)
From Coq Require Import List ZArith Reals.
From Verif Require Import Base Harmonics_model Harmonics_proofs.
Local Open Scope Z_scope.

(* C05 *)
Theorem harmonic_cells_disjoint_in_bounds_and_covering : forall (V : Type) (h : hc V),
  cells_spec (h_degree h) (cell h).
Proof. exact cells_ok. Qed.
Print Assumptions harmonic_cells_disjoint_in_bounds_and_covering.

(* C05: construction allocates exactly that square *)
Theorem harmonic_allocation_is_square : forall (V : Type) (junk : nat -> nat -> V) n,
  rect n (allocate junk n).
Proof. exact rect_allocate. Qed.
Print Assumptions harmonic_allocation_is_square.

(* C06 *)
Theorem harmonic_coefficients_are_independent :
  forall (V : Type) (junk : nat -> nat -> V) n (ops : list (hop V)), 0 <= n ->
  Forall (fun o => legal n (hkey o)) ops ->
  exists h', h_run (hc_new junk n) ops = Ok h' /\ h_degree h' = n /\
    forall k, legal n k ->
      match last_write k ops with
      | Some v => coef_get h' k = Ok v
      | None => coef_get h' k = coef_get (hc_new junk n) k
      end.
Proof. exact coefficients_refine. Qed.
Print Assumptions harmonic_coefficients_are_independent.

(* C06 *)
Theorem J2_is_minus_C20_coefficient : forall h : hc R, 2 <= h_degree h ->
  rect (h_degree h) (h_rows h) ->
  exists v, C_get h 2 0 = Ok v /\ J2 h = Ok (- v)%R.
Proof. exact J2_is_minus_C20. Qed.
Print Assumptions J2_is_minus_C20_coefficient.

(* C07: safety half (for every history): no double free, no access to dead
   memory, degree as requested.  Missing for the full property: leak freedom
   and storage after a degree-0 resize of a default object (refuted below). *)
Theorem coefficient_histories_memory_safe_partial : forall nvars ops r,
  w_run (w_init nvars) ops = Some r ->
  exists w, r = Ok w /\
    forall v o k, nth_error (w_objs w) v = Some (Some o) -> o_data o <> None ->
      legal (o_degree o) k ->
      exists row, o_access w o (fst (legal_address o k)) (snd (legal_address o k)) = Ok row.
Proof. exact history_safe. Qed.
Print Assumptions coefficient_histories_memory_safe_partial.

(* C07 *)
Theorem degree_is_last_requested : forall w v n w',
  w_step w (WResize v n) = Some (Ok w') ->
  (exists d, nth_error (w_objs w') v = Some (Some (RObj n d))) /\
  forall u, u <> v -> nth_error (w_objs w') u = nth_error (w_objs w) u.
Proof. exact degree_after_resize. Qed.
Print Assumptions degree_is_last_requested.

(* C07: leak freedom when no resize shrinks and no move assignment overwrites
   owned storage *)
Theorem careful_histories_do_not_leak_partial : forall nvars ops w,
  w_run (w_init nvars) ops = Some (Ok w) ->
  careful_run (w_init nvars) ops -> Forall (fun o => o = None) (w_objs w) ->
  hp_live (w_heap w) = nil.
Proof. exact careful_history_no_leak. Qed.
Print Assumptions careful_histories_do_not_leak_partial.

(* C07: the full statement is false of the code *)
Theorem coefficient_ownership_refuted :
  (exists w, w_run (w_init 1) (WNew 0 3 :: WResize 0 1 :: WDestroy 0 :: nil) = Some (Ok w) /\
     Forall (fun o => o = None) (w_objs w) /\ hp_live (w_heap w) <> nil) /\
  (exists w, w_run (w_init 2) (WNew 0 1 :: WNew 1 1 :: WMoveAssign 0 1 :: WDestroy 0 :: WDestroy 1 :: nil) = Some (Ok w) /\
     Forall (fun o => o = None) (w_objs w) /\ hp_live (w_heap w) <> nil) /\
  (exists w o, w_run (w_init 1) (WNewDefault 0 :: WResize 0 0 :: nil) = Some (Ok w) /\
     nth_error (w_objs w) 0 = Some (Some o) /\ o_degree o = 0 /\ o_access w o 0 0 = UB).
Proof. exact ownership_refuted. Qed.
Print Assumptions coefficient_ownership_refuted.

(* C08 *)
Theorem denormalize_scales_each_coefficient_once : forall (h : hc R) order,
  rect (h_degree h) (h_rows h) -> 0 < h_degree h -> h_normalized h = true ->
  order <= h_degree h ->
  exists h', denormalize h order = Ok (DRet 0 h') /\
    h_normalized h' = false /\ h_degree h' = h_degree h /\
    rect (h_degree h') (h_rows h') /\
    forall k v, legal (h_degree h) k -> coef_get h k = Ok v ->
      coef_get h' k = Ok (scaled (if order <? 0 then h_degree h else order) k v).
Proof. exact denormalize_ok. Qed.
Print Assumptions denormalize_scales_each_coefficient_once.

(* C08 *)
Theorem denormalize_unnormalized_is_noop : forall (h : hc R) order,
  h_normalized h = false -> denormalize h order = Ok (DRet 0 h).
Proof. exact denormalize_noop. Qed.
Print Assumptions denormalize_unnormalized_is_noop.

(* C08 *)
Theorem denormalize_twice_is_noop : forall (h h' : hc R) order order2,
  denormalize h order = Ok (DRet 0 h') -> denormalize h' order2 = Ok (DRet 0 h').
Proof. exact denormalize_twice. Qed.
Print Assumptions denormalize_twice_is_noop.

(* C08 *)
Theorem denormalize_rejects_large_order : forall (h : hc R) order,
  h_normalized h = true -> 0 <= h_degree h -> h_degree h < order ->
  denormalize h order = Ok (DRet 1 h).
Proof. exact denormalize_bad_order. Qed.
Print Assumptions denormalize_rejects_large_order.

(* C09: false of the code *)
Theorem normalized_flag_refuted : exists (h : hc R) order h' k,
  rect (h_degree h) (h_rows h) /\ h_normalized h = true /\
  denormalize h order = Ok (DRet 0 h') /\ h_normalized h' = false /\
  legal (h_degree h) k /\ still_normalised h h' k.
Proof. exact flag_refuted. Qed.
Print Assumptions normalized_flag_refuted.

(* C09: holds when all orders are de-normalised *)
Theorem normalized_flag_full_order_partial : forall (h : hc R) order,
  rect (h_degree h) (h_rows h) -> 0 < h_degree h -> h_normalized h = true ->
  order < 0 \/ order = h_degree h ->
  exists h', denormalize h order = Ok (DRet 0 h') /\ h_normalized h' = false /\
    forall k, legal (h_degree h) k -> ~ still_normalised h h' k.
Proof. exact flag_full_order. Qed.
Print Assumptions normalized_flag_full_order_partial.
