(* Property theorems C31. *)
From Coq Require Import List Reals.
From Verif Require Import Base Poly_model Poly_proofs.
Import ListNotations.

(* C31: every history of constructions, writes, resizes, copies and
   destructions (no moves) is free of undefined behaviour, every object
   evaluates to the polynomial of its own coefficients, and all storage is
   owned by live objects provided no order-0 object is destroyed.
   Missing: moves, order-0 destruction (refuted below). *)
Theorem polynomial_histories_partial : forall n ops s, a_run (repeat None n) ops = Some s ->
  exists w, p_run (pw_init n) ops = Some (Ok w) /\
   (forall v r cs x, nth_error s v = Some (Some (Some r, map Some cs)) ->
      p_value_at w v x = Some (Ok (sum_f_R0 (fun i => nth i cs 0 * (x - r) ^ i)%R (length cs - 1)))) /\
   (destroys_no_constant (repeat None n) ops -> no_leak w).
Proof. exact poly_history_ok. Qed.
Print Assumptions polynomial_histories_partial.

(* C31: with moves storage is released twice; constant polynomials leak *)
Theorem polynomial_ownership_refuted :
  p_run (pw_init 2) [PNew 0 1; PMoveNew 1 0; PDestroy 0; PDestroy 1] = Some UB /\
  (exists w, p_run (pw_init 1) [PNew 0 0; PDestroy 0] = Some (Ok w) /\ ~ no_leak w).
Proof. exact poly_ownership_refuted_lemma. Qed.
Print Assumptions polynomial_ownership_refuted.

(* C31 *)
Theorem linear_model_value : forall xref a b x, linear_value xref a b x =
  sum_f_R0 (fun i => nth i [a; b] 0 * (x - xref) ^ i)%R 1.
Proof. exact linear_value_ok. Qed.
Print Assumptions linear_model_value.
