(* Property theorems C30. *)
From Coq Require Import List Reals ZArith.
From Verif Require Import Kalman2_model Kalman2_proofs.
Local Open Scope R_scope.

(* C30: the estimate is the unique minimiser of the regularised cost *)
Theorem rfo_filter_is_least_squares : forall p obs, setup_ok p ->
  let f := lk_run (filter_of p) obs in
  forall a b, cost p obs (lk_x0 f) (lk_x1 f) <= cost p obs a b /\
   (cost p obs a b = cost p obs (lk_x0 f) (lk_x1 f) -> a = lk_x0 f /\ b = lk_x1 f).
Proof. exact lk_optimal. Qed.
Print Assumptions rfo_filter_is_least_squares.

(* C30: the covariance is the inverse normal matrix and positive definite *)
Theorem rfo_covariance_is_inverse_normal : forall p obs, setup_ok p ->
  let f := lk_run (filter_of p) obs in
  let '(n00, n01, n11) := normal p obs in
  lk_P0 f * n00 + lk_P1 f * n01 = 1 /\ lk_P0 f * n01 + lk_P1 f * n11 = 0 /\
  lk_P1 f * n00 + lk_P2 f * n01 = 0 /\ lk_P1 f * n01 + lk_P2 f * n11 = 1 /\
  0 < lk_P0 f /\ 0 < lk_P2 f /\ 0 < lk_P0 f * lk_P2 f - lk_P1 f * lk_P1 f.
Proof. exact lk_covariance. Qed.
Print Assumptions rfo_covariance_is_inverse_normal.

(* C30: predictions lie on the fitted line *)
Theorem rfo_prediction : forall p obs t, lk_value_at (lk_run (filter_of p) obs) t =
  lk_x0 (lk_run (filter_of p) obs) + lk_x1 (lk_run (filter_of p) obs) * days (su_t0 p) t.
Proof. exact lk_predict. Qed.
Print Assumptions rfo_prediction.
