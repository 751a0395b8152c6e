(* The properties of the integrator. *)
From Coq Require Import List ZArith Reals Arith Bool.
From Verif Require Import Base Gravity_model Spline_model Sgode_model Adams Sgode_proofs Sgode_adams Sgode_run Sgode_refute.
Import ListNotations.
Local Open Scope R_scope.

(* C50: whatever the routine step and the right-hand side do, a call ends within 500 steps *)
Theorem de_terminates : forall fuel stp f junk t tout y0 yout S,
  (forall e s, stp e s <> Ok None) -> (501 <= fuel)%nat -> de fuel stp f junk t tout y0 yout S <> Ok None.
Proof. exact de_ends. Qed.
Print Assumptions de_terminates.

(* C50: what a call returns: refused for improper parameters, or the result of at most 500 steps of the
   routine, ending at the output time, with too much work, or with a failed step *)
Theorem de_outcomes : forall fuel stp f junk t tout y0 yout S r, de fuel stp f junk t tout y0 yout S = Ok (Some r) ->
  (improper S t tout /\ r = Result 1 t yout (Solver 6 (told S) (delsgn S) (isnold S) (relerr S) (abserr S) (neqn S) (core S))) \/
  (~ improper S t tout /\ (5 < Z.abs (iflag S))%Z /\ r = Result 1 t yout (Solver (Z.abs (iflag S)) (told S) (delsgn S) (isnold S) (relerr S) (abserr S) (neqn S) (core S))) \/
  (~ improper S t tout /\ (1 <= Z.abs (iflag S) <= 5)%Z /\ exists l e s, stepped stp (asked S t tout) (Rmax (relerr S) (abserr S)) (from S t tout y0) l e s /\
     ending stp f junk (asked S t tout) (directed S (renewed S t tout)) l e s r).
Proof. exact de_outcome. Qed.
Print Assumptions de_outcomes.

(* C50: success (code zero, flag 2) exactly with the time at the output time, otherwise a documented
   flag; missing: calls with a flag beyond 5, see below *)
Theorem de_codes_partial : forall fuel stp f junk t tout y0 yout S r, de fuel stp f junk t tout y0 yout S = Ok (Some r) -> (Z.abs (iflag S) <= 5)%Z ->
  (code r = 0%Z /\ iflag (r_solver r) = 2%Z /\ r_t r = tout /\ told (r_solver r) = tout) \/
  (code r = 1%Z /\ (iflag (r_solver r) = 6%Z \/ exists c, (c = 3 \/ c = 4 \/ c = 5)%Z /\ iflag (r_solver r) = (Z.sgn (iflag S) * c)%Z /\ told (r_solver r) = r_t r /\ r_t r = s_x (core (r_solver r)) /\ r_y r = s_yy (core (r_solver r)))).
Proof. exact de_codes. Qed.
Print Assumptions de_codes_partial.

(* C50: a flag beyond 5 is kept (when the time is the one of the last call) *)
Theorem de_flag_refuted : exists S, forall fuel stp f junk y0 yout, exists r, de (Datatypes.S fuel) stp f junk 0 1 y0 yout S = Ok (Some r) /\ code r = 1%Z /\ iflag (r_solver r) = 7%Z.
Proof. exact de_bad_flag. Qed.
Print Assumptions de_flag_refuted.

(* C50: two tolerances of zero are not refused *)
Theorem de_zero_tolerance_refuted : exists S, relerr S = 0 /\ abserr S = 0 /\ forall fuel stp f junk y0 yout r, de fuel stp f junk 0 1 y0 yout S = Ok (Some r) -> iflag (r_solver r) <> 6%Z.
Proof. exact de_zero_tolerance. Qed.
Print Assumptions de_zero_tolerance_refuted.

(* C50: a call continuing a call that ended by extrapolation to its output time always fails with flag 3,
   the tolerances unchanged, and the time goes back *)
Theorem de_continue_refuted : exists S t tout tout2, forall f y0 yout n fuel fs jf junk, exists r r2, de (Datatypes.S fuel) (fun e s => step fs f n (jf e s) e s) f junk t tout y0 yout S = Ok (Some r) /\ code r = 0%Z /\ r_t r = tout /\ iflag (r_solver r) = 2%Z /\ t < tout < tout2 /\
  de (Datatypes.S fuel) (fun e s => step fs f n (jf e s) e s) f junk tout tout2 y0 yout (r_solver r) = Ok (Some r2) /\ code r2 = 1%Z /\ iflag (r_solver r2) = 3%Z /\ r_t r2 = t /\ relerr (r_solver r2) = relerr S /\ abserr (r_solver r2) = abserr S.
Proof. exact de_continue. Qed.
Print Assumptions de_continue_refuted.

(* C51: after any calls of step the next one stays in its arrays, the order is between 1 and 12, and
   interpolation is defined; first steps with tolerances close to the rounding error are excluded *)
Theorem step_in_bounds_partial : forall f n s fuel junk eps, called f n s -> quiet n eps s -> step fuel f n junk eps s <> UB /\
  (s_start s = false -> (1 <= s_k s <= 12)%nat /\ (s_kold s <= 12)%nat /\ forall xout j, intrp s xout j <> UB).
Proof. exact step_in_bounds. Qed.
Print Assumptions step_in_bounds_partial.

(* C51: a sequence of calls of de, with a relative tolerance above 400 rounding units times the root of
   the number of equations and not below the absolute one, never leaves defined behaviour *)
Theorem de_sessions_defined_partial : forall f n S fuel fs jf junk t tout y0 yout, session f n S -> de fuel (fun e s => step fs f n (jf e s) e s) f junk t tout y0 yout S <> UB.
Proof. exact session_defined. Qed.
Print Assumptions de_sessions_defined_partial.

(* C51: what happens in the excluded first steps *)
Theorem step_rounding_undefined : forall fuel f n junk eps s, sized (s_co s) -> s_start s = true -> fouru * Rabs (s_x s) <= Rabs (s_h s) ->
  twou * norm n (vdiv (s_yy s) (s_wt s)) <= eps / 2 <= 100 * (twou * norm n (vdiv (s_yy s) (s_wt s))) -> step (S fuel) f n junk eps s = UB.
Proof. exact step_undefined. Qed.
Print Assumptions step_rounding_undefined.

(* C51: for a position of 7000 km and an absolute tolerance of 1e-7 m *)
Theorem de_defined_refuted : exists S y0, relerr S = 0 /\ abserr S = / 10 ^ 7 /\ iflag S = 1%Z /\ neqn S = 1%Z /\ y0 0%nat = 7000000 /\ sized (s_co (core S)) /\
  forall fuel fs f jf junk yout, de (Datatypes.S fuel) (fun e s => step (Datatypes.S fs) f 1 (jf e s) e s) f junk 0 60 y0 yout S = UB.
Proof. exact de_tight. Qed.
Print Assumptions de_defined_refuted.

(* C76: an accepted pass of order k is a step of the variable-step Adams method: the predicted value adds
   the integral of the polynomial through the last k derivatives, the new value the integral of the
   polynomial that also goes through the derivative at the predicted value, and the derivative is evaluated
   again.  Missing: passes whose order was raised, at the same step size, after it was lowered at this
   step size, and repeated passes of order one that come back to the last step size *)
Theorem adams_pass_partial : forall f n s X F b eps ifail a knew e1 erk s1, reach f n s X F b -> safe s b ->
  attempt f n eps ifail s = Ok (Accepted a knew e1 erk) -> settle f n eps a knew e1 erk = Ok s1 ->
  X O = s_x s /\ s_x s1 = s_x s + s_h s /\
  (forall x P Q, degree_below (s_k s) P -> through (s_k s) X (comp F x) P -> primitive P Q -> s_p a x = s_yy s x + (Q (s_x s1) - Q (s_x s))) /\
  s_yp a = f (s_x s1) (s_p a) /\
  (forall x P Q, degree_below (S (s_k s)) P -> through (S (s_k s)) (before (s_x s1) X) (before (s_yp a x) (comp F x)) P -> primitive P Q -> s_yy s1 x = s_yy s x + (Q (s_x s1) - Q (s_x s))) /\
  s_yp s1 = f (s_x s1) (s_yy s1) /\
  (forall xout junk, exists yo ypo, intrp s1 xout junk = Ok (yo, ypo) /\ forall x P Q, degree_below (S (s_k s)) P -> through (S (s_k s)) (before (s_x s1) X) (comp (before (s_yp s1) F) x) P -> primitive P Q ->
     yo x = s_yy s1 x + (Q xout - Q (s_x s1)) /\ ypo x = P xout) /\
  distinct (s_k s) X /\ distinct (S (s_k s)) (before (s_x s1) X).
Proof. exact adams_pass. Qed.
Print Assumptions adams_pass_partial.

(* C76: such polynomials exist *)
Theorem adams_polynomials : forall m X F, distinct m X -> exists P Q, degree_below m P /\ through m X F P /\ primitive P Q.
Proof. exact polynomials_exist. Qed.
Print Assumptions adams_polynomials.

(* C76: a pass is accepted exactly when the results of orders k and k+1 differ, in the weighted norm, by
   no more than the tolerance *)
Theorem adams_error_test_partial : forall f n s X F b eps ifail r low high, reach f n s X F b -> safe s b -> attempt f n eps ifail s = Ok r ->
  let yp := match r with Accepted a _ _ _ => s_yp a | Again a _ => s_yp a | Crashed a _ => s_yp a end in
  (forall x P Q, degree_below (s_k s) P -> through (s_k s) (before (s_x s + s_h s) X) (before (yp x) (comp F x)) P -> primitive P Q -> low x = s_yy s x + (Q (s_x s + s_h s) - Q (s_x s))) ->
  (forall x P Q, degree_below (S (s_k s)) P -> through (S (s_k s)) (before (s_x s + s_h s) X) (before (yp x) (comp F x)) P -> primitive P Q -> high x = s_yy s x + (Q (s_x s + s_h s) - Q (s_x s))) ->
  (exists a knew e1 erk, r = Accepted a knew e1 erk) <-> norm n (vdiv (vsub high low) (s_wt s)) <= eps.
Proof. exact adams_error. Qed.
Print Assumptions adams_error_test_partial.

(* C76: the passes of a first step, and of the steps that follow, are such passes *)
Theorem adams_first_step : forall f n s fuel junk eps, sized (s_co s) -> s_start s = true -> s_h s <> 0 -> quiet n eps s -> fouru * Rabs (s_x s) <= Rabs (s_h s) -> 0 < eps -> exists s0, step fuel f n junk eps s = passes fuel f n eps 0 s0 /\
  reach f n s0 (fun _ => s_x s) (fun _ => f (s_x s) (s_yy s)) false /\ s_x s0 = s_x s /\ s_yy s0 = s_yy s /\ s_wt s0 = s_wt s.
Proof. exact step_starts. Qed.
Print Assumptions adams_first_step.
Theorem adams_next_step : forall f n s X F b eps ifail a knew e1 erk s1 h wt fuel junk eps2, reach f n s X F b -> safe s b -> attempt f n eps ifail s = Ok (Accepted a knew e1 erk) -> settle f n eps a knew e1 erk = Ok s1 -> s_start s = false ->
  0 < s_h s * h -> fouru * Rabs (s_x s1) <= Rabs h -> twou * norm n (vdiv (s_yy s1) wt) <= eps2 / 2 -> exists s0,
  step fuel f n junk eps2 (Ode (s_x s1) h (s_hold s1) (s_k s1) (s_kold s1) (s_ns s1) (s_start s1) (s_phase1 s1) (s_nornd s1) (s_yy s1) (s_yp s1) (s_p s1) wt (s_phi s1) (s_co s1)) = passes fuel f n eps2 junk s0 /\
  reach f n s0 (before (s_x s1) X) (before (s_yp s1) F) (if Nat.leb (count_steps s) 1 then false else b || Nat.ltb (s_k s) (s_kold s)) /\ s_x s0 = s_x s1 /\ s_yy s0 = s_yy s1 /\ s_wt s0 = wt /\ s_h s0 = h.
Proof. exact step_continues. Qed.
Print Assumptions adams_next_step.

(* C76: after the order was lowered and raised with steps of one size, a coefficient of the formulas is
   499/1440 where the Adams formula has 251/720 *)
Theorem adams_coefficients_refuted : (exists c1 c2 c3 c4 c5,
  coefficients 1 4 3 1 coef0 = Ok c1 /\ coefficients 1 4 4 2 c1 = Ok c2 /\ coefficients 1 3 4 3 c2 = Ok c3 /\ coefficients 1 3 3 4 c3 = Ok c4 /\ coefficients 1 4 3 4 c4 = Ok c5 /\ a_val (g c5) 4 = 499 / 1440) /\ lv 4 0 = 251 / 720.
Proof. exact (conj wrong_coefficient right_coefficient). Qed.
Print Assumptions adams_coefficients_refuted.

(* C77: interpolation after a failed pass of order one that came back to the last step size: the
   derivatives 0 at time 0 and 3/2 at time 1 give 9/8, not 3/4, at time 1/2 *)
Theorem interpolation_refuted : exists f s0 s1, forall junk1 junk2 j, exists s2, step 2 f 1 junk1 1 s0 = Ok (Some (false, 1, s1)) /\
  step 2 f 1 junk2 1 (Ode (s_x s1) (s_h s1) (s_hold s1) (s_k s1) (s_kold s1) (s_ns s1) (s_start s1) (s_phase1 s1) (s_nornd s1) (s_yy s1) (s_yp s1) (s_p s1) (fun _ => 1) (s_phi s1) (s_co s1)) = Ok (Some (false, 1, s2)) /\
  s_start s0 = true /\ s_x s1 = 0 /\ s_x s2 = 1 /\ s_kold s2 = 1%nat /\ f 0 (s_yy s1) 0%nat = 0 /\ f 1 (s_yy s2) 0%nat = 3 / 2 /\ exists yo ypo, intrp s2 (1 / 2) j = Ok (yo, ypo) /\ ypo 0%nat = 9 / 8.
Proof. exact wrong_interpolation. Qed.
Print Assumptions interpolation_refuted.
(* C77: for any state whose differences and spacings belong to the points X, F: the polynomial through
   the last points and its integral *)
Theorem interpolation_polynomial : forall s X F xout junk, on_grid s X F -> exists yo ypo, intrp s xout junk = Ok (yo, ypo) /\
  forall x P Q, degree_below (S (s_kold s)) P -> through (S (s_kold s)) X (comp F x) P -> primitive P Q -> yo x = s_yy s x + (Q xout - Q (s_x s)) /\ ypo x = P xout.
Proof. exact intrp_grid. Qed.
Print Assumptions interpolation_polynomial.

(* C78: a failed pass leaves time, state and history, and at least halves the step *)
Theorem failed_pass_retries_partial : forall f n s X F b eps ifail s' ifail', reach f n s X F b -> safe s b -> 0 <= eps -> attempt f n eps ifail s = Ok (Again s' ifail') -> s_h s' <> 0 -> (2 <= s_k s)%nat \/ s_kold s = 0%nat \/ s_h s' <> s_hold s ->
  s_x s' = s_x s /\ s_yy s' = s_yy s /\ (0 < s_h s' / s_h s <= 1 / 2) /\ (1 <= s_k s' <= s_k s)%nat /\ reach f n s' X F (b || Nat.ltb (s_k s) (s_kold s)).
Proof. exact failed_pass. Qed.
Print Assumptions failed_pass_retries_partial.
(* C78: a step ends, after as many passes as it takes to halve the step size down to the spacing of the
   numbers; away from time zero *)
Theorem step_ends_partial : forall f n junk eps s, sound s -> quiet n eps s -> 0 <= eps -> s_x s <> 0 -> exists m r, step m f n junk eps s = Ok (Some r).
Proof. exact step_terminates. Qed.
Print Assumptions step_ends_partial.
Theorem step_passes_partial : forall f n junk eps s m, sound s -> quiet n eps s -> 0 <= eps -> Rabs (s_h s) < 2 * 2 ^ m * (fouru * Rabs (s_x s)) -> exists r, step (S m) f n junk eps s = Ok (Some r).
Proof. exact step_end. Qed.
Print Assumptions step_passes_partial.
(* C78: at time zero nothing but underflow ends it *)
Theorem step_ends_refuted : exists f n eps s, 0 < eps /\ sound s /\ quiet n eps s /\ s_h s = 1 /\ forall fuel junk, step fuel f n junk eps s = Ok None.
Proof. exact step_endless. Qed.
Print Assumptions step_ends_refuted.
(* C78: the first failures go back to order one at once, and the first one does not just halve the step *)
Theorem failures_reset_order : forall f n eps ifail s s' i, sound s -> s_start s = false -> (ifail <= 2)%Z -> attempt f n eps ifail s = Ok (Again s' i) -> s_k s' = 1%nat.
Proof. exact failures_order. Qed.
Print Assumptions failures_reset_order.
Theorem failure_step_refuted : exists f n eps s s', sound s /\ s_start s = false /\ 0 < eps /\ attempt f n eps 0 s = Ok (Again s' 1) /\ s_h s' = s_h s / 4.
Proof. exact first_failure_step. Qed.
Print Assumptions failure_step_refuted.
(* C78: the count of failures is not initialised except in a first step, and decides whether a step
   succeeds *)
Theorem step_uninitialised_refuted : exists f n eps s e1 s1 e2 s2, sound s /\ quiet n eps s /\ s_start s = false /\ 0 < eps /\ step 2 f n 0 eps s = Ok (Some (true, e1, s1)) /\ step 2 f n 5 eps s = Ok (Some (false, e2, s2)).
Proof. exact step_junk. Qed.
Print Assumptions step_uninitialised_refuted.

Example a_pass : exists f n s X F a knew e1 erk s1, reach f n s X F false /\ safe s false /\ attempt f n 1 0 s = Ok (Accepted a knew e1 erk) /\ settle f n 1 a knew e1 erk = Ok s1 /\ s_x s1 = 2 /\ s_yy s1 0%nat = 6.
Proof. exact first_pass. Qed.
Example a_session : forall f, session f 1 (solver0 1 (1 / 1000) 0 at_zero).
Proof. exact first_session. Qed.
Example a_call : forall f, called f 1 minus_one /\ quiet 1 1 minus_one.
Proof. exact first_called. Qed.
