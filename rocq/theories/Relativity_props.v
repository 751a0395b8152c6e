(* C81: relativistic clock correction *)
From Coq Require Import Reals Lra Lia.
From Verif Require Import Vec_model Vec_proofs Harmonics_model Legendre GravHarm Gravity_proofs Relativity_model Relativity_proofs.
Local Open Scope R_scope.

(* C81: potential of a point mass plus half the squared speed, over the speed of light *)
Theorem clock_correction_central : forall c p v GM Re C S lam, C O O = 1 -> clock_correction c p v GM = (potential GM Re C S 0 0 p lam + dot v v / 2) / c.
Proof. exact correction_point. Qed.
Print Assumptions clock_correction_central.
(* C81: with the oblateness, for the geocentric latitude; without it the simple one.
   Missing: the latitude the code uses is the geodetic one, refuted below *)
Theorem clock_correction_oblate_partial : forall c lat p v GM J2 Re S lam, geocentric p lat ->
  clock_correction_J2 c lat p v GM J2 Re = (potential GM Re (oblate J2) S 2 0 p lam + dot v v / 2) / c.
Proof. exact correction_geocentric. Qed.
Print Assumptions clock_correction_oblate_partial.
Theorem clock_correction_sphere : forall c lat p v GM Re, clock_correction_J2 c lat p v GM 0 Re = clock_correction c p v GM.
Proof. exact correction_plain. Qed.
Print Assumptions clock_correction_sphere.
Theorem clock_correction_equator : forall a e2 c lat p v GM J2 Re S lam, 0 < a -> 0 < e2 < 1 -> sin lat = 0 -> geodetic a e2 p lat ->
  clock_correction_J2 c lat p v GM J2 Re = (potential GM Re (oblate J2) S 2 0 p lam + dot v v / 2) / c.
Proof. intros a e2 c lat p v GM J2 Re S lam A E Z G. exact (correction_geocentric c lat p v GM J2 Re S lam (geodetic_equator a e2 p lat A E Z G)). Qed.
Print Assumptions clock_correction_equator.
Example clock_correction_case : geocentric (V 3 0 0) 0 /\ geodetic 2 (/ 2) (V 3 0 0) 0.
Proof.
  split; [unfold geocentric; rewrite sin_0; cbn [vz]; unfold Rdiv; ring|]. exists 1, 0. cbn zeta. rewrite sin_0, cos_0. replace (1 - / 2 * 0 * 0) with 1 by ring. rewrite sqrt_1. apply vec_eq; cbn [vx vy vz]; field.
Qed.
(* C81: for every ellipsoid and height there are places where the code's latitude gives another value *)
Theorem clock_correction_oblate_refuted : forall a e2 h c v GM J2 Re S lam, 0 < a -> 0 < e2 < 1 -> 0 <= h -> c <> 0 -> GM <> 0 -> J2 <> 0 -> Re <> 0 ->
  exists p lat, geodetic a e2 p lat /\ clock_correction_J2 c lat p v GM J2 Re <> (potential GM Re (oblate J2) S 2 0 p lam + dot v v / 2) / c.
Proof. exact correction_differs. Qed.
Print Assumptions clock_correction_oblate_refuted.
(* C81: the documented return value, potential minus half the squared speed, is not what is returned *)
Theorem clock_correction_documented_refuted : exists c p v GM, 0 < c /\ 0 < GM /\ p <> vzero /\ clock_correction c p v GM <> (GM / norm p - dot v v / 2) / c.
Proof.
  exists 1, (V 1 0 0), (V 0 1 0), 1. split; [lra|]. split; [lra|]. split; [intros E; apply (f_equal vx) in E; cbn in E; lra|].
  unfold clock_correction, dot. cbn [vx vy vz]. unfold Rdiv. rewrite Rinv_1. intros E. lra.
Qed.
Print Assumptions clock_correction_documented_refuted.
