From Coq Require Import Reals Lra.
From Verif Require Import Vec_model Vec_proofs Kepler_model Kepler_proofs SunMoon_model SunMoon_proofs.
Local Open Scope R_scope.

(* C60: a vector with given ecliptic coordinates has the length of its distance, so each theorem below gives
   the length of the vector for every epoch *)
Theorem ecliptic_distance : forall eps d lon lat v, 0 <= d -> ecliptic eps d lon lat v -> norm v = d.
Proof. exact ecliptic_length. Qed.
Print Assumptions ecliptic_distance.
Example ecliptic_case : ecliptic 0 2 0 0 (V 2 0 0).
Proof. unfold ecliptic, turn_x, mat9, mulv, dot. cbn. rewrite cos_0, sin_0. apply vec_eq; cbn; ring. Qed.
(* C60: the Sun after Montenbruck and Gill; wrapping the angles to one turn changes nothing *)
Theorem sun_montenbruck_position : forall t, let M := 2 * PI * (9931267 / 10 ^ 7 + 999973583 / 10 ^ 7 * t) in
  ecliptic (degrees (2343929111 / 10 ^ 8)) (sun_distance_m M) (2 * PI * (7859444 / 10 ^ 7) + M + seconds (6892 * sin M + 72 * sin (2 * M))) 0 (sun_vector_montenbruck t) /\
  norm (sun_vector_montenbruck t) = sun_distance_m M /\ 147098 * 10 ^ 3 < sun_distance_m M < 152140 * 10 ^ 3.
Proof.
  intros t M. pose proof (sun_m_positive M) as P. split; [exact (sun_m t)|]. split; [|exact P]. assert (Q : 0 <= sun_distance_m M) by lra. exact (ecliptic_length _ _ _ _ _ Q (sun_m t)).
Qed.
Print Assumptions sun_montenbruck_position.
(* C60: the Sun after Vallado *)
Theorem sun_vallado_position : forall t, let M := degrees (3575291092 / 10 ^ 7 + 3599950534 / 10 ^ 5 * t) in
  let d := astronomical_unit * (1000140612 / 10 ^ 9 - 16708617 / 10 ^ 9 * cos M - 139589 / 10 ^ 9 * cos (2 * M)) in
  ecliptic (degrees (23439291 / 10 ^ 6 - 130042 / 10 ^ 7 * t)) d
    (degrees (280460 / 10 ^ 3 + 36000771 / 10 ^ 3 * t + 1914666471 / 10 ^ 9 * sin M + 19994643 / 10 ^ 9 * sin (2 * M))) 0 (sun_vector_vallado t) /\
  norm (sun_vector_vallado t) = d.
Proof.
  intros t M d. split; [exact (sun_v t)|]. refine (ecliptic_length _ _ _ _ _ _ (sun_v t)). unfold astronomical_unit. fold M. pose proof (cos_between M) as A. pose proof (cos_between (2 * M)) as B. clearbody M. lra.
Qed.
Print Assumptions sun_vallado_position.
(* C60: the Sun after Curtis *)
Theorem sun_curtis_position : forall n, let M := degrees (357529 / 10 ^ 3 + 98560023 / 10 ^ 8 * n) in
  let d := astronomical_unit * (100014 / 10 ^ 5 - 1671 / 10 ^ 5 * cos M - 14 / 10 ^ 5 * cos (2 * M)) in
  ecliptic (degrees (23439 / 10 ^ 3 - 365 / 10 ^ 9 * n)) d
    (degrees (280459 / 10 ^ 3 + 98564736 / 10 ^ 8 * n + 1915 / 10 ^ 3 * sin M + 2 / 100 * sin (2 * M))) 0 (sun_vector_curtis n) /\
  norm (sun_vector_curtis n) = d.
Proof.
  intros n M d. split; [exact (sun_c n)|]. refine (ecliptic_length _ _ _ _ _ _ (sun_c n)). unfold astronomical_unit. fold M. pose proof (cos_between M) as A. pose proof (cos_between (2 * M)) as B. clearbody M. lra.
Qed.
Print Assumptions sun_curtis_position.
(* C60: the Moon after Montenbruck and Gill, in terms of the fundamental arguments *)
Theorem moon_montenbruck_position : forall l lp F D t,
  ecliptic (degrees (2343929111 / 10 ^ 8)) (moon_distance l lp D) (2 * PI * (606433 / 10 ^ 6 + 1336851344 / 10 ^ 6 * t) + seconds (moon_lon_terms l lp F D))
    (seconds (moon_lat_terms l lp F D)) (moon_vector_approx l lp F D t) /\
  norm (moon_vector_approx l lp F D t) = moon_distance l lp D /\ 356000 < moon_distance l lp D < 414000.
Proof.
  intros l lp F D t. pose proof (moon_distance_range l lp D) as P. split; [exact (moon_m l lp F D t)|]. split; [|exact P]. assert (Q : 0 <= moon_distance l lp D) by lra. exact (ecliptic_length _ _ _ _ _ Q (moon_m l lp F D t)).
Qed.
Print Assumptions moon_montenbruck_position.
(* C60: the Moon after Vallado: the distance follows from the parallax, which is never zero *)
Theorem moon_vallado_position : forall t,
  ecliptic (degrees (23439291 / 10 ^ 6 - 130042 / 10 ^ 7 * t - 164 / 10 ^ 9 * t ^ 2 + 504 / 10 ^ 9 * t ^ 3)) (63781366 / 10 ^ 4 / sin (degrees (moon_parallax t)))
    (degrees (moon_lon_v t)) (degrees (moon_lat_v t)) (moon_vector_vallado t) /\
  0 < sin (degrees (moon_parallax t)) /\ norm (moon_vector_vallado t) * sin (degrees (moon_parallax t)) = 63781366 / 10 ^ 4.
Proof.
  intros t. pose proof (parallax_range t) as P. split; [exact (moon_v t)|]. split; [exact P|].
  assert (Q : 0 <= 63781366 / 10 ^ 4 / sin (degrees (moon_parallax t))) by (apply Rmult_le_pos; [lra|apply Rlt_le, Rinv_0_lt_compat, P]).
  rewrite (ecliptic_length _ _ _ _ _ Q (moon_v t)). field. lra.
Qed.
Print Assumptions moon_vallado_position.
