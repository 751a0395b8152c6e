From Coq Require Import Reals Lra.
From Verif Require Import Vec_model Vec_proofs Calc Forces_model Forces_proofs.
Local Open Scope R_scope.

(* C48: the acceleration is the drag law in an atmosphere turning about the z axis; the overload
   with partials returns the same *)
Theorem drag_acceleration : forall omega0 r v Area CD Mass rho g,
  drag_accel omega0 r v Area CD Mass rho = drag_law (V 0 0 omega0) r v Area CD Mass rho /\
  dr_acc (drag_accel_partials omega0 r v Area CD Mass rho g) = drag_accel omega0 r v Area CD Mass rho.
Proof. intros omega0 r v Area CD Mass rho g. exact (conj (drag_plain omega0 r v Area CD Mass rho) (drag_same omega0 r v Area CD Mass rho g)). Qed.
Print Assumptions drag_acceleration.
(* C48: with the frame of date the atmosphere turns about the pole of date; both agree when that is the z axis *)
Theorem drag_of_date : forall omega0 r v m Area CD Mass rho, orthogonal m -> direct m ->
  drag_accel_tod omega0 r v m Area CD Mass rho = drag_law (vscale omega0 (mulv (transpose m) unit_z)) r v Area CD Mass rho /\
  (mulv m unit_z = unit_z -> drag_accel_tod omega0 r v m Area CD Mass rho = drag_accel omega0 r v Area CD Mass rho).
Proof. intros omega0 r v m Area CD Mass rho O D. exact (conj (drag_tod omega0 r v m Area CD Mass rho O D) (drag_tod_same omega0 r v m Area CD Mass rho O D)). Qed.
Print Assumptions drag_of_date.
Example drag_of_date_case : orthogonal (turn_z 1) /\ direct (turn_z 1) /\ mulv (turn_z 1) unit_z = unit_z.
Proof. split; [apply turn_z_orth|]. split; [apply turn_z_direct|]. vec_ring. Qed.
(* C48: in general the overloads disagree *)
Theorem drag_overloads_refuted : exists omega0 r v m, orthogonal m /\ direct m /\ drag_accel_tod omega0 r v m 1 1 1 1 <> drag_accel omega0 r v 1 1 1 1.
Proof. exact drag_tod_differs. Qed.
Print Assumptions drag_overloads_refuted.
(* C48: the partials are the derivatives, along every motion and for every density with a gradient *)
Theorem drag_partials_exact : forall omega0 Area Mass rho g p q c s u w k,
  vderiv p s u -> vderiv q s w -> derivable_pt_lim c s k -> gradient rho (p s) g -> air_speed (V 0 0 omega0) (p s) (q s) <> vzero ->
  let d := drag_accel_partials omega0 (p s) (q s) Area (c s) Mass (rho (p s)) g in
  vderiv (fun t => drag_accel omega0 (p t) (q t) Area (c t) Mass (rho (p t))) s
    (vadd (mulv (daccdr d) u) (vadd (mulv (daccdv d) w) (vscale k (daccdC d)))).
Proof. exact drag_derivative. Qed.
Print Assumptions drag_partials_exact.
Example drag_partials_case : vderiv (fun t => vadd (V 7 0 0) (vscale t (V 0 1 0))) 0 (V 0 1 0) /\ derivable_pt_lim (fun t => t) 0 1 /\
  gradient (fun r => dot (V 1 2 3) r) (V 7 0 0) (V 1 2 3) /\ air_speed (V 0 0 1) (V 7 0 0) (V 0 1 0) <> vzero.
Proof. split; [apply vderiv_line|]. split; [apply deriv_id|]. split; [apply gradient_linear|]. intros E. apply (f_equal vy) in E. cbn in E. lra. Qed.
(* C48: the coefficient times its partial is the acceleration *)
Theorem drag_coefficient_times_partial_derivative : forall omega0 r v Area CD Mass rho g,
  vscale CD (daccdC (drag_accel_partials omega0 r v Area CD Mass rho g)) = drag_accel omega0 r v Area CD Mass rho.
Proof. exact drag_coefficient. Qed.
Print Assumptions drag_coefficient_times_partial_derivative.

(* C68: the pressure falls with the square of the distance and points away from the Sun *)
Theorem radiation_acceleration : forall AU r s Area mass C, r <> s -> exists e, norm e = 1 /\ vsub r s = vscale (norm (vsub r s)) e /\
  srp_accel AU r s Area mass C = vscale (C * (Area / mass) * (456316 / 10 ^ 11) * (AU / norm (vsub r s)) ^ 2) e.
Proof. exact srp_law. Qed.
Print Assumptions radiation_acceleration.
(* C68: same acceleration from both overloads, and the partials are its derivatives *)
Theorem radiation_partials : forall AU rsun Area mass p c s u k, vderiv p s u -> derivable_pt_lim c s k -> p s <> rsun -> c s <> 0 ->
  let d := srp_accel_partials AU (p s) rsun Area mass (c s) in
  srp_acc d = srp_accel AU (p s) rsun Area mass (c s) /\
  vderiv (fun t => srp_accel AU (p t) rsun Area mass (c t)) s (vadd (mulv (dadr d) u) (vscale k (dadC d))).
Proof. exact srp_derivative. Qed.
Print Assumptions radiation_partials.
Example radiation_case : vderiv (fun t => vadd (V 7 0 0) (vscale t (V 0 1 0))) 0 (V 0 1 0) /\ derivable_pt_lim (fun t => t + 1) 0 (1 + 0) /\ V 7 0 0 <> V 150 0 0 /\ 0 + 1 <> 0.
Proof. split; [apply vderiv_line|]. split; [apply deriv_plus; [apply deriv_id|apply deriv_const]|]. split; [intros E; apply (f_equal vx) in E; cbn in E; lra|lra]. Qed.

(* C49: attraction of the satellite minus attraction of the central body, nothing at the centre *)
Theorem third_body_acceleration : forall GM r s, point_mass_accel GM r s = vsub (newton GM r s) (newton GM vzero s) /\
  fst (point_mass_partials GM r s) = point_mass_accel GM r s /\ point_mass_accel GM vzero s = vzero.
Proof. intros GM r s. exact (conj (third_body GM r s) (conj (third_body_same GM r s) (third_body_centre GM s))). Qed.
Print Assumptions third_body_acceleration.
(* C49: the partials are right across the line to the body.  Missing: every other direction, refuted below *)
Theorem third_body_partials_partial : forall GM robj p s u, vderiv p s u -> p s <> robj -> dot (vsub (p s) robj) u = 0 ->
  vderiv (fun t => point_mass_accel GM (p t) robj) s (mulv (snd (point_mass_partials GM (p s) robj)) u).
Proof. exact third_body_across. Qed.
Print Assumptions third_body_partials_partial.
Example third_body_case : vderiv (fun t => vadd (V 1 0 0) (vscale t (V 0 1 0))) 0 (V 0 1 0) /\ V 1 0 0 <> V 2 0 0 /\ dot (vsub (V 1 0 0) (V 2 0 0)) (V 0 1 0) = 0.
Proof. split; [apply vderiv_line|]. split; [intros E; apply (f_equal vx) in E; cbn in E; lra|vec_ring]. Qed.
(* C49: along the line the partials are wrong *)
Theorem third_body_partials_refuted : exists GM rsat robj u, 0 < GM /\ rsat <> robj /\ robj <> vzero /\
  ~ vderiv (fun t => point_mass_accel GM (vadd rsat (vscale t u)) robj) 0 (mulv (snd (point_mass_partials GM rsat robj)) u).
Proof. exact third_body_wrong. Qed.
Print Assumptions third_body_partials_refuted.

(* C69: the acceleration of the Moon and the position of the Sun are in metres, at the right epoch.
   Missing: the acceleration of the Sun, refuted below *)
Theorem sun_moon_partial : forall rSun rMon rsat GMSun GMMoon mjd0 mjd_tai,
  moon_acc (SunMoon rSun rMon rsat GMSun GMMoon) = vsub (newton (10 ^ 9 * GMMoon) rsat (vscale 1000 rMon)) (newton (10 ^ 9 * GMMoon) vzero (vscale 1000 rMon)) /\
  sun_pos (SunMoon rSun rMon rsat GMSun GMMoon) = vscale 1000 rSun /\
  86400 * (sunmoon_jd mjd0 mjd_tai - mjd0) = 86400 * mjd_tai + 32184 / 1000.
Proof. intros rSun rMon rsat GMSun GMMoon mjd0 mjd_tai. destruct (moon_right rSun rMon rsat GMSun GMMoon) as [A B]. exact (conj A (conj B (sunmoon_epoch mjd0 mjd_tai))). Qed.
Print Assumptions sun_moon_partial.
(* C69: the Sun's acceleration is always a million times too small *)
Theorem sun_acceleration_scale : forall rSun rMon rsat GMSun GMMoon, sun_wanted rSun rsat GMSun = vscale (10 ^ 6) (sun_acc (SunMoon rSun rMon rsat GMSun GMMoon)).
Proof. exact sun_million. Qed.
Print Assumptions sun_acceleration_scale.
Theorem sun_acceleration_refuted : exists rSun rMon rsat GMSun GMMoon, 0 < GMSun /\ sun_acc (SunMoon rSun rMon rsat GMSun GMMoon) <> sun_wanted rSun rsat GMSun.
Proof. exact sun_wrong. Qed.
Print Assumptions sun_acceleration_refuted.
