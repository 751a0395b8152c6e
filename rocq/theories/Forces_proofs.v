From Coq Require Import Reals Lra.
From Verif Require Import Vec_model Vec_proofs Calc Forces_model.
Local Open Scope R_scope.

Lemma norm_scaled k a : 0 <= k -> norm (vscale k a) = k * norm a.
Proof.
  intros P. apply norm_unique; [apply Rmult_le_pos; [exact P|apply norm_nonneg]|].
  transitivity (k * k * (norm a * norm a)); [ring|]. rewrite norm_sqr. vec_ring.
Qed.
Lemma normalized_speed k a : vscale (k * dot a a) (normalized a) = vscale (k * norm a) a.
Proof.
  unfold normalized. destruct (Rlt_dec 0 (dot a a)) as [P|N].
  - rewrite vscale_vscale. f_equal. rewrite <- norm_sqr. field. intros Z. rewrite <- norm_sqr, Z in P. lra.
  - assert (Z : dot a a = 0) by (pose proof (dot_nonneg a); lra). rewrite Z, (dot_zero a Z). vec_ring.
Qed.

(* ---- drag ---- *)
(* velocity with respect to an atmosphere turning with angular velocity w *)
Definition air_speed (w r v : vec) : vec := vsub v (cross w r).
(* the drag law: half the density times the square of the speed, against it *)
Definition drag_law (w r v : vec) (Area CD Mass rho : R) : vec :=
  vscale (- (CD * Area * rho / (2 * Mass) * norm (air_speed w r v))) (air_speed w r v).
Lemma drag_plain omega0 r v Area CD Mass rho : drag_accel omega0 r v Area CD Mass rho = drag_law (V 0 0 omega0) r v Area CD Mass rho.
Proof.
  unfold drag_accel, drag_law. change (earth_spin omega0) with (V 0 0 omega0). fold (air_speed (V 0 0 omega0) r v). set (a := air_speed _ r v).
  rewrite normalized_speed. f_equal. unfold Rdiv. rewrite Rinv_mult. generalize (/ Mass). intros im. field.
Qed.
Lemma drag_same omega0 r v Area CD Mass rho g : dr_acc (drag_accel_partials omega0 r v Area CD Mass rho g) = drag_accel omega0 r v Area CD Mass rho.
Proof. reflexivity. Qed.
Lemma direct_back m w r : orthogonal m -> direct m -> mulv (transpose m) (cross w (mulv m r)) = cross (mulv (transpose m) w) r.
Proof.
  intros O D. assert (E : w = mulv m (mulv (transpose m) w)) by (symmetry; rewrite <- (transpose_invol m) at 1; apply orth_back, orth_rows, O).
  rewrite E at 1. rewrite D. apply orth_back. exact O.
Qed.
Lemma drag_tod omega0 r v m Area CD Mass rho : orthogonal m -> direct m ->
  drag_accel_tod omega0 r v m Area CD Mass rho = drag_law (vscale omega0 (mulv (transpose m) unit_z)) r v Area CD Mass rho.
Proof.
  intros O D. unfold drag_accel_tod, drag_law. set (b := vsub (mulv m v) _).
  assert (E : mulv (transpose m) b = air_speed (vscale omega0 (mulv (transpose m) unit_z)) r v).
  { unfold b, air_speed. rewrite mulv_sub, (orth_back m v O), (direct_back m _ r O D). f_equal. f_equal. rewrite <- mulv_scale. f_equal. unfold earth_spin. vec_ring. }
  rewrite <- E. rewrite (orth_norm (transpose m) b (orth_rows m O)). rewrite mulv_scale. f_equal. unfold Rdiv. rewrite Rinv_mult. generalize (/ Mass). intros im. field.
Qed.
Lemma drag_tod_same omega0 r v m Area CD Mass rho : orthogonal m -> direct m -> mulv m unit_z = unit_z ->
  drag_accel_tod omega0 r v m Area CD Mass rho = drag_accel omega0 r v Area CD Mass rho.
Proof.
  intros O D Z. rewrite (drag_tod omega0 r v m Area CD Mass rho O D), drag_plain. f_equal. rewrite <- Z, (orth_back m _ O). vec_ring.
Qed.
(* the overload with the frame of date differs as soon as the pole is somewhere else *)
Lemma drag_tod_differs : exists omega0 r v m, orthogonal m /\ direct m /\ drag_accel_tod omega0 r v m 1 1 1 1 <> drag_accel omega0 r v 1 1 1 1.
Proof.
  exists 1, (V 1 0 0), (V 0 0 0), (turn_x (PI / 2)). split; [apply turn_x_orth|]. split; [apply turn_x_direct|]. rewrite (drag_tod _ _ _ _ _ _ _ _ (turn_x_orth _) (turn_x_direct _)), drag_plain. unfold drag_law.
  assert (A : air_speed (V 0 0 1) (V 1 0 0) (V 0 0 0) = V 0 (-1) 0) by (unfold air_speed; vec_ring).
  assert (B : air_speed (vscale 1 (mulv (transpose (turn_x (PI / 2))) unit_z)) (V 1 0 0) (V 0 0 0) = V 0 0 1).
  { unfold air_speed. vec_unfold. apply vec_eq; cbn; rewrite ?cos_PI2, ?sin_PI2; ring. }
  rewrite A, B. assert (N : norm (V 0 0 1) = 1) by (apply norm_unique; [lra|unfold dot; cbn; ring]). assert (N' : norm (V 0 (-1) 0) = 1) by (apply norm_unique; [lra|unfold dot; cbn; ring]).
  rewrite N, N'. intros E. apply (f_equal vz) in E. cbn in E. lra.
Qed.
(* g is the gradient of f at r *)
Definition gradient (f : vec -> R) (r g : vec) : Prop := forall p s u, p s = r -> vderiv p s u -> derivable_pt_lim (fun t => f (p t)) s (dot g u).
Lemma gradient_linear a r : gradient (fun p => dot a p) r a.
Proof.
  intros p s u _ D. eapply deriv_eq; [apply deriv_dot; [apply vderiv_const|exact D]|]. vec_ring.
Qed.
Lemma outer_mulv a b u : mulv (outer a b) u = vscale (dot b u) a. Proof. vec_ring. Qed.
Lemma msub_mulv m n u : mulv (msub m n) u = vsub (mulv m u) (mulv n u). Proof. vec_ring. Qed.
Lemma madd_mulv m n u : mulv (madd m n) u = vadd (mulv m u) (mulv n u). Proof. vec_ring. Qed.
Lemma mscale_mulv k m u : mulv (mscale k m) u = vscale k (mulv m u). Proof. vec_ring. Qed.
Lemma spin_cross omega0 u : mulv (transpose (mat9 0 omega0 0 (- omega0) 0 0 0 0 0)) u = cross (V 0 0 omega0) u. Proof. vec_ring. Qed.
Lemma dot_sub a b c : dot a (vsub b c) = dot a b - dot a c. Proof. vec_ring. Qed.
Lemma drag_algebra omega0 am cc h n a u w g k :
  vadd (mulv (msub (outer (vscale (- (1 / 2) * cc * am * n) a) g)
                   (mulm (mscale (- (1 / 2) * cc * am * h) (madd (mscale n identity) (mscale (/ n) (outer a a)))) (transpose (mat9 0 omega0 0 (- omega0) 0 0 0 0 0)))) u)
    (vadd (mulv (mscale (- (1 / 2) * cc * am * h) (madd (mscale n identity) (mscale (/ n) (outer a a)))) w) (vscale k (vscale (- (1 / 2) * am * h * n) a))) =
  vadd (vscale (- (1 / 2) * am * (k * (h * n) + cc * (dot g u * n + h * (dot a (air_speed (V 0 0 omega0) u w) / n)))) a) (vscale (- (1 / 2) * am * (cc * (h * n))) (air_speed (V 0 0 omega0) u w)).
Proof.
  unfold air_speed, Rdiv. rewrite msub_mulv, outer_mulv, mulv_mulm, spin_cross, !mscale_mulv, !madd_mulv, !mscale_mulv, !outer_mulv, !mulv_identity, dot_sub. generalize (cross (V 0 0 omega0) u) (dot g u) (/ n) (/ 2). intros x gu i half. generalize (dot a x) (dot a w). intros ax aw. destruct a as [a1 a2 a3], x as [x1 x2 x3], w as [w1 w2 w3]. vec_ring.
Qed.
(* the acceleration along any motion, for any change of the coefficient: its derivative is given by the three partials *)
Lemma drag_derivative omega0 Area Mass rho g p q c s u w k :
  vderiv p s u -> vderiv q s w -> derivable_pt_lim c s k -> gradient rho (p s) g -> air_speed (V 0 0 omega0) (p s) (q s) <> vzero ->
  let d := drag_accel_partials omega0 (p s) (q s) Area (c s) Mass (rho (p s)) g in
  vderiv (fun t => drag_accel omega0 (p t) (q t) Area (c t) Mass (rho (p t))) s
    (vadd (mulv (daccdr d) u) (vadd (mulv (daccdv d) w) (vscale k (daccdC d)))).
Proof.
  intros DP DQ DC DG NZ d. assert (DR : derivable_pt_lim (fun t => rho (p t)) s (dot g u)) by (apply DG; [reflexivity|exact DP]).
  assert (DA : vderiv (fun t => air_speed (V 0 0 omega0) (p t) (q t)) s (air_speed (V 0 0 omega0) u w)).
  { unfold air_speed. eapply vderiv_eq; [apply vderiv_sub; [exact DQ|apply vderiv_cross; [apply vderiv_const|exact DP]]|]. f_equal. vec_ring. }
  pose proof (deriv_norm _ _ _ DA NZ) as DN.
  apply vderiv_ext with (fun t => vscale ((- (1 / 2) * (Area / Mass)) * (c t * (rho (p t) * norm (air_speed (V 0 0 omega0) (p t) (q t))))) (air_speed (V 0 0 omega0) (p t) (q t))).
  { intros t. unfold drag_accel. change (earth_spin omega0) with (V 0 0 omega0). fold (air_speed (V 0 0 omega0) (p t) (q t)). rewrite normalized_speed. f_equal. ring. }
  eapply vderiv_eq; [apply vderiv_smul; [apply deriv_scal, deriv_mult; [exact DC|apply deriv_mult; [exact DR|exact DN]]|exact DA]|].
  unfold d, drag_accel_partials. cbn [daccdr daccdv daccdC]. change (earth_spin omega0) with (V 0 0 omega0). fold (air_speed (V 0 0 omega0) (p s) (q s)).
  pose proof (norm_pos _ NZ) as NP. set (a := air_speed (V 0 0 omega0) (p s) (q s)) in *. set (n := norm a) in *. clearbody a n. generalize (rho (p s)). intros h.
  generalize (Area / Mass). intros am. generalize (c s). intros cc. unfold Rdiv at 1 2 3. clear. symmetry. rewrite drag_algebra. unfold Rdiv. reflexivity.
Qed.
Lemma drag_coefficient omega0 r v Area CD Mass rho g : vscale CD (daccdC (drag_accel_partials omega0 r v Area CD Mass rho g)) = drag_accel omega0 r v Area CD Mass rho.
Proof. unfold drag_accel_partials, drag_accel. cbn [daccdC]. rewrite normalized_speed, vscale_vscale. f_equal. ring. Qed.

(* ---- radiation ---- *)
Lemma cube_pos x : 0 < x -> 0 < x * x * x. Proof. intros. apply Rmult_lt_0_compat; [apply Rmult_lt_0_compat|]; assumption. Qed.
Lemma sub_nonzero a b : a <> b -> vsub a b <> vzero.
Proof. intros N E. apply N. destruct a as [a1 a2 a3], b as [b1 b2 b3]. apply vec_eq; cbn; [apply (f_equal vx) in E|apply (f_equal vy) in E|apply (f_equal vz) in E]; cbn in E; lra. Qed.
(* pressure at distance D from the Sun, along the unit vector away from it *)
Lemma srp_law AU r s Area mass C : r <> s -> exists e, norm e = 1 /\ vsub r s = vscale (norm (vsub r s)) e /\
  srp_accel AU r s Area mass C = vscale (C * (Area / mass) * (456316 / 10 ^ 11) * (AU / norm (vsub r s)) ^ 2) e.
Proof.
  intros N. pose proof (norm_pos _ (sub_nonzero _ _ N)) as P. set (D := norm (vsub r s)) in *. exists (vscale (/ D) (vsub r s)). split; [|split].
  - rewrite norm_scaled by (apply Rlt_le, Rinv_0_lt_compat, P). fold D. field. lra.
  - rewrite vscale_vscale. replace (D * / D) with 1 by (field; lra). vec_ring.
  - unfold srp_accel, P0. fold D. rewrite !vscale_vscale. f_equal. generalize (Area / mass). intros am. field. lra.
Qed.
Lemma inv_cube_deriv f s a : vderiv f s a -> f s <> vzero ->
  vderiv (fun t => vscale (/ (norm (f t) * norm (f t) * norm (f t))) (f t)) s
    (mulv (msub (mscale (/ (norm (f s) * norm (f s) * norm (f s))) identity) (mscale (/ (norm (f s) * norm (f s) * norm (f s) * norm (f s) * norm (f s))) (mscale 3 (outer (f s) (f s))))) a).
Proof.
  intros DF NZ. pose proof (deriv_norm _ _ _ DF NZ) as DN. pose proof (norm_pos _ NZ) as P. pose proof (cube_pos _ P) as P3.
  eapply vderiv_eq; [apply vderiv_smul; [apply (deriv_inv (fun t => norm (f t) * norm (f t) * norm (f t))); [apply (deriv_mult (fun t => norm (f t) * norm (f t)) (fun t => norm (f t))); [apply deriv_mult; exact DN|exact DN]|lra]|exact DF]|].
  cbv beta. set (n := norm (f s)) in *. clearbody n. assert (NN : n <> 0) by lra. generalize (f s). intros b. clear - NN. rewrite msub_mulv, !mscale_mulv, outer_mulv, mulv_identity. generalize (dot b a). intros ba. vec_unfold. apply vec_eq; cbn [vx vy vz]; field; exact NN.
Qed.
Lemma srp_derivative AU rsun Area mass p c s u k : vderiv p s u -> derivable_pt_lim c s k -> p s <> rsun -> c s <> 0 ->
  let d := srp_accel_partials AU (p s) rsun Area mass (c s) in
  srp_acc d = srp_accel AU (p s) rsun Area mass (c s) /\
  vderiv (fun t => srp_accel AU (p t) rsun Area mass (c t)) s (vadd (mulv (dadr d) u) (vscale k (dadC d))).
Proof.
  intros DP DC N NC d. split; [reflexivity|].
  assert (DD : vderiv (fun t => vsub (p t) rsun) s u) by (eapply vderiv_eq; [apply vderiv_sub; [exact DP|apply vderiv_const]|vec_ring]).
  pose proof (inv_cube_deriv _ _ _ DD (sub_nonzero _ _ N)) as DI. cbv beta in DI.
  apply vderiv_ext with (fun t => vscale ((Area / mass) * P0 * (AU * AU) * c t) (vscale (/ (norm (vsub (p t) rsun) * norm (vsub (p t) rsun) * norm (vsub (p t) rsun))) (vsub (p t) rsun))).
  { intros t. unfold srp_accel. rewrite !vscale_vscale. f_equal. ring. }
  eapply vderiv_eq; [apply vderiv_smul; [apply deriv_scal; exact DC|exact DI]|].
  unfold d, srp_accel_partials. cbn [dadr dadC]. pose proof (norm_pos _ (sub_nonzero _ _ N)) as P. set (n := norm (vsub (p s) rsun)) in *. set (a := vsub (p s) rsun) in *. clearbody a n.
  generalize (Area / mass). intros am. generalize P0. intros p0. destruct a as [a1 a2 a3], u as [u1 u2 u3]. generalize (/ (n * n * n)) (/ (n * n * n * n * n)). intros i3 i5. clear - NC. generalize dependent (c s). intros cc NC. rewrite !mscale_mulv, !msub_mulv, !mscale_mulv, outer_mulv, mulv_identity, !vscale_vscale. generalize (dot (V a1 a2 a3) (V u1 u2 u3)). intros au. vec_unfold. apply vec_eq; cbn [vx vy vz]; field; exact NC.
Qed.

(* ---- third body ---- *)
(* Newton's attraction at p of a mass at q *)
Definition newton (GM : R) (p q : vec) : vec := vscale (GM / norm (vsub q p) ^ 3) (vsub q p).
Lemma norm_opp a b : norm (vsub a b) = norm (vsub b a).
Proof. unfold norm. f_equal. vec_ring. Qed.
Lemma third_body GM r s : point_mass_accel GM r s = vsub (newton GM r s) (newton GM vzero s).
Proof.
  unfold point_mass_accel, newton. rewrite <- !norm_sqr. rewrite (norm_opp s r). replace (vsub s vzero) with s by vec_ring. unfold Rdiv.
  set (n := norm (vsub r s)). set (m := norm s). replace (n * (n * n)) with (n ^ 3) by ring. replace (m * (m * m)) with (m ^ 3) by ring. vec_ring.
Qed.
Lemma third_body_centre GM s : point_mass_accel GM vzero s = vzero.
Proof. rewrite third_body. vec_ring. Qed.
Lemma third_body_same GM r s : fst (point_mass_partials GM r s) = point_mass_accel GM r s. Proof. reflexivity. Qed.
(* the derivative of the attraction *)
Definition tidal_matrix (GM : R) (d : vec) : mat :=
  mscale (- GM) (msub (mscale (/ (norm d * norm d * norm d)) identity) (mscale (/ (norm d * norm d * norm d * norm d * norm d)) (mscale 3 (outer d d)))).
Lemma third_body_deriv GM robj p s u : vderiv p s u -> p s <> robj ->
  vderiv (fun t => point_mass_accel GM (p t) robj) s (mulv (tidal_matrix GM (vsub (p s) robj)) u).
Proof.
  intros DP N. assert (DD : vderiv (fun t => vsub (p t) robj) s u) by (eapply vderiv_eq; [apply vderiv_sub; [exact DP|apply vderiv_const]|vec_ring]).
  pose proof (inv_cube_deriv _ _ _ DD (sub_nonzero _ _ N)) as DI. cbv beta in DI.
  apply vderiv_ext with (fun t => vadd (vscale (- GM) (vscale (/ (norm (vsub (p t) robj) * norm (vsub (p t) robj) * norm (vsub (p t) robj))) (vsub (p t) robj))) (vscale (- GM) (vscale (/ (norm robj * dot robj robj)) robj))).
  { intros t. unfold point_mass_accel. rewrite <- (norm_sqr (vsub (p t) robj)). rewrite Rmult_assoc. vec_ring. }
  eapply vderiv_eq; [apply vderiv_add; [apply vderiv_scale; exact DI|apply vderiv_const]|]. unfold tidal_matrix. set (n := norm (vsub (p s) robj)). clearbody n. generalize (vsub (p s) robj). intros b. clear. generalize (/ (n * n * n)) (/ (n * n * n * n * n)). intros i3 i5. rewrite !mscale_mulv, !msub_mulv, !mscale_mulv, outer_mulv, mulv_identity, !vscale_vscale. generalize (dot b u). intros bu. vec_ring.
Qed.
(* right in the directions perpendicular to the line to the body *)
Lemma third_body_across GM robj p s u : vderiv p s u -> p s <> robj -> dot (vsub (p s) robj) u = 0 ->
  vderiv (fun t => point_mass_accel GM (p t) robj) s (mulv (snd (point_mass_partials GM (p s) robj)) u).
Proof.
  intros DP N Z. eapply vderiv_eq; [exact (third_body_deriv GM robj p s u DP N)|]. unfold tidal_matrix, point_mass_partials. cbn [snd]. rewrite <- (norm_sqr (vsub (p s) robj)), <- Rmult_assoc.
  generalize (/ (norm (vsub (p s) robj) * norm (vsub (p s) robj) * norm (vsub (p s) robj))) (/ (norm (vsub (p s) robj) * norm (vsub (p s) robj) * norm (vsub (p s) robj) * norm (vsub (p s) robj) * norm (vsub (p s) robj))) (/ (dot robj robj * dot robj robj * norm robj)). intros i3 i5 j5.
  set (d := vsub (p s) robj) in *. clearbody d. clear - Z.   assert (L : mulv (mscale (- GM) (msub (mscale i3 identity) (mscale i5 (mscale 3 (outer d d))))) u = vscale (- GM) (vsub (vscale i3 u) (vscale (i5 * 3 * dot d u) d))) by (rewrite !mscale_mulv, msub_mulv, !mscale_mulv, outer_mulv, mulv_identity, !vscale_vscale; generalize (dot d u); intros du; vec_ring).
  assert (L' : mulv (mscale (- GM) (madd (mscale i3 identity) (mscale j5 (mscale 3 (outer d d))))) u = vscale (- GM) (vadd (vscale i3 u) (vscale (j5 * 3 * dot d u) d))) by (rewrite !mscale_mulv, madd_mulv, !mscale_mulv, outer_mulv, mulv_identity, !vscale_vscale; generalize (dot d u); intros du; vec_ring).
  rewrite L, L', Z. vec_ring.
Qed.
Lemma third_body_wrong : exists GM rsat robj u, 0 < GM /\ rsat <> robj /\ robj <> vzero /\
  ~ vderiv (fun t => point_mass_accel GM (vadd rsat (vscale t u)) robj) 0 (mulv (snd (point_mass_partials GM rsat robj)) u).
Proof.
  exists 1, (V 1 0 0), (V 2 0 0), (V 1 0 0). split; [lra|]. split; [intros E; apply (f_equal vx) in E; cbn in E; lra|]. split; [intros E; apply (f_equal vx) in E; cbn in E; lra|]. intros D.
  assert (DL : vderiv (fun t => vadd (V 1 0 0) (vscale t (V 1 0 0))) 0 (V 1 0 0)) by apply vderiv_line.
  assert (N : (fun t => vadd (V 1 0 0) (vscale t (V 1 0 0))) 0 <> V 2 0 0) by (intros E; apply (f_equal vx) in E; cbn in E; lra).
  pose proof (vderiv_unique _ _ _ _ D (third_body_deriv 1 (V 2 0 0) _ 0 _ DL N)) as E. cbv beta in E. apply (f_equal vx) in E.
  assert (A : vsub (vadd (V 1 0 0) (vscale 0 (V 1 0 0))) (V 2 0 0) = V (-1) 0 0) by (clear; apply vec_eq; cbn; ring). assert (B : vsub (V 1 0 0) (V 2 0 0) = V (-1) 0 0) by (clear; apply vec_eq; cbn; ring).
  unfold point_mass_partials, tidal_matrix in E. cbn [snd] in E. rewrite A, B, !mscale_mulv, msub_mulv, madd_mulv, !mscale_mulv, outer_mulv, mulv_identity in E.
  assert (N1 : norm (V (-1) 0 0) = 1) by (apply norm_unique; [lra|unfold dot; cbn; ring]). assert (N2 : norm (V 2 0 0) = 2) by (apply norm_unique; [lra|unfold dot; cbn; ring]). rewrite N1, N2 in E. unfold dot in E. cbn [vx vy vz vscale vadd vsub] in E. lra.
Qed.

(* ---- Sun and Moon ---- *)
Lemma newton_scaled k GM p q : 0 < k -> newton (k ^ 3 * GM) (vscale k p) (vscale k q) = vscale k (newton GM p q).
Proof.
  intros P. unfold newton. replace (vsub (vscale k q) (vscale k p)) with (vscale k (vsub q p)) by vec_ring. rewrite norm_scaled by lra. rewrite !vscale_vscale. f_equal.
  unfold Rdiv. rewrite Rpow_mult_distr, Rinv_mult. generalize (/ norm (vsub q p) ^ 3). intros i. field. lra.
Qed.
Lemma third_body_scaled k GM r s : 0 < k -> point_mass_accel (k ^ 3 * GM) (vscale k r) (vscale k s) = vscale k (point_mass_accel GM r s).
Proof.
  intros P. rewrite !third_body, (newton_scaled k GM r s P). assert (E : newton (k ^ 3 * GM) vzero (vscale k s) = vscale k (newton GM vzero s)) by (rewrite <- newton_scaled by exact P; f_equal; vec_ring). rewrite E. vec_ring.
Qed.
Lemma moon_right rSun rMon rsat GMSun GMMoon : moon_acc (SunMoon rSun rMon rsat GMSun GMMoon) =
  vsub (newton (10 ^ 9 * GMMoon) rsat (vscale 1000 rMon)) (newton (10 ^ 9 * GMMoon) vzero (vscale 1000 rMon)) /\ sun_pos (SunMoon rSun rMon rsat GMSun GMMoon) = vscale 1000 rSun.
Proof.
  unfold SunMoon. pose proof (third_body_same (GMMoon * 10 ^ 9) rsat (vscale (10 ^ 3) rMon)) as E. destruct (point_mass_partials (GMMoon * 10 ^ 9) rsat (vscale (10 ^ 3) rMon)) as [a m]. cbn [fst moon_acc sun_pos] in *. rewrite E, third_body. replace (10 ^ 3) with 1000 by ring. split; [|reflexivity]. rewrite (Rmult_comm GMMoon). reflexivity.
Qed.
(* what the Sun's acceleration should be, in metres *)
Definition sun_wanted (rSun rsat : vec) (GMSun : R) : vec :=
  vsub (newton (10 ^ 9 * GMSun) rsat (vscale 1000 rSun)) (newton (10 ^ 9 * GMSun) vzero (vscale 1000 rSun)).
Lemma sun_million rSun rMon rsat GMSun GMMoon : sun_wanted rSun rsat GMSun = vscale (10 ^ 6) (sun_acc (SunMoon rSun rMon rsat GMSun GMMoon)).
Proof.
  unfold SunMoon. destruct (point_mass_partials (GMMoon * 10 ^ 9) rsat (vscale (10 ^ 3) rMon)) as [a m]. cbn [sun_acc]. rewrite vscale_vscale. replace (10 ^ 6 * / 10 ^ 3) with 1000 by field.
  rewrite <- (third_body_scaled 1000) by lra. rewrite vscale_vscale. replace (1000 * / 10 ^ 3) with 1 by field. replace (vscale 1 rsat) with rsat by vec_ring. rewrite third_body. unfold sun_wanted. replace (1000 ^ 3) with (10 ^ 9) by ring. reflexivity.
Qed.
Lemma sun_wrong : exists rSun rMon rsat GMSun GMMoon, 0 < GMSun /\ sun_acc (SunMoon rSun rMon rsat GMSun GMMoon) <> sun_wanted rSun rsat GMSun.
Proof.
  exists (V 2 0 0), vzero, (V 1000 0 0), 1, 0. split; [lra|]. rewrite (sun_million _ vzero _ _ 0). intros E. apply (f_equal vx) in E. revert E. unfold SunMoon. destruct (point_mass_partials (0 * 10 ^ 9) (V 1000 0 0) (vscale (10 ^ 3) vzero)) as [a m]. cbn [sun_acc].
  rewrite third_body. unfold newton. replace (vsub (V 2 0 0) (vscale (/ 10 ^ 3) (V 1000 0 0))) with (V 1 0 0) by (vec_unfold; f_equal; field). replace (vsub (V 2 0 0) vzero) with (V 2 0 0) by vec_ring.
  assert (N1 : norm (V 1 0 0) = 1) by (apply norm_unique; [lra|unfold dot; cbn; ring]). assert (N2 : norm (V 2 0 0) = 2) by (apply norm_unique; [lra|unfold dot; cbn; ring]). rewrite N1, N2. vec_unfold. intros E. lra.
Qed.
Lemma sunmoon_epoch mjd0 mjd_tai : 86400 * (sunmoon_jd mjd0 mjd_tai - mjd0) = 86400 * mjd_tai + 32184 / 1000.
Proof. unfold sunmoon_jd. field. Qed.
