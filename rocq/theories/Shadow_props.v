From Coq Require Import Reals Lra.
From Verif Require Import Vec_model Vec_proofs Calc Forces_model Forces_proofs Shadow_model Shadow_proofs.
Local Open Scope R_scope.

(* C70: the cylindrical model says shadow exactly when the Earth's ball lies on the way to the Sun; both overloads *)
Theorem cylinder_shadow : forall Re r s, s <> vzero -> 0 < Re < norm r ->
  (montenbruck_shadow Re r s = 0 <-> hidden Re r s) /\ (montenbruck_shadow Re r s = 1 <-> ~ hidden Re r s) /\
  montenbruck_shadow_eigen Re r s = montenbruck_shadow Re r s.
Proof. intros Re r s NZ H. destruct (montenbruck_spec Re r s NZ H) as [A B]. exact (conj A (conj B (montenbruck_same Re r s NZ))). Qed.
Print Assumptions cylinder_shadow.
Example cylinder_case : V 150 0 0 <> vzero /\ 0 < 6 < norm (V (-7) 0 0).
Proof. split; [intros E; apply (f_equal vx) in E; cbn in E; lra|]. assert (N : norm (V (-7) 0 0) = 7) by (apply norm_unique; [lra|unfold dot; cbn; ring]). rewrite N. lra. Qed.
(* C70: the same for the flattened body of the Bernese model *)
Theorem flattened_shadow : forall Re f r s, s <> vzero -> 0 <= f -> 0 < Re -> Re ^ 2 <= vx r ^ 2 + vy r ^ 2 + ((1 + f) * vz r) ^ 2 ->
  (bernese_shadow1 Re f r s = 0 <-> hidden_flat Re f r s) /\ (bernese_shadow1 Re f r s = 1 <-> ~ hidden_flat Re f r s).
Proof. exact bernese_spec. Qed.
Print Assumptions flattened_shadow.
Example flattened_case : V 150 0 0 <> vzero /\ 0 <= 1 / 298 /\ 0 < 6 /\ 6 ^ 2 <= vx (V (-7) 0 1) ^ 2 + vy (V (-7) 0 1) ^ 2 + ((1 + 1 / 298) * vz (V (-7) 0 1)) ^ 2.
Proof. split; [intros E; apply (f_equal vx) in E; cbn in E; lra|]. cbn. lra. Qed.

(* C70: the conical model gives a fraction: one for separate discs, nothing for a covered Sun, and
   in between the uncovered part of the Sun's disc *)
Theorem conical_fraction : forall Re Rs r s te ts d, 0 < Re <= norm r -> 0 < Rs <= norm (vsub s r) ->
  apparent Re (norm r) te -> apparent Rs (norm (vsub s r)) ts -> between (vscale (-1) r) (vsub s r) d -> ts <= te ->
  exists w, conical_shadow Re Rs r s = Some w /\ 0 <= w <= 1 /\
    (te + ts <= d -> w = 1) /\ (d <= te - ts -> w = 0) /\ (te - ts < d < te + ts -> overlap ts te d /\ w = 1 - lens ts te d / (PI * (ts * ts))).
Proof. exact conical_spec. Qed.
Print Assumptions conical_fraction.
Example conical_case : 0 < 1 <= norm (V 2 0 0) /\ 0 < 1 <= norm (vsub (V 4 0 0) (V 2 0 0)) /\ apparent 1 2 (PI / 6) /\ between (vscale (-1) (V 2 0 0)) (vsub (V 4 0 0) (V 2 0 0)) PI.
Proof.
  assert (N : norm (V 2 0 0) = 2) by (apply norm_unique; [lra|unfold dot; cbn; ring]). assert (D : vsub (V 4 0 0) (V 2 0 0) = V 2 0 0) by (apply vec_eq; cbn; ring). assert (N' : norm (vscale (-1) (V 2 0 0)) = 2) by (apply norm_unique; [lra|unfold dot; cbn; ring]).
  pose proof PI_RGT_0. unfold apparent, between. rewrite D, N, N', sin_PI6, cos_PI. repeat split; try lra. unfold dot. cbn. ring.
Qed.
(* C70: that part is the area common to the discs: it grows from nothing when they touch to the whole
   Sun when it is covered, at the rate of the common chord *)
Theorem lens_is_common_area : forall a b d, overlap a b d ->
  lens a b (a + b) = 0 /\ (a < b -> lens a b (b - a) = PI * (a * a)) /\
  exists y, 0 < y /\ (exists x, x * x + y * y = a * a /\ (d - x) * (d - x) + y * y = b * b) /\ derivable_pt_lim (lens a b) d (- (2 * y)).
Proof.
  intros a b d O. assert (P : 0 < a /\ 0 < b) by (unfold overlap in O; tauto). split; [exact (lens_apart a b (proj1 P) (proj2 P))|]. split; [exact (lens_covered a b (proj1 P))|].
  destruct (chord a b d O) as (YP & _ & X). exact (ex_intro _ _ (conj YP (conj X (lens_deriv a b d O)))).
Qed.
Print Assumptions lens_is_common_area.
Example overlap_case : overlap 1 4 4.
Proof. unfold overlap. lra. Qed.
(* C70: where the Earth looks smaller than the Sun the conical model can end in NaN *)
Theorem conical_fraction_refuted : exists Re Rs r s, 0 < Re < norm r /\ 0 < Rs < norm (vsub s r) /\ conical_shadow Re Rs r s = None.
Proof. exact conical_far. Qed.
Print Assumptions conical_fraction_refuted.

(* C70: Vallado's cones: full light on the day side, shadow on the axis.  Missing: everything else on the night side *)
Theorem cone_shadow_partial : forall Re Rs AU, 0 < Re < Rs -> Rs + Re < AU ->
  (forall r s, 0 <= dot r s -> vallado_shadow Re Rs AU r s = Some 1) /\
  (forall s k, s <> vzero -> 0 < k -> k * norm s * (Rs + Re) <= Re * AU -> vallado_shadow Re Rs AU (vscale (- k) s) s = Some 0).
Proof. intros Re Rs AU A B. split; [intros r s H; exact (vallado_day Re Rs AU r s H)|intros s k NZ K L; exact (vallado_axis Re Rs AU s k A B NZ K L)]. Qed.
Print Assumptions cone_shadow_partial.
(* C70: for all radii and distances there are satellites in the penumbra for which it reports full light *)
Theorem cone_shadow_refuted : forall Re Rs AU, 0 < Re < Rs -> Rs + Re < AU ->
  exists r s, s <> vzero /\ in_penumbra Re Rs AU r s /\ vallado_shadow Re Rs AU r s = Some 1.
Proof. exact vallado_wrong. Qed.
Print Assumptions cone_shadow_refuted.
Example cone_case : 0 < 6 < 700 /\ 700 + 6 < 150000.
Proof. lra. Qed.
