(* Properties of orbital elements, declination and shadow in double arithmetic. *)
From Coq Require Import ZArith Reals Bool Lia Lra Psatz.
From Flocq Require Import Core IEEE754.BinarySingleNaN IEEE754.Binary IEEE754.Bits.
From Verif Require Import FloatTime_model FloatTime_proofs FloatAngle_model FloatAngle_proofs.
Local Open Scope R_scope.

(* C108: whatever the rounding errors, angular momentum and inclination come out as numbers: the cosine that is handed
   to std::acos is never beyond -1 or 1, and is the exact one up to the errors of the cross product *)
Theorem state2kepler_inclination_double : forall L pos vel m,
  libm_ok L -> bounded 30 pos -> bounded 20 vel -> 1024 <= length3 (exact_cross pos vel) ->
  finite (k_h (state2kepler L pos vel m)) /\
  Rabs (val (k_h (state2kepler L pos vel m)) - length3 (exact_cross pos vel)) <= 2 + 6 * u * length3 (exact_cross pos vel) /\
  finite (k_i (state2kepler L pos vel m)) /\ 0 <= val (k_i (state2kepler L pos vel m)) <= val DPI /\
  exists c, k_i (state2kepler L pos vel m) = acos L c /\ finite c /\ -1 <= val c <= 1 /\
    Rabs (val c - snd (exact_cross pos vel) / length3 (exact_cross pos vel)) <= 3 / length3 (exact_cross pos vel) + 8 * u.
Proof. exact inclination. Qed.
Print Assumptions state2kepler_inclination_double.

(* C108: so does the node, unless the orbit is equatorial *)
Theorem state2kepler_node_double : forall L pos vel m,
  libm_ok L -> bounded 30 pos -> bounded 20 vel ->
  let '(hx, hy, hz) := exact_cross pos vel in 1024 <= sqrt (hy * hy + hx * hx) ->
  finite (k_Omega (state2kepler L pos vel m)) /\ 0 <= val (k_Omega (state2kepler L pos vel m)) <= val D2PI /\
  exists c, finite c /\ -1 <= val c <= 1 /\ Rabs (val c - (- hy) / sqrt (hy * hy + hx * hx)) <= 3 / sqrt (hy * hy + hx * hx) + 8 * u /\
    (1 <= hx -> k_Omega (state2kepler L pos vel m) = acos L c) /\
    (hx <= -1 -> Rabs (val (k_Omega (state2kepler L pos vel m)) - (2 * val DPI - val (acos L c))) <= 8 * u).
Proof. exact node. Qed.
Print Assumptions state2kepler_node_double.

(* C108: the true anomaly does not: a satellite on an ellipse, at its apogee, has none, with any arc cosine *)
Theorem state2kepler_anomaly_double_refuted : exists pos vel m,
  bounded 30 pos /\ bounded 20 vel /\ exact_dot pos vel = 0 /\ 6000000 <= exact_norm pos <= 7000000 /\ 7000 <= exact_norm vel <= 8000 /\
  forall L, libm_ok L ->
    1 / 100 < val (k_e (state2kepler L pos vel m)) < 2 / 100 /\ nan (k_theta (state2kepler L pos vel m)).
Proof.
  exists ap_pos, ap_vel, ap_GM. destruct (ints_ok 3840000 4380000 3638000 30 ltac:(discriminate) ltac:(discriminate) ltac:(discriminate) ltac:(cbn; lra) ltac:(cbn; lra) ltac:(cbn; lra)) as (B1 & X1 & Y1 & Z1).
  destruct (ints_ok 5694 (-4992) 0 20 ltac:(discriminate) ltac:(discriminate) ltac:(discriminate) ltac:(cbn; lra) ltac:(cbn; lra) ltac:(cbn; lra)) as (B2 & X2 & Y2 & Z2).
  split; [exact B1|]. split; [exact B2|]. split; [unfold exact_dot, ap_pos, ap_vel; rewrite X1, Y1, Z1, X2, Y2, Z2; lra|].
  split; [unfold ap_pos; rewrite ints_norm by discriminate; apply sqrt_between; cbn; lra|].
  split; [unfold ap_vel; rewrite ints_norm by discriminate; apply sqrt_between; cbn; lra|].
  intros L LO. split; [|exact (anomaly_nan L LO)].
  destruct (of_int_ok 1000) as [F1 V1]; [discriminate|]. destruct (of_int_ok 100) as [F2 V2]; [discriminate|]. destruct (of_int_ok 1) as [F3 V3]; [discriminate|]. destruct two_ok as [F4 V4].
  assert (FE : finite (k_e (state2kepler L ap_pos ap_vel ap_GM))) by (vm_compute; reflexivity).
  assert (FD : finite (dmul (of_int 1000) (k_e (state2kepler L ap_pos ap_vel ap_GM)))) by (vm_compute; reflexivity).
  (* 12 / 1000, bracketed by two quotients *)
  destruct (div_ok (of_int 11) (of_int 1000) 0) as [FA VA]; [vm_compute; reflexivity|rewrite V1; lra|lia|rewrite V1, (proj2 (of_int_ok 11 ltac:(discriminate))); rewrite Rabs_pos_eq; cbn; lra|].
  destruct (div_ok (of_int 13) (of_int 1000) 0) as [FB VB]; [vm_compute; reflexivity|rewrite V1; lra|lia|rewrite V1, (proj2 (of_int_ok 13 ltac:(discriminate))); rewrite Rabs_pos_eq; cbn; lra|].
  rewrite V1, (proj2 (of_int_ok 11 ltac:(discriminate))) in VA. rewrite V1, (proj2 (of_int_ok 13 ltac:(discriminate))) in VB.
  pose proof (rnd_near (11 / 1000)) as EA. pose proof (rnd_near (13 / 1000)) as EB. rewrite <- VA in EA. rewrite <- VB in EB.
  rewrite (Rabs_pos_eq (11 / 1000)) in EA by lra. rewrite (Rabs_pos_eq (13 / 1000)) in EB by lra. apply Rabs_le_both in EA, EB.
  assert (LA : val (ddiv (of_int 11) (of_int 1000)) < val (k_e (state2kepler L ap_pos ap_vel ap_GM))) by (apply dlt_ok; [exact FA|exact FE|vm_compute; reflexivity]).
  assert (LB : val (k_e (state2kepler L ap_pos ap_vel ap_GM)) < val (ddiv (of_int 13) (of_int 1000))) by (apply dlt_ok; [exact FE|exact FB|vm_compute; reflexivity]).
  lra.
Qed.
Print Assumptions state2kepler_anomaly_double_refuted.

(* C108: and the eccentricity of the montenbruck variant is not a number for a circular orbit *)
Theorem circular_eccentricity_double_refuted : exists pos vel m,
  bounded 30 pos /\ bounded 20 vel /\ exact_dot pos vel = 0 /\ exact_square vel * exact_norm pos = val m /\ 0 < val m /\
  nan (montenbruck_eccentricity pos vel m).
Proof.
  exists circ_pos, circ_vel, circ_GM. destruct (ints_ok 7373000 0 0 30 ltac:(discriminate) ltac:(discriminate) ltac:(discriminate) ltac:(cbn; lra) ltac:(cbn; lra) ltac:(cbn; lra)) as (B1 & X1 & Y1 & Z1).
  destruct (ints_ok 0 7352 0 20 ltac:(discriminate) ltac:(discriminate) ltac:(discriminate) ltac:(cbn; lra) ltac:(cbn; lra) ltac:(cbn; lra)) as (B2 & X2 & Y2 & Z2).
  split; [exact B1|]. split; [exact B2|]. unfold exact_dot, exact_norm, exact_square, circ_pos, circ_vel. rewrite X1, Y1, Z1, X2, Y2, Z2.
  replace (7373000 * 7373000 + 0 * 0 + 0 * 0) with (7373000 * 7373000) by ring. rewrite sqrt_square by lra.
  unfold circ_GM. rewrite (proj2 (of_int_ok 398524688192000 ltac:(discriminate))). split; [lra|]. split; [lra|]. split; [lra|]. exact eccentricity_nan.
Qed.
Print Assumptions circular_eccentricity_double_refuted.

(* C108: the assertion of pos2ad never fails, and the declination is that of the exact sine up to the last digits *)
Theorem pos2ad_declination_double : forall L pos,
  libm_ok L -> bounded 100 pos -> 1024 <= exact_norm pos ->
  pos2ad_assertion pos = true /\ finite (pos2ad_declination L pos) /\ - val DPI / 2 <= val (pos2ad_declination L pos) <= val DPI / 2 /\
  exists c, pos2ad_declination L pos = asin L c /\ Rabs (val c - val (dz pos) / exact_norm pos) <= 8 * u.
Proof. exact declination. Qed.
Print Assumptions pos2ad_declination_double.

(* C108: montebruck_shadow is what the exact cylinder says, a tenth of a millimetre off its border *)
Theorem cylinder_shadow_double : forall Re sat sun,
  finite Re -> 1000000 <= val Re <= 10000000 -> bounded 26 sat -> bounded 38 sun -> pow2 37 <= exact_norm sun ->
  (exact_dot sat sun <= - (1 / 10000) * exact_norm sun -> length3 (exact_cross sat sun) <= (val Re - 1 / 10000) * exact_norm sun ->
     montenbruck_shadow Re sat sun = zero) /\
  (exact_dot sat sun >= 1 / 10000 * exact_norm sun \/ length3 (exact_cross sat sun) >= (val Re + 1 / 10000) * exact_norm sun ->
     montenbruck_shadow Re sat sun = one).
Proof. exact cylinder. Qed.
Print Assumptions cylinder_shadow_double.

(* C108: the others are not: a satellite exactly opposite the Sun can be fully lit ... *)
Theorem vallado_shadow_axis_refuted : exists sat sun, opposite 21000 sat sun /\ 7000000 <= exact_norm sat <= 7300000 /\
  forall L tanApen x tanAumb y, libm_ok L -> vallado_shadow L tanApen x tanAumb y sat sun = one.
Proof.
  exists va_sat, va_sun. split; [|split; [unfold va_sat; rewrite ints_norm by discriminate; apply sqrt_between; cbn; lra|exact vallado_lit]].
  unfold opposite, va_sat, va_sun, ints. cbn [dx dy dz]. rewrite !(fun n B => proj2 (of_int_ok n B)) by discriminate. lra.
Qed.
Print Assumptions vallado_shadow_axis_refuted.
(* C108: ... by this test too, whatever the radius of the Earth ... *)
Theorem bernese_shadow_axis_refuted : exists fac sat sun, opposite 21000 sat sun /\ 6000000 <= exact_norm sat <= 7000000 /\
  Rabs (val fac - (1 + 1 / (298257222101 / 1000000000))) <= 4 * u /\ forall Re, bernese_shadow1 Re fac sat sun = one.
Proof.
  exists grs80_fac, be_sat, be_sun. split; [|split; [unfold be_sat; rewrite ints_norm by discriminate; apply sqrt_between; cbn; lra|split; [exact grs80_near|exact bernese_lit]]].
  unfold opposite, be_sat, be_sun, ints. cbn [dx dy dz]. rewrite !(fun n B => proj2 (of_int_ok n B)) by discriminate. lra.
Qed.
Print Assumptions bernese_shadow_axis_refuted.
(* C108: ... and lit by a fraction that is not a number *)
Theorem conical_shadow_axis_refuted : exists sat sun, opposite 21000 sat sun /\ 6000000 <= exact_norm sat <= 7000000 /\
  forall L Re Rs, libm_ok L -> nan (conical_shadow L Re Rs sat sun).
Proof.
  exists co_sat, co_sun. split; [|split; [unfold co_sat; rewrite ints_norm by discriminate; apply sqrt_between; cbn; lra|exact conical_nan]].
  unfold opposite, co_sat, co_sun, ints. cbn [dx dy dz]. rewrite !(fun n B => proj2 (of_int_ok n B)) by discriminate. lra.
Qed.
Print Assumptions conical_shadow_axis_refuted.

(* the hypotheses can be met: an arc cosine with this domain, the state at apogee and the satellite opposite the Sun *)
Example FloatAngle_nonvacuous :
  libm_ok toy /\ bounded 30 ap_pos /\ bounded 20 ap_vel /\ 1024 <= length3 (exact_cross ap_pos ap_vel) /\
  (let '(hx, hy, hz) := exact_cross ap_pos ap_vel in 1024 <= sqrt (hy * hy + hx * hx)).
Proof.
  split; [exact toy_ok|]. destruct (ints_ok 3840000 4380000 3638000 30 ltac:(discriminate) ltac:(discriminate) ltac:(discriminate) ltac:(cbn; lra) ltac:(cbn; lra) ltac:(cbn; lra)) as (B1 & X1 & Y1 & Z1).
  destruct (ints_ok 5694 (-4992) 0 20 ltac:(discriminate) ltac:(discriminate) ltac:(discriminate) ltac:(cbn; lra) ltac:(cbn; lra) ltac:(cbn; lra)) as (B2 & X2 & Y2 & Z2).
  split; [exact B1|]. split; [exact B2|]. unfold exact_cross, length3, ap_pos, ap_vel. rewrite X1, Y1, Z1, X2, Y2, Z2. split; rewrite <- (sqrt_square 1024) by lra; apply sqrt_le_1_alt; lra.
Qed.
Example cylinder_nonvacuous :
  finite (of_int 6378136) /\ 1000000 <= val (of_int 6378136) <= 10000000 /\ bounded 26 va_sat /\ bounded 38 va_sun /\ pow2 37 <= exact_norm va_sun /\
  exact_dot va_sat va_sun <= - (1 / 10000) * exact_norm va_sun /\ length3 (exact_cross va_sat va_sun) <= (val (of_int 6378136) - 1 / 10000) * exact_norm va_sun /\
  montenbruck_shadow (of_int 6378136) va_sat va_sun = zero.
Proof.
  destruct (of_int_ok 6378136 ltac:(discriminate)) as [F V]. destruct (ints_ok (-3685000) (-4467000) (-4351000) 26 ltac:(discriminate) ltac:(discriminate) ltac:(discriminate) ltac:(cbn; lra) ltac:(cbn; lra) ltac:(cbn; lra)) as (B1 & X1 & Y1 & Z1).
  destruct (ints_ok 77385000000 93807000000 91371000000 38 ltac:(discriminate) ltac:(discriminate) ltac:(discriminate) ltac:(cbn; lra) ltac:(cbn; lra) ltac:(cbn; lra)) as (B2 & X2 & Y2 & Z2).
  assert (N : 137438953472 <= exact_norm va_sun <= 200000000000) by (unfold va_sun; rewrite ints_norm by discriminate; apply sqrt_between; cbn; lra).
  split; [exact F|]. split; [rewrite V; lra|]. split; [exact B1|]. split; [exact B2|]. split; [change (pow2 37) with 137438953472; lra|].
  assert (A : exact_dot va_sat va_sun <= - (1 / 10000) * exact_norm va_sun) by (unfold exact_dot, va_sat, va_sun in *; rewrite X1, Y1, Z1, X2, Y2, Z2; lra).
  assert (C : length3 (exact_cross va_sat va_sun) <= (val (of_int 6378136) - 1 / 10000) * exact_norm va_sun).
  { rewrite V. unfold exact_cross, length3, va_sat, va_sun in *. rewrite X1, Y1, Z1, X2, Y2, Z2. match goal with |- sqrt ?q <= _ => replace q with 0 by lra end. rewrite sqrt_0. lra. }
  split; [exact A|]. split; [exact C|]. destruct (cylinder_shadow_double (of_int 6378136) va_sat va_sun) as [H _]; try assumption; [rewrite V; lra|change (pow2 37) with 137438953472; lra|]. now apply H.
Qed.
