(* C110: the variances of the two filters in binary64. *)
From Coq Require Import List ZArith QArith Reals Lia Lra.
From Flocq Require Import Core IEEE754.BinarySingleNaN IEEE754.Binary IEEE754.Bits.
From Verif Require Import FloatTime_model FloatTime_proofs FloatAngle_model FloatAngle_proofs FloatKalman_model FloatKalman_proofs.
Import ListNotations.
Local Open Scope R_scope.

(* C110: ExtendedKalmanFilter with one parameter, over any list of predictions and observations with any doubles in them
   (zero, infinite or NaN too): as long as the variance is finite in the end it was, at each step, finite and not negative,
   and its root a number *)
Theorem ekf_variance_double : forall f before after,
  0 <= val (e_P f) -> finite (e_P (steps f (before ++ after))) ->
  finite (e_P (steps f before)) /\ 0 <= val (e_P (steps f before)) /\ finite (dsqrt (e_P (steps f before))).
Proof. intros f l1 l2 P F. exact (steps_all l1 l2 f F P). Qed.
Print Assumptions ekf_variance_double.

(* C110: LinearKalman, any number of observations of any value at the reference epoch: the variance of the offset does not
   grow and is not negative, that of the drift stays what it was, they stay uncorrelated, both roots are numbers *)
Theorem rfo_reference_double : forall x0 x1 s0 s1 so obs,
  none_or_ordinary s0 -> none_or_ordinary s1 -> ordinary so -> Forall (fun o => snd o = 0%Z) obs ->
  let f := run (start x0 x1 s0 s1 so) obs in
  (finite (f_P0 f) /\ 0 <= val (f_P0 f) <= val (dmul s0 s0)) /\ (finite (f_P2 f) /\ val (f_P2 f) = val (dmul s1 s1)) /\ val (f_P1 f) = 0 /\
  finite (sigma_x0 f) /\ finite (sigma_x1 f).
Proof. exact reference. Qed.
Print Assumptions rfo_reference_double.
(* C110: and so with the first observation at another epoch, whatever the deviations, for the offset *)
Theorem rfo_offset_double : forall x0 x1 s0 s1 so obs z ns,
  none_or_ordinary s0 -> none_or_ordinary s1 -> ordinary so -> Forall (fun o => snd o = 0%Z) obs -> (Z.abs ns <= 2 ^ 53)%Z ->
  let f := run (start x0 x1 s0 s1 so) (obs ++ [(z, ns)]) in
  finite (f_P0 f) /\ 0 <= val (f_P0 f) <= val (dmul s0 s0) /\ finite (sigma_x0 f).
Proof. exact offset_later. Qed.
Print Assumptions rfo_offset_double.
(* C110: for the drift if the deviation of the observation is at least a 2^24th of what that of the drift amounts to by then *)
Theorem rfo_drift_double_partial : forall x0 x1 s0 s1 so obs z ns,
  none_or_ordinary s0 -> none_or_ordinary s1 -> ordinary so -> Forall (fun o => snd o = 0%Z) obs -> (Z.abs ns <= 2 ^ 53)%Z ->
  Rabs (IZR ns / 86400000000000) * Rabs (val s1) <= 16777216 * Rabs (val so) ->
  let f := run (start x0 x1 s0 s1 so) (obs ++ [(z, ns)]) in
  finite (f_P2 f) /\ 0 <= val (f_P2 f) <= val (dmul s1 s1) /\ finite (sigma_x1 f).
Proof. exact drift_later. Qed.
Print Assumptions rfo_drift_double_partial.
(* C110: otherwise its variance can be negative, and NaN is printed for its deviation: deviations 0.1, 100 and 1e-8, one
   observation at the reference and one 4900 s later, of any value *)
Theorem rfo_drift_double_refuted : exists s0 s1 so ns, ordinary s0 /\ ordinary s1 /\ ordinary so /\ (0 < ns <= 2 ^ 53)%Z /\ forall z1 z2,
  let f := run (start zero (of_int 3) s0 s1 so) [(z1, 0%Z); (z2, ns)] in dlt (f_P2 f) zero = true /\ is_nan 53 1024 (sigma_x1 f) = true.
Proof.
  exists w_s0, w_s1, w_so, 4900000000000%Z. split; [exact w_s0_ok|]. split; [exact (ordinary_int 100 ltac:(lia))|]. split; [exact w_so_ok|]. split; [lia|]. exact negative.
Qed.
Print Assumptions rfo_drift_double_refuted.
(* C110: the observation the filter is started with, given to it again as the code does, leaves both estimates as they are *)
Theorem rfo_first_double : forall x0 x1 s0 s1 so z,
  none_or_ordinary s0 -> none_or_ordinary s1 -> ordinary so ->
  finite x0 -> Rabs (val x0) <= pow2 1000 -> finite x1 -> Rabs (val x1) <= pow2 1000 -> finite z -> val z = val x0 ->
  let f := run (start x0 x1 s0 s1 so) [(z, 0%Z)] in val (f_x0 f) = val x0 /\ val (f_x1 f) = val x1 /\ finite (f_x0 f) /\ finite (f_x1 f).
Proof. exact first_same. Qed.
Print Assumptions rfo_first_double.
(* C110: without deviations at all the first observation makes both estimates NaN *)
Theorem rfo_no_deviation_double_refuted : forall x0 x1 z, let f := run (start x0 x1 zero zero zero) [(z, 0%Z)] in nan (f_x0 f) /\ nan (f_x1 f).
Proof. exact no_deviations. Qed.
Print Assumptions rfo_no_deviation_double_refuted.
(* C110: estimates, variances and covariance after one observation at any epoch are those of the exact filter, but for 12
   or 16 units in the last place of what they are made of *)
Theorem rfo_update_double : forall x0 x1 s0 s1 so z ns, none_or_ordinary s0 -> none_or_ordinary s1 -> ordinary so -> (Z.abs ns <= 2 ^ 53)%Z ->
  finite x0 -> finite x1 -> finite z -> Rabs (val x0) <= pow2 300 -> Rabs (val x1) <= pow2 300 -> Rabs (val z) <= pow2 300 ->
  let f := run (start x0 x1 s0 s1 so) [(z, ns)] in
  let d := val (days ns) in let p0 := val (dmul s0 s0) in let p2 := val (dmul s1 s1) in let r := val (dmul so so) in
  let S := p0 + p2 * d * d + r in let y := val z - (val x0 + d * val x1) in let m := Rabs (val z) + Rabs (val x0) + Rabs (d * val x1) in
  (finite (f_P0 f) /\ Rabs (val (f_P0 f) - p0 * (p2 * d * d + r) / S) <= 12 * u * p0) /\
  (finite (f_P1 f) /\ Rabs (val (f_P1 f) - - (p0 * p2 * d / S)) <= 12 * u * Rabs (p0 * p2 * d / S)) /\
  (finite (f_P2 f) /\ Rabs (val (f_P2 f) - p2 * (p0 + r) / S) <= 12 * u * p2) /\
  (finite (f_x0 f) /\ Rabs (val (f_x0 f) - (val x0 + p0 / S * y)) <= 16 * u * (Rabs (val x0) + Rabs (p0 / S) * m) + 8 * pow2 (-1074) * (1 + Rabs (p0 / S))) /\
  (finite (f_x1 f) /\ Rabs (val (f_x1 f) - (val x1 + p2 * d / S * y)) <= 16 * u * (Rabs (val x1) + Rabs (p2 * d / S) * m) + 8 * pow2 (-1074) * (1 + Rabs (p2 * d / S))).
Proof. exact one_update. Qed.
Print Assumptions rfo_update_double.
(* C110: the stored variances are the squares of the deviations and the elapsed days the nanoseconds over those of a day,
   each but for one rounding *)
Theorem rfo_start_double : forall x0 x1 s0 s1 so ns, none_or_ordinary s0 -> none_or_ordinary s1 -> ordinary so -> (Z.abs ns <= 2 ^ 53)%Z ->
  (exists e, Rabs e <= u /\ val (f_P0 (start x0 x1 s0 s1 so)) = val s0 * val s0 * (1 + e)) /\
  (exists e, Rabs e <= u /\ val (f_P2 (start x0 x1 s0 s1 so)) = val s1 * val s1 * (1 + e)) /\
  (exists e, Rabs e <= u /\ val (f_R (start x0 x1 s0 s1 so)) = val so * val so * (1 + e)) /\
  val (f_P1 (start x0 x1 s0 s1 so)) = 0 /\ f_x0 (start x0 x1 s0 s1 so) = x0 /\ f_x1 (start x0 x1 s0 s1 so) = x1 /\
  Rabs (val (days ns) - IZR ns / 86400000000000) <= u * Rabs (IZR ns / 86400000000000) + pow2 (-1074).
Proof.
  intros x0 x1 s0 s1 so ns A B C N. destruct (square_none s0 A) as (_ & _ & _ & E0). destruct (square_none s1 B) as (_ & _ & _ & E1). destruct (square_ord so C) as (_ & _ & E2).
  split; [exact E0|]. split; [exact E1|]. split; [exact E2|]. split; [exact (proj2 zero_ok)|]. split; [reflexivity|]. split; [reflexivity|].
  destruct (days_ok ns N) as (_ & V & _). rewrite V. apply rnd_near'.
Qed.
Print Assumptions rfo_start_double.

(* the hypotheses can be met: an observation halving a variance of one, and one a day after the reference *)
Example FloatKalman_nonvacuous :
  let f := F1 zero one in let l := [Observation (one, zero, one, one); Prediction one two] in
  (0 <= val (e_P f) /\ finite (e_P (steps f l)) /\ is_equal (e_P (steps f l)) two = true) /\
  (none_or_ordinary one /\ ordinary one /\ Rabs (IZR 86400000000000 / 86400000000000) * Rabs (val one) <= 16777216 * Rabs (val one)) /\
  (let g := run (start one one one one one) [(one, 0%Z); (two, 86400000000000%Z)] in dlt zero (f_P0 g) = true /\ dlt zero (f_P2 g) = true).
Proof.
  cbv zeta. destruct one_ok as [F V]. split; [split; [cbn [e_P]; rewrite V; lra|split; vm_compute; reflexivity]|].
  pose proof (ordinary_int 1 ltac:(lia)) as O. split; [|split; vm_compute; reflexivity].
  split; [right; exact O|]. split; [exact O|]. rewrite V, Rabs_R1. replace (86400000000000 / 86400000000000) with 1 by field. rewrite Rabs_R1. lra.
Qed.
