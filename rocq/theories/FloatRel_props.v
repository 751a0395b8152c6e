(* C113: the relativistic clock correction in binary64. *)
From Coq Require Import ZArith Reals Lia Lra Psatz.
From Flocq Require Import Core IEEE754.BinarySingleNaN IEEE754.Binary IEEE754.Bits.
From Verif Require Import FloatTime_model FloatTime_proofs FloatAngle_model FloatAngle_proofs FloatRel_model FloatRel_proofs.
Local Open Scope R_scope.

(* the potential of the Earth with its first zonal term, at distance r and sine s of latitude; half the square of the
   speed; over the speed of light *)
Definition zonal (GM J2 Re r s : R) : R := GM / r * (1 - (Re / r) ^ 2 * J2 * (3 * s ^ 2 - 1) / 2).
Definition speed2 (v : dvec) : R := val (dx v) ^ 2 + val (dy v) ^ 2 + val (dz v) ^ 2.
Definition distance (v : dvec) : R := sqrt (speed2 v).
Definition clock (potential : R) (v : dvec) : R := (potential + speed2 v / 2) / 299792458.
Lemma speed2_eq v : speed2 v = exact_square v.
Proof. unfold speed2, exact_square. ring. Qed.
Lemma distance_eq v : distance v = exact_norm v.
Proof. unfold distance, exact_norm. now rewrite speed2_eq. Qed.

(* C113: for the beacon: a number, the exact value but for ten units in the last place *)
Theorem clock_correction_double : forall pos vel GM, bounded 30 pos -> 1 <= distance pos -> bounded 20 vel -> finite GM -> pow2 30 <= val GM <= pow2 60 ->
  let exact := clock (val GM / distance pos) vel in
  finite (clock_correction pos vel GM) /\ Rabs (val (clock_correction pos vel GM) - exact) <= 10 * u * exact.
Proof.
  intros pos vel GM B Q BV FG G. unfold clock. rewrite distance_eq in *. rewrite speed2_eq. apply clock_near; try assumption. unfold exact_norm in Q.
  destruct (Rle_or_lt 1 (exact_square pos)) as [L|L]; [exact L|]. pose proof (sum_sq (val (dx pos)) (val (dy pos)) (val (dz pos))) as P. fold (exact_square pos) in P. pose proof (sqrt_lt_1_alt (exact_square pos) 1 ltac:(lra)) as S. rewrite sqrt_1 in S. lra.
Qed.
Print Assumptions clock_correction_double.
(* C113: for the satellite, with the flattening: thirteen *)
Theorem clock_correction_J2_double : forall sinlat pos vel GM J2 Re, bounded 30 pos -> 1 <= distance pos -> bounded 20 vel -> finite GM -> pow2 30 <= val GM <= pow2 60 ->
  finite sinlat -> Rabs (val sinlat) <= 1 -> finite J2 -> Rabs (val J2) <= / 500 -> finite Re -> 0 <= val Re <= 2 * distance pos ->
  let exact := clock (zonal (val GM) (val J2) (val Re) (distance pos) (val sinlat)) vel in
  finite (clock_correction_J2 sinlat pos vel GM J2 Re) /\ Rabs (val (clock_correction_J2 sinlat pos vel GM J2 Re) - exact) <= 13 * u * exact.
Proof.
  intros sinlat pos vel GM J2 Re B Q BV FG G FS BS FJ BJ FR BR. unfold clock, zonal. rewrite distance_eq in *. rewrite speed2_eq.
  assert (Q' : 1 <= exact_square pos).
  { unfold exact_norm in Q. destruct (Rle_or_lt 1 (exact_square pos)) as [L|L]; [exact L|]. pose proof (sum_sq (val (dx pos)) (val (dy pos)) (val (dz pos))) as P. fold (exact_square pos) in P. pose proof (sqrt_lt_1_alt (exact_square pos) 1 ltac:(lra)) as S. rewrite sqrt_1 in S. lra. }
  replace (3 * val sinlat ^ 2 - 1) with (3 * val sinlat * val sinlat - 1) by ring. replace ((val Re / exact_norm pos) ^ 2) with (val Re / exact_norm pos * (val Re / exact_norm pos)) by ring.
  exact (clock_J2_near sinlat J2 Re pos FS BS FJ BJ FR BR B Q' vel GM BV FG G).
Qed.
Print Assumptions clock_correction_J2_double.
(* C113: the correction is never negative, whatever the two vectors within the bounds *)
Theorem clock_correction_positive_double : forall sinlat pos vel GM J2 Re, bounded 30 pos -> 1 <= distance pos -> bounded 20 vel -> finite GM -> pow2 30 <= val GM <= pow2 60 ->
  finite sinlat -> Rabs (val sinlat) <= 1 -> finite J2 -> Rabs (val J2) <= / 500 -> finite Re -> 0 <= val Re <= 2 * distance pos ->
  0 < val (clock_correction pos vel GM) /\ 0 < val (clock_correction_J2 sinlat pos vel GM J2 Re).
Proof.
  intros sinlat pos vel GM J2 Re B Q BV FG G FS BS FJ BJ FR BR. pose proof (bpow_gt_0 radix2 30) as P30.
  destruct (clock_correction_double pos vel GM B Q BV FG G) as [_ E1]. destruct (clock_correction_J2_double sinlat pos vel GM J2 Re B Q BV FG G FS BS FJ BJ FR BR) as [_ E2].
  assert (W : 0 < val GM / distance pos) by (apply Rdiv_lt_0_compat; lra). assert (V : 0 <= speed2 vel) by (unfold speed2; nra).
  assert (H : forall w, 0 < w -> 0 < clock w vel) by (intros w H; unfold clock; apply Rdiv_lt_0_compat; lra).
  assert (RR : 0 <= val Re / distance pos <= 2) by (split; apply Rmult_le_reg_r with (distance pos); try lra; unfold Rdiv; rewrite Rmult_assoc, Rinv_l by lra; lra).
  assert (Zp : 0 < zonal (val GM) (val J2) (val Re) (distance pos) (val sinlat)).
  { unfold zonal. apply Rmult_lt_0_compat; [exact W|]. set (r := val Re / distance pos) in *. apply Rabs_le_both in BS, BJ.
    assert (S2 : 0 <= val sinlat ^ 2 <= 1) by (split; nra). assert (R2 : 0 <= r ^ 2 <= 4) by (split; nra). assert (RJ : - (1 / 125) <= r ^ 2 * val J2 <= 1 / 125) by (split; nra).
    set (x := r ^ 2 * val J2) in *. set (y := val sinlat ^ 2) in *. assert (- (3 / 100) <= x * (3 * y - 1) <= 3 / 100) by (split; nra). lra. }
  pose proof (H _ W) as H1. pose proof (H _ Zp) as H2. cbv zeta in E1, E2. apply Rabs_le_both in E1, E2. lra.
Qed.
Print Assumptions clock_correction_positive_double.

(* C113: Drel_c is the difference of the two but for fifteen units in the last place of their sum *)
Theorem relativity_difference_double : forall sinlat pos vel beacon GM J2 Re, bounded 30 pos -> 1 <= distance pos -> bounded 20 vel -> bounded 30 beacon -> 1 <= distance beacon ->
  finite GM -> pow2 30 <= val GM <= pow2 60 -> finite sinlat -> Rabs (val sinlat) <= 1 -> finite J2 -> Rabs (val J2) <= / 500 -> finite Re -> 0 <= val Re <= 2 * distance pos ->
  let S := clock (zonal (val GM) (val J2) (val Re) (distance pos) (val sinlat)) vel in
  let B := val GM / distance beacon / 299792458 in
  finite (Drel_c sinlat pos vel beacon Re GM J2) /\ Rabs (val (Drel_c sinlat pos vel beacon Re GM J2) - (S - B)) <= 15 * u * (S + B).
Proof.
  intros sinlat pos vel beacon GM J2 Re B Q BV BB QB FG G FS BS FJ BJ FR BR S Bc.
  destruct still as [B0 Q0]. destruct (clock_correction_double beacon _ GM BB QB B0 FG G) as [F1 E1]. destruct (clock_correction_J2_double sinlat pos vel GM J2 Re B Q BV FG G FS BS FJ BJ FR BR) as [F2 E2].
  cbv zeta in E1, E2. fold S in E2. assert (EB : clock (val GM / distance beacon) (D zero zero zero) = Bc) by (unfold clock; rewrite speed2_eq, Q0; unfold Bc; field; lra). rewrite EB in E1.
  assert (one_square : forall p, 1 <= distance p -> 1 <= exact_square p).
  { intros p. rewrite distance_eq. unfold exact_norm. intros H. destruct (Rle_or_lt 1 (exact_square p)) as [L|L]; [exact L|]. pose proof (sum_sq (val (dx p)) (val (dy p)) (val (dz p))) as P. fold (exact_square p) in P.
    pose proof (sqrt_lt_1_alt (exact_square p) 1 ltac:(lra)) as T. rewrite sqrt_1 in T. lra. }
  destruct (potential_near beacon GM BB (one_square _ QB) FG G) as (_ & _ & WB). destruct (potential_near pos GM B (one_square _ Q) FG G) as (_ & _ & WS).
  destruct (factor_near sinlat J2 Re pos FS BS FJ BJ FR ltac:(rewrite <- distance_eq; exact BR) B (one_square _ Q)) as (_ & _ & RF). destruct (kinetic_near vel BV) as (_ & QV & _).
  change (pow2 60) with 1152921504606846976 in WB, WS. change (pow2 42) with 4398046511104 in QV.
  assert (SB : 0 <= Bc <= pow2 62 /\ pow2 (-30) <= Bc) by (change (pow2 62) with 4611686018427387904; change (pow2 (-30)) with (/ 1073741824); unfold Bc; rewrite distance_eq; lra).
  assert (SS : 0 <= S <= pow2 62).
  { change (pow2 62) with 4611686018427387904. unfold S, clock, zonal. rewrite distance_eq, speed2_eq.
    replace (3 * val sinlat ^ 2 - 1) with (3 * val sinlat * val sinlat - 1) by ring. replace ((val Re / exact_norm pos) ^ 2) with (val Re / exact_norm pos * (val Re / exact_norm pos)) by ring.
    set (w := val GM / exact_norm pos) in *. set (f := 1 - val Re / exact_norm pos * (val Re / exact_norm pos) * val J2 * (3 * val sinlat * val sinlat - 1) / 2) in *.
    assert (0 <= w * f <= 101 / 100 * w) by (split; nra). set (x := w * f) in *. lra. }
  apply difference_near; try assumption; try (apply SB). destruct SB. lra.
Qed.
Print Assumptions relativity_difference_double.

(* the hypotheses can be met: 7000 km, 7.5 km/s, J2 = 2^-10 *)
Example FloatRel_nonvacuous : bounded 30 (ints 7000000 0 0) /\ distance (ints 7000000 0 0) = 7000000 /\ bounded 20 (ints 0 7500 0) /\
  (finite (of_int 398600441500000) /\ pow2 30 <= val (of_int 398600441500000) <= pow2 60) /\ (finite (of_int 1) /\ Rabs (val (of_int 1)) <= 1) /\
  (let J2 := ddiv one (of_int 1024) in finite J2 /\ 0 < val J2 /\ Rabs (val J2) <= / 500) /\ (finite (of_int 6378137) /\ 0 <= val (of_int 6378137) <= 2 * 7000000).
Proof.
  destruct (of_int_ok 398600441500000 ltac:(lia)) as [F1 V1]. destruct (of_int_ok 1 ltac:(lia)) as [F2 V2]. destruct (of_int_ok 6378137 ltac:(lia)) as [F3 V3].
  split; [apply ints_ok; try lia; change (pow2 30) with 1073741824; apply IZR_le; lia|].
  split; [rewrite distance_eq, ints_norm by lia; change (7000000 * 7000000 + 0 * 0 + 0 * 0)%Z with (7000000 * 7000000)%Z; rewrite mult_IZR; apply sqrt_square; lra|].
  split; [apply ints_ok; try lia; change (pow2 20) with 1048576; apply IZR_le; lia|].
  split; [split; [exact F1|]; rewrite V1; change (pow2 30) with 1073741824; change (pow2 60) with 1152921504606846976; lra|].
  split; [split; [exact F2|]; rewrite V2, Rabs_pos_eq; lra|]. split; [|split; [exact F3|rewrite V3; lra]].
  destruct (of_int_ok 1024 ltac:(lia)) as [F4 V4]. destruct one_ok as [F5 V5].
  assert (NZ : val (of_int 1024) <> 0) by (rewrite V4; lra). assert (E : val one / val (of_int 1024) = pow2 (-10)) by (rewrite V4, V5; change (pow2 (-10)) with (/ 1024); lra).
  assert (S : Rabs (val one / val (of_int 1024)) <= pow2 10) by (rewrite E; change (pow2 (-10)) with (/ 1024); change (pow2 10) with 1024; rewrite Rabs_pos_eq; lra).
  destruct (div_ok one _ 10 F5 NZ ltac:(lia) S) as [F V]. rewrite E, rnd_pow in V by lia. change (pow2 (-10)) with (/ 1024) in V. cbv zeta. rewrite V. split; [exact F|]. rewrite Rabs_pos_eq; lra.
Qed.
