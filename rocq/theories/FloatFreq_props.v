(* C111, C112: the nominal frequencies of a beacon and the correction for the ionosphere in binary64. *)
From Coq Require Import ZArith QArith Qreals Reals Lia Lra.
From Flocq Require Import Core IEEE754.BinarySingleNaN IEEE754.Binary IEEE754.Bits.
From Verif Require Import FloatTime_model FloatTime_proofs FloatAngle_model FloatAngle_proofs FloatFreq_model FloatFreq_proofs.
Local Open Scope R_scope.

(* the published law: 543 or 107 times 5 MHz times (3/4 + 87 k / (5 * 2^26)) *)
Definition law (n : R) (k : Z) : R := n * (5000000 * (3 / 4 + 87 * IZR k / (5 * 2 ^ 26))).

(* the difference of the phases that the ionosphere alone leaves, in cycles of the higher frequency *)
Definition correction (l1 l2 : R) : R := (l1 - 543 / 107 * l2) / ((543 / 107) * (543 / 107) - 1).
(* C111: for every shift factor up to nine million (those in use have three digits) both frequencies are computed without any
   rounding *)
Theorem beacon_frequency_exact_double : forall k, (Z.abs k <= 9000000)%Z ->
  (finite (s1_freq k) /\ val (s1_freq k) = law 543 k) /\ (finite (u2_freq k) /\ val (u2_freq k) = law 107 k).
Proof.
  intros k K. destruct (s1_exact k K) as [F1 V1]. destruct (u2_exact k K) as [F2 V2]. unfold law.
  split; (split; [assumption|]); [rewrite V1|rewrite V2]; field.
Qed.
Print Assumptions beacon_frequency_exact_double.
(* C111: so they are those of the fundamental frequencies for shift factor 0, and increase strictly *)
Theorem beacon_frequency_order_double : forall k l, (Z.abs k <= 9000000)%Z -> (Z.abs l <= 9000000)%Z ->
  (dlt (s1_freq k) (s1_freq l) = true <-> (k < l)%Z) /\ (dlt (u2_freq k) (u2_freq l) = true <-> (k < l)%Z) /\
  val (s1_freq 0) = 2036250000 /\ val (u2_freq 0) = 401250000.
Proof.
  intros k l K L. destruct (s1_exact k K) as [F1 V1]. destruct (u2_exact k K) as [F2 V2]. destruct (s1_exact l L) as [F3 V3]. destruct (u2_exact l L) as [F4 V4].
  assert (T : forall n, 0 < n -> (n * (3750000 + IZR k * 1359375 / 1048576) < n * (3750000 + IZR l * 1359375 / 1048576) <-> (k < l)%Z)).
  { intros n N. split; intros H.
    - apply lt_IZR. apply Rmult_lt_reg_l in H; lra.
    - apply Rmult_lt_compat_l; [exact N|]. apply IZR_lt in H. lra. }
  split; [|split; [|split]].
  - rewrite (dlt_ok _ _ F1 F3), V1, V3. apply T. lra.
  - rewrite (dlt_ok _ _ F2 F4), V2, V4. apply T. lra.
  - rewrite (proj2 (s1_exact 0 ltac:(discriminate))). lra.
  - rewrite (proj2 (u2_exact 0 ltac:(discriminate))). lra.
Qed.
Print Assumptions beacon_frequency_order_double.
(* C111: their quotient, in doubles, is the constant GAMMA_FACTOR_SQRT to the last bit, whatever the shift factor *)
Theorem beacon_frequency_ratio_double : forall k, (Z.abs k <= 9000000)%Z ->
  is_equal (ddiv (s1_freq k) (u2_freq k)) GAMMA_SQRT = true /\ Rabs (val GAMMA_SQRT - 543 / 107) <= 2 * u * (543 / 107).
Proof.
  intros k K. destruct (ratio_ok k K) as [F V]. destruct gamma_ok as [FG VG]. split.
  - unfold is_equal, b64_compare. rewrite (Bcompare_correct 53 1024 _ _ F FG). fold (val (ddiv (s1_freq k) (u2_freq k))) (val GAMMA_SQRT). rewrite V, Rcompare_Eq; reflexivity.
  - rewrite VG. pose proof (FloatAngle_proofs.rnd_near (543 / 107)) as R1. rewrite (Rabs_pos_eq (543 / 107)) in R1 by lra. lra.
Qed.
Print Assumptions beacon_frequency_ratio_double.
(* C111: GAMMA_FACTOR is its square but for the last two bits *)
Theorem gamma_factor_double : finite GAMMA /\ Rabs (val GAMMA - (543 / 107) * (543 / 107)) <= 4 * u * ((543 / 107) * (543 / 107)).
Proof. exact gamma_near. Qed.
Print Assumptions gamma_factor_double.
(* C111: for every int they are numbers, within six units in the last place of the parts *)
Theorem beacon_frequency_near_double : forall k, (- 2 ^ 31 <= k < 2 ^ 31)%Z ->
  (finite (s1_freq k) /\ Rabs (val (s1_freq k) - law 543 k) <= 6 * u * (law 543 0 + Rabs (law 543 k - law 543 0))) /\
  (finite (u2_freq k) /\ Rabs (val (u2_freq k) - law 107 k) <= 6 * u * (law 107 0 + Rabs (law 107 k - law 107 0))).
Proof.
  intros k K. assert (K' : (Z.abs k <= 2 ^ 31)%Z) by lia.
  assert (E : forall n, law n k = n * 3750000 + n * IZR k * 1359375 / 1048576) by (intros n; unfold law; field).
  assert (E0 : forall n, law n 0 = n * 3750000) by (intros n; unfold law; field).
  assert (D : forall n, n * 3750000 + n * IZR k * 1359375 / 1048576 - n * 3750000 = n * IZR k * 1359375 / 1048576) by (intros n; ring).
  destruct (freq_near 543 k ltac:(lia) K') as [F1 N1]. destruct (freq_near 107 k ltac:(lia) K') as [F2 N2]. rewrite !E, !E0, !D. split; (split; [assumption|]); assumption.
Qed.
Print Assumptions beacon_frequency_near_double.
(* C111: but not exactly for every int: the two differ from the law for some shift factor beyond any in use *)
Theorem beacon_frequency_inexact_double_refuted : exists k, (- 2 ^ 31 <= k < 2 ^ 31)%Z /\ val (s1_freq k) <> law 543 k.
Proof. exact far_inexact. Qed.
Print Assumptions beacon_frequency_inexact_double_refuted.

(* C112: the correction for the ionosphere is a number, within twelve units in the last place of the two phases *)
Theorem iono_correction_double : forall L1 L2, finite L1 -> finite L2 -> Rabs (val L1) <= pow2 900 -> Rabs (val L2) <= pow2 900 ->
  finite (iono_correction L1 L2) /\
  Rabs (val (iono_correction L1 L2) - correction (val L1) (val L2)) <= 12 * u * ((Rabs (val L1) + 543 / 107 * Rabs (val L2)) / ((543 / 107) * (543 / 107) - 1)) + 2 * pow2 (-1074).
Proof.
  intros L1 L2 F1 F2 B1 B2. exact (iono_near L1 L2 F1 F2 B1 B2).
Qed.
Print Assumptions iono_correction_double.
(* C112: a millionth of a cycle for phases below a thousand million cycles *)
Theorem iono_correction_cycle_double : forall L1 L2, finite L1 -> finite L2 -> Rabs (val L1) <= 1000000000 -> Rabs (val L2) <= 1000000000 ->
  finite (iono_correction L1 L2) /\ Rabs (val (iono_correction L1 L2) - correction (val L1) (val L2)) <= / 1000000.
Proof.
  intros L1 L2 F1 F2 B1 B2. pose proof (bpow_le radix2 30 900 ltac:(lia)) as LE. pose proof (bpow_le radix2 (-1074) (-30) ltac:(lia)) as E. assert (E30 : bpow radix2 30 = 1073741824) by reflexivity. assert (E30' : bpow radix2 (-30) = / 1073741824) by reflexivity.
  rewrite E30 in LE. rewrite E30' in E. destruct (iono_near L1 L2 F1 F2 ltac:(lra) ltac:(lra)) as [F N]. split; [exact F|]. refine (Rle_trans _ _ _ N _). lra.
Qed.
Print Assumptions iono_correction_cycle_double.
(* C112: more delay on the higher frequency never lowers it, more on the lower one never raises it *)
Theorem iono_correction_order_double : forall L1 L2 L1' L2', finite L1 -> finite L2 -> finite L1' -> finite L2' ->
  Rabs (val L1) <= pow2 900 -> Rabs (val L2) <= pow2 900 -> Rabs (val L1') <= pow2 900 -> Rabs (val L2') <= pow2 900 ->
  val L1 <= val L1' -> val L2' <= val L2 -> val (iono_correction L1 L2) <= val (iono_correction L1' L2').
Proof. exact iono_mono. Qed.
Print Assumptions iono_correction_order_double.
(* C112: what it estimates: when the ionosphere takes i cycles off the higher frequency, and so (543 / 107) i off the lower one, i is what comes out *)
Theorem iono_correction_law_double : forall L1 L2 t i, finite L1 -> finite L2 -> Rabs (val L1) <= 1000000000 -> Rabs (val L2) <= 1000000000 ->
  val L1 = t - i -> val L2 = 107 / 543 * t - 543 / 107 * i -> Rabs (val (iono_correction L1 L2) - i) <= / 1000000.
Proof.
  intros L1 L2 t i F1 F2 B1 B2 E1 E2. destruct (iono_correction_cycle_double L1 L2 F1 F2 B1 B2) as [_ N].
  replace (correction (val L1) (val L2)) with i in N by (unfold correction; rewrite E1, E2; field). exact N.
Qed.
Print Assumptions iono_correction_law_double.
(* C112: a signal without dispersion leaves next to nothing *)
Theorem iono_correction_none_double : forall L1 L2, finite L1 -> finite L2 -> Rabs (val L1) <= pow2 900 -> Rabs (val L2) <= pow2 900 ->
  val L1 = 543 / 107 * val L2 -> Rabs (val (iono_correction L1 L2)) <= u * Rabs (val L1) + 2 * pow2 (-1074).
Proof.
  intros L1 L2 F1 F2 B1 B2 E. destruct (iono_near L1 L2 F1 F2 B1 B2) as [_ N].
  replace ((val L1 - 543 / 107 * val L2) / (543 / 107 * (543 / 107) - 1)) with 0 in N by (rewrite E; field). rewrite Rminus_0_r in N. refine (Rle_trans _ _ _ N _).
  assert (A : Rabs (val L1) = 543 / 107 * Rabs (val L2)) by (rewrite E, Rabs_mult, (Rabs_pos_eq (543 / 107)); lra). pose proof (Rabs_pos (val L2)). lra.
Qed.
Print Assumptions iono_correction_none_double.

(* the hypotheses can be met *)
Example FloatFreq_nonvacuous : (Z.abs (-15) <= 9000000)%Z /\ (Z.abs 21 <= 9000000)%Z /\ dlt (s1_freq (-15)) (s1_freq 21) = true /\ (- 2 ^ 31 <= 21 < 2 ^ 31)%Z.
Proof. split; [lia|]. split; [lia|]. split; [vm_compute; reflexivity|lia]. Qed.
Example iono_nonvacuous : finite (of_int 543) /\ finite (of_int 107) /\ val (of_int 543) = 543 / 107 * val (of_int 107) /\ Rabs (val (of_int 543)) <= 1000000000 /\ Rabs (val (of_int 107)) <= 1000000000.
Proof.
  destruct (of_int_ok 543 ltac:(lia)) as [F1 V1]. destruct (of_int_ok 107 ltac:(lia)) as [F2 V2]. rewrite V1, V2. split; [exact F1|]. split; [exact F2|]. split; [field|]. split; rewrite Rabs_pos_eq; lra.
Qed.
Example iono_law_nonvacuous : val (of_int (543 * 107 - 107)) = (543 * 107) - 107 /\ val (of_int (107 * 107 - 543)) = 107 / 543 * (543 * 107) - 543 / 107 * 107.
Proof. rewrite (proj2 (of_int_ok (543 * 107 - 107) ltac:(lia))), (proj2 (of_int_ok (107 * 107 - 543) ltac:(lia))). split; [rewrite minus_IZR, mult_IZR; ring|rewrite minus_IZR, mult_IZR; field]. Qed.
