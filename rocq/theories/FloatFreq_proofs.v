(* Proofs for FloatFreq_model.v: for the shift factors of beacons every step is exact. *)
From Coq Require Import ZArith QArith Qreals Reals Lia Lra Psatz.
From Flocq Require Import Core Relative IEEE754.BinarySingleNaN IEEE754.Binary IEEE754.Bits.
From Verif Require Import FloatTime_model FloatTime_proofs FloatAngle_model FloatAngle_proofs FloatKalman_proofs FloatFreq_model.
Local Open Scope R_scope.
#[local] Instance prec53f : Prec_gt_0 53 := eq_refl.

Lemma rnd_dyadic a e : (Z.abs a < 2 ^ 53)%Z -> (-1074 <= e)%Z -> rnd (IZR a * pow2 e) = IZR a * pow2 e.
Proof.
  intros A E. apply round_generic; [apply valid_rnd_N|]. apply generic_format_FLT. exists (Float radix2 a e); [reflexivity|exact A|exact E].
Qed.
Lemma dyadic_size a e k : (Z.abs a <= 2 ^ 53)%Z -> (53 + e <= k)%Z -> Rabs (IZR a * pow2 e) <= pow2 k.
Proof.
  intros A K. rewrite Rabs_mult, (Rabs_pos_eq (pow2 e)) by apply bpow_ge_0. rewrite <- abs_IZR. apply Rle_trans with (pow2 (53 + e)); [|now apply bpow_le].
  rewrite bpow_plus. apply Rmult_le_compat_r; [apply bpow_ge_0|]. change (pow2 53) with (IZR (2 ^ 53)). now apply IZR_le.
Qed.
Lemma mul_dyadic x y a e : finite x -> finite y -> val x * val y = IZR a * pow2 e -> (Z.abs a < 2 ^ 53)%Z -> (-1074 <= e <= 900)%Z -> finite (dmul x y) /\ val (dmul x y) = IZR a * pow2 e.
Proof. intros FX FY P A E. destruct (mul_ok x y 953 FX FY ltac:(lia)) as [F V]; [rewrite P; apply dyadic_size; lia|]. split; [exact F|]. rewrite V, P. apply rnd_dyadic; [exact A|lia]. Qed.
Lemma add_dyadic x y a e : finite x -> finite y -> val x + val y = IZR a * pow2 e -> (Z.abs a < 2 ^ 53)%Z -> (-1074 <= e <= 900)%Z -> finite (dadd x y) /\ val (dadd x y) = IZR a * pow2 e.
Proof. intros FX FY P A E. destruct (add_ok x y 953 FX FY ltac:(lia)) as [F V]; [rewrite P; apply dyadic_size; lia|]. split; [exact F|]. rewrite V, P. apply rnd_dyadic; [exact A|lia]. Qed.
Lemma div_dyadic x y a e : finite x -> val y <> 0 -> val x / val y = IZR a * pow2 e -> (Z.abs a < 2 ^ 53)%Z -> (-1074 <= e <= 900)%Z -> finite (ddiv x y) /\ val (ddiv x y) = IZR a * pow2 e.
Proof. intros FX FY P A E. destruct (div_ok x y 953 FX FY ltac:(lia)) as [F V]; [rewrite P; apply dyadic_size; lia|]. split; [exact F|]. rewrite V, P. apply rnd_dyadic; [exact A|lia]. Qed.

Lemma fac1_ok : finite fac1 /\ val fac1 = 3750000.
Proof.
  destruct (of_int_ok 5000000 ltac:(discriminate)) as [F V]. destruct (of_int_ok 3 ltac:(discriminate)) as [F3 V3]. destruct (of_int_ok 4 ltac:(discriminate)) as [F4 V4].
  assert (E : of_decimal (75 # 100) = ddiv (of_int 3) (of_int 4)) by reflexivity.
  destruct (div_dyadic (of_int 3) (of_int 4) 3 (-2) F3 ltac:(rewrite V4; lra) ltac:(rewrite V3, V4; change (pow2 (-2)) with (/ 4); lra) ltac:(lia) ltac:(lia)) as [FQ VQ]. rewrite <- E in FQ, VQ.
  destruct (mul_dyadic USO_F0 (of_decimal (75 # 100)) 3750000 0 F FQ ltac:(unfold USO_F0; rewrite V, VQ; change (pow2 (-2)) with (/ 4); change (pow2 0) with 1; lra) ltac:(lia) ltac:(lia)) as [FF VF].
  split; [exact FF|]. unfold fac1. rewrite VF. change (pow2 0) with 1. lra.
Qed.
Lemma denominator : finite (dmul (of_int 5) (of_int (2 ^ 26))) /\ val (dmul (of_int 5) (of_int (2 ^ 26))) = 335544320.
Proof.
  destruct (of_int_ok 5 ltac:(discriminate)) as [F V]. destruct (of_int_ok (2 ^ 26) ltac:(discriminate)) as [F' V'].
  destruct (mul_dyadic _ _ 335544320 0 F F' ltac:(rewrite V, V'; change (2 ^ 26)%Z with 67108864%Z; change (pow2 0) with 1; lra) ltac:(lia) ltac:(lia)) as [FF VF]. split; [exact FF|]. rewrite VF. change (pow2 0) with 1. lra.
Qed.
Lemma fac2_ok k : (Z.abs k <= 9000000)%Z -> finite (fac2 k) /\ val (fac2 k) = IZR (1359375 * k) * pow2 (-20).
Proof.
  intros K. destruct (of_int_ok 87 ltac:(discriminate)) as [F87 V87]. destruct (of_int_ok k ltac:(lia)) as [FK VK]. destruct (of_int_ok 5000000 ltac:(discriminate)) as [FU VU]. destruct denominator as [FD VD].
  destruct (mul_dyadic _ _ (87 * k) 0 F87 FK ltac:(rewrite V87, VK, mult_IZR; change (pow2 0) with 1; ring) ltac:(lia) ltac:(lia)) as [F1 V1].
  destruct (mul_dyadic USO_F0 _ (435000000 * k) 0 FU F1 ltac:(unfold USO_F0; rewrite VU, V1, !mult_IZR; change (pow2 0) with 1; ring) ltac:(lia) ltac:(lia)) as [F2 V2].
  apply (div_dyadic _ _ (1359375 * k) (-20) F2); [rewrite VD; lra| |lia|lia]. rewrite V2, VD, !mult_IZR. change (pow2 0) with 1. change (pow2 (-20)) with (/ 1048576). field.
Qed.
Lemma freq_ok n m a k : (0 < n <= 543)%Z -> (m = n * 3750000)%Z -> (a = n * 1359375)%Z -> (Z.abs k <= 9000000)%Z ->
  let f := dadd (dmul (of_int n) fac1) (dmul (of_int n) (fac2 k)) in finite f /\ val f = IZR n * (3750000 + IZR k * 1359375 / 1048576).
Proof.
  intros N -> -> K f. destruct (of_int_ok n ltac:(lia)) as [FN VN]. destruct fac1_ok as [F1 V1]. destruct (fac2_ok k K) as [F2 V2].
  destruct (mul_dyadic _ _ (n * 3750000) 0 FN F1 ltac:(rewrite VN, V1, mult_IZR; change (pow2 0) with 1; ring) ltac:(nia) ltac:(lia)) as [FA VA].
  destruct (mul_dyadic _ _ (n * (1359375 * k)) (-20) FN F2 ltac:(rewrite VN, V2, !mult_IZR; ring) ltac:(nia) ltac:(lia)) as [FB VB].
  destruct (add_dyadic _ _ (n * (3750000 * 1048576 + 1359375 * k)) (-20) FA FB) as [F V].
  - rewrite VA, VB, !mult_IZR, plus_IZR, !mult_IZR. change (pow2 0) with 1. change (pow2 (-20)) with (/ 1048576). field.
  - nia.
  - lia.
  - split; [exact F|]. unfold f. rewrite V, mult_IZR, plus_IZR, !mult_IZR. change (pow2 (-20)) with (/ 1048576). field.
Qed.
Lemma s1_exact k : (Z.abs k <= 9000000)%Z -> finite (s1_freq k) /\ val (s1_freq k) = 543 * (3750000 + IZR k * 1359375 / 1048576).
Proof. intros K. exact (freq_ok 543 _ _ k ltac:(lia) eq_refl eq_refl K). Qed.
Lemma u2_exact k : (Z.abs k <= 9000000)%Z -> finite (u2_freq k) /\ val (u2_freq k) = 107 * (3750000 + IZR k * 1359375 / 1048576).
Proof. intros K. exact (freq_ok 107 _ _ k ltac:(lia) eq_refl eq_refl K). Qed.
Lemma never_zero k : 3750000 + IZR k * 1359375 / 1048576 <> 0.
Proof.
  intros E. assert (H : IZR (3750000 * 1048576 + k * 1359375) = 0) by (rewrite plus_IZR, !mult_IZR; lra). apply eq_IZR in H. lia.
Qed.
(* ---- the ratio ---- *)
Lemma gamma_ok : finite GAMMA_SQRT /\ val GAMMA_SQRT = rnd (543 / 107).
Proof.
  destruct (of_int_ok 8145 ltac:(discriminate)) as [FA VA]. destruct (of_int_ok 1605 ltac:(discriminate)) as [FB VB]. destruct (of_int_ok 4 ltac:(discriminate)) as [F4 V4].
  assert (E1 : FREQ1_MHZ = ddiv (of_int 8145) (of_int 4)) by reflexivity. assert (E2 : FREQ2_MHZ = ddiv (of_int 1605) (of_int 4)) by reflexivity.
  destruct (div_dyadic (of_int 8145) (of_int 4) 8145 (-2) FA ltac:(rewrite V4; lra) ltac:(rewrite VA, V4; change (pow2 (-2)) with (/ 4); lra) ltac:(lia) ltac:(lia)) as [F1 V1].
  destruct (div_dyadic (of_int 1605) (of_int 4) 1605 (-2) FB ltac:(rewrite V4; lra) ltac:(rewrite VB, V4; change (pow2 (-2)) with (/ 4); lra) ltac:(lia) ltac:(lia)) as [F2 V2].
  rewrite <- E1 in F1, V1. rewrite <- E2 in F2, V2. change (pow2 (-2)) with (/ 4) in V1, V2.
  destruct (div_ok FREQ1_MHZ FREQ2_MHZ 3 F1 ltac:(rewrite V2; lra) ltac:(lia)) as [F V]; [rewrite V1, V2; apply Rabs_pow; change (pow2 3) with 8; lra|]. split; [exact F|].
  unfold GAMMA_SQRT. rewrite V, V1, V2. f_equal. field.
Qed.
Lemma ratio_ok k : (Z.abs k <= 9000000)%Z -> finite (ddiv (s1_freq k) (u2_freq k)) /\ val (ddiv (s1_freq k) (u2_freq k)) = val GAMMA_SQRT.
Proof.
  intros K. destruct (s1_exact k K) as [F1 V1]. destruct (u2_exact k K) as [F2 V2]. pose proof (never_zero k) as N. set (w := 3750000 + IZR k * 1359375 / 1048576) in *.
  assert (Q : val (s1_freq k) / val (u2_freq k) = 543 / 107) by (rewrite V1, V2; field; exact N).
  destruct (div_ok (s1_freq k) (u2_freq k) 3 F1 ltac:(rewrite V2; lra) ltac:(lia)) as [F V]; [rewrite Q; apply Rabs_pow; change (pow2 3) with 8; lra|].
  split; [exact F|]. rewrite V, Q. symmetry. exact (proj2 gamma_ok).
Qed.
Lemma gamma_near : finite GAMMA /\ Rabs (val GAMMA - (543 / 107) * (543 / 107)) <= 4 * u * ((543 / 107) * (543 / 107)).
Proof.
  destruct gamma_ok as [F V]. destruct (rnd_rel' (543 / 107)) as (e & He & E).
  { right. rewrite Rabs_pos_eq by lra. refine (Rle_trans _ (pow2 0) _ (bpow_le radix2 (-1022) 0 ltac:(lia)) _). change (pow2 0) with 1. lra. }
  rewrite E in V. apply Rabs_le_both in He. assert (B : 5 <= val GAMMA_SQRT <= 8) by (rewrite V; lra).
  destruct (mul_ok GAMMA_SQRT GAMMA_SQRT 6 F F ltac:(lia)) as [FG VG]; [apply Rabs_pow; change (pow2 6) with 64; nra|]. split; [exact FG|]. unfold GAMMA. rewrite VG.
  destruct (rnd_rel' (val GAMMA_SQRT * val GAMMA_SQRT)) as (e' & He' & ->).
  { right. rewrite Rabs_pos_eq by nra. refine (Rle_trans _ (pow2 0) _ (bpow_le radix2 (-1022) 0 ltac:(lia)) _). change (pow2 0) with 1. nra. }
  rewrite V. apply Rabs_le_both in He'. clear - He He'.
  replace (543 / 107 * (1 + e) * (543 / 107 * (1 + e)) * (1 + e') - 543 / 107 * (543 / 107)) with (543 / 107 * (543 / 107) * ((1 + e) * (1 + e) * (1 + e') - 1)) by ring.
  rewrite Rabs_mult, (Rabs_pos_eq (543 / 107 * (543 / 107))) by lra. rewrite Rmult_comm. apply Rmult_le_compat_r; [lra|].
  assert (A : 1 - 2 * u <= (1 + e) * (1 + e) <= 1 + 5 / 2 * u) by nra. set (q := (1 + e) * (1 + e)) in *. apply Rabs_le. nra.
Qed.
(* ---- every int ---- *)
Lemma freq_near n k : (0 < n <= 543)%Z -> (Z.abs k <= 2 ^ 31)%Z ->
  let f := dadd (dmul (of_int n) fac1) (dmul (of_int n) (fac2 k)) in let x := IZR n * IZR k * 1359375 / 1048576 in
  finite f /\ Rabs (val f - (IZR n * 3750000 + x)) <= 6 * u * (IZR n * 3750000 + Rabs x).
Proof.
  intros N K f x. destruct (of_int_ok n ltac:(lia)) as [FN VN]. destruct fac1_ok as [F1 V1]. destruct denominator as [FD VD].
  destruct (of_int_ok 87 ltac:(discriminate)) as [F87 V87]. destruct (of_int_ok k ltac:(lia)) as [FK VK]. destruct (of_int_ok 5000000 ltac:(discriminate)) as [FU VU].
  destruct (mul_dyadic _ _ (87 * k) 0 F87 FK ltac:(rewrite V87, VK, mult_IZR; change (pow2 0) with 1; ring) ltac:(lia) ltac:(lia)) as [FA VA]. rewrite mult_IZR in VA. change (pow2 0) with 1 in VA.
  assert (KR : Rabs (IZR k) <= 2147483648) by (rewrite <- abs_IZR; apply IZR_le; exact K). assert (NR : 1 <= IZR n <= 543) by (split; apply IZR_le; lia).
  assert (KZ : IZR k = 0 \/ 1 <= Rabs (IZR k)) by (destruct (Z.eq_dec k 0) as [->|Z]; [now left|right; rewrite <- abs_IZR; apply IZR_le; lia]).
  assert (lowr : forall c r : R, / 4 <= c -> r = c * IZR k -> r = 0 \/ pow2 (-1022) <= Rabs r).
  { intros c r C ->. destruct KZ as [Z|Z]; [left; rewrite Z; ring|right]. refine (Rle_trans _ (pow2 (-2)) _ (bpow_le radix2 (-1022) (-2) ltac:(lia)) _). change (pow2 (-2)) with (/ 4).
    rewrite Rabs_mult, (Rabs_pos_eq c) by lra. nra. }
  set (a := IZR k) in *.
  (* the product *)
  assert (Q1 : val USO_F0 * val (dmul (of_int 87) (of_int k)) = 435000000 * a) by (unfold USO_F0; rewrite VU, VA; ring).
  assert (S1 : Rabs (435000000 * a) <= pow2 60) by (rewrite Rabs_mult, Rabs_pos_eq by lra; change (pow2 60) with 1152921504606846976; lra).
  destruct (mul_ok _ _ 60 FU FA ltac:(lia) ltac:(fold USO_F0; rewrite Q1; exact S1)) as [FB VB]. fold USO_F0 in FB, VB. rewrite Q1 in VB.
  destruct (rnd_rel' (435000000 * a)) as (e1 & H1 & E1); [apply (lowr 435000000); [lra|reflexivity]|]. rewrite E1 in VB. apply Rabs_le_both in H1.
  (* over 5 * 2^26 *)
  set (c1 := 1359375 / 1048576 * (1 + e1)) in *. assert (C1 : / 2 <= c1 <= 2) by (unfold c1; lra).
  assert (Q2 : val (dmul USO_F0 (dmul (of_int 87) (of_int k))) / val (dmul (of_int 5) (of_int (2 ^ 26))) = c1 * a) by (rewrite VB, VD; unfold c1; field).
  assert (SZ : forall c, 0 <= c <= 2000 -> Rabs (c * a) <= pow2 50) by (intros c C; rewrite Rabs_mult, (Rabs_pos_eq c) by lra; change (pow2 50) with 1125899906842624; pose proof (Rabs_pos a); nra).
  destruct (div_ok _ _ 50 FB ltac:(rewrite VD; lra) ltac:(lia) ltac:(rewrite Q2; apply SZ; lra)) as [FC VC]. fold (fac2 k) in FC, VC. rewrite Q2 in VC.
  destruct (rnd_rel' (c1 * a)) as (e2 & H2 & E2); [apply (lowr c1); [lra|reflexivity]|]. rewrite E2 in VC. apply Rabs_le_both in H2.
  (* times n *)
  set (c2 := IZR n * c1 * (1 + e2)) in *.
  assert (C2 : / 4 <= c2 <= 2000).
  { unfold c2. assert (/ 2 <= IZR n * c1 <= 1086) by nra. split; nra. }
  assert (Q3 : val (of_int n) * val (fac2 k) = c2 * a) by (rewrite VN, VC; unfold c2; ring).
  destruct (mul_ok _ _ 50 FN FC ltac:(lia) ltac:(rewrite Q3; apply SZ; lra)) as [FE VE]. rewrite Q3 in VE.
  destruct (rnd_rel' (c2 * a)) as (e3 & H3 & E3); [apply (lowr c2); [lra|reflexivity]|]. rewrite E3 in VE. apply Rabs_le_both in H3.
  destruct (mul_dyadic _ _ (n * 3750000) 0 FN F1 ltac:(rewrite VN, V1, mult_IZR; change (pow2 0) with 1; ring) ltac:(nia) ltac:(lia)) as [FG VG]. rewrite mult_IZR in VG. change (pow2 0) with 1 in VG.
  (* the sum *)
  assert (EX : val (dmul (of_int n) (fac2 k)) = x * ((1 + e1) * (1 + e2) * (1 + e3))) by (rewrite VE; unfold c2, c1, x; field).
  assert (W : 1 - 4 * u <= (1 + e1) * (1 + e2) * (1 + e3) <= 1 + 4 * u).
  { assert (A : 1 - 2 * u <= (1 + e1) * (1 + e2) <= 1 + 5 / 2 * u) by nra. set (q := (1 + e1) * (1 + e2)) in *. nra. }
  set (w := (1 + e1) * (1 + e2) * (1 + e3)) in *. pose proof (Rabs_pos x) as PX.
  assert (NX : Rabs (val (dmul (of_int n) (fac2 k)) - x) <= 4 * u * Rabs x).
  { rewrite EX. replace (x * w - x) with (x * (w - 1)) by ring. rewrite Rabs_mult, Rmult_comm. apply Rmult_le_compat_r; [exact PX|]. apply Rabs_le. lra. }
  set (b := val (dmul (of_int n) (fac2 k))) in *.
  assert (BB : Rabs b <= Rabs x * (1 + 4 * u)) by (replace b with ((b - x) + x) by ring; refine (Rle_trans _ _ _ (Rabs_triang _ _) _); lra).
  assert (BP : Rabs b <= pow2 50). { rewrite VE. rewrite <- E3. apply rnd_size; [lia|]. apply SZ. lra. }
  destruct (add_ok _ _ 51 FG FE ltac:(lia)) as [F V].
  { rewrite VG. fold b. apply (sum_pow _ _ 50); [|exact BP]. rewrite Rabs_pos_eq by lra. change (pow2 50) with 1125899906842624. lra. }
  split; [exact F|]. unfold f. rewrite V, VG. fold b. replace (IZR n * 3750000 * 1) with (IZR n * 3750000) by ring. pose proof (rnd_near' (IZR n * 3750000 + b)) as R1.
  pose proof (bpow_le radix2 (-1074) (-100) ltac:(lia)) as T. change (pow2 (-100)) with tiny in T.
  assert (B2 : Rabs (IZR n * 3750000 + b) <= IZR n * 3750000 + Rabs x * (1 + 4 * u)).
  { refine (Rle_trans _ _ _ (Rabs_triang _ _) _). rewrite (Rabs_pos_eq (IZR n * 3750000)) by lra. lra. }
  replace (rnd (IZR n * 3750000 + b) - (IZR n * 3750000 + x)) with ((rnd (IZR n * 3750000 + b) - (IZR n * 3750000 + b)) + (b - x)) by ring.
  refine (Rle_trans _ _ _ (Rabs_triang _ _) _). lra.
Qed.
(* ---- beyond ---- *)
Lemma equal_val x y : finite x -> finite y -> is_equal x y = true -> val x = val y.
Proof.
  intros FX FY. unfold is_equal, b64_compare. rewrite (Bcompare_correct 53 1024 x y FX FY). fold (val x) (val y). destruct (Rcompare_spec (val x) (val y)); intros; try discriminate; assumption.
Qed.
Lemma far_inexact : exists k, (- 2 ^ 31 <= k < 2 ^ 31)%Z /\ val (s1_freq k) <> 543 * (5000000 * (3 / 4 + 87 * IZR k / (5 * 2 ^ 26))).
Proof.
  exists 13000001%Z. split; [lia|]. destruct (of_int_ok 5865495871570312 ltac:(discriminate)) as [FA VA]. destruct (of_int_ok 524288 ltac:(discriminate)) as [FB VB].
  destruct (div_dyadic _ _ 5865495871570312 (-19) FA ltac:(rewrite VB; lra) ltac:(rewrite VA, VB; change (pow2 (-19)) with (/ 524288); reflexivity) ltac:(lia) ltac:(lia)) as [FC VC].
  destruct (freq_near 543 13000001 ltac:(lia) ltac:(lia)) as [FS _]. fold (s1_freq 13000001) in FS.
  rewrite (equal_val _ _ FS FC); [|vm_compute; reflexivity]. rewrite VC. change (pow2 (-19)) with (/ 524288). intros H. lra.
Qed.
(* ---- the correction for the ionosphere ---- *)
Notation g := (543 / 107).
Lemma gamma_sqrt_near : Rabs (val GAMMA_SQRT - g) <= 11 / 10 * u * g.
Proof.
  rewrite (proj2 gamma_ok). pose proof (rnd_near g) as R1. rewrite (Rabs_pos_eq g) in R1 by lra. lra.
Qed.
Lemma divisor_near : finite (dsub GAMMA one) /\ Rabs (val (dsub GAMMA one) - (g * g - 1)) <= 27 / 5 * u * (g * g - 1) /\ 24 <= val (dsub GAMMA one) <= 25.
Proof.
  destruct gamma_near as [F N]. destruct one_ok as [F1 V1]. pose proof N as N'. apply Rabs_le_both in N'.
  assert (B : 0 <= val GAMMA - 1 <= 25) by lra.
  destruct (sub_ok GAMMA one 6 F F1 ltac:(lia)) as [FS VS]; [rewrite V1; apply Rabs_pow; change (pow2 6) with 64; lra|]. rewrite V1 in VS. split; [exact FS|]. rewrite VS.
  pose proof (rnd_near (val GAMMA - 1)) as R1. rewrite (Rabs_pos_eq (val GAMMA - 1)) in R1 by lra.
  assert (C : Rabs (rnd (val GAMMA - 1) - (g * g - 1)) <= 27 / 5 * u * (g * g - 1)).
  { replace (rnd (val GAMMA - 1) - (g * g - 1)) with ((rnd (val GAMMA - 1) - (val GAMMA - 1)) + (val GAMMA - g * g)) by ring. refine (Rle_trans _ _ _ (Rabs_triang _ _) _). lra. }
  split; [exact C|]. apply Rabs_le_both in C. lra.
Qed.
Lemma iono_val L1 L2 : finite L1 -> finite L2 -> Rabs (val L1) <= pow2 900 -> Rabs (val L2) <= pow2 900 ->
  finite (iono_correction L1 L2) /\ val (iono_correction L1 L2) = rnd (rnd (val L1 - rnd (val GAMMA_SQRT * val L2)) / val (dsub GAMMA one)).
Proof.
  intros F1 F2 B1 B2. destruct gamma_ok as [FG _]. pose proof gamma_sqrt_near as NG. destruct divisor_near as (FD & ND & BD). pose proof (bpow_gt_0 radix2 (-1074)) as PE.
  pose proof NG as NG'. apply Rabs_le_both in NG'. assert (BG : Rabs (val GAMMA_SQRT) <= pow2 3) by (apply Rabs_pow; change (pow2 3) with 8; lra).
  pose proof (prod_pow _ _ 3 900 BG B2) as Q1. change (3 + 900)%Z with 903%Z in Q1. destruct (mul_ok _ _ 903 FG F2 ltac:(lia) Q1) as [FM VM].
  assert (BM : Rabs (val (dmul GAMMA_SQRT L2)) <= pow2 903) by (rewrite VM; apply rnd_size; [lia|exact Q1]). pose proof (bpow_le radix2 900 903 ltac:(lia)) as LE.
  assert (Q2 : Rabs (val L1 - val (dmul GAMMA_SQRT L2)) <= pow2 904) by (apply (sum_pow _ _ 903); [lra|rewrite Rabs_Ropp; exact BM]).
  destruct (sub_ok _ _ 904 F1 FM ltac:(lia) Q2) as [FN VN]. assert (BN : Rabs (val (dsub L1 (dmul GAMMA_SQRT L2))) <= pow2 904) by (rewrite VN; apply rnd_size; [lia|exact Q2]).
  assert (Q3 : Rabs (val (dsub L1 (dmul GAMMA_SQRT L2)) / val (dsub GAMMA one)) <= pow2 900).
  { refine (Rle_trans _ _ _ (quot_pow _ _ 904 4 BN _) _); [change (pow2 4) with 16; lra|apply bpow_le; lia]. }
  assert (NZ : val (dsub GAMMA one) <> 0) by lra. destruct (div_ok _ _ 900 FN NZ ltac:(lia) Q3) as [F V]. split; [exact F|]. unfold iono_correction. rewrite V, VN, VM. reflexivity.
Qed.
Lemma iono_mono L1 L2 L1' L2' : finite L1 -> finite L2 -> finite L1' -> finite L2' -> Rabs (val L1) <= pow2 900 -> Rabs (val L2) <= pow2 900 -> Rabs (val L1') <= pow2 900 -> Rabs (val L2') <= pow2 900 ->
  val L1 <= val L1' -> val L2' <= val L2 -> val (iono_correction L1 L2) <= val (iono_correction L1' L2').
Proof.
  intros F1 F2 F1' F2' B1 B2 B1' B2' O1 O2. rewrite (proj2 (iono_val L1 L2 F1 F2 B1 B2)), (proj2 (iono_val L1' L2' F1' F2' B1' B2')).
  destruct divisor_near as (_ & _ & BD). pose proof gamma_sqrt_near as NG. apply Rabs_le_both in NG.
  apply rnd_mono, Rmult_le_compat_r; [apply Rlt_le, Rinv_0_lt_compat; lra|]. apply rnd_mono.
  assert (rnd (val GAMMA_SQRT * val L2') <= rnd (val GAMMA_SQRT * val L2)) by (apply rnd_mono, Rmult_le_compat_l; lra). lra.
Qed.
Lemma iono_near L1 L2 : finite L1 -> finite L2 -> Rabs (val L1) <= pow2 900 -> Rabs (val L2) <= pow2 900 ->
  finite (iono_correction L1 L2) /\
  Rabs (val (iono_correction L1 L2) - (val L1 - g * val L2) / (g * g - 1)) <= 12 * u * ((Rabs (val L1) + g * Rabs (val L2)) / (g * g - 1)) + 2 * eta.
Proof.
  intros F1 F2 B1 B2. destruct gamma_ok as [FG _]. pose proof gamma_sqrt_near as NG. destruct divisor_near as (FD & ND & BD). pose proof (bpow_gt_0 radix2 (-1074)) as PE.
  pose proof NG as NG'. apply Rabs_le_both in NG'. assert (BG : Rabs (val GAMMA_SQRT) <= pow2 3) by (apply Rabs_pow; change (pow2 3) with 8; lra).
  pose proof (prod_pow _ _ 3 900 BG B2) as Q1. change (3 + 900)%Z with 903%Z in Q1. destruct (mul_ok _ _ 903 FG F2 ltac:(lia) Q1) as [FM VM].
  assert (BM : Rabs (val (dmul GAMMA_SQRT L2)) <= pow2 903) by (rewrite VM; apply rnd_size; [lia|exact Q1]). pose proof (bpow_le radix2 900 903 ltac:(lia)) as LE.
  assert (Q2 : Rabs (val L1 - val (dmul GAMMA_SQRT L2)) <= pow2 904) by (apply (sum_pow _ _ 903); [lra|rewrite Rabs_Ropp; exact BM]).
  destruct (sub_ok _ _ 904 F1 FM ltac:(lia) Q2) as [FN VN]. assert (BN : Rabs (val (dsub L1 (dmul GAMMA_SQRT L2))) <= pow2 904) by (rewrite VN; apply rnd_size; [lia|exact Q2]).
  assert (Q3 : Rabs (val (dsub L1 (dmul GAMMA_SQRT L2)) / val (dsub GAMMA one)) <= pow2 900).
  { refine (Rle_trans _ _ _ (quot_pow _ _ 904 4 BN _) _); [change (pow2 4) with 16; lra|apply bpow_le; lia]. }
  assert (NZ : val (dsub GAMMA one) <> 0) by lra. destruct (div_ok _ _ 900 FN NZ ltac:(lia) Q3) as [F V]. split; [exact F|]. unfold iono_correction. rewrite V.
  set (a := val L1) in *. set (b := val L2) in *. set (D := val (dsub GAMMA one)) in *. set (p := val (dmul GAMMA_SQRT L2)) in *. set (n := val (dsub L1 (dmul GAMMA_SQRT L2))) in *. set (G := val GAMMA_SQRT) in *.
  pose proof (rnd_near' (G * b)) as R1. rewrite <- VM in R1. pose proof (rnd_near' (a - p)) as R2. rewrite <- VN in R2. pose proof (rnd_near' (n / D)) as R3.
  clear - NG ND BD PE R1 R2 R3 NG'. set (d := g * g - 1) in *. assert (Pd : 24 <= d <= 25) by (unfold d; lra). set (e := eta) in *. clearbody d e.
  pose proof (Rabs_pos a) as Pa. pose proof (Rabs_pos b) as Pb. set (M := Rabs a + g * Rabs b).
  assert (A1 : Rabs (G * b) <= g * Rabs b * (1 + 11 / 10 * u)) by (rewrite Rabs_mult; replace (g * Rabs b * (1 + 11 / 10 * u)) with (g * (1 + 11 / 10 * u) * Rabs b) by ring; apply Rmult_le_compat_r; [exact Pb|]; rewrite Rabs_pos_eq; lra).
  assert (A2 : Rabs (G * b - g * b) <= 11 / 10 * u * (g * Rabs b)) by (rewrite <- Rmult_minus_distr_r, Rabs_mult; replace (11 / 10 * u * (g * Rabs b)) with (11 / 10 * u * g * Rabs b) by ring; apply Rmult_le_compat_r; assumption).
  assert (A3 : Rabs (p - g * b) <= 22 / 10 * u * (g * Rabs b) + e).
  { replace (p - g * b) with ((p - G * b) + (G * b - g * b)) by ring. refine (Rle_trans _ _ _ (Rabs_triang _ _) _). lra. }
  assert (A4 : Rabs (g * b) = g * Rabs b) by (rewrite Rabs_mult, Rabs_pos_eq; lra).
  assert (A5 : Rabs (a - g * b) <= M) by (unfold M, Rminus; refine (Rle_trans _ _ _ (Rabs_triang _ _) _); rewrite Rabs_Ropp, A4; lra).
  assert (PM : 0 <= M) by (unfold M; lra).
  assert (A6 : Rabs (a - p) <= M * (1 + 3 * u) + e).
  { replace (a - p) with ((a - g * b) + - (p - g * b)) by ring. refine (Rle_trans _ _ _ (Rabs_triang _ _) _). rewrite Rabs_Ropp. unfold M in *. lra. }
  assert (A7 : Rabs (n - (a - g * b)) <= 33 / 10 * u * M + 3 * e).
  { replace (n - (a - g * b)) with ((n - (a - p)) + - (p - g * b)) by ring. refine (Rle_trans _ _ _ (Rabs_triang _ _) _). rewrite Rabs_Ropp. unfold M in *. lra. }
  (* the quotient *)
  pose proof ND as ND'. apply Rabs_le_both in ND'. assert (ID : 0 < / D <= / 24) by (split; [apply Rinv_0_lt_compat; lra|apply Rinv_le; lra]). assert (Id : 0 < / d) by (apply Rinv_0_lt_compat; lra).
  assert (RD : Rabs (d / D) <= 1 + 6 * u).
  { unfold Rdiv. rewrite Rabs_pos_eq by (apply Rmult_le_pos; lra). apply Rmult_le_reg_r with D; [lra|]. rewrite Rmult_assoc, Rinv_l by lra. lra. }
  assert (B1 : Rabs (n / D - (a - g * b) / d) <= 98 / 10 * u * (M / d) + e / 2).
  { replace (n / D - (a - g * b) / d) with ((n - (a - g * b)) * / d * (d / D) + (a - g * b) * / d * ((d - D) / D)) by (field; lra).
    refine (Rle_trans _ _ _ (Rabs_triang _ _) _). rewrite !Rabs_mult, (Rabs_pos_eq (/ d)) by lra.
    assert (C1 : Rabs (n - (a - g * b)) * / d * Rabs (d / D) <= (33 / 10 * u * M + 3 * e) * / d * (1 + 6 * u)).
    { apply Rmult_le_compat; [apply Rmult_le_pos; [apply Rabs_pos|lra]|apply Rabs_pos| |exact RD]. apply Rmult_le_compat_r; [lra|exact A7]. }
    assert (C2 : Rabs ((d - D) / D) <= 11 / 2 * u).
    { unfold Rdiv. rewrite Rabs_mult, (Rabs_pos_eq (/ D)) by lra. apply Rmult_le_reg_r with D; [lra|]. rewrite Rmult_assoc, Rinv_l, Rmult_1_r by lra. rewrite Rabs_minus_sym. refine (Rle_trans _ _ _ ND _). lra. }
    assert (C3 : Rabs (a - g * b) * / d * Rabs ((d - D) / D) <= M * / d * (11 / 2 * u)).
    { apply Rmult_le_compat; [apply Rmult_le_pos; [apply Rabs_pos|lra]|apply Rabs_pos| |exact C2]. apply Rmult_le_compat_r; [lra|exact A5]. }
    assert (Md : 0 <= M * / d) by (apply Rmult_le_pos; lra). assert (Ed : e * / d <= e * / 24) by (apply Rmult_le_compat_l; [lra|]; apply Rinv_le; lra). change (M / d) with (M * / d).
    replace ((33 / 10 * u * M + 3 * e) * / d * (1 + 6 * u)) with (33 / 10 * u * (1 + 6 * u) * (M * / d) + 3 * (1 + 6 * u) * (e * / d)) in C1 by ring.
    set (md := M * / d) in *. set (ed := e * / d) in *. clear - C1 C3 Md Ed PE. lra. }
  assert (Md : 0 <= M / d) by (apply Rmult_le_pos; lra).
  assert (Bq : Rabs ((a - g * b) / d) <= M / d) by (unfold Rdiv; rewrite Rabs_mult, (Rabs_pos_eq (/ d)) by lra; apply Rmult_le_compat_r; [lra|exact A5]).
  assert (Bn : Rabs (n / D) <= M / d * (1 + 10 * u) + e).
  { replace (n / D) with ((n / D - (a - g * b) / d) + (a - g * b) / d) by ring. refine (Rle_trans _ _ _ (Rabs_triang _ _) _). lra. }
  replace (rnd (n / D) - (a - g * b) / d) with ((rnd (n / D) - n / D) + (n / D - (a - g * b) / d)) by ring. refine (Rle_trans _ _ _ (Rabs_triang _ _) _). lra.
Qed.
