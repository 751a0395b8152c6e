(* Proofs for FloatAngle_model.v: a component over the norm of its vector is between -1 and 1 in binary64 too, the shadow
   of a cylinder is what it is in exact arithmetic a millimetre off its border, and the other quotients are not. *)
From Coq Require Import ZArith QArith Qreals Reals Bool Lia Lra Psatz.
From Flocq Require Import Core Relative IEEE754.BinarySingleNaN IEEE754.Binary IEEE754.Bits.
From Verif Require Import FloatTime_model FloatTime_proofs FloatAngle_model.
Local Open Scope R_scope.
#[local] Instance prec53' : Prec_gt_0 53 := eq_refl.
Notation pow2 k := (bpow radix2 k).

(* ---- one operation ---- *)
Lemma rnd_mono x y : x <= y -> rnd x <= rnd y.
Proof. intros H. apply round_le; [apply FLT_exp_valid; exact eq_refl|apply valid_rnd_N|exact H]. Qed.
Lemma rnd_pow k : (-1074 <= k)%Z -> rnd (pow2 k) = pow2 k.
Proof. intros K. apply round_generic; [apply valid_rnd_N|]. apply generic_format_bpow. unfold FLT_exp. lia. Qed.
Lemma rnd_size x k : (-1074 <= k)%Z -> Rabs x <= pow2 k -> Rabs (rnd x) <= pow2 k.
Proof.
  intros K H. apply abs_round_le_generic; [apply FLT_exp_valid; exact eq_refl|apply valid_rnd_N| |exact H].
  apply generic_format_bpow. unfold FLT_exp. lia.
Qed.
Lemma rnd_pos x : 0 <= x -> 0 <= rnd x.
Proof. intros H. rewrite <- rnd_0. now apply rnd_mono. Qed.
Lemma fits x k : (-1074 <= k < 1024)%Z -> Rabs x <= pow2 k -> Rabs (rnd x) < pow2 1024.
Proof. intros K H. apply Rle_lt_trans with (pow2 k); [apply rnd_size; [lia|exact H]|apply bpow_lt; lia]. Qed.
Lemma add_ok x y k : finite x -> finite y -> (-1074 <= k < 1024)%Z -> Rabs (val x + val y) <= pow2 k ->
  finite (dadd x y) /\ val (dadd x y) = rnd (val x + val y).
Proof.
  intros FX FY K H. pose proof (Bplus_correct 53 1024 eq_refl eq_refl binop_nan_pl64 mode_NE x y FX FY) as C.
  change (round radix2 _ (round_mode mode_NE) (B2R 53 1024 x + B2R 53 1024 y)) with (rnd (val x + val y)) in C.
  rewrite Rlt_bool_true in C; [destruct C as (C1 & C2 & _); split; [exact C2|exact C1]|]. exact (fits _ k K H).
Qed.
Lemma sub_ok x y k : finite x -> finite y -> (-1074 <= k < 1024)%Z -> Rabs (val x - val y) <= pow2 k ->
  finite (dsub x y) /\ val (dsub x y) = rnd (val x - val y).
Proof.
  intros FX FY K H. pose proof (Bminus_correct 53 1024 eq_refl eq_refl binop_nan_pl64 mode_NE x y FX FY) as C.
  change (round radix2 _ (round_mode mode_NE) (B2R 53 1024 x - B2R 53 1024 y)) with (rnd (val x - val y)) in C.
  rewrite Rlt_bool_true in C; [destruct C as (C1 & C2 & _); split; [exact C2|exact C1]|]. exact (fits _ k K H).
Qed.
Lemma mul_ok x y k : finite x -> finite y -> (-1074 <= k < 1024)%Z -> Rabs (val x * val y) <= pow2 k ->
  finite (dmul x y) /\ val (dmul x y) = rnd (val x * val y).
Proof.
  intros FX FY K H. pose proof (Bmult_correct 53 1024 eq_refl eq_refl binop_nan_pl64 mode_NE x y) as C.
  change (round radix2 _ (round_mode mode_NE) (B2R 53 1024 x * B2R 53 1024 y)) with (rnd (val x * val y)) in C.
  rewrite Rlt_bool_true in C; [destruct C as (C1 & C2 & _); rewrite FX, FY in C2; split; [exact C2|exact C1]|]. exact (fits _ k K H).
Qed.
Lemma div_ok x y k : finite x -> val y <> 0 -> (-1074 <= k < 1024)%Z -> Rabs (val x / val y) <= pow2 k ->
  finite (ddiv x y) /\ val (ddiv x y) = rnd (val x / val y).
Proof.
  intros FX NY K H. pose proof (Bdiv_correct 53 1024 eq_refl eq_refl binop_nan_pl64 mode_NE x y NY) as C.
  change (round radix2 _ (round_mode mode_NE) (B2R 53 1024 x / B2R 53 1024 y)) with (rnd (val x / val y)) in C.
  rewrite Rlt_bool_true in C; [destruct C as (C1 & C2 & _); rewrite FX in C2; split; [exact C2|exact C1]|]. exact (fits _ k K H).
Qed.
Lemma sqrt_ok x : finite x -> 0 <= val x -> finite (dsqrt x) /\ val (dsqrt x) = rnd (sqrt (val x)).
Proof.
  intros FX H. pose proof (Bsqrt_correct 53 1024 eq_refl eq_refl unop_nan_pl64 mode_NE x) as C.
  destruct C as (C1 & C2 & _). split; [|exact C1]. refine (eq_trans C2 _). destruct x as [s|s|s pl e|s m e b]; try discriminate FX; [reflexivity|].
  destruct s; [|reflexivity]. exfalso. unfold val, B2R in H. assert (F2R (Float radix2 (cond_Zopp true (Zpos m)) e) < 0); [|lra]. apply F2R_lt_0. cbn. lia.
Qed.
Lemma opp_ok x : finite x -> finite (dopp x) /\ val (dopp x) = - val x.
Proof. intros F. split; [now destruct x as [s|s|s pl e|s m e b]|]. apply B2R_Bopp. Qed.
Lemma dlt_ok x y : finite x -> finite y -> (dlt x y = true <-> val x < val y).
Proof.
  intros FX FY. unfold dlt, b64_compare. rewrite (Bcompare_correct 53 1024 x y FX FY). fold (val x) (val y). destruct (Rcompare_spec (val x) (val y)); split; intros; try reflexivity; try discriminate; lra.
Qed.
Lemma dle_ok x y : finite x -> finite y -> (dle x y = true <-> val x <= val y).
Proof.
  intros FX FY. unfold dle, b64_compare. rewrite (Bcompare_correct 53 1024 x y FX FY). fold (val x) (val y). destruct (Rcompare_spec (val x) (val y)); split; intros; try reflexivity; try discriminate; lra.
Qed.
Lemma of_int_ok n : (Z.abs n <= 2 ^ 53)%Z -> finite (of_int n) /\ val (of_int n) = IZR n.
Proof. exact (of_int_val n). Qed.

(* ---- the root of a square is not below it ---- *)
Lemma format_of x : generic_format radix2 (FLT_exp (-1074) 53) (val x).
Proof. apply (generic_format_B2R 53 1024). Qed.
Lemma root_square_pos z : 0 < z -> pow2 (-500) <= z -> generic_format radix2 (FLT_exp (-1074) 53) z -> z <= rnd (sqrt (rnd (z * z))).
Proof.
  intros P L G. assert (B : exists e, pow2 (e - 1) <= z < pow2 e).
  { destruct (mag radix2 z) as (e & He). exists e. pose proof (He ltac:(lra)) as B. now rewrite (Rabs_pos_eq z) in B by lra. }
  destruct B as (e & B).
  assert (E : (-500 < e)%Z) by (apply (lt_bpow radix2); lra).
  assert (M : mag_val radix2 z (mag radix2 z) = e) by (apply mag_unique_pos; exact B).
  assert (X : cexp radix2 (FLT_exp (-1074) 53) z = (e - 53)%Z) by (unfold cexp, FLT_exp; rewrite M; lia).
  set (w := z * z). 
  destruct (Req_dec z (pow2 (e - 1))) as [Q|NQ].
  - unfold w. rewrite Q, <- bpow_plus, rnd_pow by lia. rewrite bpow_plus, sqrt_square by (apply bpow_ge_0). rewrite rnd_pow by lia. lra.
  - assert (PR : pred radix2 (FLT_exp (-1074) 53) z = z - pow2 (e - 53)).
    { rewrite pred_eq_pos by lra. unfold pred_pos. rewrite M. rewrite Req_bool_false by exact NQ. rewrite ulp_neq_0 by lra. now rewrite X. }
    apply round_N_ge_midp; [apply FLT_exp_valid; exact eq_refl|exact G|]. rewrite PR.
    (* scale *)
    assert (T : pow2 (e - 53) = pow2 (e - 1) * (2 * u)).
    { replace (e - 53)%Z with (e - 1 + -52)%Z by lia. rewrite bpow_plus. f_equal. cbn. lra. }
    assert (U : z <= 2 * pow2 (e - 1) - pow2 (e - 53)).
    { assert (D : pow2 e = 2 * pow2 (e - 1)) by (replace e with (1 + (e - 1))%Z at 1 by lia; rewrite bpow_plus; cbn; lra). rewrite <- D.
      assert (S : z <= pred radix2 (FLT_exp (-1074) 53) (pow2 e)).
      { apply pred_ge_gt; [apply FLT_exp_valid; exact eq_refl|exact G|apply generic_format_bpow; unfold FLT_exp; lia|lra]. }
      rewrite pred_bpow in S. unfold FLT_exp in S. rewrite Z.max_l in S by lia. exact S. }
    destruct (rnd_rel w) as (d & Hd & ->).
    { unfold w. rewrite Rabs_pos_eq by nra. apply Rle_trans with (pow2 (-500) * pow2 (-500)); [rewrite <- bpow_plus; apply bpow_le; lia|]. pose proof (bpow_gt_0 radix2 (-500)). nra. }
    apply Rabs_le_both in Hd. unfold w. set (h := pow2 (e - 1)) in *.
    assert (Hz : h <= z) by (apply B). assert (HP : 0 < h) by apply bpow_gt_0. rewrite T in *. clearbody h. clear - Hz HP U Hd P.
    (* z (1 - u/2 - u^2/4) < root *)
    assert (LOW : z * (1 - u / 2 - u * u / 4) <= sqrt (z * z * (1 + d))).
    { rewrite <- (sqrt_square (z * (1 - u / 2 - u * u / 4))) by nra. apply sqrt_le_1_alt. 
      replace (z * (1 - u / 2 - u * u / 4) * (z * (1 - u / 2 - u * u / 4))) with (z * z * ((1 - u / 2 - u * u / 4) * (1 - u / 2 - u * u / 4))) by ring.
      apply Rmult_le_compat_l; [nra|lra]. }
    nra.
Qed.
Lemma root_square x : pow2 (-500) <= Rabs (val x) -> Rabs (val x) <= rnd (sqrt (rnd (val x * val x))).
Proof.
  intros L. replace (val x * val x) with (Rabs (val x) * Rabs (val x)) by (rewrite <- Rabs_mult; apply Rabs_pos_eq; nra).
  pose proof (bpow_gt_0 radix2 (-500)). apply root_square_pos; [lra|exact L|]. apply generic_format_abs, format_of.
Qed.

(* ---- the norm ---- *)
Notation tiny := (/ 1267650600228229401496703205376).
Lemma rnd_near x : Rabs (rnd x - x) <= u * Rabs x + tiny.
Proof.
  destruct (error_N_FLT radix2 (-1074) 53 eq_refl (fun x => negb (Z.even x)) x) as (e & t & He & Ht & _ & E).
  change (round radix2 (FLT_exp (-1074) 53) (Znearest (fun x => negb (Z.even x))) x) with (rnd x) in E. rewrite E.
  replace (x * (1 + e) + t - x) with (x * e + t) by ring. refine (Rle_trans _ _ _ (Rabs_triang _ _) _). rewrite Rabs_mult.
  assert (A : Rabs e <= u) by (refine (Rle_trans _ _ _ He _); cbn; lra).
  assert (B : Rabs t <= tiny).
  { refine (Rle_trans _ _ _ Ht _). pose proof small_bound as S. pose proof (bpow_le radix2 (-1074) (-1022) ltac:(lia)). pose proof (bpow_gt_0 radix2 (-1074)). lra. }
  pose proof (Rabs_pos x). nra.
Qed.
Lemma square_pow x k : Rabs x <= pow2 k -> x * x <= pow2 (k + k).
Proof.
  intros H. rewrite bpow_plus. replace (x * x) with (Rabs x * Rabs x) by (rewrite <- Rabs_mult; apply Rabs_pos_eq; nra). pose proof (Rabs_pos x). nra.
Qed.
Definition bounded (k : Z) (v : dvec) : Prop :=
  (finite (dx v) /\ Rabs (val (dx v)) <= pow2 k) /\ (finite (dy v) /\ Rabs (val (dy v)) <= pow2 k) /\ (finite (dz v) /\ Rabs (val (dz v)) <= pow2 k).
Definition exact_square (v : dvec) : R := val (dx v) * val (dx v) + val (dy v) * val (dy v) + val (dz v) * val (dz v).
Definition exact_norm (v : dvec) : R := sqrt (exact_square v).
Lemma pow2_S k : pow2 (k + 1) = 2 * pow2 k.
Proof. rewrite bpow_plus. cbn. ring. Qed.
Lemma square_ok x k : finite x -> (0 <= k <= 500)%Z -> Rabs (val x) <= pow2 k ->
  finite (dmul x x) /\ val (dmul x x) = rnd (val x * val x) /\ 0 <= val (dmul x x) <= pow2 (k + k).
Proof.
  intros F K B. assert (A : Rabs (val x * val x) <= pow2 (k + k)) by (rewrite Rabs_pos_eq by nra; now apply square_pow).
  destruct (mul_ok x x (k + k) F F ltac:(lia) A) as [F1 V1]. split; [exact F1|]. split; [exact V1|]. rewrite V1. split; [apply rnd_pos; nra|].
  pose proof (rnd_size _ (k + k) ltac:(lia) A) as S. apply Rabs_le_both in S. lra.
Qed.
Lemma plus_pos x y k : finite x -> finite y -> (0 <= k <= 1010)%Z -> 0 <= val x <= pow2 k -> 0 <= val y <= pow2 k ->
  finite (dadd x y) /\ val (dadd x y) = rnd (val x + val y) /\ 0 <= val (dadd x y) <= pow2 (k + 1) /\ val x <= val (dadd x y) /\ val y <= val (dadd x y).
Proof.
  intros FX FY K BX BY. assert (A : Rabs (val x + val y) <= pow2 (k + 1)) by (rewrite pow2_S, Rabs_pos_eq by lra; lra).
  destruct (add_ok x y (k + 1) FX FY ltac:(lia) A) as [F V]. split; [exact F|]. split; [exact V|]. rewrite V. split; [split; [apply rnd_pos; lra|]|].
  - pose proof (rnd_size _ (k + 1) ltac:(lia) A) as S. apply Rabs_le_both in S. lra.
  - split; [rewrite <- (rnd_val x) at 1|rewrite <- (rnd_val y) at 1]; apply rnd_mono; lra.
Qed.
(* the sum of the squares *)
Lemma dot_square k v : (0 <= k <= 500)%Z -> bounded k v ->
  finite (dot v v) /\ 0 <= val (dot v v) /\ Rabs (val (dot v v) - exact_square v) <= 3 * u * exact_square v + u * u * 4 * exact_square v + 6 * tiny /\
  rnd (val (dx v) * val (dx v)) <= val (dot v v) /\ rnd (val (dy v) * val (dy v)) <= val (dot v v) /\ rnd (val (dz v) * val (dz v)) <= val (dot v v).
Proof.
  intros K ((FX & BX) & (FY & BY) & (FZ & BZ)). unfold dot.
  destruct (square_ok (dx v) k FX K BX) as (F1 & V1 & B1). destruct (square_ok (dy v) k FY K BY) as (F2 & V2 & B2). destruct (square_ok (dz v) k FZ K BZ) as (F3 & V3 & B3).
  destruct (plus_pos _ _ (k + k) F1 F2 ltac:(lia) B1 B2) as (F4 & V4 & B4 & L1 & L2).
  assert (B3' : 0 <= val (dmul (dz v) (dz v)) <= pow2 (k + k + 1)) by (rewrite pow2_S; pose proof (bpow_ge_0 radix2 (k + k)); lra).
  destruct (plus_pos _ _ (k + k + 1) F4 F3 ltac:(lia) B4 B3') as (F5 & V5 & B5 & L4 & L3).
  split; [exact F5|]. split; [lra|]. rewrite <- V1, <- V2, <- V3. split; [|lra].
  pose proof (rnd_near (val (dx v) * val (dx v))) as E1. pose proof (rnd_near (val (dy v) * val (dy v))) as E2. pose proof (rnd_near (val (dz v) * val (dz v))) as E3.
  rewrite <- V1 in E1. rewrite <- V2 in E2. rewrite <- V3 in E3.
  pose proof (rnd_near (val (dmul (dx v) (dx v)) + val (dmul (dy v) (dy v)))) as E4. rewrite <- V4 in E4.
  pose proof (rnd_near (val (dadd (dmul (dx v) (dx v)) (dmul (dy v) (dy v))) + val (dmul (dz v) (dz v)))) as E5. rewrite <- V5 in E5.
  rewrite (Rabs_pos_eq (_ + _)) in E4 by lra. rewrite (Rabs_pos_eq (_ + _)) in E5 by lra.
  rewrite (Rabs_pos_eq (val (dx v) * _)) in E1 by nra. rewrite (Rabs_pos_eq (val (dy v) * _)) in E2 by nra. rewrite (Rabs_pos_eq (val (dz v) * _)) in E3 by nra.
  unfold exact_square. 
  assert (P1 : 0 <= val (dx v) * val (dx v)) by nra. assert (P2 : 0 <= val (dy v) * val (dy v)) by nra. assert (P3 : 0 <= val (dz v) * val (dz v)) by nra.
  apply Rabs_le_both in E1, E2, E3, E4, E5. apply Rabs_le.
  revert P1 P2 P3 E1 E2 E3 E4 E5 B1 B2 B3 B4 B5.
  generalize (val (dx v) * val (dx v)) (val (dy v) * val (dy v)) (val (dz v) * val (dz v)) (val (dmul (dx v) (dx v))) (val (dmul (dy v) (dy v))) (val (dmul (dz v) (dz v))).
  intros X Y Z x y z. generalize (val (dadd (dmul (dx v) (dx v)) (dmul (dy v) (dy v)))). generalize (val (dadd (dadd (dmul (dx v) (dx v)) (dmul (dy v) (dy v))) (dmul (dz v) (dz v)))).
  intros d s. clear. intros. split; lra.
Qed.
Lemma norm_ok k v : (0 <= k <= 500)%Z -> bounded k v -> finite (norm v) /\ 0 <= val (norm v) /\ val (norm v) = rnd (sqrt (val (dot v v))) /\
  (forall c, c = dx v \/ c = dy v \/ c = dz v -> pow2 (-500) <= Rabs (val c) -> Rabs (val c) <= val (norm v)).
Proof.
  intros K B. destruct (dot_square k v K B) as (F & P & _ & L1 & L2 & L3). destruct (sqrt_ok (dot v v) F P) as [FN VN].
  split; [exact FN|]. split; [unfold norm; rewrite VN; apply rnd_pos, sqrt_pos|]. split; [exact VN|].
  intros c C S. unfold norm. rewrite VN. refine (Rle_trans _ _ _ (root_square c S) _). apply rnd_mono, sqrt_le_1_alt. destruct C as [->|[->| ->]]; assumption.
Qed.
Lemma norm_near k v : (0 <= k <= 500)%Z -> bounded k v -> 1 <= exact_square v ->
  Rabs (val (norm v) - exact_norm v) <= 6 * u * exact_norm v.
Proof.
  intros K B Q. destruct (dot_square k v K B) as (F & P & E & _). destruct (norm_ok k v K B) as (_ & _ & VN & _). rewrite VN. unfold exact_norm.
  set (q := exact_square v) in *. set (d := val (dot v v)) in *. clearbody q d. apply Rabs_le_both in E.
  assert (N : 1 <= sqrt q) by (rewrite <- sqrt_1; apply sqrt_le_1_alt; exact Q). assert (NN : sqrt q * sqrt q = q) by (apply sqrt_sqrt; lra).
  assert (LO : sqrt q * (1 - 4 * u) <= sqrt d).
  { rewrite <- (sqrt_square (sqrt q * (1 - 4 * u))) by (apply Rmult_le_pos; lra). apply sqrt_le_1_alt.
    replace (sqrt q * (1 - 4 * u) * (sqrt q * (1 - 4 * u))) with (q * ((1 - 4 * u) * (1 - 4 * u))) by (rewrite <- NN at 1; ring). lra. }
  assert (HI : sqrt d <= sqrt q * (1 + 4 * u)).
  { rewrite <- (sqrt_square (sqrt q * (1 + 4 * u))) by (apply Rmult_le_pos; lra). apply sqrt_le_1_alt.
    replace (sqrt q * (1 + 4 * u) * (sqrt q * (1 + 4 * u))) with (q * ((1 + 4 * u) * (1 + 4 * u))) by (rewrite <- NN at 1; ring). lra. }
  pose proof (rnd_near (sqrt d)) as R. rewrite (Rabs_pos_eq (sqrt d)) in R by apply sqrt_pos. apply Rabs_le_both in R. apply Rabs_le. lra.
Qed.
(* a vector and one close to it *)
Lemma close_norm a b c x y z d : 0 <= d -> Rabs (x - a) <= d -> Rabs (y - b) <= d -> Rabs (z - c) <= d ->
  Rabs (sqrt (x * x + y * y + z * z) - sqrt (a * a + b * b + c * c)) <= 2 * d.
Proof.
  assert (H : forall a b c x y z, 0 <= d -> Rabs (x - a) <= d -> Rabs (y - b) <= d -> Rabs (z - c) <= d -> sqrt (x * x + y * y + z * z) <= sqrt (a * a + b * b + c * c) + 2 * d).
  { clear. intros a b c x y z D A B C. apply Rabs_le_both in A, B, C. set (n := sqrt (a * a + b * b + c * c)).
    assert (N : 0 <= n) by apply sqrt_pos. assert (NN : n * n = a * a + b * b + c * c) by (apply sqrt_sqrt; nra).
    rewrite <- (sqrt_square (n + 2 * d)) by lra. apply sqrt_le_1_alt.
    set (e := x - a) in *. set (f := y - b) in *. set (g := z - c) in *. replace x with (a + e) by (unfold e; ring). replace y with (b + f) by (unfold f; ring). replace z with (c + g) by (unfold g; ring). clearbody e f g.
    assert (CS : (a * e + b * f + c * g) * (a * e + b * f + c * g) <= (n * (2 * d)) * (n * (2 * d))).
    { replace (n * (2 * d) * (n * (2 * d))) with (n * n * (4 * (d * d))) by ring. rewrite NN.
      assert (e * e <= d * d) by nra. assert (f * f <= d * d) by nra. assert (g * g <= d * d) by nra.
      apply Rle_trans with ((a * a + b * b + c * c) * (e * e + f * f + g * g)).
      - pose proof (Rle_0_sqr (a * f - b * e)). pose proof (Rle_0_sqr (a * g - c * e)). pose proof (Rle_0_sqr (b * g - c * f)). unfold Rsqr in *. nra.
      - apply Rmult_le_compat_l; nra. }
    assert (S : a * e + b * f + c * g <= n * (2 * d)).
    { destruct (Rle_dec (a * e + b * f + c * g) (n * (2 * d))) as [|NL]; [assumption|]. assert (0 <= n * (2 * d)) by nra. nra. }
    assert (e * e <= d * d) by nra. assert (f * f <= d * d) by nra. assert (g * g <= d * d) by nra. nra. }
  intros D A B C. pose proof (H a b c x y z D A B C). rewrite Rabs_minus_sym in A, B, C. pose proof (H x y z a b c D A B C). apply Rabs_le. lra.
Qed.
(* the cosine of the angle with an axis *)
Lemma cosine v a b c k d : (0 <= k <= 500)%Z -> bounded k v -> 0 <= d <= 3 / 5 ->
  Rabs (val (dx v) - a) <= d -> Rabs (val (dy v) - b) <= d -> Rabs (val (dz v) - c) <= d -> 1024 <= sqrt (a * a + b * b + c * c) ->
  finite (norm v) /\ 1 <= val (norm v) /\
  forall w t, (w = dx v /\ t = a) \/ (w = dy v /\ t = b) \/ (w = dz v /\ t = c) ->
    finite (ddiv w (norm v)) /\ -1 <= val (ddiv w (norm v)) <= 1 /\
    Rabs (val (ddiv w (norm v)) - t / sqrt (a * a + b * b + c * c)) <= 4 * d / sqrt (a * a + b * b + c * c) + 8 * u.
Proof.
  intros K B D A1 A2 A3 N. set (n := sqrt (a * a + b * b + c * c)) in *. assert (NN : n * n = a * a + b * b + c * c) by (apply sqrt_sqrt; nra).
  assert (C : Rabs (exact_norm v - n) <= 2 * d) by (apply close_norm; lra). apply Rabs_le_both in C.
  assert (Q : 1 <= exact_square v).
  { assert (Q0 : 0 <= exact_square v) by (unfold exact_square; nra). rewrite <- (sqrt_sqrt _ Q0). fold (exact_norm v). nra. }
  pose proof (norm_near k v K B Q) as E. apply Rabs_le_both in E. destruct (norm_ok k v K B) as (FN & _ & _ & GE).
  assert (LO : 1 <= val (norm v)) by lra. split; [exact FN|]. split; [exact LO|].
  intros w t W. assert (FW : finite w) by (destruct B as ((? & _) & (? & _) & (? & _)); destruct W as [[-> _]|[[-> _]|[-> _]]]; assumption).
  assert (AW : Rabs (val w - t) <= d) by (destruct W as [[-> ->]|[[-> ->]|[-> ->]]]; assumption).
  assert (TW : Rabs t <= n).
  { apply Rabs_le. assert (t * t <= n * n) by (rewrite NN; destruct W as [[_ ->]|[[_ ->]|[_ ->]]]; nra). nra. }
  assert (R1 : Rabs (val w / val (norm v)) <= 1).
  { unfold Rdiv. rewrite Rabs_mult, (Rabs_pos_eq (/ _)) by (apply Rlt_le, Rinv_0_lt_compat; lra).
    apply (Rmult_le_reg_r (val (norm v))); [lra|]. rewrite Rmult_assoc, Rinv_l, Rmult_1_r, Rmult_1_l by lra.
    destruct (Rle_dec (pow2 (-500)) (Rabs (val w))) as [S|S]; [apply GE; [destruct W as [[-> _]|[[-> _]|[-> _]]]; auto|exact S]|].
    apply Rle_trans with (pow2 (-500)); [lra|]. apply Rle_trans with (pow2 0); [apply bpow_le; lia|cbn; lra]. }
  destruct (div_ok w (norm v) 0 FW ltac:(lra) ltac:(lia) R1) as [FQ VQ]. split; [exact FQ|]. rewrite VQ. split.
  { pose proof (rnd_size _ 0 ltac:(lia) R1) as S. cbn in S. apply Rabs_le_both in S. exact S. }
  pose proof (rnd_near (val w / val (norm v))) as RN.
  assert (RR : Rabs (rnd (val w / val (norm v)) - val w / val (norm v)) <= u + tiny) by lra. clear RN.
  set (m := val (norm v)) in *. set (x := val w) in *. clearbody m x. apply Rabs_le_both in AW, TW.
  assert (DD : Rabs (x / m - t / n) <= 4 * d / n + 65 / 10 * u).
  { replace (x / m - t / n) with (((x - t) * n + t * (n - m)) * (/ m * / n)) by (field; lra).
    replace (4 * d / n + 65 / 10 * u) with ((4 * d * m + 65 / 10 * u * m * n) * (/ m * / n)) by (field; lra).
    rewrite Rabs_mult. rewrite (Rabs_pos_eq (/ m * / n)) by (apply Rlt_le, Rmult_lt_0_compat; apply Rinv_0_lt_compat; lra).
    apply Rmult_le_compat_r; [apply Rlt_le, Rmult_lt_0_compat; apply Rinv_0_lt_compat; lra|].
    set (nv := exact_norm v) in *. clearbody nv.
    assert (M1 : m - n <= 2 * d + 6 * u * (n + 2 * d)) by lra. assert (M2 : n - m <= 2 * d + 6 * u * (n + 2 * d)) by lra.
    assert (X1 : Rabs ((x - t) * n) <= d * n) by (rewrite Rabs_mult, (Rabs_pos_eq n) by lra; apply Rmult_le_compat_r; [lra|apply Rabs_le; lra]).
    assert (X2 : Rabs (t * (n - m)) <= n * (2 * d + 6 * u * (n + 2 * d))) by (rewrite Rabs_mult; apply Rmult_le_compat; [apply Rabs_pos|apply Rabs_pos|apply Rabs_le; lra|apply Rabs_le; lra]).
    refine (Rle_trans _ _ _ (Rabs_triang _ _) _). refine (Rle_trans _ _ _ (Rplus_le_compat _ _ _ _ X1 X2) _).
    assert (MN : n * (998 / 1000) <= m) by lra.
    assert (Y1 : 4 * d * (n * (998 / 1000)) <= 4 * d * m) by (apply Rmult_le_compat_l; lra).
    assert (Y2 : 65 / 10 * u * (n * (998 / 1000)) * n <= 65 / 10 * u * m * n) by (apply Rmult_le_compat_r; [lra|]; apply Rmult_le_compat_l; lra).
    assert (DN : 0 <= d * n) by (apply Rmult_le_pos; lra). assert (Z : 1024 * n <= n * n) by (apply Rmult_le_compat_r; lra).
    assert (DN2 : d * n <= 3 / 5 * n) by (apply Rmult_le_compat_r; lra).
    nra. }
  replace (rnd (x / m) - t / n) with ((rnd (x / m) - x / m) + (x / m - t / n)) by ring.
  refine (Rle_trans _ _ _ (Rabs_triang _ _) _). lra.
Qed.

(* ---- angular momentum ---- *)
Definition exact_cross (a b : dvec) : R * R * R :=
  (val (dy a) * val (dz b) - val (dz a) * val (dy b), val (dz a) * val (dx b) - val (dx a) * val (dz b), val (dx a) * val (dy b) - val (dy a) * val (dx b)).
Lemma minor p q r s : finite p -> finite q -> finite r -> finite s ->
  Rabs (val p) <= pow2 30 -> Rabs (val q) <= pow2 20 -> Rabs (val r) <= pow2 30 -> Rabs (val s) <= pow2 20 ->
  finite (dsub (dmul p q) (dmul r s)) /\ Rabs (val (dsub (dmul p q) (dmul r s))) <= pow2 51 /\
  Rabs (val (dsub (dmul p q) (dmul r s)) - (val p * val q - val r * val s)) <= 3 / 5.
Proof.
  intros FP FQ FR FS BP BQ BR BS.
  assert (B1 : Rabs (val p * val q) <= pow2 50) by (rewrite Rabs_mult; change (pow2 50) with (pow2 (30 + 20)); rewrite bpow_plus; apply Rmult_le_compat; auto using Rabs_pos).
  assert (B2 : Rabs (val r * val s) <= pow2 50) by (rewrite Rabs_mult; change (pow2 50) with (pow2 (30 + 20)); rewrite bpow_plus; apply Rmult_le_compat; auto using Rabs_pos).
  destruct (mul_ok p q 50 FP FQ ltac:(lia) B1) as [F1 V1]. destruct (mul_ok r s 50 FR FS ltac:(lia) B2) as [F2 V2].
  pose proof (rnd_size _ 50 ltac:(lia) B1) as S1. pose proof (rnd_size _ 50 ltac:(lia) B2) as S2. rewrite <- V1 in S1. rewrite <- V2 in S2.
  assert (B3 : Rabs (val (dmul p q) - val (dmul r s)) <= pow2 51) by (cbn in *; apply Rabs_le_both in S1, S2; apply Rabs_le; lra).
  destruct (sub_ok _ _ 51 F1 F2 ltac:(lia) B3) as [F3 V3]. split; [exact F3|]. split; [rewrite V3; apply rnd_size; [lia|exact B3]|].
  pose proof (rnd_near (val p * val q)) as E1. pose proof (rnd_near (val r * val s)) as E2. pose proof (rnd_near (val (dmul p q) - val (dmul r s))) as E3.
  rewrite <- V1 in E1. rewrite <- V2 in E2. rewrite <- V3 in E3. cbn in B1, B2, B3.
  apply Rabs_le_both in E1, E2, E3. apply Rabs_le. lra.
Qed.
Lemma cross_near a b : bounded 30 a -> bounded 20 b -> bounded 51 (cross a b) /\
  let '(hx, hy, hz) := exact_cross a b in
  Rabs (val (dx (cross a b)) - hx) <= 3 / 5 /\ Rabs (val (dy (cross a b)) - hy) <= 3 / 5 /\ Rabs (val (dz (cross a b)) - hz) <= 3 / 5.
Proof.
  intros ((F1 & B1) & (F2 & B2) & (F3 & B3)) ((G1 & C1) & (G2 & C2) & (G3 & C3)). unfold exact_cross, cross, bounded. cbn [dx dy dz].
  destruct (minor (dy a) (dz b) (dz a) (dy b)) as (X1 & X2 & X3); try assumption.
  destruct (minor (dz a) (dx b) (dx a) (dz b)) as (Y1 & Y2 & Y3); try assumption.
  destruct (minor (dx a) (dy b) (dy a) (dx b)) as (Z1 & Z2 & Z3); try assumption. tauto.
Qed.

(* ---- <cmath> ---- *)
Definition nan x := is_nan 53 1024 x = true.
Record libm_ok (L : libm) : Prop := {
  acos_in : forall x, finite x -> -1 <= val x <= 1 -> finite (acos L x) /\ 0 <= val (acos L x) <= val DPI;
  acos_out : forall x, finite x -> 1 < Rabs (val x) -> nan (acos L x);
  acos_nan : forall x, nan x -> nan (acos L x);
  asin_in : forall x, finite x -> -1 <= val x <= 1 -> finite (asin L x) /\ - val DPI / 2 <= val (asin L x) <= val DPI / 2;
  sin_nan : forall x, nan x -> nan (sin L x) }.
Lemma DPI_val : finite DPI /\ val DPI = 7074237752028440 / 2251799813685248.
Proof.
  unfold DPI. destruct (of_int_ok 7074237752028440) as [F1 V1]; [discriminate|]. destruct (of_int_ok 2251799813685248) as [F2 V2]; [discriminate|].
  destruct (div_ok (of_int 7074237752028440) (of_int 2251799813685248) 2) as [F V]; [exact F1|rewrite V2; lra|lia|rewrite V1, V2, Rabs_pos_eq by lra; cbn; lra|].
  split; [exact F|]. rewrite V, V1, V2. apply round_generic; [apply valid_rnd_N|]. apply generic_format_FLT.
  exists (Float radix2 7074237752028440 (-51)); [unfold F2R; cbn; lra|cbn; lia|cbn; lia].
Qed.
Lemma two_ok : finite two /\ val two = 2.
Proof. apply of_int_ok. discriminate. Qed.
Lemma one_ok : finite one /\ val one = 1.
Proof. apply of_int_ok. discriminate. Qed.
Lemma zero_ok : finite zero /\ val zero = 0.
Proof. split; reflexivity. Qed.
Lemma D2PI_val : finite D2PI /\ val D2PI = 2 * val DPI.
Proof.
  unfold D2PI. destruct two_ok as [F1 V1]. destruct DPI_val as [F2 V2].
  destruct (mul_ok two DPI 3 F1 F2 ltac:(lia)) as [F V]; [rewrite V1, V2, Rabs_pos_eq by lra; cbn; lra|].
  split; [exact F|]. rewrite V, V1, V2. apply round_generic; [apply valid_rnd_N|]. apply generic_format_FLT.
  exists (Float radix2 7074237752028440 (-50)); [unfold F2R; cbn; lra|cbn; lia|cbn; lia].
Qed.
Lemma mirrored x : finite x -> 0 <= val x <= val DPI -> finite (dsub D2PI x) /\ 0 <= val (dsub D2PI x) <= val D2PI /\ Rabs (val (dsub D2PI x) - (val D2PI - val x)) <= 8 * u.
Proof.
  intros F B. destruct D2PI_val as [F2 V2]. destruct DPI_val as [_ V1].
  destruct (sub_ok D2PI x 3 F2 F ltac:(lia)) as [FS VS]; [rewrite V2, Rabs_pos_eq by lra; change (pow2 3) with 8; lra|]. split; [exact FS|]. rewrite VS. split; [split; [apply rnd_pos; lra|]|].
  - rewrite <- (rnd_val D2PI). rewrite (rnd_val D2PI). rewrite <- (rnd_val D2PI) at 2. apply rnd_mono. lra.
  - pose proof (rnd_near (val D2PI - val x)) as E. rewrite (Rabs_pos_eq (val D2PI - _)) in E by lra. lra.
Qed.
Definition length3 (h : R * R * R) : R := let '(x, y, z) := h in sqrt (x * x + y * y + z * z).

Lemma inclination L pos vel m : libm_ok L -> bounded 30 pos -> bounded 20 vel -> 1024 <= length3 (exact_cross pos vel) ->
  finite (k_h (state2kepler L pos vel m)) /\ Rabs (val (k_h (state2kepler L pos vel m)) - length3 (exact_cross pos vel)) <= 2 + 6 * u * length3 (exact_cross pos vel) /\
  finite (k_i (state2kepler L pos vel m)) /\ 0 <= val (k_i (state2kepler L pos vel m)) <= val DPI /\
  exists c, k_i (state2kepler L pos vel m) = acos L c /\ finite c /\ -1 <= val c <= 1 /\
    Rabs (val c - snd (exact_cross pos vel) / length3 (exact_cross pos vel)) <= 3 / length3 (exact_cross pos vel) + 8 * u.
Proof.
  intros LO BP BV. destruct (cross_near pos vel BP BV) as [BC NC]. unfold state2kepler. cbn [k_h k_i].
  destruct (exact_cross pos vel) as [[hx hy] hz]. cbn [length3 snd]. destruct NC as (N1 & N2 & N3). intros H.
  destruct (cosine (cross pos vel) hx hy hz 51 (3 / 5) ltac:(lia) BC ltac:(lra) N1 N2 N3 H) as (FN & LN & C).
  destruct (C (dz (cross pos vel)) hz) as (FC & BC' & NC); [now right; right|]. set (n := sqrt _) in *.
  split; [exact FN|]. split.
  { assert (CN : Rabs (exact_norm (cross pos vel) - n) <= 2 * (3 / 5)) by (apply close_norm; lra). apply Rabs_le_both in CN.
    assert (Q : 1 <= exact_square (cross pos vel)).
    { assert (Q0 : 0 <= exact_square (cross pos vel)) by (unfold exact_square; nra). rewrite <- (sqrt_sqrt _ Q0). fold (exact_norm (cross pos vel)). nra. }
    pose proof (norm_near 51 _ ltac:(lia) BC Q) as E. apply Rabs_le_both in E. apply Rabs_le. lra. }
  destruct (acos_in L LO _ FC BC') as [FA BA]. split; [exact FA|]. split; [exact BA|]. eexists. split; [reflexivity|]. split; [exact FC|]. split; [exact BC'|].
  refine (Rle_trans _ _ _ NC _). assert (0 < / n) by (apply Rinv_0_lt_compat; lra). unfold Rdiv. nra.
Qed.
Lemma node L pos vel m : libm_ok L -> bounded 30 pos -> bounded 20 vel ->
  let '(hx, hy, hz) := exact_cross pos vel in 1024 <= sqrt (hy * hy + hx * hx) ->
  finite (k_Omega (state2kepler L pos vel m)) /\ 0 <= val (k_Omega (state2kepler L pos vel m)) <= val D2PI /\
  exists c, finite c /\ -1 <= val c <= 1 /\ Rabs (val c - (- hy) / sqrt (hy * hy + hx * hx)) <= 3 / sqrt (hy * hy + hx * hx) + 8 * u /\
    (1 <= hx -> k_Omega (state2kepler L pos vel m) = acos L c) /\
    (hx <= -1 -> Rabs (val (k_Omega (state2kepler L pos vel m)) - (2 * val DPI - val (acos L c))) <= 8 * u).
Proof.
  intros LO BP BV. destruct (cross_near pos vel BP BV) as [BC NC]. unfold state2kepler. cbn [k_Omega dx dy].
  destruct (exact_cross pos vel) as [[hx hy] hz]. destruct NC as (N1 & N2 & _). set (hv := cross pos vel) in *. clearbody hv.
  destruct BC as ((FX & BX) & (FY & BY) & _). destruct (opp_ok (dy hv) FY) as [FO VO].
  set (Nv := D (dopp (dy hv)) (dx hv) zero).
  assert (BN : bounded 51 Nv).
  { unfold Nv, bounded. cbn [dx dy dz]. rewrite VO, Rabs_Ropp. destruct zero_ok as [FZ ->]. rewrite Rabs_R0. pose proof (bpow_ge_0 radix2 51). tauto. }
  intros H. assert (E : sqrt (- hy * - hy + hx * hx + 0 * 0) = sqrt (hy * hy + hx * hx)) by (f_equal; ring).
  destruct (cosine Nv (- hy) hx 0 51 (3 / 5) ltac:(lia) BN ltac:(lra)) as (FN & LN & C).
  { unfold Nv. cbn [dx]. rewrite VO. replace (- val (dy hv) - - hy) with (- (val (dy hv) - hy)) by ring. now rewrite Rabs_Ropp. }
  { exact N1. } { unfold Nv. cbn [dz]. rewrite (proj2 zero_ok), Rminus_0_r, Rabs_R0. lra. } { now rewrite E. }
  rewrite E in C. destruct (C (dx Nv) (- hy)) as (FC & BC' & NC); [now left|]. change (dx Nv) with (dopp (dy hv)) in *. set (n := sqrt _) in *.
  destruct (acos_in L LO _ FC BC') as [FA BA]. destruct (mirrored _ FA BA) as (FM & BM & NM). destruct D2PI_val as [_ V2]. destruct zero_ok as [FZ VZ].
  assert (NC' : Rabs (val (ddiv (dopp (dy hv)) (norm Nv)) - - hy / n) <= 3 / n + 8 * u).
  { refine (Rle_trans _ _ _ NC _). assert (0 < / n) by (apply Rinv_0_lt_compat; lra). unfold Rdiv. nra. }
  apply Rabs_le_both in N1. pose proof (dlt_ok (dx hv) zero FX FZ) as SG. rewrite VZ in SG. destruct DPI_val as [_ VD].
  destruct (dlt (dx hv) zero).
  - assert (val (dx hv) < 0) by now apply SG. split; [exact FM|]. split; [exact BM|]. eexists. split; [exact FC|]. split; [exact BC'|]. split; [exact NC'|].
    split; [intros; exfalso; lra|]. intros _. rewrite <- V2. exact NM.
  - assert (~ val (dx hv) < 0) by (intros G; apply SG in G; discriminate). split; [exact FA|]. split; [lra|]. eexists. split; [exact FC|]. split; [exact BC'|]. split; [exact NC'|].
    split; [reflexivity|]. intros; exfalso; lra.
Qed.
(* pos2ad *)
Lemma declination L pos : libm_ok L -> bounded 100 pos -> 1024 <= exact_norm pos ->
  pos2ad_assertion pos = true /\ finite (pos2ad_declination L pos) /\ - val DPI / 2 <= val (pos2ad_declination L pos) <= val DPI / 2 /\
  exists c, pos2ad_declination L pos = asin L c /\ Rabs (val c - val (dz pos) / exact_norm pos) <= 8 * u.
Proof.
  intros LO B N. assert (Z0 : forall x, Rabs (x - x) <= 0) by (intros x; rewrite Rminus_eq_0, Rabs_R0; lra).
  destruct (cosine pos (val (dx pos)) (val (dy pos)) (val (dz pos)) 100 0 ltac:(lia) B ltac:(lra) (Z0 _) (Z0 _) (Z0 _) N) as (FN & LN & C).
  destruct (C (dz pos) (val (dz pos))) as (FC & BC & NC); [now right; right|].
  unfold pos2ad_assertion, pos2ad_declination, pos2ad_sine. destruct one_ok as [F1 V1]. destruct (opp_ok one F1) as [F2 V2]. split.
  { apply andb_true_intro. split; apply dle_ok; try assumption; lra. }
  destruct (asin_in L LO _ FC BC) as [FA BA]. split; [exact FA|]. split; [exact BA|]. eexists. split; [reflexivity|].
  fold (exact_square pos) in NC. fold (exact_norm pos) in NC. refine (Rle_trans _ _ _ NC _). unfold Rdiv. rewrite Rmult_0_r, Rmult_0_l. lra.
Qed.

(* ---- NaN ---- *)
Lemma nan_add_l x y : nan x -> nan (dadd x y).
Proof. unfold nan. now destruct x, y. Qed.
Lemma nan_add_r x y : nan y -> nan (dadd x y).
Proof. unfold nan. now destruct x, y. Qed.
Lemma nan_sub_l x y : nan x -> nan (dsub x y).
Proof. unfold nan. now destruct x, y. Qed.
Lemma nan_sub_r x y : nan y -> nan (dsub x y).
Proof. unfold nan. now destruct x, y. Qed.
Lemma nan_mul_l x y : nan x -> nan (dmul x y).
Proof. unfold nan. now destruct x, y. Qed.
Lemma nan_mul_r x y : nan y -> nan (dmul x y).
Proof. unfold nan. now destruct x, y. Qed.
Lemma nan_div_l x y : nan x -> nan (ddiv x y).
Proof. unfold nan. now destruct x, y. Qed.
Lemma nan_dle_l x y : nan x -> dle x y = false.
Proof. unfold nan. now destruct x, y. Qed.
Lemma nan_dle_r x y : nan y -> dle x y = false.
Proof. unfold nan. now destruct x, y as [| | |[]]. Qed.
Lemma nan_dlt_l x y : nan x -> dlt x y = false.
Proof. unfold nan. now destruct x, y. Qed.
Lemma above_one c : is_finite 53 1024 c = true -> dlt one c = true -> 1 < Rabs (val c).
Proof. intros F H. apply (dlt_ok one c (proj1 one_ok) F) in H. rewrite (proj2 one_ok) in H. rewrite Rabs_pos_eq; lra. Qed.
Lemma below_one c : is_finite 53 1024 c = true -> dlt c (dopp one) = true -> 1 < Rabs (val c).
Proof.
  intros F H. destruct (opp_ok one (proj1 one_ok)) as [FO VO]. apply (dlt_ok c (dopp one) F FO) in H. rewrite VO, (proj2 one_ok) in H. rewrite Rabs_left; lra.
Qed.
Definition ints (x y z : Z) : dvec := D (of_int x) (of_int y) (of_int z).
Lemma ints_ok x y z k : (Z.abs x <= 2 ^ 53)%Z -> (Z.abs y <= 2 ^ 53)%Z -> (Z.abs z <= 2 ^ 53)%Z -> IZR (Z.abs x) <= pow2 k -> IZR (Z.abs y) <= pow2 k -> IZR (Z.abs z) <= pow2 k ->
  bounded k (ints x y z) /\ val (dx (ints x y z)) = IZR x /\ val (dy (ints x y z)) = IZR y /\ val (dz (ints x y z)) = IZR z.
Proof.
  intros X Y Z A B C. unfold ints, bounded. cbn [dx dy dz]. destruct (of_int_ok x X) as [F1 ->]. destruct (of_int_ok y Y) as [F2 ->]. destruct (of_int_ok z Z) as [F3 ->].
  rewrite <- !abs_IZR. tauto.
Qed.

(* the true anomaly at apogee *)
Definition ap_pos := ints 3840000 4380000 3638000.
Definition ap_vel := ints 5694 (-4992) 0.
Definition ap_GM : double := of_int 398600441800000.
Definition ap_cosine : double :=
  let e := k_e (state2kepler (Libm (fun x => x) (fun x => x) (fun x => x) (fun x => x)) ap_pos ap_vel ap_GM) in
  let ev := over (vminus (scale (dsub (dmul (norm ap_vel) (norm ap_vel)) (ddiv ap_GM (norm ap_pos))) ap_pos) (scale (dmul (norm ap_pos) (ddiv (dot ap_pos ap_vel) (norm ap_pos))) ap_vel)) ap_GM in
  ddiv (ddiv (dot ev ap_pos) e) (norm ap_pos).
Lemma anomaly_nan L : libm_ok L -> nan (k_theta (state2kepler L ap_pos ap_vel ap_GM)).
Proof.
  intros LO. assert (N : nan (acos L ap_cosine)) by (apply (acos_out L LO); [vm_compute; reflexivity|apply below_one; vm_compute; reflexivity]).
  assert (E : k_theta (state2kepler L ap_pos ap_vel ap_GM) = if dlt (ddiv (dot ap_pos ap_vel) (norm ap_pos)) zero then dsub D2PI (acos L ap_cosine) else acos L ap_cosine) by reflexivity.
  rewrite E. destruct (dlt _ zero); [now apply nan_sub_r|exact N].
Qed.

(* the eccentricity of a circular orbit *)
Definition circ_pos := ints 7373000 0 0.
Definition circ_vel := ints 0 7352 0.
Definition circ_GM : double := of_int 398524688192000.
Lemma eccentricity_nan : nan (montenbruck_eccentricity circ_pos circ_vel circ_GM).
Proof. vm_compute. reflexivity. Qed.

(* on the axis of the shadow *)
Definition va_sat := ints (-3685000) (-4467000) (-4351000).
Definition va_sun := ints 77385000000 93807000000 91371000000.
Lemma vallado_lit L tanApen x tanAumb y : libm_ok L -> vallado_shadow L tanApen x tanAumb y va_sat va_sun = one.
Proof.
  intros LO. unfold vallado_shadow. cbv zeta. destruct (dle zero (dot va_sat va_sun)); [reflexivity|].
  assert (N : nan (acos L (ddiv (dot va_sat va_sun) (dmul (norm va_sat) (norm va_sun))))) by (apply (acos_out L LO); [vm_compute; reflexivity|apply below_one; vm_compute; reflexivity]).
  now rewrite (nan_dle_l (dmul (norm va_sat) _)) by (apply nan_mul_r, (sin_nan L LO), N).
Qed.
Definition grs80_fac : double := dadd one (ddiv one (of_decimal (298257222101 # 1000000000))).
Definition be_sat := ints 3840000 4380000 3638000.
Definition be_sun := ints (-80640000000) (-91980000000) (-76398000000).
Lemma bernese_lit Re : bernese_shadow1 Re grs80_fac be_sat be_sun = one.
Proof.
  unfold bernese_shadow1. cbv zeta. rewrite (nan_dlt_l (dsub _ Re)); [now rewrite andb_false_r|]. apply nan_sub_l. vm_compute. reflexivity.
Qed.
Definition co_sat := ints 3720000 (-4232000) (-3732000).
Definition co_sun := ints (-78120000000) 88872000000 78372000000.
Lemma conical_nan L Re Rs : libm_ok L -> nan (conical_shadow L Re Rs co_sat co_sun).
Proof.
  intros LO. unfold conical_shadow. cbv zeta.
  assert (N : nan (acos L (ddiv (dopp (dot co_sat (vminus co_sun co_sat))) (dmul (norm (vminus co_sun co_sat)) (norm co_sat))))) by (apply (acos_out L LO); [vm_compute; reflexivity|apply above_one; vm_compute; reflexivity]).
  set (tes := acos L _) in *. clearbody tes. rewrite (nan_dle_r _ tes N), (nan_dle_l tes _ N).
  apply nan_sub_r, nan_div_l, nan_add_l, nan_mul_r, nan_sub_l, nan_mul_l, nan_mul_r, (acos_nan L LO), nan_div_l, nan_sub_l, nan_add_r, nan_mul_l, N.
Qed.

(* ---- the cylinder ---- *)
Definition exact_dot (a b : dvec) : R := val (dx a) * val (dx b) + val (dy a) * val (dy b) + val (dz a) * val (dz b).
Notation e27 := (/ 134217728).  (* 2^-27 *)
(* a product with a component of the unit vector *)
Lemma product_near x w U k : finite x -> finite w -> (0 <= k <= 40)%Z -> Rabs (val x) <= pow2 k -> -1 <= val w <= 1 -> Rabs (val w - U) <= 8 * u ->
  finite (dmul x w) /\ Rabs (val (dmul x w)) <= pow2 k /\ Rabs (val (dmul x w) - val x * U) <= 9 * u * pow2 k + tiny.
Proof.
  intros FX FW K BX BW N. assert (B : Rabs (val x * val w) <= pow2 k).
  { rewrite Rabs_mult. apply Rle_trans with (pow2 k * 1); [|lra]. apply Rmult_le_compat; auto using Rabs_pos. apply Rabs_le. lra. }
  destruct (mul_ok x w k FX FW ltac:(lia) B) as [F V]. split; [exact F|]. rewrite V. split; [apply rnd_size; [lia|exact B]|].
  pose proof (rnd_near (val x * val w)) as E. replace (rnd (val x * val w) - val x * U) with ((rnd (val x * val w) - val x * val w) + val x * (val w - U)) by ring.
  refine (Rle_trans _ _ _ (Rabs_triang _ _) _). rewrite (Rabs_mult (val x) (val w - U)).
  assert (Rabs (val x) * Rabs (val w - U) <= pow2 k * (8 * u)) by (apply Rmult_le_compat; auto using Rabs_pos). lra.
Qed.
Lemma sum_sq a b c : 0 <= a * a + b * b + c * c.
Proof. nra. Qed.
Lemma cylinder Re sat sun : finite Re -> 1000000 <= val Re <= 10000000 -> bounded 26 sat -> bounded 38 sun -> pow2 37 <= exact_norm sun ->
  (exact_dot sat sun <= - (1 / 10000) * exact_norm sun -> length3 (exact_cross sat sun) <= (val Re - 1 / 10000) * exact_norm sun -> montenbruck_shadow Re sat sun = zero) /\
  (exact_dot sat sun >= 1 / 10000 * exact_norm sun \/ length3 (exact_cross sat sun) >= (val Re + 1 / 10000) * exact_norm sun -> montenbruck_shadow Re sat sun = one).
Proof.
  intros FR BR BA BS N. assert (Z0 : forall x, Rabs (x - x) <= 0) by (intros x; rewrite Rminus_eq_0, Rabs_R0; lra).
  assert (N37 : 137438953472 <= exact_norm sun) by exact N.
  destruct (cosine sun (val (dx sun)) (val (dy sun)) (val (dz sun)) 38 0 ltac:(lia) BS ltac:(lra) (Z0 _) (Z0 _) (Z0 _)) as (FN & LN & C); [unfold exact_norm, exact_square in N37; lra|].
  change (sqrt (val (dx sun) * val (dx sun) + val (dy sun) * val (dy sun) + val (dz sun) * val (dz sun))) with (exact_norm sun) in C.
  assert (C' : forall w t, (w = dx sun /\ t = val (dx sun)) \/ (w = dy sun /\ t = val (dy sun)) \/ (w = dz sun /\ t = val (dz sun)) ->
    finite (ddiv w (norm sun)) /\ -1 <= val (ddiv w (norm sun)) <= 1 /\ Rabs (val (ddiv w (norm sun)) - t / exact_norm sun) <= 8 * u).
  { intros w t W. destruct (C w t W) as (X1 & X2 & X3). split; [exact X1|]. split; [exact X2|]. refine (Rle_trans _ _ _ X3 _). unfold Rdiv. rewrite Rmult_0_r, Rmult_0_l. lra. }
  clear C. destruct (C' (dx sun) (val (dx sun)) ltac:(now left)) as (F1 & B1 & N1). destruct (C' (dy sun) (val (dy sun)) ltac:(now right; left)) as (F2 & B2 & N2). destruct (C' (dz sun) (val (dz sun)) ltac:(now right; right)) as (F3 & B3 & N3). clear C'.
  unfold montenbruck_shadow. cbv zeta. unfold over. set (ux := ddiv (dx sun) (norm sun)) in *. set (uy := ddiv (dy sun) (norm sun)) in *. set (uz := ddiv (dz sun) (norm sun)) in *. clearbody ux uy uz.
  set (n := exact_norm sun) in *. assert (NP : 0 < n) by lra.
  assert (NN : n * n = val (dx sun) * val (dx sun) + val (dy sun) * val (dy sun) + val (dz sun) * val (dz sun)) by (apply sqrt_sqrt; unfold exact_square; nra).
  set (U := val (dx sun) / n) in *. set (V := val (dy sun) / n) in *. set (W := val (dz sun) / n) in *.
  assert (EU : val (dx sun) = n * U) by (unfold U; field; lra). assert (EV : val (dy sun) = n * V) by (unfold V; field; lra). assert (EW : val (dz sun) = n * W) by (unfold W; field; lra).
  unfold exact_dot, exact_cross, length3. rewrite EU, EV, EW in *. clearbody U V W.
  assert (UU : U * U + V * V + W * W = 1) by (apply (Rmult_eq_reg_l (n * n)); [rewrite Rmult_1_r; rewrite NN at 2; ring|clear - NP; nra]).
  clear NN EU EV EW BS. clearbody n. destruct BA as ((FX & BX) & (FY & BY) & (FZ & BZ)).
  destruct (product_near (dx sat) ux U 26 FX F1 ltac:(lia) BX B1 N1) as (G1 & H1 & I1). destruct (product_near (dy sat) uy V 26 FY F2 ltac:(lia) BY B2 N2) as (G2 & H2 & I2). destruct (product_near (dz sat) uz W 26 FZ F3 ltac:(lia) BZ B3 N3) as (G3 & H3 & I3).
  set (x := val (dx sat)) in *. set (y := val (dy sat)) in *. set (z := val (dz sat)) in *.
  change (pow2 26) with 67108864 in *.
  change (dot sat (D ux uy uz)) with (dadd (dadd (dmul (dx sat) ux) (dmul (dy sat) uy)) (dmul (dz sat) uz)).
  destruct (add_ok (dmul (dx sat) ux) (dmul (dy sat) uy) 27 G1 G2 ltac:(lia)) as [G4 V4].
  { change (pow2 27) with 134217728. apply Rabs_le_both in H1, H2. apply Rabs_le. lra. }
  assert (S4 : Rabs (val (dadd (dmul (dx sat) ux) (dmul (dy sat) uy))) <= 134217728).
  { rewrite V4. apply (rnd_size _ 27); [lia|]. change (pow2 27) with 134217728. apply Rabs_le_both in H1, H2. apply Rabs_le. lra. }
  pose proof (rnd_near (val (dmul (dx sat) ux) + val (dmul (dy sat) uy))) as E4. rewrite <- V4 in E4.
  assert (R4 : Rabs (val (dmul (dx sat) ux) + val (dmul (dy sat) uy)) <= 134217728) by (apply Rabs_le_both in H1, H2; apply Rabs_le; lra).
  destruct (add_ok (dadd (dmul (dx sat) ux) (dmul (dy sat) uy)) (dmul (dz sat) uz) 28 G4 G3 ltac:(lia)) as [G5 V5].
  { change (pow2 28) with 268435456. apply Rabs_le_both in S4, H3. apply Rabs_le. lra. }
  assert (R5 : Rabs (val (dadd (dmul (dx sat) ux) (dmul (dy sat) uy)) + val (dmul (dz sat) uz)) <= 268435456) by (apply Rabs_le_both in S4, H3; apply Rabs_le; lra).
  assert (S5 : Rabs (val (dadd (dadd (dmul (dx sat) ux) (dmul (dy sat) uy)) (dmul (dz sat) uz))) <= 268435456) by (rewrite V5; apply (rnd_size _ 28); [lia|exact R5]).
  pose proof (rnd_near (val (dadd (dmul (dx sat) ux) (dmul (dy sat) uy)) + val (dmul (dz sat) uz))) as E5. rewrite <- V5 in E5.
  set (s := dadd (dadd (dmul (dx sat) ux) (dmul (dy sat) uy)) (dmul (dz sat) uz)) in *. set (sR := x * U + y * V + z * W).
  assert (ES : Rabs (val s - sR) <= 34 * e27).
  { unfold sR. apply Rabs_le_both in I1, I2, I3, E4, E5. apply Rabs_le. lra. }
  clear E4 E5 V4 V5 R4 R5 S4 G4 I1 I2 I3 H1 H2 H3 G1 G2 G3. clearbody s.
  (* the rejection *)
  assert (comp : forall a w T, finite a -> finite w -> Rabs (val a) <= 67108864 -> -1 <= val w <= 1 -> Rabs (val w - T) <= 8 * u -> Rabs T <= 1 ->
    finite (dsub a (dmul w s)) /\ Rabs (val (dsub a (dmul w s))) <= 1073741824 /\ Rabs (val (dsub a (dmul w s)) - (val a - sR * T)) <= 80 * e27).
  { intros a w T FA FW BA BW NW BT. assert (BM : Rabs (val w * val s) <= pow2 28).
    { rewrite Rabs_mult. change (pow2 28) with 268435456. apply Rle_trans with (1 * 268435456); [|lra]. apply Rmult_le_compat; auto using Rabs_pos. apply Rabs_le. lra. }
    destruct (mul_ok w s 28 FW G5 ltac:(lia) BM) as [FM VM]. pose proof (rnd_size _ 28 ltac:(lia) BM) as SM. rewrite <- VM in SM. pose proof (rnd_near (val w * val s)) as EM. rewrite <- VM in EM. change (pow2 28) with 268435456 in *.
    assert (BD : Rabs (val a - val (dmul w s)) <= pow2 30) by (change (pow2 30) with 1073741824; apply Rabs_le_both in SM, BA; apply Rabs_le; lra).
    destruct (sub_ok a (dmul w s) 30 FA FM ltac:(lia) BD) as [FD VD]. split; [exact FD|]. split; [rewrite VD; apply (rnd_size _ 30); [lia|exact BD]|].
    pose proof (rnd_near (val a - val (dmul w s))) as ED. rewrite <- VD in ED.
    assert (BD' : Rabs (val a - val (dmul w s)) <= 67108864 + 268435456) by (apply Rabs_le_both in SM, BA; apply Rabs_le; lra).
    assert (P : Rabs (val w * val s - sR * T) <= 66 * e27).
    { replace (val w * val s - sR * T) with ((val w - T) * val s + T * (val s - sR)) by ring. refine (Rle_trans _ _ _ (Rabs_triang _ _) _). rewrite !Rabs_mult.
      assert (Rabs (val w - T) * Rabs (val s) <= 8 * u * 268435456) by (apply Rmult_le_compat; auto using Rabs_pos).
      assert (Rabs T * Rabs (val s - sR) <= 1 * (34 * e27)) by (apply Rmult_le_compat; auto using Rabs_pos). lra. }
    apply Rabs_le_both in ED, EM, P. apply Rabs_le. lra. }
  assert (TU : Rabs U <= 1) by (apply Rabs_le; clear - UU; nra). assert (TV : Rabs V <= 1) by (apply Rabs_le; clear - UU; nra). assert (TW : Rabs W <= 1) by (apply Rabs_le; clear - UU; nra).
  destruct (comp (dx sat) ux U FX F1 BX B1 N1 TU) as (D1 & D2 & D3). destruct (comp (dy sat) uy V FY F2 BY B2 N2 TV) as (D4 & D5 & D6). destruct (comp (dz sat) uz W FZ F3 BZ B3 N3 TW) as (D7 & D8 & D9). clear comp.
  fold x in D3. fold y in D6. fold z in D9.
  change (vminus sat (scale s (D ux uy uz))) with (D (dsub (dx sat) (dmul ux s)) (dsub (dy sat) (dmul uy s)) (dsub (dz sat) (dmul uz s))).
  set (q := D (dsub (dx sat) (dmul ux s)) (dsub (dy sat) (dmul uy s)) (dsub (dz sat) (dmul uz s))).
  assert (BQ : bounded 30 q) by (unfold bounded, q; cbn [dx dy dz]; change (pow2 30) with 1073741824; tauto).
  set (d := sqrt ((x - sR * U) * (x - sR * U) + (y - sR * V) * (y - sR * V) + (z - sR * W) * (z - sR * W))).
  assert (CN : Rabs (exact_norm q - d) <= 2 * (80 * e27)) by (apply close_norm; [lra|exact D3|exact D6|exact D9]).
  (* the distance from the axis, by the cross product *)
  assert (CR : sqrt ((y * (n * W) - z * (n * V)) * (y * (n * W) - z * (n * V)) + (z * (n * U) - x * (n * W)) * (z * (n * U) - x * (n * W)) + (x * (n * V) - y * (n * U)) * (x * (n * V) - y * (n * U))) = d * n).
  { unfold d. match goal with |- _ = sqrt ?q * n => replace (sqrt q * n) with (sqrt (q * (n * n))) by (rewrite sqrt_mult by (apply sum_sq || apply Rle_0_sqr); rewrite (sqrt_square n) by lra; reflexivity) end. f_equal. unfold sR.
    assert (K1 : (x - (x * U + y * V + z * W) * U) * (x - (x * U + y * V + z * W) * U) + (y - (x * U + y * V + z * W) * V) * (y - (x * U + y * V + z * W) * V) + (z - (x * U + y * V + z * W) * W) * (z - (x * U + y * V + z * W) * W)
      = (x * x + y * y + z * z) - 2 * ((x * U + y * V + z * W) * (x * U + y * V + z * W)) + (x * U + y * V + z * W) * (x * U + y * V + z * W) * (U * U + V * V + W * W)) by ring.
    rewrite K1, UU.
    replace ((y * (n * W) - z * (n * V)) * (y * (n * W) - z * (n * V)) + (z * (n * U) - x * (n * W)) * (z * (n * U) - x * (n * W)) + (x * (n * V) - y * (n * U)) * (x * (n * V) - y * (n * U)))
      with (((x * x + y * y + z * z) * (U * U + V * V + W * W) - (x * U + y * V + z * W) * (x * U + y * V + z * W)) * (n * n)) by ring. rewrite UU. ring. }
  rewrite CR. replace (x * (n * U) + y * (n * V) + z * (n * W)) with (sR * n) by (unfold sR; ring).
  (* the computed distance *)
  destruct (norm_ok 30 q ltac:(lia) BQ) as (FQ & PQ & VQ & _).
  assert (DQ : exact_norm q <= 4294967296).
  { unfold exact_norm. rewrite <- (sqrt_square 4294967296) by lra. apply sqrt_le_1_alt. destruct BQ as ((_ & Q1) & (_ & Q2) & (_ & Q3)). change (pow2 30) with 1073741824 in *. apply Rabs_le_both in Q1, Q2, Q3. unfold exact_square.
    assert (SQ : forall t, - 1073741824 <= t <= 1073741824 -> t * t <= 1073741824 * 1073741824) by (clear; intros; nra).
    pose proof (SQ _ Q1). pose proof (SQ _ Q2). pose proof (SQ _ Q3). lra. }
  assert (NQ : val (norm q) <= exact_norm q + 3 / 100000 \/ val (norm q) <= 3).
  { destruct (Rle_dec 1 (exact_square q)) as [G|G].
    - left. pose proof (norm_near 30 q ltac:(lia) BQ G) as E. apply Rabs_le_both in E. lra.
    - right. rewrite VQ. destruct (dot_square 30 q ltac:(lia) BQ) as (_ & P & E & _). apply Rabs_le_both in E. rewrite <- (rnd_int 3) by discriminate. apply rnd_mono. rewrite <- (sqrt_square 3) by lra. apply sqrt_le_1_alt. assert (0 <= exact_square q) by apply sum_sq. lra. }
  assert (NQ2 : 1000 <= exact_norm q -> exact_norm q - 3 / 100000 <= val (norm q)).
  { intros G. assert (Q : 1 <= exact_square q) by (assert (Q0 : 0 <= exact_square q) by apply sum_sq; rewrite <- (sqrt_sqrt _ Q0); fold (exact_norm q); clear - G; nra).
    pose proof (norm_near 30 q ltac:(lia) BQ Q) as E. apply Rabs_le_both in E. lra. }
  apply Rabs_le_both in CN, ES. destruct zero_ok as [F0 V0].
  pose proof (dlt_ok zero s F0 G5) as L1. pose proof (dlt_ok Re (norm q) FR FQ) as L2. rewrite V0 in L1. split.
  - intros A B. assert (A' : sR <= - (1 / 10000)) by (clear - A NP; nra). assert (B' : d <= val Re - 1 / 10000) by (clear - B NP; nra).
    destruct (dlt zero s); [exfalso; pose proof (proj1 L1 eq_refl); lra|]. destruct (dlt Re (norm q)); [exfalso; pose proof (proj1 L2 eq_refl); lra|]. reflexivity.
  - intros [A|B].
    + assert (A' : 1 / 10000 <= sR) by (clear - A NP; nra). assert (H : 0 < val s) by lra. apply (proj2 L1) in H. now rewrite H.
    + assert (B' : val Re + 1 / 10000 <= d) by (clear - B NP; nra). assert (H : val Re < val (norm q)) by (assert (exact_norm q - 3 / 100000 <= val (norm q)) by (apply NQ2; lra); lra). apply (proj2 L2) in H. rewrite H. now rewrite orb_true_r.
Qed.

(* ---- an arc cosine and an arc sine with these domains ---- *)
Definition toy_acos (x : double) : double := if dle (dopp one) x && dle x one then one else dsqrt (dopp one).
Definition toy_asin (x : double) : double := if dle (dopp one) x && dle x one then zero else dsqrt (dopp one).
Definition toy : libm := Libm toy_acos toy_asin (fun x => x) (fun x => x).
Lemma toy_ok : libm_ok toy.
Proof.
  destruct one_ok as [F1 V1]. destruct (opp_ok one F1) as [F2 V2]. destruct DPI_val as [_ VD]. destruct zero_ok as [F0 V0].
  assert (IN : forall x, finite x -> -1 <= val x <= 1 -> dle (dopp one) x && dle x one = true).
  { intros x F B. apply andb_true_intro. split; apply dle_ok; try assumption; lra. }
  constructor; cbn [acos asin sin toy].
  - intros x F B. unfold toy_acos. rewrite (IN x F B). split; [exact F1|lra].
  - intros x F B. unfold toy_acos. destruct (dle (dopp one) x) eqn:E1; destruct (dle x one) eqn:E2; cbn [andb]; try (vm_compute; reflexivity).
    apply dle_ok in E1, E2; try assumption. exfalso. assert (Rabs (val x) <= 1) by (apply Rabs_le; lra). lra.
  - intros x N. unfold toy_acos. rewrite (nan_dle_l x one N), andb_false_r. vm_compute. reflexivity.
  - intros x F B. unfold toy_asin. rewrite (IN x F B). split; [exact F0|lra].
  - intros x N. exact N.
Qed.
(* the satellite is opposite the Sun *)
Definition opposite (k : R) (sat sun : dvec) : Prop := val (dx sun) = - k * val (dx sat) /\ val (dy sun) = - k * val (dy sat) /\ val (dz sun) = - k * val (dz sat).
Lemma ints_norm x y z : (Z.abs x <= 2 ^ 53)%Z -> (Z.abs y <= 2 ^ 53)%Z -> (Z.abs z <= 2 ^ 53)%Z -> exact_norm (ints x y z) = sqrt (IZR (x * x + y * y + z * z)).
Proof.
  intros X Y Z. unfold exact_norm, exact_square, ints. cbn [dx dy dz]. destruct (of_int_ok x X) as [_ ->]. destruct (of_int_ok y Y) as [_ ->]. destruct (of_int_ok z Z) as [_ ->].
  rewrite !plus_IZR, !mult_IZR. reflexivity.
Qed.
Lemma sqrt_between a b n : 0 <= a -> 0 <= b -> a * a <= n <= b * b -> a <= sqrt n <= b.
Proof. intros A B H. rewrite <- (sqrt_square a A), <- (sqrt_square b B). split; apply sqrt_le_1_alt; lra. Qed.
Lemma grs80_near : Rabs (val grs80_fac - (1 + 1 / (298257222101 / 1000000000))) <= 4 * u.
Proof.
  unfold grs80_fac. destruct (of_decimal_err (298257222101 # 1000000000)) as (FD & e & E & VD); [split; discriminate|]. destruct one_ok as [F1 V1].
  apply Rabs_le_both in E. set (w := of_decimal _) in *. clearbody w.
  assert (QR : Q2R (298257222101 # 1000000000) = 298257222101 / 1000000000) by (unfold Q2R; cbn; lra). rewrite QR in VD. clear QR.
  assert (WP : 298 <= val w <= 299) by (rewrite VD; lra).
  assert (IW : Rabs (1 / val w - 1 / (298257222101 / 1000000000)) <= u).
  { replace (1 / val w - 1 / (298257222101 / 1000000000)) with ((298257222101 / 1000000000 - val w) * (/ val w * / (298257222101 / 1000000000))) by (field; lra).
    rewrite VD at 1. replace (298257222101 / 1000000000 - 298257222101 / 1000000000 * (1 + e)) with (- (298257222101 / 1000000000) * e) by ring.
    assert (I1 : 0 < / val w <= / 298) by (split; [apply Rinv_0_lt_compat; lra|apply Rinv_le_contravar; lra]).
    replace (- (298257222101 / 1000000000) * e * (/ val w * / (298257222101 / 1000000000))) with (- e * / val w) by (field; lra). apply Rabs_le. nra. }
  assert (I2 : 0 < 1 / val w <= 1 / 298) by (unfold Rdiv; rewrite !Rmult_1_l; split; [apply Rinv_0_lt_compat; lra|apply Rinv_le_contravar; lra]).
  destruct (div_ok one w 0 F1) as [F2 V2]; [lra|lia|rewrite V1, Rabs_pos_eq by lra; change (pow2 0) with 1; lra|]. rewrite V1 in V2.
  pose proof (rnd_near (1 / val w)) as E2. rewrite <- V2 in E2. rewrite (Rabs_pos_eq (1 / val w)) in E2 by lra. apply Rabs_le_both in E2, IW.
  destruct (add_ok one (ddiv one w) 1 F1 F2) as [F3 V3]; [lia|rewrite V1, Rabs_pos_eq by lra; change (pow2 1) with 2; lra|]. rewrite V1 in V3.
  pose proof (rnd_near (1 + val (ddiv one w))) as E3. rewrite <- V3 in E3. rewrite (Rabs_pos_eq (1 + _)) in E3 by lra. apply Rabs_le_both in E3. apply Rabs_le. lra.
Qed.
