(* Proofs for FloatTime_model.v: what one rounding does, and that these conversions are what they are in exact
   arithmetic up to one unit of the last place of the integer they end in. *)
From Coq Require Import ZArith QArith Qreals Reals Bool Lia Lra.
From Flocq Require Import Core Relative IEEE754.BinarySingleNaN IEEE754.Binary IEEE754.Bits.
From Coq Require Import List.
From Verif Require Import Base CLib_model CLib_proofs Rinex_model Rinex_proofs FrameTime_model FloatTime_model.
Import ListNotations.
Local Open Scope R_scope.

Definition rnd (x : R) : R := round radix2 (FLT_exp (-1074) 53) (round_mode mode_NE) x.
Definition val (x : double) : R := B2R 53 1024 x.
Notation finite x := (is_finite 53 1024 x = true).
Notation u := (/ 9007199254740992).  (* 2^-53 *)

#[local] Instance prec53 : Prec_gt_0 53 := eq_refl.
Lemma rnd_rel x : bpow radix2 (-1022) <= Rabs x -> exists e, Rabs e <= u /\ rnd x = x * (1 + e).
Proof.
  intros B. destruct (relative_error_N_FLT_ex radix2 (-1074) 53 eq_refl (fun x => negb (Z.even x)) x B) as (e & E & H).
  exists e. split; [|exact H]. refine (Rle_trans _ _ _ E _). cbn. lra.
Qed.
Lemma small_bound : bpow radix2 (-1022) <= / 1267650600228229401496703205376.  (* 2^-100 *)
Proof. change (/ 1267650600228229401496703205376) with (bpow radix2 (-100)). apply bpow_le. lia. Qed.
Lemma rnd_int n : (Z.abs n <= 2 ^ 53)%Z -> rnd (IZR n) = IZR n.
Proof.
  intros B. apply round_generic; [apply valid_rnd_N|]. destruct (Z.eq_dec (Z.abs n) (2 ^ 53)) as [E|NE].
  - assert (G : generic_format radix2 (FLT_exp (-1074) 53) (IZR (2 ^ 53))).
    { change (IZR (2 ^ 53)) with (bpow radix2 53). apply generic_format_bpow. unfold FLT_exp. lia. }
    destruct (Z.abs_spec n) as [[_ A]|[_ A]]; rewrite A in E; [rewrite E; exact G|].
    replace n with (- 2 ^ 53)%Z by lia. rewrite opp_IZR. now apply generic_format_opp.
  - apply generic_format_FLT. exists (Float radix2 n 0); cbn [Fnum Fexp]; [unfold F2R; cbn; ring|change (radix2 ^ 53)%Z with (2 ^ 53)%Z; lia|lia].
Qed.
Lemma rnd_le_bound x b : (Z.abs b <= 2 ^ 53)%Z -> Rabs x <= IZR b -> Rabs (rnd x) <= IZR b.
Proof.
  intros B H. apply abs_round_le_generic; [apply FLT_exp_valid; exact eq_refl|apply valid_rnd_N| |exact H].
  rewrite <- (rnd_int b B). apply generic_format_round; [apply FLT_exp_valid; exact eq_refl|apply valid_rnd_N].
Qed.
Lemma huge b : (b <= 2 ^ 1000)%Z -> IZR b < bpow radix2 1024.
Proof.
  intros B. apply Rle_lt_trans with (IZR (2 ^ 1000)); [apply IZR_le; exact B|]. change (IZR (2 ^ 1000)) with (bpow radix2 1000). apply bpow_lt. lia.
Qed.
Lemma of_int_val n : (Z.abs n <= 2 ^ 53)%Z -> finite (of_int n) /\ val (of_int n) = IZR n.
Proof.
  intros B. unfold of_int, val. pose proof (binary_normalize_correct 53 1024 eq_refl eq_refl mode_NE n 0 false) as H.
  assert (F : F2R (Float radix2 n 0) = IZR n) by (unfold F2R; cbn; ring). rewrite F in H.
  change (round radix2 _ (round_mode mode_NE) (IZR n)) with (rnd (IZR n)) in H. rewrite (rnd_int n B) in H.
  rewrite Rlt_bool_true in H; [destruct H as (H1 & H2 & _); split; assumption|].
  rewrite <- abs_IZR. apply huge. apply Z.le_trans with (1 := B). now apply Z.pow_le_mono_r.
Qed.
Lemma mult_val x y b : finite x -> finite y -> (0 <= b <= 2 ^ 53)%Z -> Rabs (val x * val y) <= IZR b ->
  finite (b64_mult mode_NE x y) /\ val (b64_mult mode_NE x y) = rnd (val x * val y).
Proof.
  intros FX FY B H. pose proof (Bmult_correct 53 1024 eq_refl eq_refl binop_nan_pl64 mode_NE x y) as C.
  change (round radix2 _ (round_mode mode_NE) (B2R 53 1024 x * B2R 53 1024 y)) with (rnd (val x * val y)) in C.
  rewrite Rlt_bool_true in C; [destruct C as (C1 & C2 & _); rewrite FX, FY in C2; split; [exact C2|exact C1]|].
  eapply Rle_lt_trans; [apply (rnd_le_bound _ b); [lia|exact H]|]. apply huge. apply Z.le_trans with (2 ^ 53)%Z; [lia|now apply Z.pow_le_mono_r].
Qed.
Lemma minus_val x y b : finite x -> finite y -> (0 <= b <= 2 ^ 53)%Z -> Rabs (val x - val y) <= IZR b ->
  finite (b64_minus mode_NE x y) /\ val (b64_minus mode_NE x y) = rnd (val x - val y).
Proof.
  intros FX FY B H. pose proof (Bminus_correct 53 1024 eq_refl eq_refl binop_nan_pl64 mode_NE x y FX FY) as C.
  change (round radix2 _ (round_mode mode_NE) (B2R 53 1024 x - B2R 53 1024 y)) with (rnd (val x - val y)) in C.
  rewrite Rlt_bool_true in C; [destruct C as (C1 & C2 & _); split; [exact C2|exact C1]|].
  eapply Rle_lt_trans; [apply (rnd_le_bound _ b); [lia|exact H]|]. apply huge. apply Z.le_trans with (2 ^ 53)%Z; [lia|now apply Z.pow_le_mono_r].
Qed.
Lemma div_val x y b : finite x -> val y <> 0 -> (0 <= b <= 2 ^ 53)%Z -> Rabs (val x / val y) <= IZR b ->
  finite (b64_div mode_NE x y) /\ val (b64_div mode_NE x y) = rnd (val x / val y).
Proof.
  intros FX NY B H. pose proof (Bdiv_correct 53 1024 eq_refl eq_refl binop_nan_pl64 mode_NE x y NY) as C.
  change (round radix2 _ (round_mode mode_NE) (B2R 53 1024 x / B2R 53 1024 y)) with (rnd (val x / val y)) in C.
  rewrite Rlt_bool_true in C; [destruct C as (C1 & C2 & _); rewrite FX in C2; split; [exact C2|exact C1]|].
  eapply Rle_lt_trans; [apply (rnd_le_bound _ b); [lia|exact H]|]. apply huge. apply Z.le_trans with (2 ^ 53)%Z; [lia|now apply Z.pow_le_mono_r].
Qed.
(* static_cast *)
Lemma to_int_val bits x z : finite x -> Ztrunc (val x) = z -> (- 2 ^ (bits - 1) <= z < 2 ^ (bits - 1))%Z -> to_int bits x = Ok z.
Proof.
  intros F T B. unfold to_int. rewrite F. assert (E : Btrunc 53 1024 x = z).
  { pose proof (Btrunc_correct 53 1024 eq_refl x) as C. apply eq_IZR. rewrite C. rewrite <- T. unfold round, F2R, scaled_mantissa, cexp, FIX_exp. cbn. rewrite !Rmult_1_r. reflexivity. }
  rewrite E. destruct (Z.leb_spec (- 2 ^ (bits - 1)) z); [|lia]. destruct (Z.ltb_spec z (2 ^ (bits - 1))); [reflexivity|lia].
Qed.
Lemma rnd_0 : rnd 0 = 0.
Proof. apply round_0. apply valid_rnd_N. Qed.
Lemma rnd_opp x : rnd (- x) = - rnd x.
Proof. unfold rnd. cbn [round_mode]. apply round_NE_opp. Qed.
(* one rounding, with zero *)
Lemma rnd_err x : x = 0 \/ / 1267650600228229401496703205376 <= Rabs x -> exists e, Rabs e <= u /\ rnd x = x * (1 + e).
Proof.
  intros [->|H]; [exists 0; rewrite Rabs_R0, rnd_0; split; lra|]. apply rnd_rel. pose proof small_bound. lra.
Qed.

(* ---- printed decimals ---- *)
(* a printed number: at most 15 digits *)
Definition printed (q : Q) : Prop := (Z.abs (Qnum q) <= 2 ^ 50)%Z /\ (Zpos (Qden q) <= 2 ^ 53)%Z.
Lemma printed_size q : printed q -> Rabs (Q2R q) <= IZR (2 ^ 50) /\ (Q2R q = 0 \/ / 1267650600228229401496703205376 <= Rabs (Q2R q)).
Proof.
  intros [A B]. unfold Q2R. rewrite Rabs_mult, <- abs_IZR. pose proof (IZR_le _ _ A) as A'. pose proof (IZR_le _ _ B) as B'. pose proof (IZR_le 1 (Zpos (Qden q)) ltac:(lia)) as P.
  rewrite (Rabs_right (/ _)) by (apply Rle_ge, Rlt_le, Rinv_0_lt_compat; lra).
  assert (I : 0 < / IZR (Zpos (Qden q)) <= 1) by (split; [apply Rinv_0_lt_compat; lra|rewrite <- Rinv_1; apply Rinv_le_contravar; lra]).
  pose proof (IZR_le 0 (Z.abs (Qnum q)) ltac:(lia)) as N. split; [nra|].
  destruct (Z.eq_dec (Qnum q) 0) as [->|NZ]; [left; cbn; ring|right].
  pose proof (IZR_le 1 (Z.abs (Qnum q)) ltac:(lia)) as N1.
  assert (J : / IZR (2 ^ 53) <= / IZR (Zpos (Qden q))) by (apply Rinv_le_contravar; lra).
  apply Rle_trans with (/ IZR (2 ^ 53)); [apply Rinv_le_contravar; cbn; lra|]. nra.
Qed.
Lemma printed_red q : printed q -> printed (Qred q).
Proof.
  intros [A B]. destruct q as [n d]. unfold Qred. pose proof (Z.ggcd_correct_divisors n (Zpos d)) as G. pose proof (Z.ggcd_gcd n (Zpos d)) as GG.
  destruct (Z.ggcd n (Zpos d)) as (g, (aa, bb)). cbn [fst] in GG. destruct G as [G1 G2]. cbn [snd fst]. cbn [Qnum Qden] in A, B.
  pose proof (Z.gcd_nonneg n (Zpos d)) as P. rewrite <- GG in P. assert (P1 : (1 <= g)%Z) by (destruct (Z.eq_dec g 0) as [->|]; lia).
  assert (B1 : (0 < bb)%Z) by nia. split; cbn [Qnum Qden]; [rewrite G1 in A; rewrite Z.abs_mul in A; pose proof (Z.abs_nonneg aa); nia|].
  rewrite Z2Pos.id by exact B1. nia.
Qed.
Lemma of_decimal_val q0 : printed q0 -> finite (of_decimal q0) /\ val (of_decimal q0) = rnd (Q2R q0).
Proof.
  intros H0. rewrite <- (Qeq_eqR (Qred q0) q0 (Qred_correct q0)). pose proof (printed_red q0 H0) as H. unfold of_decimal. set (q := Qred q0) in *. clearbody q. clear H0.
  destruct (printed_size q H) as [S _]. destruct H as [A B].
  destruct (of_int_val (Qnum q)) as [F1 V1]; [apply Z.le_trans with (1 := A); now apply Z.pow_le_mono_r|].
  destruct (of_int_val (Zpos (Qden q))) as [F2 V2]; [exact B|].
  pose proof (IZR_le 1 (Zpos (Qden q)) ltac:(lia)) as P. unfold Q2R in *.
  destruct (div_val (of_int (Qnum q)) (of_int (Zpos (Qden q))) (2 ^ 50)) as [F V]; [exact F1|rewrite V2; lra|split; [discriminate|now apply Z.pow_le_mono_r]|rewrite V1, V2; exact S|].
  rewrite V1, V2 in V. split; assumption.
Qed.
Lemma of_decimal_err q : printed q -> finite (of_decimal q) /\ exists e, Rabs e <= u /\ val (of_decimal q) = Q2R q * (1 + e).
Proof.
  intros H. destruct (of_decimal_val q H) as [F V]. split; [exact F|]. rewrite V. apply rnd_err. exact (proj2 (printed_size q H)).
Qed.
(* towards zero, something close to an integer is this integer or its neighbour towards zero *)
Lemma Rabs_le_both x b : Rabs x <= b -> - b <= x <= b.
Proof. intros H. unfold Rabs in H. destruct (Rcase_abs x); lra. Qed.
Lemma near_pos n v : (0 < n)%Z -> Rabs (v - IZR n) < 1 -> Ztrunc v = n \/ Ztrunc v = (n - 1)%Z.
Proof.
  intros P H. apply Rabs_def2 in H. pose proof (IZR_le 1 n ltac:(lia)).
  rewrite Ztrunc_floor by lra. destruct (Rle_dec (IZR n) v).
  - left. apply Zfloor_imp. rewrite plus_IZR. lra.
  - right. apply Zfloor_imp. rewrite plus_IZR, minus_IZR. lra.
Qed.
Lemma near n v : Rabs (v - IZR n) < 1 -> (n = 0%Z -> v = 0) -> Ztrunc v = n \/ Ztrunc v = (n - Z.sgn n)%Z.
Proof.
  intros H Z. destruct (Ztrichotomy n 0) as [L|[E|G]].
  - rewrite <- (Ropp_involutive v), Ztrunc_opp. rewrite (Z.sgn_neg n L).
    destruct (near_pos (- n) (- v)) as [E|E]; [lia| |lia|lia].
    rewrite opp_IZR. replace (- v - - IZR n) with (- (v - IZR n)) by ring. now rewrite Rabs_Ropp.
  - left. rewrite (Z E). rewrite E. apply (Ztrunc_IZR 0).
  - rewrite (Z.sgn_pos n) by lia. apply near_pos; [lia|exact H].
Qed.
(* a number times a constant that makes an integer of it *)
Lemma units q c n : printed q -> (1 <= c <= 2 ^ 53)%Z -> (q * inject_Z c == inject_Z n)%Q -> (Z.abs n <= 2 ^ 50)%Z ->
  finite (b64_mult mode_NE (of_decimal q) (of_int c)) /\ Rabs (val (b64_mult mode_NE (of_decimal q) (of_int c)) - IZR n) < 1 /\
  (n = 0%Z -> val (b64_mult mode_NE (of_decimal q) (of_int c)) = 0).
Proof.
  intros PQ C E B. destruct (of_decimal_err q PQ) as [F (e & He & V)]. destruct (of_int_val c) as [FC VC]; [lia|].
  assert (EQ : Q2R q * IZR c = IZR n). { apply Qeq_eqR in E. rewrite Q2R_mult in E. unfold inject_Z, Q2R in E. cbn in E. unfold Q2R. lra. }
  pose proof (IZR_le _ _ B) as B'. rewrite abs_IZR in B'. cbn in B'. apply Rabs_le_both in He. apply Rabs_le_both in B'.
  assert (X : val (of_decimal q) * val (of_int c) = IZR n * (1 + e)) by (rewrite V, VC, <- EQ; ring).
  destruct (mult_val (of_decimal q) (of_int c) (2 ^ 51)) as [FM VM]; [exact F|exact FC|split; [discriminate|now apply Z.pow_le_mono_r]| |].
  { rewrite X. cbn. apply Rabs_le. nra. }
  split; [exact FM|]. rewrite VM, X. destruct (Z.eq_dec n 0) as [->|NZ].
  - rewrite Rmult_0_l, rnd_0, Rminus_0_r, Rabs_R0. split; [lra|reflexivity].
  - split; [|contradiction]. destruct (rnd_err (IZR n * (1 + e))) as (e2 & He2 & ->).
    { right. rewrite Rabs_mult. assert (1 <= Rabs (IZR n)) by (rewrite <- abs_IZR; apply IZR_le; lia).
      assert (/ 2 <= Rabs (1 + e)) by (rewrite Rabs_right; lra). apply Rle_trans with (/ 2); [lra|nra]. }
    apply Rabs_le_both in He2. replace (IZR n * (1 + e) * (1 + e2) - IZR n) with (IZR n * (e + e2 + e * e2)) by ring.
    assert (K : Rabs (e + e2 + e * e2) <= 3 * u) by (apply Rabs_le; nra). rewrite Rabs_mult.
    assert (N : Rabs (IZR n) <= 1125899906842624) by (apply Rabs_le; lra). pose proof (Rabs_pos (IZR n)). pose proof (Rabs_pos (e + e2 + e * e2)). nra.
Qed.
Lemma format_val x : generic_format radix2 (FLT_exp (-1074) 53) (val x).
Proof. exact (generic_format_B2R 53 1024 x). Qed.
Lemma rnd_val x : rnd (val x) = val x.
Proof. apply round_generic; [apply valid_rnd_N|apply format_val]. Qed.
Lemma small_missing : val missing = bpow radix2 (-1022).
Proof. unfold val, missing, B2R, F2R. cbn [cond_Zopp Fnum Fexp]. change (IZR 4503599627370496) with (bpow radix2 52). now rewrite <- bpow_plus. Qed.
Lemma not_missing q : printed q -> is_equal (of_decimal q) missing = false.
Proof.
  intros P. destruct (of_decimal_err q P) as [F (e & He & V)]. unfold is_equal, b64_compare.
  rewrite (Bcompare_correct 53 1024 (of_decimal q) missing F eq_refl).
  change (B2R 53 1024 (of_decimal q)) with (val (of_decimal q)). change (B2R 53 1024 missing) with (val missing). rewrite small_missing.
  destruct (Rcompare_spec (val (of_decimal q)) (bpow radix2 (-1022))) as [|E|]; [reflexivity| |reflexivity]. exfalso.
  pose proof (bpow_gt_0 radix2 (-1022)) as G. apply Rabs_le_both in He.
  destruct (proj2 (printed_size q P)) as [Z|Z]; [rewrite V, Z in E; lra|].
  assert (K : Rabs (val (of_decimal q)) >= / 2 * / 1267650600228229401496703205376).
  { rewrite V, Rabs_mult. rewrite (Rabs_right (1 + e)) by lra. nra. }
  rewrite E, Rabs_right in K by lra.
  assert (L : bpow radix2 (-1022) <= bpow radix2 (-102)) by (apply bpow_le; lia). change (bpow radix2 (-102)) with (/ 5070602400912917605986812821504) in L. lra.
Qed.
Lemma sgn_range n : (Z.abs n <= 2 ^ 50)%Z -> forall k, k = n \/ k = (n - Z.sgn n)%Z -> (- 2 ^ (64 - 1) <= k < 2 ^ (64 - 1))%Z.
Proof. intros B k H. change (2 ^ (64 - 1))%Z with 9223372036854775808%Z. change (2 ^ 50)%Z with 1125899906842624%Z in B. destruct (Z.sgn_spec n) as [[? S]|[[? S]|[? S]]]; rewrite S in H; lia. Qed.
Lemma clock_ok epoch q n : printed q -> (q * inject_Z 1000000000 == inject_Z n)%Q -> (Z.abs n <= 2 ^ 50)%Z ->
  exists k, l1_epoch_double false epoch (of_decimal q) = Ok (epoch + k)%Z /\ (k = n \/ k = (n - Z.sgn n)%Z).
Proof.
  intros P E B. unfold l1_epoch_double. rewrite (not_missing q P). destruct (of_decimal_val q P) as [F V]. destruct (printed_size q P) as [S _].
  destruct (of_int_val 1) as [F1 V1]; [discriminate|].
  destruct (mult_val (of_int 1) (of_decimal q) (2 ^ 51)) as [FM VM]; [exact F1|exact F|split; [discriminate|now apply Z.pow_le_mono_r]| |].
  { rewrite V1, V, Rmult_1_l. apply Rle_trans with (IZR (2 ^ 50)); [apply rnd_le_bound; [discriminate|exact S]|cbn; lra]. }
  rewrite V1, Rmult_1_l, rnd_val in VM. destruct (units q 1000000000 n P) as (F2 & A & Z); [split; [discriminate|now vm_compute]|exact E|exact B|].
  set (off := b64_mult mode_NE (of_int 1) (of_decimal q)) in *.
  assert (FV : finite (b64_mult mode_NE off (of_int 1000000000)) /\ val (b64_mult mode_NE off (of_int 1000000000)) = val (b64_mult mode_NE (of_decimal q) (of_int 1000000000))).
  { destruct (of_int_val 1000000000) as [FC VC]; [discriminate|].
    assert (BB : Rabs (val (of_decimal q) * val (of_int 1000000000)) <= IZR (2 ^ 51)).
    { destruct (of_decimal_err q P) as [_ (e & He & V')]. apply Rabs_le_both in He. rewrite V', VC.
      assert (EQ : Q2R q * IZR 1000000000 = IZR n). { apply Qeq_eqR in E. rewrite Q2R_mult in E. unfold inject_Z, Q2R in E. cbn in E. unfold Q2R. lra. }
      pose proof (IZR_le _ _ B) as B'. rewrite abs_IZR in B'. cbn in B'. apply Rabs_le_both in B'.
      replace (Q2R q * (1 + e) * 1000000000) with (IZR n * (1 + e)) by (rewrite <- EQ; ring). cbn. apply Rabs_le. nra. }
    destruct (mult_val off (of_int 1000000000) (2 ^ 51)) as [G1 G2]; [exact FM|exact FC|split; [discriminate|now apply Z.pow_le_mono_r]|rewrite VM; exact BB|].
    destruct (mult_val (of_decimal q) (of_int 1000000000) (2 ^ 51)) as [_ G3]; [exact F|exact FC|split; [discriminate|now apply Z.pow_le_mono_r]|exact BB|].
    split; [exact G1|]. rewrite G2, G3, VM. reflexivity. }
  destruct FV as [FF VV]. rewrite <- VV in A, Z. destruct (near _ _ A Z) as [T|T].
  - exists n. split; [|now left]. rewrite (to_int_val 64 _ n FF T); [reflexivity|]. apply (sgn_range n B). now left.
  - exists (n - Z.sgn n)%Z. split; [|now right]. rewrite (to_int_val 64 _ _ FF T); [reflexivity|]. apply (sgn_range n B). now right.
Qed.
Lemma l21_ok q n : printed q -> (q * inject_Z 1000 == inject_Z n)%Q -> (Z.abs n <= 2 ^ 50)%Z ->
  exists k, l21_offset_double (of_decimal q) = Ok k /\ (k = n \/ k = (n - Z.sgn n)%Z).
Proof.
  intros P E B. unfold l21_offset_double. destruct (units q 1000 n P) as (F2 & A & Z); [split; [discriminate|now vm_compute]|exact E|exact B|].
  destruct (near _ _ A Z) as [T|T]; eexists; (split; [apply (to_int_val 64 _ _ F2 T), (sgn_range n B)|]); auto.
Qed.

(* ---- observables ---- *)
(* the number that is printed, over the factor *)
Lemma scaled_ok q f : printed q -> (1 <= f < 2 ^ 31)%Z ->
  finite (scaled_double (of_decimal q) f) /\ exists e, Rabs e <= 9 / 4 * u /\ val (scaled_double (of_decimal q) f) = Q2R q / IZR f * (1 + e).
Proof.
  intros P Hf. unfold scaled_double. destruct (of_decimal_err q P) as [F (e & He & V)]. destruct (printed_size q P) as [S M].
  destruct (of_int_val f) as [FF VF]; [lia|]. apply Rabs_le_both in He.
  pose proof (IZR_le 1 f ltac:(lia)) as F1. pose proof (IZR_lt f (2 ^ 31) ltac:(lia)) as F2.
  assert (I : 0 < / IZR f <= 1) by (split; [apply Rinv_0_lt_compat; lra|rewrite <- Rinv_1; apply Rinv_le_contravar; lra]).
  assert (J : / 2147483648 <= / IZR f) by (apply Rinv_le_contravar; cbn in F2; lra).
  assert (X : val (of_decimal q) / val (of_int f) = Q2R q / IZR f * (1 + e)) by (rewrite V, VF; field; lra).
  assert (A1 : Rabs (1 + e) <= 2 /\ / 2 <= Rabs (1 + e)) by (rewrite Rabs_right; lra).
  assert (A2 : Rabs (/ IZR f) = / IZR f) by (apply Rabs_right; lra).
  destruct (div_val (of_decimal q) (of_int f) (2 ^ 51)) as [FD VD]; [exact F|rewrite VF; lra|split; [discriminate|now apply Z.pow_le_mono_r]| |].
  { rewrite X. unfold Rdiv. rewrite !Rabs_mult, A2. cbn in S |- *. pose proof (Rabs_pos (Q2R q)). pose proof (Rabs_pos (1 + e)).
    assert (Rabs (Q2R q) * / IZR f <= 1125899906842624) by nra. assert (0 <= Rabs (Q2R q) * / IZR f) by nra. nra. }
  split; [exact FD|]. rewrite VD, X. destruct (rnd_err (Q2R q / IZR f * (1 + e))) as (e2 & He2 & ->).
  { destruct (Z.eq_dec (Qnum q) 0) as [Z0|NZ]; [left; unfold Q2R; rewrite Z0; unfold Rdiv; ring|right].
    unfold Rdiv. rewrite !Rabs_mult, A2. destruct P as [_ PD]. pose proof (IZR_le _ _ PD) as PD'. cbn in PD'. pose proof (IZR_le 1 (Zpos (Qden q)) ltac:(lia)) as P1.
    assert (Q1 : / 9007199254740992 <= Rabs (Q2R q)).
    { unfold Q2R. rewrite Rabs_mult, <- abs_IZR. pose proof (IZR_le 1 (Z.abs (Qnum q)) ltac:(lia)) as N1.
      rewrite (Rabs_right (/ _)) by (apply Rle_ge, Rlt_le, Rinv_0_lt_compat; lra).
      assert (/ 9007199254740992 <= / IZR (Zpos (Qden q))) by (apply Rinv_le_contravar; lra). nra. }
    apply Rle_trans with (/ 9007199254740992 * / 2147483648 * / 2); [lra|].
    apply Rmult_le_compat; [lra|lra| |apply A1]. apply Rmult_le_compat; lra. }
  exists (e + e2 + e * e2). apply Rabs_le_both in He2. split; [apply Rabs_le; nra|ring].
Qed.
(* two numbers printed with the same number of decimals *)
Lemma apart a b d f : (Z.abs a <= 2 ^ 50)%Z -> (Z.abs b <= 2 ^ 50)%Z -> (Zpos d <= 2 ^ 53)%Z -> (1 <= f < 2 ^ 31)%Z -> a <> b ->
  val (scaled_double (of_decimal (a # d)) f) <> val (scaled_double (of_decimal (b # d)) f).
Proof.
  intros A B D Hf N E. destruct (scaled_ok (a # d) f) as [_ (e1 & H1 & V1)]; [split; assumption|exact Hf|].
  destruct (scaled_ok (b # d) f) as [_ (e2 & H2 & V2)]; [split; assumption|exact Hf|]. rewrite V1, V2 in E. unfold Q2R in E. cbn [Qnum Qden] in E.
  pose proof (IZR_le 1 f ltac:(lia)) as F1. pose proof (IZR_le 1 (Zpos d) ltac:(lia)) as D1.
  assert (K : IZR a * (1 + e1) = IZR b * (1 + e2)).
  { replace (IZR a * (1 + e1)) with (IZR a * / IZR (Zpos d) / IZR f * (1 + e1) * (IZR (Zpos d) * IZR f)) by (field; lra). rewrite E. field. lra. }
  pose proof (IZR_le _ _ A) as A'. pose proof (IZR_le _ _ B) as B'. rewrite abs_IZR in A', B'. cbn in A', B'.
  assert (L : 1 <= Rabs (IZR a - IZR b)) by (rewrite <- minus_IZR, <- abs_IZR; apply IZR_le; lia).
  replace (IZR a - IZR b) with (IZR b * e2 - IZR a * e1) in L by lra.
  assert (T : Rabs (IZR b * e2 - IZR a * e1) <= Rabs (IZR b) * Rabs e2 + Rabs (IZR a) * Rabs e1).
  { rewrite <- !Rabs_mult. unfold Rminus. eapply Rle_trans; [apply Rabs_triang|]. rewrite Rabs_Ropp. lra. }
  assert (T1 : Rabs (IZR b) * Rabs e2 <= 1125899906842624 * (9 / 4 * u)) by (apply Rmult_le_compat; try apply Rabs_pos; assumption).
  assert (T2 : Rabs (IZR a) * Rabs e1 <= 1125899906842624 * (9 / 4 * u)) by (apply Rmult_le_compat; try apply Rabs_pos; assumption).
  lra.
Qed.
(* their difference, in units of the last decimal *)
Lemma count_ok a b d f : (Z.abs a <= 10 ^ 13)%Z -> (Z.abs b <= 10 ^ 13)%Z -> (Zpos d <= 2 ^ 53)%Z -> (1 <= f < 2 ^ 31)%Z ->
  Rabs (val (count_double (scaled_double (of_decimal (b # d)) f) (scaled_double (of_decimal (a # d)) f)) * (IZR (Zpos d) * IZR f) - IZR (b - a)) <= / 100.
Proof.
  intros A B D Hf. destruct (scaled_ok (a # d) f) as [FA (e1 & H1 & V1)]; [split; [cbn [Qnum]; change (2 ^ 50)%Z with 1125899906842624%Z; lia|exact D]|exact Hf|].
  destruct (scaled_ok (b # d) f) as [FB (e2 & H2 & V2)]; [split; [cbn [Qnum]; change (2 ^ 50)%Z with 1125899906842624%Z; lia|exact D]|exact Hf|].
  unfold count_double. set (x := scaled_double (of_decimal (a # d)) f) in *. set (y := scaled_double (of_decimal (b # d)) f) in *.
  unfold Q2R in V1, V2. cbn [Qnum Qden] in V1, V2.
  pose proof (IZR_le 1 f ltac:(lia)) as F1. pose proof (IZR_lt _ _ (proj2 Hf)) as F2. cbn in F2. pose proof (IZR_le 1 (Zpos d) ltac:(lia)) as D1. pose proof (IZR_le _ _ D) as D2. cbn in D2.
  set (w := IZR (Zpos d) * IZR f) in *. assert (W : 1 <= w <= 9007199254740992 * 2147483648) by (unfold w; nra).
  assert (X : val x * w = IZR a * (1 + e1)) by (rewrite V1; unfold w; field; lra).
  assert (Y : val y * w = IZR b * (1 + e2)) by (rewrite V2; unfold w; field; lra).
  pose proof (IZR_le _ _ A) as A'. pose proof (IZR_le _ _ B) as B'. rewrite abs_IZR in A', B'. cbn in A', B'.
  assert (T1 : Rabs (IZR a * e1) <= 10000000000000 * (9 / 4 * u)) by (rewrite Rabs_mult; apply Rmult_le_compat; try apply Rabs_pos; assumption).
  assert (T2 : Rabs (IZR b * e2) <= 10000000000000 * (9 / 4 * u)) by (rewrite Rabs_mult; apply Rmult_le_compat; try apply Rabs_pos; assumption).
  apply Rabs_le_both in T1. apply Rabs_le_both in T2. apply Rabs_le_both in A'. apply Rabs_le_both in B'. 
  assert (I : 0 < / w) by (apply Rinv_0_lt_compat; lra). assert (I1 : / w <= 1) by (rewrite <- Rinv_1; apply Rinv_le_contravar; lra).
  assert (I2 : / 19342813113834066795298816 <= / w) by (apply Rinv_le_contravar; lra).
  assert (DV : val y - val x = (IZR b - IZR a + (IZR b * e2 - IZR a * e1)) * / w).
  { replace (val y) with (val y * w * / w) by (field; lra). replace (val x) with (val x * w * / w) by (field; lra). rewrite X, Y. ring. }
  set (g := IZR b * e2 - IZR a * e1) in *. assert (G : - / 200 <= g <= / 200) by (unfold g; lra).
  assert (EB : Rabs (val y - val x) <= IZR (2 ^ 51)).
  { rewrite DV, Rabs_mult, (Rabs_right (/ w)) by lra. cbn.
    assert (Rabs (IZR b - IZR a + g) <= 20000000000001) by (apply Rabs_le; lra). pose proof (Rabs_pos (IZR b - IZR a + g)). nra. }
  destruct (minus_val y x (2 ^ 51) FB FA) as [FM VM]; [split; [discriminate|now apply Z.pow_le_mono_r]|exact EB|].
  rewrite VM, minus_IZR. destruct (rnd_err (val y - val x)) as (e & He & ->).
  { destruct (Z.eq_dec a b) as [->|NE].
    - left. unfold x, y. ring.
    - right. rewrite DV, Rabs_mult, (Rabs_right (/ w)) by lra.
      assert (L : 1 <= Rabs (IZR b - IZR a)) by (rewrite <- minus_IZR, <- abs_IZR; apply IZR_le; lia).
      assert (M : / 2 <= Rabs (IZR b - IZR a + g)) by (unfold Rabs in *; destruct (Rcase_abs (IZR b - IZR a)); destruct (Rcase_abs (IZR b - IZR a + g)); lra).
      apply Rle_trans with (/ 2 * / 19342813113834066795298816); [lra|]. apply Rmult_le_compat; lra. }
  apply Rabs_le_both in He. replace ((val y - val x) * (1 + e) * w - (IZR b - IZR a)) with (g + (IZR b - IZR a + g) * e) by (rewrite DV; field; lra).
  assert (Q : Rabs ((IZR b - IZR a + g) * e) <= 20000000000001 * u).
  { rewrite Rabs_mult. apply Rmult_le_compat; try apply Rabs_pos; apply Rabs_le; lra. }
  apply Rabs_le_both in Q. unfold g in *. apply Rabs_le. lra.
Qed.

(* ---- modified Julian days ---- *)
(* 2^15 to 2^16: 1948 to 2038 *)
Definition recent (x : double) : Prop := 32768 <= val x < 65536.
Lemma recent_grid x : recent x -> exists m : Z, val x = IZR m * / 137438953472.
Proof.
  intros [A B]. assert (G := format_val x). unfold generic_format, F2R in G. cbn [Fnum Fexp] in G.
  assert (M : mag radix2 (val x) = 16%Z :> Z).
  { apply mag_unique. change (bpow radix2 (16 - 1)) with 32768. change (bpow radix2 16) with 65536. rewrite Rabs_right; lra. }
  unfold cexp in G. rewrite M in G. change (FLT_exp (-1074) 53 16) with (-37)%Z in G. change (bpow radix2 (-37)) with (/ 137438953472) in G. eexists. exact G.
Qed.
Lemma grid_exact k e : (Z.abs k < 2 ^ 53)%Z -> (-100 <= e)%Z -> rnd (IZR k * bpow radix2 e) = IZR k * bpow radix2 e.
Proof.
  intros K E. apply round_generic; [apply valid_rnd_N|]. apply generic_format_FLT.
  exists (Float radix2 k e); cbn [Fnum Fexp]; [reflexivity|change (radix2 ^ 53)%Z with (2 ^ 53)%Z; lia|lia].
Qed.
Lemma recent_finite x : recent x -> finite x.
Proof. intros [A _]. unfold val in A. destruct x; cbn in *; try reflexivity; exfalso; lra. Qed.
Lemma tai_ok x : recent x -> exists ns, tai_date_double x = Ok (Zfloor (val x), ns) /\ (0 <= ns < 86400000000000)%Z /\
  -1 - / 100 < IZR ns - (val x - IZR (Zfloor (val x))) * 86400000000000 < / 100 + / 1000.
Proof.
  intros R. pose proof (recent_finite x R) as F. destruct (recent_grid x R) as (m & G). destruct R as [A B]. unfold tai_date_double.
  set (d := Zfloor (val x)). assert (D1 : IZR d <= val x) by apply Zfloor_lb. assert (D2 : val x < IZR d + 1) by (pose proof (Zfloor_ub (val x)); assumption).
  assert (DL : (32768 <= d)%Z) by (apply Zfloor_lub; lra). assert (DU : (d < 65536)%Z) by (apply lt_IZR; lra).
  rewrite (to_int_val 32 x d F); [|rewrite Ztrunc_floor by lra; reflexivity|change (2 ^ (32 - 1))%Z with 2147483648%Z; lia]. cbn [obind].
  destruct (of_int_val d) as [FD VD]; [change (2 ^ 53)%Z with 9007199254740992%Z; lia|].
  set (k := (m - d * 137438953472)%Z). assert (KR : val x - IZR d = IZR k * bpow radix2 (-37)).
  { unfold k. rewrite minus_IZR, mult_IZR, G. change (bpow radix2 (-37)) with (/ 137438953472). field. }
  assert (K : (0 <= k < 137438953472)%Z).
  { change (bpow radix2 (-37)) with (/ 137438953472) in KR. split; [apply le_IZR|apply lt_IZR]; lra. }
  destruct (minus_val x (of_int d) 1 F FD) as [FM VM]; [split; [discriminate|now vm_compute]|rewrite VD; apply Rabs_le; lra|].
  rewrite VD, KR, grid_exact in VM by (try (change (2 ^ 53)%Z with 9007199254740992%Z); lia).
  set (fr := b64_minus mode_NE x (of_int d)) in *. destruct (of_int_val 86400) as [FS VS]; [discriminate|].
  assert (S0 : val fr * val (of_int 86400) = IZR (k * 675) * bpow radix2 (-30)).
  { rewrite VM, VS, mult_IZR. change (bpow radix2 (-37)) with (/ 137438953472). change (bpow radix2 (-30)) with (/ 1073741824). field. }
  destruct (mult_val fr (of_int 86400) 86400) as [FT VT]; [exact FM|exact FS|split; [discriminate|now vm_compute]| |].
  { rewrite VM, VS, <- KR. apply Rabs_le. lra. }
  rewrite S0, grid_exact in VT by (try (change (2 ^ 53)%Z with 9007199254740992%Z); lia).
  assert (SE : val (b64_mult mode_NE fr (of_int 86400)) = (val x - IZR d) * 86400) by (rewrite VT, <- S0, VM, VS, KR; reflexivity).
  set (sec := b64_mult mode_NE fr (of_int 86400)) in *. destruct (of_int_val 1000000000) as [FN VN]; [discriminate|].
  assert (N0 : val sec * val (of_int 1000000000) = (val x - IZR d) * 86400000000000) by (rewrite SE, VN; ring).
  set (ex := (val x - IZR d) * 86400000000000) in *.
  assert (EX : 0 <= ex <= 86400000000000 - 600).
  { unfold ex. split; [nra|]. rewrite KR. change (bpow radix2 (-37)) with (/ 137438953472). pose proof (IZR_le k 137438953471 ltac:(lia)). nra. }
  destruct (mult_val sec (of_int 1000000000) 86400000000000) as [FU VU]; [exact FT|exact FN|split; [discriminate|now vm_compute]|rewrite N0; apply Rabs_le; lra|].
  rewrite N0 in VU. assert (ER : Rabs (rnd ex - ex) <= / 100).
  { destruct (rnd_err ex) as (e & He & E).
    - destruct (Z.eq_dec k 0) as [Z|NZ]; [left; unfold ex; rewrite KR, Z; ring|right].
      rewrite Rabs_right by lra. unfold ex. rewrite KR. change (bpow radix2 (-37)) with (/ 137438953472). pose proof (IZR_le 1 k ltac:(lia)). lra.
    - rewrite E. replace (ex * (1 + e) - ex) with (ex * e) by ring. rewrite Rabs_mult, (Rabs_right ex) by lra. pose proof (Rabs_pos e). nra. }
  apply Rabs_le_both in ER.
  assert (RP : 0 <= rnd ex). { rewrite <- rnd_0. apply round_le; [apply FLT_exp_valid; exact eq_refl|apply valid_rnd_N|lra]. }
  set (ns := Zfloor (rnd ex)). assert (N1 : IZR ns <= rnd ex) by apply Zfloor_lb. assert (N2 : rnd ex < IZR ns + 1) by (pose proof (Zfloor_ub (rnd ex)); assumption).
  assert (NL : (0 <= ns)%Z) by (apply Zfloor_lub; lra). assert (NU : (ns < 86400000000000)%Z) by (apply lt_IZR; lra).
  exists ns. rewrite (to_int_val 64 _ ns FU); [cbn [obind]; split; [reflexivity|split; [lia|lra]]|rewrite VU, Ztrunc_floor by exact RP; reflexivity|change (2 ^ (64 - 1))%Z with 9223372036854775808%Z; lia].
Qed.
(* the nanoseconds of a date since day 0 *)
Definition since (d : date) : Z := fst d * 86400000000000 + snd d.
Lemma there_and_back x (d : date) : recent x -> Rabs (val x - IZR (since d) / 86400000000000) <= / 274877906944 ->
  exists d', tai_date_double x = Ok d' /\ (Z.abs (since d' - since d) <= 316)%Z.
Proof.
  intros R H. destruct (tai_ok x R) as (ns & E & B & K). eexists. split; [exact E|]. unfold since at 1. cbn [fst snd]. set (f := Zfloor (val x)) in *.
  apply le_IZR. rewrite abs_IZR, minus_IZR, plus_IZR, mult_IZR. apply Rabs_le_both in H. apply Rabs_le.
  set (s := IZR (since d)) in *. assert (S : s = s / 86400000000000 * 86400000000000) by field. rewrite S. set (q := s / 86400000000000) in *. lra.
Qed.
(* the nearest double is as close as that *)
Lemma nearest_close t : 32768 <= t <= 65536 - / 137438953472 -> Rabs (rnd t - t) <= / 274877906944.
Proof.
  intros H. apply Rle_trans with (/ 2 * ulp radix2 (FLT_exp (-1074) 53) t).
  - apply error_le_half_ulp. apply FLT_exp_valid. exact eq_refl.
  - rewrite ulp_neq_0 by lra. unfold cexp. assert (M : mag radix2 t = 16%Z :> Z).
    { apply mag_unique. change (bpow radix2 (16 - 1)) with 32768. change (bpow radix2 16) with 65536. rewrite Rabs_right; lra. }
    rewrite M. change (bpow radix2 (FLT_exp (-1074) 53 16)) with (/ 137438953472). lra.
Qed.

(* ---- the fields of a file ---- *)
Definition signed (neg : bool) (n : Z) : Z := if neg then (- n)%Z else n.
Lemma dval_bound : forall ds a, digits_ok ds -> (0 <= a)%Z -> (0 <= fold_left (fun x d => x * 10 + d) ds a < (a + 1) * 10 ^ Z.of_nat (length ds))%Z.
Proof.
  induction ds as [|d ds IH]; intros a D A; cbn [fold_left length]; [cbn; lia|]. inversion D as [|? ? H1 H2]; subst.
  specialize (IH (a * 10 + d)%Z H2 ltac:(lia)). rewrite Nat2Z.inj_succ, Z.pow_succ_r by lia. split; [lia|].
  pose proof (Z.pow_pos_nonneg 10 (Z.of_nat (length ds)) ltac:(lia) ltac:(lia)). nia.
Qed.
Lemma field_number neg ip fp k : digits_ok ip -> digits_ok fp -> (length (fixed neg ip fp) <= k)%nat -> (1 <= k)%nat ->
  (Z.abs (signed neg (dval (ip ++ fp))) < 10 ^ (Z.of_nat k - 1))%Z.
Proof.
  intros D1 D2 L K. assert (D : digits_ok (ip ++ fp)) by (apply Forall_app; auto). destruct (dval_bound (ip ++ fp) 0 D ltac:(lia)) as [B1 B2]. fold (dval (ip ++ fp)) in *.
  assert (LL : (length (ip ++ fp) <= k - 1)%nat). { unfold fixed, dstr in L. rewrite !app_length, !map_length in L. cbn [length] in L. rewrite app_length. destruct neg; cbn [length] in L; lia. }
  assert (B3 : (10 ^ Z.of_nat (length (ip ++ fp)) <= 10 ^ (Z.of_nat k - 1))%Z) by (apply Z.pow_le_mono_r; lia).
  unfold signed. destruct neg; lia.
Qed.
Lemma fixed_fraction neg ip fp d : (Zpos d = 10 ^ Z.of_nat (length fp))%Z -> (fixed_val neg ip fp == signed neg (dval (ip ++ fp)) # d)%Q.
Proof.
  intros E. unfold fixed_val, signed. rewrite <- E.
  assert (H : (inject_Z (dval (ip ++ fp)) / inject_Z (Zpos d) == dval (ip ++ fp) # d)%Q) by (unfold Qdiv, Qeq; cbn; ring).
  destruct neg; rewrite H; unfold Qeq; cbn; ring.
Qed.
Lemma of_decimal_eq q r : (q == r)%Q -> of_decimal q = of_decimal r.
Proof. intros E. unfold of_decimal. now rewrite (Qred_complete _ _ E). Qed.
Lemma clock_line strptime e t hdr neg ip fp : epoch_ok e -> strptime (me_date e ++ after_date e) = Some t -> me_clock e = Some (neg, ip, fp) -> length fp = 9%nat ->
  exists h k, resolve_data_epoch strptime (epoch_text e ++ [nul]) hdr = Ok (0%Z, h) /\ l1_epoch_double false (h_epoch h) (of_decimal (h_clock h)) = Ok (t + k)%Z /\
    let n := signed neg (dval (ip ++ fp)) in k = n \/ k = (n - Z.sgn n)%Z.
Proof.
  intros OK S C L. destruct (epoch_roundtrip strptime e t hdr OK S) as (h & E & H1 & _ & _ & H2 & _). exists h.
  destruct OK as (_ & _ & _ & _ & _ & CK & _). rewrite C in CK, H2. cbn [Rinex_proofs.clock_ok clock_val] in CK, H2. destruct CK as (_ & D1 & D2 & W).
  pose proof (field_number neg ip fp 13 D1 D2 W ltac:(lia)) as B. change (10 ^ (Z.of_nat 13 - 1))%Z with 1000000000000%Z in B.
  rewrite (fixed_fraction neg ip fp 1000000000) in H2 by (rewrite L; reflexivity). rewrite (of_decimal_eq _ _ H2), H1. set (n := signed neg (dval (ip ++ fp))) in *.
  assert (BB : (Z.abs n <= 2 ^ 50)%Z) by (change (2 ^ 50)%Z with 1125899906842624%Z; lia).
  destruct (clock_ok t (n # 1000000000) n) as (k & K1 & K2); [split; [exact BB|discriminate]|unfold Qeq; cbn; ring|exact BB|].
  exists k. split; [exact E|]. split; [exact K1|exact K2].
Qed.
Lemma field_count n1 i1 f1 n2 i2 f2 f : fld_ok (FNum n1 i1 f1) -> fld_ok (FNum n2 i2 f2) -> length f1 = 3%nat -> length f2 = 3%nat -> (1 <= f < 2 ^ 31)%Z ->
  Rabs (val (count_double (scaled_double (of_decimal (fixed_val n2 i2 f2)) f) (scaled_double (of_decimal (fixed_val n1 i1 f1)) f))
        - Q2R ((fixed_val n2 i2 f2 - fixed_val n1 i1 f1) / inject_Z f)) <= / 100 * / 1000 * / IZR f.
Proof.
  intros (_ & A1 & A2 & A3) (_ & B1 & B2 & B3) L1 L2 Hf.
  pose proof (field_number n1 i1 f1 14 A1 A2 A3 ltac:(lia)) as A. pose proof (field_number n2 i2 f2 14 B1 B2 B3 ltac:(lia)) as B.
  assert (E1 := fixed_fraction n1 i1 f1 1000 ltac:(rewrite L1; reflexivity)). assert (E2 := fixed_fraction n2 i2 f2 1000 ltac:(rewrite L2; reflexivity)).
  change (10 ^ (Z.of_nat 14 - 1))%Z with (10 ^ 13)%Z in A, B.
  rewrite (of_decimal_eq _ _ E1), (of_decimal_eq _ _ E2). set (a := signed n1 _) in *. set (b := signed n2 _) in *.
  pose proof (count_ok a b 1000 f ltac:(lia) ltac:(lia) ltac:(discriminate) Hf) as K. pose proof (IZR_le 1 f ltac:(lia)) as F1.
  assert (EQ : Q2R ((fixed_val n2 i2 f2 - fixed_val n1 i1 f1) / inject_Z f) = IZR (b - a) * / (1000 * IZR f)).
  { assert (EE : ((fixed_val n2 i2 f2 - fixed_val n1 i1 f1) / inject_Z f == ((b - a) # 1000) * (1 # Z.to_pos f))%Q).
    { rewrite E1, E2. unfold Qdiv, Qminus, Qplus, Qmult, Qopp, Qinv, inject_Z, Qeq. cbn. destruct f as [|f|f]; try lia. cbn. lia. }
    rewrite (Qeq_eqR _ _ EE), Q2R_mult. unfold Q2R. cbn [Qnum Qden]. rewrite Z2Pos.id by lia. field. lra. }
  rewrite EQ. set (v := val _) in *. change (IZR (Zpos 1000)) with 1000 in K. set (w := 1000 * IZR f) in *. assert (W : 0 < w) by (unfold w; lra).
  replace (v - IZR (b - a) * / w) with ((v * w - IZR (b - a)) * / w) by (field; lra). rewrite Rabs_mult, (Rabs_right (/ w)) by (apply Rle_ge, Rlt_le, Rinv_0_lt_compat; lra).
  replace (/ 100 * / 1000 * / IZR f) with (/ 100 * / w) by (unfold w; field; lra). apply Rmult_le_compat_r; [apply Rlt_le, Rinv_0_lt_compat; exact W|exact K].
Qed.
Lemma field_apart n1 i1 f1 n2 i2 f2 f : fld_ok (FNum n1 i1 f1) -> fld_ok (FNum n2 i2 f2) -> length f1 = length f2 -> (1 <= f < 2 ^ 31)%Z ->
  scaled_double (of_decimal (fixed_val n1 i1 f1)) f = scaled_double (of_decimal (fixed_val n2 i2 f2)) f -> (fixed_val n1 i1 f1 == fixed_val n2 i2 f2)%Q.
Proof.
  intros (_ & A1 & A2 & A3) (_ & B1 & B2 & B3) L Hf E.
  pose proof (field_number n1 i1 f1 14 A1 A2 A3 ltac:(lia)) as A. pose proof (field_number n2 i2 f2 14 B1 B2 B3 ltac:(lia)) as B.
  change (10 ^ (Z.of_nat 14 - 1))%Z with 10000000000000%Z in A, B.
  pose proof (Z.pow_pos_nonneg 10 (Z.of_nat (length f1)) ltac:(lia) ltac:(lia)) as P.
  assert (D : exists d, Zpos d = (10 ^ Z.of_nat (length f1))%Z) by (exists (Z.to_pos (10 ^ Z.of_nat (length f1))); now apply Z2Pos.id). destruct D as (d & D).
  assert (E1 := fixed_fraction n1 i1 f1 d D). assert (E2 := fixed_fraction n2 i2 f2 d ltac:(rewrite D, L; reflexivity)).
  rewrite (of_decimal_eq _ _ E1), (of_decimal_eq _ _ E2) in E. set (a := signed n1 _) in *. set (b := signed n2 _) in *.
  destruct (Z.eq_dec a b) as [EQ|NE]; [rewrite E1, E2, EQ; reflexivity|exfalso].
  assert (LL : (length f1 <= 13)%nat). { unfold fixed, dstr in A3. rewrite !app_length, !map_length in A3. cbn [length] in A3. lia. }
  apply (apart a b d f); try (change (2 ^ 50)%Z with 1125899906842624%Z; lia); try assumption; [|now rewrite E].
  rewrite D. apply Z.le_trans with (10 ^ 13)%Z; [apply Z.pow_le_mono_r; lia|now vm_compute].
Qed.
