(* Proofs for FloatKalman_model.v: the Joseph form of one parameter is never negative in binary64; the two-parameter
   filter keeps its variances at the reference epoch and through the next one, unless the observation is too precise. *)
From Coq Require Import List ZArith QArith Qreals Reals Bool Lia Lra Psatz.
From Flocq Require Import Core Relative IEEE754.BinarySingleNaN IEEE754.Binary IEEE754.Bits.
From Verif Require Import FloatTime_model FloatTime_proofs FloatAngle_model FloatAngle_proofs FloatKalman_model.
Import ListNotations.
Local Open Scope R_scope.
#[local] Instance prec53k : Prec_gt_0 53 := eq_refl.

(* ---- finite results come from finite arguments ---- *)
Lemma overflow_not s (x : double) : B2FF 53 1024 x = binary_overflow 53 1024 mode_NE s -> finite x -> False.
Proof. intros E F. destruct x; try discriminate F; discriminate E. Qed.
Lemma mul_fin x y : finite (dmul x y) -> finite x /\ finite y /\ val (dmul x y) = rnd (val x * val y).
Proof.
  intros F. pose proof (Bmult_correct 53 1024 eq_refl eq_refl binop_nan_pl64 mode_NE x y) as C.
  change (Bmult 53 1024 eq_refl eq_refl binop_nan_pl64 mode_NE x y) with (dmul x y) in C.
  change (round radix2 _ (round_mode mode_NE) (B2R 53 1024 x * B2R 53 1024 y)) with (rnd (val x * val y)) in C.
  destruct (Rlt_bool _ _).
  - destruct C as (C1 & C2 & _). rewrite F in C2. symmetry in C2. apply andb_prop in C2. destruct C2 as [A B]. split; [exact A|]. split; [exact B|exact C1].
  - exfalso. exact (overflow_not _ _ C F).
Qed.
Lemma add_fin x y : finite (dadd x y) -> finite x /\ finite y /\ val (dadd x y) = rnd (val x + val y).
Proof.
  intros F. assert (FX : finite x) by (destruct x as [|[]| |], y as [|[]| |]; solve [discriminate F|reflexivity]).
  assert (FY : finite y) by (destruct x as [|[]| |], y as [|[]| |]; solve [discriminate F|reflexivity]).
  split; [exact FX|]. split; [exact FY|].
  pose proof (Bplus_correct 53 1024 eq_refl eq_refl binop_nan_pl64 mode_NE x y FX FY) as C.
  change (Bplus 53 1024 eq_refl eq_refl binop_nan_pl64 mode_NE x y) with (dadd x y) in C.
  change (round radix2 _ (round_mode mode_NE) (B2R 53 1024 x + B2R 53 1024 y)) with (rnd (val x + val y)) in C.
  destruct (Rlt_bool _ _); [exact (proj1 C)|]. exfalso. exact (overflow_not _ _ (proj1 C) F).
Qed.
Lemma rnd_neg x : x <= 0 -> rnd x <= 0.
Proof. intros H. rewrite <- rnd_0. now apply rnd_mono. Qed.
(* rounding a product keeps its sign *)
Lemma rnd_sign m p : 0 <= p -> 0 <= rnd (m * p) * m.
Proof.
  intros P. destruct (Rle_or_lt 0 m) as [M|M].
  - apply Rmult_le_pos; [apply rnd_pos; now apply Rmult_le_pos|exact M].
  - assert (rnd (m * p) <= 0) by (apply rnd_neg; nra). nra.
Qed.
Lemma sandwich m p : finite (dmul (dmul m p) m) -> 0 <= val p -> 0 <= val (dmul (dmul m p) m).
Proof.
  intros F P. destruct (mul_fin _ _ F) as (F1 & _ & ->). destruct (mul_fin _ _ F1) as (_ & _ & ->). apply rnd_pos. now apply rnd_sign.
Qed.
Lemma sandwich_fin m p : finite (dmul (dmul m p) m) -> finite p.
Proof. intros F. destruct (mul_fin _ _ F) as (F1 & _ & _). now destruct (mul_fin _ _ F1) as (_ & F2 & _). Qed.
Lemma step_back f s : finite (e_P (do_step f s)) -> finite (e_P f).
Proof.
  destruct s as [[[[z g] sg] H]|x phi]; cbn [do_step observe predict e_P]; intros F.
  - destruct (add_fin _ _ F) as (F1 & _ & _). exact (sandwich_fin _ _ F1).
  - exact (sandwich_fin _ _ F).
Qed.
Lemma step_pos f s : finite (e_P (do_step f s)) -> 0 <= val (e_P f) -> 0 <= val (e_P (do_step f s)).
Proof.
  destruct s as [[[[z g] sg] H]|x phi]; cbn [do_step observe predict e_P]; intros F P.
  - destruct (add_fin _ _ F) as (F1 & F2 & ->). apply rnd_pos. apply Rplus_le_le_0_compat; [exact (sandwich _ _ F1 P)|].
    destruct (mul_fin _ _ F2) as (_ & _ & ->). apply rnd_pos. nra.
  - exact (sandwich _ _ F P).
Qed.
Lemma steps_back l : forall f, finite (e_P (steps f l)) -> finite (e_P f).
Proof. induction l as [|s l IH]; intros f F; [exact F|]. exact (step_back _ _ (IH _ F)). Qed.
Lemma steps_pos l : forall f, finite (e_P (steps f l)) -> 0 <= val (e_P f) -> 0 <= val (e_P (steps f l)).
Proof.
  induction l as [|s l IH]; intros f F P; [exact P|]. apply IH; [exact F|]. apply step_pos; [exact (steps_back l _ F)|exact P].
Qed.
Lemma steps_all l1 l2 f : finite (e_P (steps f (l1 ++ l2))) -> 0 <= val (e_P f) ->
  finite (e_P (steps f l1)) /\ 0 <= val (e_P (steps f l1)) /\ finite (dsqrt (e_P (steps f l1))).
Proof.
  unfold steps at 1. rewrite fold_left_app. intros F P. assert (F1 : finite (e_P (steps f l1))) by exact (steps_back l2 _ F).
  pose proof (steps_pos l1 f F1 P) as P1. split; [exact F1|]. split; [exact P1|]. exact (proj1 (sqrt_ok _ F1 P1)).
Qed.

(* ---- the filter of two parameters ---- *)
Lemma Rabs_sqr_mul x : Rabs x * Rabs x = x * x.
Proof. rewrite <- Rabs_mult. apply Rabs_pos_eq. nra. Qed.
Lemma rnd_of x : rnd (val x) = val x.
Proof. apply round_generic; [apply valid_rnd_N|apply format_of]. Qed.
Lemma Rabs_pow x k : 0 <= x <= pow2 k -> Rabs x <= pow2 k.
Proof. intros [A B]. now rewrite Rabs_pos_eq. Qed.
Lemma prod_pow x y i j : Rabs x <= pow2 i -> Rabs y <= pow2 j -> Rabs (x * y) <= pow2 (i + j).
Proof. intros A B. rewrite Rabs_mult, bpow_plus. pose proof (Rabs_pos x). pose proof (Rabs_pos y). apply Rmult_le_compat; lra. Qed.
Lemma sum_pow x y i : Rabs x <= pow2 i -> Rabs y <= pow2 i -> Rabs (x + y) <= pow2 (i + 1).
Proof. intros A B. rewrite pow2_S. pose proof (Rabs_triang x y). lra. Qed.
Lemma quot_pow x y i j : Rabs x <= pow2 i -> pow2 j <= y -> Rabs (x / y) <= pow2 (i - j).
Proof.
  intros A B. pose proof (bpow_gt_0 radix2 j). unfold Rdiv. rewrite Rabs_mult, Rabs_inv, (Rabs_pos_eq y) by lra. unfold Z.sub. rewrite bpow_plus, bpow_opp.
  apply Rmult_le_compat; [apply Rabs_pos|left; apply Rinv_0_lt_compat; lra|exact A|]. apply Rinv_le; lra.
Qed.
(* variances that are not negative, uncorrelated, and an observation with one *)
Record sound (f : filter2) : Prop := {
  s_P0 : finite (f_P0 f) /\ 0 <= val (f_P0 f) <= pow2 400;
  s_P1 : finite (f_P1 f) /\ val (f_P1 f) = 0;
  s_P2 : finite (f_P2 f) /\ 0 <= val (f_P2 f) <= pow2 400;
  s_R : finite (f_R f) /\ pow2 (-400) <= val (f_R f) <= pow2 400 }.
(* what an update computes on the way *)
Record inner (f : filter2) (dt : double) (b h t s k0 k1 c : double) : Prop := {
  i_b : finite b /\ val b = rnd (val (f_P2 f) * val dt);
  i_h : finite h /\ val h = rnd (val dt * val b) /\ 0 <= val h;
  i_t : finite t /\ val t = rnd (val (f_P0 f) + val h);
  i_s : finite s /\ val s = rnd (val t + val (f_R f)) /\ val (f_P0 f) <= val s /\ val h <= val t /\ val (f_R f) <= val s;
  i_k0 : finite k0 /\ 0 <= val k0 <= 1 /\ val k0 = rnd (val (f_P0 f) / val s);
  i_k1 : finite k1 /\ val k1 = rnd (val b / val s) /\ 0 <= val k1 * val dt;
  i_c : finite c /\ val c = rnd (val k1 * val dt) /\ 0 <= val c }.
Lemma zero_mul x y k : finite x -> finite y -> (0 <= k < 1024)%Z -> Rabs (val y) <= pow2 k -> val x = 0 -> finite (dmul x y) /\ val (dmul x y) = 0.
Proof.
  intros FX FY K B Z. destruct (mul_ok x y 0 FX FY ltac:(lia)) as [F V]; [rewrite Z, Rmult_0_l, Rabs_R0; apply bpow_ge_0|]. split; [exact F|]. rewrite V, Z, Rmult_0_l. exact rnd_0.
Qed.
Lemma mul_zero x y : finite x -> finite y -> val y = 0 -> finite (dmul x y) /\ val (dmul x y) = 0.
Proof.
  intros FX FY Z. destruct (mul_ok x y 0 FX FY ltac:(lia)) as [F V]; [rewrite Z, Rmult_0_r, Rabs_R0; apply bpow_ge_0|]. split; [exact F|]. rewrite V, Z, Rmult_0_r. exact rnd_0.
Qed.
Lemma add_zero_r x y k : finite x -> finite y -> (0 <= k < 1024)%Z -> Rabs (val x) <= pow2 k -> val y = 0 -> finite (dadd x y) /\ val (dadd x y) = val x.
Proof.
  intros FX FY K B Z. destruct (add_ok x y k FX FY ltac:(lia)) as [F V]; [rewrite Z, Rplus_0_r; exact B|]. split; [exact F|]. rewrite V, Z, Rplus_0_r. apply rnd_of.
Qed.
Lemma add_zero_l x y k : finite x -> finite y -> (0 <= k < 1024)%Z -> Rabs (val y) <= pow2 k -> val x = 0 -> finite (dadd x y) /\ val (dadd x y) = val y.
Proof.
  intros FX FY K B Z. destruct (add_ok x y k FX FY ltac:(lia)) as [F V]; [rewrite Z, Rplus_0_l; exact B|]. split; [exact F|]. rewrite V, Z, Rplus_0_l. apply rnd_of.
Qed.
Lemma sub_zero_r x y k : finite x -> finite y -> (0 <= k < 1024)%Z -> Rabs (val x) <= pow2 k -> val y = 0 -> finite (dsub x y) /\ val (dsub x y) = val x.
Proof.
  intros FX FY K B Z. destruct (sub_ok x y k FX FY ltac:(lia)) as [F V]; [rewrite Z, Rminus_0_r; exact B|]. split; [exact F|]. rewrite V, Z, Rminus_0_r. apply rnd_of.
Qed.
Definition u_a f dt := dadd (f_P0 f) (dmul (f_P1 f) dt).
Definition u_b f dt := dadd (f_P1 f) (dmul (f_P2 f) dt).
Definition u_h f dt := dmul dt (u_b f dt).
Definition u_t f dt := dadd (u_a f dt) (u_h f dt).
Definition u_s f dt := dadd (u_t f dt) (f_R f).
Definition u_k0 f dt := ddiv (u_a f dt) (u_s f dt).
Definition u_k1 f dt := ddiv (u_b f dt) (u_s f dt).
Definition u_c f dt := dmul (u_k1 f dt) dt.
Definition u_P1 f dt := ddiv (dadd (dsub (dmul (dsub one (u_k0 f dt)) (f_P1 f)) (dmul (dmul (f_P2 f) (u_k0 f dt)) dt))
  (dadd (dmul (dopp (u_k1 f dt)) (f_P0 f)) (dmul (dsub one (u_c f dt)) (f_P1 f)))) two.
Lemma update_eq f z dt : update f z dt =
  F2 (dadd (f_x0 f) (dmul (u_k0 f dt) (dsub z (value_at f dt)))) (dadd (f_x1 f) (dmul (u_k1 f dt) (dsub z (value_at f dt))))
     (dsub (dmul (dsub one (u_k0 f dt)) (f_P0 f)) (dmul (dmul (f_P1 f) (u_k0 f dt)) dt))
     (u_P1 f dt)
     (dadd (dmul (dopp (u_k1 f dt)) (f_P1 f)) (dmul (dsub one (u_c f dt)) (f_P2 f))) (f_R f).
Proof. unfold update, u_P1, u_c, u_k1, u_k0, u_s, u_t, u_h, u_b, u_a. reflexivity. Qed.
Lemma inside f dt : sound f -> finite dt -> Rabs (val dt) <= pow2 20 ->
  inner f dt (u_b f dt) (u_h f dt) (u_t f dt) (u_s f dt) (u_k0 f dt) (u_k1 f dt) (u_c f dt) /\ finite (u_a f dt) /\ val (u_a f dt) = val (f_P0 f).
Proof.
  intros [[F0 B0] [F1 Z1] [F2 B2] [FR BR]] FD BD.
  destruct (zero_mul (f_P1 f) dt 20 F1 FD ltac:(lia) BD Z1) as [Fz Vz].
  destruct (add_zero_r (f_P0 f) (dmul (f_P1 f) dt) 400 F0 Fz ltac:(lia) (Rabs_pow _ _ B0) Vz) as [Fa Va]. fold (u_a f dt) in Fa, Va.
  pose proof (prod_pow _ _ 400 20 (Rabs_pow _ _ B2) BD) as Q. change (400 + 20)%Z with 420%Z in Q.
  destruct (mul_ok (f_P2 f) dt 420 F2 FD ltac:(lia) Q) as [Fp Vp].
  assert (Bp : Rabs (val (dmul (f_P2 f) dt)) <= pow2 420) by (rewrite Vp; apply rnd_size; [lia|exact Q]).
  destruct (add_zero_l (f_P1 f) _ 420 F1 Fp ltac:(lia) Bp Z1) as [Fb Vb]. fold (u_b f dt) in Fb, Vb.
  assert (Bb : Rabs (val (u_b f dt)) <= pow2 420) by (rewrite Vb; exact Bp).
  rewrite Vp in Vb.
  pose proof (prod_pow _ _ 20 420 BD Bb) as Qh. change (20 + 420)%Z with 440%Z in Qh.
  destruct (mul_ok dt (u_b f dt) 440 FD Fb ltac:(lia) Qh) as [Fh Vh]. fold (u_h f dt) in Fh, Vh.
  assert (Sb : 0 <= val (u_b f dt) * val dt) by (rewrite Vb, (Rmult_comm (val (f_P2 f))); apply rnd_sign; lra).
  assert (Ph : 0 <= val (u_h f dt)) by (rewrite Vh; apply rnd_pos; lra).
  assert (Bh : Rabs (val (u_h f dt)) <= pow2 440) by (rewrite Vh; apply rnd_size; [lia|exact Qh]).
  pose proof (bpow_le radix2 400 440 ltac:(lia)) as L1. pose proof (bpow_le radix2 400 441 ltac:(lia)) as L2. pose proof (bpow_gt_0 radix2 (-400)) as G.
  assert (Qt : Rabs (val (u_a f dt) + val (u_h f dt)) <= pow2 441) by (apply (sum_pow _ _ 440); [rewrite Va; apply Rabs_pow; lra|exact Bh]).
  destruct (add_ok (u_a f dt) (u_h f dt) 441 Fa Fh ltac:(lia) Qt) as [Ft Vt]. fold (u_t f dt) in Ft, Vt.
  assert (Bt : Rabs (val (u_t f dt)) <= pow2 441) by (rewrite Vt; apply rnd_size; [lia|exact Qt]).
  rewrite Va in Vt.
  assert (T0 : val (f_P0 f) <= val (u_t f dt)) by (rewrite Vt, <- (rnd_of (f_P0 f)) at 1; apply rnd_mono; lra).
  assert (Th : val (u_h f dt) <= val (u_t f dt)) by (rewrite Vt, <- (rnd_of (u_h f dt)) at 1; apply rnd_mono; lra).
  assert (Qs : Rabs (val (u_t f dt) + val (f_R f)) <= pow2 442) by (apply (sum_pow _ _ 441); [exact Bt|apply Rabs_pow; lra]).
  destruct (add_ok (u_t f dt) (f_R f) 442 Ft FR ltac:(lia) Qs) as [Fs Vs]. fold (u_s f dt) in Fs, Vs.
  assert (St : val (u_t f dt) <= val (u_s f dt)) by (rewrite Vs, <- (rnd_of (u_t f dt)) at 1; apply rnd_mono; lra).
  assert (SR : val (f_R f) <= val (u_s f dt)) by (rewrite Vs, <- (rnd_of (f_R f)) at 1; apply rnd_mono; lra).
  assert (K0 : 0 <= val (u_a f dt) / val (u_s f dt) <= 1).
  { rewrite Va. split; [apply Rmult_le_pos; [lra|left; apply Rinv_0_lt_compat; lra]|]. apply Rmult_le_reg_r with (val (u_s f dt)); [lra|]. unfold Rdiv. rewrite Rmult_assoc, Rinv_l by lra. lra. }
  destruct (div_ok (u_a f dt) (u_s f dt) 0 Fa ltac:(lra) ltac:(lia) (Rabs_pow _ 0 K0)) as [Fk0 Vk0]. fold (u_k0 f dt) in Fk0, Vk0.
  assert (Bk0 : 0 <= val (u_k0 f dt) <= 1).
  { rewrite Vk0. split; [apply rnd_pos; lra|]. change 1 with (pow2 0). rewrite <- (rnd_pow 0) by lia. apply rnd_mono. exact (proj2 K0). }
  rewrite Va in Vk0.
  pose proof (quot_pow _ (val (u_s f dt)) 420 (-400) Bb ltac:(lra)) as Q1. change (420 - -400)%Z with 820%Z in Q1.
  destruct (div_ok (u_b f dt) (u_s f dt) 820 Fb ltac:(lra) ltac:(lia) Q1) as [Fk1 Vk1]. fold (u_k1 f dt) in Fk1, Vk1.
  assert (Bk1 : Rabs (val (u_k1 f dt)) <= pow2 820) by (rewrite Vk1; apply rnd_size; [lia|exact Q1]).
  assert (Sk1 : 0 <= val (u_k1 f dt) * val dt).
  { assert (I : 0 < / val (u_s f dt)) by (apply Rinv_0_lt_compat; lra). rewrite Vk1. unfold Rdiv. clear - Sb I.
    destruct (Rle_or_lt 0 (val dt)) as [D|D].
    - destruct (Req_dec (val dt) 0) as [->|N]; [lra|]. apply Rmult_le_pos; [|exact D]. apply rnd_pos. apply Rmult_le_pos; [|lra]. nra.
    - assert (rnd (val (u_b f dt) * / val (u_s f dt)) <= 0); [|nra]. apply rnd_neg. assert (val (u_b f dt) <= 0) by nra. nra. }
  pose proof (prod_pow _ _ 820 20 Bk1 BD) as Qc. change (820 + 20)%Z with 840%Z in Qc.
  destruct (mul_ok (u_k1 f dt) dt 840 Fk1 FD ltac:(lia) Qc) as [Fc Vc]. fold (u_c f dt) in Fc, Vc.
  assert (Pc : 0 <= val (u_c f dt)) by (rewrite Vc; now apply rnd_pos).
  split; [|split; [exact Fa|exact Va]]. constructor; repeat (split; [assumption|]); first [assumption|lra|idtac].
Qed.
Lemma one_minus k : finite k -> 0 <= val k <= 1 -> finite (dsub one k) /\ 0 <= val (dsub one k) <= 1 /\ val (dsub one k) = rnd (1 - val k).
Proof.
  intros F B. destruct one_ok as [F1 V1]. assert (A : 0 <= 1 - val k <= pow2 0) by (cbn; lra).
  destruct (sub_ok one k 0 F1 F ltac:(lia)) as [FS VS]; [rewrite V1; exact (Rabs_pow _ _ A)|]. rewrite V1 in VS. split; [exact FS|]. rewrite VS. split; [|reflexivity].
  split; [apply rnd_pos; lra|]. change 1 with (pow2 0) at 2. rewrite <- (rnd_pow 0) by lia. apply rnd_mono. exact (proj2 A).
Qed.
Lemma shrink m p : finite m -> finite p -> 0 <= val m <= 1 -> 0 <= val p <= pow2 400 -> finite (dmul m p) /\ 0 <= val (dmul m p) <= val p /\ val (dmul m p) = rnd (val m * val p).
Proof.
  intros FM FP BM BP. assert (A : 0 <= val m * val p <= val p) by (split; [apply Rmult_le_pos; lra|nra]).
  destruct (mul_ok m p 400 FM FP ltac:(lia)) as [F V]; [apply Rabs_pow; lra|]. split; [exact F|]. split; [|exact V]. rewrite V. split; [apply rnd_pos; lra|].
  rewrite <- (rnd_of p) at 2. apply rnd_mono. lra.
Qed.
Lemma update_P0 f z dt : sound f -> finite dt -> Rabs (val dt) <= pow2 20 -> finite (f_P0 (update f z dt)) /\ 0 <= val (f_P0 (update f z dt)) <= val (f_P0 f).
Proof.
  intros S FD BD. destruct (inside f dt S FD BD) as [[_ _ _ _ (FK & BK & _) _ _] _]. destruct S as [[F0 B0] [F1 Z1] _ _].
  destruct (one_minus _ FK BK) as (FM & BM & _). destruct (shrink _ (f_P0 f) FM F0 BM B0) as (FX & BX & _).
  destruct (zero_mul (f_P1 f) (u_k0 f dt) 0 F1 FK ltac:(lia)) as [FY VY]; [apply Rabs_pow; cbn; lra|exact Z1|].
  destruct (zero_mul _ dt 20 FY FD ltac:(lia) BD VY) as [FZ VZ].
  destruct (sub_zero_r _ _ 400 FX FZ ltac:(lia)) as [F V]; [apply Rabs_pow; lra|exact VZ|].
  rewrite update_eq. cbn [f_P0]. split; [exact F|]. rewrite V. exact BX.
Qed.
Lemma update_P2 f z dt : sound f -> finite dt -> Rabs (val dt) <= pow2 20 -> val (u_c f dt) <= 1 -> finite (f_P2 (update f z dt)) /\ 0 <= val (f_P2 (update f z dt)) <= val (f_P2 f).
Proof.
  intros S FD BD C1. destruct (inside f dt S FD BD) as [[_ _ _ _ _ (FK & _) (FC & _ & C0)] _]. destruct S as [_ [F1 Z1] [F2 B2] _].
  destruct (one_minus _ FC (conj C0 C1)) as (FM & BM & _). destruct (shrink _ (f_P2 f) FM F2 BM B2) as (FX & BX & _).
  destruct (opp_ok _ FK) as [FO VO]. destruct (mul_zero (dopp (u_k1 f dt)) (f_P1 f) FO F1 Z1) as [FY VY].
  destruct (add_zero_l _ _ 400 FY FX ltac:(lia)) as [F V]; [apply Rabs_pow; lra|exact VY|].
  rewrite update_eq. cbn [f_P2]. split; [exact F|]. rewrite V. exact BX.
Qed.

(* ---- at the reference epoch ---- *)
Lemma at_zero f z dt : sound f -> finite dt -> val dt = 0 ->
  sound (update f z dt) /\ val (f_P0 (update f z dt)) <= val (f_P0 f) /\ val (f_P2 (update f z dt)) = val (f_P2 f) /\ f_R (update f z dt) = f_R f /\
  (finite (f_x0 f) -> Rabs (val (f_x0 f)) <= pow2 1000 -> finite (f_x1 f) -> Rabs (val (f_x1 f)) <= pow2 1000 -> finite z -> val z = val (f_x0 f) ->
   finite (f_x0 (update f z dt)) /\ val (f_x0 (update f z dt)) = val (f_x0 f) /\ finite (f_x1 (update f z dt)) /\ val (f_x1 (update f z dt)) = val (f_x1 f)).
Proof.
  intros S FD ZD. assert (BD : Rabs (val dt) <= pow2 20) by (rewrite ZD, Rabs_R0; apply bpow_ge_0).
  destruct (inside f dt S FD BD) as [[(Fb & Vb) _ _ (Fs & _ & _ & _ & Rs) (FK0 & BK0 & _) (FK & VK & _) (FC & VC & C0)] [Fa Va]].
  pose proof (update_P0 f z dt S FD BD) as [FP0 BP0].
  assert (Zb : val (u_b f dt) = 0) by (rewrite Vb, ZD, Rmult_0_r; exact rnd_0).
  assert (ZK : val (u_k1 f dt) = 0) by (rewrite VK, Zb; unfold Rdiv; rewrite Rmult_0_l; exact rnd_0).
  assert (ZC : val (u_c f dt) = 0) by (rewrite VC, ZK, Rmult_0_l; exact rnd_0).
  pose proof S as S'. destruct S' as [[F0 B0] [F1 Z1] [F2 B2] [FR BR]].
  destruct (one_minus _ FC ltac:(lra)) as (FM & BM & VM).
  assert (M1 : val (dsub one (u_c f dt)) = 1) by (rewrite VM, ZC, Rminus_0_r; change 1 with (pow2 0); apply rnd_pow; lia).
  destruct (shrink _ (f_P2 f) FM F2 BM B2) as (FX & BX & VX).
  assert (VX' : val (dmul (dsub one (u_c f dt)) (f_P2 f)) = val (f_P2 f)) by (rewrite VX, M1, Rmult_1_l; apply rnd_of).
  destruct (opp_ok _ FK) as [FO VO]. destruct (mul_zero (dopp (u_k1 f dt)) (f_P1 f) FO F1 Z1) as [FY VY].
  destruct (add_zero_l _ _ 400 FY FX ltac:(lia)) as [FP2 VP2]; [apply Rabs_pow; lra|exact VY|].
  (* the covariance *)
  destruct (one_minus _ FK0 BK0) as (FM0 & BM0 & _).
  destruct (mul_zero _ _ FM0 F1 Z1) as [FA VA].
  destruct (shrink _ (f_P2 f) FK0 F2 BK0 B2) as (FQ & BQ & VQ).
  assert (FQ' : finite (dmul (f_P2 f) (u_k0 f dt))).
  { refine (proj1 (mul_ok _ _ 400 F2 FK0 ltac:(lia) _)). apply (prod_pow _ _ 400 0); [apply Rabs_pow; exact B2|apply Rabs_pow; cbn; lra]. }
  destruct (mul_zero _ dt FQ' FD ZD) as [FB VB].
  destruct (sub_zero_r _ _ 0 FA FB ltac:(lia)) as [FE VE]; [rewrite VA, Rabs_R0; apply bpow_ge_0|exact VB|].
  destruct (zero_mul (dopp (u_k1 f dt)) (f_P0 f) 400 FO F0 ltac:(lia)) as [FG VG]; [apply Rabs_pow; exact B0|rewrite VO, ZK; lra|].
  destruct (mul_zero _ _ FM F1 Z1) as [FH VH].
  destruct (add_zero_l _ _ 0 FG FH ltac:(lia)) as [FI VI]; [rewrite VH, Rabs_R0; apply bpow_ge_0|exact VG|].
  destruct (add_zero_l _ _ 0 FE FI ltac:(lia)) as [FJ VJ]; [rewrite VI, VH, Rabs_R0; apply bpow_ge_0|rewrite VE; exact VA|].
  destruct two_ok as [FT VT].
  assert (J0 : val (dadd (dsub (dmul (dsub one (u_k0 f dt)) (f_P1 f)) (dmul (dmul (f_P2 f) (u_k0 f dt)) dt)) (dadd (dmul (dopp (u_k1 f dt)) (f_P0 f)) (dmul (dsub one (u_c f dt)) (f_P1 f)))) / val two = 0).
  { rewrite VJ, VI, VH. unfold Rdiv. apply Rmult_0_l. }
  destruct (div_ok _ two 0 FJ ltac:(rewrite VT; lra) ltac:(lia)) as [FP1 VP1]; [rewrite J0, Rabs_R0; apply bpow_ge_0|].
  rewrite J0, rnd_0 in VP1. fold (u_P1 f dt) in FP1, VP1. rewrite update_eq in FP0, BP0 |- *. cbn [f_x0 f_x1 f_P0 f_P1 f_P2 f_R] in FP0, BP0 |- *.
  split; [|split; [lra|split; [rewrite VP2; exact VX'|split; [reflexivity|]]]].
  - constructor; cbn [f_x0 f_x1 f_P0 f_P1 f_P2 f_R].
    + split; [exact FP0|lra].
    + split; [exact FP1|exact VP1].
    + split; [exact FP2|]. rewrite VP2, VX'. exact B2.
    + split; [exact FR|exact BR].
  - intros FX0 BX0 FX1 BX1 Fz Vz. destruct (zero_mul dt (f_x1 f) 1000 FD FX1 ltac:(lia) BX1 ZD) as [Fm Vm].
    destruct (add_zero_r (f_x0 f) _ 1000 FX0 Fm ltac:(lia) BX0 Vm) as [Fv Vv]. fold (value_at f dt) in Fv, Vv.
    assert (Y0 : val z - val (value_at f dt) = 0) by (rewrite Vv, Vz; ring).
    destruct (sub_ok z (value_at f dt) 0 Fz Fv ltac:(lia)) as [Fy Vy]; [rewrite Y0, Rabs_R0; apply bpow_ge_0|]. rewrite Y0, rnd_0 in Vy.
    destruct (mul_zero (u_k0 f dt) _ FK0 Fy Vy) as [F3 V3]. destruct (mul_zero (u_k1 f dt) _ FK Fy Vy) as [F4 V4].
    destruct (add_zero_r (f_x0 f) _ 1000 FX0 F3 ltac:(lia) BX0 V3) as [F5 V5]. destruct (add_zero_r (f_x1 f) _ 1000 FX1 F4 ltac:(lia) BX1 V4) as [F6 V6].
    split; [exact F5|]. split; [exact V5|]. split; [exact F6|exact V6].
Qed.

(* ---- an observation later on ---- *)
Lemma rnd_rel' x : x = 0 \/ pow2 (-1022) <= Rabs x -> exists e, Rabs e <= u /\ rnd x = x * (1 + e).
Proof. intros [->|H]; [exists 0; rewrite Rabs_R0, rnd_0; split; lra|]. exact (rnd_rel x H). Qed.
Lemma prod_low x y i j : pow2 i <= Rabs x -> pow2 j <= Rabs y -> pow2 (i + j) <= Rabs (x * y).
Proof. intros A B. rewrite Rabs_mult, bpow_plus. pose proof (bpow_ge_0 radix2 i). pose proof (bpow_ge_0 radix2 j). apply Rmult_le_compat; lra. Qed.
Lemma rnd_low x k : (-1074 <= k)%Z -> pow2 k <= Rabs x -> pow2 k <= Rabs (rnd x).
Proof.
  intros K H. apply abs_round_ge_generic; [apply FLT_exp_valid; exact eq_refl|apply valid_rnd_N| |exact H]. apply generic_format_bpow. unfold FLT_exp. lia.
Qed.
Lemma quot_low x y i j : pow2 i <= Rabs x -> 0 < y <= pow2 j -> pow2 (i - j) <= Rabs (x / y).
Proof.
  intros A B. unfold Rdiv. rewrite Rabs_mult, Rabs_inv, (Rabs_pos_eq y) by lra. unfold Z.sub. rewrite bpow_plus, bpow_opp.
  pose proof (bpow_ge_0 radix2 i). pose proof (bpow_gt_0 radix2 j). apply Rmult_le_compat; [lra|left; apply Rinv_0_lt_compat; lra|exact A|]. apply Rinv_le; lra.
Qed.
Lemma ratio D R s h t e1 e2 e3 e4 e5 : Rabs e1 <= u -> Rabs e2 <= u -> Rabs e3 <= u -> Rabs e4 <= u -> Rabs e5 <= u ->
  0 <= D -> 0 < R -> 8 * u * D <= R -> h = D * (1 + e1) * (1 + e2) -> h <= t -> s = (t + R) * (1 + e3) ->
  D * (1 + e1) * (1 + e4) * (1 + e5) <= s.
Proof.
  intros H1 H2 H3 H4 H5 PD PR L Eh Ht Es. apply Rabs_le_both in H1, H2, H3, H4, H5. set (G := D * (1 + e1)) in *.
  assert (PG : 0 <= G) by (unfold G; apply Rmult_le_pos; lra). assert (LG : 4 * u * G <= R * (3 / 4)).
  { unfold G. assert (D * (1 + e1) <= D * (1 + u)) by (apply Rmult_le_compat_l; lra). clear - H L PD. lra. }
  assert (A : G * (1 - u) <= h) by (rewrite Eh; apply Rmult_le_compat_l; lra).
  assert (B : (G * (1 - u) + R) * (1 - u) <= s).
  { assert (0 <= G * (1 - u)) by (apply Rmult_le_pos; lra). rewrite Es. apply Rmult_le_compat; lra. }
  assert (C : G * (1 + e4) * (1 + e5) <= G * (1 + u) * (1 + u)).
  { apply Rmult_le_compat; first [apply Rmult_le_pos; lra|apply Rmult_le_compat_l; lra|lra]. }
  clear - LG B C PG PR. lra.
Qed.
Lemma contraction f dt : sound f -> finite dt -> Rabs (val dt) <= pow2 20 -> val dt = 0 \/ pow2 (-47) <= Rabs (val dt) ->
  val (f_P2 f) = 0 \/ pow2 (-400) <= val (f_P2 f) -> 8 * u * (val (f_P2 f) * val dt * val dt) <= val (f_R f) -> val (u_c f dt) <= 1.
Proof.
  intros S FD BD LD LP LR. destruct (inside f dt S FD BD) as [[(Fb & Vb) (Fh & Vh & Ph) (Ft & Vt) (Fs & Vs & P0s & ht & Rs) _ (FK & VK & SK) (FC & VC & C0)] _].
  destruct S as [[F0 B0] _ [F2 B2] [FR BR]]. pose proof (bpow_gt_0 radix2 (-400)) as G.
  assert (Z : val (f_P2 f) * val dt = 0 -> val (u_c f dt) <= 1).
  { intros Z. rewrite VC, VK, Vb, Z, rnd_0. unfold Rdiv. rewrite Rmult_0_l, rnd_0, Rmult_0_l, rnd_0. lra. }
  destruct LP as [LP|LP]; [apply Z; rewrite LP; ring|]. destruct LD as [LD|LD]; [apply Z; rewrite LD; ring|]. clear Z.
  assert (LP' : pow2 (-400) <= Rabs (val (f_P2 f))) by (rewrite Rabs_pos_eq; lra).
  pose proof (prod_low _ _ _ _ LP' LD) as Lb. change (-400 + -47)%Z with (-447)%Z in Lb.
  assert (Lb' : pow2 (-447) <= Rabs (val (u_b f dt))) by (rewrite Vb; apply rnd_low; [lia|exact Lb]).
  pose proof (prod_low _ _ _ _ LD Lb') as Lh. change (-47 + -447)%Z with (-494)%Z in Lh.
  assert (Ub : Rabs (val (f_P2 f) * val dt) <= pow2 420) by (apply (prod_pow _ _ 400 20); [apply Rabs_pow; exact B2|exact BD]).
  assert (Ub' : Rabs (val (u_b f dt)) <= pow2 420) by (rewrite Vb; apply rnd_size; [lia|exact Ub]).
  assert (Uh : val (u_h f dt) <= pow2 440).
  { rewrite Vh. refine (Rle_trans _ _ _ (Rle_abs _) _). apply rnd_size; [lia|]. exact (prod_pow _ _ 20 420 BD Ub'). }
  pose proof (bpow_le radix2 400 440 ltac:(lia)) as L1. pose proof (bpow_le radix2 400 441 ltac:(lia)) as L2.
  assert (Ut : val (u_t f dt) <= pow2 441).
  { rewrite Vt. refine (Rle_trans _ _ _ (Rle_abs _) _). apply rnd_size; [lia|]. apply (sum_pow _ _ 440); apply Rabs_pow; lra. }
  assert (Us : val (u_s f dt) <= pow2 442).
  { rewrite Vs. refine (Rle_trans _ _ _ (Rle_abs _) _). apply rnd_size; [lia|]. apply (sum_pow _ _ 441); apply Rabs_pow; lra. }
  pose proof (quot_low (val (u_b f dt)) (val (u_s f dt)) _ 442 Lb' ltac:(lra)) as Lk. change (-447 - 442)%Z with (-889)%Z in Lk.
  assert (Lk' : pow2 (-889) <= Rabs (val (u_k1 f dt))) by (rewrite VK; apply rnd_low; [lia|exact Lk]).
  pose proof (prod_low _ _ _ _ Lk' LD) as Lc. change (-889 + -47)%Z with (-936)%Z in Lc.
  destruct (rnd_rel' (val (f_P2 f) * val dt)) as (e1 & H1 & E1); [right; refine (Rle_trans _ _ _ _ Lb); apply bpow_le; lia|].
  destruct (rnd_rel' (val dt * val (u_b f dt))) as (e2 & H2 & E2); [right; refine (Rle_trans _ _ _ _ Lh); apply bpow_le; lia|].
  destruct (rnd_rel' (val (u_t f dt) + val (f_R f))) as (e3 & H3 & E3).
  { right. rewrite Rabs_pos_eq by lra. pose proof (bpow_le radix2 (-1022) (-400) ltac:(lia)). lra. }
  destruct (rnd_rel' (val (u_b f dt) / val (u_s f dt))) as (e4 & H4 & E4); [right; refine (Rle_trans _ _ _ _ Lk); apply bpow_le; lia|].
  destruct (rnd_rel' (val (u_k1 f dt) * val dt)) as (e5 & H5 & E5); [right; refine (Rle_trans _ _ _ _ Lc); apply bpow_le; lia|].
  rewrite E1 in Vb. rewrite E2, Vb in Vh. rewrite E3 in Vs. rewrite E4, Vb in VK. rewrite E5, VK in VC.
  set (D := val (f_P2 f) * val dt * val dt) in *.
  assert (PD : 0 <= D) by (unfold D; rewrite Rmult_assoc; apply Rmult_le_pos; [lra|nra]).
  pose proof (ratio D (val (f_R f)) (val (u_s f dt)) (val (u_h f dt)) (val (u_t f dt)) e1 e2 e3 e4 e5 H1 H2 H3 H4 H5 PD ltac:(lra) LR
    ltac:(rewrite Vh; unfold D; ring) ht Vs) as Q.
  assert (Sp : 0 < val (u_s f dt)) by lra.
  rewrite VC. replace (val (f_P2 f) * val dt * (1 + e1) / val (u_s f dt) * (1 + e4) * val dt * (1 + e5)) with (D * (1 + e1) * (1 + e4) * (1 + e5) / val (u_s f dt)) by (unfold D; field; lra).
  apply Rmult_le_reg_r with (val (u_s f dt)); [exact Sp|]. unfold Rdiv. rewrite Rmult_assoc, Rinv_l by lra. lra.
Qed.

(* ---- the elapsed days and the start ---- *)
Lemma day_ok : finite (of_int 86400000000000) /\ val (of_int 86400000000000) = 86400000000000.
Proof. exact (of_int_ok 86400000000000 ltac:(discriminate)). Qed.
Lemma days_ok ns : (Z.abs ns <= 2 ^ 53)%Z -> finite (days ns) /\ val (days ns) = rnd (IZR ns / 86400000000000) /\ Rabs (val (days ns)) <= pow2 20 /\ (ns = 0%Z -> val (days ns) = 0) /\
  (val (days ns) = 0 \/ pow2 (-47) <= Rabs (val (days ns))).
Proof.
  intros B. destruct (of_int_ok ns B) as [F V]. destruct day_ok as [FD VD].
  assert (Q : Rabs (IZR ns / 86400000000000) <= pow2 7).
  { unfold Rdiv. rewrite Rabs_mult, (Rabs_pos_eq (/ _)) by lra. rewrite <- abs_IZR. apply IZR_le in B. change (2 ^ 53)%Z with 9007199254740992%Z in B. change (pow2 7) with 128. lra. }
  destruct (div_ok (of_int ns) (of_int 86400000000000) 7 F ltac:(rewrite VD; lra) ltac:(lia)) as [FQ VQ]; [rewrite V, VD; exact Q|].
  rewrite V, VD in VQ. fold (days ns) in FQ, VQ. split; [exact FQ|]. split; [exact VQ|]. split; [|split].
  - rewrite VQ. refine (Rle_trans _ _ _ (rnd_size _ 7 ltac:(lia) Q) _). apply bpow_le. lia.
  - intros ->. rewrite VQ. unfold Rdiv. rewrite Rmult_0_l. exact rnd_0.
  - destruct (Z.eq_dec ns 0) as [->|N]; [left; rewrite VQ; unfold Rdiv; rewrite Rmult_0_l; exact rnd_0|]. right. rewrite VQ. apply rnd_low; [lia|].
    assert (H : 1 <= Rabs (IZR ns)) by (rewrite <- abs_IZR; apply IZR_le; lia).
    unfold Rdiv. rewrite Rabs_mult, (Rabs_pos_eq (/ _)) by lra. change (pow2 (-47)) with (/ 140737488355328). lra.
Qed.
(* a standard deviation: none, or one of an ordinary size *)
Definition ordinary (s : double) : Prop := finite s /\ pow2 (-100) <= Rabs (val s) <= pow2 100.
Definition none_or_ordinary (s : double) : Prop := (finite s /\ val s = 0) \/ ordinary s.
Lemma square_ord s : ordinary s -> finite (dmul s s) /\ pow2 (-400) <= val (dmul s s) <= pow2 400 /\ exists e, Rabs e <= u /\ val (dmul s s) = val s * val s * (1 + e).
Proof.
  intros [F [L U]]. pose proof (prod_pow _ _ 100 100 U U) as A. pose proof (prod_low _ _ _ _ L L) as B. change (100 + 100)%Z with 200%Z in A. change (-100 + -100)%Z with (-200)%Z in B.
  destruct (mul_ok s s 200 F F ltac:(lia) A) as [FQ VQ]. split; [exact FQ|]. rewrite VQ.
  assert (P : 0 <= rnd (val s * val s)) by (apply rnd_pos; nra). split; [split|].
  - pose proof (rnd_low _ (-200) ltac:(lia) B) as B'. rewrite Rabs_pos_eq in B' by exact P. pose proof (bpow_le radix2 (-400) (-200) ltac:(lia)). lra.
  - pose proof (rnd_size _ 200 ltac:(lia) A) as A'. rewrite Rabs_pos_eq in A' by exact P. pose proof (bpow_le radix2 200 400 ltac:(lia)). lra.
  - apply rnd_rel'. right. refine (Rle_trans _ _ _ _ B). apply bpow_le. lia.
Qed.
Lemma square_none s : none_or_ordinary s -> finite (dmul s s) /\ 0 <= val (dmul s s) <= pow2 400 /\ (val (dmul s s) = 0 \/ pow2 (-400) <= val (dmul s s)) /\
  exists e, Rabs e <= u /\ val (dmul s s) = val s * val s * (1 + e).
Proof.
  intros [[F Z]|O].
  - destruct (mul_zero s s F F Z) as [FQ VQ]. split; [exact FQ|]. rewrite VQ. split; [split; [lra|apply bpow_ge_0]|]. split; [now left|]. exists 0. rewrite Rabs_R0, Z. split; lra.
  - destruct (square_ord s O) as (FQ & B & E). split; [exact FQ|]. pose proof (bpow_gt_0 radix2 (-400)). split; [lra|]. split; [now right|exact E].
Qed.
Lemma start_sound x0 x1 s0 s1 so : none_or_ordinary s0 -> none_or_ordinary s1 -> ordinary so -> sound (start x0 x1 s0 s1 so).
Proof.
  intros A B C. destruct (square_none s0 A) as (F0 & B0 & _). destruct (square_none s1 B) as (F2 & B2 & _). destruct (square_ord so C) as (FR & BR & _).
  constructor; cbn [start f_P0 f_P1 f_P2 f_R]; [now split|exact zero_ok|now split|now split].
Qed.
Lemma run_ref obs : forall f, sound f -> Forall (fun o => snd o = 0%Z) obs ->
  sound (run f obs) /\ val (f_P0 (run f obs)) <= val (f_P0 f) /\ val (f_P2 (run f obs)) = val (f_P2 f) /\ f_R (run f obs) = f_R f.
Proof.
  induction obs as [|[z ns] obs IH]; intros f S A; [split; [exact S|]; split; [apply Rle_refl|split; reflexivity]|].
  inversion A as [|? ? Z A']; subst. cbn [snd] in Z. destruct (days_ok 0 ltac:(discriminate)) as (FD & _ & _ & ZD & _).
  change (run f ((z, ns) :: obs)) with (run (update f z (days ns)) obs). rewrite Z.
  destruct (at_zero f z (days 0) S FD (ZD eq_refl)) as (S1 & L & E2 & ER & _).
  destruct (IH _ S1 A') as (S2 & L' & E2' & ER'). split; [exact S2|]. rewrite E2', ER'. split; [lra|]. split; [exact E2|exact ER].
Qed.
Lemma reference x0 x1 s0 s1 so obs : none_or_ordinary s0 -> none_or_ordinary s1 -> ordinary so -> Forall (fun o => snd o = 0%Z) obs ->
  let f := run (start x0 x1 s0 s1 so) obs in
  (finite (f_P0 f) /\ 0 <= val (f_P0 f) <= val (dmul s0 s0)) /\ (finite (f_P2 f) /\ val (f_P2 f) = val (dmul s1 s1)) /\ val (f_P1 f) = 0 /\
  finite (sigma_x0 f) /\ finite (sigma_x1 f).
Proof.
  intros A B C O f. pose proof (start_sound x0 x1 s0 s1 so A B C) as S. destruct (run_ref obs _ S O) as ([[F0 B0] [F1 Z1] [F2 B2] _] & L & E & _). fold f in F0, B0, F1, Z1, F2, B2, L, E.
  cbn [start f_P0] in L. cbn [start f_P2] in E. split; [split; [exact F0|lra]|]. split; [split; [exact F2|exact E]|]. split; [exact Z1|].
  split; [exact (proj1 (sqrt_ok _ F0 ltac:(lra)))|exact (proj1 (sqrt_ok _ F2 ltac:(lra)))].
Qed.
Lemma run_snoc f obs o : run f (obs ++ [o]) = update (run f obs) (fst o) (days (snd o)).
Proof. unfold run. now rewrite fold_left_app. Qed.
Lemma offset_later x0 x1 s0 s1 so obs z ns : none_or_ordinary s0 -> none_or_ordinary s1 -> ordinary so -> Forall (fun o => snd o = 0%Z) obs -> (Z.abs ns <= 2 ^ 53)%Z ->
  let f := run (start x0 x1 s0 s1 so) (obs ++ [(z, ns)]) in finite (f_P0 f) /\ 0 <= val (f_P0 f) <= val (dmul s0 s0) /\ finite (sigma_x0 f).
Proof.
  intros A B C O N f. pose proof (start_sound x0 x1 s0 s1 so A B C) as S. destruct (run_ref obs _ S O) as (S1 & L & E & ER).
  destruct (days_ok ns N) as (FD & _ & BD & _ & LD). destruct (update_P0 _ z (days ns) S1 FD BD) as [F0 B0].
  unfold f. rewrite run_snoc. cbn [fst snd]. cbn [start f_P0] in L. split; [exact F0|]. split; [lra|]. exact (proj1 (sqrt_ok _ F0 ltac:(lra))).
Qed.
Lemma days_size ns : (Z.abs ns <= 2 ^ 53)%Z -> Rabs (val (days ns)) <= Rabs (IZR ns / 86400000000000) * (1 + u).
Proof.
  intros N. destruct (days_ok ns N) as (_ & V & _). rewrite V. destruct (rnd_rel' (IZR ns / 86400000000000)) as (e & He & ->).
  { destruct (Z.eq_dec ns 0) as [->|NZ]; [left; unfold Rdiv; ring|]. right. assert (H : 1 <= Rabs (IZR ns)) by (rewrite <- abs_IZR; apply IZR_le; lia).
    refine (Rle_trans _ (pow2 (-47)) _ _ _); [apply bpow_le; lia|].
    unfold Rdiv. rewrite Rabs_mult, (Rabs_pos_eq (/ _)) by lra. change (pow2 (-47)) with (/ 140737488355328). lra. }
  rewrite Rabs_mult. apply Rabs_le_both in He. rewrite (Rabs_pos_eq (1 + e)) by lra. apply Rmult_le_compat_l; [apply Rabs_pos|lra].
Qed.
Lemma drift_later x0 x1 s0 s1 so obs z ns : none_or_ordinary s0 -> none_or_ordinary s1 -> ordinary so -> Forall (fun o => snd o = 0%Z) obs -> (Z.abs ns <= 2 ^ 53)%Z ->
  Rabs (IZR ns / 86400000000000) * Rabs (val s1) <= 16777216 * Rabs (val so) ->
  let f := run (start x0 x1 s0 s1 so) (obs ++ [(z, ns)]) in finite (f_P2 f) /\ 0 <= val (f_P2 f) <= val (dmul s1 s1) /\ finite (sigma_x1 f).
Proof.
  intros A B C O N T f. pose proof (start_sound x0 x1 s0 s1 so A B C) as S. destruct (run_ref obs _ S O) as (S1 & L & E & ER).
  destruct (days_ok ns N) as (FD & _ & BD & _ & LD). pose proof (days_size ns N) as DS. cbn [start f_P2 f_R] in E, ER.
  destruct (square_none s1 B) as (F2 & B2 & L2 & e & He & E2). destruct (square_ord so C) as (FR & BR & e' & He' & E'). apply Rabs_le_both in He, He'.
  assert (Q : val (u_c (run (start x0 x1 s0 s1 so) obs) (days ns)) <= 1).
  { apply contraction; try assumption; rewrite E; [exact L2|]. rewrite ER, E2, E'. set (d := val (days ns)) in *. set (a := val s1) in *. set (b := val so) in *.
    set (q := Rabs (IZR ns / 86400000000000)) in *.
    assert (H : d * d * (a * a) <= 300000000000000 * (b * b)).
    { rewrite <- (Rabs_sqr_mul d), <- (Rabs_sqr_mul a), <- (Rabs_sqr_mul b). pose proof (Rabs_pos d). pose proof (Rabs_pos a). pose proof (Rabs_pos b).
      assert (0 <= Rabs d * Rabs a) by (apply Rmult_le_pos; assumption).
      assert (K : Rabs d * Rabs a <= 17000000 * Rabs b).
      { assert (Rabs d * Rabs a <= q * (1 + u) * Rabs a) by (apply Rmult_le_compat_r; assumption). lra. }
      replace (Rabs d * Rabs d * (Rabs a * Rabs a)) with ((Rabs d * Rabs a) * (Rabs d * Rabs a)) by ring.
      assert ((Rabs d * Rabs a) * (Rabs d * Rabs a) <= (17000000 * Rabs b) * (17000000 * Rabs b)) by (apply Rmult_le_compat; assumption). nra. }
    assert (PB : 0 <= b * b) by nra. assert (PA : 0 <= d * d * (a * a)) by (apply Rmult_le_pos; nra).
    replace (a * a * (1 + e) * d * d) with (d * d * (a * a) * (1 + e)) by ring.
    assert (d * d * (a * a) * (1 + e) <= d * d * (a * a) * 2) by (apply Rmult_le_compat_l; lra).
    assert (b * b * (1 - u) <= b * b * (1 + e')) by (apply Rmult_le_compat_l; lra). lra. }
  destruct (update_P2 _ z (days ns) S1 FD BD Q) as [F0 B0].
  unfold f. rewrite run_snoc. cbn [fst snd]. split; [exact F0|]. split; [lra|]. exact (proj1 (sqrt_ok _ F0 ltac:(lra))).
Qed.
Lemma first_same x0 x1 s0 s1 so z : none_or_ordinary s0 -> none_or_ordinary s1 -> ordinary so ->
  finite x0 -> Rabs (val x0) <= pow2 1000 -> finite x1 -> Rabs (val x1) <= pow2 1000 -> finite z -> val z = val x0 ->
  let f := run (start x0 x1 s0 s1 so) [(z, 0%Z)] in val (f_x0 f) = val x0 /\ val (f_x1 f) = val x1 /\ finite (f_x0 f) /\ finite (f_x1 f).
Proof.
  intros A B C F0 B0 F1 B1 FZ VZ f. pose proof (start_sound x0 x1 s0 s1 so A B C) as S. destruct (days_ok 0 ltac:(discriminate)) as (FD & _ & _ & ZD & _).
  destruct (at_zero _ z (days 0) S FD (ZD eq_refl)) as (_ & _ & _ & _ & H). destruct (H F0 B0 F1 B1 FZ VZ) as (A1 & A2 & A3 & A4).
  split; [exact A2|]. split; [exact A4|]. split; [exact A1|exact A3].
Qed.

(* ---- witnesses: deviations of 0.1, 100 and 1e-8, the reference and 4900 s later; no deviations at all ---- *)
Definition w_s0 := of_decimal (1 # 10).
Definition w_s1 := of_int 100.
Definition w_so := of_decimal (1 # 100000000).
Definition w_f z1 z2 := run (start zero (of_int 3) w_s0 w_s1 w_so) [(z1, 0%Z); (z2, 4900000000000%Z)].
Lemma negative z1 z2 : dlt (f_P2 (w_f z1 z2)) zero = true /\ is_nan 53 1024 (sigma_x1 (w_f z1 z2)) = true.
Proof.
  assert (E : f_P2 (w_f z1 z2) = f_P2 (w_f zero zero)) by reflexivity. unfold sigma_x1. rewrite E. split; vm_compute; reflexivity.
Qed.
Lemma no_deviations x0 x1 z : let f := run (start x0 x1 zero zero zero) [(z, 0%Z)] in nan (f_x0 f) /\ nan (f_x1 f).
Proof.
  cbv zeta. change (run (start x0 x1 zero zero zero) [(z, 0%Z)]) with (update (start x0 x1 zero zero zero) z (days 0)). rewrite update_eq. cbn [f_x0 f_x1].
  assert (A : nan (u_k0 (start x0 x1 zero zero zero) (days 0))) by (unfold nan; vm_compute; reflexivity).
  assert (B : nan (u_k1 (start x0 x1 zero zero zero) (days 0))) by (unfold nan; vm_compute; reflexivity).
  split; apply nan_add_r, nan_mul_l; assumption.
Qed.

(* ---- how near the first later update is to the exact one ---- *)
Notation eta := (pow2 (-1074)).
Lemma rnd_near' x : Rabs (rnd x - x) <= u * Rabs x + eta.
Proof.
  destruct (error_N_FLT radix2 (-1074) 53 eq_refl (fun x => negb (Z.even x)) x) as (e & t & He & Ht & _ & E).
  change (round radix2 (FLT_exp (-1074) 53) (Znearest (fun x => negb (Z.even x))) x) with (rnd x) in E. rewrite E.
  replace (x * (1 + e) + t - x) with (x * e + t) by ring. refine (Rle_trans _ _ _ (Rabs_triang _ _) _). rewrite Rabs_mult.
  assert (A : Rabs e <= u) by (refine (Rle_trans _ _ _ He _); cbn; lra).
  assert (B : Rabs t <= eta) by (refine (Rle_trans _ _ _ Ht _); pose proof (bpow_gt_0 radix2 (-1074)); lra).
  pose proof (Rabs_pos x). assert (Rabs x * Rabs e <= Rabs x * u) by (apply Rmult_le_compat_l; assumption). lra.
Qed.
Lemma eta_small X : pow2 (-1000) <= Rabs X -> eta <= u / 100 * Rabs X.
Proof.
  intros H. change (-1074)%Z with (-74 + -1000)%Z. rewrite bpow_plus. apply Rmult_le_compat; [apply bpow_ge_0|apply bpow_ge_0| |exact H].
  change (pow2 (-74)) with (/ 18889465931478580854784). lra.
Qed.
Lemma step_near x X a : Rabs (x - X) <= a * u * Rabs X -> 0 <= a <= 100 -> X = 0 \/ pow2 (-1000) <= Rabs X -> Rabs (rnd x - X) <= (a + 11 / 10) * u * Rabs X.
Proof.
  intros N A [Z|L].
  - rewrite Z in *. rewrite Rabs_R0, !Rmult_0_r in *. assert (x = 0) as -> by (apply Rabs_le_both in N; lra). rewrite rnd_0, Rminus_0_r, Rabs_R0. lra.
  - pose proof (eta_small X L) as T. pose proof (rnd_near' x) as R1. pose proof (Rabs_pos X) as P.
    assert (B : Rabs x <= Rabs X * (1 + 100 * u)).
    { replace x with ((x - X) + X) by ring. refine (Rle_trans _ _ _ (Rabs_triang _ _) _). assert (a * u * Rabs X <= 100 * u * Rabs X) by (apply Rmult_le_compat_r; lra). lra. }
    replace (rnd x - X) with ((rnd x - x) + (x - X)) by ring. refine (Rle_trans _ _ _ (Rabs_triang _ _) _).
    clear - N T R1 P B. lra.
Qed.
Lemma low3 a b c i j k m : pow2 i <= Rabs a -> pow2 j <= Rabs b -> 0 < c <= pow2 k -> (m <= i + j - k)%Z -> pow2 m <= Rabs (a * b / c).
Proof. intros A B C M. refine (Rle_trans _ (pow2 (i + j - k)) _ (bpow_le _ _ _ M) _). apply quot_low; [|exact C]. now apply prod_low. Qed.
(* an estimate plus a gain times an innovation *)
Lemma estimate x k K y Y M : Rabs (k - K) <= 8 * u * Rabs K -> Rabs (y - Y) <= 4 * u * M + 4 * eta -> Rabs Y <= M ->
  Rabs (rnd (x + rnd (k * y)) - (x + K * Y)) <= 16 * u * (Rabs x + Rabs K * M) + 8 * eta * (1 + Rabs K).
Proof.
  intros HK HY HM. pose proof (rnd_near' (k * y)) as A. pose proof (rnd_near' (x + rnd (k * y))) as B. set (q := rnd (k * y)) in *.
  pose proof (Rabs_pos K) as PK. pose proof (Rabs_pos Y) as PY. pose proof (Rabs_pos x) as Px. pose proof (bpow_gt_0 radix2 (-1074)) as PE. set (N := Rabs K) in *.
  assert (PM : 0 <= M) by lra. assert (PNM : 0 <= N * M) by (apply Rmult_le_pos; lra). assert (PNE : 0 <= N * eta) by (apply Rmult_le_pos; lra).
  assert (Bk : Rabs k <= N * (1 + 8 * u)).
  { replace k with ((k - K) + K) by ring. refine (Rle_trans _ _ _ (Rabs_triang _ _) _). fold N. lra. }
  assert (C : Rabs (k * y - K * Y) <= 13 * u * (N * M) + 5 * (N * eta)).
  { replace (k * y - K * Y) with (k * (y - Y) + (k - K) * Y) by ring. refine (Rle_trans _ _ _ (Rabs_triang _ _) _). rewrite !Rabs_mult.
    assert (Rabs k * Rabs (y - Y) <= N * (1 + 8 * u) * (4 * u * M + 4 * eta)) by (apply Rmult_le_compat; try apply Rabs_pos; assumption).
    assert (Rabs (k - K) * Rabs Y <= 8 * u * N * M) by (apply Rmult_le_compat; try apply Rabs_pos; assumption). lra. }
  assert (KY : Rabs (K * Y) <= N * M) by (rewrite Rabs_mult; apply Rmult_le_compat_l; assumption).
  assert (ky : Rabs (k * y) <= N * M * (1 + 13 * u) + 5 * (N * eta)).
  { replace (k * y) with ((k * y - K * Y) + K * Y) by ring. refine (Rle_trans _ _ _ (Rabs_triang _ _) _). lra. }
  assert (D : Rabs (q - K * Y) <= 29 / 2 * u * (N * M) + 11 / 2 * (N * eta) + eta).
  { replace (q - K * Y) with ((q - k * y) + (k * y - K * Y)) by ring. refine (Rle_trans _ _ _ (Rabs_triang _ _) _). lra. }
  assert (E : Rabs (x + q) <= Rabs x + N * M * (1 + 15 * u) + 6 * (N * eta) + eta).
  { replace (x + q) with (x + (K * Y + (q - K * Y))) by ring. refine (Rle_trans _ _ _ (Rabs_triang _ _) _). pose proof (Rabs_triang (K * Y) (q - K * Y)). lra. }
  replace (rnd (x + q) - (x + K * Y)) with ((rnd (x + q) - (x + q)) + (q - K * Y)) by ring. refine (Rle_trans _ _ _ (Rabs_triang _ _) _).
  clear - B D E PNM PNE Px PE PK. lra.
Qed.
Lemma innovation z x0 x1 d : Rabs (rnd (z - rnd (x0 + rnd (d * x1))) - (z - (x0 + d * x1))) <= 4 * u * (Rabs z + Rabs x0 + Rabs (d * x1)) + 4 * eta.
Proof.
  pose proof (rnd_near' (d * x1)) as A. set (a := rnd (d * x1)) in *. pose proof (rnd_near' (x0 + a)) as B. set (b := rnd (x0 + a)) in *. pose proof (rnd_near' (z - b)) as C.
  pose proof (bpow_gt_0 radix2 (-1074)) as PE. pose proof (Rabs_pos z). pose proof (Rabs_pos x0). pose proof (Rabs_pos (d * x1)).
  assert (Ba : Rabs a <= Rabs (d * x1) * (1 + u) + eta). { replace a with ((a - d * x1) + d * x1) by ring. refine (Rle_trans _ _ _ (Rabs_triang _ _) _). lra. }
  pose proof (Rabs_triang x0 a) as T1.
  assert (Bb : Rabs b <= Rabs (x0 + a) * (1 + u) + eta). { replace b with ((b - (x0 + a)) + (x0 + a)) by ring. refine (Rle_trans _ _ _ (Rabs_triang _ _) _). lra. }
  assert (Bz : Rabs (z - b) <= Rabs z + Rabs b) by (unfold Rminus; rewrite <- (Rabs_Ropp b); apply Rabs_triang).
  replace (rnd (z - b) - (z - (x0 + d * x1))) with ((rnd (z - b) - (z - b)) + (- (b - (x0 + a)) + - (a - d * x1))) by ring.
  refine (Rle_trans _ _ _ (Rabs_triang _ _) _). pose proof (Rabs_triang (- (b - (x0 + a))) (- (a - d * x1))) as T2. rewrite !Rabs_Ropp in T2. lra.
Qed.
Section Near.
Variable f : filter2.
Variable dt : double.
Hypothesis S : sound f.
Hypothesis FD : finite dt.
Hypothesis BD : Rabs (val dt) <= pow2 20.
Hypothesis LD : val dt = 0 \/ pow2 (-47) <= Rabs (val dt).
Hypothesis L0 : val (f_P0 f) = 0 \/ pow2 (-200) <= val (f_P0 f).
Hypothesis L2 : val (f_P2 f) = 0 \/ pow2 (-200) <= val (f_P2 f).
Hypothesis U0 : val (f_P0 f) <= pow2 200.
Hypothesis U2 : val (f_P2 f) <= pow2 200.
Hypothesis UR : pow2 (-200) <= val (f_R f).
Let p0 := val (f_P0 f).
Let p2 := val (f_P2 f).
Let d := val dt.
Let r := val (f_R f).
Let SS := p0 + p2 * d * d + r.
Lemma SS_pos : 0 < r /\ 0 <= p0 /\ 0 <= p2 * d * d /\ 0 <= p2 /\ r <= SS /\ 0 < SS /\ p0 <= SS /\ p2 * d * d <= SS.
Proof.
  destruct S as [[_ A0] _ [_ A2] [_ AR]]. pose proof (bpow_gt_0 radix2 (-400)). fold p0 in A0. fold p2 in A2. fold r in AR. unfold SS.
  assert (0 <= p2 * d * d) by (rewrite Rmult_assoc; apply Rmult_le_pos; [lra|clear; nra]). lra.
Qed.
Lemma pd_low : p2 * d = 0 \/ pow2 (-247) <= Rabs (p2 * d).
Proof.
  destruct L2 as [E|G]; [left; unfold p2; rewrite E; ring|]. destruct LD as [E|H]; [left; unfold d; rewrite E; ring|]. right.
  apply (prod_low p2 d (-200) (-47)); [|exact H]. fold p2 in G. pose proof (bpow_ge_0 radix2 (-200)). rewrite Rabs_pos_eq by lra. exact G.
Qed.
Lemma s_near : SS * (1 - 5 * u) <= val (u_s f dt) <= SS * (1 + 5 * u) /\ val (u_s f dt) <= pow2 442.
Proof.
  destruct (inside f dt S FD BD) as [[(Fb & Vb) (Fh & Vh & Ph) (Ft & Vt) (Fs & Vs & P0s & ht & Rs) _ _ _] _].
  destruct SS_pos as (R0 & P0 & PD & P2 & _). destruct S as [[_ A0] _ [_ A2] [_ AR]].
  assert (Ub : Rabs (val (u_b f dt)) <= pow2 420) by (rewrite Vb; apply rnd_size; [lia|]; apply (prod_pow _ _ 400 20); [apply Rabs_pow; exact A2|exact BD]).
  assert (Uh : val (u_h f dt) <= pow2 440).
  { rewrite Vh. refine (Rle_trans _ _ _ (Rle_abs _) _). apply rnd_size; [lia|]. exact (prod_pow _ _ 20 420 BD Ub). }
  pose proof (bpow_le radix2 400 440 ltac:(lia)) as G1. pose proof (bpow_le radix2 400 441 ltac:(lia)) as G2.
  assert (Ut : val (u_t f dt) <= pow2 441).
  { rewrite Vt. refine (Rle_trans _ _ _ (Rle_abs _) _). apply rnd_size; [lia|]. apply (sum_pow _ _ 440); apply Rabs_pow; lra. }
  assert (T0 : 0 <= val (u_t f dt)) by exact (Rle_trans _ _ _ Ph ht).
  assert (Us : val (u_s f dt) <= pow2 442).
  { rewrite Vs. refine (Rle_trans _ _ _ (Rle_abs _) _). pose proof (bpow_gt_0 radix2 (-400)). apply rnd_size; [lia|]. apply (sum_pow _ _ 441); apply Rabs_pow; lra. }
  split; [|exact Us].
  destruct (rnd_rel' (val (f_P2 f) * val dt)) as (e1 & H1 & E1).
  { destruct pd_low as [Z|L]; [left; exact Z|right]. refine (Rle_trans _ _ _ _ L). apply bpow_le. lia. }
  assert (LB : val (u_b f dt) = 0 \/ pow2 (-247) <= Rabs (val (u_b f dt))).
  { destruct pd_low as [Z|L]; [left; rewrite Vb; fold p2 d; rewrite Z; exact rnd_0|right]. rewrite Vb. apply rnd_low; [lia|exact L]. }
  destruct (rnd_rel' (val dt * val (u_b f dt))) as (e2 & H2 & E2).
  { destruct LB as [Z|L]; [left; rewrite Z; ring|]. destruct LD as [Z|L']; [left; rewrite Z; ring|right].
    refine (Rle_trans _ _ _ _ (prod_low _ _ _ _ L' L)). apply bpow_le. lia. }
  assert (LH : val (u_h f dt) = 0 \/ pow2 (-294) <= val (u_h f dt)).
  { destruct LB as [Z|L]; [left; rewrite Vh, Z, Rmult_0_r; exact rnd_0|]. destruct LD as [Z|L']; [left; rewrite Vh, Z, Rmult_0_l; exact rnd_0|right].
    rewrite <- (Rabs_pos_eq (val (u_h f dt)) Ph), Vh. apply rnd_low; [lia|]. exact (prod_low _ _ _ _ L' L). }
  destruct (rnd_rel' (val (f_P0 f) + val (u_h f dt))) as (e3 & H3 & E3).
  { pose proof (bpow_le radix2 (-1022) (-294) ltac:(lia)). pose proof (bpow_le radix2 (-1022) (-200) ltac:(lia)). fold p0 in L0 |- *.
    destruct L0 as [Z|L]; [|right; rewrite Rabs_pos_eq; lra]. destruct LH as [Z'|L']; [left; lra|right; rewrite Rabs_pos_eq; lra]. }
  destruct (rnd_rel' (val (u_t f dt) + val (f_R f))) as (e4 & H4 & E4).
  { right. pose proof (bpow_le radix2 (-1022) (-400) ltac:(lia)). fold r in AR |- *. rewrite Rabs_pos_eq; lra. }
  rewrite E1 in Vb. rewrite E2, Vb in Vh. rewrite E3 in Vt. rewrite E4 in Vs. fold p0 in Vt. fold p2 d in Vh. fold r in Vs.
  assert (EH : val (u_h f dt) = p2 * d * d * ((1 + e1) * (1 + e2))) by (rewrite Vh; ring).
  set (h := val (u_h f dt)) in *. set (t := val (u_t f dt)) in *. set (s := val (u_s f dt)) in *. set (D := p2 * d * d) in *.
  apply Rabs_le_both in H1, H2, H3, H4. clear - H1 H2 H3 H4 EH Vt Vs PD P0 R0 Ph T0. unfold SS. fold D.
  assert (A : 1 - 2 * u <= (1 + e1) * (1 + e2) <= 1 + 5 / 2 * u) by nra.
  assert (B : D * (1 - 2 * u) <= h <= D * (1 + 5 / 2 * u)) by (rewrite EH; split; apply Rmult_le_compat_l; lra).
  assert (C : (p0 + h) * (1 - u) <= t <= (p0 + h) * (1 + u)) by (rewrite Vt; split; apply Rmult_le_compat_l; lra).
  assert (E : (t + r) * (1 - u) <= s <= (t + r) * (1 + u)) by (rewrite Vs; split; apply Rmult_le_compat_l; lra). lra.
Qed.
Lemma k0_near : Rabs (val (u_k0 f dt) - p0 / SS) <= 7 * u * (p0 / SS).
Proof.
  destruct (inside f dt S FD BD) as [[_ _ _ (Fs & Vs & P0s & ht & Rs) (FK & BK & VK) _ _] _]. destruct s_near as [B U]. destruct SS_pos as (R0 & P0 & PD & P2 & RS & SP & _).
  fold p0 in VK. fold r in Rs. assert (G : 0 < val (u_s f dt)) by lra.
  destruct (rnd_rel' (p0 / val (u_s f dt))) as (e & He & E).
  { destruct L0 as [Z|L]; [left; unfold p0; rewrite Z; unfold Rdiv; ring|right]. refine (Rle_trans _ _ _ _ (quot_low p0 _ (-200) 442 _ (conj G U))); [apply bpow_le; lia|]. rewrite Rabs_pos_eq; assumption. }
  rewrite VK, E. set (s := val (u_s f dt)) in *. apply Rabs_le_both in He.
  replace (p0 / s * (1 + e) - p0 / SS) with (p0 / SS * ((SS * (1 + e) - s) / s)) by (field; lra).
  rewrite Rabs_mult, Rabs_pos_eq by (apply Rmult_le_pos; [exact P0|left; now apply Rinv_0_lt_compat]). rewrite Rmult_comm. apply Rmult_le_compat_r; [apply Rmult_le_pos; [exact P0|left; now apply Rinv_0_lt_compat]|].
  unfold Rdiv. rewrite Rabs_mult, (Rabs_pos_eq (/ s)) by (left; now apply Rinv_0_lt_compat).
  apply Rmult_le_reg_r with s; [exact G|]. rewrite Rmult_assoc, Rinv_l by lra. rewrite Rmult_1_r. clear - B He SP G.
  assert (- (SS * u) <= SS * e <= SS * u) by (split; [replace (- (SS * u)) with (SS * - u) by ring|]; apply Rmult_le_compat_l; lra). apply Rabs_le. lra.
Qed.
Lemma k1_near : Rabs (val (u_k1 f dt) - p2 * d / SS) <= 8 * u * Rabs (p2 * d / SS).
Proof.
  destruct (inside f dt S FD BD) as [[(Fb & Vb) _ _ (Fs & Vs & P0s & ht & Rs) _ (FK & VK & _) _] _]. destruct s_near as [B U]. destruct SS_pos as (R0 & P0 & PD & P2 & RS & SP & _).
  fold r in Rs. assert (G : 0 < val (u_s f dt)) by lra. fold p2 d in Vb.
  destruct (rnd_rel' (p2 * d)) as (e1 & H1 & E1).
  { destruct pd_low as [Z|L]; [left; exact Z|right]. refine (Rle_trans _ _ _ _ L). apply bpow_le. lia. }
  assert (LB : val (u_b f dt) = 0 \/ pow2 (-247) <= Rabs (val (u_b f dt))).
  { destruct pd_low as [Z|L]; [left; rewrite Vb, Z; exact rnd_0|right]. rewrite Vb. apply rnd_low; [lia|exact L]. }
  destruct (rnd_rel' (val (u_b f dt) / val (u_s f dt))) as (e & He & E).
  { destruct LB as [Z|L]; [left; rewrite Z; unfold Rdiv; ring|right]. refine (Rle_trans _ _ _ _ (quot_low _ _ (-247) 442 L (conj G U))). apply bpow_le. lia. }
  rewrite VK, E, Vb, E1. set (s := val (u_s f dt)) in *. apply Rabs_le_both in He, H1.
  replace (p2 * d * (1 + e1) / s * (1 + e) - p2 * d / SS) with (p2 * d / SS * ((SS * ((1 + e1) * (1 + e)) - s) / s)) by (field; lra).
  rewrite Rabs_mult, Rmult_comm. apply Rmult_le_compat_r; [apply Rabs_pos|].
  unfold Rdiv. rewrite Rabs_mult, (Rabs_pos_eq (/ s)) by (left; now apply Rinv_0_lt_compat).
  apply Rmult_le_reg_r with s; [exact G|]. rewrite Rmult_assoc, Rinv_l by lra. rewrite Rmult_1_r. clear - B He H1 SP G.
  assert (A : 1 - 2 * u <= (1 + e1) * (1 + e) <= 1 + 3 * u * (2 / 3) + u / 4) by nra.
  assert (SS * (1 - 2 * u) <= SS * ((1 + e1) * (1 + e)) <= SS * (1 + 3 * u * (2 / 3) + u / 4)) by (split; apply Rmult_le_compat_l; lra). apply Rabs_le. lra.
Qed.
Lemma SS_up : SS <= pow2 443.
Proof. destruct s_near as [[A _] U]. destruct SS_pos as (_ & _ & _ & _ & _ & SP & _). change 443%Z with (442 + 1)%Z. rewrite pow2_S. lra. Qed.
Lemma one_minus' k a : finite k -> Rabs (val k - a) <= 10 * u -> 0 <= a <= 1 -> finite (dsub one k) /\ Rabs (val (dsub one k) - (1 - a)) <= Rabs (val k - a) + 11 / 10 * u.
Proof.
  intros F N A. destruct one_ok as [F1 V1]. pose proof N as N'. apply Rabs_le_both in N'. assert (Q : Rabs (1 - val k) <= 1 + 10 * u) by (apply Rabs_le; lra).
  destruct (sub_ok one k 1 F1 F ltac:(lia)) as [FS VS]; [rewrite V1; change (pow2 1) with 2; lra|]. rewrite V1 in VS. split; [exact FS|]. rewrite VS.
  pose proof (rnd_near' (1 - val k)) as R1. pose proof (bpow_le radix2 (-1074) (-100) ltac:(lia)) as E. change (pow2 (-100)) with tiny in E.
  replace (rnd (1 - val k) - (1 - a)) with ((rnd (1 - val k) - (1 - val k)) + - (val k - a)) by ring. refine (Rle_trans _ _ _ (Rabs_triang _ _) _). rewrite Rabs_Ropp. lra.
Qed.
Lemma times_variance m w p : finite m -> finite p -> (val p = 0 \/ pow2 (-200) <= val p) -> 0 <= val p <= pow2 400 -> 0 <= w <= 1 -> Rabs (val m - w) <= 21 / 2 * u ->
  finite (dmul m p) /\ Rabs (val (dmul m p) - val p * w) <= 12 * u * val p /\ Rabs (val (dmul m p)) <= pow2 401.
Proof.
  intros FM FP LP BP BW N. pose proof N as N'. apply Rabs_le_both in N'. assert (BM : Rabs (val m) <= pow2 1) by (change (pow2 1) with 2; apply Rabs_le; lra).
  pose proof (prod_pow _ _ 1 400 BM (Rabs_pow _ _ BP)) as Q. change (1 + 400)%Z with 401%Z in Q. destruct (mul_ok m p 401 FM FP ltac:(lia) Q) as [F V]. split; [exact F|]. rewrite V. split; [|apply rnd_size; [lia|exact Q]].
  destruct LP as [Z|L]; [rewrite Z, Rmult_0_r, rnd_0, Rmult_0_l, Rminus_0_r, Rabs_R0; lra|].
  pose proof (rnd_near' (val m * val p)) as R1. assert (T : eta <= u / 100 * Rabs (val p)) by (apply eta_small; rewrite Rabs_pos_eq by lra; refine (Rle_trans _ _ _ _ L); apply bpow_le; lia).
  rewrite Rabs_pos_eq in T by lra. rewrite Rabs_mult, (Rabs_pos_eq (val p)) in R1 by lra.
  assert (A : Rabs (val m) * val p <= (1 + 11 * u) * val p) by (apply Rmult_le_compat_r; [lra|apply Rabs_le; lra]).
  assert (B : Rabs (val m * val p - val p * w) <= 21 / 2 * u * val p).
  { replace (val m * val p - val p * w) with ((val m - w) * val p) by ring. rewrite Rabs_mult, (Rabs_pos_eq (val p)) by lra. apply Rmult_le_compat_r; lra. }
  replace (rnd (val m * val p) - val p * w) with ((rnd (val m * val p) - val m * val p) + (val m * val p - val p * w)) by ring. refine (Rle_trans _ _ _ (Rabs_triang _ _) _). lra.
Qed.
Lemma share a b : 0 <= a <= b -> 0 < b -> 0 <= a / b <= 1.
Proof. intros A B. split; [apply Rmult_le_pos; [lra|left; now apply Rinv_0_lt_compat]|]. apply Rmult_le_reg_r with b; [exact B|]. unfold Rdiv. rewrite Rmult_assoc, Rinv_l by lra. lra. Qed.
Lemma P0_near z : finite (f_P0 (update f z dt)) /\ Rabs (val (f_P0 (update f z dt)) - p0 * (p2 * d * d + r) / SS) <= 12 * u * p0.
Proof.
  destruct (inside f dt S FD BD) as [[_ _ _ _ (FK & BK & VK) _ _] _]. destruct SS_pos as (R0 & P0 & PD & P2 & RS & SP & P0S & _). pose proof k0_near as N. pose proof (share p0 SS (conj P0 P0S) SP) as Q.
  pose proof S as S'. destruct S' as [[F0 B0] [F1 Z1] _ _].
  assert (N' : Rabs (val (u_k0 f dt) - p0 / SS) <= 7 * u) by lra.
  destruct (one_minus' _ (p0 / SS) FK ltac:(lra) Q) as [FM NM].
  destruct (times_variance _ (1 - p0 / SS) (f_P0 f) FM F0 L0 B0 ltac:(lra) ltac:(lra)) as (FX & NX & BX).
  destruct (zero_mul (f_P1 f) (u_k0 f dt) 0 F1 FK ltac:(lia)) as [FY VY]; [apply Rabs_pow; cbn; lra|exact Z1|].
  destruct (zero_mul _ dt 20 FY FD ltac:(lia) BD VY) as [FZ VZ].
  destruct (sub_zero_r _ _ 401 FX FZ ltac:(lia) BX VZ) as [F V]. rewrite update_eq. cbn [f_P0]. split; [exact F|]. rewrite V.
  replace (p0 * (p2 * d * d + r) / SS) with (p0 * (1 - p0 / SS)) by (unfold SS; field; fold SS; lra). exact NX.
Qed.
Lemma c_near : Rabs (val (u_c f dt) - p2 * d * d / SS) <= 46 / 5 * u.
Proof.
  destruct (inside f dt S FD BD) as [[_ _ _ _ _ (FK & VK & _) (FC & VC & _)] _]. destruct SS_pos as (R0 & P0 & PD & P2 & RS & SP & P0S & DS). pose proof k1_near as N. pose proof (share _ SS (conj PD DS) SP) as Q.
  assert (A : Rabs (val (u_k1 f dt) * d - p2 * d * d / SS) <= 8 * u).
  { replace (val (u_k1 f dt) * d - p2 * d * d / SS) with ((val (u_k1 f dt) - p2 * d / SS) * d) by (field; lra). rewrite Rabs_mult.
    assert (Rabs (val (u_k1 f dt) - p2 * d / SS) * Rabs d <= 8 * u * Rabs (p2 * d / SS) * Rabs d) by (apply Rmult_le_compat_r; [apply Rabs_pos|exact N]).
    assert (E : Rabs (p2 * d / SS) * Rabs d = p2 * d * d / SS).
    { rewrite <- Rabs_mult. replace (p2 * d / SS * d) with (p2 * d * d / SS) by (field; lra). apply Rabs_pos_eq. lra. }
    rewrite Rmult_assoc, E in H. lra. }
  fold d in VC. rewrite VC. pose proof (rnd_near' (val (u_k1 f dt) * d)) as R1. pose proof (bpow_le radix2 (-1074) (-100) ltac:(lia)) as E. change (pow2 (-100)) with tiny in E.
  pose proof A as A'. apply Rabs_le_both in A'. assert (B : Rabs (val (u_k1 f dt) * d) <= 1 + 8 * u) by (apply Rabs_le; lra).
  replace (rnd (val (u_k1 f dt) * d) - p2 * d * d / SS) with ((rnd (val (u_k1 f dt) * d) - val (u_k1 f dt) * d) + (val (u_k1 f dt) * d - p2 * d * d / SS)) by ring. refine (Rle_trans _ _ _ (Rabs_triang _ _) _). lra.
Qed.
Lemma P2_near z : finite (f_P2 (update f z dt)) /\ Rabs (val (f_P2 (update f z dt)) - p2 * (p0 + r) / SS) <= 12 * u * p2.
Proof.
  destruct (inside f dt S FD BD) as [[_ _ _ _ _ (FK & _) (FC & VC & _)] _]. destruct SS_pos as (R0 & P0 & PD & P2 & RS & SP & P0S & DS). pose proof c_near as N. pose proof (share _ SS (conj PD DS) SP) as Q.
  pose proof S as S'. destruct S' as [_ [F1 Z1] [F2 B2] _].
  destruct (one_minus' _ (p2 * d * d / SS) FC ltac:(lra) Q) as [FM NM].
  destruct (times_variance _ (1 - p2 * d * d / SS) (f_P2 f) FM F2 L2 B2 ltac:(lra) ltac:(lra)) as (FX & NX & BX).
  destruct (opp_ok _ FK) as [FO VO]. destruct (mul_zero (dopp (u_k1 f dt)) (f_P1 f) FO F1 Z1) as [FY VY].
  destruct (add_zero_l _ _ 401 FY FX ltac:(lia) BX VY) as [F V]. rewrite update_eq. cbn [f_P2]. split; [exact F|]. rewrite V.
  replace (p2 * (p0 + r) / SS) with (p2 * (1 - p2 * d * d / SS)) by (unfold SS; field; fold SS; lra). exact NX.
Qed.
Lemma k1_size : Rabs (val (u_k1 f dt)) <= pow2 420.
Proof.
  destruct (inside f dt S FD BD) as [[(Fb & Vb) _ _ (_ & _ & _ & _ & Rs) _ (_ & VK & _) _] _]. destruct SS_pos as (_ & _ & _ & P2 & _).
  rewrite VK. apply rnd_size; [lia|]. apply (quot_pow _ _ 220 (-200)); [|exact (Rle_trans _ _ _ UR Rs)]. rewrite Vb. apply rnd_size; [lia|]. apply (prod_pow _ _ 200 20); [|exact BD]. apply Rabs_pow. split; [exact P2|exact U2].
Qed.
Lemma P1_near z : finite (f_P1 (update f z dt)) /\ Rabs (val (f_P1 (update f z dt)) - - (p0 * p2 * d / SS)) <= 12 * u * Rabs (p0 * p2 * d / SS).
Proof.
  destruct (inside f dt S FD BD) as [[_ _ _ (_ & _ & _ & _ & Rs) (FK0 & BK0 & VK0) (FK & VK & _) (FC & VC & _)] _]. destruct SS_pos as (R0 & P0 & PD & P2 & RS & SP & P0S & DS).
  pose proof k0_near as N0. pose proof k1_near as N1. pose proof c_near as NC. pose proof SS_up as SU. pose proof (share _ SS (conj PD DS) SP) as QC. pose proof (share p0 SS (conj P0 P0S) SP) as Q0.
  pose proof S as S'. destruct S' as [[F0 B0] [F1 Z1] [F2 B2] [FR BR]]. fold p0 in B0. fold p2 in B2. fold r in BR.
  assert (IS : 0 < / SS) by now apply Rinv_0_lt_compat.
  destruct (one_minus _ FK0 BK0) as (FM0 & BM0 & _). destruct (mul_zero _ _ FM0 F1 Z1) as [FA VA].
  destruct (one_minus' _ (p2 * d * d / SS) FC ltac:(lra) QC) as [FM _]. destruct (mul_zero _ _ FM F1 Z1) as [FH VH].
  destruct (opp_ok _ FK) as [FO VO].
  assert (PP : 0 <= p2 * p0 / SS) by (unfold Rdiv; apply Rmult_le_pos; [apply Rmult_le_pos; assumption|lra]).
  assert (G0 : p2 * p0 / SS = 0 \/ pow2 (-843) <= Rabs (p2 * p0 / SS)).
  { destruct L0 as [Z|L]; [left; fold p0 in Z; rewrite Z; unfold Rdiv; ring|]. destruct L2 as [Z|L']; [left; fold p2 in Z; rewrite Z; unfold Rdiv; ring|right].
    fold p0 in L. fold p2 in L'. apply (low3 _ _ _ (-200) (-200) 443); [rewrite Rabs_pos_eq; assumption|rewrite Rabs_pos_eq; assumption|split; assumption|lia]. }
  (* the first product *)
  assert (Q1 : Rabs (p2 * val (u_k0 f dt)) <= pow2 400) by (apply (prod_pow _ _ 400 0); [apply Rabs_pow; exact B2|apply Rabs_pow; cbn; lra]).
  destruct (mul_ok (f_P2 f) (u_k0 f dt) 400 F2 FK0 ltac:(lia) Q1) as [FB1 VB1]. fold p2 in VB1.
  assert (M1 : Rabs (val (dmul (f_P2 f) (u_k0 f dt)) - p2 * p0 / SS) <= (7 + 11 / 10) * u * Rabs (p2 * p0 / SS)).
  { rewrite VB1. apply step_near; [|lra|destruct G0 as [Z|L]; [now left|right; refine (Rle_trans _ _ _ _ L); apply bpow_le; lia]].
    rewrite (Rabs_pos_eq (p2 * p0 / SS)) by exact PP. replace (p2 * val (u_k0 f dt) - p2 * p0 / SS) with (p2 * (val (u_k0 f dt) - p0 / SS)) by (field; lra). rewrite Rabs_mult, (Rabs_pos_eq p2) by exact P2.
    replace (7 * u * (p2 * p0 / SS)) with (p2 * (7 * u * (p0 / SS))) by (field; lra). now apply Rmult_le_compat_l. }
  assert (BB1 : Rabs (val (dmul (f_P2 f) (u_k0 f dt))) <= pow2 400) by (rewrite VB1; apply rnd_size; [lia|exact Q1]).
  pose proof (prod_pow _ _ 400 20 BB1 BD) as Q2. change (400 + 20)%Z with 420%Z in Q2.
  destruct (mul_ok _ dt 420 FB1 FD ltac:(lia) Q2) as [FB VB]. fold d in VB. set (E := p0 * p2 * d / SS).
  assert (GE : E = 0 \/ pow2 (-890) <= Rabs E).
  { replace E with (p2 * p0 / SS * d) by (unfold E; field; lra). destruct G0 as [Z|L]; [left; rewrite Z; ring|]. destruct LD as [Z|L']; [left; fold d in Z; rewrite Z; ring|right].
    exact (prod_low _ _ (-843) (-47) L L'). }
  assert (GE' : forall c, c = 1 \/ c = -1 \/ c = -2 -> c * E = 0 \/ pow2 (-1000) <= Rabs (c * E)).
  { intros c C. destruct GE as [Z|L]; [left; rewrite Z; ring|right]. pose proof (bpow_le radix2 (-1000) (-890) ltac:(lia)). rewrite Rabs_mult.
    assert (1 <= Rabs c) by (destruct C as [->|[->| ->]]; [rewrite Rabs_pos_eq|rewrite Rabs_left|rewrite Rabs_left]; lra). pose proof (Rabs_pos E) as PE. assert (1 * Rabs E <= Rabs c * Rabs E) by (apply Rmult_le_compat_r; assumption). lra. }
  assert (MB : Rabs (val (dmul (dmul (f_P2 f) (u_k0 f dt)) dt) - 1 * E) <= (81 / 10 + 11 / 10) * u * Rabs (1 * E)).
  { rewrite VB. apply step_near; [|lra|apply GE'; now left]. rewrite !Rmult_1_l. replace E with (p2 * p0 / SS * d) by (unfold E; field; lra). rewrite <- Rmult_minus_distr_r, !Rabs_mult, <- Rmult_assoc.
    apply Rmult_le_compat_r; [apply Rabs_pos|]. lra. }
  (* the second *)
  pose proof k1_size as BK1.
  assert (QC' : Rabs (val (dopp (u_k1 f dt)) * val (f_P0 f)) <= pow2 620).
  { rewrite VO. apply (prod_pow _ _ 420 200); [rewrite Rabs_Ropp; exact BK1|]. apply Rabs_pow. fold p0 in U0 |- *. split; assumption. }
  destruct (mul_ok (dopp (u_k1 f dt)) (f_P0 f) 620 FO F0 ltac:(lia) QC') as [FG VG]. rewrite VO in VG. fold p0 in VG.
  assert (MG : Rabs (val (dmul (dopp (u_k1 f dt)) (f_P0 f)) - -1 * E) <= (8 + 11 / 10) * u * Rabs (-1 * E)).
  { rewrite VG. apply step_near; [|lra|apply GE'; right; now left]. replace (-1 * E) with (- (p2 * d / SS) * p0) by (unfold E; field; lra). rewrite <- Rmult_minus_distr_r, !Rabs_mult, <- Rmult_assoc.
    apply Rmult_le_compat_r; [apply Rabs_pos|]. rewrite Rabs_Ropp. replace (- val (u_k1 f dt) - - (p2 * d / SS)) with (- (val (u_k1 f dt) - p2 * d / SS)) by ring. rewrite Rabs_Ropp. exact N1. }
  assert (BG : Rabs (val (dmul (dopp (u_k1 f dt)) (f_P0 f))) <= pow2 620) by (rewrite VG; apply rnd_size; [lia|]; rewrite VO in QC'; exact QC').
  assert (BB : Rabs (val (dmul (dmul (f_P2 f) (u_k0 f dt)) dt)) <= pow2 620).
  { rewrite VB. refine (Rle_trans _ _ _ (rnd_size _ 420 ltac:(lia) Q2) _). apply bpow_le. lia. }
  (* their sum *)
  destruct (sub_ok _ _ 620 FA FB ltac:(lia)) as [FE VE]; [rewrite VA, Rminus_0_l, Rabs_Ropp; exact BB|]. rewrite VA, Rminus_0_l in VE.
  assert (VE' : val (dsub (dmul (dsub one (u_k0 f dt)) (f_P1 f)) (dmul (dmul (f_P2 f) (u_k0 f dt)) dt)) = - val (dmul (dmul (f_P2 f) (u_k0 f dt)) dt)).
  { rewrite VE. apply round_generic; [apply valid_rnd_N|]. apply generic_format_opp, format_of. }
  destruct (add_zero_r _ _ 620 FG FH ltac:(lia) BG VH) as [FI VI].
  set (B := val (dmul (dmul (f_P2 f) (u_k0 f dt)) dt)) in *. set (G := val (dmul (dopp (u_k1 f dt)) (f_P0 f))) in *.
  assert (Q3 : Rabs (- B + G) <= pow2 621) by (apply (sum_pow _ _ 620); [rewrite Rabs_Ropp; exact BB|exact BG]).
  destruct (add_ok _ _ 621 FE FI ltac:(lia)) as [FJ VJ]; [rewrite VE', VI; exact Q3|]. rewrite VE', VI in VJ.
  assert (MJ : Rabs (rnd (- B + G) - -2 * E) <= (46 / 5 + 11 / 10) * u * Rabs (-2 * E)).
  { apply step_near; [|lra|apply GE'; right; now right]. replace (- B + G - -2 * E) with (- (B - 1 * E) + (G - -1 * E)) by ring. refine (Rle_trans _ _ _ (Rabs_triang _ _) _). rewrite Rabs_Ropp.
    rewrite Rabs_mult in MB, MG |- *. rewrite Rabs_R1 in MB. rewrite (Rabs_left (-1)) in MG by lra. rewrite (Rabs_left (-2)) by lra. pose proof (Rabs_pos E). lra. }
  destruct two_ok as [FT VT].
  assert (BJ : Rabs (rnd (- B + G)) <= pow2 621) by (apply rnd_size; [lia|exact Q3]).
  destruct (div_ok _ two 621 FJ ltac:(rewrite VT; lra) ltac:(lia)) as [FQ VQ].
  { rewrite VJ, VT. unfold Rdiv. rewrite Rabs_mult, (Rabs_pos_eq (/ 2)) by lra. pose proof (Rabs_pos (rnd (- B + G))). lra. }
  rewrite VJ, VT in VQ. fold (u_P1 f dt) in FQ, VQ. rewrite update_eq. cbn [f_P1]. split; [exact FQ|]. rewrite VQ.
  pose proof (step_near (rnd (- B + G) / 2) (-1 * E) (103 / 10)) as MQ. replace (- E) with (-1 * E) by ring.
  assert (EA : Rabs (-1 * E) = Rabs E) by (replace (-1 * E) with (- E) by ring; apply Rabs_Ropp). rewrite EA in MQ. pose proof (Rabs_pos E).
  refine (Rle_trans _ _ _ (MQ _ ltac:(lra) _) _).
  - replace (rnd (- B + G) / 2 - -1 * E) with ((rnd (- B + G) - -2 * E) * / 2) by field. rewrite Rabs_mult, (Rabs_pos_eq (/ 2)) by lra. rewrite (Rabs_mult (-2)), (Rabs_left (-2)) in MJ by lra. lra.
  - rewrite <- EA. apply GE'. right. now left.
  - lra.
Qed.
(* the estimates *)
Hypothesis FX0 : finite (f_x0 f).
Hypothesis FX1 : finite (f_x1 f).
Hypothesis BX0 : Rabs (val (f_x0 f)) <= pow2 300.
Hypothesis BX1 : Rabs (val (f_x1 f)) <= pow2 300.
Let x0 := val (f_x0 f).
Let x1 := val (f_x1 f).
Lemma x_near z : finite z -> Rabs (val z) <= pow2 300 ->
  let y := val z - (x0 + d * x1) in let m := Rabs (val z) + Rabs x0 + Rabs (d * x1) in
  (finite (f_x0 (update f z dt)) /\ Rabs (val (f_x0 (update f z dt)) - (x0 + p0 / SS * y)) <= 16 * u * (Rabs x0 + Rabs (p0 / SS) * m) + 8 * eta * (1 + Rabs (p0 / SS))) /\
  (finite (f_x1 (update f z dt)) /\ Rabs (val (f_x1 (update f z dt)) - (x1 + p2 * d / SS * y)) <= 16 * u * (Rabs x1 + Rabs (p2 * d / SS) * m) + 8 * eta * (1 + Rabs (p2 * d / SS))).
Proof.
  intros FZ BZ y m. destruct (inside f dt S FD BD) as [[_ _ _ _ (FK0 & BK0 & _) (FK1 & _) _] _]. destruct SS_pos as (R0 & P0 & PD & P2 & RS & SP & P0S & DS).
  pose proof k0_near as N0. pose proof k1_near as N1. pose proof k1_size as BK1. pose proof (share p0 SS (conj P0 P0S) SP) as Q0.
  pose proof (prod_pow _ _ 20 300 BD BX1) as Q1. change (20 + 300)%Z with 320%Z in Q1. destruct (mul_ok dt (f_x1 f) 320 FD FX1 ltac:(lia) Q1) as [Fm Vm].
  assert (Bm : Rabs (val (dmul dt (f_x1 f))) <= pow2 320) by (rewrite Vm; apply rnd_size; [lia|exact Q1]). pose proof (bpow_le radix2 300 320 ltac:(lia)) as G1. pose proof (bpow_le radix2 300 321 ltac:(lia)) as G2.
  assert (Q2 : Rabs (val (f_x0 f) + val (dmul dt (f_x1 f))) <= pow2 321) by (apply (sum_pow _ _ 320); [lra|exact Bm]).
  destruct (add_ok _ _ 321 FX0 Fm ltac:(lia) Q2) as [Fv Vv]. fold (value_at f dt) in Fv, Vv.
  assert (Bv : Rabs (val (value_at f dt)) <= pow2 321) by (rewrite Vv; apply rnd_size; [lia|exact Q2]).
  assert (Q3 : Rabs (val z - val (value_at f dt)) <= pow2 322) by (apply (sum_pow _ _ 321); [lra|rewrite Rabs_Ropp; exact Bv]).
  destruct (sub_ok _ _ 322 FZ Fv ltac:(lia) Q3) as [Fy Vy]. assert (By : Rabs (val (dsub z (value_at f dt))) <= pow2 322) by (rewrite Vy; apply rnd_size; [lia|exact Q3]).
  assert (NY : Rabs (val (dsub z (value_at f dt)) - y) <= 4 * u * m + 4 * eta) by (rewrite Vy, Vv, Vm; exact (innovation (val z) x0 x1 d)).
  assert (YM : Rabs y <= m).
  { unfold y, m, Rminus. refine (Rle_trans _ _ _ (Rabs_triang _ _) _). rewrite Rabs_Ropp. pose proof (Rabs_triang x0 (d * x1)). lra. }
  assert (T : forall x k K, finite x -> Rabs (val x) <= pow2 300 -> finite k -> Rabs (val k) <= pow2 420 -> Rabs (val k - K) <= 8 * u * Rabs K ->
    finite (dadd x (dmul k (dsub z (value_at f dt)))) /\ Rabs (val (dadd x (dmul k (dsub z (value_at f dt)))) - (val x + K * y)) <= 16 * u * (Rabs (val x) + Rabs K * m) + 8 * eta * (1 + Rabs K)).
  { intros x k K FX BX FK BK NK. pose proof (prod_pow _ _ 420 322 BK By) as Q4. change (420 + 322)%Z with 742%Z in Q4. destruct (mul_ok _ _ 742 FK Fy ltac:(lia) Q4) as [Fp Vp].
    assert (Q5 : Rabs (val x + val (dmul k (dsub z (value_at f dt)))) <= pow2 743).
    { apply (sum_pow _ _ 742); [refine (Rle_trans _ _ _ BX _); apply bpow_le; lia|]. rewrite Vp. apply rnd_size; [lia|exact Q4]. }
    destruct (add_ok _ _ 743 FX Fp ltac:(lia) Q5) as [Fq Vq]. split; [exact Fq|]. rewrite Vq, Vp. exact (estimate _ _ _ _ _ _ NK NY YM). }
  rewrite update_eq. cbn [f_x0 f_x1]. split; apply T; try assumption.
  - rewrite Rabs_pos_eq by lra. refine (Rle_trans _ 1 _ _ _); [lra|]. change 1 with (pow2 0). apply bpow_le. lia.
  - rewrite (Rabs_pos_eq (p0 / SS)) by lra. lra.
Qed.
End Near.
Lemma square_ord' s : ordinary s -> pow2 (-200) <= val (dmul s s) <= pow2 200.
Proof.
  intros [F [L U]]. pose proof (prod_pow _ _ 100 100 U U) as A. pose proof (prod_low _ _ _ _ L L) as B. change (100 + 100)%Z with 200%Z in A. change (-100 + -100)%Z with (-200)%Z in B.
  destruct (mul_ok s s 200 F F ltac:(lia) A) as [FQ VQ]. rewrite VQ. assert (P : 0 <= rnd (val s * val s)) by (apply rnd_pos; nra).
  rewrite <- (Rabs_pos_eq (rnd _) P). split; [apply rnd_low; [lia|exact B]|apply rnd_size; [lia|exact A]].
Qed.
Lemma square_none' s : none_or_ordinary s -> (val (dmul s s) = 0 \/ pow2 (-200) <= val (dmul s s)) /\ val (dmul s s) <= pow2 200.
Proof.
  intros [[F Z]|O].
  - destruct (mul_zero s s F F Z) as [_ V]. rewrite V. split; [now left|apply bpow_ge_0].
  - pose proof (square_ord' s O). split; [right|]; lra.
Qed.
(* the exact update of uncorrelated variances p0 and p2, by an observation of variance r, d days from the reference *)
Definition total (p0 p2 r d : R) : R := p0 + p2 * d * d + r.
Lemma one_update x0 x1 s0 s1 so z ns : none_or_ordinary s0 -> none_or_ordinary s1 -> ordinary so -> (Z.abs ns <= 2 ^ 53)%Z ->
  finite x0 -> finite x1 -> finite z -> Rabs (val x0) <= pow2 300 -> Rabs (val x1) <= pow2 300 -> Rabs (val z) <= pow2 300 ->
  let f := run (start x0 x1 s0 s1 so) [(z, ns)] in
  let d := val (days ns) in let p0 := val (dmul s0 s0) in let p2 := val (dmul s1 s1) in let r := val (dmul so so) in
  let S := total p0 p2 r d in let y := val z - (val x0 + d * val x1) in let m := Rabs (val z) + Rabs (val x0) + Rabs (d * val x1) in
  (finite (f_P0 f) /\ Rabs (val (f_P0 f) - p0 * (p2 * d * d + r) / S) <= 12 * u * p0) /\
  (finite (f_P1 f) /\ Rabs (val (f_P1 f) - - (p0 * p2 * d / S)) <= 12 * u * Rabs (p0 * p2 * d / S)) /\
  (finite (f_P2 f) /\ Rabs (val (f_P2 f) - p2 * (p0 + r) / S) <= 12 * u * p2) /\
  (finite (f_x0 f) /\ Rabs (val (f_x0 f) - (val x0 + p0 / S * y)) <= 16 * u * (Rabs (val x0) + Rabs (p0 / S) * m) + 8 * eta * (1 + Rabs (p0 / S))) /\
  (finite (f_x1 f) /\ Rabs (val (f_x1 f) - (val x1 + p2 * d / S * y)) <= 16 * u * (Rabs (val x1) + Rabs (p2 * d / S) * m) + 8 * eta * (1 + Rabs (p2 * d / S))).
Proof.
  intros A B C N FX0 FX1 FZ BX0 BX1 BZ. pose proof (start_sound x0 x1 s0 s1 so A B C) as S0. destruct (days_ok ns N) as (FD & _ & BD & _ & LD).
  destruct (square_none' s0 A) as [L0 U0]. destruct (square_none' s1 B) as [L2 U2]. destruct (square_ord' so C) as [UR _].
  cbv zeta. change (run (start x0 x1 s0 s1 so) [(z, ns)]) with (update (start x0 x1 s0 s1 so) z (days ns)).
  pose proof (P0_near (start x0 x1 s0 s1 so) (days ns) S0 FD BD LD L0 L2 z) as H0.
  pose proof (P1_near (start x0 x1 s0 s1 so) (days ns) S0 FD BD LD L0 L2 U0 U2 UR z) as H1.
  pose proof (P2_near (start x0 x1 s0 s1 so) (days ns) S0 FD BD LD L0 L2 z) as H2.
  pose proof (x_near (start x0 x1 s0 s1 so) (days ns) S0 FD BD LD L0 L2 U2 UR FX0 FX1 BX0 BX1 z FZ BZ) as [H3 H4].
  unfold total. split; [exact H0|]. split; [exact H1|]. split; [exact H2|]. split; [exact H3|exact H4].
Qed.
Lemma ordinary_int n : (1 <= n <= 2 ^ 53)%Z -> ordinary (of_int n).
Proof.
  intros N. assert (N' : (Z.abs n <= 2 ^ 53)%Z) by (rewrite Z.abs_eq; lia). destruct (of_int_ok n N') as [F V]. split; [exact F|]. rewrite V, <- abs_IZR, Z.abs_eq by lia. split.
  - refine (Rle_trans _ 1 _ _ _); [change 1 with (pow2 0); apply bpow_le; lia|apply IZR_le; exact (proj1 N)].
  - refine (Rle_trans _ (pow2 53) _ _ _); [change (pow2 53) with (IZR (2 ^ 53)); apply IZR_le; exact (proj2 N)|apply bpow_le; lia].
Qed.
Lemma w_s0_ok : ordinary w_s0.
Proof.
  destruct (of_int_ok 10 ltac:(discriminate)) as [F V]. destruct one_ok as [F1 V1].
  assert (E : w_s0 = ddiv one (of_int 10)) by reflexivity. rewrite E.
  destruct (div_ok one (of_int 10) 0 F1 ltac:(rewrite V; lra) ltac:(lia)) as [FQ VQ]; [rewrite V, V1; apply Rabs_pow; cbn; lra|]. rewrite V, V1 in VQ.
  split; [exact FQ|]. rewrite VQ. split.
  - refine (Rle_trans _ (pow2 (-4)) _ (bpow_le radix2 (-100) (-4) ltac:(lia)) _). apply rnd_low; [lia|]. rewrite Rabs_pos_eq by lra. cbn. lra.
  - refine (Rle_trans _ (pow2 0) _ _ (bpow_le radix2 0 100 ltac:(lia))). apply rnd_size; [lia|]. rewrite Rabs_pos_eq by lra. cbn. lra.
Qed.
Lemma w_so_ok : ordinary w_so.
Proof.
  destruct (of_int_ok 100000000 ltac:(discriminate)) as [F V]. destruct one_ok as [F1 V1].
  assert (E : w_so = ddiv one (of_int 100000000)) by reflexivity. rewrite E.
  destruct (div_ok one (of_int 100000000) 0 F1 ltac:(rewrite V; lra) ltac:(lia)) as [FQ VQ]; [rewrite V, V1; apply Rabs_pow; cbn; lra|]. rewrite V, V1 in VQ.
  split; [exact FQ|]. rewrite VQ. split.
  - refine (Rle_trans _ (pow2 (-27)) _ (bpow_le radix2 (-100) (-27) ltac:(lia)) _). apply rnd_low; [lia|]. rewrite Rabs_pos_eq by lra. cbn. lra.
  - refine (Rle_trans _ (pow2 0) _ _ (bpow_le radix2 0 100 ltac:(lia))). apply rnd_size; [lia|]. rewrite Rabs_pos_eq by lra. cbn. lra.
Qed.
