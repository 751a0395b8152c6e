(* Proofs for FloatRel_model.v. *)
From Coq Require Import ZArith Reals Lia Lra Psatz.
From Flocq Require Import Core IEEE754.BinarySingleNaN IEEE754.Binary IEEE754.Bits.
From Verif Require Import FloatTime_model FloatTime_proofs FloatAngle_model FloatAngle_proofs FloatKalman_proofs FloatRel_model.
Local Open Scope R_scope.

Notation potential GM r := (GM / exact_norm r).
Lemma light_ok : finite light /\ val light = 299792458.
Proof. apply of_int_ok. lia. Qed.
Lemma norm_range pos : bounded 30 pos -> 1 <= exact_square pos -> 1 <= exact_norm pos <= pow2 31.
Proof.
  intros ((_ & B1) & (_ & B2) & (_ & B3)) Q. apply square_pow in B1, B2, B3. change (pow2 (30 + 30)) with 1152921504606846976 in *. unfold exact_norm, exact_square in *.
  apply sqrt_between; change (pow2 31) with 2147483648; lra.
Qed.
Lemma inverse_near N r : 1 <= r -> Rabs (N - r) <= 6 * u * r -> 9 / 10 * r <= N /\ Rabs (r / N - 1) <= 61 / 10 * u.
Proof.
  intros P E. apply Rabs_le_both in E. assert (L : 9 / 10 * r <= N) by lra. split; [exact L|].
  replace (r / N - 1) with ((r - N) / N) by (field; lra). assert (I : 0 < / N) by (apply Rinv_0_lt_compat; lra).
  apply Rabs_le. split; apply Rmult_le_reg_r with N; try lra; replace ((r - N) / N * N) with (r - N) by (field; lra); lra.
Qed.
Lemma rel_near X t c : 0 <= X -> Rabs (t - 1) <= c -> Rabs (X * t - X) <= c * X.
Proof. intros P E. replace (X * t - X) with (X * (t - 1)) by ring. rewrite Rabs_mult, (Rabs_pos_eq X) by exact P. nra. Qed.
(* the potential of a point mass *)
Lemma potential_near pos GM : bounded 30 pos -> 1 <= exact_square pos -> finite GM -> pow2 30 <= val GM <= pow2 60 ->
  finite (ddiv GM (norm pos)) /\ Rabs (val (ddiv GM (norm pos)) - potential (val GM) pos) <= 36 / 5 * u * potential (val GM) pos /\ / 2 <= potential (val GM) pos <= pow2 60.
Proof.
  intros B Q FG G. change (pow2 30) with 1073741824 in G. change (pow2 60) with 1152921504606846976 in *. pose proof (norm_range pos B Q) as N. change (pow2 31) with 2147483648 in N.
  pose proof (norm_near 30 pos ltac:(lia) B Q) as E. destruct (inverse_near _ _ (proj1 N) E) as [L I]. set (r := exact_norm pos) in *. set (m := val (norm pos)) in *.
  assert (W : / 2 <= val GM / r <= 1152921504606846976) by (split; apply Rmult_le_reg_r with r; try lra; unfold Rdiv; rewrite Rmult_assoc, Rinv_l by lra; lra).
  assert (T : val GM / m = val GM / r * (r / m)) by (field; lra). set (w := val GM / r) in *. clearbody w.
  pose proof (rel_near w (r / m) _ ltac:(lra) I) as R1. rewrite <- T in R1. pose proof R1 as R1'. apply Rabs_le_both in R1'.
  assert (NZ : val (norm pos) <> 0) by (fold m; lra).
  assert (S : Rabs (val GM / val (norm pos)) <= pow2 61) by (fold m; rewrite Rabs_pos_eq by lra; change (pow2 61) with 2305843009213693952; lra).
  destruct (div_ok GM (norm pos) 61 FG NZ ltac:(lia) S) as [F V]. fold m in V. split; [exact F|]. split; [|exact W]. rewrite V.
  pose proof (rnd_near (val GM / m)) as R2. rewrite (Rabs_pos_eq (val GM / m)) in R2 by lra. replace (rnd (val GM / m) - w) with ((rnd (val GM / m) - val GM / m) + (val GM / m - w)) by ring.
  refine (Rle_trans _ _ _ (Rabs_triang _ _) _). lra.
Qed.
(* half the square of the speed *)
Lemma kinetic_near vel : bounded 20 vel -> finite (ddiv (dot vel vel) two) /\ 0 <= exact_square vel <= pow2 42 /\
  Rabs (val (ddiv (dot vel vel) two) - exact_square vel / 2) <= 21 / 5 * u * (exact_square vel / 2) + 5 * tiny.
Proof.
  intros B. destruct (dot_square 20 vel ltac:(lia) B) as (F & P & E & _). destruct two_ok as [F2 V2].
  assert (Q : 0 <= exact_square vel <= pow2 42).
  { destruct B as ((_ & B1) & (_ & B2) & (_ & B3)). apply square_pow in B1, B2, B3. change (pow2 (20 + 20)) with 1099511627776 in *. change (pow2 42) with 4398046511104. unfold exact_square.
    pose proof (sum_sq (val (dx vel)) (val (dy vel)) (val (dz vel))). lra. }
  change (pow2 42) with 4398046511104 in *. set (q := exact_square vel) in *. set (d := val (dot vel vel)) in *. pose proof E as E'. apply Rabs_le_both in E'.
  assert (NZ : val two <> 0) by (rewrite V2; lra).
  assert (S : Rabs (val (dot vel vel) / val two) <= pow2 43) by (rewrite V2; fold d; rewrite Rabs_pos_eq by lra; change (pow2 43) with 8796093022208; lra).
  destruct (div_ok _ two 43 F NZ ltac:(lia) S) as [FD VD]. rewrite V2 in VD. fold d in VD. split; [exact FD|]. split; [exact Q|]. rewrite VD.
  pose proof (rnd_near (d / 2)) as R1. rewrite (Rabs_pos_eq (d / 2)) in R1 by lra. apply Rabs_le_both in R1. apply Rabs_le. lra.
Qed.
(* their sum over the speed of light *)
Lemma total_near U K w q c : finite U -> finite K -> 2 / 5 <= w <= pow2 61 -> 0 <= q <= pow2 42 -> 5 <= c <= 20 ->
  Rabs (val U - w) <= c * u * w -> Rabs (val K - q / 2) <= 21 / 5 * u * (q / 2) + 5 * tiny ->
  finite (ddiv (dadd U K) light) /\ Rabs (val (ddiv (dadd U K) light) - (w + q / 2) / 299792458) <= (c + 21 / 10) * u * ((w + q / 2) / 299792458).
Proof.
  intros FU FK W Q C EU EK. change (pow2 61) with 2305843009213693952 in W. change (pow2 42) with 4398046511104 in Q.
  assert (CW : 5 * u * w <= c * u * w <= 20 * u * w) by (split; apply Rmult_le_compat_r; lra). assert (CQ : 5 * u * q <= c * u * q <= 20 * u * q) by (split; apply Rmult_le_compat_r; lra).
  apply Rabs_le_both in EU, EK. set (a := val U) in *. set (b := val K) in *. assert (P : 0 <= a + b) by lra.
  assert (S : Rabs (val U + val K) <= pow2 62) by (fold a b; rewrite Rabs_pos_eq by lra; change (pow2 62) with 4611686018427387904; lra).
  destruct (add_ok U K 62 FU FK ltac:(lia) S) as [FS VS]. fold a b in VS, S. pose proof (rnd_near (a + b)) as R1. rewrite (Rabs_pos_eq (a + b)) in R1 by lra. apply Rabs_le_both in R1.
  destruct light_ok as [FL VL]. assert (NZ : val light <> 0) by (rewrite VL; lra). rewrite <- VS in R1. set (s := val (dadd U K)) in *.
  assert (S2 : Rabs (val (dadd U K) / val light) <= pow2 62) by (fold s; rewrite VL, Rabs_pos_eq by lra; change (pow2 62) with 4611686018427387904; lra).
  destruct (div_ok _ light 62 FS NZ ltac:(lia) S2) as [F V]. fold s in V. rewrite VL in V. split; [exact F|]. rewrite V.
  pose proof (rnd_near (s / 299792458)) as R2. rewrite (Rabs_pos_eq (s / 299792458)) in R2 by lra. apply Rabs_le_both in R2. apply Rabs_le. set (x := c * u * w) in *. set (y := c * u * q) in *.
  replace ((c + 21 / 10) * u * ((w + q / 2) / 299792458)) with ((x + y / 2 + 21 / 10 * u * (w + q / 2)) / 299792458) by (unfold x, y; field). lra.
Qed.
Lemma clock_near pos vel GM : bounded 30 pos -> 1 <= exact_square pos -> bounded 20 vel -> finite GM -> pow2 30 <= val GM <= pow2 60 ->
  finite (clock_correction pos vel GM) /\
  Rabs (val (clock_correction pos vel GM) - (val GM / exact_norm pos + exact_square vel / 2) / 299792458) <= 10 * u * ((val GM / exact_norm pos + exact_square vel / 2) / 299792458).
Proof.
  intros B Q BV FG G. destruct (potential_near pos GM B Q FG G) as (FU & EU & W). destruct (kinetic_near vel BV) as (FK & QV & EK). unfold clock_correction.
  pose proof (bpow_le radix2 60 61 ltac:(lia)). assert (W' : 2 / 5 <= val GM / exact_norm pos <= pow2 61) by lra.
  destruct (total_near _ _ _ _ (36 / 5) FU FK W' QV ltac:(lra) EU EK) as [F E]. split; [exact F|]. refine (Rle_trans _ _ _ E _). apply Rmult_le_compat_r; [|lra].
  set (w := val GM / exact_norm pos) in *. lra.
Qed.
(* ---- with the flattening of the Earth ---- *)
Lemma prod_near x X y Y a b A B : Rabs (x - X) <= a -> Rabs (y - Y) <= b -> Rabs X <= A -> Rabs y <= B -> Rabs (x * y - X * Y) <= a * B + A * b.
Proof.
  intros E1 E2 S1 S2. replace (x * y - X * Y) with ((x - X) * y + X * (y - Y)) by ring. refine (Rle_trans _ _ _ (Rabs_triang _ _) _). rewrite !Rabs_mult.
  apply Rplus_le_compat; apply Rmult_le_compat; (apply Rabs_pos || assumption).
Qed.
Lemma near_size x X a A : Rabs (x - X) <= a -> Rabs X <= A -> Rabs x <= A + a.
Proof. intros E S. replace x with (X + (x - X)) by ring. refine (Rle_trans _ _ _ (Rabs_triang _ _) _). lra. Qed.
Lemma rnd_step x X a A : Rabs (x - X) <= a -> Rabs X <= A -> Rabs (rnd x - X) <= a + u * (A + a) + tiny.
Proof.
  intros E S. pose proof (near_size x X a A E S) as Z. pose proof (rnd_near x) as R. replace (rnd x - X) with ((rnd x - x) + (x - X)) by ring. refine (Rle_trans _ _ _ (Rabs_triang _ _) _). lra.
Qed.
Lemma small_pow x c : Rabs x <= c -> c <= 1024 -> Rabs x <= pow2 10.
Proof. change (pow2 10) with 1024. lra. Qed.
Lemma mul_near x y X Y a b A B : finite x -> finite y -> Rabs (val x - X) <= a -> Rabs (val y - Y) <= b -> Rabs X <= A -> Rabs Y <= B -> A * B + a * (B + b) + A * b <= 1024 ->
  finite (dmul x y) /\ Rabs (val (dmul x y) - X * Y) <= (a * (B + b) + A * b) + u * (A * B + (a * (B + b) + A * b)) + tiny.
Proof.
  intros FX FY E1 E2 S1 S2 L. pose proof (near_size _ _ _ _ E2 S2) as Sy. pose proof (prod_near _ _ _ _ _ _ _ _ E1 E2 S1 Sy) as P.
  assert (SP : Rabs (X * Y) <= A * B) by (rewrite Rabs_mult; apply Rmult_le_compat; (apply Rabs_pos || assumption)).
  pose proof (near_size _ _ _ _ P SP) as Z. destruct (mul_ok x y 10 FX FY ltac:(lia) (small_pow _ _ Z ltac:(lra))) as [F V]. split; [exact F|]. rewrite V. apply rnd_step; assumption.
Qed.
Lemma exactly x A : Rabs x <= A -> Rabs (x - x) <= 0.
Proof. intros _. rewrite Rminus_diag_eq by reflexivity. rewrite Rabs_R0. lra. Qed.
Notation flattening s J2 rho := (1 - rho * rho * J2 * (3 * s * s - 1) / 2).
Section J2.
Variables (s J2 Re : double) (pos : dvec).
Hypothesis Fs : finite s.
Hypothesis Bs : Rabs (val s) <= 1.
Hypothesis FJ : finite J2.
Hypothesis BJ : Rabs (val J2) <= / 500.
Hypothesis FR : finite Re.
Hypothesis BR : 0 <= val Re <= 2 * exact_norm pos.
Hypothesis Bp : bounded 30 pos.
Hypothesis Qp : 1 <= exact_square pos.
Let rho := val Re / exact_norm pos.
Lemma rho_range : 0 <= rho <= 2.
Proof. pose proof (norm_range pos Bp Qp) as N. unfold rho. split; apply Rmult_le_reg_r with (exact_norm pos); try lra; unfold Rdiv; rewrite Rmult_assoc, Rinv_l by lra; lra. Qed.
Lemma rho_near : finite (ddiv Re (norm pos)) /\ Rabs (val (ddiv Re (norm pos)) - rho) <= 15 * u.
Proof.
  pose proof (norm_range pos Bp Qp) as N. pose proof (norm_near 30 pos ltac:(lia) Bp Qp) as E. destruct (inverse_near _ _ (proj1 N) E) as [L I]. pose proof rho_range as RR.
  assert (NZ : val (norm pos) <> 0) by lra. assert (T : val Re / val (norm pos) = rho * (exact_norm pos / val (norm pos))) by (unfold rho; field; lra).
  pose proof (rel_near rho _ _ (proj1 RR) I) as R1. rewrite <- T in R1. assert (R1' : Rabs (val Re / val (norm pos) - rho) <= 61 / 10 * u * 2) by lra. assert (AR : Rabs rho <= 2) by (rewrite Rabs_pos_eq; lra).
  pose proof (near_size _ _ _ _ R1' AR) as Z. destruct (div_ok Re (norm pos) 10 FR NZ ltac:(lia) (small_pow _ _ Z ltac:(lra))) as [F V]. split; [exact F|]. rewrite V.
  refine (Rle_trans _ _ _ (rnd_step _ _ _ _ R1' AR) _). lra.
Qed.
Let lat := dsub (dmul (dmul (of_int 3) s) s) one.
Lemma lat_near : finite lat /\ Rabs (val lat - (3 * val s * val s - 1)) <= 41 / 5 * u.
Proof.
  destruct (of_int_ok 3 ltac:(lia)) as [F3 V3]. destruct one_ok as [F1 V1].
  assert (E3 : Rabs (val (of_int 3) - 3) <= 0) by (rewrite V3, Rminus_diag_eq by reflexivity; rewrite Rabs_R0; lra). pose proof (exactly _ _ Bs) as Es. assert (A3 : Rabs 3 <= 3) by (rewrite Rabs_pos_eq; lra).
  destruct (mul_near _ _ 3 (val s) 0 0 3 1 F3 Fs E3 Es A3 Bs ltac:(lra)) as [Fa Ea].
  assert (A3s : Rabs (3 * val s) <= 3) by (rewrite Rabs_mult, (Rabs_pos_eq 3) by lra; lra).
  assert (Ea' : Rabs (val (dmul (of_int 3) s) - 3 * val s) <= 31 / 10 * u) by lra.
  destruct (mul_near _ _ (3 * val s) (val s) (31 / 10 * u) 0 3 1 Fa Fs Ea' Es A3s Bs ltac:(lra)) as [Fb Eb].
  assert (Eb' : Rabs (val (dmul (dmul (of_int 3) s) s) - 3 * val s * val s) <= 61 / 10 * u + u / 20) by lra.
  assert (R : Rabs (3 * val s * val s - 1) <= 2). { apply Rabs_le_both in Bs. apply Rabs_le. nra. }
  assert (D : Rabs (val (dmul (dmul (of_int 3) s) s) - val one - (3 * val s * val s - 1)) <= 61 / 10 * u + u / 20) by (rewrite V1; replace (val (dmul (dmul (of_int 3) s) s) - 1 - (3 * val s * val s - 1)) with (val (dmul (dmul (of_int 3) s) s) - 3 * val s * val s) by ring; exact Eb').
  pose proof (near_size _ _ _ _ D R) as Z. destruct (sub_ok _ one 10 Fb F1 ltac:(lia) (small_pow _ _ Z ltac:(lra))) as [F V]. split; [exact F|]. unfold lat. rewrite V.
  refine (Rle_trans _ _ _ (rnd_step _ _ _ _ D R) _). lra.
Qed.
Let factor := dsub one (ddiv (dmul (dmul (dmul (ddiv Re (norm pos)) (ddiv Re (norm pos))) J2) lat) two).
Lemma factor_near : finite factor /\ Rabs (val factor - flattening (val s) (val J2) rho) <= 5 / 4 * u /\ 99 / 100 <= flattening (val s) (val J2) rho <= 101 / 100.
Proof.
  destruct rho_near as [F0 E0]. destruct lat_near as [FL EL]. pose proof rho_range as RR. assert (AR : Rabs rho <= 2) by (rewrite Rabs_pos_eq; lra).
  destruct (mul_near _ _ rho rho _ _ 2 2 F0 F0 E0 E0 AR AR ltac:(lra)) as [Fa Ea].
  assert (Ea' : Rabs (val (dmul (ddiv Re (norm pos)) (ddiv Re (norm pos))) - rho * rho) <= 66 * u) by lra.
  assert (A2 : Rabs (rho * rho) <= 4) by (rewrite Rabs_pos_eq by nra; nra). pose proof (exactly _ _ BJ) as EJ.
  destruct (mul_near _ _ (rho * rho) (val J2) _ 0 4 (/ 500) Fa FJ Ea' EJ A2 BJ ltac:(lra)) as [Fb Eb].
  assert (Eb' : Rabs (val (dmul (dmul (ddiv Re (norm pos)) (ddiv Re (norm pos))) J2) - rho * rho * val J2) <= 3 / 20 * u) by lra.
  assert (A3 : Rabs (rho * rho * val J2) <= 1 / 125) by (rewrite Rabs_mult; pose proof (Rabs_pos (rho * rho)); pose proof (Rabs_pos (val J2)); nra).
  assert (AL : Rabs (3 * val s * val s - 1) <= 2). { pose proof Bs as Bs'. apply Rabs_le_both in Bs'. apply Rabs_le. nra. }
  destruct (mul_near _ _ (rho * rho * val J2) (3 * val s * val s - 1) _ _ (1 / 125) 2 Fb FL Eb' EL A3 AL ltac:(lra)) as [Fc Ec].
  set (P := dmul (dmul (dmul (ddiv Re (norm pos)) (ddiv Re (norm pos))) J2) lat) in *. set (q := rho * rho * val J2 * (3 * val s * val s - 1)) in *.
  assert (Ec' : Rabs (val P - q) <= 2 / 5 * u) by lra. assert (Aq : Rabs q <= 2 / 125) by (unfold q; rewrite Rabs_mult; pose proof (Rabs_pos (rho * rho * val J2)); pose proof (Rabs_pos (3 * val s * val s - 1)); nra).
  destruct two_ok as [F2 V2]. destruct one_ok as [F1 V1]. assert (NZ : val two <> 0) by lra.
  assert (D : Rabs (val P / val two - q / 2) <= u / 5) by (rewrite V2; replace (val P / 2 - q / 2) with ((val P - q) * / 2) by field; rewrite Rabs_mult, (Rabs_pos_eq (/ 2)) by lra; lra).
  assert (Ah : Rabs (q / 2) <= 1 / 125) by (unfold Rdiv at 1; rewrite Rabs_mult, (Rabs_pos_eq (/ 2)) by lra; lra).
  pose proof (near_size _ _ _ _ D Ah) as Z. destruct (div_ok P two 10 Fc NZ ltac:(lia) (small_pow _ _ Z ltac:(lra))) as [Fd Vd].
  pose proof (rnd_step _ _ _ _ D Ah) as Ed. rewrite <- Vd in Ed. assert (Ed' : Rabs (val (ddiv P two) - q / 2) <= 11 / 50 * u) by lra.
  apply Rabs_le_both in Ed', Ah. assert (D2 : Rabs (val one - val (ddiv P two) - (1 - q / 2)) <= 11 / 50 * u) by (rewrite V1; apply Rabs_le; lra).
  assert (Af : Rabs (1 - q / 2) <= 101 / 100) by (apply Rabs_le; lra). pose proof (near_size _ _ _ _ D2 Af) as Z2.
  destruct (sub_ok one (ddiv P two) 10 F1 Fd ltac:(lia) (small_pow _ _ Z2 ltac:(lra))) as [F V]. split; [exact F|]. split; [|lra].
  unfold factor. fold P. rewrite V. refine (Rle_trans _ _ _ (rnd_step _ _ _ _ D2 Af) _). lra.
Qed.
Lemma clock_J2_near vel GM : bounded 20 vel -> finite GM -> pow2 30 <= val GM <= pow2 60 ->
  let exact := (val GM / exact_norm pos * flattening (val s) (val J2) rho + exact_square vel / 2) / 299792458 in
  finite (clock_correction_J2 s pos vel GM J2 Re) /\ Rabs (val (clock_correction_J2 s pos vel GM J2 Re) - exact) <= 13 * u * exact.
Proof.
  intros BV FG G exact. destruct (potential_near pos GM Bp Qp FG G) as (FU & EU & W). destruct (kinetic_near vel BV) as (FK & QV & EK). destruct factor_near as (FF & EF & RF).
  unfold clock_correction_J2. fold lat. fold factor. set (f := flattening (val s) (val J2) rho) in *. set (w := val GM / exact_norm pos) in *. change (pow2 60) with 1152921504606846976 in W. set (g := ddiv GM (norm pos)) in *.
  assert (Sf : Rabs (val factor) <= 102 / 100) by (apply Rabs_le_both in EF; apply Rabs_le; lra). assert (Aw : Rabs w <= w) by (rewrite Rabs_pos_eq; lra).
  pose proof (prod_near _ _ _ _ _ _ _ _ EU EF Aw Sf) as P. assert (P' : Rabs (val g * val factor - w * f) <= 43 / 5 * u * w) by lra. assert (WF : 99 / 100 * w <= w * f <= 101 / 100 * w) by (split; nra).
  assert (A : Rabs (w * f) <= 101 / 100 * w) by (rewrite Rabs_pos_eq; lra). pose proof (near_size _ _ _ _ P' A) as Z. assert (Z' : Rabs (val g * val factor) <= pow2 61) by (change (pow2 61) with 2305843009213693952; lra).
  destruct (mul_ok g factor 61 FU FF ltac:(lia) Z') as [FM VM]. pose proof (rnd_step _ _ _ _ P' A) as E. rewrite <- VM in E.
  assert (E' : Rabs (val (dmul g factor) - w * f) <= 10 * u * (w * f)) by lra. assert (W' : 2 / 5 <= w * f <= pow2 61) by (change (pow2 61) with 2305843009213693952; lra).
  destruct (total_near _ _ _ _ 10 FM FK W' QV ltac:(lra) E' EK) as [F T]. split; [exact F|]. refine (Rle_trans _ _ _ T _). unfold exact. change (pow2 42) with 4398046511104 in QV. set (x := w * f) in *. lra.
Qed.
End J2.
Lemma still : bounded 20 (D zero zero zero) /\ exact_square (D zero zero zero) = 0.
Proof.
  destruct zero_ok as [F V]. assert (B : finite zero /\ Rabs (val zero) <= pow2 20) by (split; [exact F|]; rewrite V, Rabs_R0; apply bpow_ge_0).
  split; [split; [exact B|split; exact B]|]. unfold exact_square. cbn [dx dy dz]. rewrite V. ring.
Qed.
(* the difference of two numbers of which the sum is not small *)
Lemma difference_near x y X Y : finite x -> finite y -> 0 <= X <= pow2 62 -> 0 <= Y <= pow2 62 -> pow2 (-30) <= X + Y -> Rabs (val x - X) <= 13 * u * X -> Rabs (val y - Y) <= 10 * u * Y ->
  finite (dsub x y) /\ Rabs (val (dsub x y) - (X - Y)) <= 15 * u * (X + Y).
Proof.
  intros FX FY BX BY L EX EY. change (pow2 62) with 4611686018427387904 in *. change (pow2 (-30)) with (/ 1073741824) in L. apply Rabs_le_both in EX, EY.
  assert (D : Rabs (val x - val y - (X - Y)) <= 13 * u * (X + Y)) by (apply Rabs_le; lra). assert (A : Rabs (X - Y) <= X + Y) by (apply Rabs_le; lra).
  pose proof (near_size _ _ _ _ D A) as Z. assert (Z' : Rabs (val x - val y) <= pow2 64) by (change (pow2 64) with 18446744073709551616; lra).
  destruct (sub_ok x y 64 FX FY ltac:(lia) Z') as [F V]. split; [exact F|]. rewrite V. refine (Rle_trans _ _ _ (rnd_step _ _ _ _ D A) _). lra.
Qed.
