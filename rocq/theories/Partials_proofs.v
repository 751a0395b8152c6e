From Coq Require Import Reals ZArith Lra Psatz Nsatz.
From Verif Require Import Vec_model Vec_proofs Calc Kepler_model Kepler_proofs Partials_model.
Local Open Scope R_scope.

(* ---- the eccentric anomaly as a function of eccentricity and mean anomaly ---- *)
Lemma kepler_deriv e M E s e' M' : derivable_pt_lim e s e' -> derivable_pt_lim M s M' -> (forall t, kepler_eq (e t) (M t) (E t)) -> -1 < e s < 1 ->
  derivable_pt_lim E s ((M' + e' * sin (E s)) / (1 - e s * cos (E s))).
Proof.
  intros De DM K He. set (N := M' + e' * sin (E s)). set (D := 1 - e s * cos (E s)).
  set (c := (1 - Rabs (e s)) / 2). assert (AE : Rabs (e s) < 1) by (apply Rabs_def1; lra). assert (C0 : 0 < c) by (unfold c; lra).
  assert (bound : forall x y k, Rabs x <= k -> 1 - k <= 1 - x * cos y).
  { intros x y k Hk. assert (x * cos y <= Rabs x); [|lra]. apply Rle_trans with (Rabs (x * cos y)); [apply Rle_abs|]. rewrite Rabs_mult. rewrite <- (Rmult_1_r (Rabs x)) at 2. apply Rmult_le_compat_l; [apply Rabs_pos|]. apply Rabs_le. pose proof (COS_bound y). lra. }
  assert (DP : 0 < D). { pose proof (bound (e s) (E s) (Rabs (e s)) ltac:(lra)). unfold D. lra. }
  set (ke := Rabs e' + 1). set (km := Rabs M' + 1). set (K1 := (km + ke) / c). set (K2 := K1 * (ke + K1)).
  assert (KE : 0 < ke) by (unfold ke; pose proof (Rabs_pos e'); lra). assert (KM : 0 < km) by (unfold km; pose proof (Rabs_pos M'); lra). assert (P1 : 0 < K1) by (apply Rmult_lt_0_compat; [lra|apply Rinv_0_lt_compat, C0]). assert (P2 : 0 < K2) by (apply Rmult_lt_0_compat; lra).
  intros eps EP. set (ee := Rmin 1 (eps * D / 4)). assert (EE : 0 < ee) by (apply Rmin_glb_lt; [lra|]; apply Rmult_lt_0_compat; [apply Rmult_lt_0_compat; lra|lra]).
  destruct (De ee EE) as [d1 H1]. destruct (DM ee EE) as [d2 H2].
  set (d3 := Rmin (c / ke) (eps * D / (4 * K2))). assert (D3 : 0 < d3) by (apply Rmin_glb_lt; [apply Rmult_lt_0_compat; [lra|apply Rinv_0_lt_compat, KE]|]; apply Rmult_lt_0_compat; [apply Rmult_lt_0_compat; lra|apply Rinv_0_lt_compat; lra]).
  assert (DD : 0 < Rmin (Rmin d1 d2) d3) by (apply Rmin_glb_lt; [apply Rmin_glb_lt; apply cond_pos|exact D3]). exists (mkposreal _ DD). intros h HN HL. cbn [pos] in HL.
  assert (L1 : Rabs h < d1) by (eapply Rlt_le_trans; [exact HL|]; eapply Rle_trans; [apply Rmin_l|apply Rmin_l]). assert (L2 : Rabs h < d2) by (eapply Rlt_le_trans; [exact HL|]; eapply Rle_trans; [apply Rmin_l|apply Rmin_r]). assert (L3 : Rabs h < d3) by (eapply Rlt_le_trans; [exact HL|apply Rmin_r]).
  specialize (H1 h HN L1). specialize (H2 h HN L2). assert (HP : 0 < Rabs h) by (apply Rabs_pos_lt, HN).
  set (de := (e (s + h) - e s) / h) in *. set (dm := (M (s + h) - M s) / h) in *. set (dE := (E (s + h) - E s) / h).
  assert (Ede : e (s + h) = e s + de * h) by (unfold de; field; exact HN). assert (Edm : M (s + h) = M s + dm * h) by (unfold dm; field; exact HN). assert (EdE : E (s + h) = E s + dE * h) by (unfold dE; field; exact HN).
  assert (EE1 : ee <= 1) by apply Rmin_l. assert (EE2 : ee <= eps * D / 4) by apply Rmin_r.
  assert (Bde : Rabs de <= ke). { unfold ke. replace de with ((de - e') + e') by ring. eapply Rle_trans; [apply Rabs_triang|]. lra. }
  assert (Bdm : Rabs dm <= km). { unfold km. replace dm with ((dm - M') + M') by ring. eapply Rle_trans; [apply Rabs_triang|]. lra. }
  destruct (mvt sin cos (E s) (E (s + h)) derivable_pt_lim_sin) as (xi & MV & X1 & X2).
  assert (Hc : ke * Rabs h <= c). { apply Rmult_le_reg_r with (/ ke); [apply Rinv_0_lt_compat, KE|]. replace (ke * Rabs h * / ke) with (Rabs h) by (field; lra). left. eapply Rlt_le_trans; [exact L3|]. unfold d3. eapply Rle_trans; [apply Rmin_l|]. unfold Rdiv. lra. }
  assert (BEh : Rabs (e (s + h)) <= 1 - c). { rewrite Ede. eapply Rle_trans; [apply Rabs_triang|]. rewrite Rabs_mult. assert (Rabs de * Rabs h <= ke * Rabs h) by (apply Rmult_le_compat_r; [apply Rabs_pos|exact Bde]). unfold c in *. lra. }
  pose proof (bound (e (s + h)) xi (1 - c) BEh) as QP. set (q := 1 - e (s + h) * cos xi) in *. assert (Qc : c <= q) by lra.
  assert (EQ : dE * q = dm + de * sin (E s)).
  { pose proof (K (s + h)) as Kh. pose proof (K s) as Ks. unfold kepler_eq in Kh, Ks. apply Rmult_eq_reg_r with h; [|exact HN]. unfold q.
    assert (EM : e (s + h) * sin (E (s + h)) = e (s + h) * (sin (E s) + cos xi * (dE * h))) by (f_equal; rewrite EdE in MV at 2; lra).
    rewrite EM in Kh. rewrite EdE in Kh at 1. rewrite Edm in Kh. rewrite Ede in Kh |- *. lra. }
  assert (BE : Rabs dE <= K1).
  { unfold K1. apply Rmult_le_reg_r with c; [exact C0|]. replace ((km + ke) / c * c) with (km + ke) by (field; lra). apply Rle_trans with (Rabs dE * q); [apply Rmult_le_compat_l; [apply Rabs_pos|exact Qc]|].
    rewrite <- (Rabs_right q) by lra. rewrite <- Rabs_mult, EQ. eapply Rle_trans; [apply Rabs_triang|]. rewrite Rabs_mult. assert (Rabs (sin (E s)) <= 1) by (apply Rabs_le; pose proof (SIN_bound (E s)); lra). assert (Rabs de * Rabs (sin (E s)) <= ke * 1) by (apply Rmult_le_compat; [apply Rabs_pos|apply Rabs_pos|exact Bde|assumption]). lra. }
  assert (BX : Rabs (q - D) <= (ke + K1) * Rabs h).
  { unfold q, D. replace (1 - e (s + h) * cos xi - (1 - e s * cos (E s))) with (- ((e (s + h) - e s) * cos xi) + - (e s * (cos xi - cos (E s)))) by ring. eapply Rle_trans; [apply Rabs_triang|]. rewrite !Rabs_Ropp, !Rabs_mult.
    assert (A1 : Rabs (e (s + h) - e s) * Rabs (cos xi) <= ke * Rabs h * 1). { apply Rmult_le_compat; try apply Rabs_pos; [|apply Rabs_le; pose proof (COS_bound xi); lra]. replace (e (s + h) - e s) with (de * h) by (rewrite Ede; ring). rewrite Rabs_mult. apply Rmult_le_compat_r; [apply Rabs_pos|exact Bde]. }
    assert (A2 : Rabs (e s) * Rabs (cos xi - cos (E s)) <= 1 * (K1 * Rabs h)). { apply Rmult_le_compat; try apply Rabs_pos; [lra|]. eapply Rle_trans; [apply cos_lip|]. eapply Rle_trans; [exact X1|]. replace (E (s + h) - E s) with (dE * h) by (rewrite EdE; ring). rewrite Rabs_mult. apply Rmult_le_compat_r; [apply Rabs_pos|exact BE]. }
    lra. }
  fold dE. replace (dE - N / D) with ((dE * D - N) / D) by (field; lra). unfold Rdiv. rewrite Rabs_mult. rewrite (Rabs_right (/ D)) by (apply Rle_ge, Rlt_le, Rinv_0_lt_compat, DP).
  apply Rmult_lt_reg_r with D; [exact DP|]. rewrite Rmult_assoc, Rinv_l, Rmult_1_r by lra.
  replace (dE * D - N) with ((dm - M') + ((de - e') * sin (E s) + - (dE * (q - D)))) by (unfold N; lra).
  assert (T3 : Rabs (dE * (q - D)) < eps * D / 4 + eps * D / 4).
  { rewrite Rabs_mult. assert (G1 : Rabs dE * Rabs (q - D) <= K1 * ((ke + K1) * Rabs h)) by (apply Rmult_le_compat; try apply Rabs_pos; assumption). assert (G2 : K2 * Rabs h < K2 * (eps * D / (4 * K2))) by (apply Rmult_lt_compat_l; [exact P2|]; eapply Rlt_le_trans; [exact L3|apply Rmin_r]). replace (K2 * (eps * D / (4 * K2))) with (eps * D / 4) in G2 by (field; lra). unfold K2 in G2. assert (0 < eps * D) by (apply Rmult_lt_0_compat; assumption). lra. }
  assert (T2 : Rabs ((de - e') * sin (E s)) <= ee). { rewrite Rabs_mult. rewrite <- (Rmult_1_r ee). apply Rmult_le_compat; try apply Rabs_pos; [lra|apply Rabs_le; pose proof (SIN_bound (E s)); lra]. }
  eapply Rle_lt_trans; [apply Rabs_triang|]. eapply Rle_lt_trans; [apply Rplus_le_compat_l, Rabs_triang|]. rewrite Rabs_Ropp. lra.
Qed.

(* ---- the perifocal axes ---- *)
Definition node_axis (Omega : R) : vec := V (cos Omega) (sin Omega) 0.
Lemma node_code Omega i omega : 0 < sin i ->
  let W := col2 (pqw Omega i omega) in norm (cross unit_z W) = sin i /\ vscale (/ norm (cross unit_z W)) (cross unit_z W) = node_axis Omega.
Proof.
  intros P W. assert (E : cross unit_z W = vscale (sin i) (node_axis Omega)) by (unfold W, pqw, node_axis; vec_ring).
  assert (N : norm (cross unit_z W) = sin i). { apply norm_unique; [lra|]. rewrite E. pose proof (cos2_sin2 Omega) as H. unfold node_axis, vscale, dot. cbn [vx vy vz]. ring [H]. }
  split; [exact N|]. rewrite N, E, vscale_vscale, Rinv_l by lra. apply vec_eq; cbn; ring.
Qed.
Ltac dsolve := repeat first
  [ eassumption | apply deriv_plus | apply deriv_minus | apply deriv_mult | apply deriv_opp | apply deriv_const | (eapply deriv_cos; eassumption) | (eapply deriv_sin; eassumption) ].
Section Axes.
Context (O i o : R -> R) (s O' i' o' : R).
Hypothesis (DO : derivable_pt_lim O s O') (Di : derivable_pt_lim i s i') (Do : derivable_pt_lim o s o').
Let T (t : R) := pqw (O t) (i t) (o t).
Let rot (X : vec) (Y : vec) := vadd (vscale O' (cross unit_z X)) (vadd (vscale i' (cross (node_axis (O s)) X)) (vscale o' Y)).
Lemma vderiv_P : vderiv (fun t => col0 (T t)) s (rot (col0 (T s)) (col1 (T s))).
Proof.
  pose proof (cos2_sin2 (O s)) as H. unfold T, rot, pqw, col0, col1, transpose, node_axis, unit_z, mat9, cross, vadd, vscale. split; [|split]; cbn [row0 row1 row2 vx vy vz]; (eapply deriv_eq; [dsolve|]); cbn beta; ring [H].
Qed.
Lemma vderiv_Q : vderiv (fun t => col1 (T t)) s (rot (col1 (T s)) (vscale (-1) (col0 (T s)))).
Proof.
  pose proof (cos2_sin2 (O s)) as H. unfold T, rot, pqw, col0, col1, transpose, node_axis, unit_z, mat9, cross, vadd, vscale. split; [|split]; cbn [row0 row1 row2 vx vy vz]; (eapply deriv_eq; [dsolve|]); cbn beta; ring [H].
Qed.
End Axes.

(* ---- the perifocal coordinates ---- *)
Lemma mean_motion GM a : 0 < GM -> 0 < a -> 0 < sqrt (GM / (a * a * a)) /\ sqrt (GM / (a * a * a)) * sqrt (GM / (a * a * a)) * (a * a * a) = GM /\ sqrt (GM * a) = sqrt (GM / (a * a * a)) * (a * a).
Proof.
  intros G A. assert (A3 : 0 < a * a * a) by (repeat apply Rmult_lt_0_compat; exact A). assert (Q : 0 < GM / (a * a * a)) by (apply Rmult_lt_0_compat; [exact G|apply Rinv_0_lt_compat, A3]).
  split; [apply sqrt_lt_R0, Q|]. split; [rewrite sqrt_sqrt by lra; field; lra|].
  assert (E : a * a = sqrt (a * a * (a * a))) by (symmetry; apply sqrt_square; nra). transitivity (sqrt (GM / (a * a * a)) * sqrt (a * a * (a * a))); [|f_equal; symmetry; exact E]. rewrite <- sqrt_mult by nra. f_equal. field. lra.
Qed.
Lemma deriv_motion GM a s a' : 0 < GM -> derivable_pt_lim a s a' -> 0 < a s -> derivable_pt_lim (fun t => sqrt (GM / (a t * a t * a t))) s (- (15 / 10) * (sqrt (GM / (a s * a s * a s)) / a s) * a').
Proof.
  intros G D A. destruct (mean_motion GM (a s) G A) as (N & N2 & _). assert (A3 : 0 < a s * a s * a s) by (repeat apply Rmult_lt_0_compat; exact A). set (n := sqrt (GM / (a s * a s * a s))) in *.
  eapply deriv_eq.
  - apply (deriv_sqrt (fun t => GM / (a t * a t * a t))). apply deriv_div; [apply deriv_const|apply deriv_mult; [apply deriv_mult; exact D|exact D]|lra]. apply Rmult_lt_0_compat; [exact G|apply Rinv_0_lt_compat, A3].
  - cbn beta. fold n. rewrite <- N2. field. lra.
Qed.
(* the coordinates, through the mean motion *)
Definition peri_x (a e E : R) := a * (cos E - e).
Definition peri_y (a f E : R) := a * f * sin E.
Definition peri_vx (n a e E : R) := - (n * a * sin E) / (1 - e * cos E).
Definition peri_vy (n a e f E : R) := n * a * f * cos E / (1 - e * cos E).
Lemma slope_both e E : -1 < e < 1 -> 0 < 1 - e * cos E.
Proof.
  intros He. pose proof (COS_bound E) as B. destruct (Rle_dec 0 (cos E)) as [P|P].
  - assert (e * cos E <= 1 * cos E) by (apply Rmult_le_compat_r; lra). destruct (Req_dec (cos E) 1) as [->|N]; lra.
  - assert (0 < (e + 1) * (- cos E)) by (apply Rmult_lt_0_compat; lra). lra.
Qed.
Lemma perifocal_motion GM E e a : 0 < GM -> 0 < a -> -1 < e < 1 ->
  let n := sqrt (GM / (a * a * a)) in let f := sqrt ((1 - e) * (1 + e)) in
  perifocal GM E e a = State (V (peri_x a e E) (peri_y a f E) 0) (V (peri_vx n a e E) (peri_vy n a e f E) 0).
Proof.
  intros G A He n f. destruct (mean_motion GM a G A) as (_ & _ & K). unfold perifocal. rewrite K. fold n. fold f. pose proof (slope_both e E He) as S.
  unfold peri_x, peri_y, peri_vx, peri_vy. f_equal; apply vec_eq; cbn [vx vy vz]; try reflexivity; field; repeat split; lra.
Qed.
Definition sderiv (f : R -> state) (s : R) (d : state) : Prop := vderiv (fun t => st_r (f t)) s (st_r d) /\ vderiv (fun t => st_v (f t)) s (st_v d).
(* the partials of the perifocal coordinates, written as the code writes them *)
Section Coordinates.
Context (a e E n f : R -> R) (s a' e' mt : R).
Hypothesis (Da : derivable_pt_lim a s a') (De : derivable_pt_lim e s e') (A : 0 < a s) (N : 0 < n s) (He : -1 < e s < 1).
Hypothesis (Dn : derivable_pt_lim n s (- (15 / 10) * (n s / a s) * a')).
Hypothesis (F : 0 < f s) (F2 : f s * f s = (1 - e s) * (1 + e s)) (Df : derivable_pt_lim f s (- e s * e' / f s)).
Hypothesis (DE : derivable_pt_lim E s ((mt + e' * sin (E s)) / (1 - e s * cos (E s)))).
Let x := peri_x (a s) (e s) (E s).
Let y := peri_y (a s) (f s) (E s).
Let vX := peri_vx (n s) (a s) (e s) (E s).
Let vY := peri_vy (n s) (a s) (e s) (f s) (E s).
Let r := a s * (1 - e s * cos (E s)).
Lemma slope_here : 0 < 1 - e s * cos (E s). Proof. apply slope_both, He. Qed.
Ltac start := pose proof slope_here as W; pose proof (cos2_sin2 (E s)) as CS; unfold x, y, vX, vY, r, peri_x, peri_y, peri_vx, peri_vy.
Ltac finish := cbn beta; generalize dependent (n s); generalize dependent (f s); generalize dependent (a s); generalize dependent (e s); intros e0 He0; generalize (sin (E s)) (cos (E s)); intros.
Lemma deriv_x : derivable_pt_lim (fun t => peri_x (a t) (e t) (E t)) s (a' * (x / a s) + e' * (- a s - (y / f s) ^ 2 / r) + mt * (/ n s * vX)).
Proof.
  start. eapply deriv_eq; [apply deriv_mult; [exact Da|apply deriv_minus; [eapply deriv_cos; exact DE|exact De]]|]. cbn beta.
  field_simplify_eq; [|lra]. nsatz.
Qed.
Lemma deriv_y : derivable_pt_lim (fun t => peri_y (a t) (f t) (E t)) s (a' * (y / a s) + e' * (x * y / (r * f s * f s)) + mt * (/ n s * vY)).
Proof.
  start. eapply deriv_eq; [apply deriv_mult; [apply deriv_mult; [exact Da|exact Df]|eapply deriv_sin; exact DE]|]. cbn beta.
  field_simplify_eq; [|lra]. ring [F2 CS].
Qed.
Lemma deriv_vx : derivable_pt_lim (fun t => peri_vx (n t) (a t) (e t) (E t)) s (a' * (- vX / (2 * a s)) + e' * (vX * (2 * a s * x + e s * (y / f s) ^ 2) / (r * r)) + mt * (- n s * (a s / r) ^ 3 * x)).
Proof.
  start. eapply deriv_eq; [apply deriv_div; [apply deriv_opp, deriv_mult; [apply deriv_mult; [exact Dn|exact Da]|eapply deriv_sin; exact DE]|apply deriv_minus; [apply deriv_const|apply deriv_mult; [exact De|eapply deriv_cos; exact DE]]|lra]|]. cbn beta.
  field_simplify_eq; [|lra]. ring [F2 CS].
Qed.
Lemma deriv_vy : derivable_pt_lim (fun t => peri_vy (n t) (a t) (e t) (f t) (E t)) s (a' * (- vY / (2 * a s)) + e' * (n s / f s * (a s / r) ^ 2 * (x * x / r - (y / f s) ^ 2 / a s)) + mt * (- n s * (a s / r) ^ 3 * y)).
Proof.
  start. eapply deriv_eq; [apply deriv_div; [apply deriv_mult; [apply deriv_mult; [apply deriv_mult; [exact Dn|exact Da]|exact Df]|eapply deriv_cos; exact DE]|apply deriv_minus; [apply deriv_const|apply deriv_mult; [exact De|eapply deriv_cos; exact DE]]|lra]|]. cbn beta.
  field_simplify_eq; [|lra]. ring [F2 CS].
Qed.
End Coordinates.

(* ---- the columns ---- *)
Definition axis (T : mat) (u w : R) : vec := vadd (vscale u (col0 T)) (vscale w (col1 T)).
Lemma mulv_axis T u w : mulv T (V u w 0) = axis T u w. Proof. unfold axis. vec_ring. Qed.
Definition spin (u r v : vec) : state := State (cross u r) (cross u v).
Definition columns (GM : R) (el : elements) (E dt : R) : mat6 :=
  let a := el_a el in let e := el_e el in
  let T := pqw (el_Omega el) (el_i el) (el_omega el) in
  let n := sqrt (GM / (a * a * a)) in let f := sqrt ((1 - e) * (1 + e)) in let r := a * (1 - e * cos E) in
  let x := peri_x a e E in let y := peri_y a f E in let vX := peri_vx n a e E in let vY := peri_vy n a e f E in
  let cM := State (axis T (/ n * vX) (/ n * vY)) (axis T (- n * (a / r) ^ 3 * x) (- n * (a / r) ^ 3 * y)) in
  M6 (sadd (State (axis T (x / a) (y / a)) (axis T (- vX / (2 * a)) (- vY / (2 * a)))) (sscale (- (15 / 10) * (n / a) * dt) cM))
     (State (axis T (- a - (y / f) ^ 2 / r) (x * y / (r * f * f)))
            (axis T (vX * (2 * a * x + e * (y / f) ^ 2) / (r * r)) (n / f * (a / r) ^ 2 * (x * x / r - (y / f) ^ 2 / a))))
     (spin (node_axis (el_Omega el)) (axis T x y) (axis T vX vY))
     (spin unit_z (axis T x y) (axis T vX vY))
     (State (axis T (- y) x) (axis T (- vY) vX))
     cM.
Lemma scale_axis k T u w : vscale k (axis T u w) = axis T (k * u) (k * w). Proof. unfold axis. apply vec_eq; cbn; ring. Qed.
Lemma cross_axis k T u w : cross k (axis T u w) = vadd (vscale u (cross k (col0 T))) (vscale w (cross k (col1 T))).
Proof. unfold axis. generalize (col0 T) (col1 T). vec_ring. Qed.
Lemma columns_code GM el E dt : 0 < GM -> 0 < el_a el -> 0 <= el_e el < 1 -> 0 < sin (el_i el) ->
  partials_at GM el dt (perifocal GM E (el_e el) (el_a el)) = Some (columns GM el E dt).
Proof.
  intros G A He SI. unfold partials_at, columns. rewrite <- pqw_turns. destruct (perifocal_facts GM E (el_e el) (el_a el) G A He) as (NR & _). rewrite NR.
  rewrite (perifocal_motion GM E (el_e el) (el_a el) G A) by lra. cbn [st_r st_v vx vy vz].
  destruct (node_code (el_Omega el) (el_i el) (el_omega el) SI) as (N1 & N2). cbn zeta in N1, N2. rewrite N2, N1. destruct (Req_EM_T (sin (el_i el)) 0) as [Z|_]; [lra|].
  set (T := pqw _ _ _). f_equal. unfold spin. rewrite !cross_axis, <- !scale_axis. fold (axis T). f_equal.
  unfold axis. f_equal; apply vec_eq; cbn; ring.
Qed.
Lemma assemble (T : mat) (z N : vec) a' e' i' O' o' M' d xa xe xm ya ye ym x y :
  vadd (vadd (vscale (a' * xa + e' * xe + (M' + d * a') * xm) (col0 T)) (vscale x (vadd (vscale O' (cross z (col0 T))) (vadd (vscale i' (cross N (col0 T))) (vscale o' (col1 T))))))
       (vadd (vscale (a' * ya + e' * ye + (M' + d * a') * ym) (col1 T)) (vscale y (vadd (vscale O' (cross z (col1 T))) (vadd (vscale i' (cross N (col1 T))) (vscale o' (vscale (-1) (col0 T))))))) =
  vadd (vscale a' (vadd (axis T xa ya) (vscale d (axis T xm ym)))) (vadd (vscale e' (axis T xe ye)) (vadd (vscale i' (cross N (axis T x y))) (vadd (vscale O' (cross z (axis T x y))) (vadd (vscale o' (axis T (- y) x)) (vscale M' (axis T xm ym)))))).
Proof. rewrite !cross_axis. unfold axis. generalize (cross z (col0 T)) (cross z (col1 T)) (cross N (col0 T)) (cross N (col1 T)) (col0 T) (col1 T). intros. apply vec_eq; cbn [vadd vscale vx vy vz]; ring. Qed.

Lemma partials_derivative GM dt (a e i O o M E : R -> R) s a' e' i' O' o' M' : 0 < GM ->
  derivable_pt_lim a s a' -> derivable_pt_lim e s e' -> derivable_pt_lim i s i' -> derivable_pt_lim O s O' -> derivable_pt_lim o s o' -> derivable_pt_lim M s M' ->
  0 < a s -> 0 <= e s < 1 -> 0 < sin (i s) ->
  (forall t, kepler_eq (e t) (M t + sqrt (GM / (a t * a t * a t)) * dt) (E t)) ->
  let el (t : R) := Ele (a t) (e t) (i t) (O t) (o t) (M t) in
  exists m, partials_at GM (el s) dt (perifocal GM (E s) (e s) (a s)) = Some m /\
    sderiv (fun t => state_of GM (E t) (el t)) s (mul6 m a' e' i' O' o' M').
Proof.
  intros G Da De Di DO Do DM A He SI K el. exists (columns GM (el s) (E s) dt). split; [apply (columns_code GM (el s)); assumption|].
  set (n := fun t => sqrt (GM / (a t * a t * a t))). set (f := fun t => sqrt ((1 - e t) * (1 + e t))).
  assert (Dn := deriv_motion GM a s a' G Da A). fold n in Dn. change (sqrt (GM / (a s * a s * a s))) with (n s) in Dn.
  destruct (mean_motion GM (a s) G A) as (N0 & _ & _). change (sqrt (GM / (a s * a s * a s))) with (n s) in N0.
  assert (FQ : 0 < (1 - e s) * (1 + e s)) by (apply Rmult_lt_0_compat; lra). assert (F0 : 0 < f s) by (apply sqrt_lt_R0, FQ). assert (F2 : f s * f s = (1 - e s) * (1 + e s)) by (apply sqrt_sqrt; lra).
  assert (Df : derivable_pt_lim f s (- e s * e' / f s)).
  { eapply deriv_eq; [apply (deriv_sqrt (fun t => (1 - e t) * (1 + e t))); [apply deriv_mult; [apply deriv_minus; [apply deriv_const|exact De]|apply deriv_plus; [apply deriv_const|exact De]]|exact FQ]|]. cbn beta. change (sqrt ((1 - e s) * (1 + e s))) with (f s). field. lra. }
  set (d := - (15 / 10) * (n s / a s) * dt). set (mt := M' + d * a').
  assert (DE : derivable_pt_lim E s ((mt + e' * sin (E s)) / (1 - e s * cos (E s)))).
  { apply (kepler_deriv e (fun t => M t + n t * dt)); [exact De| |exact K|lra]. eapply deriv_eq; [apply deriv_plus; [exact DM|apply deriv_mult; [exact Dn|apply deriv_const]]|]. unfold mt, d. ring. }
  assert (LL : -1 < e s < 1) by lra.
  pose proof (deriv_x a e E n f s a' e' mt) as X1; repeat (match type of X1 with ?H -> _ => specialize (X1 ltac:(assumption)) end). pose proof (deriv_y a e E n f s a' e' mt) as X2; repeat (match type of X2 with ?H -> _ => specialize (X2 ltac:(assumption)) end).
  pose proof (deriv_vx a e E n f s a' e' mt) as X3; repeat (match type of X3 with ?H -> _ => specialize (X3 ltac:(assumption)) end). pose proof (deriv_vy a e E n f s a' e' mt) as X4; repeat (match type of X4 with ?H -> _ => specialize (X4 ltac:(assumption)) end).
  pose proof (vderiv_P O i o s O' i' o' DO Di Do) as XP. pose proof (vderiv_Q O i o s O' i' o' DO Di Do) as XQ.
  (* near s the eccentricity and the axis stay in range *)
  assert (NB : exists rr, 0 < rr /\ forall t, Rabs (t - s) < rr -> 0 < a t /\ -1 < e t < 1).
  { assert (CA : continuity_pt a s) by (apply derivable_continuous_pt; exists a'; exact Da). assert (CE : continuity_pt e s) by (apply derivable_continuous_pt; exists e'; exact De).
    destruct (CA (a s) A) as (r1 & P1 & Q1). destruct (CE ((1 - e s) / 2) ltac:(lra)) as (r2 & P2 & Q2). cbn in Q1, Q2. unfold R_dist in Q1, Q2.
    exists (Rmin r1 r2). split; [apply Rmin_glb_lt; lra|]. intros t Ht. pose proof (Rmin_l r1 r2). pose proof (Rmin_r r1 r2).
    destruct (Req_dec s t) as [<-|NE]; [lra|].
    assert (T1 : Rabs (a t - a s) < a s) by (apply Q1; split; [split; [exact I|exact NE]|lra]). assert (T2 : Rabs (e t - e s) < (1 - e s) / 2) by (apply Q2; split; [split; [exact I|exact NE]|lra]).
    apply Rabs_def2 in T1. apply Rabs_def2 in T2. lra. }
  destruct NB as (rr & RP & NB).
  assert (ST : forall t, Rabs (t - s) < rr -> state_of GM (E t) (el t) =
    State (vadd (vscale (peri_x (a t) (e t) (E t)) (col0 (pqw (O t) (i t) (o t)))) (vscale (peri_y (a t) (f t) (E t)) (col1 (pqw (O t) (i t) (o t)))))
          (vadd (vscale (peri_vx (n t) (a t) (e t) (E t)) (col0 (pqw (O t) (i t) (o t)))) (vscale (peri_vy (n t) (a t) (e t) (f t) (E t)) (col1 (pqw (O t) (i t) (o t)))))).
  { intros t Ht. destruct (NB t Ht) as (At & Et). unfold state_of, el. cbn [el_a el_e el_i el_Omega el_omega]. rewrite (perifocal_motion GM (E t) (e t) (a t) G At Et). cbn [st_r st_v]. rewrite !mulv_axis. reflexivity. }
  split.
  - apply vderiv_near with (fun t => vadd (vscale (peri_x (a t) (e t) (E t)) (col0 (pqw (O t) (i t) (o t)))) (vscale (peri_y (a t) (f t) (E t)) (col1 (pqw (O t) (i t) (o t))))) rr; [exact RP|intros t Ht; rewrite (ST t Ht); reflexivity|].
    eapply vderiv_eq; [apply vderiv_add; apply vderiv_smul; [exact X1|exact XP|exact X2|exact XQ]|]. apply assemble.
  - apply vderiv_near with (fun t => vadd (vscale (peri_vx (n t) (a t) (e t) (E t)) (col0 (pqw (O t) (i t) (o t)))) (vscale (peri_vy (n t) (a t) (e t) (f t) (E t)) (col1 (pqw (O t) (i t) (o t))))) rr; [exact RP|intros t Ht; rewrite (ST t Ht); reflexivity|].
    eapply vderiv_eq; [apply vderiv_add; apply vderiv_smul; [exact X3|exact XP|exact X4|exact XQ]|]. apply assemble.
Qed.

(* ---- Lagrange brackets ---- *)
Definition brk (p q : state) : R := dot (st_v p) (st_r q) - dot (st_r p) (st_v q).
Lemma brk_anti p q : brk q p = - brk p q. Proof. unfold brk, dot. ring. Qed.
Lemma brk_self p : brk p p = 0. Proof. unfold brk, dot. ring. Qed.
Lemma brk_spins u w r v : brk (spin u r v) (spin w r v) = - dot (cross u w) (cross r v).
Proof. unfold brk, spin, dot, cross. cbn [st_r st_v vx vy vz]. ring. Qed.
Lemma brk_spin u r v p : brk (spin u r v) p = dot u (vadd (cross v (st_r p)) (cross (st_v p) r)).
Proof. unfold brk, spin, dot, cross, vadd. cbn [st_r st_v vx vy vz]. ring. Qed.
Lemma sdot_turn k c q : sdot (State (vscale k (st_v c)) (vscale (- k) (st_r c))) q = k * brk c q.
Proof. unfold sdot, brk, dot, vscale. cbn [st_r st_v vx vy vz]. ring. Qed.
Lemma sdot_sadd p q x : sdot (sadd p q) x = sdot p x + sdot q x.
Proof. unfold sdot, sadd, dot, vadd. cbn [st_r st_v vx vy vz]. ring. Qed.
Lemma sdot_sadd_r p q x : sdot x (sadd p q) = sdot x p + sdot x q.
Proof. unfold sdot, sadd, dot, vadd. cbn [st_r st_v vx vy vz]. ring. Qed.
Lemma sdot_sscale_r k p x : sdot x (sscale k p) = k * sdot x p.
Proof. unfold sdot, sscale, dot, vscale. cbn [st_r st_v vx vy vz]. ring. Qed.
Section Frame.
Context (O i o : R).
Let T := pqw O i o.
Lemma axis_dot u w u' w' : dot (axis T u w) (axis T u' w') = u * u' + w * w'.
Proof. rewrite <- !mulv_axis, (orth_dot T) by apply pqw_orth. unfold dot. cbn [vx vy vz]. ring. Qed.
Lemma axis_cross u w u' w' : cross (axis T u w) (axis T u' w') = vscale (u * w' - w * u') (col2 T).
Proof. rewrite <- !mulv_axis. unfold T. rewrite pqw_direct. fold T. unfold cross. cbn [vx vy vz]. generalize T. intros T0. vec_ring. Qed.
Lemma spin_normal u w u' w' : State (axis T (- w) u) (axis T (- w') u') = spin (col2 T) (axis T u w) (axis T u' w').
Proof.
  assert (E : forall x y, cross (col2 T) (axis T x y) = axis T (- y) x).
  { intros x y. replace (col2 T) with (mulv T unit_z) by (generalize T; vec_ring). rewrite <- !mulv_axis. unfold T. rewrite pqw_direct. f_equal. apply vec_eq; cbn; ring. }
  unfold spin. rewrite !E. reflexivity.
Qed.
Lemma node_normal : dot (node_axis O) (col2 T) = 0. Proof. unfold T, pqw, node_axis. vec_ring. Qed.
Lemma pole_normal : dot unit_z (col2 T) = cos i. Proof. unfold T, pqw. vec_ring. Qed.
Lemma normal_normal : dot (col2 T) (col2 T) = 1.
Proof. replace (col2 T) with (mulv T unit_z) by (generalize T; vec_ring). rewrite orth_dot by apply pqw_orth. vec_ring. Qed.
Lemma node_pole_normal : dot (cross (node_axis O) unit_z) (col2 T) = sin i.
Proof. pose proof (cos2_sin2 O) as H. unfold T, pqw, node_axis. vec_ring. ring [H]. Qed.
End Frame.

Section Brackets.
Context (GM : R) (el : elements) (E : R).
Hypothesis (G : 0 < GM) (A : 0 < el_a el) (He : 0 <= el_e el < 1).
Let a := el_a el.
Let e := el_e el.
Let n := sqrt (GM / (a * a * a)).
Let f := sqrt ((1 - e) * (1 + e)).
Let m := columns GM el E 0.
Let W := col2 (pqw (el_Omega el) (el_i el) (el_omega el)).
Lemma n_pos : 0 < n. Proof. apply (mean_motion GM a G A). Qed.
Lemma f_pos : 0 < f. Proof. apply sqrt_lt_R0. apply Rmult_lt_0_compat; unfold e; lra. Qed.
Lemma f_sqr : f * f = (1 - e) * (1 + e). Proof. apply sqrt_sqrt. apply Rmult_le_pos; unfold e; lra. Qed.
Lemma w_pos : 0 < 1 - e * cos E. Proof. apply slope_both. unfold e. lra. Qed.
Ltac facts := pose proof n_pos as N0; pose proof f_pos as F0; pose proof f_sqr as F2; pose proof w_pos as W0; pose proof (cos2_sin2 E) as CS; assert (A0 : 0 < a) by exact A.
Ltac shape := unfold m, columns; cbn [m6_0 m6_1 m6_2 m6_3 m6_4 m6_5]; fold a; fold e; fold n; fold f.
Ltac scal := unfold peri_x, peri_y, peri_vx, peri_vy; let N1 := fresh in let F1 := fresh in let F3 := fresh in let W1 := fresh in let CC := fresh in let A1 := fresh in
  pose proof n_pos as N1; pose proof f_pos as F1; pose proof f_sqr as F3; pose proof w_pos as W1; pose proof (cos2_sin2 E) as CC; assert (A1 : 0 < a) by exact A;
  clearbody n f; field_simplify_eq; [ring [F3 CC]|lra].
Definition col_a : state := let T := pqw (el_Omega el) (el_i el) (el_omega el) in
  State (axis T (peri_x a e E / a) (peri_y a f E / a)) (axis T (- peri_vx n a e E / (2 * a)) (- peri_vy n a e f E / (2 * a))).
Lemma col_a_code : m6_0 m = col_a.
Proof. shape. unfold col_a, sadd, sscale. cbn [st_r st_v]. rewrite Rmult_0_r. f_equal; apply vec_eq; cbn; ring. Qed.
Lemma moment : cross (axis (pqw (el_Omega el) (el_i el) (el_omega el)) (peri_x a e E) (peri_y a f E)) (axis (pqw (el_Omega el) (el_i el) (el_omega el)) (peri_vx n a e E) (peri_vy n a e f E)) = vscale (n * a * a * f) W.
Proof. rewrite axis_cross. fold W. f_equal. scal. Qed.
Lemma spin_bracket u k p : (vadd (cross (axis (pqw (el_Omega el) (el_i el) (el_omega el)) (peri_vx n a e E) (peri_vy n a e f E)) (st_r p)) (cross (st_v p) (axis (pqw (el_Omega el) (el_i el) (el_omega el)) (peri_x a e E) (peri_y a f E)))) = vscale k W ->
  brk (spin u (axis (pqw (el_Omega el) (el_i el) (el_omega el)) (peri_x a e E) (peri_y a f E)) (axis (pqw (el_Omega el) (el_i el) (el_omega el)) (peri_vx n a e E) (peri_vy n a e f E))) p = k * dot u W.
Proof. intros H. rewrite brk_spin, H. unfold dot, vscale. cbn [vx vy vz]. ring. Qed.
Lemma add_scale j k v : vadd (vscale j v) (vscale k v) = vscale (j + k) v. Proof. apply vec_eq; cbn; ring. Qed.
Lemma brk_a_M : brk (m6_0 m) (m6_5 m) = n * a / 2.
Proof. rewrite col_a_code. shape. unfold brk, col_a. cbn [st_r st_v]. rewrite !axis_dot. scal. Qed.
Lemma brk_a_e : brk (m6_0 m) (m6_1 m) = 0.
Proof. rewrite col_a_code. shape. unfold brk, col_a. cbn [st_r st_v]. rewrite !axis_dot. scal. Qed.
Lemma brk_e_M : brk (m6_1 m) (m6_5 m) = 0.
Proof. shape. unfold brk. cbn [st_r st_v]. rewrite !axis_dot. scal. Qed.
Lemma spin_a u : brk (spin u (axis (pqw (el_Omega el) (el_i el) (el_omega el)) (peri_x a e E) (peri_y a f E)) (axis (pqw (el_Omega el) (el_i el) (el_omega el)) (peri_vx n a e E) (peri_vy n a e f E))) (m6_0 m) = - (n * a * f / 2) * dot u W.
Proof. apply spin_bracket. rewrite col_a_code. unfold col_a. cbn [st_r st_v]. rewrite !axis_cross, add_scale. fold W. f_equal. scal. Qed.
Lemma spin_e u : brk (spin u (axis (pqw (el_Omega el) (el_i el) (el_omega el)) (peri_x a e E) (peri_y a f E)) (axis (pqw (el_Omega el) (el_i el) (el_omega el)) (peri_vx n a e E) (peri_vy n a e f E))) (m6_1 m) = n * a * a * e / f * dot u W.
Proof. apply spin_bracket. shape. cbn [st_r st_v]. rewrite !axis_cross, add_scale. fold W. f_equal. scal. Qed.
Lemma spin_M u : brk (spin u (axis (pqw (el_Omega el) (el_i el) (el_omega el)) (peri_x a e E) (peri_y a f E)) (axis (pqw (el_Omega el) (el_i el) (el_omega el)) (peri_vx n a e E) (peri_vy n a e f E))) (m6_5 m) = 0.
Proof. replace 0 with (0 * dot u W) by ring. apply spin_bracket. shape. cbn [st_r st_v]. rewrite !axis_cross, add_scale. fold W. f_equal. scal. Qed.
Lemma col_o_spin : m6_4 m = spin W (axis (pqw (el_Omega el) (el_i el) (el_omega el)) (peri_x a e E) (peri_y a f E)) (axis (pqw (el_Omega el) (el_i el) (el_omega el)) (peri_vx n a e E) (peri_vy n a e f E)).
Proof. shape. apply spin_normal. Qed.
Lemma cross_self u : cross u u = vzero. Proof. vec_ring. Qed.
Let h := n * a * a * f.
Lemma brk_i_O : brk (m6_2 m) (m6_3 m) = - (h * sin (el_i el)).
Proof. shape. rewrite brk_spins, moment. replace (dot (cross (node_axis (el_Omega el)) unit_z) (vscale (n * a * a * f) W)) with (h * dot (cross (node_axis (el_Omega el)) unit_z) W) by (unfold h, dot, vscale; cbn [vx vy vz]; ring). unfold W. rewrite node_pole_normal. reflexivity. Qed.
Lemma brk_turn_o u : dot (cross u W) (vscale (n * a * a * f) W) = 0. Proof. generalize (n * a * a * f). intros k. unfold dot, cross, vscale. cbn [vx vy vz]. ring. Qed.
Lemma brk_i_o : brk (m6_2 m) (m6_4 m) = 0.
Proof. rewrite col_o_spin. shape. rewrite brk_spins, moment, brk_turn_o. ring. Qed.
Lemma brk_O_o : brk (m6_3 m) (m6_4 m) = 0.
Proof. rewrite col_o_spin. shape. rewrite brk_spins, moment, brk_turn_o. ring. Qed.
Lemma brk_i_a : brk (m6_2 m) (m6_0 m) = 0. Proof. transitivity (- (n * a * f / 2) * dot (node_axis (el_Omega el)) W); [apply spin_a|]. unfold W. rewrite node_normal. ring. Qed.
Lemma brk_i_e : brk (m6_2 m) (m6_1 m) = 0. Proof. transitivity (n * a * a * e / f * dot (node_axis (el_Omega el)) W); [apply spin_e|]. unfold W. rewrite node_normal. ring. Qed.
Lemma brk_i_M : brk (m6_2 m) (m6_5 m) = 0. Proof. apply spin_M. Qed.
Lemma brk_O_a : brk (m6_3 m) (m6_0 m) = - (n * a * f / 2) * cos (el_i el). Proof. transitivity (- (n * a * f / 2) * dot unit_z W); [apply spin_a|]. unfold W. rewrite pole_normal. reflexivity. Qed.
Lemma brk_O_e : brk (m6_3 m) (m6_1 m) = n * a * a * e / f * cos (el_i el). Proof. transitivity (n * a * a * e / f * dot unit_z W); [apply spin_e|]. unfold W. rewrite pole_normal. reflexivity. Qed.
Lemma brk_O_M : brk (m6_3 m) (m6_5 m) = 0. Proof. apply spin_M. Qed.
Lemma brk_o_a : brk (m6_4 m) (m6_0 m) = - (n * a * f / 2). Proof. rewrite col_o_spin, spin_a. unfold W. rewrite normal_normal. ring. Qed.
Lemma brk_o_e : brk (m6_4 m) (m6_1 m) = n * a * a * e / f. Proof. rewrite col_o_spin, spin_e. unfold W. rewrite normal_normal. ring. Qed.
Lemma brk_o_M : brk (m6_4 m) (m6_5 m) = 0. Proof. rewrite col_o_spin. apply spin_M. Qed.
Hypothesis (E0 : 0 < e) (SI : sin (el_i el) <> 0) (CI : cos (el_i el) <> 0).
(* the brackets of a sum of columns *)
Lemma poisson_inverse c0 c1 c2 c3 c4 c5 : let p := poisson GM el m in let y := mul6 m c0 c1 c2 c3 c4 c5 in
  sdot (m6_0 p) y = c0 /\ sdot (m6_1 p) y = c1 /\ sdot (m6_2 p) y = c2 /\ sdot (m6_3 p) y = c3 /\ sdot (m6_4 p) y = c4 /\ sdot (m6_5 p) y = c5.
Proof.
  intros p y. unfold p, y, poisson, mul6. fold a. fold e. fold n. fold f. cbn [m6_0 m6_1 m6_2 m6_3 m6_4 m6_5]. unfold tan.
  rewrite !sdot_sadd, !sdot_sadd_r, !sdot_sscale_r, !sdot_turn.
  pose proof brk_a_M as B1. pose proof brk_a_e as B2. pose proof brk_e_M as B3. pose proof brk_i_O as B4. pose proof brk_i_o as B5. pose proof brk_O_o as B6. pose proof brk_i_a as B7. pose proof brk_i_e as B8. pose proof brk_i_M as B9.
  pose proof brk_O_a as B10. pose proof brk_O_e as B11. pose proof brk_O_M as B12. pose proof brk_o_a as B13. pose proof brk_o_e as B14. pose proof brk_o_M as B15. pose proof n_pos as N0; pose proof f_pos as F0; pose proof f_sqr as F2; assert (A0 : 0 < a) by exact A. unfold h in *.
  set (q0 := m6_0 m) in *. set (q1 := m6_1 m) in *. set (q2 := m6_2 m) in *. set (q3 := m6_3 m) in *. set (q4 := m6_4 m) in *. set (q5 := m6_5 m) in *. clearbody q0 q1 q2 q3 q4 q5.
  rewrite !brk_self, (brk_anti q0 q5), (brk_anti q0 q1), (brk_anti q1 q5), (brk_anti q2 q3), (brk_anti q2 q4), (brk_anti q3 q4), (brk_anti q2 q0), (brk_anti q2 q1), (brk_anti q2 q5), (brk_anti q3 q0), (brk_anti q3 q1), (brk_anti q3 q5), (brk_anti q4 q0), (brk_anti q4 q1), (brk_anti q4 q5).
  repeat match goal with H : brk _ _ = _ |- _ => rewrite H; clear H end.
  clear p y. clearbody n f. assert (e <> 0) by lra. repeat split; field_simplify_eq; try (repeat split; lra || assumption); ring [F2].
Qed.
End Brackets.

(* ---- the transition matrix ---- *)
Lemma mul6_scale k m c0 c1 c2 c3 c4 c5 : sscale k (mul6 m c0 c1 c2 c3 c4 c5) = mul6 m (k * c0) (k * c1) (k * c2) (k * c3) (k * c4) (k * c5).
Proof. unfold mul6, sadd, sscale, vadd, vscale. cbn [st_r st_v vx vy vz]. f_equal; (f_equal; ring). Qed.
Lemma mul6_add m c0 c1 c2 c3 c4 c5 d0 d1 d2 d3 d4 d5 : sadd (mul6 m c0 c1 c2 c3 c4 c5) (mul6 m d0 d1 d2 d3 d4 d5) = mul6 m (c0 + d0) (c1 + d1) (c2 + d2) (c3 + d3) (c4 + d4) (c5 + d5).
Proof. unfold mul6, sadd, sscale, vadd, vscale. cbn [st_r st_v vx vy vz]. f_equal; (f_equal; ring). Qed.
Lemma apply_product m rows y : apply6 (mulm6 m rows) y = mul6 m (sdot (m6_0 rows) y) (sdot (m6_1 rows) y) (sdot (m6_2 rows) y) (sdot (m6_3 rows) y) (sdot (m6_4 rows) y) (sdot (m6_5 rows) y).
Proof.
  unfold apply6, mulm6, row_col. unfold mul6 at 1. cbn [m6_0 m6_1 m6_2 m6_3 m6_4 m6_5]. rewrite !mul6_scale, !mul6_add. unfold sdot, dot. f_equal; ring.
Qed.
Lemma transition_columns GM el E0 m c0 c1 c2 c3 c4 c5 : 0 < GM -> 0 < el_a el -> 0 < el_e el < 1 -> sin (el_i el) <> 0 -> cos (el_i el) <> 0 ->
  let m0 := columns GM el E0 0 in apply6 (mulm6 m (poisson GM el m0)) (mul6 m0 c0 c1 c2 c3 c4 c5) = mul6 m c0 c1 c2 c3 c4 c5.
Proof.
  intros G A He SI CI m0. rewrite apply_product. destruct (poisson_inverse GM el E0 G A ltac:(lra) ltac:(lra) SI CI c0 c1 c2 c3 c4 c5) as (P0 & P1 & P2 & P3 & P4 & P5). fold m0 in P0, P1, P2, P3, P4, P5. rewrite P0, P1, P2, P3, P4, P5. reflexivity.
Qed.
Lemma transition_derivative GM dt (a e i O o M E0 E : R -> R) s a' e' i' O' o' M' : 0 < GM ->
  derivable_pt_lim a s a' -> derivable_pt_lim e s e' -> derivable_pt_lim i s i' -> derivable_pt_lim O s O' -> derivable_pt_lim o s o' -> derivable_pt_lim M s M' ->
  0 < a s -> 0 < e s < 1 -> 0 < sin (i s) -> cos (i s) <> 0 ->
  (forall t, kepler_eq (e t) (M t) (E0 t)) -> (forall t, kepler_eq (e t) (M t + sqrt (GM / (a t * a t * a t)) * dt) (E t)) ->
  let el (t : R) := Ele (a t) (e t) (i t) (O t) (o t) (M t) in
  exists m0 m y0, partials_at GM (el s) 0 (perifocal GM (E0 s) (e s) (a s)) = Some m0 /\ partials_at GM (el s) dt (perifocal GM (E s) (e s) (a s)) = Some m /\
    sderiv (fun t => state_of GM (E0 t) (el t)) s y0 /\ sderiv (fun t => state_of GM (E t) (el t)) s (apply6 (mulm6 m (poisson GM (el s) m0)) y0).
Proof.
  intros G Da De Di DO Do DM A He SI CI K0 K el.
  assert (K0' : forall t, kepler_eq (e t) (M t + sqrt (GM / (a t * a t * a t)) * 0) (E0 t)) by (intros t; rewrite Rmult_0_r, Rplus_0_r; apply K0).
  destruct (partials_derivative GM 0 a e i O o M E0 s a' e' i' O' o' M' G Da De Di DO Do DM A ltac:(lra) SI K0') as (m0 & P0 & D0).
  destruct (partials_derivative GM dt a e i O o M E s a' e' i' O' o' M' G Da De Di DO Do DM A ltac:(lra) SI K) as (m & P & D). fold el in P0, D0, P, D.
  exists m0, m, (mul6 m0 a' e' i' O' o' M'). split; [exact P0|]. split; [exact P|]. split; [exact D0|].
  assert (Q : m0 = columns GM (el s) (E0 s) 0). { pose proof (columns_code GM (el s) (E0 s) 0 G A ltac:(cbn; lra) SI) as C. pose proof (eq_trans (eq_sym P0) C) as Q. injection Q as ->. reflexivity. }
  rewrite Q at 1 2. assert (SN : sin (i s) <> 0) by lra. rewrite (transition_columns GM (el s) (E0 s) m _ _ _ _ _ _ G A He SN CI). exact D.
Qed.
(* the anomaly used is close to a root of Kepler's equation *)
Definition near_anomaly (GM : R) (el : elements) (dt E : R) : Prop :=
  exists ok : Z, anomaly GM el dt = Some (E, ok) /\
    (ok = 0%Z -> exists M' X, same_angle M' (el_M el + sqrt (GM / el_a el ^ 3) * dt) /\ kepler_eq (el_e el) M' X /\ (1 - el_e el) ^ 3 * Rabs (E - X) <= el_e el * (100 / 2 ^ 52) ^ 2).
Lemma near_some GM el dt : 0 <= el_e el < 1 -> exists E, near_anomaly GM el dt E.
Proof.
  intros He. destruct (kepler_error (el_e el) (el_M el + sqrt (GM / (el_a el * el_a el * el_a el)) * dt) kepler_tol He) as (E & st & M' & EQ & SA & _ & ACC).
  exists E, st. split; [exact EQ|]. intros Z. destruct (ACC Z) as (X & HX & HB). exists M', X. replace (el_a el ^ 3) with (el_a el * el_a el * el_a el) by ring. split; [exact SA|]. split; [exact HX|exact HB].
Qed.
Lemma state_partials_code GM el dt : 0 < GM -> 0 < el_a el -> 0 <= el_e el < 1 -> 0 < sin (el_i el) ->
  exists E m, near_anomaly GM el dt E /\ partials_at GM el dt (perifocal GM E (el_e el) (el_a el)) = Some m /\ state_partials GM el dt = Some m /\ propagate_state GM el dt = Some (state_of GM E el).
Proof.
  intros G A He SI. destruct (near_some GM el dt He) as (E & NE). exists E, (columns GM el E dt). split; [exact NE|]. destruct NE as (ok & EQ & _).
  pose proof (columns_code GM el E dt G A He SI) as C. split; [exact C|]. unfold state_partials, elements2perifocal, propagate_state. rewrite EQ. split; [exact C|]. unfold state_of. rewrite pqw_turns. reflexivity.
Qed.
Lemma propagate_code GM Y0 dt : let el := state2elements (st_r Y0) (st_v Y0) GM in 0 < GM -> 0 < el_a el -> 0 <= el_e el < 1 -> 0 < sin (el_i el) ->
  exists E0 E m0 m, near_anomaly GM el 0 E0 /\ near_anomaly GM el dt E /\
    partials_at GM el 0 (perifocal GM E0 (el_e el) (el_a el)) = Some m0 /\ partials_at GM el dt (perifocal GM E (el_e el) (el_a el)) = Some m /\
    propagate_state_partials GM Y0 dt = Some (state_of GM E el, mulm6 m (poisson GM el m0)).
Proof.
  intros el G A He SI. destruct (state_partials_code GM el 0 G A He SI) as (E0 & m0 & N0 & P0 & S0 & _). destruct (state_partials_code GM el dt G A He SI) as (E & m & N & P & S1 & Y).
  exists E0, E, m0, m. split; [exact N0|]. split; [exact N|]. split; [exact P0|]. split; [exact P|]. unfold propagate_state_partials. fold el. rewrite S0, S1, Y. reflexivity.
Qed.
Lemma equatorial_undefined GM el dt : sin (el_i el) = 0 -> state_partials GM el dt = None.
Proof.
  intros Z. unfold state_partials. destruct (elements2perifocal GM el dt) as [p|]; [|reflexivity]. unfold partials_at. rewrite <- pqw_turns.
  destruct (Req_EM_T _ 0) as [_|N]; [reflexivity|]. exfalso. apply N. apply norm_unique; [lra|]. unfold pqw, col2, transpose, mat9, cross, unit_z, dot. cbn [row0 row1 row2 vx vy vz]. rewrite Z. ring.
Qed.
(* cases *)
Lemma partials_case_ok : 0 < 1 /\ derivable_pt_lim (fun _ => 1) 1 0 /\ derivable_pt_lim (fun t => t - 1 / 2 * sin t - 1) 1 (1 - 1 / 2 * cos 1) /\ 0 <= 1 / 2 < 1 /\ 0 < sin 1 /\
  (forall t, kepler_eq (1 / 2) ((t - 1 / 2 * sin t - 1) + sqrt (1 / (1 * 1 * 1)) * 1) t).
Proof.
  split; [lra|]. split; [apply deriv_const|]. split.
  { eapply deriv_eq; [apply deriv_minus; [apply deriv_minus; [apply deriv_id|apply deriv_scal; apply derivable_pt_lim_sin]|apply deriv_const]|ring]. }
  split; [lra|]. split; [apply sin_gt_0; [lra|pose proof PI_RGT_0; pose proof PI2_1; lra]|]. intros t. unfold kepler_eq. replace (1 / (1 * 1 * 1)) with 1 by field. rewrite sqrt_1. ring.
Qed.
Lemma transition_case_ok : exists X, kepler_eq (1 / 2) 0 0 /\ kepler_eq (1 / 2) (0 + sqrt (1 / (1 * 1 * 1)) * 1) X /\ derivable_pt_lim (fun t => t) 1 1 /\ 0 < sin 1 /\ cos 1 <> 0.
Proof.
  destruct (kepler_exists (1 / 2) (0 + sqrt (1 / (1 * 1 * 1)) * 1) ltac:(lra)) as (X & HX). exists X. split; [unfold kepler_eq; rewrite sin_0; ring|]. split; [exact HX|]. split; [apply deriv_id|]. split; [apply partials_case_ok|].
  apply Rgt_not_eq, cos_gt_0; pose proof PI2_1; lra.
Qed.
Lemma elements_inverse GM el E c0 c1 c2 c3 c4 c5 : 0 < GM -> 0 < el_a el -> 0 < el_e el < 1 -> 0 < sin (el_i el) -> cos (el_i el) <> 0 ->
  exists m, partials_at GM el 0 (perifocal GM E (el_e el) (el_a el)) = Some m /\
  let p := poisson GM el m in let y := mul6 m c0 c1 c2 c3 c4 c5 in
  sdot (m6_0 p) y = c0 /\ sdot (m6_1 p) y = c1 /\ sdot (m6_2 p) y = c2 /\ sdot (m6_3 p) y = c3 /\ sdot (m6_4 p) y = c4 /\ sdot (m6_5 p) y = c5.
Proof. intros G A He SI CI. exists (columns GM el E 0). split; [apply columns_code; lra|]. apply (poisson_inverse GM el E G A); try assumption; lra. Qed.
