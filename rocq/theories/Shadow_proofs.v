From Coq Require Import Reals Lra Psatz.
From Verif Require Import Vec_model Vec_proofs Calc Forces_model Forces_proofs Shadow_model.
Local Open Scope R_scope.

(* ---- cylinders ---- *)
Lemma ray_sqr r s t : dot (vadd r (vscale t s)) (vadd r (vscale t s)) = dot r r + 2 * t * dot r s + t * t * dot s s. Proof. vec_ring. Qed.
Lemma norm_le a x : 0 <= x -> (norm a <= x <-> dot a a <= x * x).
Proof.
  intros P. pose proof (norm_nonneg a) as N. pose proof (norm_sqr a) as Q. split; intros H; [rewrite <- Q; apply Rmult_le_compat; assumption|].
  destruct (Rle_lt_dec (norm a) x) as [L|L]; [exact L|]. exfalso. assert (x * x < norm a * norm a) by (apply Rmult_le_0_lt_compat; assumption). lra.
Qed.
Lemma norm_lt a x : 0 < x -> (norm a < x <-> dot a a < x * x).
Proof.
  intros P. pose proof (norm_nonneg a) as N. pose proof (norm_sqr a) as Q. split; intros H; [rewrite <- Q; apply Rmult_le_0_lt_compat; assumption|].
  destruct (Rlt_le_dec (norm a) x) as [L|L]; [exact L|]. exfalso. assert (x * x <= norm a * norm a) by (apply Rmult_le_compat; lra). lra.
Qed.
(* the ray from r towards the Sun meets the ball of radius Re *)
Definition hidden (Re : R) (r s : vec) : Prop := exists t, 0 <= t /\ norm (vadd r (vscale t s)) <= Re.
Lemma montenbruck_spec Re r s : s <> vzero -> 0 < Re < norm r ->
  (montenbruck_shadow Re r s = 0 <-> hidden Re r s) /\ (montenbruck_shadow Re r s = 1 <-> ~ hidden Re r s).
Proof.
  intros NZ [RP RR]. pose proof (norm_pos s NZ) as P. assert (RQ : Re * Re < dot r r) by (rewrite <- norm_sqr; apply Rmult_le_0_lt_compat; lra).
  assert (E : montenbruck_shadow Re r s = 0 <-> hidden Re r s).
  { unfold montenbruck_shadow, hidden. assert (DU : dot r (vscale (/ norm s) s) = dot r s / norm s) by (unfold Rdiv; vec_ring). rewrite DU.
    set (sg := dot r s / norm s). assert (DS : dot r s = sg * norm s) by (unfold sg; field; lra).
    assert (EV : vsub r (vscale sg (vscale (/ norm s) s)) = vadd r (vscale (- sg / norm s) s)) by (unfold Rdiv; vec_ring). rewrite EV.
    destruct (Rlt_dec 0 sg) as [SP|SN].
    - split; [intros; lra|]. intros (t & T & H). exfalso. apply norm_le in H; [|lra]. rewrite ray_sqr, DS in H. pose proof (dot_nonneg s). assert (0 <= t * t) by nra. assert (0 <= t * (sg * norm s)) by (apply Rmult_le_pos; [exact T|apply Rlt_le, Rmult_lt_0_compat; assumption]). assert (0 <= t * t * dot s s) by (apply Rmult_le_pos; assumption). lra.
    - destruct (Rlt_dec Re (norm (vadd r (vscale (- sg / norm s) s)))) as [L|L].
      + split; [intros; lra|]. intros (t & T & H). exfalso. apply norm_le in H; [|lra]. assert (Q : norm (vadd r (vscale (- sg / norm s) s)) <= Re); [|lra]. apply norm_le; [lra|]. apply Rle_trans with (2 := H). rewrite !ray_sqr, DS, <- (norm_sqr s). set (n := norm s) in *.
        replace (dot r r + 2 * (- sg / n) * (sg * n) + - sg / n * (- sg / n) * (n * n)) with (dot r r - sg * sg) by (field; lra). pose proof (Rle_0_sqr (sg + t * n)). unfold Rsqr in *. lra.
      + split; [|reflexivity]. intros _. exists (- sg / norm s). split; [|lra]. apply Rmult_le_pos; [lra|apply Rlt_le, Rinv_0_lt_compat, P]. }
  split; [exact E|]. rewrite <- E. unfold montenbruck_shadow. destruct (Rlt_dec 0 _); [split; intros; lra|]. destruct (Rlt_dec Re _); split; intros; lra.
Qed.
Lemma montenbruck_same Re r s : s <> vzero -> montenbruck_shadow_eigen Re r s = montenbruck_shadow Re r s.
Proof.
  intros NZ. unfold montenbruck_shadow_eigen, montenbruck_shadow, normalized. destruct (Rlt_dec 0 (dot s s)) as [P|N]; [reflexivity|].
  exfalso. apply NZ, dot_zero. pose proof (dot_nonneg s). lra.
Qed.
(* the ray meets the flattened body, whose z axis is shorter by the factor 1 + f *)
Definition hidden_flat (Re f : R) (r s : vec) : Prop := exists t, 0 <= t /\
  (let p := vadd r (vscale t s) in vx p ^ 2 + vy p ^ 2 + ((1 + f) * vz p) ^ 2 < Re ^ 2).
Lemma bernese_spec Re f r s : s <> vzero -> 0 <= f -> 0 < Re -> Re ^ 2 <= vx r ^ 2 + vy r ^ 2 + ((1 + f) * vz r) ^ 2 ->
  (bernese_shadow1 Re f r s = 0 <-> hidden_flat Re f r s) /\ (bernese_shadow1 Re f r s = 1 <-> ~ hidden_flat Re f r s).
Proof.
  intros NZ F RP RR. set (a := V (vx r) (vy r) (vz r * (1 + f))). set (b := V (vx s) (vy s) (vz s * (1 + f))).
  assert (BZ : b <> vzero).
  { intros E. apply NZ. apply vec_eq; cbn; [apply (f_equal vx) in E|apply (f_equal vy) in E|apply (f_equal vz) in E]; cbn in E; try exact E. destruct (Rmult_integral _ _ E); lra. }
  assert (RA : Re * Re <= dot a a) by (unfold a, dot; cbn; nra). pose proof (norm_pos b BZ) as P.
  assert (HF : hidden_flat Re f r s <-> exists t, 0 <= t /\ dot (vadd a (vscale t b)) (vadd a (vscale t b)) < Re * Re).
  { unfold hidden_flat. split; intros (t & T & H); exists t; (split; [exact T|]); revert H; unfold a, b, dot; cbn; intros H; nra. }
  assert (E : bernese_shadow1 Re f r s = 0 <-> hidden_flat Re f r s).
  { rewrite HF. unfold bernese_shadow1. fold a b. set (sg := dot a b / norm b). assert (DS : dot a b = sg * norm b) by (unfold sg; field; lra).
    assert (Q : dot (vadd a (vscale (- sg / norm b) b)) (vadd a (vscale (- sg / norm b) b)) = dot a a - sg * sg) by (rewrite ray_sqr, DS, <- (norm_sqr b); field; lra).
    assert (QP : 0 <= dot a a - sg * sg) by (rewrite <- Q; apply dot_nonneg).
    assert (RS : sqrt (dot a a - sg * sg) - Re < 0 <-> dot a a - sg * sg < Re * Re).
    { pose proof (sqrt_pos (dot a a - sg * sg)) as SP. pose proof (sqrt_sqrt _ QP) as SS. set (x := sqrt (dot a a - sg * sg)) in *. split; intros H; nra. }
    destruct (Rlt_dec sg 0) as [SN|SN].
    - destruct (Rlt_dec (sqrt (dot a a - sg * sg) - Re) 0) as [L|L].
      + split; [|reflexivity]. intros _. exists (- sg / norm b). split; [apply Rmult_le_pos; [lra|apply Rlt_le, Rinv_0_lt_compat, P]|]. rewrite Q. apply RS, L.
      + split; [intros; lra|]. intros (t & T & H). exfalso. apply L, RS. apply Rle_lt_trans with (2 := H). rewrite ray_sqr, DS, <- (norm_sqr b). set (n := norm b) in *. pose proof (Rle_0_sqr (sg + t * n)). unfold Rsqr in *. lra.
    - split; [intros; lra|]. intros (t & T & H). exfalso. rewrite ray_sqr, DS in H. pose proof (dot_nonneg b). assert (0 <= t * t) by nra. assert (0 <= t * (sg * norm b)) by (apply Rmult_le_pos; [exact T|apply Rmult_le_pos; lra]). assert (0 <= t * t * dot b b) by (apply Rmult_le_pos; assumption). lra. }
  split; [exact E|]. rewrite <- E. unfold bernese_shadow1. destruct (Rlt_dec _ 0); [|split; intros; lra]. destruct (Rlt_dec _ 0); split; intros; lra.
Qed.

(* ---- cones: Vallado's algorithm ---- *)
Lemma in_unit_true x : -1 <= x <= 1 -> in_unit x = true.
Proof. intros [A B]. unfold in_unit. destruct (Rle_dec (-1) x); [|lra]. destruct (Rle_dec x 1); [reflexivity|lra]. Qed.
Lemma in_unit_range x : in_unit x = true -> -1 <= x <= 1.
Proof. unfold in_unit. destruct (Rle_dec (-1) x); [|discriminate]. destruct (Rle_dec x 1); [|discriminate]. intros _. split; assumption. Qed.
Lemma c_acos_ok x : -1 <= x <= 1 -> c_acos x = Some (acos x). Proof. intros H. unfold c_acos. rewrite in_unit_true by exact H. reflexivity. Qed.
Lemma c_asin_ok x : -1 <= x <= 1 -> c_asin x = Some (asin x). Proof. intros H. unfold c_asin. rewrite in_unit_true by exact H. reflexivity. Qed.
(* the region between the cones tangent to Sun and Earth: h behind the Earth, v off the axis *)
Definition in_penumbra (Re Rs AU : R) (r s : vec) : Prop := exists h v a b, 0 < h /\ 0 <= v /\ h * norm s = - dot r s /\ h * h + v * v = dot r r /\
  0 < a /\ a * a + ((Rs + Re) / AU) ^ 2 = 1 /\ 0 < b /\ b * b + ((Rs - Re) / AU) ^ 2 = 1 /\
  v * a <= Re + h * ((Rs + Re) / AU) /\ Re - h * ((Rs - Re) / AU) < v * b.
Lemma sin_acos_pos x : -1 <= x <= 1 -> sin (acos x) = sqrt (1 - x * x).
Proof.
  intros H. pose proof (acos_bound x) as [A B]. pose proof (sin_ge_0 (acos x) A B) as P. symmetry. pose proof (sin2_cos2 (acos x)) as S. rewrite (cos_acos x H) in S. unfold Rsqr in S.
  replace (1 - x * x) with (sin (acos x) * sin (acos x)) by lra. apply sqrt_square. exact P.
Qed.
Lemma sum_over_one x : 0 < x < 1 -> 1 < x + sqrt (1 - x * x).
Proof. intros H. assert (Q : 0 <= 1 - x * x) by nra. pose proof (sqrt_pos (1 - x * x)). pose proof (sqrt_sqrt _ Q). nra. Qed.
Lemma ratio_unit a b : 0 < a < b -> 0 < a / b < 1.
Proof. intros H. assert (0 < / b) by (apply Rinv_0_lt_compat; lra). split; [apply Rmult_lt_0_compat; lra|]. apply Rmult_lt_reg_r with b; [lra|]. unfold Rdiv. rewrite Rmult_assoc, Rinv_l by lra. lra. Qed.
Lemma vallado_wrong Re Rs AU : 0 < Re < Rs -> Rs + Re < AU -> exists r s, s <> vzero /\ in_penumbra Re Rs AU r s /\ vallado_shadow Re Rs AU r s = Some 1.
Proof.
  intros H1 H2. exists (V Re Re 0), (V (- AU) 0 0). split; [intros E; apply (f_equal vx) in E; cbn in E; lra|].
  pose proof (ratio_unit (Rs + Re) AU ltac:(lra)) as A. pose proof (ratio_unit (Rs - Re) AU ltac:(lra)) as B. pose proof (sum_over_one _ A) as SA. pose proof (sum_over_one _ B) as SB.
  set (p := (Rs + Re) / AU) in *. set (q := (Rs - Re) / AU) in *.
  assert (QA : 0 <= 1 - p * p) by nra. assert (QB : 0 <= 1 - q * q) by nra. pose proof (sqrt_sqrt _ QA) as EA. pose proof (sqrt_sqrt _ QB) as EB. set (a := sqrt (1 - p * p)) in *. set (b := sqrt (1 - q * q)) in *.
  assert (PA : 0 < a) by (apply sqrt_lt_R0; nra). assert (PB : 0 < b) by (apply sqrt_lt_R0; nra).
  assert (NS : norm (V (- AU) 0 0) = AU) by (apply norm_unique; [lra|unfold dot; cbn; ring]). split.
  - exists Re, Re, a, b. rewrite NS. unfold dot. cbn [vx vy vz]. fold p q. assert (a <= 1) by nra. repeat split; try lra; nra.
  - unfold vallado_shadow. assert (DP : dot (V Re Re 0) (V (- AU) 0 0) = - (Re * AU)) by (unfold dot; cbn; ring). rewrite DP, NS. assert (0 < Re * AU) by (apply Rmult_lt_0_compat; lra). destruct (Rle_dec 0 (- (Re * AU))); [lra|].
    set (r := norm (V Re Re 0)). assert (RR : r * r = 2 * (Re * Re)) by (unfold r; rewrite norm_sqr; unfold dot; cbn; ring). assert (RP : 0 < r) by (apply norm_pos; intros E; apply (f_equal vx) in E; cbn in E; lra).
    assert (CZ : - (Re * AU) / (r * AU) = - (Re / r)) by (field; split; lra). rewrite CZ. assert (ZZ : Re / r * (Re / r) = 1 / 2) by (apply Rmult_eq_reg_r with (r * r); [|nra]; replace (Re / r * (Re / r) * (r * r)) with (Re * Re) by (field; lra); lra).
    assert (PZ : 0 < Re / r) by (apply Rmult_lt_0_compat; [lra|apply Rinv_0_lt_compat, RP]). assert (RZ : -1 <= - (Re / r) <= 1) by nra. rewrite (c_acos_ok _ RZ). cbn [bind]. fold p. rewrite (c_asin_ok p) by lra. cbn [bind]. fold q.
    rewrite (sin_acos_pos _ RZ). replace (1 - - (Re / r) * - (Re / r)) with (Re / r * (Re / r)) by lra. rewrite sqrt_square by lra. replace (r * (Re / r)) with Re by (field; lra). replace (r * - (Re / r)) with (- Re) by (field; lra).
    assert (TA : tan (asin p) = p / a) by (unfold tan; rewrite sin_asin, cos_asin by lra; reflexivity). rewrite TA.
    destruct (Rle_dec Re (p / a * (Re / p + - Re))) as [L|L]; [|reflexivity]. exfalso. assert (E : p / a * (Re / p + - Re) * a = Re * (1 - p)) by (field; split; lra). assert (Re * a <= p / a * (Re / p + - Re) * a) by (apply Rmult_le_compat_r; lra). nra.
Qed.
Lemma vallado_day Re Rs AU r s : 0 <= dot r s -> vallado_shadow Re Rs AU r s = Some 1.
Proof. intros H. unfold vallado_shadow. destruct (Rle_dec 0 (dot r s)); [reflexivity|lra]. Qed.
(* on the axis of the shadow, nearer than the tip of the cones *)
Lemma vallado_axis Re Rs AU s k : 0 < Re < Rs -> Rs + Re < AU -> s <> vzero -> 0 < k -> k * norm s * (Rs + Re) <= Re * AU -> vallado_shadow Re Rs AU (vscale (- k) s) s = Some 0.
Proof.
  intros H1 H2 NZ KP KL. pose proof (norm_pos s NZ) as NP. unfold vallado_shadow. assert (DP : dot (vscale (- k) s) s = - (k * (norm s * norm s))) by (rewrite norm_sqr; vec_ring). rewrite DP. assert (0 < k * (norm s * norm s)) by (apply Rmult_lt_0_compat; [lra|apply Rmult_lt_0_compat; lra]).
  destruct (Rle_dec 0 (- (k * (norm s * norm s)))) as [Q0|Q0]; [lra|]. assert (NR : norm (vscale (- k) s) = k * norm s).
  { apply norm_unique; [apply Rmult_le_pos; lra|]. transitivity (k * k * (norm s * norm s)); [ring|]. rewrite norm_sqr. vec_ring. }
  rewrite NR. set (n := norm s) in *. assert (CZ : - (k * (n * n)) / (k * n * n) = -1) by (field; split; lra). rewrite CZ. rewrite c_acos_ok by lra. cbn [bind]. rewrite sin_acos_pos by lra. replace (1 - -1 * -1) with 0 by ring. rewrite sqrt_0.
  pose proof (ratio_unit (Rs + Re) AU ltac:(lra)) as A. pose proof (ratio_unit (Rs - Re) AU ltac:(lra)) as B. set (p := (Rs + Re) / AU) in *. set (q := (Rs - Re) / AU) in *. rewrite (c_asin_ok p) by lra. cbn [bind].
  assert (T : forall x, 0 < x < 1 -> 0 < tan (asin x)).
  { intros x X. unfold tan. rewrite sin_asin, cos_asin by lra. apply Rmult_lt_0_compat; [lra|]. apply Rinv_0_lt_compat, sqrt_lt_R0. unfold Rsqr. nra. }
  pose proof (T p A) as TP. pose proof (T q B) as TQ.
  assert (X : k * n <= Re / p).
  { apply Rmult_le_reg_r with p; [lra|]. replace (Re / p * p) with Re by (field; lra). unfold p. apply Rmult_le_reg_r with AU; [lra|]. replace (k * n * ((Rs + Re) / AU) * AU) with (k * n * (Rs + Re)) by (field; lra). exact KL. }
  rewrite Rmult_0_r. destruct (Rle_dec 0 (tan (asin p) * (Re / p + k * n * -1))) as [L|L]; [|exfalso; apply L, Rmult_le_pos; lra].
  rewrite (c_asin_ok q) by lra. cbn [bind]. assert (Y : 0 < Re / q) by (apply Rmult_lt_0_compat; [lra|apply Rinv_0_lt_compat; lra]). assert (0 < k * n) by (apply Rmult_lt_0_compat; lra).
  destruct (Rle_dec 0 (tan (asin q) * (Re / q - k * n * -1))) as [M|M]; [reflexivity|exfalso; apply M, Rmult_le_pos; lra].
Qed.

(* ---- overlapping discs ---- *)
(* twice the area between chord and arc of a unit circle, half opening a *)
Definition segment (a : R) : R := a - sin a * cos a.
Lemma segment_nonneg a : 0 <= a <= PI -> 0 <= segment a.
Proof.
  intros [A B]. unfold segment. pose proof (sin_ge_0 a A B) as P. pose proof (COS_bound a) as [_ C]. assert (sin a <= a) by (destruct (Req_dec a 0) as [->|N]; [rewrite sin_0; lra|left; apply sin_lt_x; lra]).
  assert (sin a * cos a <= sin a * 1) by (apply Rmult_le_compat_l; assumption). lra.
Qed.
Lemma segment_deriv a : derivable_pt_lim segment a (2 * (sin a * sin a)).
Proof.
  unfold segment. eapply deriv_eq; [apply deriv_minus; [apply deriv_id|apply deriv_mult; [apply derivable_pt_lim_sin|apply derivable_pt_lim_cos]]|].
  pose proof (cos2_sin2 a). lra.
Qed.
(* the mean value theorem for increasing functions *)
Lemma increasing f f' a b : a <= b -> (forall x, a <= x <= b -> derivable_pt_lim f x (f' x)) -> (forall x, a <= x <= b -> 0 <= f' x) -> f a <= f b.
Proof.
  intros L D P. destruct L as [L|E]; [|rewrite E; lra].
  assert (pr : forall c, a < c < b -> derivable_pt f c) by (intros c C; exists (f' c); apply D; lra).
  assert (pr2 : forall c, a < c < b -> derivable_pt id c) by (intros c C; apply derivable_pt_id).
  destruct (MVT f id a b pr pr2 L) as (c & C & E).
  - intros c C. apply derivable_continuous_pt. exists (f' c). apply D. exact C.
  - intros c C. apply derivable_continuous_pt, derivable_pt_id.
  - assert (E1 : derive_pt f c (pr c C) = f' c) by (apply derive_pt_eq_0, D; lra).
    assert (E2 : derive_pt id c (pr2 c C) = 1) by (apply derive_pt_eq_0, derivable_pt_lim_id). rewrite E1, E2 in E. unfold id in E. assert (0 <= f' c) by (apply P; lra). nra.
Qed.
Lemma tan_above a : 0 <= a <= PI -> 0 <= sin a - a * cos a.
Proof.
  intros [A B]. replace 0 with (sin 0 - 0 * cos 0) by (rewrite sin_0; ring).
  apply (increasing (fun x => sin x - x * cos x) (fun x => x * sin x)); [exact A| |].
  - intros x X. eapply deriv_eq; [apply deriv_minus; [apply derivable_pt_lim_sin|apply deriv_mult; [apply deriv_id|apply derivable_pt_lim_cos]]|]. cbv beta. ring.
  - intros x X. apply Rmult_le_pos; [lra|apply sin_ge_0; lra].
Qed.
(* for a given chord the wider opening has the larger segment *)
Lemma segment_ratio a b : 0 < a -> a <= b -> b < PI -> segment a / (sin a * sin a) <= segment b / (sin b * sin b).
Proof.
  intros A L B. assert (SP : forall x, a <= x <= b -> 0 < sin x) by (intros x X; apply sin_gt_0; lra).
  apply (increasing (fun x => segment x / (sin x * sin x)) (fun x => 2 * (sin x - x * cos x) / (sin x * sin x * sin x)) a b L).
  - intros x X. pose proof (SP x X) as P. pose proof (Rmult_lt_0_compat _ _ P P) as P2. pose proof (Rmult_lt_0_compat _ _ P2 P) as P3.
    eapply deriv_eq; [apply (deriv_div segment (fun t => sin t * sin t)); [apply segment_deriv|apply deriv_mult; apply derivable_pt_lim_sin|lra]|]. cbv beta. unfold segment. pose proof (cos2_sin2 x) as C.
    transitivity ((2 * (sin x * sin x) * (sin x * sin x) - 2 * sin x * cos x * x + 2 * (sin x * sin x) * (cos x * cos x)) / (sin x * sin x * (sin x * sin x))); [f_equal; ring|]. rewrite C. field. lra.
  - intros x X. pose proof (SP x X) as P. apply Rmult_le_pos; [apply Rmult_le_pos; [lra|apply tan_above; lra]|]. apply Rlt_le, Rinv_0_lt_compat. apply Rmult_lt_0_compat; [apply Rmult_lt_0_compat|]; assumption.
Qed.
(* the corner of the triangle with sides a, d, b between a and d *)
Definition corner (a b d : R) : R := (a * a + d * d - b * b) / (2 * a * d).
(* common area of discs of radii a and b whose centres are d apart, as the code computes it *)
Definition lens (a b d : R) : R := a * a * segment (acos (corner a b d)) + b * b * segment (acos (corner b a d)).
Definition overlap (a b d : R) : Prop := 0 < a /\ 0 < b /\ 0 < d /\ d < a + b /\ a < b + d /\ b < a + d.
Lemma overlap_sym a b d : overlap a b d -> overlap b a d. Proof. unfold overlap. lra. Qed.
Lemma corner_range a b d : overlap a b d -> -1 < corner a b d < 1.
Proof.
  intros (A & B & D & H1 & H2 & H3). unfold corner. assert (P : 0 < 2 * a * d) by (apply Rmult_lt_0_compat; lra). assert (E : (a * a + d * d - b * b) / (2 * a * d) * (2 * a * d) = a * a + d * d - b * b) by (field; lra).
  set (x := (a * a + d * d - b * b) / (2 * a * d)) in *. split; apply Rmult_lt_reg_r with (2 * a * d); try exact P; rewrite E; nra.
Qed.
(* half the common chord, with the position of its foot on the line of centres *)
Lemma chord a b d : overlap a b d -> let y := a * sin (acos (corner a b d)) in
  0 < y /\ y = b * sin (acos (corner b a d)) /\ exists x, x * x + y * y = a * a /\ (d - x) * (d - x) + y * y = b * b.
Proof.
  intros O y. pose proof (corner_range _ _ _ O) as RA. pose proof (corner_range _ _ _ (overlap_sym _ _ _ O)) as RB. destruct O as (A & B & D & H1 & H2 & H3).
  pose proof (acos_bound_lt _ RA) as BA. pose proof (acos_bound_lt _ RB) as BB. pose proof (sin_gt_0 (acos (corner a b d)) (proj1 BA) (proj2 BA)) as SA. pose proof (sin_gt_0 (acos (corner b a d)) (proj1 BB) (proj2 BB)) as SB.
  pose proof (cos2_sin2 (acos (corner a b d))) as CA. pose proof (cos2_sin2 (acos (corner b a d))) as CB. rewrite cos_acos in CA, CB by lra.
  assert (YP : 0 < y) by (apply Rmult_lt_0_compat; assumption). assert (YA : y * y = a * a - (a * corner a b d) * (a * corner a b d)) by (unfold y; nra).
  set (z := b * sin (acos (corner b a d))). assert (ZP : 0 < z) by (apply Rmult_lt_0_compat; assumption). assert (ZB : z * z = b * b - (b * corner b a d) * (b * corner b a d)) by (unfold z; nra).
  assert (FA : a * corner a b d = (a * a + d * d - b * b) / (2 * d)) by (unfold corner; field; lra). assert (FB : b * corner b a d = (b * b + d * d - a * a) / (2 * d)) by (unfold corner; field; lra). rewrite FA in YA. rewrite FB in ZB.
  split; [exact YP|]. assert (YZ : y * y = z * z) by (rewrite YA, ZB; field; lra). split.
  - destruct (Rtotal_order y z) as [L|[E|L]]; [nra|exact E|nra].
  - exists ((a * a + d * d - b * b) / (2 * d)). split; rewrite YA; field; lra.
Qed.
Lemma lens_range a b d : overlap a b d -> a <= b -> 0 <= lens a b d <= PI * (a * a).
Proof.
  intros O AB. destruct (chord a b d O) as (YP & YE & _). pose proof (corner_range _ _ _ O) as RA. pose proof (corner_range _ _ _ (overlap_sym _ _ _ O)) as RB. pose proof (acos_bound_lt _ RA) as BA. pose proof (acos_bound_lt _ RB) as BB.
  pose proof (cos_acos (corner b a d) ltac:(lra)) as CB. unfold lens. set (al := acos (corner a b d)) in *. set (be := acos (corner b a d)) in *.
  assert (NA : 0 <= segment al) by (apply segment_nonneg; lra). assert (NB : 0 <= segment be) by (apply segment_nonneg; lra). destruct O as (A & B & D & H1 & H2 & H3). split; [apply Rplus_le_le_0_compat; apply Rmult_le_pos; try assumption; nra|].
  (* the supplement of al opens at least as wide as be *)
  assert (CP : 0 < cos be). { rewrite CB. unfold corner. apply Rmult_lt_0_compat; [nra|]. apply Rinv_0_lt_compat, Rmult_lt_0_compat; lra. }
  assert (BH : be < PI / 2). { destruct (Rlt_le_dec be (PI / 2)) as [L|L]; [exact L|]. exfalso. assert (cos be <= 0) by (apply cos_le_0; lra). lra. }
  assert (SP : sin (PI - al) = sin al) by (rewrite Rtrigo_facts.sin_pi_minus; reflexivity). assert (SL : 0 < sin al) by (apply sin_gt_0; lra). assert (SB : 0 < sin be) by (apply sin_gt_0; lra).
  assert (LE : be <= PI - al).
  { destruct (Rle_lt_dec be (PI - al)) as [L|L]; [exact L|]. exfalso. assert (sin (PI - al) < sin be) by (apply sin_increasing_1; lra). rewrite SP in H. assert (a * sin al < b * sin be) by (apply Rle_lt_trans with (b * sin al); [apply Rmult_le_compat_r; lra|apply Rmult_lt_compat_l; lra]). lra. }
  pose proof (segment_ratio be (PI - al) ltac:(lra) LE ltac:(lra)) as Q. rewrite SP in Q.
  assert (SG : segment (PI - al) = PI - segment al) by (unfold segment; rewrite SP, Rtrigo_facts.cos_pi_minus; ring). rewrite SG in Q.
  set (y := a * sin al) in *. assert (Y2 : 0 <= y * y) by nra. apply (Rmult_le_compat_l (y * y) _ _ Y2) in Q.
  replace (y * y * (segment be / (sin be * sin be))) with (b * b * segment be) in Q by (rewrite YE; field; lra). replace (y * y * ((PI - segment al) / (sin al * sin al))) with (a * a * (PI - segment al)) in Q by (unfold y; field; lra). lra.
Qed.
Lemma deriv_comp f g s a b : derivable_pt_lim f s a -> derivable_pt_lim g (f s) b -> derivable_pt_lim (fun t => g (f t)) s (b * a).
Proof. intros F G. apply (derivable_pt_lim_comp f g s a b F G). Qed.
Lemma deriv_acos x : -1 < x < 1 -> derivable_pt_lim acos x (- / sin (acos x)).
Proof.
  intros X. eapply deriv_eq; [apply (derive_pt_eq_1 acos x _ (derivable_pt_acos x X)), derive_pt_acos|]. rewrite sin_acos_pos by lra. unfold Rsqr, Rdiv. ring.
Qed.
Lemma corner_deriv a b d : 0 < a -> 0 < d -> derivable_pt_lim (corner a b) d ((d * d + b * b - a * a) / (2 * a * (d * d))).
Proof.
  intros A D. unfold corner. assert (P : 0 < 2 * a * d) by (apply Rmult_lt_0_compat; lra).
  eapply deriv_eq; [apply (deriv_div (fun d => a * a + d * d - b * b) (fun d => 2 * a * d)); [apply deriv_minus; [apply deriv_plus; [apply deriv_const|apply deriv_mult; apply deriv_id]|apply deriv_const]|apply deriv_scal, deriv_id|lra]|]. cbv beta. field. lra.
Qed.
(* moving the discs apart uncovers the common chord *)
Lemma lens_deriv a b d : overlap a b d -> derivable_pt_lim (lens a b) d (- (2 * (a * sin (acos (corner a b d))))).
Proof.
  intros O. pose proof (overlap_sym _ _ _ O) as O'. destruct (chord a b d O) as (YP & YE & _). pose proof (corner_range _ _ _ O) as RA. pose proof (corner_range _ _ _ O') as RB. destruct O as (A & B & D & _).
  unfold lens. assert (part : forall a b, 0 < a -> -1 < corner a b d < 1 -> derivable_pt_lim (fun t => a * a * segment (acos (corner a b t))) d (- (a * sin (acos (corner a b d))) * ((d * d + b * b - a * a) / (d * d)))).
  { intros a' b' A' R. pose proof (acos_bound_lt _ R) as BA. pose proof (sin_gt_0 _ (proj1 BA) (proj2 BA)) as SP.
    eapply deriv_eq; [apply deriv_scal; apply (deriv_comp (fun t => acos (corner a' b' t)) segment); [apply (deriv_comp (corner a' b') acos); [apply corner_deriv; assumption|apply deriv_acos; exact R]|apply segment_deriv]|]. cbv beta. field. lra. }
  eapply deriv_eq; [apply deriv_plus; [apply part; [exact A|exact RA]|apply part; [exact B|exact RB]]|]. rewrite <- YE. field. lra.
Qed.
Lemma lens_apart a b : 0 < a -> 0 < b -> lens a b (a + b) = 0.
Proof.
  intros A B. unfold lens. assert (E : forall a b, 0 < a -> 0 < b -> corner a b (a + b) = 1) by (intros x y X Y; unfold corner; field; lra). rewrite (E a b A B). rewrite (Rplus_comm a b), (E b a B A), acos_1. unfold segment. rewrite sin_0. ring.
Qed.
Lemma lens_covered a b : 0 < a -> a < b -> lens a b (b - a) = PI * (a * a).
Proof.
  intros A B. unfold lens. assert (E : corner a b (b - a) = -1) by (unfold corner; field; lra). assert (E' : corner b a (b - a) = 1) by (unfold corner; field; lra). rewrite E, E', acos_1.
  replace (-1) with (- (1)) by ring. rewrite acos_opp, acos_1. unfold segment. rewrite sin_0, Rminus_0_r, sin_PI. ring.
Qed.
(* ---- the conical model ---- *)
(* apparent radius of a ball of radius R at distance x *)
Definition apparent (Rad x angle : R) : Prop := 0 < angle <= PI / 2 /\ x * sin angle = Rad.
(* angle between two directions *)
Definition between (a b : vec) (angle : R) : Prop := 0 <= angle <= PI /\ dot a b = norm a * norm b * cos angle.
Lemma apparent_asin Rad x : 0 < Rad -> Rad <= x -> -1 <= Rad / x <= 1 /\ apparent Rad x (asin (Rad / x)).
Proof.
  intros P L. assert (I : 0 < / x) by (apply Rinv_0_lt_compat; lra). assert (E : Rad / x * x = Rad) by (field; lra). assert (0 < Rad / x) by (apply Rmult_lt_0_compat; lra). assert (Rad / x <= 1) by nra. split; [lra|].
  pose proof (asin_bound (Rad / x)) as [B1 B2]. assert (S : sin (asin (Rad / x)) = Rad / x) by (apply sin_asin; lra). split; [|rewrite S; field; lra]. split; [|exact B2].
  destruct (Rlt_le_dec 0 (asin (Rad / x))) as [Q|Q]; [exact Q|]. exfalso. assert (sin (asin (Rad / x)) <= 0); [|lra]. rewrite <- sin_0. destruct Q as [Q|Q]; [left; apply sin_increasing_1; pose proof PI_RGT_0; lra|rewrite Q; lra].
Qed.
Lemma between_acos a b : a <> vzero -> b <> vzero -> -1 <= dot a b / (norm b * norm a) <= 1 /\ between a b (acos (dot a b / (norm b * norm a))).
Proof.
  intros NA NB. pose proof (norm_pos a NA) as PA. pose proof (norm_pos b NB) as PB. assert (P : 0 < norm b * norm a) by (apply Rmult_lt_0_compat; assumption).
  assert (CS : dot a b * dot a b <= (norm b * norm a) * (norm b * norm a)). { replace (norm b * norm a * (norm b * norm a)) with ((norm a * norm a) * (norm b * norm b)) by ring. rewrite !norm_sqr. pose proof (dot_nonneg (cross a b)) as C. rewrite cross_dot in C. lra. }
  assert (E : dot a b / (norm b * norm a) * (norm b * norm a) = dot a b) by (field; split; lra). set (x := dot a b / (norm b * norm a)) in *. set (k := norm b * norm a) in *. rewrite <- E in CS. assert (X : -1 <= x <= 1) by (clear - CS P; clearbody x k; assert (x * x <= 1) by (apply Rmult_le_reg_r with (k * k); nra); split; nra). split; [exact X|].
  split; [apply acos_bound|]. rewrite cos_acos by exact X. rewrite <- E. unfold k. ring.
Qed.
Lemma apparent_unique Rad x u v : 0 < x -> apparent Rad x u -> apparent Rad x v -> u = v.
Proof.
  intros P [[U1 U2] EU] [[V1 V2] EV]. assert (S : sin u = sin v) by (apply Rmult_eq_reg_l with x; lra). destruct (Rtotal_order u v) as [L|[E|L]]; [|exact E|].
  - assert (sin u < sin v) by (apply sin_increasing_1; lra). lra.
  - assert (sin v < sin u) by (apply sin_increasing_1; lra). lra.
Qed.
Lemma between_unique a b u v : a <> vzero -> b <> vzero -> between a b u -> between a b v -> u = v.
Proof.
  intros NA NB [U EU] [W EW]. pose proof (norm_pos a NA). pose proof (norm_pos b NB). assert (S : cos u = cos v) by (apply Rmult_eq_reg_l with (norm a * norm b); [lra|apply Rmult_integral_contrapositive; lra]). destruct (Rtotal_order u v) as [L|[E|L]]; [|exact E|].
  - assert (cos v < cos u) by (apply cos_decreasing_1; lra). lra.
  - assert (cos u < cos v) by (apply cos_decreasing_1; lra). lra.
Qed.
Lemma conical_spec Re Rs r s te ts d : 0 < Re <= norm r -> 0 < Rs <= norm (vsub s r) ->
  apparent Re (norm r) te -> apparent Rs (norm (vsub s r)) ts -> between (vscale (-1) r) (vsub s r) d -> ts <= te ->
  exists w, conical_shadow Re Rs r s = Some w /\ 0 <= w <= 1 /\
    (te + ts <= d -> w = 1) /\ (d <= te - ts -> w = 0) /\ (te - ts < d < te + ts -> overlap ts te d /\ w = 1 - lens ts te d / (PI * (ts * ts))).
Proof.
  intros HE HS AE AS BD TT. assert (NR : r <> vzero) by (intros E; subst r; unfold norm, vzero, dot in HE; cbn in HE; rewrite Rmult_0_r, !Rplus_0_r, sqrt_0 in HE; lra).
  assert (NS : vsub s r <> vzero) by (intros E; rewrite E in HS; unfold norm, vzero, dot in HS; cbn in HS; rewrite Rmult_0_r, !Rplus_0_r, sqrt_0 in HS; lra).
  assert (NM : vscale (-1) r <> vzero) by (intros E; apply NR; destruct r as [x y z]; apply vec_eq; cbn; [apply (f_equal vx) in E|apply (f_equal vy) in E|apply (f_equal vz) in E]; cbn in E; lra).
  assert (NN : norm (vscale (-1) r) = norm r) by (unfold norm; f_equal; vec_ring).
  destruct (apparent_asin Re (norm r) ltac:(lra) ltac:(lra)) as [R1 A1]. destruct (apparent_asin Rs (norm (vsub s r)) ltac:(lra) ltac:(lra)) as [R2 A2]. destruct (between_acos _ _ NM NS) as [R3 A3]. rewrite NN in R3, A3.
  pose proof (norm_pos r NR). pose proof (norm_pos _ NS). assert (E1 : te = asin (Re / norm r)) by (eapply apparent_unique; [|exact AE|exact A1]; assumption). assert (E2 : ts = asin (Rs / norm (vsub s r))) by (eapply apparent_unique; [|exact AS|exact A2]; assumption). assert (E3 : d = _) by (eapply between_unique; [| |exact BD|exact A3]; assumption).
  unfold conical_shadow. rewrite (c_asin_ok _ R1). cbn [bind]. rewrite (c_asin_ok _ R2). cbn [bind]. replace (- dot r (vsub s r)) with (dot (vscale (-1) r) (vsub s r)) by vec_ring. rewrite (c_acos_ok _ R3). cbn [bind]. rewrite <- E1, <- E2, <- E3.
  destruct AE as [[TE _] _], AS as [[TS _] _], BD as [[D0 D1] _]. clear - TT TE TS D0 D1.
  destruct (Rle_dec (te + ts) d) as [L|L]; [exists 1; repeat split; intros; try reflexivity; lra|]. destruct (Rle_dec d (te - ts)) as [M|M]; [exists 0; repeat split; intros; try reflexivity; lra|].
  assert (O : overlap ts te d) by (unfold overlap; lra). pose proof (corner_range _ _ _ O) as RA. pose proof (corner_range _ _ _ (overlap_sym _ _ _ O)) as RB.
  fold (corner ts te d) (corner te ts d). rewrite c_acos_ok by lra. cbn [bind]. rewrite c_acos_ok by lra. cbn [bind]. eexists. split; [reflexivity|]. pose proof (lens_range _ _ _ O TT) as LR. pose proof PI_RGT_0 as PP. assert (T2 : 0 < ts * ts) by nra. assert (P : 0 < PI * (ts * ts)) by (apply Rmult_lt_0_compat; assumption).
  assert (E : 1 - (2 * (1 / 2 * acos (corner ts te d) * (ts * ts) - 1 / 2 * (ts * sin (acos (corner ts te d))) * (ts * cos (acos (corner ts te d)))) + 2 * (1 / 2 * acos (corner te ts d) * (te * te) - 1 / 2 * (te * sin (acos (corner te ts d))) * (te * cos (acos (corner te ts d))))) / (PI * (ts * ts)) = 1 - lens ts te d / (PI * (ts * ts))).
  { f_equal. f_equal. unfold lens, segment. field. }
  rewrite E. assert (Q : lens ts te d / (PI * (ts * ts)) * (PI * (ts * ts)) = lens ts te d) by (field; lra). set (x := lens ts te d / (PI * (ts * ts))) in *. clearbody x. split; [split; nra|]. split; [lra|]. split; [lra|]. intros _. split; [exact O|reflexivity].
Qed.
(* seen from very far away the Earth is the smaller disc and the formula has no value *)
Lemma conical_far : exists Re Rs r s, 0 < Re < norm r /\ 0 < Rs < norm (vsub s r) /\ conical_shadow Re Rs r s = None.
Proof.
  exists (sin (1 / 10)), (sin (1 / 2)), (V (-1) 0 0), (V (cos (1 / 10) - 1) (sin (1 / 10)) 0). pose proof PI2_3_2 as PP.
  assert (S : forall x, 0 < x < 3 / 2 -> 0 < sin x < 1). { intros x X. split; [apply sin_gt_0; lra|]. rewrite <- sin_PI2. apply sin_increasing_1; lra. }
  pose proof (S (1 / 10) ltac:(lra)) as S1. pose proof (S (1 / 2) ltac:(lra)) as S2. pose proof (cos2_sin2 (1 / 10)) as C.
  assert (N1 : norm (V (-1) 0 0) = 1) by (apply norm_unique; [lra|unfold dot; cbn; ring]).
  assert (SR : vsub (V (cos (1 / 10) - 1) (sin (1 / 10)) 0) (V (-1) 0 0) = V (cos (1 / 10)) (sin (1 / 10)) 0) by (apply vec_eq; cbn; ring).
  assert (N2 : norm (V (cos (1 / 10)) (sin (1 / 10)) 0) = 1) by (apply norm_unique; [lra|unfold dot; cbn; rewrite C; ring]).
  unfold conical_shadow. rewrite SR, N1, N2. split; [exact S1|]. split; [exact S2|]. replace (sin (1 / 10) / 1) with (sin (1 / 10)) by field. replace (sin (1 / 2) / 1) with (sin (1 / 2)) by field. rewrite c_asin_ok by lra. cbn [bind]. rewrite c_asin_ok by lra. cbn [bind].
  assert (DD : - dot (V (-1) 0 0) (V (cos (1 / 10)) (sin (1 / 10)) 0) / (1 * 1) = cos (1 / 10)) by (unfold dot; cbn [vx vy vz]; field). rewrite DD. pose proof (COS_bound (1 / 10)). rewrite c_acos_ok by lra. cbn [bind]. rewrite !asin_sin, acos_cos by lra.
  destruct (Rle_dec (1 / 10 + 1 / 2) (1 / 10)); [lra|]. destruct (Rle_dec (1 / 10) (1 / 10 - 1 / 2)); [lra|]. unfold c_acos at 1. replace ((1 / 2 * (1 / 2) + 1 / 10 * (1 / 10) - 1 / 10 * (1 / 10)) / (2 * (1 / 2) * (1 / 10))) with (5 / 2) by field.
  unfold in_unit. destruct (Rle_dec (-1) (5 / 2)); [|reflexivity]. destruct (Rle_dec (5 / 2) 1); [lra|reflexivity].
Qed.
