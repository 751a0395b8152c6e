From Coq Require Import Reals ZArith Lra.
From Verif Require Import Vec_model Vec_proofs Kepler_model Kepler_proofs SunMoon_model.
Local Open Scope R_scope.

(* ---- specification ---- *)
Definition degrees (x : R) : R := x * (PI / 180).
Definition seconds (x : R) : R := degrees (x / 3600).
(* a point at distance d, longitude lon and latitude lat with respect to an ecliptic inclined by eps *)
Definition ecliptic (eps d lon lat : R) (v : vec) : Prop :=
  v = mulv (turn_x eps) (V (d * cos lat * cos lon) (d * cos lat * sin lon) (d * sin lat)).
Lemma ecliptic_length eps d lon lat v : 0 <= d -> ecliptic eps d lon lat v -> norm v = d.
Proof.
  intros P ->. rewrite (orth_norm _ _ (turn_x_orth eps)). apply norm_unique; [exact P|]. unfold dot. cbn [vx vy vz]. pose proof (cos2_sin2 lat) as A. pose proof (cos2_sin2 lon) as B.
  replace (d * cos lat * cos lon * (d * cos lat * cos lon) + d * cos lat * sin lon * (d * cos lat * sin lon) + d * sin lat * (d * sin lat)) with (d * d * ((cos lat * cos lat) * (cos lon * cos lon + sin lon * sin lon) + sin lat * sin lat)) by ring. rewrite B, A. ring.
Qed.

Lemma frac_same x : same_angle (turn * frac x) (2 * PI * x).
Proof. exists (- trunc x)%Z. unfold frac, turn. rewrite opp_IZR. ring. Qed.
Lemma fmod_deg x : same_angle (rad (fmod x 360)) (degrees x).
Proof. exists (- trunc (x / 360))%Z. unfold fmod, rad, degrees. rewrite opp_IZR. field. Qed.
Lemma fmod_turn x : same_angle (fmod x turn) x.
Proof. exists (- trunc (x / turn))%Z. unfold fmod, turn. rewrite opp_IZR. ring. Qed.
Lemma fmod_sec x : same_angle (fmod x TURNAS * DAS2R) (seconds x).
Proof. exists (- trunc (x / TURNAS))%Z. unfold fmod, TURNAS, DAS2R, seconds, degrees. rewrite opp_IZR. field. Qed.
Lemma same_refl x : same_angle x x. Proof. exists 0%Z. lra. Qed.
Lemma same_trans x y z : same_angle x y -> same_angle y z -> same_angle x z.
Proof. intros (j & ->) (k & ->). exists (j + k)%Z. rewrite plus_IZR. ring. Qed.
Lemma same_plus x y a b : same_angle x y -> same_angle a b -> same_angle (x + a) (y + b).
Proof. intros (j & ->) (k & ->). exists (j + k)%Z. rewrite plus_IZR. ring. Qed.
Lemma same_double x y : same_angle x y -> same_angle (2 * x) (2 * y).
Proof. intros (j & ->). exists (2 * j)%Z. rewrite mult_IZR. ring. Qed.
Lemma ecliptic_same eps eps' d lon lon' lat lat' v : same_angle eps eps' -> same_angle lon lon' -> same_angle lat lat' -> ecliptic eps d lon lat v -> ecliptic eps' d lon' lat' v.
Proof.
  intros A B C ->. unfold ecliptic, turn_x. destruct (same_angle_cs _ _ A) as [-> ->], (same_angle_cs _ _ B) as [-> ->], (same_angle_cs _ _ C) as [-> ->]. reflexivity.
Qed.
Lemma cos_between x : -1 <= cos x <= 1. Proof. apply COS_bound. Qed.

(* Montenbruck & Gill: kilometres *)
Definition sun_distance_m (M : R) : R := 10 ^ 3 * (149619 - 2499 * cos M - 21 * cos (2 * M)).
Lemma sun_m t : let M := 2 * PI * (9931267 / 10 ^ 7 + 999973583 / 10 ^ 7 * t) in
  ecliptic (degrees (2343929111 / 10 ^ 8)) (sun_distance_m M) (2 * PI * (7859444 / 10 ^ 7) + M + seconds (6892 * sin M + 72 * sin (2 * M))) 0 (sun_vector_montenbruck t).
Proof.
  intros M. unfold sun_vector_montenbruck. set (x := 9931267 / 10 ^ 7 + 999973583 / 10 ^ 7 * t) in *. pose proof (frac_same x) as SM. fold M in SM. destruct (same_angle_cs _ _ SM) as [C1 S1]. destruct (same_angle_cs _ _ (same_double _ _ SM)) as [C2 S2]. rewrite C1, S1, C2, S2.
  set (Ls := 7859444 / 10 ^ 7 + turn * frac x / turn + (6892 * sin M + 72 * sin (2 * M)) / (12960 / 10 * 10 ^ 3)).
  assert (SL : same_angle (turn * frac Ls) (2 * PI * (7859444 / 10 ^ 7) + M + seconds (6892 * sin M + 72 * sin (2 * M)))).
  { apply same_trans with (2 * PI * Ls); [apply frac_same|]. unfold Ls. destruct SM as (k & SM). exists k. rewrite SM. unfold seconds, degrees, turn. field. pose proof PI_RGT_0. lra. }
  eapply ecliptic_same; [apply same_refl|exact SL|apply same_refl|]. set (L := turn * frac Ls). clearbody L. unfold ecliptic. rewrite cos_0, sin_0. unfold rad, degrees. replace (2343929111 / 10 ^ 8 * PI / 180) with (2343929111 / 10 ^ 8 * (PI / 180)) by field. set (eps := 2343929111 / 10 ^ 8 * (PI / 180)). clearbody eps. rewrite cos_neg, sin_neg. unfold sun_distance_m.
  generalize (cos M) (cos (2 * M)). intros a b. unfold mulv, turn_x, mat9, dot. cbn [row0 row1 row2 vx vy vz]. apply vec_eq; cbn [vx vy vz]; field.
Qed.
Lemma sun_m_positive M : 147098 * 10 ^ 3 < sun_distance_m M < 152140 * 10 ^ 3.
Proof. unfold sun_distance_m. pose proof (cos_between M). pose proof (cos_between (2 * M)). lra. Qed.

Definition astronomical_unit : R := 149597870700 / 1000.
Lemma sun_v t : let M := degrees (3575291092 / 10 ^ 7 + 3599950534 / 10 ^ 5 * t) in
  ecliptic (degrees (23439291 / 10 ^ 6 - 130042 / 10 ^ 7 * t)) (astronomical_unit * (1000140612 / 10 ^ 9 - 16708617 / 10 ^ 9 * cos M - 139589 / 10 ^ 9 * cos (2 * M)))
    (degrees (280460 / 10 ^ 3 + 36000771 / 10 ^ 3 * t + 1914666471 / 10 ^ 9 * sin M + 19994643 / 10 ^ 9 * sin (2 * M))) 0 (sun_vector_vallado t).
Proof.
  intros M. unfold sun_vector_vallado. set (x := 3575291092 / 10 ^ 7 + 3599950534 / 10 ^ 5 * t) in *. pose proof (fmod_deg x) as SM. fold M in SM. destruct (same_angle_cs _ _ SM) as [C1 S1]. destruct (same_angle_cs _ _ (same_double _ _ SM)) as [C2 S2]. rewrite C1, S1, C2, S2.
  set (l0 := 280460 / 10 ^ 3 + 36000771 / 10 ^ 3 * t). set (u := 1914666471 / 10 ^ 9 * sin M). set (w := 19994643 / 10 ^ 9 * sin (2 * M)).
  assert (SL : same_angle (rad (fmod (fmod l0 360 + u + w) 360)) (degrees (l0 + u + w))).
  { eapply same_trans; [apply fmod_deg|]. destruct (fmod_deg l0) as (k & E). exists k. unfold degrees, rad in *. replace (fmod l0 360) with (fmod l0 360 * PI / 180 / (PI / 180)) by (field; pose proof PI_RGT_0; lra). rewrite E. field. pose proof PI_RGT_0. lra. }
  eapply ecliptic_same; [apply same_refl|exact SL|apply same_refl|]. set (L := rad (fmod (fmod l0 360 + u + w) 360)). clearbody L. unfold ecliptic. rewrite cos_0, sin_0.
  replace (rad (23439291 / 10 ^ 6 - 130042 / 10 ^ 7 * t)) with (degrees (23439291 / 10 ^ 6 - 130042 / 10 ^ 7 * t)) by (unfold rad, degrees; field). set (eps := degrees _). clearbody eps. generalize (cos M) (cos (2 * M)). intros a b. unfold DAUKM, astronomical_unit.
  unfold mulv, turn_x, mat9, dot, vscale. cbn [row0 row1 row2 vx vy vz]. apply vec_eq; cbn [vx vy vz]; field.
Qed.
Lemma sun_c n : let M := degrees (357529 / 10 ^ 3 + 98560023 / 10 ^ 8 * n) in
  ecliptic (degrees (23439 / 10 ^ 3 - 365 / 10 ^ 9 * n)) (astronomical_unit * (100014 / 10 ^ 5 - 1671 / 10 ^ 5 * cos M - 14 / 10 ^ 5 * cos (2 * M)))
    (degrees (280459 / 10 ^ 3 + 98564736 / 10 ^ 8 * n + 1915 / 10 ^ 3 * sin M + 2 / 100 * sin (2 * M))) 0 (sun_vector_curtis n).
Proof.
  intros M. unfold sun_vector_curtis. set (x := 357529 / 10 ^ 3 + 98560023 / 10 ^ 8 * n) in *. pose proof (fmod_deg x) as SM. fold M in SM. destruct (same_angle_cs _ _ SM) as [C1 S1]. destruct (same_angle_cs _ _ (same_double _ _ SM)) as [C2 S2]. rewrite C1, S1, C2, S2.
  set (l0 := 280459 / 10 ^ 3 + 98564736 / 10 ^ 8 * n). set (u := 1915 / 10 ^ 3 * sin M). replace (200 / 10 ^ 4) with (2 / 100) by field. set (w := 2 / 100 * sin (2 * M)).
  assert (SL : same_angle (rad (fmod (fmod l0 360 + u + w) 360)) (degrees (l0 + u + w))).
  { eapply same_trans; [apply fmod_deg|]. destruct (fmod_deg l0) as (k & E). exists k. unfold degrees, rad in *. replace (fmod l0 360) with (fmod l0 360 * PI / 180 / (PI / 180)) by (field; pose proof PI_RGT_0; lra). rewrite E. field. pose proof PI_RGT_0. lra. }
  eapply ecliptic_same; [apply same_refl|exact SL|apply same_refl|]. set (L := rad (fmod (fmod l0 360 + u + w) 360)). clearbody L. unfold ecliptic. rewrite cos_0, sin_0.
  replace (rad (23439 / 10 ^ 3 - 365 / 10 ^ 9 * n)) with (degrees (23439 / 10 ^ 3 - 365 / 10 ^ 9 * n)) by (unfold rad, degrees; field). set (eps := degrees _). clearbody eps. generalize (cos M) (cos (2 * M)). intros a b. unfold DAUKM, astronomical_unit.
  unfold mulv, turn_x, mat9, dot. cbn [row0 row1 row2 vx vy vz]. apply vec_eq; cbn [vx vy vz]; field.
Qed.

(* the lunar series, in arcseconds and kilometres *)
Definition moon_lon_terms (l lp F D : R) : R :=
  22640 * sin l + 769 * sin (2 * l) - 4586 * sin (l - 2 * D) + 2370 * sin (2 * D) - 668 * sin lp - 412 * sin (2 * F)
  - 212 * sin (2 * l - 2 * D) - 206 * sin (l + lp - 2 * D) + 192 * sin (l + 2 * D) - 165 * sin (lp - 2 * D)
  + 148 * sin (l - lp) - 125 * sin D - 110 * sin (l + lp) - 55 * sin (2 * F - 2 * D).
Definition moon_lat_terms (l lp F D : R) : R :=
  18520 * sin (F + seconds (moon_lon_terms l lp F D + 412 * sin (2 * F) + 541 * sin lp)) - 526 * sin (F - 2 * D) + 44 * sin (l + F - 2 * D)
  - 31 * sin (F - l - 2 * D) - 25 * sin (F - 2 * l) - 23 * sin (lp + F - 2 * D) + 21 * sin (F - l) + 11 * sin (F - lp - 2 * D).
Definition moon_distance (l lp D : R) : R :=
  385000 - 20905 * cos l - 3699 * cos (2 * D - l) - 2956 * cos (2 * D) - 570 * cos (2 * l) + 246 * cos (2 * l - 2 * D)
  - 205 * cos (lp - 2 * D) - 171 * cos (l + 2 * D) - 152 * cos (l + lp - 2 * D).
Lemma moon_distance_range l lp D : 356000 < moon_distance l lp D < 414000.
Proof.
  unfold moon_distance. pose proof (cos_between l). pose proof (cos_between (2 * D - l)). pose proof (cos_between (2 * D)). pose proof (cos_between (2 * l)). pose proof (cos_between (2 * l - 2 * D)). pose proof (cos_between (lp - 2 * D)). pose proof (cos_between (l + 2 * D)). pose proof (cos_between (l + lp - 2 * D)). lra.
Qed.
Lemma moon_m l lp F D t :
  ecliptic (degrees (2343929111 / 10 ^ 8)) (moon_distance l lp D) (2 * PI * (606433 / 10 ^ 6 + 1336851344 / 10 ^ 6 * t) + seconds (moon_lon_terms l lp F D)) (seconds (moon_lat_terms l lp F D)) (moon_vector_approx l lp F D t).
Proof.
  unfold moon_vector_approx. set (x := 606433 / 10 ^ 6 + 1336851344 / 10 ^ 6 * t). pose proof PI_RGT_0 as PP.
  set (dl := 22640 * sin l + 769 * sin (2 * l) - 4586 * sin (l - 2 * D) + 2370 * sin (2 * D) + - (668) * sin lp - 412 * sin (2 * F) + - (212) * sin (2 * l - 2 * D) - 206 * sin (l + lp - 2 * D) + 192 * sin (l + 2 * D) - 165 * sin (lp - 2 * D) + 148 * sin (l - lp) - 125 * sin D - 110 * sin (l + lp) - 55 * sin (2 * F - 2 * D)).
  assert (ED : dl = moon_lon_terms l lp F D) by (unfold dl, moon_lon_terms; ring). clearbody dl. subst dl.
  set (dl := moon_lon_terms l lp F D) in *.
  assert (SL : same_angle (fmod (turn * frac x * DR2AS + dl) TURNAS * DAS2R) (2 * PI * x + seconds dl)).
  { eapply same_trans; [apply fmod_sec|]. replace (seconds (turn * frac x * DR2AS + dl)) with (turn * frac x + seconds dl) by (unfold seconds, degrees, DR2AS, turn; field; lra). apply same_plus; [apply frac_same|apply same_refl]. }
  assert (SA : sin (fmod (F + (dl + 412 * sin (2 * F) + 541 * sin lp) * DAS2R) turn) = sin (F + seconds (dl + 412 * sin (2 * F) + 541 * sin lp))).
  { destruct (same_angle_cs _ _ (fmod_turn (F + (dl + 412 * sin (2 * F) + 541 * sin lp) * DAS2R))) as [_ ->]. f_equal. unfold DAS2R, seconds, degrees. field. }
  rewrite SA. set (be := 18520 * sin (F + seconds (dl + 412 * sin (2 * F) + 541 * sin lp)) - 526 * sin (F - 2 * D) + 44 * sin (l + F - 2 * D) - 31 * sin (- l + F - 2 * D) - 25 * sin (- (2) * l + F) - 23 * sin (lp + F - 2 * D) + 21 * sin (- l + F) + 11 * sin (- lp + F - 2 * D)).
  assert (EB : be = moon_lat_terms l lp F D).
  { unfold be, moon_lat_terms. fold dl. replace (F - l - 2 * D) with (- l + F - 2 * D) by ring. replace (F - 2 * l) with (- (2) * l + F) by ring. replace (F - l) with (- l + F) by ring. replace (F - lp - 2 * D) with (- lp + F - 2 * D) by ring. reflexivity. }
  rewrite EB. eapply ecliptic_same; [apply same_refl|exact SL|apply fmod_sec|].
  change (385000 - 20905 * cos l - 3699 * cos (2 * D - l) - 2956 * cos (2 * D) - 570 * cos (2 * l) + 246 * cos (2 * l - 2 * D) - 205 * cos (lp - 2 * D) - 171 * cos (l + 2 * D) - 152 * cos (l + lp - 2 * D)) with (moon_distance l lp D).
  set (lam := fmod (turn * frac x * DR2AS + dl) TURNAS * DAS2R). set (bet := fmod (moon_lat_terms l lp F D) TURNAS * DAS2R). clearbody lam bet. generalize (moon_distance l lp D). intros d. clear.
  unfold rad, degrees. replace (2343929111 / 10 ^ 8 * PI / 180) with (2343929111 / 10 ^ 8 * (PI / 180)) by field. set (eps := 2343929111 / 10 ^ 8 * (PI / 180)). clearbody eps. rewrite cos_neg, sin_neg. unfold ecliptic, mulv, turn_x, mat9, dot. cbn [row0 row1 row2 vx vy vz]. apply vec_eq; cbn [vx vy vz]; field.
Qed.
(* Vallado's parallax, in degrees *)
Definition moon_parallax (t : R) : R :=
  9508 / 10 ^ 4 + 518 / 10 ^ 4 * cos (degrees (1349 / 10 + 47719885 / 10 ^ 2 * t)) + 95 / 10 ^ 4 * cos (degrees (2592 / 10 - 41333538 / 10 ^ 2 * t))
  + 78 / 10 ^ 4 * cos (degrees (2357 / 10 + 89053423 / 10 ^ 2 * t)) + 28 / 10 ^ 4 * cos (degrees (2699 / 10 + 95439770 / 10 ^ 2 * t)).
Definition moon_lon_v (t : R) : R :=
  21832 / 10 ^ 2 + 4812678813 / 10 ^ 4 * t + 629 / 10 ^ 2 * sin (degrees (1349 / 10 + 47719885 / 10 ^ 2 * t))
  - 127 / 10 ^ 2 * sin (degrees (2592 / 10 - 41333538 / 10 ^ 2 * t)) + 66 / 10 ^ 2 * sin (degrees (2357 / 10 + 89053423 / 10 ^ 2 * t))
  + 21 / 10 ^ 2 * sin (degrees (2699 / 10 + 95439770 / 10 ^ 2 * t)) - 19 / 10 ^ 2 * sin (degrees (3575 / 10 + 3599905 / 10 ^ 2 * t))
  - 11 / 10 ^ 2 * sin (degrees (1866 / 10 + 96640405 / 10 ^ 2 * t)).
Definition moon_lat_v (t : R) : R :=
  513 / 10 ^ 2 * sin (degrees (933 / 10 + 48320203 / 10 ^ 2 * t)) + 28 / 10 ^ 2 * sin (degrees (2282 / 10 + 96040087 / 10 ^ 2 * t))
  - 28 / 10 ^ 2 * sin (degrees (3183 / 10 + 600318 / 10 ^ 2 * t)) - 17 / 10 ^ 2 * sin (degrees (2176 / 10 - 40733220 / 10 ^ 2 * t)).
Lemma rad_degrees x : rad x = degrees x. Proof. unfold rad, degrees. field. Qed.
Lemma parallax_range t : 0 < sin (degrees (moon_parallax t)).
Proof.
  pose proof PI_RGT_0 as PP. assert (B : 0 < moon_parallax t < 2).
  { unfold moon_parallax. pose proof (cos_between (degrees (1349 / 10 + 47719885 / 10 ^ 2 * t))). pose proof (cos_between (degrees (2592 / 10 - 41333538 / 10 ^ 2 * t))). pose proof (cos_between (degrees (2357 / 10 + 89053423 / 10 ^ 2 * t))). pose proof (cos_between (degrees (2699 / 10 + 95439770 / 10 ^ 2 * t))). lra. }
  unfold degrees. apply sin_gt_0; [apply Rmult_lt_0_compat; lra|]. apply Rlt_le_trans with (2 * (PI / 180)); [apply Rmult_lt_compat_r; lra|lra].
Qed.
Lemma moon_v t : ecliptic (degrees (23439291 / 10 ^ 6 - 130042 / 10 ^ 7 * t - 164 / 10 ^ 9 * t ^ 2 + 504 / 10 ^ 9 * t ^ 3)) (63781366 / 10 ^ 4 / sin (degrees (moon_parallax t)))
    (degrees (moon_lon_v t)) (degrees (moon_lat_v t)) (moon_vector_vallado t).
Proof.
  unfold moon_vector_vallado. rewrite !rad_degrees. fold (moon_parallax t). fold (moon_lon_v t). fold (moon_lat_v t).
  assert (SP : sin (fmod (degrees (moon_parallax t)) turn) = sin (degrees (moon_parallax t))) by (apply same_angle_cs, fmod_turn). rewrite SP. pose proof (parallax_range t) as PR. set (sp := sin (degrees (moon_parallax t))) in *. clearbody sp.
  replace (23439291 / 10 ^ 6 - 130042 / 10 ^ 7 * t - 164 / 10 ^ 9 * t ^ 2 + 504 / 10 ^ 9 * t ^ 3) with (23439291 / 10 ^ 6 + t * (- (130042 / 10 ^ 7) + t * (- (164 / 10 ^ 9) + 504 / 10 ^ 9 * t))) by ring.
  eapply ecliptic_same; [apply fmod_turn|apply fmod_turn|apply fmod_turn|]. set (E := fmod (degrees (23439291 / 10 ^ 6 + _)) turn). set (L := fmod (degrees (moon_lon_v t)) turn). set (F := fmod (degrees (moon_lat_v t)) turn). clearbody E L F. clear - PR.
  unfold ecliptic, mulv, turn_x, mat9, dot. cbn [row0 row1 row2 vx vy vz]. apply vec_eq; cbn [vx vy vz]; field; lra.
Qed.
