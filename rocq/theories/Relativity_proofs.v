From Coq Require Import Reals Lra Lia Psatz.
From Verif Require Import Vec_model Vec_proofs Harmonics_model Legendre GravHarm Gravity_proofs Relativity_model.
Local Open Scope R_scope.

(* the coefficients of an oblate Earth *)
Definition oblate (J2 : R) (n m : nat) : R := match n, m with O, _ => 1 | 2%nat, O => - J2 | _, _ => 0 end.
Lemma P20 x : Pnm 2 0 x = (3 * x * x - 1) / 2.
Proof.
  unfold Pnm. pose proof (Ld_bonnet 0 x) as B. rewrite Ld_10, Ld_00 in B. cbn [INR] in B. rewrite pow_O. lra.
Qed.
Lemma P00 x : Pnm 0 0 x = 1. Proof. unfold Pnm. rewrite Ld_00. cbn [pow]. ring. Qed.
Lemma oblate_potential GM Re J2 S p lam : potential GM Re (oblate J2) S 2 0 p lam = GM / norm p * (1 - Re / norm p * (Re / norm p) * J2 * (3 * (vz p / norm p) * (vz p / norm p) - 1) / 2).
Proof.
  unfold potential. cbn [sum_f_R0 Nat.min oblate]. rewrite P20, P00. cbn [INR]. rewrite !Rmult_0_l, cos_0, sin_0. cbn [pow]. f_equal. generalize (Re / norm p) (vz p / norm p). intros x u. field.
Qed.

(* the latitude of the ellipsoid: the angle between the equator and its normal *)
Definition geodetic (a e2 : R) (p : vec) (lat : R) : Prop :=
  exists h lam, let N := a / sqrt (1 - e2 * sin lat * sin lat) in
    p = V ((N + h) * cos lat * cos lam) ((N + h) * cos lat * sin lam) ((N * (1 - e2) + h) * sin lat).
Definition geocentric (p : vec) (lat : R) : Prop := sin lat = vz p / norm p.

Lemma correction_geocentric c lat p v GM J2 Re S lam : geocentric p lat ->
  clock_correction_J2 c lat p v GM J2 Re = (potential GM Re (oblate J2) S 2 0 p lam + dot v v / 2) / c.
Proof. intros G. rewrite oblate_potential. unfold clock_correction_J2. rewrite G. reflexivity. Qed.
Lemma point_potential GM Re C S p lam : C O O = 1 -> potential GM Re C S 0 0 p lam = GM / norm p.
Proof. intros C0. unfold potential. cbn [sum_f_R0 Nat.min]. rewrite P00, C0. cbn [INR pow]. rewrite Rmult_0_l, cos_0, sin_0. ring. Qed.
Lemma correction_point c p v GM Re C S lam : C O O = 1 -> clock_correction c p v GM = (potential GM Re C S 0 0 p lam + dot v v / 2) / c.
Proof. intros C0. rewrite (point_potential _ _ _ _ _ _ C0). reflexivity. Qed.
Lemma correction_plain c lat p v GM Re : clock_correction_J2 c lat p v GM 0 Re = clock_correction c p v GM.
Proof. unfold clock_correction_J2, clock_correction. f_equal. f_equal. unfold Rdiv. rewrite Rmult_0_r, !Rmult_0_l, Rminus_0_r, Rmult_1_r. reflexivity. Qed.

(* 45 degrees of latitude, a point at height h *)
Lemma geodetic_differs a e2 h : 0 < a -> 0 < e2 < 1 -> 0 <= h -> exists p lat, geodetic a e2 p lat /\ 0 < norm p /\ sin lat * sin lat <> (vz p / norm p) * (vz p / norm p).
Proof.
  intros A E H. set (s := cos (PI / 4)). assert (SS : s * s = / 2).
  { pose proof (sin2_cos2 (PI / 4)) as X. rewrite sin_cos_PI4 in X. unfold Rsqr in X. fold s in X. lra. }
  set (N := a / sqrt (1 - e2 * s * s)).
  assert (NP : 0 < N). { unfold N. apply Rdiv_lt_0_compat; [exact A|]. apply sqrt_lt_R0. nra. }
  set (x := N + h). set (z := N * (1 - e2) + h). assert (XZ : 0 < z < x) by (unfold x, z; nra).
  set (p := V (x * s * 1) (x * s * 0) (z * s)). exists p, (PI / 4). split.
  { exists h, 0. cbn zeta. rewrite sin_cos_PI4, cos_0, sin_0. reflexivity. }
  assert (D : norm p * norm p = (x * x + z * z) / 2).
  { rewrite norm_sqr. unfold p, dot. cbn [vx vy vz]. nra. }
  assert (PP : 0 < norm p). { pose proof (norm_nonneg p). destruct (Req_dec (norm p) 0) as [Z|Z]; [rewrite Z in D; nra|lra]. }
  split; [exact PP|]. rewrite sin_cos_PI4. fold s. rewrite SS. intros C.
  assert (VZ : vz p = z * s) by reflexivity. rewrite VZ in C. replace (z * s / norm p * (z * s / norm p)) with (z * z * (s * s) / (norm p * norm p)) in C by (field; lra). rewrite D, SS in C.
  assert (F : z * z * / 2 / ((x * x + z * z) / 2) = z * z / (x * x + z * z)) by (field; nra). rewrite F in C. apply (f_equal (Rmult (x * x + z * z))) in C. replace ((x * x + z * z) * (z * z / (x * x + z * z))) with (z * z) in C by (field; nra). nra.
Qed.
Lemma correction_differs a e2 h c v GM J2 Re S lam : 0 < a -> 0 < e2 < 1 -> 0 <= h -> c <> 0 -> GM <> 0 -> J2 <> 0 -> Re <> 0 ->
  exists p lat, geodetic a e2 p lat /\ clock_correction_J2 c lat p v GM J2 Re <> (potential GM Re (oblate J2) S 2 0 p lam + dot v v / 2) / c.
Proof.
  intros A E H C0 G0 J0 R0. destruct (geodetic_differs a e2 h A E H) as (p & lat & GD & P & D). exists p, lat. split; [exact GD|]. rewrite oblate_potential. unfold clock_correction_J2. intros C. apply D.
  apply (f_equal (Rmult c)) in C. unfold Rdiv in C. set (ip := / norm p) in *. assert (IP : ip <> 0) by (apply Rinv_neq_0_compat; lra).
  replace (c * ((GM * ip * (1 - Re * ip * (Re * ip) * J2 * (3 * sin lat * sin lat - 1) * / 2) + dot v v * / 2) * / c)) with (GM * ip * (1 - Re * ip * (Re * ip) * J2 * (3 * sin lat * sin lat - 1) * / 2) + dot v v * / 2) in C by (field; exact C0).
  replace (c * ((GM * ip * (1 - Re * ip * (Re * ip) * J2 * (3 * (vz p * ip) * (vz p * ip) - 1) * / 2) + dot v v * / 2) * / c)) with (GM * ip * (1 - Re * ip * (Re * ip) * J2 * (3 * (vz p * ip) * (vz p * ip) - 1) * / 2) + dot v v * / 2) in C by (field; exact C0).
  unfold Rdiv. fold ip. set (k := GM * ip * (Re * ip * (Re * ip) * J2) * 3 * / 2). assert (K : k <> 0). { unfold k. repeat apply Rmult_integral_contrapositive_currified; try assumption; lra. }
  apply (Rmult_eq_reg_l k); [|exact K]. unfold k. nra.
Qed.
(* on the equator and at the poles both latitudes agree *)
Lemma geodetic_equator a e2 p lat : 0 < a -> 0 < e2 < 1 -> sin lat = 0 -> geodetic a e2 p lat -> geocentric p lat.
Proof. intros A E S (h & lam & G). unfold geocentric. rewrite S. rewrite G. cbn [vz]. rewrite S. unfold Rdiv. ring. Qed.
