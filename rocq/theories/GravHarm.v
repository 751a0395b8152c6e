(* The spherical harmonics of the gravity field outside the Earth, and their derivatives. *)
From Coq Require Import Reals Lra Lia Arith.
From Verif Require Import Vec_model Vec_proofs Calc Legendre.
Local Open Scope R_scope.

(* ---- specification ---- *)
(* associated Legendre function: (1-u^2)^(m/2) d^m/du^m P_n(u) *)
Definition Pnm (n m : nat) (u : R) : R := sqrt (1 - u * u) ^ m * Ld n m u.
(* lam is a longitude of the point *)
Definition longitude (p : vec) (lam : R) : Prop :=
  vx p = sqrt (vx p * vx p + vy p * vy p) * cos lam /\ vy p = sqrt (vx p * vx p + vy p * vy p) * sin lam.
(* (Re/r)^(n+1) P_nm(sin phi) cos(m lam), sin(m lam) *)
Definition Vnm (Re : R) (n m : nat) (p : vec) (lam : R) : R := (Re / norm p) ^ (n + 1) * Pnm n m (vz p / norm p) * cos (INR m * lam).
Definition Wnm (Re : R) (n m : nat) (p : vec) (lam : R) : R := (Re / norm p) ^ (n + 1) * Pnm n m (vz p / norm p) * sin (INR m * lam).

(* ---- cartesian form ---- *)
(* real and imaginary part of (x + iy)^m *)
Fixpoint cpow (m : nat) (x y : R) : R * R :=
  match m with O => (1, 0) | S m' => let (a, b) := cpow m' x y in (x * a - y * b, x * b + y * a) end.
Definition Am (m : nat) (p : vec) : R := fst (cpow m (vx p) (vy p)).
Definition Bm (m : nat) (p : vec) : R := snd (cpow m (vx p) (vy p)).
Lemma Am_S m p : Am (S m) p = vx p * Am m p - vy p * Bm m p. Proof. unfold Am, Bm. cbn. destruct (cpow m (vx p) (vy p)). reflexivity. Qed.
Lemma Bm_S m p : Bm (S m) p = vx p * Bm m p + vy p * Am m p. Proof. unfold Am, Bm. cbn. destruct (cpow m (vx p) (vy p)). reflexivity. Qed.
Definition Fnm (Re : R) (n m : nat) (p : vec) : R := Re ^ (n + 1) * (/ norm p) ^ (n + m + 1) * Ld n m (vz p * / norm p).
Definition VF (Re : R) (n m : nat) (p : vec) : R := Fnm Re n m p * Am m p.
Definition WF (Re : R) (n m : nat) (p : vec) : R := Fnm Re n m p * Bm m p.

Lemma cpow_angle m p lam : longitude p lam -> Am m p = sqrt (vx p * vx p + vy p * vy p) ^ m * cos (INR m * lam) /\ Bm m p = sqrt (vx p * vx p + vy p * vy p) ^ m * sin (INR m * lam).
Proof.
  intros [X Y]. set (q := sqrt (vx p * vx p + vy p * vy p)) in *. induction m as [|m [IA IB]].
  - unfold Am, Bm. cbn. rewrite Rmult_0_l, cos_0, sin_0. split; ring.
  - rewrite Am_S, Bm_S, IA, IB, X, Y, S_INR. replace ((INR m + 1) * lam) with (INR m * lam + lam) by ring. rewrite cos_plus, sin_plus. cbn [pow]. split; ring.
Qed.
Lemma norm_split p : norm p * norm p = vx p * vx p + vy p * vy p + vz p * vz p. Proof. rewrite norm_sqr. unfold dot. reflexivity. Qed.
Lemma cosphi p : p <> vzero -> sqrt (1 - vz p / norm p * (vz p / norm p)) = sqrt (vx p * vx p + vy p * vy p) * / norm p.
Proof.
  intros N. pose proof (norm_pos p N) as P. pose proof (norm_split p) as Q.
  replace (1 - vz p / norm p * (vz p / norm p)) with ((vx p * vx p + vy p * vy p) * (/ norm p * / norm p)).
  - rewrite sqrt_mult_alt by nra. f_equal. apply sqrt_square. left. apply Rinv_0_lt_compat, P.
  - apply Rmult_eq_reg_r with (norm p * norm p); [|nra]. replace ((vx p * vx p + vy p * vy p) * (/ norm p * / norm p) * (norm p * norm p)) with (vx p * vx p + vy p * vy p) by (field; lra).
    replace ((1 - vz p / norm p * (vz p / norm p)) * (norm p * norm p)) with (norm p * norm p - vz p * vz p) by (field; lra). lra.
Qed.
Lemma harm_eq Re n m p lam : p <> vzero -> longitude p lam -> Vnm Re n m p lam = VF Re n m p /\ Wnm Re n m p lam = WF Re n m p.
Proof.
  intros N L. destruct (cpow_angle m p lam L) as [A B]. unfold Vnm, Wnm, VF, WF, Fnm, Pnm. rewrite A, B, cosphi by exact N.
  unfold Rdiv. rewrite Rpow_mult_distr, Rpow_mult_distr. replace (n + m + 1)%nat with (n + 1 + m)%nat by lia. rewrite (pow_add (/ norm p) (n + 1) m). split; ring.
Qed.
(* every point has a longitude *)
Lemma longitude_exists p : exists lam, longitude p lam.
Proof.
  unfold longitude. set (q := sqrt (vx p * vx p + vy p * vy p)). assert (Q : q * q = vx p * vx p + vy p * vy p) by (apply sqrt_sqrt; nra). assert (QP : 0 <= q) by apply sqrt_pos.
  destruct (Req_dec q 0) as [Z|NZ].
  - exists 0. rewrite Z in *. assert (vx p * vx p = 0 /\ vy p * vy p = 0) as [X Y] by nra. apply Rmult_integral in X, Y. split; [destruct X|destruct Y]; nra.
  - assert (B : -1 <= vx p / q <= 1). { assert (A : (vx p / q) * (vx p / q) <= 1). { replace (vx p / q * (vx p / q)) with (vx p * vx p * / (q * q)) by (field; exact NZ). apply Rmult_le_reg_r with (q * q); [nra|]. rewrite Rmult_assoc, Rinv_l by nra. nra. } nra. }
    destruct (Rle_dec 0 (vy p)) as [Y|Y].
    + exists (acos (vx p / q)). rewrite cos_acos, sin_acos by exact B. split; [field; exact NZ|]. rewrite <- (sqrt_square q) at 1 by exact QP. rewrite <- sqrt_mult_alt by nra. unfold Rsqr. replace (q * q * (1 - vx p / q * (vx p / q))) with (vy p * vy p); [symmetry; apply sqrt_square, Y|]. replace (q * q * (1 - vx p / q * (vx p / q))) with (q * q - vx p * vx p) by (field; exact NZ). lra.
    + exists (- acos (vx p / q)). rewrite cos_neg, sin_neg, cos_acos, sin_acos by exact B. split; [field; exact NZ|]. rewrite Ropp_mult_distr_r_reverse. rewrite <- (sqrt_square q) at 1 by exact QP. rewrite <- sqrt_mult_alt by nra. unfold Rsqr. replace (q * q * (1 - vx p / q * (vx p / q))) with (- vy p * - vy p); [rewrite sqrt_square by lra; ring|]. replace (q * q * (1 - vx p / q * (vx p / q))) with (q * q - vx p * vx p) by (field; exact NZ). lra.
Qed.
(* ---- recursions ---- *)
Lemma q_pow p : p <> vzero -> norm p * / norm p = 1. Proof. intros N. apply Rinv_r. pose proof (norm_pos p N). lra. Qed.
Lemma F_00 Re p : Fnm Re 0 0 p = Re * / norm p. Proof. unfold Fnm. rewrite Ld_00. cbn. ring. Qed.
Lemma F_next Re m p : Fnm Re (S m) m p = (2 * INR m + 1) * (Re * vz p * (/ norm p * / norm p)) * Fnm Re m m p.
Proof. unfold Fnm. rewrite Ld_next. replace (S m + m + 1)%nat with (S (m + m + 1)) by lia. cbn [pow plus]. ring. Qed.
Lemma F_rec Re n m p : (INR n + 2 - INR m) * Fnm Re (S (S n)) m p =
  (2 * INR n + 3) * (Re * vz p * (/ norm p * / norm p)) * Fnm Re (S n) m p - (INR n + INR m + 1) * (Re * Re * (/ norm p * / norm p)) * Fnm Re n m p.
Proof.
  unfold Fnm. replace (S (S n) + m + 1)%nat with (S (S (n + m + 1))) by lia. replace (S n + m + 1)%nat with (S (n + m + 1)) by lia. cbn [pow plus].
  set (a := Re ^ (n + 1)). set (b := (/ norm p) ^ (n + m + 1)). set (q := / norm p). set (u := vz p * q).
  transitivity (Re * Re * a * (q * q * b) * ((INR n + 2 - INR m) * Ld (S (S n)) m u)); [ring|]. rewrite Ld_rec. unfold u. ring.
Qed.
Lemma F_sect Re m p : Fnm Re (S m) (S m) p = (2 * INR m + 1) * (Re * (/ norm p * / norm p)) * Fnm Re m m p.
Proof. unfold Fnm. rewrite Ld_sect. replace (S m + S m + 1)%nat with (S (S (m + m + 1))) by lia. cbn [pow plus]. ring. Qed.

(* ---- derivatives ---- *)
Section Deriv.
Context (Re : R) (p : R -> vec) (s : R) (u : vec) (Dp : vderiv p s u) (N : p s <> vzero).
Lemma d_inv : derivable_pt_lim (fun t => / norm (p t)) s (- (dot (p s) u) * (/ norm (p s)) ^ 3).
Proof.
  pose proof (norm_pos _ N) as P. eapply deriv_eq; [apply (deriv_inv (fun t => norm (p t))); [apply deriv_norm; [exact Dp|exact N]|lra]|]. field. lra.
Qed.
Lemma d_pow f a k : derivable_pt_lim f s a -> derivable_pt_lim (fun t => f t ^ S k) s (INR (S k) * f s ^ k * a).
Proof.
  intros D. induction k as [|k IH]; [eapply deriv_eq; [apply (deriv_ext f); [intros; ring|exact D]|cbn; ring]|].
  apply (deriv_ext (fun t => f t * f t ^ S k)); [intros; reflexivity|]. eapply deriv_eq; [apply (deriv_mult f (fun t => f t ^ S k) s _ _ D IH)|]. rewrite (S_INR (S k)). cbn [pow]. ring.
Qed.
Lemma d_sin_lat : derivable_pt_lim (fun t => vz (p t) * / norm (p t)) s (vz u * / norm (p s) - vz (p s) * dot (p s) u * (/ norm (p s)) ^ 3).
Proof. destruct Dp as (_ & _ & Dz). eapply deriv_eq; [apply (deriv_mult (fun t => vz (p t)) (fun t => / norm (p t))); [exact Dz|exact d_inv]|cbn; ring]. Qed.
Lemma d_Ld n k f a : derivable_pt_lim f s a -> derivable_pt_lim (fun t => Ld n k (f t)) s (Ld n (S k) (f s) * a).
Proof. intros D. apply (derivable_pt_lim_comp f (Ld n k)); [exact D|]. apply Coquelicot.Derive.is_derive_Reals, Ld_derive. Qed.
Lemma d_F n m : derivable_pt_lim (fun t => Fnm Re n m (p t)) s
  (Re ^ (n + 1) * (/ norm (p s)) ^ (n + m + 1) *
   (- (/ norm (p s)) ^ 2 * (vx (p s) * vx u + vy (p s) * vy u) * Ld (S n) (S m) (vz (p s) * / norm (p s)) - / norm (p s) * (INR n - INR m + 1) * vz u * Ld (S n) m (vz (p s) * / norm (p s)))).
Proof.
  unfold Fnm. set (q := fun t => / norm (p t)).
  assert (D : derivable_pt_lim (fun t => Re ^ (n + 1) * q t ^ S (n + m) * Ld n m (vz (p t) * q t)) s
    (Re ^ (n + 1) * (INR (S (n + m)) * q s ^ (n + m) * (- (dot (p s) u) * q s ^ 3)) * Ld n m (vz (p s) * q s) + Re ^ (n + 1) * q s ^ S (n + m) * (Ld n (S m) (vz (p s) * q s) * (vz u * q s - vz (p s) * dot (p s) u * q s ^ 3)))).
  { apply (deriv_mult (fun t => Re ^ (n + 1) * q t ^ S (n + m)) (fun t => Ld n m (vz (p t) * q t))); [apply deriv_scal, d_pow, d_inv|apply d_Ld, d_sin_lat]. }
  replace (n + m + 1)%nat with (S (n + m)) by lia. eapply deriv_eq; [exact D|]. clear D.
  pose proof (q_pow _ N) as Q1. fold (q s) in Q1 |- *. pose proof (norm_split (p s)) as Q2. rewrite S_INR, plus_INR. rewrite Ld_B.
  pose proof (Ld_slope n m (vz (p s) * q s)) as SL. unfold dot. cbn [pow]. set (L0 := Ld n m (vz (p s) * q s)) in *. set (L1 := Ld n (S m) (vz (p s) * q s)) in *. set (L2 := Ld (S n) m (vz (p s) * q s)) in *.
  set (e := q s ^ (n + m)). set (x := vx (p s)) in *. set (y := vy (p s)) in *. set (z := vz (p s)) in *. set (k := q s) in *. cbn [pow] in SL |- *.
  transitivity (Re ^ (n + 1) * (k * e) * (- (k * k) * (x * vx u + y * vy u) * (z * k * L1 + (INR n + INR m + 1) * L0) - k * vz u * ((INR n + INR m + 1) * (z * k) * L0 - (1 - z * k * (z * k)) * L1))); [ring|]. rewrite SL. ring.
Qed.
Lemma d_AB m : derivable_pt_lim (fun t => Am (S m) (p t)) s (INR (S m) * (Am m (p s) * vx u - Bm m (p s) * vy u)) /\
  derivable_pt_lim (fun t => Bm (S m) (p t)) s (INR (S m) * (Bm m (p s) * vx u + Am m (p s) * vy u)).
Proof.
  destruct Dp as (Dx & Dy & _). induction m as [|m [IA IB]].
  - split; [apply (deriv_ext (fun t => vx (p t))); [intros; unfold Am; cbn; ring|]; eapply deriv_eq; [exact Dx|unfold Am, Bm; cbn; ring]|apply (deriv_ext (fun t => vy (p t))); [intros; unfold Bm; cbn; ring|]; eapply deriv_eq; [exact Dy|unfold Am, Bm; cbn; ring]].
  - split.
    + apply (deriv_ext (fun t => vx (p t) * Am (S m) (p t) - vy (p t) * Bm (S m) (p t))); [intros; symmetry; apply Am_S|].
      eapply deriv_eq; [apply deriv_minus; apply deriv_mult; eassumption|]. rewrite (S_INR (S m)), Am_S, Bm_S. ring.
    + apply (deriv_ext (fun t => vx (p t) * Bm (S m) (p t) + vy (p t) * Am (S m) (p t))); [intros; symmetry; apply Bm_S|].
      eapply deriv_eq; [apply deriv_plus; apply deriv_mult; eassumption|]. rewrite (S_INR (S m)), Am_S, Bm_S. ring.
Qed.
(* the gradients in terms of the functions of the next degree *)
Lemma d_V0 n : derivable_pt_lim (fun t => Re * VF Re n 0 (p t)) s (- VF Re (S n) 1 (p s) * vx u - WF Re (S n) 1 (p s) * vy u - (INR n + 1) * VF Re (S n) 0 (p s) * vz u).
Proof.
  apply (deriv_ext (fun t => Re * Fnm Re n 0 (p t))); [intros; unfold VF, Am; cbn; ring|]. eapply deriv_eq; [apply deriv_scal, d_F|].
  unfold VF, WF, Fnm. replace (S n + 1 + 1)%nat with (S (S (n + 0 + 1))) by lia. replace (S n + 0 + 1)%nat with (S (n + 0 + 1)) by lia. unfold Am, Bm. cbn [cpow fst snd pow INR]. replace (S n + 1)%nat with (S (n + 1)) by lia. cbn [pow]. ring.
Qed.
Lemma d_W0 n : derivable_pt_lim (fun t => WF Re n 0 (p t)) s 0.
Proof. apply (deriv_ext (fun _ => 0)); [intros; unfold WF, Bm; cbn; ring|]. apply deriv_const. Qed.
Definition ff (n m : nat) : R := (INR n - INR m + 1) * (INR n - INR m + 2).
Lemma d_VW n m : derivable_pt_lim (fun t => Re * VF Re n (S m) (p t)) s
    (/ 2 * (- VF Re (S n) (S (S m)) (p s) + ff n (S m) * VF Re (S n) m (p s)) * vx u
     + / 2 * (- WF Re (S n) (S (S m)) (p s) - ff n (S m) * WF Re (S n) m (p s)) * vy u
     - (INR n - INR (S m) + 1) * VF Re (S n) (S m) (p s) * vz u) /\
  derivable_pt_lim (fun t => Re * WF Re n (S m) (p t)) s
    (/ 2 * (- WF Re (S n) (S (S m)) (p s) + ff n (S m) * WF Re (S n) m (p s)) * vx u
     + / 2 * (VF Re (S n) (S (S m)) (p s) + ff n (S m) * VF Re (S n) m (p s)) * vy u
     - (INR n - INR (S m) + 1) * WF Re (S n) (S m) (p s) * vz u).
Proof.
  pose proof (d_F n (S m)) as DF. destruct (d_AB m) as [DA DB]. pose proof (Ld_two n m (vz (p s) * / norm (p s))) as T.
  pose proof (q_pow _ N) as Q1. pose proof (norm_split (p s)) as Q2.
  assert (KK : 1 - vz (p s) * / norm (p s) * (vz (p s) * / norm (p s)) = (vx (p s) * vx (p s) + vy (p s) * vy (p s)) * (/ norm (p s) * / norm (p s))).
  { transitivity (norm (p s) * / norm (p s) * (norm (p s) * / norm (p s)) - vz (p s) * vz (p s) * (/ norm (p s) * / norm (p s))); [rewrite Q1; ring|]. transitivity ((norm (p s) * norm (p s) - vz (p s) * vz (p s)) * (/ norm (p s) * / norm (p s))); [ring|]. rewrite Q2. ring. }
  rewrite KK in T. clear KK Q2.
  split.
  - eapply deriv_eq; [apply (deriv_scal Re (fun t => VF Re n (S m) (p t)) s); apply (deriv_mult (fun t => Fnm Re n (S m) (p t)) (fun t => Am (S m) (p t)) s _ _ DF DA)|].
    unfold VF, WF, Fnm, ff. repeat (rewrite Am_S || rewrite Bm_S). rewrite !S_INR. replace (S n + S (S m) + 1)%nat with (S (S (n + S m + 1))) by lia. replace (S n + S m + 1)%nat with (S (n + S m + 1)) by lia. replace (S n + m + 1)%nat with (n + S m + 1)%nat by lia. replace (S n + 1)%nat with (S (n + 1)) by lia. cbn [pow].
    set (k := / norm (p s)) in *. set (E := k ^ (n + S m + 1)). set (L1 := Ld n (S m) (vz (p s) * k)) in *. set (L2 := Ld (S n) (S (S m)) (vz (p s) * k)) in *. set (L0 := Ld (S n) m (vz (p s) * k)) in *. set (LL := Ld (S n) (S m) (vz (p s) * k)).
    set (a := Am m (p s)). set (b := Bm m (p s)). set (x := vx (p s)) in *. set (y := vy (p s)) in *.
    transitivity (Re * Re ^ (n + 1) * E * ((- (k * k) * (x * vx u + y * vy u) * L2 - k * (INR n - (INR m + 1) + 1) * vz u * LL) * (x * a - y * b) + / 2 * (2 * (INR m + 1) * L1) * (a * vx u - b * vy u))); [field|]. rewrite T. field.
  - eapply deriv_eq; [apply (deriv_scal Re (fun t => WF Re n (S m) (p t)) s); apply (deriv_mult (fun t => Fnm Re n (S m) (p t)) (fun t => Bm (S m) (p t)) s _ _ DF DB)|].
    unfold VF, WF, Fnm, ff. repeat (rewrite Am_S || rewrite Bm_S). rewrite !S_INR. replace (S n + S (S m) + 1)%nat with (S (S (n + S m + 1))) by lia. replace (S n + S m + 1)%nat with (S (n + S m + 1)) by lia. replace (S n + m + 1)%nat with (n + S m + 1)%nat by lia. replace (S n + 1)%nat with (S (n + 1)) by lia. cbn [pow].
    set (k := / norm (p s)) in *. set (E := k ^ (n + S m + 1)). set (L1 := Ld n (S m) (vz (p s) * k)) in *. set (L2 := Ld (S n) (S (S m)) (vz (p s) * k)) in *. set (L0 := Ld (S n) m (vz (p s) * k)) in *. set (LL := Ld (S n) (S m) (vz (p s) * k)).
    set (a := Am m (p s)). set (b := Bm m (p s)). set (x := vx (p s)) in *. set (y := vy (p s)) in *.
    transitivity (Re * Re ^ (n + 1) * E * ((- (k * k) * (x * vx u + y * vy u) * L2 - k * (INR n - (INR m + 1) + 1) * vz u * LL) * (x * b + y * a) + / 2 * (2 * (INR m + 1) * L1) * (b * vx u + a * vy u))); [field|]. rewrite T. field.
Qed.
End Deriv.
