From Coq Require Import Nsatz Reals ZArith Lra Lia Psatz.
From Verif Require Import Vec_model Vec_proofs Kepler_model.
Local Open Scope R_scope.

(* ---- angles ---- *)
Lemma two_pi_pos : 0 < two_pi. Proof. unfold two_pi. pose proof PI_RGT_0. lra. Qed.
Lemma Int_part_bounds x : IZR (Int_part x) <= x < IZR (Int_part x) + 1.
Proof. destruct (base_Int_part x) as [A B]. split; lra. Qed.
Lemma arg02pi_spec M : exists k : Z, arg02pi M = M + 2 * PI * IZR k /\ 0 <= arg02pi M < 2 * PI.
Proof.
  pose proof two_pi_pos as P. change (2 * PI) with two_pi. unfold arg02pi, fmod, trunc.
  assert (Q : M = M / two_pi * two_pi) by (field; lra).
  destruct (Rle_dec 0 (M / two_pi)) as [A|A].
  - pose proof (Int_part_bounds (M / two_pi)) as [B C]. set (z := Int_part (M / two_pi)) in *.
    assert (0 <= M - IZR z * two_pi < two_pi) by (rewrite Q; split; nra).
    destruct (Rlt_dec (M - IZR z * two_pi) 0); [lra|]. exists (- z)%Z. rewrite opp_IZR. split; [ring|lra].
  - pose proof (Int_part_bounds (- (M / two_pi))) as [B C]. set (z := Int_part (- (M / two_pi))) in *. rewrite opp_IZR.
    assert (- two_pi < M - - IZR z * two_pi <= 0) by (rewrite Q; split; nra).
    destruct (Rlt_dec (M - - IZR z * two_pi) 0).
    + exists (z + 1)%Z. rewrite plus_IZR. split; [ring|lra].
    + exists z. split; [ring|lra].
Qed.

(* ---- Kepler's equation ---- *)
Definition kepler_eq (e M E : R) : Prop := E - e * sin E = M.
Definition residual (e M E : R) : R := E - e * sin E - M.
Lemma slope_pos e E : 0 <= e < 1 -> 1 - e <= 1 - e * cos E <= 1 + e.
Proof. intros [A B]. pose proof (COS_bound E). nra. Qed.

Lemma mvt f f' a b : (forall c, derivable_pt_lim f c (f' c)) -> exists c, f b - f a = f' c * (b - a) /\ Rabs (c - a) <= Rabs (b - a) /\ Rabs (c - b) <= Rabs (b - a).
Proof.
  intros D. destruct (Rtotal_order a b) as [L|[->|L]].
  - destruct (MVT_cor2 f f' a b L (fun c _ => D c)) as (c & E & H). exists c. split; [exact E|]. rewrite (Rabs_right (b - a)), (Rabs_right (c - a)), (Rabs_left1 (c - b)) by lra. lra.
  - exists b. rewrite !Rminus_diag_eq, Rabs_R0 by reflexivity. split; [ring|lra].
  - destruct (MVT_cor2 f f' b a L (fun c _ => D c)) as (c & E & H). exists c. split; [lra|]. rewrite (Rabs_left1 (b - a)), (Rabs_left1 (c - a)), (Rabs_right (c - b)) by lra. lra.
Qed.
Lemma cos_lip a b : Rabs (cos a - cos b) <= Rabs (a - b).
Proof.
  destruct (mvt cos (fun x => - sin x) b a) as (c & -> & _); [intros c; apply derivable_pt_lim_cos|].
  rewrite Rabs_mult, Rabs_Ropp. pose proof (SIN_bound c). assert (Rabs (sin c) <= 1) by (apply Rabs_le; lra).
  pose proof (Rabs_pos (a - b)). nra.
Qed.
Lemma residual_deriv e M c : derivable_pt_lim (residual e M) c (1 - e * cos c).
Proof.
  unfold residual. apply derivable_pt_lim_ext with (f := ((fun x => x) - mult_real_fct e sin - fct_cte M)%F).
  - intros x. unfold minus_fct, mult_real_fct, fct_cte. ring.
  - replace (1 - e * cos c) with (1 - e * cos c - 0) by ring. apply derivable_pt_lim_minus; [|apply derivable_pt_lim_const].
    apply derivable_pt_lim_minus; [apply derivable_pt_lim_id|]. apply derivable_pt_lim_scal. apply derivable_pt_lim_sin.
Qed.
Lemma residual_mono e M a b : 0 <= e < 1 -> a < b -> residual e M a < residual e M b.
Proof.
  intros He L. destruct (mvt (residual e M) (fun c => 1 - e * cos c) a b (residual_deriv e M)) as (c & E & _).
  pose proof (slope_pos e c He). nra.
Qed.
Lemma kepler_unique e M X Y : 0 <= e < 1 -> kepler_eq e M X -> kepler_eq e M Y -> X = Y.
Proof.
  unfold kepler_eq. intros He A B. destruct (Rtotal_order X Y) as [L|[E|L]]; [|exact E|];
    apply (residual_mono e M) in L; try exact He; unfold residual in L; lra.
Qed.
Lemma kepler_exists e M : 0 <= e < 1 -> exists X, kepler_eq e M X.
Proof.
  intros He. destruct (IVT (residual e M) (M - 2) (M + 2)) as (X & _ & E); [|lra| | |exists X; unfold residual, kepler_eq in *; lra].
  - intros x. apply derivable_continuous_pt. exists (1 - e * cos x). apply residual_deriv.
  - unfold residual. pose proof (SIN_bound (M - 2)). nra.
  - unfold residual. pose proof (SIN_bound (M + 2)). nra.
Qed.

(* ---- the iteration ---- *)
Definition refine (e M E : R) : R := E - residual e M E / (1 - e * cos E).
Fixpoint iterate (e M : R) (n : nat) (E : R) : R := match n with O => E | S n => iterate e M n (refine e M E) end.

Lemma divide_some a b : b <> 0 -> divide a b = Some (a / b).
Proof. intros H. unfold divide. destruct (Req_EM_T b 0); [contradiction|reflexivity]. Qed.

Lemma newton_spec e M tol : 0 <= e < 1 -> forall left E, (left <= 20)%nat -> exists E' it, newton left e M tol E = Some (E', it) /\
  ((exists j, (j < left)%nat /\ it = (20 - left + j)%nat /\ E' = iterate e M (S j) E /\ Rabs (residual e M (iterate e M j E)) <= tol /\
      forall i, (i < j)%nat -> tol < Rabs (residual e M (iterate e M i E))) \/
   (it = 20%nat /\ E' = iterate e M left E /\ forall i, (i < left)%nat -> tol < Rabs (residual e M (iterate e M i E)))).
Proof.
  intros He. induction left as [|left IH]; intros E L.
  { exists E, 20%nat. split; [reflexivity|]. right. split; [reflexivity|]. split; [reflexivity|]. intros i H. lia. }
  cbn [newton]. rewrite divide_some by (pose proof (slope_pos e E He); lra). fold (residual e M E). fold (refine e M E).
  destruct (Rle_dec (Rabs (residual e M E)) tol) as [A|A].
  - do 2 eexists. split; [reflexivity|]. left. exists 0%nat. split; [lia|]. split; [unfold max_it; lia|]. split; [reflexivity|]. split; [exact A|]. intros i H. lia.
  - destruct (IH (refine e M E) ltac:(lia)) as (E' & it & EQ & [(j & J1 & J2 & J3 & J4 & J5)|(J1 & J2 & J3)]); exists E', it; (split; [exact EQ|]).
    + left. exists (S j). split; [lia|]. split; [lia|]. split; [exact J3|]. split; [exact J4|]. intros [|i] H; [cbn [iterate]; lra|]. apply (J5 i). lia.
    + right. split; [exact J1|]. split; [exact J2|]. intros [|i] H; [cbn [iterate]; lra|]. apply (J3 i). lia.
Qed.

(* where the iteration starts *)
Definition start (e M : R) : R := if Rlt_dec e (8 / 10) then M else PI.
(* the mean anomaly brought to one turn *)
Definition same_angle (x y : R) : Prop := exists k : Z, x = y + 2 * PI * IZR k.

Lemma kepler_spec e M tol : 0 <= e < 1 -> exists E st M', kepler e M tol = Some (E, st) /\ same_angle M' M /\ 0 <= M' < 2 * PI /\
  ((st = 0%Z /\ exists j, (j < 20)%nat /\ E = refine e M' (iterate e M' j (start e M')) /\ Rabs (residual e M' (iterate e M' j (start e M'))) <= tol) \/
   (st = 1%Z /\ E = iterate e M' 20 (start e M') /\ forall j, (j < 20)%nat -> tol < Rabs (residual e M' (iterate e M' j (start e M'))))).
Proof.
  intros He. destruct (arg02pi_spec M) as (k & K1 & K2). unfold kepler. set (M' := arg02pi M) in *.
  assert (IT : forall n E, iterate e M' (S n) E = refine e M' (iterate e M' n E)).
  { induction n as [|n IH]; intros E; [reflexivity|]. change (iterate e M' (S (S n)) E) with (iterate e M' (S n) (refine e M' E)). rewrite IH. reflexivity. }
  destruct (newton_spec e M' tol He max_it (start e M') ltac:(unfold max_it; lia)) as (E & it & EQ & H). unfold start in EQ at 1. rewrite EQ.
  destruct H as [(j & J1 & J2 & J3 & J4 & _)|(J1 & J2 & J3)].
  - exists E, 0%Z, M'. unfold max_it in *. destruct (Nat.leb_spec 20 it); [lia|]. split; [reflexivity|]. split; [exists k; exact K1|]. split; [exact K2|].
    left. split; [reflexivity|]. exists j. split; [exact J1|]. split; [rewrite <- IT; exact J3|exact J4].
  - exists E, 1%Z, M'. unfold max_it in *. destruct (Nat.leb_spec 20 it); [|lia]. split; [reflexivity|]. split; [exists k; exact K1|]. split; [exact K2|].
    right. split; [reflexivity|]. split; [exact J2|exact J3].
Qed.

(* a point of small residual is near the solution, one refinement brings it nearer *)
Lemma near_solution e M tol E X : 0 <= e < 1 -> kepler_eq e M X -> Rabs (residual e M E) <= tol -> (1 - e) * Rabs (E - X) <= tol.
Proof.
  intros He HX HR. destruct (mvt (residual e M) (fun c => 1 - e * cos c) X E (residual_deriv e M)) as (c & EQ & _).
  assert (Z : residual e M X = 0) by (unfold residual, kepler_eq in *; lra). rewrite Z, Rminus_0_r in EQ. rewrite EQ, Rabs_mult in HR.
  pose proof (slope_pos e c He). rewrite (Rabs_right (1 - e * cos c)) in HR by lra. pose proof (Rabs_pos (E - X)). nra.
Qed.
Lemma refine_error e M E X : 0 <= e < 1 -> kepler_eq e M X -> (1 - e) * Rabs (refine e M E - X) <= e * (Rabs (E - X))².
Proof.
  intros He HX. destruct (mvt (residual e M) (fun c => 1 - e * cos c) X E (residual_deriv e M)) as (c & EQ & _ & D).
  assert (Z : residual e M X = 0) by (unfold residual, kepler_eq in *; lra). rewrite Z, Rminus_0_r in EQ.
  pose proof (slope_pos e E He) as S. unfold refine. rewrite EQ.
  replace (E - (1 - e * cos c) * (E - X) / (1 - e * cos E) - X) with ((E - X) * (e * (cos c - cos E)) / (1 - e * cos E)) by (field; lra).
  unfold Rdiv. rewrite !Rabs_mult, (Rabs_right e) by lra. rewrite (Rabs_right (/ (1 - e * cos E))) by (apply Rle_ge, Rlt_le, Rinv_0_lt_compat; lra).
  pose proof (cos_lip c E) as L. set (d := Rabs (E - X)) in *. set (g := Rabs (cos c - cos E)) in *. assert (G : 0 <= g <= d) by (split; [apply Rabs_pos|lra]).
  assert (I : (1 - e) * / (1 - e * cos E) <= 1).
  { apply Rmult_le_reg_r with (1 - e * cos E); [lra|]. rewrite Rmult_assoc, Rinv_l by lra. lra. }
  assert (I0 : 0 < / (1 - e * cos E)) by (apply Rinv_0_lt_compat; lra). assert (D0 : 0 <= d) by apply Rabs_pos.
  replace ((1 - e) * (d * (e * g) * / (1 - e * cos E))) with ((e * (d * g)) * ((1 - e) * / (1 - e * cos E))) by ring.
  apply Rle_trans with (e * (d * g) * 1); [apply Rmult_le_compat_l; [apply Rmult_le_pos; [lra|apply Rmult_le_pos; lra]|exact I]|].
  rewrite Rmult_1_r. apply Rmult_le_compat_l; [lra|]. unfold Rsqr. apply Rmult_le_compat_l; lra.
Qed.
Lemma kepler_error e M tol : 0 <= e < 1 -> exists E st M', kepler e M tol = Some (E, st) /\ same_angle M' M /\ 0 <= M' < 2 * PI /\
  (st = 0%Z -> exists X, kepler_eq e M' X /\ (1 - e) ^ 3 * Rabs (E - X) <= e * tol ^ 2).
Proof.
  intros He. destruct (kepler_spec e M tol He) as (E & st & M' & EQ & SA & RG & H). exists E, st, M'. split; [exact EQ|]. split; [exact SA|]. split; [exact RG|].
  intros ->. destruct H as [(_ & j & _ & -> & HR)|(X & _)]; [|discriminate]. destruct (kepler_exists e M' He) as (X & HX). exists X. split; [exact HX|].
  set (E0 := iterate e M' j (start e M')) in *. pose proof (near_solution e M' tol E0 X He HX HR) as N. pose proof (refine_error e M' E0 X He HX) as F.
  pose proof (Rabs_pos (E0 - X)) as P. set (d := Rabs (E0 - X)) in *. set (q := Rabs (refine e M' E0 - X)) in *. unfold Rsqr in F.
  assert (S : ((1 - e) * d) * ((1 - e) * d) <= tol * tol) by (apply Rmult_le_compat; nra).
  replace ((1 - e) ^ 3 * q) with ((1 - e) * (1 - e) * ((1 - e) * q)) by ring. apply Rle_trans with ((1 - e) * (1 - e) * (e * (d * d))); [apply Rmult_le_compat_l; [nra|exact F]|].
  replace ((1 - e) * (1 - e) * (e * (d * d))) with (e * ((1 - e) * d * ((1 - e) * d))) by ring. replace (tol ^ 2) with (tol * tol) by ring. apply Rmult_le_compat_l; lra.
Qed.

(* the variant that stops on small steps *)
Lemma newton_v_spec e M tol : 0 <= e < 1 -> forall left E, (left <= 20)%nat -> exists E' it, newton_v left e M tol E = Some (E', it) /\
  ((exists j, (j < left)%nat /\ it = (20 - left + j)%nat /\ E' = refine e M (iterate e M j E) /\ Rabs (iterate e M j E - E') <= tol) \/
   (it = 20%nat /\ E' = iterate e M left E /\ forall i, (i < left)%nat -> tol < Rabs (iterate e M i E - refine e M (iterate e M i E)))).
Proof.
  intros He. induction left as [|left IH]; intros E L.
  { exists E, 20%nat. split; [reflexivity|]. right. split; [reflexivity|]. split; [reflexivity|]. intros i H. lia. }
  cbn [newton_v]. pose proof (slope_pos e E He). rewrite divide_some by lra.
  assert (R1 : E + (M - E + e * sin E) / (1 - e * cos E) = refine e M E) by (unfold refine, residual; field; lra). rewrite R1.
  destruct (Rle_dec (Rabs (E - refine e M E)) tol) as [A|A].
  - do 2 eexists. split; [reflexivity|]. left. exists 0%nat. split; [lia|]. split; [unfold max_it; lia|]. split; [reflexivity|exact A].
  - destruct (IH (refine e M E) ltac:(lia)) as (E' & it & EQ & [(j & J1 & J2 & J3 & J4)|(J1 & J2 & J3)]); exists E', it; (split; [exact EQ|]).
    + left. exists (S j). split; [lia|]. split; [lia|]. split; [exact J3|exact J4].
    + right. split; [exact J1|]. split; [exact J2|]. intros [|i] H'; [cbn [iterate]; lra|]. apply (J3 i). lia.
Qed.
Lemma kepler_vallado_spec e M tol : 0 <= e < 1 -> exists E st M', kepler_vallado e M tol = Some (E, st) /\ same_angle M' M /\ 0 <= M' < 2 * PI /\
  (st = 0%Z \/ st = 1%Z) /\
  (st = 0%Z -> exists E0 X, E = refine e M' E0 /\ Rabs (residual e M' E0) <= (1 + e) * tol /\ kepler_eq e M' X /\ (1 - e) ^ 3 * Rabs (E - X) <= e * ((1 + e) * tol) ^ 2).
Proof.
  intros He. destruct (arg02pi_spec M) as (k & K1 & K2). unfold kepler_vallado. set (M' := arg02pi M) in *.
  match goal with |- context [newton_v max_it e M' tol ?s] => destruct (newton_v_spec e M' tol He max_it s ltac:(unfold max_it; lia)) as (E & it & EQ & H); set (E1 := s) in * end. rewrite EQ.
  exists E, (if Nat.leb max_it it then 1%Z else 0%Z), M'. split; [reflexivity|]. split; [exists k; exact K1|]. split; [exact K2|].
  unfold max_it in *. destruct (Nat.leb_spec 20 it) as [L|L]; [split; [auto|discriminate]|]. split; [auto|]. intros _.
  destruct H as [(j & J1 & J2 & J3 & J4)|(J1 & _)]; [|lia]. set (E0 := iterate e M' j E1) in *. destruct (kepler_exists e M' He) as (X & HX). exists E0, X.
  pose proof (slope_pos e E0 He) as S.
  assert (HR : Rabs (residual e M' E0) <= (1 + e) * tol).
  { assert (D : residual e M' E0 = (E0 - E) * (1 - e * cos E0)) by (rewrite J3; unfold refine; field; lra).
    rewrite D, Rabs_mult, (Rabs_right (1 - e * cos E0)) by lra. pose proof (Rabs_pos (E0 - E)). nra. }
  split; [exact J3|]. split; [exact HR|]. split; [exact HX|]. subst E. pose proof (near_solution e M' _ E0 X He HX HR) as N. pose proof (refine_error e M' E0 X He HX) as F.
  pose proof (Rabs_pos (E0 - X)) as P. set (d := Rabs (E0 - X)) in *. set (q := Rabs (refine e M' E0 - X)) in *. unfold Rsqr in F. set (t := (1 + e) * tol) in *.
  assert (SQ : ((1 - e) * d) * ((1 - e) * d) <= t * t) by (apply Rmult_le_compat; nra).
  replace ((1 - e) ^ 3 * q) with ((1 - e) * (1 - e) * ((1 - e) * q)) by ring. apply Rle_trans with ((1 - e) * (1 - e) * (e * (d * d))); [apply Rmult_le_compat_l; [nra|exact F]|].
  replace ((1 - e) * (1 - e) * (e * (d * d))) with (e * ((1 - e) * d * ((1 - e) * d))) by ring. replace (t ^ 2) with (t * t) by ring. apply Rmult_le_compat_l; lra.
Qed.

(* ---- the orbit plane ---- *)
Lemma pqw_turns Omega i omega : pqw Omega i omega = mulm (mulm (turn_z Omega) (turn_x i)) (turn_z omega).
Proof. unfold pqw. vec_ring. Qed.
Lemma pqw_orth Omega i omega : orthogonal (pqw Omega i omega).
Proof. rewrite pqw_turns. apply orth_mulm; [apply orth_mulm|]; auto using turn_z_orth, turn_x_orth. Qed.
Lemma pqw_direct Omega i omega : direct (pqw Omega i omega).
Proof. rewrite pqw_turns. apply direct_mulm; [apply direct_mulm|]; auto using turn_z_direct, turn_x_direct. Qed.

(* the eccentricity vector of a state *)
Definition ecc_vector (GM : R) (s : state) : vec :=
  vsub (vscale (/ GM) (cross (st_v s) (cross (st_r s) (st_v s)))) (vscale (/ norm (st_r s)) (st_r s)).
(* direction of the ascending node, of the orbit normal and of the point omega past the node *)
Definition node_dir (Omega : R) : vec := V (cos Omega) (sin Omega) 0.
Definition normal_dir (Omega i : R) : vec := V (sin Omega * sin i) (- (cos Omega * sin i)) (cos i).
Definition perigee_dir (Omega i omega : R) : vec :=
  vadd (vscale (cos omega) (node_dir Omega)) (vscale (sin omega) (cross (normal_dir Omega i) (node_dir Omega))).

(* a state on the conic of the elements, at eccentric anomaly E *)
Definition on_conic (GM : R) (el : elements) (E : R) (s : state) : Prop :=
  let a := el_a el in let e := el_e el in
  norm (st_r s) = a * (1 - e * cos E) /\
  dot (st_v s) (st_v s) = GM * (2 / norm (st_r s) - 1 / a) /\
  dot (st_r s) (st_v s) = sqrt (GM * a) * (e * sin E) /\
  cross (st_r s) (st_v s) = vscale (sqrt (GM * a * (1 - e * e))) (normal_dir (el_Omega el) (el_i el)) /\
  ecc_vector GM s = vscale e (perigee_dir (el_Omega el) (el_i el) (el_omega el)).

Lemma perifocal_facts GM E e a : 0 < GM -> 0 < a -> 0 <= e < 1 ->
  let p := perifocal GM E e a in
  norm (st_r p) = a * (1 - e * cos E) /\
  dot (st_v p) (st_v p) = GM * (2 / (a * (1 - e * cos E)) - 1 / a) /\
  dot (st_r p) (st_v p) = sqrt (GM * a) * (e * sin E) /\
  cross (st_r p) (st_v p) = V 0 0 (sqrt (GM * a * (1 - e * e))) /\
  ecc_vector GM p = V e 0 0.
Proof.
  intros G A He p. pose proof (slope_pos e E He) as S. set (w := 1 - e * cos E) in *. pose proof (cos2_sin2 E) as CS.
  assert (F2 : sqrt ((1 - e) * (1 + e)) * sqrt ((1 - e) * (1 + e)) = (1 - e) * (1 + e)) by (apply sqrt_sqrt; nra).
  assert (K2 : sqrt (GM * a) * sqrt (GM * a) = GM * a) by (apply sqrt_sqrt; nra).
  assert (HK : sqrt (GM * a * (1 - e * e)) = sqrt (GM * a) * sqrt ((1 - e) * (1 + e))).
  { rewrite <- sqrt_mult by nra. f_equal. ring. }
  assert (W0 : w <> 0) by lra. assert (A0 : a <> 0) by lra. assert (G0 : GM <> 0) by lra.
  set (f := sqrt ((1 - e) * (1 + e))) in *. set (k := sqrt (GM * a)) in *.
  assert (EP : p = State (V (a * (cos E - e)) (a * f * sin E) 0) (V (- (k / (a * w)) * sin E) (k / (a * w) * f * cos E) 0)) by reflexivity.
  assert (N : norm (st_r p) = a * w).
  { apply norm_unique; [apply Rmult_le_pos; lra|]. rewrite EP. cbn [st_r]. unfold dot. cbn [vx vy vz]. unfold w.
    replace (a * (cos E - e) * (a * (cos E - e)) + a * f * sin E * (a * f * sin E) + 0 * 0) with (a * a * ((cos E - e) * (cos E - e) + f * f * (sin E * sin E))) by ring.
    rewrite F2. ring [CS]. }
  assert (C : cross (st_r p) (st_v p) = V 0 0 (k * f)).
  { rewrite EP. cbn [st_r st_v]. apply vec_eq; unfold cross; cbn [vx vy vz]; [ring|ring|].
    replace (a * (cos E - e) * (k / (a * w) * f * cos E) - a * f * sin E * (- (k / (a * w)) * sin E)) with (k * f / w * (cos E * cos E - e * cos E + sin E * sin E)) by (field; lra).
    replace (cos E * cos E - e * cos E + sin E * sin E) with w by (unfold w; ring [CS]). field. lra. }
  split; [exact N|]. split; [|split; [|split; [rewrite HK; exact C|]]].
  - rewrite EP. cbn [st_v]. unfold dot. cbn [vx vy vz].
    replace (- (k / (a * w)) * sin E * (- (k / (a * w)) * sin E) + k / (a * w) * f * cos E * (k / (a * w) * f * cos E) + 0 * 0)
      with (k * k / (a * w * (a * w)) * (sin E * sin E + f * f * (cos E * cos E))) by (field; lra).
    rewrite K2, F2. replace (sin E * sin E + (1 - e) * (1 + e) * (cos E * cos E)) with (w * (2 - w)) by (unfold w; ring [CS]). field. lra.
  - rewrite EP. cbn [st_r st_v]. unfold dot. cbn [vx vy vz].
    replace (a * (cos E - e) * (- (k / (a * w)) * sin E) + a * f * sin E * (k / (a * w) * f * cos E) + 0 * 0)
      with (k * sin E / w * (- cos E + e + f * f * cos E)) by (field; lra).
    rewrite F2. replace (- cos E + e + (1 - e) * (1 + e) * cos E) with (e * w) by (unfold w; ring). field. lra.
  - unfold ecc_vector. rewrite C, N, EP. cbn [st_r st_v]. apply vec_eq; unfold vsub, vscale, cross; cbn [vx vy vz].
    + replace (/ GM * (k / (a * w) * f * cos E * (k * f) - 0 * 0)) with (k * k / GM * (f * f * cos E / (a * w))) by (field; lra).
      rewrite K2, F2. replace (GM * a / GM * ((1 - e) * (1 + e) * cos E / (a * w)) - / (a * w) * (a * (cos E - e))) with (((1 - e) * (1 + e) * cos E - (cos E - e)) / w) by (field; lra).
      replace ((1 - e) * (1 + e) * cos E - (cos E - e)) with (e * w) by (unfold w; ring). field. lra.
    + replace (/ GM * (0 * 0 - - (k / (a * w)) * sin E * (k * f))) with (k * k / GM * (f * sin E / (a * w))) by (field; lra).
      rewrite K2. field. lra.
    + ring.
Qed.

Lemma conic_state GM el E : 0 < GM -> 0 < el_a el -> 0 <= el_e el < 1 ->
  let p := perifocal GM E (el_e el) (el_a el) in let T := pqw (el_Omega el) (el_i el) (el_omega el) in
  on_conic GM el E (State (mulv T (st_r p)) (mulv T (st_v p))).
Proof.
  intros G A He p T. destruct (perifocal_facts GM E (el_e el) (el_a el) G A He) as (N & VV & RV & C & EV). fold p in N, VV, RV, C, EV.
  assert (O : orthogonal T) by apply pqw_orth. assert (D : direct T) by apply pqw_direct.
  unfold on_conic. cbn [st_r st_v]. rewrite (orth_norm T _ O), !(orth_dot T _ _ O), N. split; [reflexivity|]. split; [exact VV|]. split; [exact RV|].
  rewrite D, C. split.
  - unfold T, pqw, normal_dir. apply vec_eq; unfold mulv, mat9, vscale, dot; cbn [row0 row1 row2 vx vy vz]; ring.
  - unfold ecc_vector. cbn [st_r st_v]. rewrite !D, (orth_norm T _ O), <- !mulv_scale, <- mulv_sub. fold (ecc_vector GM p). rewrite EV.
    unfold T, pqw, perigee_dir, normal_dir, node_dir. pose proof (cos2_sin2 (el_Omega el)) as H.
    apply vec_eq; unfold mulv, mat9, vscale, vadd, cross, dot; cbn [row0 row1 row2 vx vy vz]; ring [H].
Qed.

Lemma anomaly_some GM el dt : 0 <= el_e el < 1 -> exists E ok, anomaly GM el dt = Some (E, ok).
Proof. intros He. unfold anomaly. destruct (kepler_spec (el_e el) (el_M el + sqrt (GM / (el_a el * el_a el * el_a el)) * dt) kepler_tol He) as (E & st & _ & -> & _). eauto. Qed.

Lemma elements2state_spec el dt GM : 0 < GM -> 0 < el_a el -> 0 <= el_e el < 1 ->
  exists s ok E, elements2state el dt GM = Some (s, ok) /\ on_conic GM el E s /\
    (ok = 0%Z -> exists M' X, same_angle M' (el_M el + sqrt (GM / el_a el ^ 3) * dt) /\ kepler_eq (el_e el) M' X /\
       (1 - el_e el) ^ 3 * Rabs (E - X) <= el_e el * (100 / 2 ^ 52) ^ 2).
Proof.
  intros G A He. unfold elements2state, anomaly.
  destruct (kepler_error (el_e el) (el_M el + sqrt (GM / (el_a el * el_a el * el_a el)) * dt) kepler_tol He) as (E & st & M' & -> & SA & _ & ACC).
  do 3 eexists. split; [reflexivity|]. split; [apply conic_state; assumption|]. intros Z. destruct (ACC Z) as (X & HX & HB). exists M', X.
  replace (el_a el ^ 3) with (el_a el * el_a el * el_a el) by ring. split; [exact SA|]. split; [exact HX|exact HB].
Qed.

(* ---- agreement of the functions ---- *)
Lemma propagate_agrees GM el dt : propagate_state GM el dt = match elements2state el dt GM with None => None | Some (s, _) => Some s end.
Proof. unfold propagate_state, elements2state. destruct (anomaly GM el dt) as [[E ok]|]; [|reflexivity]. rewrite pqw_turns. reflexivity. Qed.
Lemma eigen_matrix Omega i omega : transpose (mulm (mulm (turn_z (- Omega)) (turn_x (- i))) (turn_z (- omega))) = pqw omega i Omega.
Proof. unfold pqw. vec_unfold. rewrite !cos_neg, !sin_neg. vec_ring. Qed.
(* the Eigen overload is the other function with node and perigee exchanged *)
Lemma eigen_swaps GM dt el : elements2state_eigen GM dt el = elements2state (Ele (el_a el) (el_e el) (el_i el) (el_omega el) (el_Omega el) (el_M el)) dt GM.
Proof. unfold elements2state_eigen, elements2state, anomaly. cbn [el_a el_e el_i el_Omega el_omega el_M]. destruct (kepler _ _ _) as [[E ok]|]; [|reflexivity]. rewrite eigen_matrix. reflexivity. Qed.
Lemma equatorial_agrees GM el dt p : cos (el_Omega el) = cos (el_omega el) -> sin (el_Omega el) = sin (el_omega el) -> elements2perifocal GM el dt = Some p ->
  propagate_state GM el dt = Some (perifocal2equatorial el p) /\ equatorial2perifocal el (perifocal2equatorial el p) = p.
Proof.
  intros C S E. assert (T : perifocal2equatorial_matrix (el_Omega el) (el_omega el) (el_i el) = pqw (el_Omega el) (el_i el) (el_omega el)).
  { unfold perifocal2equatorial_matrix, pqw. rewrite C, S. reflexivity. }
  split.
  - rewrite propagate_agrees. unfold elements2perifocal, elements2state in *. destruct (anomaly GM el dt) as [[X ok]|]; [|discriminate]. injection E as <-. unfold perifocal2equatorial. rewrite T. reflexivity.
  - unfold equatorial2perifocal, perifocal2equatorial. cbn [st_r st_v]. rewrite T, !orth_back by apply pqw_orth. destruct p. reflexivity.
Qed.

(* ---- atan2 ---- *)
Lemma atan2_spec x y : x * x + y * y <> 0 -> let t := atan2 y x in let rho := sqrt (x * x + y * y) in
  rho * cos t = x /\ rho * sin t = y /\ - PI < t <= PI.
Proof.
  intros NZ t rho. pose proof PI_RGT_0 as PI0.
  assert (P : 0 < x * x + y * y) by (pose proof (Rle_0_sqr x); pose proof (Rle_0_sqr y); unfold Rsqr in *; lra).
  assert (Q : forall z, 0 < z -> sqrt (1 + (y / x) * (y / x)) * z = sqrt (z * z * (1 + (y / x) * (y / x)))).
  { intros z Hz. rewrite (Rmult_comm (sqrt _)), (sqrt_mult (z * z)) by (try nra; pose proof (Rle_0_sqr (y / x)); unfold Rsqr in *; lra). rewrite sqrt_square by lra. reflexivity. }
  assert (AT : forall z, 0 < cos (atan z) /\ cos (atan z) * sqrt (1 + z * z) = 1 /\ sin (atan z) = z * cos (atan z)).
  { intros z. pose proof (atan_bound z) as [B1 B2]. assert (C : 0 < cos (atan z)) by (apply cos_gt_0; lra).
    assert (T : sin (atan z) = z * cos (atan z)) by (rewrite <- (tan_atan z) at 2; unfold tan; field; lra).
    split; [exact C|]. split; [|exact T]. pose proof (sin2_cos2 (atan z)) as SC. unfold Rsqr in SC. rewrite T in SC.
    assert (K : (cos (atan z) * cos (atan z)) * (1 + z * z) = 1) by nra.
    rewrite <- (sqrt_square (cos (atan z))) at 1 by lra. rewrite <- sqrt_mult by (try nra; pose proof (Rle_0_sqr z); unfold Rsqr in *; lra). rewrite K. apply sqrt_1. }
  unfold t, atan2. destruct (Rlt_dec 0 x) as [X|X].
  - destruct (AT (y / x)) as (C & K & S). pose proof (atan_bound (y / x)).
    assert (RX : rho = sqrt (1 + y / x * (y / x)) * x) by (rewrite Q by exact X; unfold rho; f_equal; field; lra).
    rewrite S, RX. split; [|split; [|lra]].
    + replace (sqrt (1 + y / x * (y / x)) * x * cos (atan (y / x))) with (cos (atan (y / x)) * sqrt (1 + y / x * (y / x)) * x) by ring. rewrite K. ring.
    + replace (sqrt (1 + y / x * (y / x)) * x * (y / x * cos (atan (y / x)))) with (cos (atan (y / x)) * sqrt (1 + y / x * (y / x)) * (x * (y / x))) by ring. rewrite K. field. lra.
  - destruct (Rlt_dec x 0) as [X2|X2].
    + destruct (AT (y / x)) as (C & K & S). pose proof (atan_bound (y / x)) as AB.
      assert (RX : rho = sqrt (1 + y / x * (y / x)) * - x) by (rewrite Q by lra; unfold rho; f_equal; field; lra).
      destruct (Rle_dec 0 y) as [Y|Y].
      * rewrite neg_cos, neg_sin, S, RX. split; [|split].
        -- replace (sqrt (1 + y / x * (y / x)) * - x * - cos (atan (y / x))) with (cos (atan (y / x)) * sqrt (1 + y / x * (y / x)) * x) by ring. rewrite K. ring.
        -- replace (sqrt (1 + y / x * (y / x)) * - x * - (y / x * cos (atan (y / x)))) with (cos (atan (y / x)) * sqrt (1 + y / x * (y / x)) * (x * (y / x))) by ring. rewrite K. field. lra.
        -- split; [lra|]. assert (atan (y / x) <= 0); [|lra]. rewrite <- atan_0. assert (y / x <= 0) as D by (unfold Rdiv; pose proof (Rinv_lt_0_compat x X2); nra).
           destruct D as [D|D]; [left; apply atan_increasing; exact D|right; rewrite D; reflexivity].
      * assert (E1 : forall z, cos (z - PI) = - cos z) by (intros z; replace (z - PI) with (- (PI - z)) by ring; rewrite cos_neg, Rtrigo_facts.cos_pi_minus; reflexivity).
        assert (E2 : forall z, sin (z - PI) = - sin z) by (intros z; replace (z - PI) with (- (PI - z)) by ring; rewrite sin_neg, Rtrigo_facts.sin_pi_minus; reflexivity).
        rewrite E1, E2, S, RX. split; [|split].
        -- replace (sqrt (1 + y / x * (y / x)) * - x * - cos (atan (y / x))) with (cos (atan (y / x)) * sqrt (1 + y / x * (y / x)) * x) by ring. rewrite K. ring.
        -- replace (sqrt (1 + y / x * (y / x)) * - x * - (y / x * cos (atan (y / x)))) with (cos (atan (y / x)) * sqrt (1 + y / x * (y / x)) * (x * (y / x))) by ring. rewrite K. field. lra.
        -- split; [|lra]. assert (0 < atan (y / x)); [|lra]. rewrite <- atan_0. apply atan_increasing. unfold Rdiv. pose proof (Rinv_lt_0_compat x X2). nra.
    + assert (x = 0) as -> by lra. assert (RY : rho = Rabs y) by (unfold rho; rewrite <- (sqrt_Rsqr_abs y); f_equal; unfold Rsqr; ring).
      destruct (Rlt_dec 0 y) as [Y|Y].
      * rewrite cos_PI2, sin_PI2, RY, Rabs_right by lra. split; [ring|split; [ring|lra]].
      * destruct (Rlt_dec y 0) as [Y2|Y2]; [|assert (y = 0) as -> by lra; exfalso; lra].
        rewrite cos_neg, sin_neg, cos_PI2, sin_PI2, RY, Rabs_left by lra. split; [ring|split; [ring|lra]].
Qed.

Lemma atan2_dir x y rho : 0 < rho -> x * x + y * y = rho * rho -> cos (atan2 y x) = x / rho /\ sin (atan2 y x) = y / rho.
Proof.
  intros P E. assert (NZ : x * x + y * y <> 0) by (rewrite E; nra). destruct (atan2_spec x y NZ) as (A & B & _).
  rewrite E, sqrt_square in A, B by lra. split; [rewrite <- A at 2|rewrite <- B at 2]; field; lra.
Qed.
Lemma cos_turns t k : cos (t + 2 * PI * IZR k) = cos t /\ sin (t + 2 * PI * IZR k) = sin t.
Proof.
  assert (P : forall n t, cos (t + 2 * PI * IZR (Z.of_nat n)) = cos t /\ sin (t + 2 * PI * IZR (Z.of_nat n)) = sin t).
  { intros n t0. rewrite <- INR_IZR_INZ. replace (t0 + 2 * PI * INR n) with (t0 + 2 * INR n * PI) by ring. split; [apply cos_period|apply sin_period]. }
  destruct (Z.le_gt_cases 0 k) as [K|K].
  - rewrite <- (Z2Nat.id k K). apply P.
  - destruct (P (Z.to_nat (- k)) (t + 2 * PI * IZR k)) as [A B]. rewrite Z2Nat.id in A, B by lia.
    rewrite opp_IZR in A, B. replace (t + 2 * PI * IZR k + 2 * PI * - IZR k) with t in A, B by ring. split; congruence.
Qed.
Lemma norm_angle_spec a : same_angle (norm_angle a) a /\ 0 <= norm_angle a < 2 * PI.
Proof.
  unfold norm_angle. pose proof two_pi_pos as P. pose proof (Int_part_bounds (a / two_pi)) as [A B]. set (k := Int_part (a / two_pi)) in *.
  assert (Q : a - IZR k * two_pi = (a / two_pi - IZR k) * two_pi) by (field; lra). split.
  - exists (- k)%Z. rewrite opp_IZR. unfold two_pi. ring.
  - change (2 * PI) with two_pi. rewrite Q. split; nra.
Qed.
Lemma same_angle_cs x y : same_angle x y -> cos x = cos y /\ sin x = sin y.
Proof. intros (k & ->). apply cos_turns. Qed.

(* what a state must be to have elements: bound, not on a line, not in the equator *)
Definition regular (GM : R) (r v : vec) : Prop :=
  0 < GM /\ dot v v < 2 * GM / norm r /\ (vx (cross r v) <> 0 \/ vy (cross r v) <> 0).
(* the state of elements at eccentric anomaly E *)
Definition state_of (GM E : R) (el : elements) : state :=
  let p := perifocal GM E (el_e el) (el_a el) in let T := pqw (el_Omega el) (el_i el) (el_omega el) in
  State (mulv T (st_r p)) (mulv T (st_v p)).
Lemma cancel_div b c : b <> 0 -> b * (c / b) = c. Proof. intros. field. assumption. Qed.
Lemma nu_cos e c q cE : e <> 0 -> 1 - c <> 0 -> e * cE = c -> e * e = q -> (1 - c) * ((c - q) / (e * (1 - c))) = cE - e.
Proof. intros E C A B. rewrite <- B. rewrite <- A at 2. field. split; assumption. Qed.
Lemma nu_sin e c s k sE : e <> 0 -> 1 - c <> 0 -> e * sE = s -> (1 - c) * (k * s / (e * (1 - c))) = k * sE.
Proof. intros E C A. rewrite <- A. field. split; assumption. Qed.
Lemma sqr_pos x : x <> 0 -> 0 < x * x. Proof. intros H. nra. Qed.

Lemma squares_zero x y : x * x + y * y = 0 -> x = 0 /\ y = 0.
Proof. intros E. pose proof (Rle_0_sqr x) as A. pose proof (Rle_0_sqr y) as B. unfold Rsqr in *. split; apply Rsqr_0_uniq; unfold Rsqr; lra. Qed.

Section Orbit.
Variables (GM : R) (r v : vec).
Hypothesis REG : regular GM r v.
Local Notation h := (cross r v).
Local Notation H := (norm h).
Local Notation R := (norm r).
Local Notation rho := (sqrt (vx h * vx h + vy h * vy h)).
Local Notation a := (1 / (2 / R - dot v v / GM)).
Local Notation ec := (1 - R / a).
Local Notation es := (dot r v / sqrt (GM * a)).
Local Notation e2 := (ec * ec + es * es).

Lemma orb_rho : 0 < rho /\ rho * rho = vx h * vx h + vy h * vy h /\ H * H = rho * rho + vz h * vz h /\ 0 < H /\ 0 < R.
Proof.
  destruct REG as (G & B & N). assert (P : 0 < vx h * vx h + vy h * vy h) by (destruct N as [N|N]; apply sqr_pos in N; pose proof (Rle_0_sqr (vx h)); pose proof (Rle_0_sqr (vy h)); unfold Rsqr in *; lra).
  assert (Q : rho * rho = vx h * vx h + vy h * vy h) by (apply sqrt_sqrt; lra). split; [apply sqrt_lt_R0; exact P|]. split; [exact Q|].
  assert (HH : H * H = rho * rho + vz h * vz h) by (rewrite norm_sqr, Q; unfold dot; ring). split; [exact HH|]. split.
  - apply norm_pos. intros E. rewrite E in P. cbn [vzero vx vy] in P. lra.
  - apply norm_pos. intros E. rewrite E in P. unfold cross, vzero in P. cbn [vx vy vz] in P. lra.
Qed.
Lemma orb_a : 0 < GM /\ 0 < a /\ dot v v = GM * (2 / R - 1 / a) /\ sqrt (GM * a) * sqrt (GM * a) = GM * a /\ 0 < sqrt (GM * a).
Proof.
  destruct REG as (G & B & _). destruct orb_rho as (_ & _ & _ & _ & R0).
  assert (D : 0 < 2 / R - dot v v / GM).
  { replace (2 / R - dot v v / GM) with ((2 * GM / R - dot v v) / GM) by (field; lra). apply Rdiv_lt_0_compat; lra. }
  assert (A : 0 < a) by (apply Rdiv_lt_0_compat; lra). split; [exact G|]. split; [exact A|]. split.
  { assert (I : 1 / a = 2 / R - dot v v / GM) by (set (d := 2 / R - dot v v / GM) in *; field; lra). rewrite I. field. lra. }
  split; [apply sqrt_sqrt; nra|apply sqrt_lt_R0; nra].
Qed.
Lemma orb_h : H * H = GM * a * (1 - e2).
Proof.
  destruct orb_rho as (_ & _ & _ & _ & R0). destruct orb_a as (G & A & VV & K & K0). set (aa := a) in *. rewrite norm_sqr, cross_dot, <- (norm_sqr r), VV.
  replace (dot r v / sqrt (GM * aa) * (dot r v / sqrt (GM * aa))) with (dot r v * dot r v / (sqrt (GM * aa) * sqrt (GM * aa))) by (field; lra).
  rewrite K. set (s := dot r v). field. lra.
Qed.
Lemma orb_e : 0 <= e2 < 1.
Proof.
  destruct orb_rho as (_ & _ & _ & H0 & R0). destruct orb_a as (G & A & VV & K & K0). pose proof orb_h as HH. split.
  - pose proof (Rle_0_sqr ec). pose proof (Rle_0_sqr es). unfold Rsqr in *. lra.
  - assert (0 < 1 - e2); [|lra]. apply Rmult_lt_reg_l with (GM * a); [nra|]. rewrite Rmult_0_r, <- orb_h. nra.
Qed.

Let el := state2elements r v GM.
Lemma orb_angles : let u := atan2 (vz r * H) (- vx r * vy h + vy r * vx h) in
  let nu := atan2 (sqrt (1 - e2) * es) (ec - e2) in let E := atan2 es ec in
  cos (el_i el) = vz h / H /\ sin (el_i el) = rho / H /\
  cos (el_Omega el) = - vy h / rho /\ sin (el_Omega el) = vx h / rho /\
  cos u = (- vx r * vy h + vy r * vx h) / (R * rho) /\ sin u = vz r * H / (R * rho) /\
  el_e el * cos E = ec /\ el_e el * sin E = es /\
  (1 - ec) * cos nu = cos E - el_e el /\ (1 - ec) * sin nu = sqrt (1 - e2) * sin E /\
  same_angle (el_omega el) (u - nu) /\ same_angle (el_M el) (E - es) /\ el_e el * el_e el = e2 /\ 0 <= el_e el < 1 /\ el_a el = a.
Proof.
  intros u nu E. destruct orb_rho as (P & PP & HH & H0 & R0). destruct orb_a as (G & A & VV & K & K0). pose proof orb_e as [E0 E1].
  assert (EE : el_e el * el_e el = e2) by (apply sqrt_sqrt; lra). assert (EP : 0 <= el_e el) by apply sqrt_pos.
  destruct (atan2_dir (vz h) rho H H0 ltac:(lra)) as [I1 I2].
  destruct (atan2_dir (- vy h) (vx h) rho P ltac:(rewrite PP; ring)) as [O1 O2].
  destruct (same_angle_cs _ _ (proj1 (norm_angle_spec (atan2 (vx h) (- vy h))))) as [O3 O4].
  split; [exact I1|]. split; [exact I2|]. split; [unfold el; cbn [state2elements el_Omega]; rewrite O3; exact O1|]. split; [unfold el; cbn [state2elements el_Omega]; rewrite O4; exact O2|].
  destruct (atan2_dir (- vx r * vy h + vy r * vx h) (vz r * H) (R * rho) ltac:(nra)) as [U1 U2].
  { replace (vz r * H * (vz r * H)) with (vz r * vz r * (H * H)) by ring. rewrite HH. replace (R * rho * (R * rho)) with ((R * R) * (rho * rho)) by ring. rewrite PP, norm_sqr.
    assert (T : vx r * vx h + vy r * vy h + vz r * vz h = 0) by apply cross_orth1.
    assert (T2 : (vz r * vz h) * (vz r * vz h) = (vx r * vx h + vy r * vy h) * (vx r * vx h + vy r * vy h)) by (replace (vz r * vz h) with (- (vx r * vx h + vy r * vy h)) by lra; ring).
    unfold dot. replace (vz r * vz r * (vx h * vx h + vy h * vy h + vz h * vz h)) with (vz r * vz r * (vx h * vx h + vy h * vy h) + vz r * vz h * (vz r * vz h)) by ring. rewrite T2. ring. }
  split; [exact U1|]. split; [exact U2|].
  assert (RA : 0 < 1 - ec) by (replace (1 - ec) with (R / a) by ring; apply Rdiv_lt_0_compat; lra).
  assert (SQ : sqrt (1 - e2) * sqrt (1 - e2) = 1 - e2) by (apply sqrt_sqrt; lra).
  cut (el_e el * cos E = ec /\ el_e el * sin E = es /\ (1 - ec) * cos nu = cos E - el_e el /\ (1 - ec) * sin nu = sqrt (1 - e2) * sin E).
  { intros (Y1 & Y2 & N1 & N2). split; [exact Y1|]. split; [exact Y2|]. split; [exact N1|]. split; [exact N2|]. split; [apply norm_angle_spec|]. split; [apply norm_angle_spec|]. split; [exact EE|]. split; [split; [exact EP|nra]|reflexivity]. }
  destruct (Req_dec (el_e el) 0) as [ZE|NE].
  { assert (Q : e2 = 0) by (rewrite <- EE, ZE; ring). assert (Q1 : ec = 0) by (apply (proj1 (squares_zero ec es Q))). assert (Q2 : es = 0) by (apply (proj2 (squares_zero ec es Q))).
    assert (A0 : atan2 0 0 = 0) by (unfold atan2; destruct (Rlt_dec 0 0); [lra|reflexivity]).
    assert (QE : E = 0) by (unfold E; rewrite Q1, Q2; exact A0). assert (QN : nu = 0) by (unfold nu; rewrite Q, Q1, Q2, Rmult_0_r, Rminus_0_r; exact A0).
    rewrite QE, QN, ZE, Q1, Q2, cos_0, sin_0. repeat split; ring. }
  destruct (atan2_dir ec es (el_e el) ltac:(lra) ltac:(rewrite EE; ring)) as [X1 X2]. fold E in X1, X2.
  assert (Y1 : el_e el * cos E = ec) by (rewrite X1; apply cancel_div; lra). assert (Y2 : el_e el * sin E = es) by (rewrite X2; apply cancel_div; lra).
  split; [exact Y1|]. split; [exact Y2|].
  destruct (atan2_dir (ec - e2) (sqrt (1 - e2) * es) (el_e el * (1 - ec)) ltac:(nra)) as [N1 N2].
  { replace (sqrt (1 - e2) * es * (sqrt (1 - e2) * es)) with (sqrt (1 - e2) * sqrt (1 - e2) * (es * es)) by ring. rewrite SQ.
    replace (el_e el * (1 - ec) * (el_e el * (1 - ec))) with (el_e el * el_e el * ((1 - ec) * (1 - ec))) by ring. rewrite EE. set (c := ec). set (s := es). ring. }
  fold nu in N1, N2. split.
  - rewrite N1. apply nu_cos; [lra|lra|exact Y1|exact EE].
  - rewrite N2. apply nu_sin; [lra|lra|exact Y2].
Qed.
(* the position and the pair (r x v, r . v) determine the velocity *)
Lemma velocity_of x y z : x <> vzero -> cross x y = cross x z -> dot x y = dot x z -> y = z.
Proof.
  intros N C D. assert (P : 0 < dot x x) by (rewrite <- norm_sqr; pose proof (norm_pos x N); nra).
  assert (Q : forall w, vscale (dot x x) w = vadd (vscale (dot x w) x) (cross (cross x w) x)) by (intros w; vec_ring).
  assert (E : vscale (dot x x) y = vscale (dot x x) z) by (rewrite !Q, C, D; reflexivity).
  set (k := dot x x) in *. destruct y as [y1 y2 y3], z as [z1 z2 z3]. unfold vscale in E. cbn [vx vy vz] in E. injection E as E1 E2 E3.
  f_equal; (apply Rmult_eq_reg_l with k; [assumption|lra]).
Qed.
Lemma orb_position : let E := atan2 es ec in st_r (state_of GM E el) = r.
Proof.
  intros E. destruct orb_rho as (P & PP & HH & H0 & R0). destruct orb_a as (G & A & VV & K & K0).
  destruct orb_angles as (I1 & I2 & O1 & O2 & U1 & U2 & Y1 & Y2 & N1 & N2 & SO & SM & EE & EB & EA). fold E in Y1, Y2, N1, N2, SM.
  set (u := atan2 (vz r * H) (- vx r * vy h + vy r * vx h)) in *. set (nu := atan2 (sqrt (1 - e2) * es) (ec - e2)) in *.
  destruct (same_angle_cs _ _ SO) as [C1 C2].
  assert (Rf : R = el_a el * (1 - ec)) by (rewrite EA; set (x := a) in *; field; lra).
  assert (Q1 : el_a el * (cos E - el_e el) = R * cos nu) by (rewrite Rf, <- N1; ring).
  assert (Q2 : el_a el * sqrt ((1 - el_e el) * (1 + el_e el)) * sin E = R * sin nu).
  { replace ((1 - el_e el) * (1 + el_e el)) with (1 - el_e el * el_e el) by ring. rewrite EE, Rmult_assoc, <- N2, <- Rmult_assoc, <- Rf. reflexivity. }
  assert (T : vx r * vx h + vy r * vy h + vz r * vz h = 0) by apply cross_orth1.
  unfold state_of. cbn [st_r]. unfold perifocal. cbn [st_r]. rewrite Q1, Q2.
  assert (B1 : cos (el_omega el) * cos nu - sin (el_omega el) * sin nu = cos u) by (rewrite <- cos_plus; destruct SO as (k & ->); replace (u - nu + 2 * PI * IZR k + nu) with (u + 2 * PI * IZR k) by ring; apply cos_turns).
  assert (B2 : sin (el_omega el) * cos nu + cos (el_omega el) * sin nu = sin u) by (rewrite <- sin_plus; destruct SO as (k & ->); replace (u - nu + 2 * PI * IZR k + nu) with (u + 2 * PI * IZR k) by ring; apply cos_turns).
  assert (B0 : mulv (pqw (el_Omega el) (el_i el) (el_omega el)) (V (R * cos nu) (R * sin nu) 0) =
     V (R * (cos (el_Omega el) * cos u - sin (el_Omega el) * sin u * cos (el_i el))) (R * (sin (el_Omega el) * cos u + cos (el_Omega el) * sin u * cos (el_i el))) (R * (sin u * sin (el_i el)))).
  { rewrite <- B1, <- B2. unfold pqw. apply vec_eq; unfold mulv, mat9, dot; cbn [row0 row1 row2 vx vy vz]; ring. }
  rewrite B0, U1, U2, I1, I2, O1, O2. clear - P PP H0 R0 T. set (q := rho) in *. set (w := norm h) in *. set (g := norm r) in *. set (h1 := vx h) in *. set (h2 := vy h) in *. set (h3 := vz h) in *.
  apply vec_eq; cbn [vx vy vz].
  - replace (g * (- h2 / q * ((- vx r * h2 + vy r * h1) / (g * q)) - h1 / q * (vz r * w / (g * q)) * (h3 / w))) with ((- h2 * (- vx r * h2 + vy r * h1) - h1 * (vz r * h3)) / (q * q)) by (field; lra).
    replace (vz r * h3) with (- (vx r * h1 + vy r * h2)) by lra. rewrite PP. field. nra.
  - replace (g * (h1 / q * ((- vx r * h2 + vy r * h1) / (g * q)) + - h2 / q * (vz r * w / (g * q)) * (h3 / w))) with ((h1 * (- vx r * h2 + vy r * h1) - h2 * (vz r * h3)) / (q * q)) by (field; lra).
    replace (vz r * h3) with (- (vx r * h1 + vy r * h2)) by lra. rewrite PP. field. nra.
  - field. lra.
Qed.
Lemma orb_state E : kepler_eq (el_e el) (el_M el) E -> state_of GM E el = State r v.
Proof.
  intros KE. destruct orb_rho as (P & PP & HH & H0 & R0). destruct orb_a as (G & A & VV & K & K0). pose proof orb_h as OH.
  destruct orb_angles as (I1 & I2 & O1 & O2 & U1 & U2 & Y1 & Y2 & N1 & N2 & SO & SM & EE & EB & EA). set (E0 := atan2 es ec) in *.
  destruct SM as (k & SM).
  assert (KE0 : kepler_eq (el_e el) (el_M el) (E0 + 2 * PI * IZR k)).
  { unfold kepler_eq. destruct (cos_turns E0 k) as [_ ->]. rewrite SM, Y2. ring. }
  assert (EQ : E = E0 + 2 * PI * IZR k) by (apply kepler_unique with (el_e el) (el_M el); [lra|exact KE|exact KE0]).
  assert (ST : state_of GM E el = state_of GM E0 el).
  { unfold state_of, perifocal. destruct (cos_turns E0 k) as [C S]. rewrite EQ, C, S. reflexivity. }
  rewrite ST. pose proof orb_position as OP. fold E0 in OP. cbv zeta in OP.
  destruct (conic_state GM el E0 G ltac:(rewrite EA; exact A) ltac:(lra)) as (F1 & F2 & F3 & F4 & _). fold (state_of GM E0 el) in F1, F2, F3, F4.
  destruct (state_of GM E0 el) as [r' v']. cbn [st_r st_v] in *. subst r'. f_equal. apply (velocity_of r).
  - intros Z. rewrite Z in R0. unfold norm, dot, vzero in R0. cbn [vx vy vz] in R0. rewrite !Rmult_0_r, !Rplus_0_r, sqrt_0 in R0. lra.
  - rewrite F4. assert (SH : sqrt (GM * el_a el * (1 - el_e el * el_e el)) = H) by (rewrite EE, EA, <- OH; apply sqrt_square; lra). rewrite SH. unfold normal_dir. rewrite I1, I2, O1, O2.
    set (q := rho) in *. set (w := norm h) in *. apply vec_eq; unfold vscale; cbn [vx vy vz]; field; lra.
  - rewrite F3, Y2, EA. apply cancel_div. lra.
Qed.
End Orbit.

(* ---- elements by angles between vectors ---- *)
Lemma acos_branch c q t : c * c + q * q = 1 -> (q < 0 -> t = 2 * PI - acos c) -> (0 < q -> t = acos c) -> (q = 0 -> t = acos c \/ t = 2 * PI - acos c) ->
  cos t = c /\ sin t = q /\ 0 <= t <= 2 * PI.
Proof.
  intros U N P Z. assert (B : -1 <= c <= 1) by nra. pose proof (acos_bound c) as AB. pose proof PI_RGT_0 as PP.
  assert (C : cos (acos c) = c) by (apply cos_acos; exact B).
  assert (S : sin (acos c) = Rabs q) by (rewrite sin_acos by exact B; unfold Rsqr; replace (1 - c * c) with (Rsqr q) by (unfold Rsqr; lra); apply sqrt_Rsqr_abs).
  assert (C2 : cos (2 * PI - acos c) = c) by (rewrite cos_minus, cos_2PI, sin_2PI, C; ring).
  assert (S2 : sin (2 * PI - acos c) = - Rabs q) by (rewrite sin_minus, cos_2PI, sin_2PI, S; ring).
  destruct (Rtotal_order q 0) as [L|[L|L]].
  - rewrite (N L). split; [exact C2|]. split; [rewrite S2, Rabs_left by exact L; ring|lra].
  - subst q. rewrite Rabs_R0 in *. destruct (Z eq_refl) as [->| ->]; (split; [assumption|]); (split; [lra|lra]).
  - rewrite (P L). split; [exact C|]. split; [rewrite S, Rabs_right by lra; reflexivity|lra].
Qed.
(* a vector of the plane normal to w, in the basis n, w x n *)
Lemma plane_basis w n x : dot w w = 1 -> dot n n = 1 -> dot w n = 0 -> dot x w = 0 ->
  x = vadd (vscale (dot x n) n) (vscale (dot x (cross w n)) (cross w n)).
Proof.
  intros W N O X. destruct w as [w1 w2 w3], n as [n1 n2 n3], x as [x1 x2 x3].
  unfold dot, cross, vadd, vscale in *. cbn [vx vy vz] in *. f_equal; nsatz.
Qed.
Lemma frame_orth w n : dot w w = 1 -> dot n n = 1 -> dot w n = 0 ->
  dot (cross w n) (cross w n) = 1 /\ dot w (cross w n) = 0 /\ dot n (cross w n) = 0 /\ cross w (cross w n) = vscale (-1) n.
Proof.
  intros W N O. split; [rewrite cross_dot, W, N, O; ring|]. split; [apply cross_orth1|]. split; [apply cross_orth2|].
  destruct w as [w1 w2 w3], n as [n1 n2 n3]. unfold dot, cross, vscale in *. cbn [vx vy vz] in *. f_equal; nsatz.
Qed.
Lemma plane_norm w n x : dot w w = 1 -> dot n n = 1 -> dot w n = 0 -> dot x w = 0 ->
  dot x x = dot x n * dot x n + dot x (cross w n) * dot x (cross w n).
Proof.
  intros W N O X. destruct (frame_orth w n W N O) as (A & _ & B & _). pose proof (plane_basis w n x W N O X) as P.
  set (p := dot x n) in *. set (q := dot x (cross w n)) in *. set (k := cross w n) in *. rewrite P at 1 2.
  transitivity (p * p * dot n n + q * q * dot k k + 2 * (p * q) * dot n k); [unfold dot, vadd, vscale; cbn [vx vy vz]; ring|]. rewrite N, A, B. ring.
Qed.
(* what six numbers say about a state: size of the angular momentum and the direction of the orbit normal,
   eccentricity and the direction of the perigee, and the direction of the satellite *)
Definition describes (GM : R) (k : six) (r v : vec) : Prop :=
  cross r v = vscale (k_h k) (normal_dir (k_Omega k) (k_i k)) /\ 0 <= k_h k /\
  ecc_vector GM (State r v) = vscale (k_e k) (perigee_dir (k_Omega k) (k_i k) (k_omega k)) /\ 0 <= k_e k /\
  r = vscale (norm r) (perigee_dir (k_Omega k) (k_i k) (k_omega k + k_theta k)) /\
  0 <= k_i k <= PI /\ 0 <= k_Omega k <= 2 * PI /\ 0 <= k_omega k <= 2 * PI /\ 0 <= k_theta k <= 2 * PI.
Definition oriented (GM : R) (r v : vec) : Prop :=
  0 < GM /\ (vx (cross r v) <> 0 \/ vy (cross r v) <> 0) /\ ecc_vector GM (State r v) <> vzero.

Lemma ecc_formula GM r v : 0 < GM -> 0 < norm r ->
  let w := vsub (vscale (dot v v - GM / norm r) r) (vscale (dot r v) v) in
  V (vx w / GM) (vy w / GM) (vz w / GM) = ecc_vector GM (State r v).
Proof.
  intros G R0 w. unfold ecc_vector. cbn [st_r st_v]. unfold w. set (g := norm r) in *. destruct r as [r1 r2 r3], v as [v1 v2 v3].
  apply vec_eq; unfold vsub, vscale, cross, dot; cbn [vx vy vz]; field; lra.
Qed.
Lemma unit_dir x : x <> vzero -> let u := vscale (/ norm x) x in dot u u = 1 /\ x = vscale (norm x) u.
Proof.
  intros N u. pose proof (norm_pos x N) as P. unfold u. split.
  - transitivity (/ norm x * / norm x * dot x x); [vec_ring|]. rewrite <- norm_sqr. field. lra.
  - rewrite vscale_vscale, Rinv_r by lra. vec_ring.
Qed.
Lemma perigee_plus Omega i omega t : perigee_dir Omega i (omega + t) =
  vadd (vscale (cos t) (perigee_dir Omega i omega)) (vscale (sin t) (cross (normal_dir Omega i) (perigee_dir Omega i omega))).
Proof.
  unfold perigee_dir, normal_dir, node_dir. rewrite cos_plus, sin_plus. pose proof (cos2_sin2 Omega) as A. pose proof (cos2_sin2 i) as B.
  apply vec_eq; unfold vadd, vscale, cross; cbn [vx vy vz]; ring [A B].
Qed.
Lemma frame_dirs Omega i omega : let w := normal_dir Omega i in let p := perigee_dir Omega i omega in
  dot w w = 1 /\ dot p p = 1 /\ dot w p = 0 /\ dot (node_dir Omega) (node_dir Omega) = 1 /\ dot w (node_dir Omega) = 0.
Proof.
  cbv zeta. unfold perigee_dir, normal_dir, node_dir. pose proof (cos2_sin2 Omega) as A. pose proof (cos2_sin2 i) as B. pose proof (cos2_sin2 omega) as C.
  unfold dot, vadd, vscale, cross; cbn [vx vy vz]. repeat split; ring [A B C].
Qed.

Lemma vallado_spec GM r v : oriented GM r v -> describes GM (state2kepler_vallado r v GM) r v.
Proof.
  intros (G & N & EV).
  set (h := cross r v) in *. set (rho := sqrt (vx h * vx h + vy h * vy h)).
  assert (P0 : 0 < vx h * vx h + vy h * vy h) by (destruct N as [N|N]; apply sqr_pos in N; pose proof (Rle_0_sqr (vx h)); pose proof (Rle_0_sqr (vy h)); unfold Rsqr in *; lra).
  assert (P : 0 < rho) by (apply sqrt_lt_R0; exact P0). assert (PP : rho * rho = vx h * vx h + vy h * vy h) by (apply sqrt_sqrt; lra).
  assert (HZ : h <> vzero) by (intros Z; rewrite Z in P0; cbn [vzero vx vy] in P0; lra). pose proof (norm_pos h HZ) as H0.
  assert (RZ : r <> vzero) by (intros Z; apply HZ; unfold h; rewrite Z; vec_ring). pose proof (norm_pos r RZ) as R0. pose proof (norm_pos _ EV) as E0.
  set (ev := ecc_vector GM (State r v)) in *.
  assert (HH : norm h * norm h = rho * rho + vz h * vz h) by (rewrite norm_sqr, PP; unfold dot; ring).
  set (k := state2kepler_vallado r v GM).
  assert (KN : norm (V (- vy h) (vx h) 0) = rho) by (unfold norm, rho; f_equal; unfold dot; cbn [vx vy vz]; ring).
  (* inclination *)
  assert (I : cos (k_i k) = vz h / norm h /\ sin (k_i k) = rho / norm h /\ 0 <= k_i k <= PI).
  { assert (EI : k_i k = acos (vz h / norm h)) by reflexivity.
    assert (U : vz h / norm h * (vz h / norm h) + rho / norm h * (rho / norm h) = 1) by (replace (vz h / norm h * (vz h / norm h) + rho / norm h * (rho / norm h)) with ((rho * rho + vz h * vz h) / (norm h * norm h)) by (field; lra); rewrite HH; field; nra).
    assert (Q : 0 < rho / norm h) by (apply Rdiv_lt_0_compat; assumption).
    destruct (acos_branch _ _ (k_i k) U) as (A & B & _); [intros; lra|intros _; exact EI|intros; lra|]. split; [exact A|]. split; [exact B|]. rewrite EI. apply acos_bound. }
  destruct I as (CI & SI & BI).
  (* node *)
  assert (O : cos (k_Omega k) = - vy h / rho /\ sin (k_Omega k) = vx h / rho /\ 0 <= k_Omega k <= 2 * PI).
  { assert (EO : k_Omega k = if Rlt_dec (vx h) 0 then two_pi - acos (- vy h / rho) else acos (- vy h / rho)) by (unfold k, state2kepler_vallado; cbn [k_Omega]; fold h; rewrite KN; reflexivity).
    apply acos_branch.
    - replace (- vy h / rho * (- vy h / rho) + vx h / rho * (vx h / rho)) with ((vx h * vx h + vy h * vy h) / (rho * rho)) by (field; lra). rewrite <- PP. field. lra.
    - intros L. rewrite EO. destruct (Rlt_dec (vx h) 0) as [_|F]; [reflexivity|]. exfalso. apply F. apply Rmult_lt_reg_r with (/ rho); [apply Rinv_0_lt_compat; exact P|]. unfold Rdiv in L. lra.
    - intros L. rewrite EO. destruct (Rlt_dec (vx h) 0) as [F|_]; [|reflexivity]. exfalso. assert (vx h / rho < 0) by (apply Rdiv_neg_pos; assumption) || (assert (0 < / rho) by (apply Rinv_0_lt_compat; exact P); unfold Rdiv in L; nra). lra.
    - intros _. rewrite EO. destruct (Rlt_dec (vx h) 0); [right|left]; reflexivity. }
  destruct O as (CO & SO & BO).
  assert (W : normal_dir (k_Omega k) (k_i k) = vscale (/ norm h) h).
  { unfold normal_dir. rewrite CI, SI, CO, SO. apply vec_eq; unfold vscale; cbn [vx vy vz]; field; lra. }
  assert (HW : h = vscale (norm h) (normal_dir (k_Omega k) (k_i k))) by (rewrite W, vscale_vscale, Rinv_r by lra; vec_ring).
  assert (ND : V (- vy h) (vx h) 0 = vscale rho (node_dir (k_Omega k))).
  { unfold node_dir. rewrite CO, SO. apply vec_eq; unfold vscale; cbn [vx vy vz]; field; lra. }
  destruct (frame_dirs (k_Omega k) (k_i k) (k_omega k)) as (WW & _ & _ & NN & WN).
  set (w := normal_dir (k_Omega k) (k_i k)) in *. set (n := node_dir (k_Omega k)) in *.
  assert (EK : k_e k = norm ev) by (unfold k, state2kepler_vallado; cbn [k_e]; rewrite (ecc_formula GM r v G R0); reflexivity).
  assert (EW : dot ev w = 0).
  { rewrite W. unfold ev, ecc_vector. cbn [st_r st_v]. fold h. set (gi := / norm r). clear. unfold h. set (q := / norm (cross r v)). vec_ring. }
  assert (RW : dot r w = 0) by (rewrite W; transitivity (/ norm h * dot r h); [vec_ring|]; unfold h; rewrite cross_orth1; ring).
  (* perigee *)
  assert (GO : cos (k_omega k) = dot ev n / norm ev /\ sin (k_omega k) = dot ev (cross w n) / norm ev /\ 0 <= k_omega k <= 2 * PI).
  { pose proof (plane_norm w n ev WW NN WN EW) as PN. rewrite <- norm_sqr in PN.
    assert (EO : k_omega k = if Rlt_dec (vz ev) 0 then two_pi - acos (dot ev n / norm ev) else acos (dot ev n / norm ev)).
    { unfold k, state2kepler_vallado. cbn [k_omega]. rewrite (ecc_formula GM r v G R0). fold h. fold ev. rewrite KN, ND.
      replace (dot (vscale rho n) ev / (rho * norm ev)) with (dot ev n / norm ev); [reflexivity|].
      transitivity (rho * dot ev n / (rho * norm ev)); [field; lra|]. f_equal. vec_ring. }
    assert (VZ : vz ev = dot ev (cross w n) * (rho / norm h)).
    { rewrite (plane_basis w n ev WW NN WN EW) at 1. unfold vadd, vscale at 1. cbn [vz]. rewrite <- SI. unfold vscale. cbn [vz]. unfold n at 2, node_dir. cbn [vz]. unfold w at 2, n at 3, normal_dir, node_dir, cross. cbn [vx vy vz]. pose proof (cos2_sin2 (k_Omega k)) as A. set (q := dot ev (cross w n)). ring [A]. }
    assert (Q : 0 < rho / norm h) by (apply Rdiv_lt_0_compat; assumption). set (y := dot ev (cross w n)) in *. set (x := dot ev n) in *.
    assert (EI : 0 < / norm ev) by (apply Rinv_0_lt_compat; exact E0).
    apply acos_branch.
    - replace (x / norm ev * (x / norm ev) + y / norm ev * (y / norm ev)) with ((x * x + y * y) / (norm ev * norm ev)) by (field; lra). rewrite <- PN. field. nra.
    - intros L. assert (y < 0) by (unfold Rdiv in L; nra). rewrite EO. destruct (Rlt_dec (vz ev) 0) as [_|F]; [reflexivity|]. exfalso. apply F. rewrite VZ. nra.
    - intros L. assert (0 < y) by (unfold Rdiv in L; nra). rewrite EO. destruct (Rlt_dec (vz ev) 0) as [F|_]; [|reflexivity]. exfalso. rewrite VZ in F. nra.
    - intros _. rewrite EO. destruct (Rlt_dec (vz ev) 0); [right|left]; reflexivity. }
  destruct GO as (CG & SG & BG).
  assert (EP : ev = vscale (norm ev) (perigee_dir (k_Omega k) (k_i k) (k_omega k))).
  { unfold perigee_dir. fold w n. rewrite CG, SG. rewrite (plane_basis w n ev WW NN WN EW) at 1. set (x := dot ev n). set (y := dot ev (cross w n)). set (z := cross w n). set (g := norm ev) in *. clear - E0. apply vec_eq; unfold vadd, vscale; cbn [vx vy vz]; field; lra. }
  destruct (frame_dirs (k_Omega k) (k_i k) (k_omega k)) as (_ & QQ & WQ & _ & _).
  set (p := perigee_dir (k_Omega k) (k_i k) (k_omega k)) in *. fold w in WQ.
  (* true anomaly *)
  assert (T : cos (k_theta k) = dot r p / norm r /\ sin (k_theta k) = dot r (cross w p) / norm r /\ 0 <= k_theta k <= 2 * PI).
  { pose proof (plane_norm w p r WW QQ WQ RW) as PN. rewrite <- norm_sqr in PN.
    assert (EO : k_theta k = if Rlt_dec (dot r v) 0 then two_pi - acos (dot r p / norm r) else acos (dot r p / norm r)).
    { unfold k, state2kepler_vallado. cbn [k_theta]. rewrite (ecc_formula GM r v G R0). fold ev.
      replace (dot ev r / (norm ev * norm r)) with (dot r p / norm r); [reflexivity|]. transitivity (norm ev * dot r p / (norm ev * norm r)); [field; lra|]. f_equal. rewrite EP at 2. vec_ring. }
    assert (VZ : dot r (cross w p) * (norm ev * GM) = norm h * dot r v).
    { transitivity (GM * dot r (cross w (vscale (norm ev) p))); [vec_ring|]. rewrite <- EP. transitivity (GM * (/ norm h * dot r (cross h ev))); [rewrite W; vec_ring|].
      assert (TR : GM * dot r (cross h ev) = norm h * norm h * dot r v).
      { unfold ev, ecc_vector. cbn [st_r st_v]. rewrite norm_sqr. set (g := / norm r). replace (cross r v) with h by reflexivity.
        transitivity (GM * / GM * dot r (cross h (cross v h)) - GM * g * dot r (cross h r)); [vec_ring|]. rewrite Rinv_r by lra.
        unfold h. vec_ring. }
      replace (GM * (/ norm h * dot r (cross h ev))) with (/ norm h * (GM * dot r (cross h ev))) by ring. rewrite TR. field. lra. }
    set (y := dot r (cross w p)) in *. set (x := dot r p) in *. assert (RI : 0 < / norm r) by (apply Rinv_0_lt_compat; exact R0).
    assert (EG : 0 < norm ev * GM) by nra.
    apply acos_branch.
    - replace (x / norm r * (x / norm r) + y / norm r * (y / norm r)) with ((x * x + y * y) / (norm r * norm r)) by (field; lra). rewrite <- PN. field. nra.
    - intros L. assert (y < 0) by (unfold Rdiv in L; nra). rewrite EO. destruct (Rlt_dec (dot r v) 0) as [_|F]; [reflexivity|]. exfalso. apply F. nra.
    - intros L. assert (0 < y) by (unfold Rdiv in L; nra). rewrite EO. destruct (Rlt_dec (dot r v) 0) as [F|_]; [|reflexivity]. exfalso. nra.
    - intros _. rewrite EO. destruct (Rlt_dec (dot r v) 0); [right|left]; reflexivity. }
  destruct T as (CT & ST & BT).
  split; [exact HW|]. split; [apply norm_nonneg|]. split; [fold ev; rewrite EK; exact EP|]. split; [rewrite EK; lra|]. split; [|split; [exact BI|split; [exact BO|split; [exact BG|exact BT]]]].
  rewrite perigee_plus. fold w p. rewrite CT, ST. rewrite (plane_basis w p r WW QQ WQ RW) at 1. set (x := dot r p). set (y := dot r (cross w p)). set (z := cross w p). set (g := norm r) in *. clear - R0.
  apply vec_eq; unfold vadd, vscale; cbn [vx vy vz]; field; lra.
Qed.
Lemma curtis_same GM r v : oriented GM r v -> state2kepler r v GM = state2kepler_vallado r v GM.
Proof.
  intros (G & N & EV). set (h := cross r v) in *.
  assert (HZ : h <> vzero) by (intros Z; rewrite Z in N; cbn [vzero vx vy] in N; lra).
  assert (RZ : r <> vzero) by (intros Z; apply HZ; unfold h; rewrite Z; vec_ring). pose proof (norm_pos r RZ) as R0. pose proof (norm_pos _ EV) as E0.
  assert (NZ : V (- vy h) (vx h) 0 <> vzero) by (intros Z; assert (Z1 := f_equal vx Z); assert (Z2 := f_equal vy Z); cbn [vzero vx vy] in Z1, Z2; destruct N as [N|N]; apply N; lra). pose proof (norm_pos _ NZ) as N0.
  unfold state2kepler, state2kepler_vallado. rewrite norm_sqr, (cancel_div (norm r) (dot r v)) by lra. rewrite (ecc_formula GM r v G R0). fold h.
  set (ev := ecc_vector GM (State r v)) in *. set (n := V (- vy h) (vx h) 0) in *.
  replace (dot n ev / norm n / norm ev) with (dot n ev / (norm n * norm ev)) by (field; lra).
  replace (dot ev r / norm ev / norm r) with (dot ev r / (norm ev * norm r)) by (field; lra). f_equal.
  assert (RI : 0 < / norm r) by (apply Rinv_0_lt_compat; exact R0).
  destruct (Rlt_dec (dot r v / norm r) 0) as [A|A], (Rlt_dec (dot r v) 0) as [B|B]; try reflexivity; exfalso; unfold Rdiv in A; nra.
Qed.

Lemma pos2ad_spec pos : vx pos <> 0 \/ vy pos <> 0 -> let (a, d) := pos2ad pos in
  pos = vscale (norm pos) (V (cos d * cos a) (cos d * sin a) (sin d)) /\ 0 <= a <= 2 * PI /\ - (PI / 2) < d < PI / 2.
Proof.
  intros N. destruct pos as [x y z] eqn:EP. rewrite <- EP in *. assert (P0 : 0 < x * x + y * y) by (rewrite EP in N; cbn [vx vy] in N; destruct N as [N|N]; apply sqr_pos in N; pose proof (Rle_0_sqr x); pose proof (Rle_0_sqr y); unfold Rsqr in *; lra).
  assert (R0 : 0 < norm pos) by (apply norm_pos; intros Z; rewrite Z in EP; unfold vzero in EP; injection EP; intros; subst; lra).
  assert (RR : norm pos * norm pos = x * x + y * y + z * z) by (rewrite norm_sqr, EP; reflexivity).
  set (q := sqrt (x * x + y * y)). assert (Q0 : 0 < q) by (apply sqrt_lt_R0; exact P0). assert (QQ : q * q = x * x + y * y) by (apply sqrt_sqrt; lra).
  unfold pos2ad. replace (vx pos) with x by (rewrite EP; reflexivity). replace (vy pos) with y by (rewrite EP; reflexivity). replace (vz pos) with z by (rewrite EP; reflexivity).
  set (g := norm pos) in *. assert (ZB : -1 < z / g < 1).
  { assert (z / g * g = z) by (field; lra). split; apply Rmult_lt_reg_r with g; try lra; nra. }
  assert (SD : sin (asin (z / g)) = z / g) by (apply sin_asin; lra).
  assert (CD : cos (asin (z / g)) = q / g).
  { rewrite cos_asin by lra. apply sqrt_lem_1; [unfold Rsqr; nra| |].
    - apply Rlt_le, Rdiv_lt_0_compat; assumption.
    - unfold Rsqr. replace (q / g * (q / g)) with (q * q / (g * g)) by (field; lra). replace (z / g * (z / g)) with (z * z / (g * g)) by (field; lra). rewrite QQ. replace (z * z) with (g * g - (x * x + y * y)) by lra. field. lra. }
  rewrite CD. replace (x / g / (q / g)) with (x / q) by (field; lra).
  assert (GI : 0 < / g) by (apply Rinv_0_lt_compat; exact R0). assert (QI : 0 < / q) by (apply Rinv_0_lt_compat; exact Q0).
  set (a := if Rle_dec (y / g) 0 then two_pi - acos (x / q) else acos (x / q)).
  destruct (acos_branch (x / q) (y / q) a) as (CA & SA & BA).
  - replace (x / q * (x / q) + y / q * (y / q)) with ((x * x + y * y) / (q * q)) by (field; lra). rewrite QQ. field. lra.
  - intros L. unfold a. destruct (Rle_dec (y / g) 0) as [_|F]; [reflexivity|]. exfalso. unfold Rdiv in *. nra.
  - intros L. unfold a. destruct (Rle_dec (y / g) 0) as [F|_]; [|reflexivity]. exfalso. unfold Rdiv in *. assert (0 < y) by nra. nra.
  - intros _. unfold a. destruct (Rle_dec (y / g) 0); [right|left]; reflexivity.
  - split; [|split; [exact BA|]].
    + transitivity (V x y z); [exact EP|]. rewrite SD, CA, SA. apply vec_eq; unfold vscale; cbn [vx vy vz]; field; lra.
    + apply asin_bound_lt. exact ZB.
Qed.

(* elements in their usual ranges *)
Definition in_range (el : elements) : Prop :=
  0 < el_a el /\ 0 < el_e el < 1 /\ 0 < el_i el < PI /\ 0 <= el_Omega el < 2 * PI /\ 0 <= el_omega el < 2 * PI /\ 0 <= el_M el < 2 * PI.
Lemma cos_one_turn x : cos x = 1 -> exists k : Z, x = 2 * PI * IZR k.
Proof.
  intros C. destruct (norm_angle_spec x) as [(k & E) B]. set (y := norm_angle x) in *.
  assert (CY : cos y = 1) by (rewrite E; destruct (cos_turns x k) as [-> _]; exact C).
  assert (SY : sin y = 0) by (pose proof (cos2_sin2 y) as Q; rewrite CY in Q; apply Rsqr_0_uniq; unfold Rsqr; lra).
  assert (Y0 : y = 0).
  { destruct (Req_dec y 0) as [|N]; [assumption|]. exfalso. pose proof PI_RGT_0.
    destruct (Rtotal_order y PI) as [L|[L|L]]; [assert (0 < sin y) by (apply sin_gt_0; lra); lra|rewrite L, cos_PI in CY; lra|].
    assert (sin y < 0) by (apply sin_lt_0; lra). lra. }
  exists (- k)%Z. rewrite opp_IZR. lra.
Qed.
Lemma same_cs x y : cos x = cos y -> sin x = sin y -> same_angle x y.
Proof.
  intros C S. destruct (cos_one_turn (x - y)) as (k & E). { rewrite cos_minus, C, S. pose proof (cos2_sin2 y). lra. } exists k. lra.
Qed.
Lemma same_angle_range x y : same_angle x y -> 0 <= x < 2 * PI -> 0 <= y < 2 * PI -> x = y.
Proof.
  intros (k & E) A B. pose proof PI_RGT_0 as P. assert (K : k = 0%Z).
  { assert (-1 < IZR k < 1) by (split; apply Rmult_lt_reg_l with (2 * PI); lra). destruct H as [K1 K2]. apply lt_IZR in K1. apply lt_IZR in K2. lia. }
  subst k. rewrite Rmult_0_r in E. lra.
Qed.
Lemma dirs_of Omega i omega : dot (perigee_dir Omega i omega) (node_dir Omega) = cos omega /\ dot (perigee_dir Omega i omega) (cross (normal_dir Omega i) (node_dir Omega)) = sin omega.
Proof.
  unfold perigee_dir, normal_dir, node_dir. pose proof (cos2_sin2 Omega) as A. pose proof (cos2_sin2 i) as B. pose proof (cos2_sin2 omega) as C.
  unfold dot, vadd, vscale, cross; cbn [vx vy vz]. split; ring [A B C].
Qed.
Lemma elements_recovered GM el E : 0 < GM -> in_range el -> kepler_eq (el_e el) (el_M el) E ->
  let s := state_of GM E el in regular GM (st_r s) (st_v s) /\ state2elements (st_r s) (st_v s) GM = el.
Proof.
  intros G (A & B & BI & BO & Bo & BM) KE s. pose proof (slope_pos (el_e el) E ltac:(lra)) as SL.
  destruct (conic_state GM el E G A ltac:(lra)) as (F1 & F2 & F3 & F4 & F5). fold (state_of GM E el) in F1, F2, F3, F4, F5. fold s in F1, F2, F3, F4, F5.
  assert (SE : State (st_r s) (st_v s) = s) by (destruct s; reflexivity). set (r := st_r s) in *. set (v := st_v s) in *.
  assert (SI : 0 < sin (el_i el)) by (apply sin_gt_0; lra).
  assert (K2 : 0 < GM * el_a el * (1 - el_e el * el_e el)) by (apply Rmult_lt_0_compat; nra).
  set (hm := sqrt (GM * el_a el * (1 - el_e el * el_e el))) in *. assert (HM : 0 < hm) by (apply sqrt_lt_R0; exact K2).
  assert (R0 : 0 < norm r) by (rewrite F1; nra).
  set (h := cross r v) in *.
  assert (HX : vx h = hm * (sin (el_Omega el) * sin (el_i el))) by (rewrite F4; reflexivity).
  assert (HY : vy h = hm * - (cos (el_Omega el) * sin (el_i el))) by (rewrite F4; reflexivity).
  assert (HZ : vz h = hm * cos (el_i el)) by (rewrite F4; reflexivity).
  pose proof (cos2_sin2 (el_Omega el)) as CO. pose proof (cos2_sin2 (el_i el)) as CI.
  assert (RHO : sqrt (vx h * vx h + vy h * vy h) = hm * sin (el_i el)).
  { rewrite HX, HY. apply sqrt_lem_1; [pose proof (Rle_0_sqr (hm * (sin (el_Omega el) * sin (el_i el)))); pose proof (Rle_0_sqr (hm * - (cos (el_Omega el) * sin (el_i el)))); unfold Rsqr in *; lra|nra|ring [CO]]. }
  assert (HN : norm h = hm) by (apply norm_unique; [lra|unfold dot; rewrite HX, HY, HZ; ring [CO CI]]).
  assert (NZ : vx h <> 0 \/ vy h <> 0).
  { destruct (Req_dec (vx h) 0) as [X|X]; [|left; exact X]. right. intros Y. rewrite X, Y in RHO. replace (0 * 0 + 0 * 0) with 0 in RHO by ring. rewrite sqrt_0 in RHO. nra. }
  assert (REG : regular GM r v).
  { split; [exact G|]. split; [|exact NZ]. rewrite F2. assert (0 < / el_a el) by (apply Rinv_0_lt_compat; exact A). unfold Rdiv. nra. }
  split; [exact REG|].
  destruct (orb_angles GM r v REG) as (I1 & I2 & O1 & O2 & U1 & U2 & Y1 & Y2 & N1 & N2 & SO & SM & EE & EB & EA).
  assert (KE' := orb_state GM r v REG). rewrite SE in KE'.
  set (el' := state2elements r v GM) in *. fold h in I1, I2, O1, O2.
  assert (Aa : 1 / (2 / norm r - dot v v / GM) = el_a el) by (rewrite F2; field; lra).
  rewrite Aa in *.
  assert (EC : 1 - norm r / el_a el = el_e el * cos E) by (rewrite F1; field; lra).
  assert (ES : dot r v / sqrt (GM * el_a el) = el_e el * sin E) by (rewrite F3; field; assert (0 < sqrt (GM * el_a el)) by (apply sqrt_lt_R0; nra); lra).
  rewrite EC, ES in *.
  assert (Ee : el_e el' = el_e el).
  { pose proof (cos2_sin2 E) as CE. apply Rsqr_inj; [lra|lra|]. unfold Rsqr. rewrite EE. ring [CE]. }
  rewrite Ee in *. rewrite HN, HZ in I1. rewrite RHO, HN in I2. rewrite RHO, HY in O1. rewrite RHO, HX in O2.
  assert (CI' : cos (el_i el') = cos (el_i el)) by (rewrite I1; field; lra).
  assert (SI' : sin (el_i el') = sin (el_i el)) by (rewrite I2; field; lra).
  assert (CO' : cos (el_Omega el') = cos (el_Omega el)) by (rewrite O1; field; lra).
  assert (SO' : sin (el_Omega el') = sin (el_Omega el)) by (rewrite O2; field; lra).
  assert (Ei : el_i el' = el_i el).
  { assert (BI' : 0 <= el_i el' < 2 * PI).
    { assert (P0 : sqrt (vx h * vx h + vy h * vy h) = hm * sin (el_i el)) by (rewrite RHO; reflexivity).
      assert (EI : el_i el' = atan2 (hm * sin (el_i el)) (vz h)) by (rewrite <- P0; reflexivity). rewrite EI.
      destruct (atan2_spec (vz h) (hm * sin (el_i el)) ltac:(pose proof (Rle_0_sqr (vz h)); unfold Rsqr in *; nra)) as (_ & _ & BT). pose proof PI_RGT_0. 
      assert (0 < sin (atan2 (hm * sin (el_i el)) (vz h))) by (rewrite <- EI; lra).
      destruct (Rle_lt_dec 0 (atan2 (hm * sin (el_i el)) (vz h))) as [|L]; [lra|]. exfalso.
      set (t := atan2 (hm * sin (el_i el)) (vz h)) in *. assert (0 < sin (- t) \/ t = - PI) by (destruct (Req_dec t (- PI)); [right; assumption|left; apply sin_gt_0; lra]).
      destruct H1 as [H1|H1]; [rewrite sin_neg in H1; lra|rewrite H1, sin_neg, sin_PI in H0; lra]. }
    apply same_angle_range; [apply same_cs; assumption|exact BI'|lra]. }
  assert (EO : el_Omega el' = el_Omega el) by (apply same_angle_range; [apply same_cs; assumption|apply norm_angle_spec|lra]).
  set (E1 := atan2 (el_e el * sin E) (el_e el * cos E)) in *.
  assert (C1 : cos E1 = cos E) by (apply Rmult_eq_reg_l with (el_e el); [exact Y1|lra]). assert (S1 : sin E1 = sin E) by (apply Rmult_eq_reg_l with (el_e el); [exact Y2|lra]).
  assert (EM : el_M el' = el_M el).
  { apply same_angle_range; [|apply norm_angle_spec|lra]. destruct SM as (k & SM). destruct (same_cs _ _ C1 S1) as (j & SJ). unfold kepler_eq in KE. exists (j + k)%Z. rewrite plus_IZR. rewrite SM, SJ. lra. }
  assert (Eo : el_omega el' = el_omega el).
  { assert (KE1 := KE' E). rewrite EM in KE1. specialize (KE1 KE). 
    destruct (conic_state GM el' E G ltac:(rewrite EA; exact A) ltac:(lra)) as (_ & _ & _ & _ & F6). fold (state_of GM E el') in F6. rewrite KE1 in F6. rewrite F5 in F6.
    rewrite Ee, EO, Ei in F6.
    assert (PD : perigee_dir (el_Omega el) (el_i el) (el_omega el) = perigee_dir (el_Omega el) (el_i el) (el_omega el')).
    { set (p := perigee_dir _ _ (el_omega el)) in *. set (q := perigee_dir _ _ (el_omega el')) in *. apply vec_eq; apply Rmult_eq_reg_l with (el_e el); try lra; [exact (f_equal vx F6)|exact (f_equal vy F6)|exact (f_equal vz F6)]. }
    destruct (dirs_of (el_Omega el) (el_i el) (el_omega el)) as [D1 D2]. destruct (dirs_of (el_Omega el) (el_i el) (el_omega el')) as [D3 D4]. rewrite PD in D1, D2.
    apply same_angle_range; [apply same_cs; congruence|apply norm_angle_spec|lra]. }
  clear - Ee EA Ei EO Eo EM. destruct el as [x1 x2 x3 x4 x5 x6]. destruct el' as [y1 y2 y3 y4 y5 y6]. cbn [el_a el_e el_i el_Omega el_omega el_M] in *. congruence.
Qed.

(* ---- counterexamples ---- *)
Definition ex_el (Omega i omega : R) : elements := Ele 1 0 i Omega omega 0.
Lemma ex_anomaly : exists E ok, forall Omega i omega, anomaly 1 (ex_el Omega i omega) 0 = Some (E, ok).
Proof. destruct (anomaly_some 1 (ex_el 0 0 0) 0) as (E & ok & H); [cbn; lra|]. exists E, ok. exact (fun _ _ _ => H). Qed.
Lemma perifocal_circle E : perifocal 1 E 0 1 = State (V (cos E) (sin E) 0) (V (- sin E) (cos E) 0).
Proof. unfold perifocal. replace ((1 - 0) * (1 + 0)) with 1 by ring. replace (1 * 1) with 1 by ring. rewrite sqrt_1. f_equal; apply vec_eq; cbn [vx vy vz]; field. Qed.
Lemma eigen_differs : exists el dt GM, 0 < GM /\ 0 < el_a el /\ 0 <= el_e el < 1 /\ elements2state_eigen GM dt el <> elements2state el dt GM.
Proof.
  exists (ex_el 0 (PI / 2) (PI / 2)), 0, 1. split; [lra|]. split; [cbn; lra|]. split; [cbn; lra|]. rewrite eigen_swaps. cbn [ex_el el_a el_e el_i el_Omega el_omega el_M].
  destruct ex_anomaly as (E & ok & H). unfold elements2state. fold (ex_el (PI / 2) (PI / 2) 0). fold (ex_el 0 (PI / 2) (PI / 2)). rewrite !H. cbn [ex_el el_a el_e el_i el_Omega el_omega el_M]. rewrite perifocal_circle.
  intros Q. injection Q as Q1 Q2 _ _ _ _. unfold dot in *. cbn in Q1, Q2. rewrite ?cos_PI2, ?sin_PI2, ?cos_0, ?sin_0 in *. pose proof (cos2_sin2 E). nra.
Qed.
Lemma perifocal_differs : exists el dt GM p s ok, 0 < GM /\ 0 < el_a el /\ 0 <= el_e el < 1 /\
  elements2perifocal GM el dt = Some p /\ elements2state el dt GM = Some (s, ok) /\ perifocal2equatorial el p <> s.
Proof.
  destruct ex_anomaly as (E & ok & H). assert (D : cos E <> sin E \/ sin E <> 0).
  { destruct (Req_dec (sin E) 0) as [Z|]; [left|right; assumption]. pose proof (cos2_sin2 E). rewrite Z in *. nra. }
  destruct D as [D|D]; [exists (ex_el 0 (PI / 2) (PI / 2))|exists (ex_el PI (PI / 2) 0)]; exists 0, 1; do 3 eexists; (split; [lra|]); (split; [cbn; lra|]); (split; [cbn; lra|]);
    unfold elements2perifocal, elements2state; rewrite H; (split; [reflexivity|]); (split; [reflexivity|]);
    cbn [ex_el el_a el_e el_i el_Omega el_omega el_M]; rewrite perifocal_circle; intros Q; apply (f_equal (fun s => vz (st_r s))) in Q; cbn in Q; unfold dot in Q; cbn in Q;
    rewrite ?cos_PI2, ?sin_PI2, ?cos_0, ?sin_0, ?cos_PI, ?sin_PI in *.
  - apply D. lra.
  - apply D. lra.
Qed.
Lemma perifocal_not_inverse : exists el p, equatorial2perifocal el (perifocal2equatorial el p) <> p.
Proof.
  exists (ex_el 0 (PI / 2) (PI / 2)), (State (V 1 0 0) (V 0 0 0)). intros Q. apply (f_equal (fun s => vx (st_r s))) in Q. cbn in Q. unfold dot in Q. cbn in Q.
  rewrite ?cos_PI2, ?sin_PI2, ?cos_0, ?sin_0 in *. lra.
Qed.
(* an equatorial orbit: the position comes back turned *)
Lemma equatorial_lost : exists GM r v, 0 < GM /\ dot v v < 2 * GM / norm r /\ 0 < norm (cross r v) /\
  exists E, kepler_eq (el_e (state2elements r v GM)) (el_M (state2elements r v GM)) E /\ state_of GM E (state2elements r v GM) <> State r v.
Proof.
  exists 1, (V 0 1 0), (V (-1) 0 0). assert (NR : norm (V 0 1 0) = 1) by (apply norm_unique; unfold dot; cbn; lra).
  assert (NH : norm (cross (V 0 1 0) (V (-1) 0 0)) = 1) by (apply norm_unique; unfold dot, cross; cbn; lra).
  split; [lra|]. split; [rewrite NR; unfold dot; cbn; lra|]. split; [rewrite NH; lra|].
  assert (A0 : atan2 0 0 = 0) by (unfold atan2; destruct (Rlt_dec 0 0); [lra|reflexivity]).
  assert (N0 : norm_angle 0 = 0) by (apply same_angle_range; [exact (proj1 (norm_angle_spec 0))|apply norm_angle_spec|pose proof PI_RGT_0; lra]).
  assert (EL : state2elements (V 0 1 0) (V (-1) 0 0) 1 = Ele 1 0 0 0 0 0).
  { unfold state2elements. rewrite NR, NH. unfold dot, cross. cbn [vx vy vz].
    replace (1 / (2 / 1 - (-1 * -1 + 0 * 0 + 0 * 0) / 1)) with 1 by field. replace (1 - 1 / 1) with 0 by field. replace (0 * -1 + 1 * 0 + 0 * 0) with 0 by ring. replace (1 * 1) with 1 by ring. rewrite sqrt_1.
    replace (0 / 1) with 0 by field. replace (0 * 0 + 0 * 0) with 0 by ring. rewrite sqrt_0. replace (sqrt (1 - 0) * 0) with 0 by ring. replace (0 - 0) with 0 by ring. rewrite A0.
    replace (0 * 0 - 1 * -1) with 1 by ring. replace (1 * 0 - 0 * 0) with 0 by ring. replace (0 * -1 - 0 * 0) with 0 by ring. replace (0 * 0 + 0 * 0) with 0 by ring. rewrite sqrt_0.
    replace (0 * 1) with 0 by ring. replace (- 0 * 0 + 1 * 0) with 0 by ring. replace (- 0) with 0 by ring. rewrite A0. replace (0 - 0) with 0 by ring. rewrite N0.
    f_equal. unfold atan2. destruct (Rlt_dec 0 1); [|lra]. replace (0 / 1) with 0 by field. apply atan_0. }
  rewrite EL. exists 0. split; [unfold kepler_eq; cbn; rewrite sin_0; ring|].
  intros Q. apply (f_equal (fun s => vy (st_r s))) in Q. unfold state_of in Q. cbn [el_a el_e el_i el_Omega el_omega el_M] in Q. rewrite perifocal_circle in Q. cbn in Q. unfold dot in Q. cbn in Q. rewrite ?cos_0, ?sin_0 in Q. lra.
Qed.
(* Montenbruck variant: the conic equation fails for its results *)
Lemma montenbruck_wrong : exists GM r v, regular GM r v /\ let k := state2kepler_montenbruck r v GM in
  norm r * (1 + k_e k * cos (k_theta k)) <> dot (cross r v) (cross r v) / GM.
Proof.
  assert (P2 : sqrt (1 / 2) * sqrt (1 / 2) = 1 / 2) by (apply sqrt_sqrt; lra). assert (P2p : 0 < sqrt (1 / 2)) by (apply sqrt_lt_R0; lra).
  set (q := sqrt (1 / 2)) in *. exists 1, (V 1 0 0), (V q 0 1).
  assert (NR : norm (V 1 0 0) = 1) by (apply norm_unique; unfold dot; cbn; lra).
  assert (HC : cross (V 1 0 0) (V q 0 1) = V 0 (-1) 0) by (apply vec_eq; unfold cross; cbn; ring).
  assert (DV : dot (V q 0 1) (V q 0 1) = 3 / 2) by (unfold dot; cbn; lra). assert (DR : dot (V 1 0 0) (V q 0 1) = q) by (unfold dot; cbn; ring).
  split. { split; [lra|]. split; [rewrite NR, DV; lra|]. right. rewrite HC. cbn. lra. }
  intros k. unfold k, state2kepler_montenbruck. rewrite HC, NR, DV, DR. cbn [k_e k_theta].
  replace (dot (V 0 (-1) 0) (V 0 (-1) 0) / 1) with 1 by (unfold dot; cbn; field). replace (1 / (2 / 1 - 3 / 2 / 1)) with 2 by field.
  replace (1 - 1 / 2) with (1 / 2) by field. fold q. replace (1 / (2 * 2 * 2)) with ((q / 2) * (q / 2)) by (replace (q / 2 * (q / 2)) with (q * q / 4) by field; rewrite P2; field).
  rewrite sqrt_square by lra. replace (q / 2 * 2 / (q / 2)) with 2 by (field; lra).
  destruct (atan2_spec (1 / 2) 2 ltac:(lra)) as (CE & SE & _). set (E := atan2 2 (1 / 2)) in *. assert (RR : 0 < sqrt (1 / 2 * (1 / 2) + 2 * 2)) by (apply sqrt_lt_R0; lra).
  assert (RR2 : sqrt (1 / 2 * (1 / 2) + 2 * 2) * sqrt (1 / 2 * (1 / 2) + 2 * 2) = 17 / 4) by (rewrite sqrt_sqrt; lra). set (g := sqrt (1 / 2 * (1 / 2) + 2 * 2)) in *.
  assert (EQ : q * q = 1 / 2) by exact P2. rewrite EQ. replace (1 - 1 / 2) with (1 / 2) by field. fold q.
  assert (S0 : 0 < sin E) by nra.
  assert (NZ : (cos E - q) * (cos E - q) + q * sin E * (q * sin E) <> 0).
  { assert (0 < q * sin E) by nra. pose proof (Rle_0_sqr (cos E - q)). unfold Rsqr in *. nra. }
  destruct (atan2_spec (cos E - q) (q * sin E) NZ) as (CT & _ & _). set (t := atan2 (q * sin E) (cos E - q)) in *.
  intros Q. assert (Z : q * cos t = 0) by lra. assert (ZT : cos t = 0) by (apply Rmult_eq_reg_l with q; lra). rewrite ZT, Rmult_0_r in CT.
  assert (cos E = q) by lra. rewrite H in CE. assert (g * q * (g * q) = 1 / 4) by (rewrite CE; field). replace (g * q * (g * q)) with (g * g * (q * q)) in H0 by ring. rewrite RR2, EQ in H0. lra.
Qed.
(* what is right in it *)
Lemma montenbruck_right GM r v : regular GM r v -> let k := state2kepler_montenbruck r v GM in
  cross r v = vscale (k_h k) (normal_dir (k_Omega k) (k_i k)) /\ k_e k = el_e (state2elements r v GM).
Proof.
  intros REG k. destruct (orb_rho GM r v REG) as (P & PP & HH & H0 & R0). destruct (orb_a GM r v REG) as (G & A & VV & K & K0). pose proof (orb_h GM r v REG) as OH.
  set (h := cross r v) in *. set (w := norm h) in *. set (q := sqrt (vx h * vx h + vy h * vy h)) in *. split.
  - assert (Q : sqrt (vx h / w * (vx h / w) + vy h / w * (vy h / w)) = q / w).
    { apply sqrt_lem_1; [|apply Rlt_le, Rdiv_lt_0_compat; assumption|].
      - pose proof (Rle_0_sqr (vx h / w)). pose proof (Rle_0_sqr (vy h / w)). unfold Rsqr in *. lra.
      - replace (q / w * (q / w)) with (q * q / (w * w)) by (field; lra). rewrite PP. field. lra. }
    unfold k, state2kepler_montenbruck. fold h. fold w. cbn [k_h k_Omega k_i vx vy vz]. rewrite Q.
    assert (QW : 0 < q / w) by (apply Rdiv_lt_0_compat; assumption).
    destruct (atan2_dir (vz h / w) (q / w) 1 ltac:(lra)) as [I1 I2].
    { replace (vz h / w * (vz h / w) + q / w * (q / w)) with ((q * q + vz h * vz h) / (w * w)) by (field; lra). rewrite <- HH. field. lra. }
    destruct (atan2_dir (- (vy h / w)) (vx h / w) (q / w) QW) as [O1 O2].
    { replace (q / w * (q / w)) with (q * q / (w * w)) by (field; lra). rewrite PP. field. lra. }
    unfold normal_dir. rewrite I1, I2, O1, O2. apply vec_eq; unfold vscale; cbn [vx vy vz]; field; lra.
  - unfold k, state2kepler_montenbruck, state2elements. fold h. cbn [k_e el_e]. f_equal. set (a := 1 / (2 / norm r - dot v v / GM)) in *. rewrite <- norm_sqr. fold w. rewrite OH.
    set (c := 1 - norm r / a). set (s := dot r v / sqrt (GM * a)). field. lra.
Qed.
