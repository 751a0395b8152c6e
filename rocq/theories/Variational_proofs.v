From Coq Require Import List ZArith Reals Lra Lia Bool.
From Verif Require Import Base Vec_model Vec_proofs Calc Harmonics_model Gravity_model Legendre GravHarm Gravity_proofs Frames_model Frames_proofs Forces_model Forces_proofs Variational_model.
Import ListNotations.
Local Open Scope R_scope.

(* ---- attitude and area ---- *)
(* product of quaternions *)
Definition qmul (a b : quat) : quat :=
  Quat (qw a * qw b - dot (qv a) (qv b)) (vadd (vadd (vscale (qw a) (qv b)) (vscale (qw b) (qv a))) (cross (qv a) (qv b))).
Definition qinv (q : quat) : quat := Quat (qw q) (vsub vzero (qv q)).
(* b is a turned back by the attitude: q* (0, a) q = |q|^2 (0, b) *)
Definition turned_back (q : quat) (a b : vec) : Prop :=
  qmul (qmul (qinv q) (Quat 0 a)) q = Quat 0 (vscale (qw q * qw q + dot (qv q) (qv q)) b).
Fixpoint total (l : list R) : R := match l with [] => 0 | x :: l => x + total l end.

Lemma unit_rotates q a : qnorm2 q = 1 -> qmul (qmul q (Quat 0 a)) (qinv q) = Quat 0 (qrotate q a).
Proof.
  destruct q as [w [x y z]], a as [a b c]. unfold qnorm2, qmul, qinv, qrotate. cbn [qw qv]. intros N. f_equal; vec_unfold; [ring|].
  assert (E : w * w = 1 - (x * x + y * y + z * z)) by lra. apply vec_eq; cbn [vx vy vz]; ring [E].
Qed.
Lemma area_sum plates q v : 0 < qw q * qw q + dot (qv q) (qv q) -> exists ns, Forall2 (fun p n => turned_back q (m_normal p) n) plates ns /\
  proj_area plates q v = total (map (fun pn => m_surf (fst pn) * Rmax 0 (dot (snd pn) v)) (combine plates ns)).
Proof.
  intros P. set (qq := qnormalized (qconjugate q)).
  assert (T : forall a, turned_back q a (qrotate qq a)).
  { intros a. unfold turned_back, qq, qnormalized. replace (qnorm2 (qconjugate q)) with (qw q * qw q + dot (qv q) (qv q)) by (unfold qnorm2, qconjugate; cbn [qw qv]; vec_ring).
    destruct (Rlt_dec _ _) as [_|F]; [|contradiction]. set (n2 := qw q * qw q + dot (qv q) (qv q)) in *. set (u := Quat (/ sqrt n2 * qw (qconjugate q)) (vscale (/ sqrt n2) (qv (qconjugate q)))).
    assert (S2 : sqrt n2 * sqrt n2 = n2) by (apply sqrt_sqrt; lra). assert (SP : 0 < sqrt n2) by (apply sqrt_lt_R0; exact P).
    assert (U : qnorm2 u = 1).
    { unfold u, qnorm2, qconjugate. cbn [qw qv]. transitivity (n2 * (/ sqrt n2 * / sqrt n2)); [generalize (/ sqrt n2); intros k; unfold n2; vec_unfold; ring|]. rewrite <- S2 at 1. field. lra. }
    pose proof (unit_rotates u a U) as E. 
    assert (Q1 : qinv q = Quat (sqrt n2 * qw u) (vscale (sqrt n2) (qv u))).
    { unfold u, qinv, qconjugate. cbn [qw qv]. f_equal; [field; lra|]. destruct (qv q) as [x y z]. vec_unfold. apply vec_eq; cbn [vx vy vz]; field; lra. }
    assert (Q2 : q = Quat (sqrt n2 * qw (qinv u)) (vscale (sqrt n2) (qv (qinv u)))).
    { destruct q as [w [x y z]]. unfold u, qinv, qconjugate. cbn [qw qv]. f_equal; [field; lra|]. vec_unfold. apply vec_eq; cbn [vx vy vz]; field; lra. }
    rewrite Q1. rewrite Q2 at 1. clear - E S2. set (k := sqrt n2) in *. clearbody k. rewrite <- S2.
    transitivity (Quat (k * k * qw (qmul (qmul u (Quat 0 a)) (qinv u))) (vscale (k * k) (qv (qmul (qmul u (Quat 0 a)) (qinv u))))).
    { clear E S2. destruct u as [w [x y z]], a as [a b c]. unfold qmul, qinv. cbn [qw qv]. f_equal; vec_ring. }
    rewrite E. cbn [qw qv]. f_equal. ring. }
  exists (map (fun p => qrotate qq (m_normal p)) plates). split.
  { induction plates; cbn; constructor; [apply T|assumption]. }
  unfold proj_area. fold qq.
  assert (G : forall a0, fold_left (fun area p => let rv := qrotate qq (m_normal p) in let ctheta := dot rv v in if Rlt_dec 0 ctheta then area + m_surf p * ctheta else area) plates a0 =
     a0 + total (map (fun pn => m_surf (fst pn) * Rmax 0 (dot (snd pn) v)) (combine plates (map (fun p => qrotate qq (m_normal p)) plates)))).
  { induction plates as [|p l IH]; intros a0; cbn [fold_left map combine total fst snd]; [ring|]. rewrite IH. cbn zeta. unfold Rmax. destruct (Rlt_dec 0 _), (Rle_dec 0 _); try lra. 
    all: assert (Z : dot (qrotate qq (m_normal p)) v = 0) by lra; rewrite ?Z; ring. }
  rewrite G. ring.
Qed.
(* turning back keeps lengths and angles *)
Lemma turned_dot q a b a' b' : 0 < qw q * qw q + dot (qv q) (qv q) -> turned_back q a a' -> turned_back q b b' -> dot a' b' = dot a b.
Proof.
  intros P A B. unfold turned_back in *. set (n2 := qw q * qw q + dot (qv q) (qv q)) in *.
  apply (f_equal qv) in A. apply (f_equal qv) in B. cbn [qv] in A, B.
  assert (E : n2 * n2 * dot a' b' = n2 * n2 * dot a b).
  { transitivity (dot (vscale n2 a') (vscale n2 b')); [vec_ring|]. rewrite <- A, <- B. unfold n2, qmul, qinv. cbn [qw qv]. clear. destruct q as [w [x y z]], a as [a1 a2 a3], b as [b1 b2 b3]. cbn [qw qv]. vec_ring. }
  apply (Rmult_eq_reg_l (n2 * n2)); [exact E|]. nra.
Qed.

(* ---- the epoch of the density ---- *)
Lemma whole_part x : 0 <= x -> (0 <= whole x)%Z /\ 0 <= x - IZR (whole x) < 1.
Proof.
  intros P. unfold whole. destruct (Rlt_dec x 0); [lra|]. pose proof (base_Int_part x) as [A B]. split; [|lra].
  apply le_IZR. destruct (Z_lt_le_dec (Int_part x) 0) as [L|L]; [|apply IZR_le; exact L]. exfalso. assert (IZR (Int_part x) <= -1) by (apply IZR_le; lia). lra.
Qed.
(* day and second of the day of an instant given in days *)
Definition clock_reading (t : R) (day : Z) (sec : R) : Prop := 0 <= sec < 86400 /\ IZR day * 86400 + sec = 86400 * t.
Lemma epoch_instant cmjd leap d f : utc_day cmjd leap 0 = (d, f) -> IZR d * 86400 + f * 86400 = 86400 * (cmjd - IZR leap / 86400).
Proof.
  unfold utc_day. replace (86400 + 0) with 86400 by ring. set (g := cmjd - IZR (whole cmjd) - IZR leap / 86400).
  assert (G : cmjd = IZR (whole cmjd) + g + IZR leap / 86400) by (unfold g; ring). clearbody g.
  destruct (Rlt_dec 1 g); [|destruct (Rlt_dec g 1)]; intros H; injection H as <- <-; rewrite ?plus_IZR, ?minus_IZR; lra.
Qed.
Lemma epoch_days cmjd leap d f day sec : 0 <= cmjd -> (0 <= leap < 86400)%Z -> clock_reading (cmjd - IZR leap / 86400) day sec -> utc_day cmjd leap 0 = (d, f) ->
  (whole cmjd <> day -> d = day /\ f * 86400 = sec) /\ (whole cmjd = day -> d = (day - 1)%Z /\ f * 86400 = sec + 86400).
Proof.
  intros P L (S & E) H. destruct (whole_part cmjd P) as [W0 W1]. assert (0 <= IZR leap / 86400 < 1).
  { destruct L as [L1 L2]. apply IZR_le in L1. apply IZR_lt in L2. split; lra. }
  unfold utc_day in H. replace (86400 + 0) with 86400 in H by ring. set (g := cmjd - IZR (whole cmjd) - IZR leap / 86400) in *.
  assert (G : cmjd = IZR (whole cmjd) + g + IZR leap / 86400) by (unfold g; ring).
  assert (g < 1) by (unfold g; lra). destruct (Rlt_dec 1 g); [lra|]. destruct (Rlt_dec g 1); [|lra]. injection H as <- <-. split.
  - intros N. assert (X : day = (whole cmjd - 1)%Z).
    { assert (X1 : IZR day < IZR (whole cmjd + 1)) by (rewrite plus_IZR; lra). assert (X2 : IZR (whole cmjd - 2) < IZR day) by (rewrite minus_IZR; lra).
      apply lt_IZR in X1. apply lt_IZR in X2. lia. }
    split; [symmetry; exact X|]. subst day. rewrite minus_IZR in E. lra.
  - intros N. subst day. split; [reflexivity|]. lra.
Qed.

(* ---- the equations ---- *)
Definition layout (y : state) (Phi : list state) : list R :=
  concat (map (fun s => [vx (st_r s); vy (st_r s); vz (st_r s); vx (st_v s); vy (st_v s); vz (st_v s)]) (y :: Phi)).
Lemma concat_skip Phi k : skipn (6 * k) (concat (map elements Phi)) = concat (map elements (skipn k Phi)).
Proof.
  revert k. induction Phi as [|c l IH]; intros k; [cbn; rewrite !skipn_nil; reflexivity|]. destruct k; [reflexivity|].
  replace (6 * S k)%nat with (6 + 6 * k)%nat by lia. cbn [map concat skipn elements app Nat.add]. apply IH.
Qed.
Lemma column_layout Phi k c : nth_error Phi k = Some c -> column (concat (map elements Phi)) k = Ok c.
Proof.
  intros H. unfold column. rewrite concat_skip. apply nth_error_split in H. destruct H as (l1 & l2 & -> & <-).
  rewrite skipn_app, skipn_all, Nat.sub_diag. cbn [skipn app map concat elements firstn]. destruct c as [[a b c] [d e f]]. reflexivity.
Qed.
Lemma columns_layout Phi n : forall k, (k + n <= length Phi)%nat -> columns (concat (map elements Phi)) k n = Ok (firstn n (skipn k Phi)).
Proof.
  induction n; intros k L; [reflexivity|]. cbn [columns]. destruct (nth_error Phi k) as [c|] eqn:E; [|apply nth_error_None in E; lia].
  rewrite (column_layout _ _ _ E). cbn [obind]. rewrite IHn by lia. cbn [obind]. f_equal.
  revert E. clear. revert Phi. induction k; intros [|d l] E; try discriminate; cbn in *; [congruence|]. apply IHk. exact E.
Qed.

(* the part of the result that starts at element k *)
Definition part (out : list R) (k : nat) (a : vec) : Prop := nth_error out k = Some (vx a) /\ nth_error out (k + 1) = Some (vy a) /\ nth_error out (k + 2) = Some (vz a).
Lemma part_elements cs k c : nth_error cs k = Some c -> part (concat (map elements cs)) (6 * k) (st_r c) /\ part (concat (map elements cs)) (6 * k + 3) (st_v c).
Proof.
  revert k. induction cs as [|d l IH]; intros [|k] E; try discriminate.
  - injection E as ->. cbn. repeat split.
  - specialize (IH k E). replace (6 * S k)%nat with (6 + 6 * k)%nat by lia. destruct IH as [(A & B & C) (A' & B' & C')]. unfold part. cbn [Nat.add map concat elements app nth_error]. tauto.
Qed.
Lemma rate_nth F cs : forall k j c, nth_error cs j = Some c -> nth_error (columns_rate F k cs) j = Some (splus (dfdy_times F c) (dfdS F (k + j))).
Proof.
  induction cs as [|d l IH]; intros k [|j] c E; try discriminate; cbn [columns_rate nth_error] in *.
  - injection E as ->. rewrite Nat.add_0_r. reflexivity.
  - rewrite (IH (S k) j c E). do 3 f_equal. lia.
Qed.
Lemma rate_length F cs k : length (columns_rate F k cs) = length cs.
Proof. revert k. induction cs; intros k; cbn; [reflexivity|]. rewrite IHcs. reflexivity. Qed.
Lemma elements_length cs : length (concat (map elements cs)) = (6 * length cs)%nat.
Proof. induction cs; [reflexivity|]. cbn [map concat length]. rewrite app_length, IHcs. cbn [elements length]. lia. Qed.

(* what the function delivers, in terms of the acceleration and its partials *)
Lemma variational_ok E tsec y Phi F : length Phi = 7%nat -> motion E tsec (st_r y) (st_v y) = Ok (Some F) ->
  variational E tsec (layout y Phi) = Ok (Some (concat (map elements (State (st_v y) (f_acc F) :: columns_rate F 0 Phi)))).
Proof.
  intros L M. unfold variational. change (layout y Phi) with (concat (map elements (y :: Phi))). rewrite (column_layout (y :: Phi) 0 y) by reflexivity. cbn [obind]. rewrite M. cbn [obind].
  rewrite columns_layout by (cbn [length]; lia). cbn [obind skipn]. rewrite <- L, firstn_all. reflexivity.
Qed.
Lemma variational_parts E tsec y Phi F : length Phi = 7%nat -> motion E tsec (st_r y) (st_v y) = Ok (Some F) ->
  exists out, variational E tsec (layout y Phi) = Ok (Some out) /\ length out = 48%nat /\ part out 0 (st_v y) /\ part out 3 (f_acc F) /\
    forall j c, nth_error Phi j = Some c -> part out (6 * (j + 1)) (st_v c) /\
      part out (6 * (j + 1) + 3) (vadd (vadd (mulv (f_dr F) (st_r c)) (mulv (f_dv F) (st_v c))) (if Nat.eqb j 6 then f_dC F else vzero)).
Proof.
  intros L M. eexists. split; [exact (variational_ok E tsec y Phi F L M)|]. split; [rewrite elements_length; cbn [length]; rewrite rate_length; lia|].
  destruct (part_elements (State (st_v y) (f_acc F) :: columns_rate F 0 Phi) 0 _ eq_refl) as [A B]. split; [exact A|]. split; [exact B|].
  intros j c N. destruct (part_elements (State (st_v y) (f_acc F) :: columns_rate F 0 Phi) (j + 1) (splus (dfdy_times F c) (dfdS F j))) as [C D].
  { rewrite Nat.add_1_r. cbn [nth_error]. rewrite (rate_nth F Phi 0 j c N). reflexivity. }
  split.
  - replace (st_v c) with (st_r (splus (dfdy_times F c) (dfdS F j))); [exact C|]. unfold splus, dfdy_times, dfdS. destruct (Nat.eqb j 6); cbn [st_r st_v]; vec_ring.
  - replace (vadd _ _) with (st_v (splus (dfdy_times F c) (dfdS F j))); [exact D|]. unfold splus, dfdy_times, dfdS. destruct (Nat.eqb j 6); reflexivity.
Qed.

(* the circumstances of an epoch: what the external routines deliver *)
Record moment := Moment { mo_cel : mat; mo_sun : vec; mo_moon : vec; mo_att : quat; mo_rho : vec -> R }.
Definition circumstances (E : env) (tsec : R) (m : moment) : Prop :=
  let mjd := mjd_tai E + tsec / sec_per_day E in
  (exists rc2i era rpom, earth E mjd = Some (rc2i, era, rpom) /\ mo_cel m = mulm rpom (mulm (turn_z (- era)) rc2i)) /\
  planets E (mjd + 32184 / 1000 / 86400 + mjd0_jd E) = (mo_sun m, mo_moon m) /\ attitude E mjd = Some (mo_att m) /\
  exists leap eid day fday, leaps E mjd = (leap, eid) /\ utc_day mjd leap eid = (day, fday) /\ air E day (fday * 86400) = Some (mo_rho m).
Definition body (GM : R) (r s : vec) : vec := vsub (newton GM r s) (newton GM vzero s).
Definition flow (E : env) (r v : vec) : vec := air_speed (V 0 0 (omega0 E)) r v.
Definition facing (E : env) (m : moment) (r v : vec) : R := proj_area (macromodel E) (mo_att m) (normalized (flow E r v)).
Definition drag_part (E : env) (m : moment) (r v : vec) : drag_result :=
  drag_accel_partials (omega0 E) r v (facing E m r v) (drag_coef E) (sat_mass E) (mo_rho m r) (density_differences (mo_rho m) r).
Lemma motion_ok E tsec m r v g G : circumstances E tsec m -> gravity E (mulv (mo_cel m) r) = Ok (Some (g, G)) ->
  motion E tsec r v = Ok (Some (Frc (vadd (vadd (vadd (mulv (transpose (mo_cel m)) g) (sun_acc (SunMoon (mo_sun m) (mo_moon m) r (GMSun E) (GMMon E)))) (moon_acc (SunMoon (mo_sun m) (mo_moon m) r (GMSun E) (GMMon E)))) (dr_acc (drag_part E m r v)))
    (madd (madd (mulm (mulm (mo_cel m) G) (transpose (mo_cel m))) (mon_partials (SunMoon (mo_sun m) (mo_moon m) r (GMSun E) (GMMon E)))) (daccdr (drag_part E m r v))) (daccdv (drag_part E m r v)) (daccdC (drag_part E m r v)))).
Proof.
  intros ((rc2i & era & rpom & EE & EC) & EP & EA & leap & eid & day & fday & EL & ED & ER) EG. unfold motion. rewrite EE.
  unfold rcel2ter, rter2cel, cel2ter, rot_era. rewrite <- EC, EG. cbn [obind]. unfold sunmoon_jd. rewrite EP, EA, EL, ED, ER. reflexivity.
Qed.

Lemma equations E tsec m y Phi g G : length Phi = 7%nat -> circumstances E tsec m -> gravity E (mulv (mo_cel m) (st_r y)) = Ok (Some (g, G)) ->
  exists out, variational E tsec (layout y Phi) = Ok (Some out) /\ length out = 48%nat /\ part out 0 (st_v y) /\
    part out 3 (vadd (vadd (vadd (mulv (transpose (mo_cel m)) g)
                                 (vscale (/ 10 ^ 6) (body (10 ^ 9 * GMSun E) (st_r y) (vscale 1000 (mo_sun m)))))
                           (body (10 ^ 9 * GMMon E) (st_r y) (vscale 1000 (mo_moon m))))
                     (drag_law (V 0 0 (omega0 E)) (st_r y) (st_v y) (facing E m (st_r y) (st_v y)) (drag_coef E) (sat_mass E) (mo_rho m (st_r y)))).
Proof.
  intros L C EG. pose proof (motion_ok E tsec m (st_r y) (st_v y) g G C EG) as M. destruct (variational_parts E tsec y Phi _ L M) as (out & V & LO & A & B & _).
  exists out. split; [exact V|]. split; [exact LO|]. split; [exact A|]. cbn [f_acc] in B.
  assert (S : sun_acc (SunMoon (mo_sun m) (mo_moon m) (st_r y) (GMSun E) (GMMon E)) = vscale (/ 10 ^ 6) (body (10 ^ 9 * GMSun E) (st_r y) (vscale 1000 (mo_sun m)))).
  { unfold body. fold (sun_wanted (mo_sun m) (st_r y) (GMSun E)). rewrite (sun_million _ (mo_moon m) _ _ (GMMon E)), vscale_vscale. replace (/ 10 ^ 6 * 10 ^ 6) with 1 by field. vec_ring. }
  rewrite S in B. destruct (moon_right (mo_sun m) (mo_moon m) (st_r y) (GMSun E) (GMMon E)) as [MR _]. rewrite MR in B.
  unfold drag_part in B. rewrite drag_same, drag_plain in B. exact B.
Qed.

(* gravity in the inertial frame: the gradient of the potential of the place on the rotating Earth *)
Lemma inertial_gravity Re GM C S degree order TV TW h junk cel p lam s u : Re <> 0 -> (1 <= order <= degree)%nat -> coefficients h degree C S -> exact_size TV degree order -> exact_size TW degree order ->
  vderiv p s u -> mulv cel (p s) <> vzero -> (forall t, longitude (mulv cel (p t)) (lam t)) ->
  exists g G, grav_potential_accel degree order Re GM TV TW h junk (mulv cel (p s)) = Ok (Some (g, G)) /\
    derivable_pt_lim (fun t => potential GM Re C S degree order (mulv cel (p t)) (lam t)) s (dot (mulv (transpose cel) g) u).
Proof.
  intros NR OD CO SV SW D N L. destruct (partials_at_ok Re GM C S degree order TV TW h (mulv cel (p s)) junk OD CO N SV SW) as (P & tabs & EP & _).
  exists (field Re GM C S degree order (mulv cel (p s))), P. split; [unfold grav_potential_accel; rewrite EP; reflexivity|].
  eapply deriv_eq; [apply (field_gradient Re GM C S degree order (fun t => mulv cel (p t)) lam s (mulv cel u) NR (vderiv_mulv cel p s u D) N L)|].
  rewrite (dot_mulv (transpose cel)), transpose_invol. reflexivity.
Qed.

(* ---- transition and sensitivity ---- *)
Definition with_drag (E : env) (c : R) : env :=
  Env (mjd_tai E) (omega0 E) (sec_per_day E) (mjd0_jd E) (earth E) (gravity E) (planets E) (GMSun E) (GMMon E) (attitude E) (macromodel E) (leaps E) (air E) (sat_mass E) c.
(* the acceleration that the function gives for a state *)
Definition accelerates (E : env) (tsec : R) (r v a : vec) : Prop :=
  exists out, variational E tsec (layout (State r v) (repeat (State vzero vzero) 7)) = Ok (Some out) /\ part out 3 a.
Lemma part_unique out k a b : part out k a -> part out k b -> a = b.
Proof. intros (A & B & C) (A' & B' & C'). apply vec_eq; congruence. Qed.
Lemma accelerates_is E tsec m r v g G a : circumstances E tsec m -> gravity E (mulv (mo_cel m) r) = Ok (Some (g, G)) -> accelerates E tsec r v a <->
  a = vadd (vadd (vadd (mulv (transpose (mo_cel m)) g) (sun_acc (SunMoon (mo_sun m) (mo_moon m) r (GMSun E) (GMMon E)))) (moon_acc (SunMoon (mo_sun m) (mo_moon m) r (GMSun E) (GMMon E)))) (dr_acc (drag_part E m r v)).
Proof.
  intros C EG. pose proof (motion_ok E tsec m r v g G C EG) as M.
  destruct (variational_parts E tsec (State r v) (repeat (State vzero vzero) 7) _ eq_refl M) as (out' & V' & _ & _ & B & _). cbn [f_acc st_r st_v] in B. split.
  - intros (out & V & A). rewrite V in V'. injection V' as <-. exact (part_unique _ _ _ _ A B).
  - intros ->. exists out'. split; [exact V'|exact B].
Qed.
Lemma circumstances_drag E tsec m c : circumstances E tsec m -> circumstances (with_drag E c) tsec m.
Proof. intros H. exact H. Qed.
Lemma transition E tsec m y Phi j col fld jac p q c a s :
  length Phi = 7%nat -> nth_error Phi j = Some col -> circumstances E tsec m ->
  (forall x, x <> vzero -> gravity E x = Ok (Some (fld x, jac x))) -> mulv (mo_cel m) (st_r y) <> vzero -> is_jacobian fld (mulv (mo_cel m) (st_r y)) (jac (mulv (mo_cel m) (st_r y))) ->
  (let A := mo_cel m in let J := jac (mulv A (st_r y)) in mulm (mulm A J) (transpose A) = mulm (mulm (transpose A) J) A) ->
  GMSun E = 0 -> st_r y <> vscale 1000 (mo_moon m) -> dot (vsub (st_r y) (vscale 1000 (mo_moon m))) (st_r col) = 0 ->
  gradient (mo_rho m) (st_r y) (density_differences (mo_rho m) (st_r y)) -> flow E (st_r y) (st_v y) <> vzero ->
  p s = st_r y -> q s = st_v y -> c s = drag_coef E -> vderiv p s (st_r col) -> vderiv q s (st_v col) -> derivable_pt_lim c s (if Nat.eqb j 6 then 1 else 0) ->
  (forall t, facing E m (p t) (q t) = facing E m (st_r y) (st_v y)) ->
  (forall t, accelerates (with_drag E (c t)) tsec (p t) (q t) (a t)) ->
  exists out da, variational E tsec (layout y Phi) = Ok (Some out) /\ part out (6 * (j + 1)) (st_v col) /\ part out (6 * (j + 1) + 3) da /\ vderiv a s da.
Proof.
  intros L N C EG NZ JAC SYM SUN NM AC GR FL PS QS CS DP DQ DC AR AL.
  pose proof (motion_ok E tsec m (st_r y) (st_v y) _ _ C (EG _ NZ)) as M. destruct (variational_parts E tsec y Phi _ L M) as (out & VV & _ & _ & _ & H).
  destruct (H j col N) as [A B]. cbn [f_dr f_dv f_dC] in B. eexists out, _. split; [exact VV|]. split; [exact A|]. split; [exact B|]. clear H A B VV M.
  cbn zeta in SYM. set (cel := mo_cel m) in *. set (J := jac (mulv cel (st_r y))) in *.
  assert (DG : vderiv (fun t => mulv (transpose cel) (fld (mulv cel (p t)))) s (mulv (transpose cel) (mulv J (mulv cel (st_r col))))).
  { apply vderiv_mulv. apply (JAC (fun t => mulv cel (p t))); [apply vderiv_mulv; exact DP|rewrite PS; reflexivity]. }
  assert (DM : vderiv (fun t => moon_acc (SunMoon (mo_sun m) (mo_moon m) (p t) (GMSun E) (GMMon E))) s (mulv (mon_partials (SunMoon (mo_sun m) (mo_moon m) (st_r y) (GMSun E) (GMMon E))) (st_r col))).
  { change 1000 with (IZR 1000) in *. assert (T : vscale (10 ^ 3) (mo_moon m) = vscale 1000 (mo_moon m)) by (f_equal; ring).
    pose proof (third_body_across (GMMon E * 10 ^ 9) (vscale (10 ^ 3) (mo_moon m)) p s (st_r col) DP) as X. rewrite PS, T in X. specialize (X NM AC).
    unfold SunMoon. rewrite T. destruct (point_mass_partials (GMMon E * 10 ^ 9) (st_r y) (vscale 1000 (mo_moon m))) as [ma mp] eqn:EM. cbn [mon_partials snd] in *.
    apply vderiv_ext with (2 := X). intros t. reflexivity. }
  assert (DD : vderiv (fun t => drag_accel (omega0 E) (p t) (q t) (facing E m (st_r y) (st_v y)) (c t) (sat_mass E) (mo_rho m (p t))) s
     (vadd (mulv (daccdr (drag_part E m (st_r y) (st_v y))) (st_r col)) (vadd (mulv (daccdv (drag_part E m (st_r y) (st_v y))) (st_v col)) (vscale (if Nat.eqb j 6 then 1 else 0) (daccdC (drag_part E m (st_r y) (st_v y))))))).
  { pose proof (drag_derivative (omega0 E) (facing E m (st_r y) (st_v y)) (sat_mass E) (mo_rho m) (density_differences (mo_rho m) (st_r y)) p q c s (st_r col) (st_v col) _ DP DQ DC) as X.
    rewrite PS, QS, CS in X. exact (X GR FL). }
  destruct (nonzero_near (fun t => mulv cel (p t)) s _ (vderiv_mulv cel p s _ DP)) as (r0 & R0 & NEAR); [rewrite PS; exact NZ|].
  assert (SZ : forall r, sun_acc (SunMoon (mo_sun m) (mo_moon m) r (GMSun E) (GMMon E)) = vzero).
  { intros r. unfold SunMoon. destruct (point_mass_partials _ _ _). cbn [sun_acc]. unfold point_mass_accel. rewrite SUN. vec_ring. }
  eapply vderiv_near with (f := fun t => vadd (vadd (mulv (transpose cel) (fld (mulv cel (p t)))) (moon_acc (SunMoon (mo_sun m) (mo_moon m) (p t) (GMSun E) (GMMon E)))) (drag_accel (omega0 E) (p t) (q t) (facing E m (st_r y) (st_v y)) (c t) (sat_mass E) (mo_rho m (p t)))); [exact R0| |].
  - intros t T. specialize (AL t). apply (accelerates_is (with_drag E (c t)) tsec m (p t) (q t) _ _ (a t) (circumstances_drag E tsec m (c t) C) (EG _ (NEAR t T))) in AL. rewrite AL.
    fold cel. cbn [with_drag GMSun GMMon]. rewrite SZ. unfold drag_part. rewrite drag_same. cbn [with_drag omega0 sat_mass drag_coef].
    change (facing (with_drag E (c t)) m (p t) (q t)) with (facing E m (p t) (q t)). rewrite AR. f_equal. f_equal. vec_ring.
  - eapply vderiv_eq; [apply vderiv_add; [apply vderiv_add; [exact DG|exact DM]|exact DD]|].
    rewrite !madd_mulv, SYM, !mulv_mulm. generalize (mulv (transpose cel) (mulv J (mulv cel (st_r col)))). intros x1. generalize (mulv (mon_partials (SunMoon (mo_sun m) (mo_moon m) (st_r y) (GMSun E) (GMMon E))) (st_r col)). intros x2.
    generalize (mulv (daccdr (drag_part E m (st_r y) (st_v y))) (st_r col)) (mulv (daccdv (drag_part E m (st_r y) (st_v y))) (st_v col)) (daccdC (drag_part E m (st_r y) (st_v y))). intros x3 x4 x5. destruct (Nat.eqb j 6); vec_ring.
Qed.

(* ---- examples and counterexamples ---- *)
(* a simple world: no rotation of the atmosphere, a Moon without mass *)
Definition plain (cel : R) (g : vec -> vec) (G : mat) (gms : R) (plates : list plate) (rho : vec -> R) : env :=
  Env 59000 0 86400 0 (fun _ => Some (identity, cel, identity)) (fun x => Ok (Some (g x, G))) (fun _ => (V 1 0 0, V 1 0 0)) gms 0 (fun _ => Some (Quat 1 vzero)) plates (fun _ => (37, 0)%Z) (fun _ _ => Some rho) 1 1.
Definition plain_moment (cel : R) (rho : vec -> R) : moment := Moment (mulm identity (mulm (turn_z (- cel)) identity)) (V 1 0 0) (V 1 0 0) (Quat 1 vzero) rho.
Lemma plain_circumstances cel g G gms plates rho : circumstances (plain cel g G gms plates rho) 0 (plain_moment cel rho).
Proof.
  split; [exists identity, cel, identity; split; reflexivity|]. split; [reflexivity|]. split; [reflexivity|].
  destruct (utc_day (59000 + 0 / 86400) 37 0) as [d f] eqn:E. exists 37%Z, 0%Z, d, f. split; [reflexivity|]. split; [exact E|reflexivity].
Qed.
Lemma plain_cel cel rho : mo_cel (plain_moment cel rho) = turn_z (- cel).
Proof. cbn [plain_moment mo_cel]. rewrite mulm_identity_l, mulm_identity_r. reflexivity. Qed.
Definition unit_columns : list state :=
  [State (V 1 0 0) vzero; State (V 0 1 0) vzero; State (V 0 0 1) vzero; State vzero (V 1 0 0); State vzero (V 0 1 0); State vzero (V 0 0 1); State vzero vzero].

(* the statement that is refuted: the columns of the result are the derivatives of the first column
   along the columns given *)
Definition wrong_column (E : env) (y : state) (j : nat) (p q : R -> vec) (a : R -> vec) : Prop :=
  exists col out da, nth_error unit_columns j = Some col /\ p 0 = st_r y /\ q 0 = st_v y /\ vderiv p 0 (st_r col) /\ vderiv q 0 (st_v col) /\
    (forall t, accelerates E 0 (p t) (q t) (a t)) /\ variational E 0 (layout y unit_columns) = Ok (Some out) /\ part out (6 * (j + 1) + 3) da /\ ~ vderiv a 0 da.
Lemma wrong_column_by cel g G gms plates rho y j p q a col d F : let E := plain cel g G gms plates rho in let m := plain_moment cel rho in
  nth_error unit_columns j = Some col -> p 0 = st_r y -> q 0 = st_v y -> vderiv p 0 (st_r col) -> vderiv q 0 (st_v col) ->
  (forall t, a t = vadd (vadd (vadd (mulv (transpose (turn_z (- cel))) (g (mulv (turn_z (- cel)) (p t)))) (sun_acc (SunMoon (V 1 0 0) (V 1 0 0) (p t) gms 0))) vzero) (dr_acc (drag_part E m (p t) (q t)))) ->
  vderiv a 0 d ->
  motion E 0 (st_r y) (st_v y) = Ok (Some F) -> vadd (vadd (mulv (f_dr F) (st_r col)) (mulv (f_dv F) (st_v col))) (if Nat.eqb j 6 then f_dC F else vzero) <> d ->
  wrong_column E y j p q a.
Proof.
  intros E m N P Q DP DQ AE DA M NE. destruct (variational_parts E 0 y unit_columns F eq_refl M) as (out & VO & _ & _ & _ & H). destruct (H j col N) as [_ B].
  exists col, out. eexists. split; [exact N|]. split; [exact P|]. split; [exact Q|]. split; [exact DP|]. split; [exact DQ|]. split.
  { intros t. apply (accelerates_is E 0 m (p t) (q t) (g (mulv (mo_cel m) (p t))) G (a t) (plain_circumstances cel g G gms plates rho)); [reflexivity|]. rewrite AE. assert (CE : mo_cel m = turn_z (- cel)) by apply plain_cel. rewrite CE.
    assert (MZ : moon_acc (SunMoon (V 1 0 0) (V 1 0 0) (p t) gms 0) = vzero). { rewrite (proj1 (moon_right _ _ _ _ _)). rewrite Rmult_0_r. unfold newton, Rdiv. rewrite !Rmult_0_l. vec_ring. }
    change (mo_sun m) with (V 1 0 0). change (mo_moon m) with (V 1 0 0). change (GMSun E) with gms. change (GMMon E) with 0. rewrite MZ. reflexivity. }
  split; [exact VO|]. split; [exact B|]. intros D. apply NE. exact (vderiv_unique _ _ _ _ D DA).
Qed.
(* no plates, no drag *)
Lemma vscale_none u : vscale 0 u = vzero. Proof. vec_ring. Qed.
Lemma mscale_none M : mscale 0 M = mat9 0 0 0 0 0 0 0 0 0. Proof. vec_ring. Qed.
Lemma no_area om r v CD M rho g : let d := drag_accel_partials om r v 0 CD M rho g in
  dr_acc d = vzero /\ daccdr d = mat9 0 0 0 0 0 0 0 0 0 /\ daccdv d = mat9 0 0 0 0 0 0 0 0 0.
Proof.
  intros d. unfold d, drag_accel_partials. cbn [dr_acc daccdr daccdv]. generalize (vsub v (cross (earth_spin om) r)). intros w. unfold Rdiv. rewrite !Rmult_0_l, !Rmult_0_r, !Rmult_0_l, !vscale_none, !mscale_none.
  split; [reflexivity|]. split; [|reflexivity]. vec_ring.
Qed.
Lemma no_plates cel g G gms rho r v : dr_acc (drag_part (plain cel g G gms [] rho) (plain_moment cel rho) r v) = vzero /\ daccdr (drag_part (plain cel g G gms [] rho) (plain_moment cel rho) r v) = mat9 0 0 0 0 0 0 0 0 0 /\ daccdv (drag_part (plain cel g G gms [] rho) (plain_moment cel rho) r v) = mat9 0 0 0 0 0 0 0 0 0.
Proof. apply no_area. Qed.

Lemma no_moon a b r gs : mon_partials (SunMoon a b r gs 0) = mat9 0 0 0 0 0 0 0 0 0.
Proof. unfold SunMoon, point_mass_partials. cbn [mon_partials]. rewrite Rmult_0_l, Ropp_0. apply mscale_none. Qed.
Lemma no_sun a b r gm : sun_acc (SunMoon a b r 0 gm) = vzero.
Proof. unfold SunMoon. destruct (point_mass_partials _ _ _). cbn [sun_acc]. unfold point_mass_accel. rewrite Ropp_0, vscale_none. unfold vscale. vec_ring. Qed.
Definition line (r u : vec) (t : R) : vec := vadd r (vscale t u).
Lemma line_0 r u : line r u 0 = r. Proof. unfold line. vec_ring. Qed.
Lemma const_deriv v : vderiv (fun _ => v) 0 vzero. Proof. apply vderiv_const. Qed.
Definition G1 : mat := mat9 1 0 0 0 0 0 0 0 0.
Lemma rotation_wrong : wrong_column (plain (PI / 4) (mulv G1) G1 0 [] (fun _ => 0)) (State (V 1 0 0) (V 0 1 0)) 0 (line (V 1 0 0) (V 1 0 0)) (fun _ => V 0 1 0)
  (fun t => mulv (transpose (turn_z (- (PI / 4)))) (mulv G1 (mulv (turn_z (- (PI / 4))) (line (V 1 0 0) (V 1 0 0) t)))).
Proof.
  destruct (no_plates (PI / 4) (mulv G1) G1 0 (fun _ => 0) (V 1 0 0) (V 0 1 0)) as (_ & DR & DV).
  eapply (wrong_column_by (PI / 4) (mulv G1) G1 0 [] (fun _ => 0) _ 0).
  - reflexivity.
  - apply line_0.
  - reflexivity.
  - apply vderiv_line.
  - apply const_deriv.
  - intros t. destruct (no_plates (PI / 4) (mulv G1) G1 0 (fun _ => 0) (line (V 1 0 0) (V 1 0 0) t) (V 0 1 0)) as (-> & _ & _).
    assert (SZ : sun_acc (SunMoon (V 1 0 0) (V 1 0 0) (line (V 1 0 0) (V 1 0 0) t) 0 0) = vzero) by apply no_sun.
    rewrite SZ. generalize (mulv (transpose (turn_z (- (PI / 4)))) (mulv G1 (mulv (turn_z (- (PI / 4))) (line (V 1 0 0) (V 1 0 0) t)))). vec_ring.
  - apply vderiv_mulv, vderiv_mulv, vderiv_mulv. apply vderiv_line.
  - apply (motion_ok _ 0 (plain_moment (PI / 4) (fun _ => 0)) (V 1 0 0) (V 0 1 0) (mulv G1 (mulv (mo_cel (plain_moment (PI / 4) (fun _ => 0))) (V 1 0 0))) G1); [apply plain_circumstances|reflexivity].
  - cbn [f_dr f_dv f_dC st_r st_v Nat.eqb]. rewrite DR, DV, !plain_cel. intros EQ. apply (f_equal vy) in EQ.
    assert (MP : mon_partials (SunMoon (mo_sun (plain_moment (PI / 4) (fun _ => 0))) (mo_moon (plain_moment (PI / 4) (fun _ => 0))) (V 1 0 0) (GMSun (plain (PI / 4) (mulv G1) G1 0 [] (fun _ => 0))) (GMMon (plain (PI / 4) (mulv G1) G1 0 [] (fun _ => 0)))) = mat9 0 0 0 0 0 0 0 0 0).
    { apply no_moon. }
    rewrite MP in EQ. clear - EQ. assert (P : 0 < cos (PI / 4)) by (apply cos_gt_0; pose proof PI_RGT_0; lra).
    assert (T : turn_z (- (PI / 4)) = mat9 (cos (PI / 4)) (cos (PI / 4)) 0 (- cos (PI / 4)) (cos (PI / 4)) 0 0 0 1).
    { clear EQ. unfold turn_z. rewrite cos_neg, sin_neg, sin_cos_PI4. vec_ring. }
    rewrite T in EQ. set (c := cos (PI / 4)) in *. clearbody c. clear T.
    assert (M1 : mulm (mulm (mat9 c c 0 (- c) c 0 0 0 1) G1) (transpose (mat9 c c 0 (- c) c 0 0 0 1)) = mat9 (c * c) (- (c * c)) 0 (- (c * c)) (c * c) 0 0 0 0) by (clear; unfold G1; vec_ring).
    assert (M2 : forall x, mulv (transpose (mat9 c c 0 (- c) c 0 0 0 1)) (mulv G1 (mulv (mat9 c c 0 (- c) c 0 0 0 1) x)) = V (c * c * (vx x + vy x)) (c * c * (vx x + vy x)) 0) by (clear; intros x; unfold G1; vec_ring).
    rewrite M1, M2 in EQ. clear M1 M2. vec_unfold. nra.
Qed.

Definition vertical (r : vec) : R := vz r.
Definition one_plate : list plate := [Plate 1 (V 1 0 0)].
Lemma one_facing g G cel gms r : facing (plain cel g G gms one_plate vertical) (plain_moment cel vertical) r (V 1 0 0) = 1.
Proof.
  unfold facing, flow, proj_area, one_plate. cbn [plain macromodel omega0 plain_moment mo_att fold_left m_surf m_normal].
  assert (F : air_speed (V 0 0 0) r (V 1 0 0) = V 1 0 0) by (unfold air_speed; vec_ring). rewrite F.
  assert (D1 : dot (V 1 0 0) (V 1 0 0) = 1) by vec_ring. assert (N1 : normalized (V 1 0 0) = V 1 0 0).
  { unfold normalized, norm. rewrite D1, sqrt_1. destruct (Rlt_dec 0 1); [|lra]. rewrite Rinv_1. vec_ring. }
  rewrite N1. assert (Q : qrotate (qnormalized (qconjugate (Quat 1 vzero))) (V 1 0 0) = V 1 0 0).
  { unfold qnormalized, qnorm2, qconjugate. cbn [qw qv]. assert (E : 1 * 1 + dot (vscale (-1) vzero) (vscale (-1) vzero) = 1) by vec_ring. rewrite E, sqrt_1, Rinv_1. destruct (Rlt_dec 0 1); [|lra]. unfold qrotate. cbn [qw qv]. vec_ring. }
  rewrite Q, D1. destruct (Rlt_dec 0 1); lra.
Qed.
Lemma density_wrong : wrong_column (plain 0 (fun _ => vzero) G1 0 one_plate vertical) (State (V 0 0 1) (V 1 0 0)) 2 (line (V 0 0 1) (V 0 0 1)) (fun _ => V 1 0 0) (line (V (- / 2) 0 0) (V (- / 2) 0 0)).
Proof.
  assert (AC : forall r, dr_acc (drag_part (plain 0 (fun _ => vzero) G1 0 one_plate vertical) (plain_moment 0 vertical) r (V 1 0 0)) = V (- / 2 * vz r) 0 0).
  { intros r. unfold drag_part. rewrite one_facing, drag_same, drag_plain. cbn [plain omega0 drag_coef sat_mass plain_moment mo_rho]. unfold drag_law, vertical.
    assert (F : air_speed (V 0 0 0) r (V 1 0 0) = V 1 0 0) by (unfold air_speed; vec_ring). rewrite F. assert (N : norm (V 1 0 0) = 1) by (apply norm_unique; [lra|vec_ring]). rewrite N. vec_unfold. apply vec_eq; cbn; field. }
  eapply (wrong_column_by 0 (fun _ => vzero) G1 0 one_plate vertical _ 2).
  - reflexivity.
  - apply line_0.
  - reflexivity.
  - apply vderiv_line.
  - apply const_deriv.
  - intros t. rewrite AC.
    assert (SZ : sun_acc (SunMoon (V 1 0 0) (V 1 0 0) (line (V 0 0 1) (V 0 0 1) t) 0 0) = vzero) by apply no_sun.
    rewrite SZ. unfold line. vec_ring.
  - apply vderiv_line.
  - apply (motion_ok _ 0 (plain_moment 0 vertical) (V 0 0 1) (V 1 0 0) vzero G1); [apply plain_circumstances|reflexivity].
  - cbn [f_dr f_dv f_dC st_r st_v Nat.eqb]. rewrite plain_cel, Ropp_0. intros EQ. apply (f_equal vx) in EQ.
    assert (MP : mon_partials (SunMoon (mo_sun (plain_moment 0 vertical)) (mo_moon (plain_moment 0 vertical)) (V 0 0 1) (GMSun (plain 0 (fun _ => vzero) G1 0 one_plate vertical)) (GMMon (plain 0 (fun _ => vzero) G1 0 one_plate vertical))) = mat9 0 0 0 0 0 0 0 0 0).
    { apply no_moon. }
    rewrite MP in EQ. assert (TI : turn_z 0 = identity) by (unfold turn_z; rewrite cos_0, sin_0, Ropp_0; reflexivity). rewrite TI in EQ.
    assert (DR : daccdr (drag_part (plain 0 (fun _ => vzero) G1 0 one_plate vertical) (plain_moment 0 vertical) (V 0 0 1) (V 1 0 0)) = mat9 0 0 0 0 0 0 0 0 0).
    { unfold drag_part, drag_accel_partials. cbn [daccdr plain omega0 plain_moment mo_rho]. assert (DZ : density_differences vertical (V 0 0 1) = vzero) by (clear; unfold density_differences, vertical; vec_unfold; apply vec_eq; cbn; field). rewrite DZ. clear.
      assert (ON : forall u, outer u vzero = mat9 0 0 0 0 0 0 0 0 0) by vec_ring. assert (ZZ : transpose (mat9 0 0 0 (- 0) 0 0 0 0 0) = mat9 0 0 0 0 0 0 0 0 0) by vec_ring.
      assert (MN : forall M, msub (mat9 0 0 0 0 0 0 0 0 0) (mulm M (mat9 0 0 0 0 0 0 0 0 0)) = mat9 0 0 0 0 0 0 0 0 0) by vec_ring. rewrite ON, ZZ. apply MN. }
    rewrite DR in EQ. set (DV := daccdv _) in EQ. assert (ZV : mulv DV vzero = vzero) by (clear; vec_ring). rewrite ZV in EQ. clear - EQ.
    assert (IG : mulm (mulm identity G1) (transpose identity) = G1) by (clear; unfold G1; vec_ring). rewrite IG in EQ. clear IG. unfold G1, line in EQ. vec_unfold. lra.
Qed.
Lemma sun_partials_wrong : wrong_column (plain 0 (fun _ => vzero) (mat9 0 0 0 0 0 0 0 0 0) 1 [] (fun _ => 0)) (State (V 2000 0 0) (V 0 1 0)) 1 (line (V 2000 0 0) (V 0 1 0)) (fun _ => V 0 1 0)
  (fun t => vscale (/ 10 ^ 3) (point_mass_accel 1 (vscale (/ 10 ^ 3) (line (V 2000 0 0) (V 0 1 0) t)) (V 1 0 0))).
Proof.
  set (Z9 := mat9 0 0 0 0 0 0 0 0 0).
  destruct (no_plates 0 (fun _ => vzero) Z9 1 (fun _ => 0) (V 2000 0 0) (V 0 1 0)) as (_ & DR & DV).
  assert (DX : vderiv (fun t => vscale (/ 10 ^ 3) (line (V 2000 0 0) (V 0 1 0) t)) 0 (vscale (/ 10 ^ 3) (V 0 1 0))) by (apply vderiv_scale, vderiv_line).
  eapply (wrong_column_by 0 (fun _ => vzero) Z9 1 [] (fun _ => 0) _ 1).
  - reflexivity.
  - apply line_0.
  - reflexivity.
  - apply vderiv_line.
  - apply const_deriv.
  - intros t. destruct (no_plates 0 (fun _ => vzero) Z9 1 (fun _ => 0) (line (V 2000 0 0) (V 0 1 0) t) (V 0 1 0)) as (-> & _ & _).
    assert (SZ : sun_acc (SunMoon (V 1 0 0) (V 1 0 0) (line (V 2000 0 0) (V 0 1 0) t) 1 0) = vscale (/ 10 ^ 3) (point_mass_accel 1 (vscale (/ 10 ^ 3) (line (V 2000 0 0) (V 0 1 0) t)) (V 1 0 0))). { unfold SunMoon. destruct (point_mass_partials _ _ _). reflexivity. }
    rewrite SZ. generalize (vscale (/ 10 ^ 3) (point_mass_accel 1 (vscale (/ 10 ^ 3) (line (V 2000 0 0) (V 0 1 0) t)) (V 1 0 0))). vec_ring.
  - apply vderiv_scale. apply (third_body_deriv 1 (V 1 0 0) _ 0 _ DX). rewrite line_0. intros E. apply (f_equal vx) in E. cbn in E. lra.
  - apply (motion_ok _ 0 (plain_moment 0 (fun _ => 0)) (V 2000 0 0) (V 0 1 0) vzero Z9); [apply plain_circumstances|reflexivity].
  - cbn [f_dr f_dv f_dC st_r st_v Nat.eqb]. rewrite DR, DV, !plain_cel. intros EQ. apply (f_equal vy) in EQ.
    assert (MP : mon_partials (SunMoon (mo_sun (plain_moment 0 (fun _ => 0))) (mo_moon (plain_moment 0 (fun _ => 0))) (V 2000 0 0) (GMSun (plain 0 (fun _ => vzero) Z9 1 [] (fun _ => 0))) (GMMon (plain 0 (fun _ => vzero) Z9 1 [] (fun _ => 0)))) = Z9).
    { apply no_moon. }
    rewrite MP, line_0 in EQ. clear - EQ.
    assert (DE : vsub (vscale (/ 10 ^ 3) (V 2000 0 0)) (V 1 0 0) = V 1 0 0) by (clear; vec_unfold; apply vec_eq; cbn; field).
    assert (DN : norm (V 1 0 0) = 1) by (clear; apply norm_unique; [lra|vec_ring]).
    assert (TM : tidal_matrix 1 (V 1 0 0) = mat9 2 0 0 0 (-1) 0 0 0 (-1)). { clear EQ DE. unfold tidal_matrix. rewrite DN. clear DN. vec_unfold. apply mat_eq; apply vec_eq; cbn; field. }
    rewrite DE, TM in EQ. clear DE DN TM.
    assert (IG : forall T, mulm (mulm T Z9) (transpose T) = Z9) by (clear; unfold Z9; vec_ring). rewrite IG in EQ. clear IG.
    assert (Z3 : madd (madd Z9 Z9) Z9 = Z9) by (clear; unfold Z9; vec_ring). unfold Z9 in *. rewrite Z3 in EQ. clear Z3. vec_unfold. lra.
Qed.

(* the density is the one of the inertial coordinates read as Earth-fixed ones *)
Definition place_wanted (E : env) (m : moment) (r v : vec) : vec :=
  drag_law (V 0 0 (omega0 E)) r v (facing E m r v) (drag_coef E) (sat_mass E) (mo_rho m (mulv (mo_cel m) r)).
Definition sideways (r : vec) : R := vx r.
Lemma plate_facing g G cel gms rho r : facing (plain cel g G gms one_plate rho) (plain_moment cel rho) r (V 1 0 0) = 1.
Proof. exact (one_facing g G cel gms r). Qed.
Lemma place_wrong : exists E m r v g G a, circumstances E 0 m /\ gravity E (mulv (mo_cel m) r) = Ok (Some (g, G)) /\ g = vzero /\ GMSun E = 0 /\ GMMon E = 0 /\
  accelerates E 0 r v a /\ a <> place_wanted E m r v.
Proof.
  set (E := plain (PI / 2) (fun _ => vzero) G1 0 one_plate sideways). set (m := plain_moment (PI / 2) sideways).
  assert (F : air_speed (V 0 0 0) (V 1 0 0) (V 1 0 0) = V 1 0 0) by (unfold air_speed; vec_ring). assert (N : norm (V 1 0 0) = 1) by (apply norm_unique; [lra|vec_ring]).
  assert (D : dr_acc (drag_part E m (V 1 0 0) (V 1 0 0)) = V (- / 2) 0 0).
  { unfold drag_part, E, m. rewrite plate_facing, drag_same, drag_plain. cbn [plain omega0 drag_coef sat_mass plain_moment mo_rho]. unfold drag_law, sideways. rewrite F, N. clear. vec_unfold. apply vec_eq; cbn; field. }
  assert (W : place_wanted E m (V 1 0 0) (V 1 0 0) = vzero).
  { unfold place_wanted, E, m. rewrite plate_facing, plain_cel. cbn [plain omega0 drag_coef sat_mass plain_moment mo_rho]. unfold drag_law, sideways. rewrite F, N.
    assert (X : vx (mulv (turn_z (- (PI / 2))) (V 1 0 0)) = 0) by (clear; unfold turn_z; rewrite cos_neg, cos_PI2; vec_unfold; ring). rewrite X. clear. vec_unfold. apply vec_eq; cbn; field. }
  exists E, m, (V 1 0 0), (V 1 0 0), vzero, G1. eexists. split; [apply plain_circumstances|]. split; [reflexivity|]. split; [reflexivity|]. split; [reflexivity|]. split; [reflexivity|].
  split; [apply (accelerates_is E 0 m (V 1 0 0) (V 1 0 0) vzero G1); [apply plain_circumstances|reflexivity|reflexivity]|].
  rewrite D, W. change (GMSun E) with 0. change (GMMon E) with 0. rewrite no_sun. destruct (moon_right (mo_sun m) (mo_moon m) (V 1 0 0) 0 0) as [MO _]. rewrite MO. rewrite Rmult_0_r. unfold newton, Rdiv. rewrite !Rmult_0_l, !vscale_none.
  assert (Z : forall M, mulv M vzero = vzero) by (clear; vec_ring). rewrite Z. clear. intros H. apply (f_equal vx) in H. vec_unfold. lra.
Qed.

(* the epoch of the density has more seconds than a day has *)
Lemma epoch_wrong : exists cmjd leap day sec d f, (0 <= leap < 86400)%Z /\ clock_reading (cmjd - IZR leap / 86400) day sec /\ utc_day cmjd leap 0 = (d, f) /\ d <> day /\ ~ f * 86400 < 86400.
Proof.
  exists (59000 + / 2), 37%Z, 59000%Z, 43163.
  assert (C : clock_reading (59000 + / 2 - IZR 37 / 86400) 59000 43163) by (split; lra).
  destruct (utc_day (59000 + / 2) 37 0) as [d f] eqn:E. exists d, f. destruct (epoch_days (59000 + / 2) 37 d f 59000 43163) as [_ B]; [lra|lia|exact C|exact E|].
  assert (W : whole (59000 + / 2) = 59000%Z).
  { destruct (whole_part (59000 + / 2)) as [_ W]; [lra|]. assert (A : (whole (59000 + / 2) < 59001)%Z) by (apply lt_IZR; lra). assert (A' : (58999 < whole (59000 + / 2))%Z) by (apply lt_IZR; lra). lia. }
  destruct (B W) as [-> F]. split; [lia|]. split; [exact C|]. split; [reflexivity|]. split; [lia|]. rewrite F. lra.
Qed.

(* an external routine that fails stops the computation *)
Definition fails (E : env) (tsec : R) (r : vec) : Prop :=
  let mjd := mjd_tai E + tsec / sec_per_day E in
  earth E mjd = None \/ attitude E mjd = None \/
  (exists rc2i era rpom, earth E mjd = Some (rc2i, era, rpom) /\ gravity E (mulv (mulm rpom (mulm (turn_z (- era)) rc2i)) r) = Ok None) \/
  (exists leap eid day fday, leaps E mjd = (leap, eid) /\ utc_day mjd leap eid = (day, fday) /\ air E day (fday * 86400) = None).
Lemma stops E tsec y Phi : length Phi = 7%nat -> (forall x, gravity E x <> UB) -> fails E tsec (st_r y) -> variational E tsec (layout y Phi) = Ok None.
Proof.
  intros L GU F. assert (M : motion E tsec (st_r y) (st_v y) = Ok None).
  { unfold fails in F. unfold motion. set (mjd := mjd_tai E + tsec / sec_per_day E) in *. destruct (earth E mjd) as [[[rc2i era] rpom]|]; [|reflexivity].
    assert (RC : rcel2ter (st_r y) rc2i era rpom = mulv (mulm rpom (mulm (turn_z (- era)) rc2i)) (st_r y)) by reflexivity.
    rewrite RC. destruct (gravity E _) as [[[g G]|]|] eqn:EG; cbn [obind]; [|reflexivity|exfalso; apply (GU _ EG)].
    destruct (planets E _) as [s mo]. destruct (attitude E mjd) as [q|]; [|reflexivity]. destruct (leaps E mjd) as [leap eid] eqn:EL. destruct (utc_day mjd leap eid) as [day fday] eqn:ED.
    destruct (air E day (fday * 86400)) as [rho|] eqn:EA; [|reflexivity]. exfalso. destruct F as [F|[F|[(a & b & c & F & H)|(l & e & dd & ff & F & H & K)]]]; try discriminate; [|congruence].
    injection F as <- <- <-. congruence. }
  unfold variational. change (layout y Phi) with (concat (map elements (y :: Phi))). rewrite (column_layout (y :: Phi) 0 y) by reflexivity. cbn [obind]. rewrite M. reflexivity.
Qed.
(* a case for the columns: gravity is linear, the Moon abeam *)
Lemma transition_example : let E := plain 0 (mulv G1) G1 0 [] (fun _ => 0) in let m := plain_moment 0 (fun _ => 0) in let y := State (V 1000 1 0) (V 0 1 0) in
  let p := line (V 1000 1 0) (V 1 0 0) in
  length unit_columns = 7%nat /\ nth_error unit_columns 0 = Some (State (V 1 0 0) vzero) /\ circumstances E 0 m /\
  (forall x, x <> vzero -> gravity E x = Ok (Some (mulv G1 x, G1))) /\ mulv (mo_cel m) (st_r y) <> vzero /\ is_jacobian (mulv G1) (mulv (mo_cel m) (st_r y)) G1 /\
  mulm (mulm (mo_cel m) G1) (transpose (mo_cel m)) = mulm (mulm (transpose (mo_cel m)) G1) (mo_cel m) /\
  GMSun E = 0 /\ st_r y <> vscale 1000 (mo_moon m) /\ dot (vsub (st_r y) (vscale 1000 (mo_moon m))) (V 1 0 0) = 0 /\
  gradient (mo_rho m) (st_r y) (density_differences (mo_rho m) (st_r y)) /\ flow E (st_r y) (st_v y) <> vzero /\
  p 0 = st_r y /\ vderiv p 0 (V 1 0 0) /\ (forall t, facing E m (p t) (V 0 1 0) = facing E m (st_r y) (st_v y)) /\
  forall t, accelerates (with_drag E 1) 0 (p t) (V 0 1 0) (V (vx (p t)) 0 0).
Proof.
  intros E m y p. assert (CI : mo_cel m = identity) by (unfold m; rewrite plain_cel, Ropp_0; clear; unfold turn_z; rewrite cos_0, sin_0, Ropp_0; reflexivity). rewrite CI.
  split; [reflexivity|]. split; [reflexivity|]. split; [apply plain_circumstances|]. split; [reflexivity|].
  split; [unfold y; cbn [st_r]; clear; intros H; apply (f_equal vx) in H; vec_unfold; lra|]. split; [intros f s u D _; apply vderiv_mulv; exact D|].
  split; [clear; unfold G1; vec_ring|]. split; [reflexivity|].
  split; [unfold y, m; cbn [st_r plain_moment mo_moon]; clear; intros H; apply (f_equal vy) in H; vec_unfold; lra|]. split; [unfold y, m; cbn [st_r plain_moment mo_moon]; clear; vec_unfold; lra|].
  split. { assert (Z : density_differences (mo_rho m) (st_r y) = vzero) by (clear; unfold density_differences, m; cbn; apply vec_eq; cbn; field). rewrite Z. intros f s u D _. replace (dot vzero u) with 0 by (clear; vec_ring). apply (derivable_pt_lim_const 0). }
  split; [unfold y, E, flow, air_speed; cbn [st_r st_v plain omega0]; clear; intros H; apply (f_equal vy) in H; vec_unfold; lra|]. split; [apply line_0|]. split; [apply vderiv_line|]. split; [reflexivity|].
  intros t. apply (accelerates_is E 0 m (p t) (V 0 1 0) (mulv G1 (mulv (mo_cel m) (p t))) G1); [apply plain_circumstances|reflexivity|].
  destruct (no_plates 0 (mulv G1) G1 0 (fun _ => 0) (p t) (V 0 1 0)) as (DD & _ & _). fold E m in DD. rewrite DD. change (GMSun E) with 0. change (GMMon E) with 0. rewrite no_sun. destruct (moon_right (mo_sun m) (mo_moon m) (p t) 0 0) as [MO _]. rewrite MO, Rmult_0_r. unfold newton, Rdiv. rewrite !Rmult_0_l, !vscale_none, CI.
  clear. generalize (p t). intros x. assert (X : mulv (transpose identity) (mulv G1 (mulv identity x)) = V (vx x) 0 0) by (unfold G1; vec_ring). rewrite X. vec_ring.
Qed.

(* the differences over two metres are exact for densities of the second degree in x and y *)
Definition second_degree (c : R) (g : vec) (h : mat) (r : vec) : R := c + dot g r + dot r (mulv h r).
Lemma differences_exact c g h r : transpose h = h ->
  vx (density_differences (second_degree c g h) r) = vx (vadd g (vscale 2 (mulv h r))) /\
  vy (density_differences (second_degree c g h) r) = vy (vadd g (vscale 2 (mulv h r))).
Proof.
  destruct h as [[a b d] [b' e f] [d' f' k]]. unfold transpose. cbn. intros H. injection H; intros; subst.
  destruct g, r. unfold density_differences, second_degree. vec_unfold. cbn. split; field.
Qed.
