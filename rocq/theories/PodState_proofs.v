(* The satellite between two epochs: the antenna follows the orbit; the transition matrix does not
   follow the motion. *)
From Coq Require Import List Reals ZArith QArith Bool Lia Lra Psatz.
From Verif Require Import Base Vec_model Vec_proofs Frames_model Frames_proofs PodState_model.
Import ListNotations.
Local Open Scope R_scope.

(* ---- quaternions ---- *)
Definition unit (q : quat) : Prop := squared_norm q = 1.
Lemma normalized_unit q : squared_norm q <> 0 -> unit (normalized q).
Proof.
  intros H. unfold unit, normalized. assert (P : 0 <= squared_norm q).
  { unfold squared_norm. pose proof (dot_nonneg (qv q)). pose proof (Rle_0_sqr (qw q)) as X. unfold Rsqr in X. lra. }
  destruct (Rlt_dec 0 (squared_norm q)) as [L|L]; [|lra]. set (n := squared_norm q) in *.
  pose proof (sqrt_sqrt n P) as SS. assert (S0 : sqrt n <> 0) by (pose proof (sqrt_lt_R0 n L); lra).
  unfold squared_norm. cbn [qw qv].
  replace (/ sqrt n * qw q * (/ sqrt n * qw q) + dot (vscale (/ sqrt n) (qv q)) (vscale (/ sqrt n) (qv q)))
    with (n / (sqrt n * sqrt n)).
  - rewrite SS. field. lra.
  - unfold n at 1, squared_norm. destruct (qv q). unfold dot, vscale. cbn. field. exact S0.
Qed.
Lemma turn_eq w u v : turn (Quat w u) v = vadd v (vadd (vscale (2 * w) (cross u v)) (vscale 2 (cross u (cross u v)))).
Proof. unfold turn. cbn [qw qv]. vec_ring. Qed.
Lemma cross_neg u v : cross (vscale (-1) u) v = vscale (-1) (cross u v). Proof. vec_ring. Qed.
Lemma cross3 u v : cross u (cross u (cross u v)) = vscale (- dot u u) (cross u v). Proof. vec_ring. Qed.
Lemma cross_add u a b : cross u (vadd a b) = vadd (cross u a) (cross u b). Proof. vec_ring. Qed.
Lemma cross_scale u k a : cross u (vscale k a) = vscale k (cross u a). Proof. vec_ring. Qed.
Lemma turn_poly w u v : turn (Quat w u) (turn (Quat w (vscale (-1) u)) v) = vadd v (vscale (4 * (1 - (w * w + dot u u))) (cross u (cross u v))).
Proof.
  rewrite !turn_eq. repeat (rewrite cross_neg || rewrite cross_scale || rewrite cross_add || rewrite cross3).
  generalize (cross u (cross u v)). intros d. generalize (cross u v) (dot u u). intros c n. clear u. vec_ring.
Qed.
Lemma turn_back q v : unit q -> turn q (turn (conjugate q) v) = v.
Proof.
  unfold unit, squared_norm. intros U. destruct q as [w u]. cbn [qw qv] in U. unfold conjugate. cbn [qw qv].
  rewrite turn_poly, U. replace (4 * (1 - 1)) with 0 by ring. generalize (cross u (cross u v)). intros d. clear U. vec_ring.
Qed.
Lemma normalized_conjugate q : normalized (conjugate q) = conjugate (normalized q).
Proof.
  unfold normalized. replace (squared_norm (conjugate q)) with (squared_norm q).
  - destruct (Rlt_dec 0 (squared_norm q)); [|reflexivity]. unfold conjugate. cbn. f_equal. destruct (qv q). unfold vscale. cbn. f_equal; ring.
  - unfold squared_norm, conjugate, dot. destruct q as [w [x y z]]. cbn. ring.
Qed.
(* the eccentricity, turned into the satellite's frame, leads from the antenna to the centre of gravity *)
Lemma eccentricity_ok cog arp q : squared_norm q <> 0 -> turn (normalized q) (eccentricity (Some (cog, arp)) q) = vsub cog arp.
Proof. intros H. cbn. rewrite normalized_conjugate. apply turn_back, normalized_unit, H. Qed.

(* ---- the orbit ---- *)
(* an integrator that knows the orbit [x], the motion of the centre of gravity in inertial coordinates *)
Definition knows (de : R -> R -> list R -> R * list R) (x : R -> state) : Prop :=
  forall t dt y, length y = 48%nat -> firstn 6 y = flat (x t) ->
  exists sol, de t dt y = (dt, sol) /\ firstn 6 sol = flat (x (t + dt / 86400)).
Definition total_earth (earth : R -> option (mat * R * R * mat)) : Prop :=
  forall t, exists rc2i era omega rpom, earth t = Some (rc2i, era, omega, rpom) /\ orthogonal rc2i /\ orthogonal rpom.
(* terrestrial coordinates of a state *)
Definition terrestrial (earth : R -> option (mat * R * R * mat)) (t : R) (y : state) (z : state) : Prop :=
  exists rc2i era omega rpom, earth t = Some (rc2i, era, omega, rpom) /\ z = ycel2ter y rc2i era omega rpom.
(* the antenna, whose offset in the satellite's frame is arp - cog *)
Definition carries (antenna : option (vec * vec)) (q : quat) (y z : state) : Prop :=
  st_v z = st_v y /\
  match antenna with
  | Some (cog, arp) => turn (normalized q) (vsub (st_r y) (st_r z)) = vsub cog arp
  | None => st_r z = st_r y
  end.

Lemma head6_flat sol y : firstn 6 sol = flat y -> head6 sol = Ok y.
Proof.
  unfold flat. destruct sol as [|a [|b [|c [|d [|e [|f sol]]]]]]; cbn; try discriminate. intros H. injection H as -> -> -> -> -> ->.
  destruct y as [[? ? ?] [? ? ?]]. reflexivity.
Qed.
Lemma firstn_flat y l : firstn 6 (flat y ++ l) = flat y.
Proof. reflexivity. Qed.
Lemma start_length : length start_columns = 42%nat. Proof. reflexivity. Qed.
Lemma vadd_zero a : vadd a vzero = a. Proof. vec_ring. Qed.
Lemma vadd_sub a e : vadd (vsub a e) e = a. Proof. vec_ring. Qed.
Lemma vsub_vsub a e : vsub a (vsub a e) = e. Proof. vec_ring. Qed.

Lemma last_cons {A} (l : list A) : forall a d, last (a :: l) d = last l a.
Proof. induction l as [|b l IH]; intros a d; [reflexivity|]. change (last (b :: l) d = last (b :: l) a). rewrite !IH. reflexivity. Qed.
Section Orbit.
Variables (antenna : option (vec * vec)) (attitude : R -> option quat) (earth : R -> option (mat * R * R * mat)) (de : R -> R -> list R -> R * list R) (x : R -> state).
Hypothesis Kn : knows de x.
Hypothesis At : forall t, exists q, attitude t = Some q /\ squared_norm q <> 0.
Hypothesis Ea : total_earth earth.
(* what the object holds: the centre of gravity before the first call, the antenna after it *)
Definition holds (calls : nat) (s : sat) : Prop := exists z, terrestrial earth (sv_mjd s) z (sv_state s) /\
  (calls = 0%nat -> z = x (sv_mjd s)) /\
  (calls <> 0%nat -> exists q, attitude (sv_mjd s) = Some q /\ z = State (vsub (st_r (x (sv_mjd s))) (eccentricity antenna q)) (st_v (x (sv_mjd s)))).
Lemma integrate_follows calls s t : holds calls s ->
  exists s', integrate antenna attitude earth de calls s t = Ok (Returns 0 s' (S calls)) /\ sv_mjd s' = t /\ holds (S calls) s'.
Proof.
  intros (z & (rc2i & era & omega & rpom & E0 & ES) & H0 & H1). unfold integrate. rewrite E0.
  destruct (Ea (sv_mjd s)) as (rc2 & er2 & om2 & rp2 & E0' & O1 & O2). rewrite E0 in E0'. injection E0' as <- <- <- <-.
  rewrite ES, (states_inverse z rc2i era omega rpom O1 O2).
  assert (Ecc : exists e0, (if Nat.eqb calls 0 then Some vzero else option_map (eccentricity antenna) (attitude (sv_mjd s))) = Some e0 /\
     State (vadd (st_r z) e0) (st_v z) = x (sv_mjd s)).
  { destruct (Nat.eqb_spec calls 0) as [C|C].
    - exists vzero. split; [reflexivity|]. rewrite (H0 C), vadd_zero. destruct (x (sv_mjd s)). reflexivity.
    - destruct (H1 C) as (q & -> & ->). exists (eccentricity antenna q). split; [reflexivity|]. cbn. rewrite vadd_sub. destruct (x (sv_mjd s)). reflexivity. }
  destruct Ecc as (e0 & -> & EX). rewrite EX. set (yPhi := flat (x (sv_mjd s)) ++ map IZR start_columns).
  destruct (Kn (sv_mjd s) ((t - sv_mjd s) * 86400) yPhi) as (sol & -> & Sol).
  - unfold yPhi. rewrite app_length, map_length, start_length. reflexivity.
  - apply firstn_flat.
  - replace (sv_mjd s + (t - sv_mjd s) * 86400 / 86400) with t in * by field.
    destruct (Rlt_dec (1 / 1000000000000) (Rabs (t - t))) as [L|L].
    + exfalso. replace (t - t) with 0 in L by ring. rewrite Rabs_R0 in L. lra.
    + destruct (At t) as (q & EQ & _). rewrite EQ. destruct (Ea t) as (rc' & er' & om' & rp' & E1 & _ & _). rewrite E1.
      rewrite (head6_flat sol _ Sol). cbn [obind]. eexists. split; [reflexivity|]. cbn [sv_mjd]. split; [reflexivity|].
      eexists. split; [|split; [discriminate|]].
      * cbn [sv_state]. exists rc', er', om', rp'. split; [exact E1|]. reflexivity.
      * intros _. exists q. split; [exact EQ|]. reflexivity.
Qed.
Lemma epochs_follow ts : forall calls s, holds calls s ->
  exists s', epochs antenna attitude earth de calls s ts = Ok (Returns 0 s' (calls + length ts)) /\ sv_mjd s' = last ts (sv_mjd s) /\ holds (calls + length ts) s'.
Proof.
  induction ts as [|t r IH]; intros calls s H; cbn [epochs].
  - exists s. cbn [length last]. rewrite Nat.add_0_r. auto.
  - destruct (integrate_follows calls s t H) as (s' & -> & M & H'). cbn [obind].
    destruct (IH (S calls) s' H') as (s2 & -> & M2 & H2). exists s2. cbn [length]. rewrite Nat.add_succ_r.
    split; [reflexivity|]. split; [|exact H2]. rewrite M2, M. symmetry. apply last_cons.
Qed.
Lemma antenna_follows z0 s t ts : terrestrial earth (sv_mjd s) (x (sv_mjd s)) z0 -> sv_state s = z0 ->
  exists s' calls q y, epochs antenna attitude earth de 0 s (t :: ts) = Ok (Returns 0 s' calls) /\ sv_mjd s' = last ts t /\
    attitude (last ts t) = Some q /\ carries antenna q (x (last ts t)) y /\ terrestrial earth (last ts t) y (sv_state s').
Proof.
  intros T E. assert (H : holds 0 s). { exists (x (sv_mjd s)). rewrite E. split; [exact T|]. split; [auto|congruence]. }
  destruct (epochs_follow (t :: ts) 0 s H) as (s' & Run & M & (y & Ty & _ & Hy)).
  assert (M' : sv_mjd s' = last ts t) by (rewrite M; apply last_cons).
  destruct (Hy ltac:(discriminate)) as (q & Eq & ->). exists s', (0 + length (t :: ts))%nat, q. eexists. split; [exact Run|]. split; [exact M'|].
  rewrite M' in *. split; [exact Eq|]. split; [|exact Ty]. split; [reflexivity|]. cbn [st_r].
  destruct antenna as [[cog arp]|].
  - rewrite vsub_vsub. apply eccentricity_ok. destruct (At (last ts t)) as (q' & E' & N). rewrite Eq in E'. injection E' as <-. exact N.
  - cbn. vec_ring.
Qed.
End Orbit.

(* ---- failures ---- *)
Lemma integrate_code antenna attitude earth de calls s t c s' calls' :
  integrate antenna attitude earth de calls s t = Ok (Returns c s' calls') ->
  (c = 0%Z /\ calls' = S calls /\ Rabs (sv_mjd s' - t) <= 1 / 1000000000000) \/ (c = 1%Z /\ s' = s /\ calls' = calls).
Proof.
  unfold integrate. destruct (earth (sv_mjd s)) as [[[[rc er] om] rp]|]; [|discriminate].
  destruct (if Nat.eqb calls 0 then _ else _) as [e0|]; [|discriminate].
  destruct (de _ _ _) as [tsec sol]. destruct (Rlt_dec _ _) as [L|L].
  - intros H. injection H as <- <- <-. auto.
  - destruct (attitude _); [|discriminate]. destruct (earth (sv_mjd s + tsec / 86400)) as [[[[rc' er'] om'] rp']|]; [|discriminate].
    destruct (head6 sol); cbn; [|discriminate]. intros H. injection H as <- <- <-. left. cbn. split; [reflexivity|]. split; [reflexivity|]. lra.
Qed.

(* ---- the transition matrix ---- *)
Definition unit_column (k : nat) : list R := map (fun i => if Nat.eqb i k then 1 else 0) (seq 0 6).
Lemma transition_fixed_ok antenna attitude earth de calls s t s' calls' :
  integrate antenna attitude earth de calls s t = Ok (Returns 0 s' calls') ->
  sv_Phi s' = map unit_column (seq 0 5) ++ [repeat 0 6] /\ sv_S s' = [repeat 0 6].
Proof.
  unfold integrate. destruct (earth (sv_mjd s)) as [[[[rc er] om] rp]|]; [|discriminate].
  destruct (if Nat.eqb calls 0 then _ else _) as [e0|]; [|discriminate].
  destruct (de _ _ _) as [tsec sol]. destruct (Rlt_dec _ _) as [L|L]; [discriminate|].
  destruct (attitude _); [|discriminate]. destruct (earth (sv_mjd s + tsec / 86400)) as [[[[rc' er'] om'] rp']|]; [|discriminate].
  destruct (head6 sol); cbn [obind]; [|discriminate]. intros H. injection H as <- <-. cbn [sv_Phi sv_S]. split; reflexivity.
Qed.
(* motion without forces: the exact solution of the state and of the variational equations *)
Definition drift (dt : R) (l : list R) : list R :=
  match l with a :: b :: c :: d :: e :: f :: r => (a + dt * d) :: (b + dt * e) :: (c + dt * f) :: d :: e :: f :: nil | _ => l end.
Fixpoint drift_all (n : nat) (dt : R) (l : list R) : list R :=
  match n with O => l | S n => drift dt (firstn 6 l) ++ drift_all n dt (skipn 6 l) end.
Definition free (t dt : R) (l : list R) : R * list R := (dt, drift_all 8 dt l).
Definition still : R -> option (mat * R * R * mat) := fun _ => Some (identity, 0, 0, identity).
Definition upright : R -> option quat := fun _ => Some (Quat 1 vzero).
Lemma mscale_l k a b : mulm (mscale k a) b = mscale k (mulm a b). Proof. vec_ring. Qed.
Lemma mscale_r k a b : mulm a (mscale k b) = mscale k (mulm a b). Proof. vec_ring. Qed.
Lemma mscale_0 m v : Vec_model.mulv (mscale 0 m) v = vzero. Proof. vec_ring. Qed.
Lemma mscale_0_t m v : Vec_model.mulv (transpose (mscale 0 m)) v = vzero. Proof. vec_ring. Qed.
Lemma still_rot : cel2ter identity 0 identity = identity.
Proof.
  unfold cel2ter. rewrite mulm_identity_r, mulm_identity_l. unfold rot_era, turn_z. rewrite Ropp_0, cos_0, sin_0, Ropp_0. reflexivity.
Qed.
Lemma still_transpose : transpose identity = identity. Proof. reflexivity. Qed.
Lemma still_ter y : ycel2ter y identity 0 0 identity = y.
Proof.
  unfold ycel2ter, rcel2ter, cel2ter_rate. rewrite still_rot, !mscale_l, !mscale_r, mscale_0, !mulv_identity, vadd_zero. destruct y. reflexivity.
Qed.
Lemma still_cel y : yter2cel y identity 0 0 identity = y.
Proof.
  unfold yter2cel, rter2cel, cel2ter_rate. rewrite still_rot, !mscale_l, !mscale_r, mscale_0_t, still_transpose, !mulv_identity, vadd_zero. destruct y. reflexivity.
Qed.
Definition resting (vz0 : R) : sat := Sat 59000 (State (V 7000000 0 0) (V 0 7000 vz0)) [] [].
Lemma free_integrate w : exists Phi S, integrate None upright still free 0 (resting w) 59001 =
  Ok (Returns 0 (Sat 59001 (State (V 7000000 (86400 * 7000) (86400 * w)) (V 0 7000 w)) Phi S) 1).
Proof.
  eexists. eexists. unfold integrate, still, free. cbn [sv_mjd resting sv_state Nat.eqb]. rewrite still_cel.
  replace (59000 + (59001 - 59000) * 86400 / 86400) with 59001 by field.
  destruct (Rlt_dec (1 / 1000000000000) (Rabs (59001 - 59001))) as [L|L].
  - exfalso. replace (59001 - 59001) with 0 in L by ring. rewrite Rabs_R0 in L. lra.
  - unfold upright. cbn [flat st_r st_v vx vy vz app drift_all firstn drift head6 obind]. rewrite still_ter.
    unfold eccentricity. do 2 f_equal. f_equal. f_equal; apply vec_eq; cbn; ring.
Qed.
(* the second object *)
Lemma second_object : exists s1 s2, integrate (Some (V 1 0 0, vzero)) upright still free 0 (resting 0) 59000 = Ok (Returns 0 s1 1) /\
  integrate (Some (V 1 0 0, vzero)) upright still free 1 (resting 0) 59000 = Ok (Returns 0 s2 2) /\
  st_r (sv_state s1) = V 6999999 0 0 /\ st_r (sv_state s2) = V 7000000 0 0.
Proof.
  assert (Ecc : eccentricity (Some (V 1 0 0, vzero)) (Quat 1 vzero) = V 1 0 0).
  { cbn. unfold normalized, conjugate, squared_norm, dot, vscale, vzero. cbn.
    replace (1 * 1 + (-1 * 0 * (-1 * 0) + -1 * 0 * (-1 * 0) + -1 * 0 * (-1 * 0))) with 1 by ring.
    destruct (Rlt_dec 0 1) as [L|L]; [|lra]. rewrite sqrt_1. unfold turn, vadd, cross, vscale, vsub. cbn. apply vec_eq; cbn; field. }
  assert (G : forall c, exists Phi S, integrate (Some (V 1 0 0, vzero)) upright still free c (resting 0) 59000 =
    Ok (Returns 0 (Sat 59000 (State (V (7000000 + (if Nat.eqb c 0 then 0 else 1) - 1) 0 0) (V 0 7000 0)) Phi S) (Datatypes.S c))).
  { intros c. eexists. eexists. unfold integrate, still, free. cbn [sv_mjd resting sv_state]. rewrite still_cel.
    replace (59000 + (59000 - 59000) * 86400 / 86400) with 59000 by field.
    destruct (Rlt_dec (1 / 1000000000000) (Rabs (59000 - 59000))) as [L|L].
    - exfalso. replace (59000 - 59000) with 0 in L by ring. rewrite Rabs_R0 in L. lra.
    - unfold upright. cbn [option_map]. rewrite Ecc.
      destruct (Nat.eqb c 0); cbn [flat st_r st_v vx vy vz app drift_all firstn drift head6 obind]; rewrite still_ter;
        do 2 f_equal; f_equal; f_equal; apply vec_eq; cbn; ring. }
  destruct (G 0%nat) as (P0 & S0 & E0). destruct (G 1%nat) as (P1 & S1 & E1). eexists. eexists.
  split; [exact E0|]. split; [exact E1|]. cbn. split; apply vec_eq; cbn; ring.
Qed.
