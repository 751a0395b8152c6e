From Coq Require Import List Reals ZArith QArith Lia Lra.
From Verif Require Import Base Vec_model Vec_proofs Frames_model Ekf_model PodState_model PodState_proofs PodFilter_proofs.
Import ListNotations.
Local Open Scope R_scope.

(* C86: with an integrator that knows the orbit of the centre of gravity, the object started with the
   centre of gravity holds the antenna at every later epoch asked for, in terrestrial coordinates *)
Theorem antenna_follows_orbit : forall antenna attitude earth de x, knows de x ->
  (forall t, exists q, attitude t = Some q /\ squared_norm q <> 0) -> total_earth earth ->
  forall z0 s t ts, terrestrial earth (sv_mjd s) (x (sv_mjd s)) z0 -> sv_state s = z0 ->
  exists s' calls q y, epochs antenna attitude earth de 0 s (t :: ts) = Ok (Returns 0 s' calls) /\ sv_mjd s' = last ts t /\
    attitude (last ts t) = Some q /\ carries antenna q (x (last ts t)) y /\ terrestrial earth (last ts t) y (sv_state s').
Proof. exact antenna_follows. Qed.
Print Assumptions antenna_follows_orbit.
Definition line_orbit (t : R) : state := State (V 7000000 ((t - 59000) * 86400 * 7000) 0) (V 0 7000 0).
Example antenna_follows_case : knows free line_orbit /\ (forall t, exists q, upright t = Some q /\ squared_norm q <> 0) /\ total_earth still /\
  terrestrial still 59000 (line_orbit 59000) (line_orbit 59000).
Proof.
  split; [|split; [|split]].
  - intros t dt y L F. destruct y as [|a [|b [|c [|d [|e [|f y]]]]]]; try discriminate. cbn in F. injection F as -> -> -> -> -> ->.
    eexists. split; [reflexivity|].
    transitivity [7000000 + dt * 0; (t - 59000) * 86400 * 7000 + dt * 7000; 0 + dt * 0; 0; 7000; 0]; [reflexivity|].
    unfold flat, line_orbit. cbn [st_r st_v vx vy vz].
    replace (7000000 + dt * 0) with 7000000 by ring. replace (0 + dt * 0) with 0 by ring.
    replace ((t + dt / 86400 - 59000) * 86400 * 7000) with ((t - 59000) * 86400 * 7000 + dt * 7000) by field. reflexivity.
  - intros t. eexists. split; [reflexivity|]. unfold squared_norm, dot, vzero. cbn. lra.
  - intros t. do 4 eexists. split; [reflexivity|]. split; unfold orthogonal; rewrite still_transpose; apply mulm_identity_l.
  - do 4 eexists. split; [reflexivity|]. symmetry. apply still_ter.
Qed.
(* C86: the eccentricity leads from the antenna to the centre of gravity: turned into the frame of the
   satellite by the attitude it is cog - arp *)
Theorem antenna_offset : forall cog arp q, squared_norm q <> 0 -> turn (normalized q) (eccentricity (Some (cog, arp)) q) = vsub cog arp.
Proof. exact eccentricity_ok. Qed.
Print Assumptions antenna_offset.
Example antenna_offset_case : squared_norm (Quat 1 (V 2 3 4)) <> 0.
Proof. unfold squared_norm, dot. cbn. lra. Qed.
(* C86: a call succeeds at the epoch asked for or returns 1 and leaves the object alone *)
Theorem integration_codes : forall antenna attitude earth de calls s t c s' calls', integrate antenna attitude earth de calls s t = Ok (Returns c s' calls') ->
  (c = 0%Z /\ calls' = S calls /\ Rabs (sv_mjd s' - t) <= 1 / 1000000000000) \/ (c = 1%Z /\ s' = s /\ calls' = calls).
Proof. exact integrate_code. Qed.
Print Assumptions integration_codes.
(* ... an integrator that stops half way *)
Example integration_codes_case : integrate None upright still (fun _ dt l => (dt / 2, l)) 0 (resting 0) 59001 = Ok (Returns 1 (resting 0) 0).
Proof.
  unfold integrate, still. cbn [sv_mjd resting sv_state Nat.eqb].
  destruct (Rlt_dec _ _) as [L|L]; [reflexivity|]. exfalso. apply L.
  replace (59000 + (59001 - 59000) * 86400 / 2 / 86400 - 59001) with (- (1 / 2)) by field. rewrite Rabs_Ropp, Rabs_pos_eq; lra.
Qed.
(* C86: the counter of calls belongs to the program, not to the object: a second satellite, also
   started with its centre of gravity, keeps it instead of the antenna *)
Theorem second_satellite_refuted : exists antenna attitude earth de s t s1 s2,
  integrate antenna attitude earth de 0 s t = Ok (Returns 0 s1 1) /\ integrate antenna attitude earth de 1 s t = Ok (Returns 0 s2 2) /\
  sv_state s1 <> sv_state s2.
Proof.
  destruct second_object as (s1 & s2 & E1 & E2 & R1 & R2). do 6 eexists. exists s1, s2. split; [exact E1|]. split; [exact E2|].
  intros E. rewrite E, R2 in R1. injection R1 as R1. lra.
Qed.
Print Assumptions second_satellite_refuted.

(* C87: the transition matrix delivered does not depend on the motion, nor on the time: the first five
   columns of the identity and a column of zeros; the sensitivity to the drag coefficient is zero *)
Theorem transition_fixed : forall antenna attitude earth de calls s t s' calls', integrate antenna attitude earth de calls s t = Ok (Returns 0 s' calls') ->
  sv_Phi s' = map (fun k => map (fun i => if Nat.eqb i k then 1 else 0) (seq 0 6)) (seq 0 5) ++ [repeat 0 6] /\ sv_S s' = [repeat 0 6].
Proof. exact transition_fixed_ok. Qed.
Print Assumptions transition_fixed.
(* C87: for a satellite without forces the state after a day is linear in the state before; the
   velocity along z moves it by a day's way, the matrix says not at all *)
Theorem transition_matrix_refuted : exists de t s w s1 s2, integrate None upright still de 0 (resting s) t = Ok (Returns 0 s1 1) /\
  integrate None upright still de 0 (resting (s + w)) t = Ok (Returns 0 s2 1) /\
  vz (st_r (sv_state s2)) <> vz (st_r (sv_state s1)) + w * nth 2 (nth 5 (sv_Phi s1) []) 0 /\
  vz (st_v (sv_state s2)) <> vz (st_v (sv_state s1)) + w * nth 5 (nth 5 (sv_Phi s1) []) 0.
Proof.
  destruct (free_integrate 0) as (P1 & S1 & E1). destruct (free_integrate (0 + 1)) as (P2 & S2 & E2).
  exists free, 59001, 0, 1. do 2 eexists. split; [exact E1|]. split; [exact E2|].
  destruct (transition_fixed_ok _ _ _ _ _ _ _ _ _ E1) as [-> _]. cbn. split; lra.
Qed.
Print Assumptions transition_matrix_refuted.
(* C87: whatever is observed, the filter never corrects the velocity along z and believes it exact *)
Theorem velocity_never_corrected : forall T n (e e' : ekf T) tk xk obs, (5 < n)%nat -> block_update n e tk xk obs = Some e' ->
  (e_x e' 5%nat == xk 5%nat)%Q /\ (e_P e' 5%nat 5%nat == 0)%Q.
Proof. exact @never_corrected. Qed.
Print Assumptions velocity_never_corrected.
(* ... although the observation depends on it and something else is corrected *)
Example velocity_case : match block_update 7 (Ekf 0%nat (fun _ => 0%Q) ident) 1%nat (fun _ => 0%Q) [(1, 0, 1, fun _ => 1)%Q] with
  | Some e' => ~ (e_x e' 4%nat == 0)%Q | None => False end.
Proof. vm_compute. discriminate. Qed.
(* C87: a data block without observations: the estimates are those given, and every parameter but the
   velocity along z keeps its variance and its covariances with the others *)
Theorem time_update_keeps_partial : forall T n (e e' : ekf T) tk xk, block_update n e tk xk [] = Some e' -> e_t e' = tk /\ (forall i, e_x e' i = xk i) /\
  forall i j, (i < n)%nat -> (j < n)%nat -> i <> 5%nat -> j <> 5%nat -> (e_P e' i j == e_P e i j)%Q.
Proof. exact time_keeps. Qed.
Print Assumptions time_update_keeps_partial.
Example time_update_case : exists e', block_update 8 (Ekf 0%nat (fun _ => 0%Q) (fun i j => inject_Z (Z.of_nat (i * j) + 1))) 1%nat (fun _ => 2%Q) [] = Some e' /\
  (e_P e' 6%nat 7%nat == 43)%Q /\ (e_P e' 5%nat 7%nat == 0)%Q.
Proof. eexists. split; [reflexivity|]. vm_compute. split; reflexivity. Qed.
