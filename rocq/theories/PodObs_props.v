From Coq Require Import List Reals ZArith Bool Ascii Lia Lra.
From Verif Require Import Base Vec_model Vec_proofs Frames_model Calc Filter_model Harmonics_model Legendre GravHarm Gravity_proofs Relativity_model Relativity_proofs PodObs_model PodObs_proofs.
Import ListNotations.
Local Open Scope R_scope.

(* C88: the partials the filter is given are the derivatives of the prediction it is given, for every
   parameter but the position and the drag coefficient (and the velocity counts as no parameter of it) *)
Theorem measurement_partials_partial : forall c Np rcv deltat Rt bxyz feN frT p o x j, (1 <= Np)%nat -> o_t o - o_t p <> 0 -> (3 <= j)%nat -> j <> 6%nat ->
  derivable_pt_lim (fun s => predicted c CLinear Np rcv deltat Rt bxyz feN frT p o (bump j s x)) 0 (partials c CLinear Np rcv deltat Rt feN frT p o j).
Proof. intros. apply partials_rest; auto. Qed.
Print Assumptions measurement_partials_partial.
(* ... none of them is zero in the case shown *)
Example measurement_partials_case : o_t after - o_t before <> 0 /\ partials 1 CLinear 1 0 3 identity 1 1 before after 8 = 1 /\ partials 1 CLinear 1 0 3 identity 1 1 before after 9 = 3.
Proof. unfold partials, NdopDt. cbn. split; [|split]; [lra|field..]. Qed.
(* C88: the partials of the position are those for a satellite whose position at the previous epoch
   moves along with the present one *)
Theorem measurement_partials_common : forall c m Np rcv deltat Rt feN frT p o x j, (j < 3)%nat -> o_t o - o_t p <> 0 -> o_s o <> vzero -> o_s p <> vzero ->
  derivable_pt_lim (fun s => - Utheo c m Np rcv deltat feN frT (moved Rt (vscale s (axis j)) p) (moved Rt (vscale s (axis j)) o) x) 0
    (partials c m Np rcv deltat Rt feN frT p o j).
Proof. exact partials_common. Qed.
Print Assumptions measurement_partials_common.
Example measurement_partials_common_case : o_t after - o_t before <> 0 /\ o_s after <> vzero /\ o_s before <> vzero.
Proof. cbn. split; [lra|]. split; intros E; injection E; lra. Qed.
(* C88: ... but the prediction takes the previous position as it is: the derivative is another one *)
Theorem position_partials_refuted : exists p o x d, derivable_pt_lim (fun s => predicted 1 CLinear 1 0 0 identity vzero 1 1 p o (bump 0 s x)) 0 d /\
  partials 1 CLinear 1 0 0 identity 1 1 p o 0 <> d.
Proof. exists before, after. eexists. exists (-1). split; [exact position_derivative|]. rewrite position_partial. lra. Qed.
Print Assumptions position_partials_refuted.
(* C88: the prediction does not depend on the drag coefficient, its partial is -1 *)
Theorem drag_partial_refuted : forall c m Np rcv deltat Rt bxyz feN frT p o x, (1 <= Np)%nat ->
  derivable_pt_lim (fun s => predicted c m Np rcv deltat Rt bxyz feN frT p o (bump 6 s x)) 0 0 /\ partials c m Np rcv deltat Rt feN frT p o 6 = -1.
Proof.
  intros. split; [|apply partials_drag; assumption].
  apply deriv_affine with (predicted c m Np rcv deltat Rt bxyz feN frT p o x). intros s. rewrite predicted_drag by assumption. ring.
Qed.
Print Assumptions drag_partial_refuted.
(* C88: with one frequency offset per beacon (RANDOM_RFO) its partial has the wrong sign *)
Theorem random_offset_sign_refuted : forall c Np rcv deltat Rt bxyz feN frT p o x, o_t o - o_t p <> 0 ->
  derivable_pt_lim (fun s => predicted c CNone Np rcv deltat Rt bxyz feN frT p o (bump (rfoff_index Np CNone rcv) s x)) 0
    (- partials c CNone Np rcv deltat Rt feN frT p o (rfoff_index Np CNone rcv)).
Proof. intros. apply partials_random_offset; auto. Qed.
Print Assumptions random_offset_sign_refuted.
Example random_offset_case : partials 1 CNone 1 0 0 identity 1 1 before after (rfoff_index 1 CNone 0) = -1.
Proof. unfold partials, NdopDt. cbn. field. Qed.
(* C88: the standard deviation told to the filter grows with the elevation *)
Theorem sigma_elevation_refuted : forall c m Np rcv deltat Rt feN frT p o x sigma el el', 0 < sigma -> o_t o - o_t p <> 0 -> 0 <= el < el' -> el' < PI / 2 ->
  exists z g s h s', measurement c m Np rcv deltat Rt feN frT p o x sigma el = Some (z, g, s, h) /\
    measurement c m Np rcv deltat Rt feN frT p o x sigma el' = Some (z, g, s', h) /\ s < s'.
Proof.
  intros c m Np rcv deltat Rt feN frT p o x sigma el el' S T [L1 L2] L3. pose proof PI_RGT_0 as P.
  assert (C' : 0 < cos el') by (apply cos_gt_0; lra).
  assert (C : cos el' < cos el) by (apply cos_decreasing_1; lra).
  unfold measurement. destruct (Req_EM_T (o_t o - o_t p) 0); [contradiction|]. destruct (Req_EM_T (cos el) 0); [lra|]. destruct (Req_EM_T (cos el') 0); [lra|].
  do 5 eexists. split; [reflexivity|]. split; [reflexivity|]. apply Rmult_lt_compat_l; [exact S|]. apply Rinv_lt_contravar; [|exact C].
  apply Rmult_lt_0_compat; lra.
Qed.
Print Assumptions sigma_elevation_refuted.
Example sigma_elevation_case : 0 < 1 /\ o_t after - o_t before <> 0 /\ 0 <= PI / 6 < PI / 3 /\ PI / 3 < PI / 2.
Proof. pose proof PI_RGT_0. cbn. lra. Qed.

(* C89: observations that count the cycles received less those of the receiver, along the way
   emitter - range - troposphere, meet Uobs = Utheo but for the square of the emitter's offset ... *)
Theorem observation_equation : forall c m Np rcv deltat feN frT p o x, c <> 0 -> feN <> 0 -> Dion c feN p o = 0 -> Drel p o = 0 ->
  NdopDt p o = received c m Np rcv deltat feN p o x - frT ->
  Uobs c feN frT p o - Utheo c m Np rcv deltat feN frT p o x =
    rfoff_estimate m Np rcv deltat x * rfoff_estimate m Np rcv deltat x * (c - rate m Np rcv p o x).
Proof. exact equations_agree. Qed.
Print Assumptions observation_equation.
(* a satellite going away at one metre per second from a beacon without offset; c = 10, frequencies 5 *)
Definition gone (L1 : R) := Epoch L1 1 0 0 no_tropo (V 2 0 0).
Lemma gone_rate L1 : rate CLinear 1 0 before (gone L1) (fun _ => 0) = 1.
Proof. unfold rate, Dtropo, tropo_sum, before, gone. cbn [o_s o_t o_trop no_tropo t_Lhz t_mfh t_mfw]. rewrite !norm_x by lra. field. Qed.
Lemma gone_received L1 : received 10 CLinear 1 0 0 5 before (gone L1) (fun _ => 0) = 9 / 2.
Proof. unfold received. rewrite gone_rate. cbn. field. Qed.
Example observation_equation_case : Dion 10 5 before (gone (-1 / 2)) = 0 /\ Drel before (gone (-1 / 2)) = 0 /\
  NdopDt before (gone (-1 / 2)) = received 10 CLinear 1 0 0 5 before (gone (-1 / 2)) (fun _ => 0) - 5 /\ rate CLinear 1 0 before (gone (-1 / 2)) (fun _ => 0) = 1.
Proof. rewrite gone_received. split; [|split; [|split; [|apply gone_rate]]]; unfold Dion, Drel, NdopDt; cbn; field. Qed.
(* C89: ... while the program's residual is the sum: twice the range rate for such an observation *)
Theorem residual_sum_refuted : exists c p o x, NdopDt p o = received c CLinear 1 0 0 5 p o x - 5 /\ rfoff_estimate CLinear 1 0 0 x = 0 /\ Dion c 5 p o = 0 /\ Drel p o = 0 /\
  residual c CLinear 1 0 0 5 5 p o x = 2 * rate CLinear 1 0 p o x /\ rate CLinear 1 0 p o x <> 0.
Proof.
  exists 10, before, (gone (-1 / 2)), (fun _ => 0). destruct observation_equation_case as (I & D & E & G).
  split; [exact E|]. split; [cbn; ring|]. split; [exact I|]. split; [exact D|]. rewrite G. split; [|lra].
  assert (A : (10:R) <> 0) by lra. assert (B : (5:R) <> 0) by lra.
  pose proof (observation_equation 10 CLinear 1 0 0 5 5 before (gone (-1 / 2)) (fun _ => 0) A B I D E) as H. rewrite G in H.
  unfold residual. replace (Uobs 10 5 5 before (gone (-1 / 2))) with (Utheo 10 CLinear 1 0 0 5 5 before (gone (-1 / 2)) (fun _ => 0)) by (cbn [rfoff_estimate] in H; lra).
  unfold Utheo. replace (1 / (o_t (gone (-1 / 2)) - o_t before) * (norm (o_s (gone (-1 / 2))) - norm (o_s before))) with (rate CLinear 1 0 before (gone (-1 / 2)) (fun _ => 0) - Dtropo CLinear 1 0 before (gone (-1 / 2)) (fun _ => 0)) by (unfold rate, Rdiv; ring).
  rewrite G. cbn [rfoff_estimate]. ring.
Qed.
Print Assumptions residual_sum_refuted.
(* C89: with the opposite count the residual is small of second order, but for the difference of the
   receiver's frequency from the beacon's nominal one, which enters twice *)
Theorem residual_opposite_count : forall c m Np rcv deltat feN frT p o x, c <> 0 -> feN <> 0 -> Dion c feN p o = 0 -> Drel p o = 0 ->
  NdopDt p o = frT - received c m Np rcv deltat feN p o x ->
  residual c m Np rcv deltat feN frT p o x = 2 * c * (1 + rfoff_estimate m Np rcv deltat x) * ((feN - frT) / feN) +
    rfoff_estimate m Np rcv deltat x * (rfoff_estimate m Np rcv deltat x * (c - rate m Np rcv p o x) - 2 * rate m Np rcv p o x).
Proof. exact residual_opposite. Qed.
Print Assumptions residual_opposite_count.
Example residual_opposite_case : NdopDt before (gone (1 / 2)) = 5 - received 10 CLinear 1 0 0 5 before (gone (1 / 2)) (fun _ => 0).
Proof. rewrite gone_received. unfold NdopDt. cbn. field. Qed.
(* C89: the ionospheric correction, which C43 shows to be one of the phase, enters with the other sign
   than the phase: not removed but counted twice *)
Theorem ionosphere_sign_refuted : forall c feN frT p o, o_t o - o_t p <> 0 ->
  Uobs c feN frT p o = Uobs c feN frT (corrected p) (corrected o) + 2 * Dion c feN p o.
Proof. exact ionosphere_wrong_way. Qed.
Print Assumptions ionosphere_sign_refuted.
Example ionosphere_case : Dion 10 5 before (Epoch 0 1 1 0 no_tropo (V 2 0 0)) = 2.
Proof. unfold Dion. cbn. field. Qed.

(* C90: the beacons' coordinates are raised by the heights of the table, in the topocentric frame, all
   of them with code 0, or those before the first without entry with code 1 *)
Theorem beacons_raised : forall topo, (forall r, orthogonal (topo r)) -> forall tbl v,
  match prepare_beacon_coordinates topo v tbl with
  | (code, v') => exists done, (done <= length v)%nat /\ Forall2 (raised topo tbl) (firstn done v) (firstn done v') /\ skipn done v' = skipn done v /\
      ((code = 0%Z /\ done = length v) \/ (code = 1%Z /\ exists b, nth_error v done = Some b /\ forall h, ~ In (b_id b, h) tbl))
  end.
Proof. exact prepare_ok. Qed.
Print Assumptions beacons_raised.
Definition nm (a : ascii) : name := (a, "D", "H", "B")%char.
Example beacons_raised_case : orthogonal identity /\ fst (prepare_beacon_coordinates (fun _ => identity) [Site (nm "A") vzero; Site (nm "B") vzero] [(nm "B", 2); (nm "A", 1)]) = 0%Z.
Proof. split; [unfold orthogonal; apply mulm_identity_r|reflexivity]. Qed.
(* C90: a call that fails has already changed beacons *)
Theorem beacons_failure_refuted : exists topo v tbl v', prepare_beacon_coordinates topo v tbl = (1%Z, v') /\ v' <> v.
Proof.
  exists (fun _ => identity), [Site (nm "A") vzero; Site (nm "B") vzero], [(nm "A", 1)]. eexists. split; [reflexivity|].
  intros E. apply (f_equal (fun l => match l with b :: _ => vz (b_xyz b) | [] => 0 end)) in E. cbn in E. unfold dot in E. cbn in E. lra.
Qed.
Print Assumptions beacons_failure_refuted.
(* C90: coordinates are those of the first beacon of the name; without one the assertion fails *)
Theorem beacon_found : forall id v, match beacon_coordinates id v with
  | Some r => exists before b after, v = before ++ b :: after /\ b_id b = id /\ b_xyz b = r /\ forall e, In e before -> b_id e <> id
  | None => forall b, In b v -> b_id b <> id end.
Proof. exact beacon_coordinates_ok. Qed.
Print Assumptions beacon_found.
(* C90: the phase centre lies off the reference point by its offset in the topocentric frame *)
Theorem beacon_phase_center : forall topo, (forall r, orthogonal (topo r)) -> forall arp pc, mulv (topo arp) (vsub (beacon_arp2ion topo arp pc) arp) = pc.
Proof. exact arp2ion_ok. Qed.
Print Assumptions beacon_phase_center.

(* C91: the delay from the grid: mapping functions at the zenith distance given, codes *)
Theorem grid_delay : forall vmf3_ht sh aw grid lon lat h zd code v, get_tropo vmf3_ht sh aw grid lon lat h zd = Answer code v ->
  (code <> 0%Z /\ v = None) \/
  (code = 0%Z /\ exists g mfh mfw, grid = Some g /\ vmf3_ht (g_ah g) (g_aw g) lat lon h zd = Some (mfh, mfw) /\
     v = Some (Tropo (sh (g_p g) lat h) mfh (aw (g_e g) (g_Tm g) (g_la g)) mfw)).
Proof. exact get_tropo_ok. Qed.
Print Assumptions grid_delay.
(* C91: the delay from the site data: codes; the mapping functions are those at deg2rad of the angle *)
Theorem site_delay_partial : forall vmf3 d2r feed lat lon zd code v, get_tropo_vmf vmf3 d2r feed lat lon zd = Answer code v ->
  (code <> 0%Z /\ v = None) \/
  (code = 0%Z /\ exists w mfh mfw, feed = Some w /\ vmf3 (me_ah w) (me_aw w) lat lon (d2r zd) = Some (mfh, mfw) /\
     v = Some (Tropo (me_zhd w) mfh (me_zwd w) mfw)).
Proof. exact get_tropo_vmf_ok. Qed.
Print Assumptions site_delay_partial.
(* C91: ... which is given in radians already: with a mapping function 1 / cos a satellite at sixty
   degrees from the zenith gets less than 1.5 instead of 2 *)
Definition secant (_ _ _ _ z : R) : option (R * R) := Some (/ cos z, / cos z).
Theorem site_delay_refuted : exists w zd v, get_tropo_vmf secant (fun d => d * PI / 180) (Some w) 0 0 zd = Answer 0 (Some v) /\ / cos zd = 2 /\ t_mfh v < 3 / 2.
Proof.
  exists (Meteo 0 0 0 0), (PI / 3). pose proof PI_RGT_0 as P0. pose proof PI_4 as P4. eexists. split.
  - unfold get_tropo_vmf. destruct (Rle_dec 0 (PI / 3)); [|exfalso; lra]. destruct (Rle_dec (PI / 3) (PI / 2)); [|exfalso; lra]. cbn. reflexivity.
  - split; [rewrite cos_PI3; field|]. cbn.
    assert (L : cos (PI / 4) < cos (PI / 3 * PI / 180)) by (apply cos_decreasing_1; nra).
    assert (S : 2 / 3 < cos (PI / 4)).
    { rewrite cos_PI4. apply Rmult_lt_reg_r with (sqrt 2); [apply sqrt_lt_R0; lra|].
      replace (1 / sqrt 2 * sqrt 2) with 1 by (field; apply Rgt_not_eq, sqrt_lt_R0; lra).
      assert (B : sqrt 2 < 3 / 2) by (rewrite <- (sqrt_square (3 / 2)) by lra; apply sqrt_lt_1; lra). lra. }
    replace (3 / 2) with (/ (2 / 3)) by field. apply Rinv_lt_contravar; [apply Rmult_lt_0_compat|]; lra.
Qed.
Print Assumptions site_delay_refuted.

(* C91: the relativistic correction: satellite's potential with oblateness and speed less the beacon's
   potential, for the geocentric latitude.  Missing: the motion with the rotating Earth, refuted below *)
Theorem relativity_difference_partial : forall c lat sv rb Re GM J2 S lam, geocentric (st_r sv) lat ->
  relativity_corrections c lat sv rb Re GM J2 =
    (((potential GM Re (oblate J2) S 2 0 (st_r sv) lam + dot (st_v sv) (st_v sv) / 2) - GM / norm rb) / c, 0).
Proof.
  intros c lat sv rb Re GM J2 S lam G. unfold relativity_corrections. rewrite (correction_geocentric c lat (st_r sv) (st_v sv) GM J2 Re S lam G).
  f_equal. unfold clock_correction, dot, vzero, Rdiv. cbn [vx vy vz]. ring.
Qed.
Print Assumptions relativity_difference_partial.
Example relativity_difference_case : geocentric (V 3 0 0) 0.
Proof. unfold geocentric. rewrite sin_0. cbn [vz]. unfold Rdiv. ring. Qed.
(* the velocity of something in the frame turning with [w] around z *)
Definition inertial (w : R) (r v : vec) : vec := vadd v (cross (V 0 0 w) r).
Definition clock_rate (GM c w : R) (r v : vec) : R := (GM / norm r + dot (inertial w r v) (inertial w r v) / 2) / c.
Theorem relativity_rotation_refuted : exists c w GM sv rb, fst (relativity_corrections c 0 sv rb 1 GM 0) <> clock_rate GM c w (st_r sv) (st_v sv) - clock_rate GM c w rb vzero.
Proof.
  exists 1, 1, 1, (State (V 1 0 0) vzero), (V 0 0 1). unfold relativity_corrections. rewrite correction_plain. cbn [fst st_r st_v].
  unfold clock_correction, clock_rate, inertial. replace (norm (V 0 0 1)) with (norm (V 1 0 0)) by (unfold norm, dot; cbn; f_equal; ring).
  unfold dot, cross, vadd, vzero. cbn. generalize (norm (V 1 0 0)). intros n. unfold Rdiv. rewrite Rinv_1. lra.
Qed.
Print Assumptions relativity_rotation_refuted.
