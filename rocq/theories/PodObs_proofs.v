From Coq Require Import List Reals ZArith Bool Ascii Lia Lra.
From Verif Require Import Base Vec_model Vec_proofs Frames_model Calc Relativity_model Filter_model PodObs_model.
Import ListNotations.
Local Open Scope R_scope.

(* ---- what the parameters mean ---- *)
(* one parameter changed by [s] *)
Definition bump (j : nat) (s : R) (x : nat -> R) : nat -> R := fun i => if Nat.eq_dec i j then x i + s else x i.
(* the vector to a satellite whose position is the head of the parameters *)
Definition seen (Rt : mat) (bxyz : vec) (o : epoch) (x : nat -> R) : epoch :=
  Epoch (o_L1 o) (o_t o) (o_iono o) (o_rel o) (o_trop o) (mulv Rt (vsub (V (x 0%nat) (x 1%nat) (x 2%nat)) bxyz)).
Definition axis (j : nat) : vec := match j with 0%nat => V 1 0 0 | 1%nat => V 0 1 0 | _ => V 0 0 1 end.
(* both ends of the count moved with the satellite *)
Definition moved (Rt : mat) (d : vec) (o : epoch) : epoch :=
  Epoch (o_L1 o) (o_t o) (o_iono o) (o_rel o) (o_trop o) (vadd (o_s o) (mulv Rt d)).

Section P.
Variable c : R.
Variable m : clock_model.
Variables Np rcv : nat.
Variable deltat : R.
Variable Rt : mat.
Variable bxyz : vec.
Variables feN frT : R.
Notation Utheo := (Utheo c m Np rcv deltat feN frT).
Notation Uobs := (Uobs c feN frT).
Notation partials := (partials c m Np rcv deltat Rt feN frT).
Definition predicted (p o : epoch) (x : nat -> R) : R := - Utheo p (seen Rt bxyz o x) x.

Lemma bump_other j s x i : i <> j -> bump j s x i = x i.
Proof. intros N. unfold bump. destruct (Nat.eq_dec i j); [contradiction|reflexivity]. Qed.
Lemma bump_same j s x : bump j s x j = x j + s.
Proof. unfold bump. destruct (Nat.eq_dec j j); [reflexivity|contradiction]. Qed.
Lemma set_same i v h : set i v h i = v. Proof. unfold set. rewrite Nat.eqb_refl. reflexivity. Qed.
Lemma set_other i v h j : j <> i -> set i v h j = h j. Proof. intros N. unfold set. destruct (Nat.eqb_spec j i); [contradiction|reflexivity]. Qed.

(* a function of the parameter that is a constant plus a multiple *)
Lemma deriv_affine f a b : (forall s, f s = a + b * s) -> derivable_pt_lim f 0 b.
Proof.
  intros H. apply deriv_ext with (fun s => a + b * s); [intros; symmetry; apply H|].
  eapply deriv_eq; [apply deriv_plus; [apply deriv_const|apply deriv_scal, deriv_id]|ring].
Qed.

Lemma deriv_norm_mul f s a : vderiv f s a -> f s <> vzero -> derivable_pt_lim (fun t => norm (f t)) s (dot (vscale (/ norm (f s)) (f s)) a).
Proof. intros D N. eapply deriv_eq; [apply deriv_norm; [exact D|exact N]|]. unfold dot, vscale, Rdiv. cbn. ring. Qed.
Lemma dot_transpose M u v : dot (mulv (transpose M) u) v = dot u (mulv M v).
Proof. vec_ring. Qed.
Lemma partial_axis j (g : vec) : (j < 3)%nat -> dot g (axis j) = match j with 0%nat => vx g | 1%nat => vy g | _ => vz g end.
Proof. intros L. destruct j as [|[|[|j]]]; [| | |lia]; unfold dot; cbn; ring. Qed.

Lemma moved_deriv o d : o_s o <> vzero -> derivable_pt_lim (fun s => norm (o_s (moved Rt (vscale s d) o))) 0 (dot (vscale (/ norm (o_s o)) (o_s o)) (mulv Rt d)).
Proof.
  intros N. assert (E : o_s o = o_s (moved Rt (vscale 0 d) o)) by (cbn; clear; vec_ring).
  rewrite E at 1 2. apply (deriv_norm_mul (fun s => o_s (moved Rt (vscale s d) o))).
  - cbn. apply vderiv_ext with (fun s => vadd (o_s o) (vscale s (mulv Rt d))); [intros t; clear; vec_ring|apply vderiv_line].
  - rewrite <- E. exact N.
Qed.

Lemma partials_position p o j : (j < 3)%nat -> partials p o j =
  - (1 / (o_t o - o_t p) * dot (vsub (vscale (/ norm (o_s o)) (o_s o)) (vscale (/ norm (o_s p)) (o_s p))) (mulv Rt (axis j))).
Proof.
  intros L. rewrite <- dot_transpose. set (g := mulv _ _). rewrite partial_axis by exact L. unfold partials. fold g.
  assert (T : j <> tropo_index Np m rcv) by (unfold tropo_index; destruct m; lia).
  assert (F : j <> rfoff_index Np m rcv) by (unfold rfoff_index; destruct m; lia).
  assert (F1 : j <> (rfoff_index Np m rcv + 1)%nat) by (unfold rfoff_index; destruct m; lia).
  rewrite set_other by exact T. f_equal.
  transitivity (set drag_coef_index 1 (set 2 (vz (vscale (1 / (o_t o - o_t p)) g)) (set 1 (vy (vscale (1 / (o_t o - o_t p)) g)) (set 0 (vx (vscale (1 / (o_t o - o_t p)) g)) (fun _ => 0)))) j).
  - destruct m; repeat (rewrite set_other by assumption); reflexivity.
  - rewrite set_other by (unfold drag_coef_index; lia). destruct j as [|[|[|j]]]; [reflexivity|reflexivity|reflexivity|lia].
Qed.

(* the position: right for a satellite whose earlier position moves along *)
Lemma partials_common p o x j : (j < 3)%nat -> o_t o - o_t p <> 0 -> o_s o <> vzero -> o_s p <> vzero ->
  derivable_pt_lim (fun s => - Utheo (moved Rt (vscale s (axis j)) p) (moved Rt (vscale s (axis j)) o) x) 0 (partials p o j).
Proof.
  intros L T No Np'. rewrite partials_position by exact L.
  pose proof (moved_deriv o (axis j) No) as Do. pose proof (moved_deriv p (axis j) Np') as Dp.
  set (K := Dtropo m Np rcv p o x - c / feN * (NdopDt p o + frT) * rfoff_estimate m Np rcv deltat x).
  apply deriv_ext with (fun s => - (1 / (o_t o - o_t p) * (norm (o_s (moved Rt (vscale s (axis j)) o)) - norm (o_s (moved Rt (vscale s (axis j)) p))) + K)).
  { intros s. unfold PodObs_model.Utheo, K. change (NdopDt (moved Rt (vscale s (axis j)) p) (moved Rt (vscale s (axis j)) o)) with (NdopDt p o).
    change (Dtropo m Np rcv (moved Rt (vscale s (axis j)) p) (moved Rt (vscale s (axis j)) o) x) with (Dtropo m Np rcv p o x).
    change (o_t (moved Rt (vscale s (axis j)) o)) with (o_t o). change (o_t (moved Rt (vscale s (axis j)) p)) with (o_t p). ring. }
  eapply deriv_eq; [apply deriv_opp, deriv_plus; [apply deriv_scal, deriv_minus; [exact Do|exact Dp]|apply deriv_const]|].
  unfold dot, vsub. cbn. ring.
Qed.

(* the other parameters, with the clock modelled as offset and drift *)
Lemma partials_rest p o x j : m = CLinear -> (1 <= Np)%nat -> o_t o - o_t p <> 0 -> (3 <= j)%nat -> j <> 6%nat ->
  derivable_pt_lim (fun s => predicted p o (bump j s x)) 0 (partials p o j).
Proof.
  intros M1 N1 T L6 Nd. unfold predicted.
  assert (P : forall s, seen Rt bxyz o (bump j s x) = seen Rt bxyz o x).
  { intros s. unfold seen. rewrite !bump_other by lia. reflexivity. }
  apply deriv_affine with (- Utheo p (seen Rt bxyz o x) x). intros s. rewrite P. unfold PodObs_model.Utheo.
  change (NdopDt p (seen Rt bxyz o x)) with (NdopDt p o). change (o_t (seen Rt bxyz o x)) with (o_t o).
  unfold Dtropo, tropo_sum. change (o_trop (seen Rt bxyz o x)) with (o_trop o). change (o_t (seen Rt bxyz o x)) with (o_t o).
  assert (B : forall i, bump j s x i = x i + (if Nat.eqb i j then s else 0)).
  { intros i. destruct (Nat.eqb_spec i j) as [->|N]; [apply bump_same|rewrite bump_other by exact N; ring]. }
  unfold partials, PodObs_model.partials, rfoff_estimate. rewrite M1. rewrite !B. unfold tropo_index, rfoff_index.
  set (ti := (6 + Np + rcv * 3)%nat). unfold set, drag_coef_index. generalize (c / feN). intros k.
  rewrite (Nat.eqb_sym (ti + 1)), (Nat.eqb_sym (ti + 1 + 1)), (Nat.eqb_sym ti).
  destruct (Nat.eqb_spec j ti) as [->|Nt].
  { rewrite (proj2 (Nat.eqb_neq ti (ti + 1)%nat)), (proj2 (Nat.eqb_neq ti (ti + 1 + 1)%nat)) by lia. field. exact T. }
  destruct (Nat.eqb_spec j (ti + 1)%nat) as [->|Nf].
  { rewrite (proj2 (Nat.eqb_neq (ti + 1)%nat (ti + 1 + 1)%nat)) by lia. field. exact T. }
  destruct (Nat.eqb_spec j (ti + 1 + 1)%nat) as [->|Nb].
  { field. exact T. }
  rewrite (proj2 (Nat.eqb_neq j 6)), (proj2 (Nat.eqb_neq j 2)), (proj2 (Nat.eqb_neq j 1)), (proj2 (Nat.eqb_neq j 0)) by lia. field. exact T.
Qed.
(* without a model of the clock: the offset gets the opposite sign *)
Lemma partials_random_offset p o x : m = CNone -> o_t o - o_t p <> 0 ->
  derivable_pt_lim (fun s => predicted p o (bump (rfoff_index Np m rcv) s x)) 0 (- partials p o (rfoff_index Np m rcv)).
Proof.
  intros M1 T. assert (L : (7 <= rfoff_index Np m rcv)%nat) by (unfold rfoff_index; destruct m; lia).
  assert (Nt : tropo_index Np m rcv <> rfoff_index Np m rcv) by (unfold tropo_index, rfoff_index; destruct m; lia).
  unfold predicted.
  assert (P : forall s, seen Rt bxyz o (bump (rfoff_index Np m rcv) s x) = seen Rt bxyz o x).
  { intros s. unfold seen. rewrite !bump_other by lia. reflexivity. }
  apply deriv_affine with (- Utheo p (seen Rt bxyz o x) x). intros s. rewrite P. unfold PodObs_model.Utheo, Dtropo, rfoff_estimate.
  rewrite (bump_other _ _ _ _ Nt). unfold partials, PodObs_model.partials. rewrite set_other by (apply not_eq_sym, Nt).
  rewrite M1 in *. rewrite bump_same, set_same. change (NdopDt p (seen Rt bxyz o x)) with (NdopDt p o).
  ring.
Qed.

(* the prediction does not depend on the drag coefficient *)
Lemma predicted_drag p o x s : (1 <= Np)%nat -> predicted p o (bump 6 s x) = predicted p o x.
Proof.
  intros N. unfold predicted, PodObs_model.Utheo, Dtropo, rfoff_estimate, seen. rewrite !bump_other by (try lia; unfold tropo_index, rfoff_index; destruct m; lia).
  destruct m; rewrite ?bump_other by (unfold tropo_index, rfoff_index; lia); reflexivity.
Qed.
Lemma partials_drag p o : (1 <= Np)%nat -> partials p o 6 = -1.
Proof.
  intros N. unfold partials, PodObs_model.partials. rewrite set_other by (unfold tropo_index; destruct m; lia).
  destruct m; rewrite ?set_other by (unfold rfoff_index; lia); unfold drag_coef_index; rewrite set_same; reflexivity.
Qed.

(* ---- the observation equation ---- *)
(* range rate over the interval, troposphere included *)
Definition rate (p o : epoch) (x : nat -> R) : R := (norm (o_s o) - norm (o_s p)) / (o_t o - o_t p) + Dtropo m Np rcv p o x.
(* without ionosphere and relativity the receiver gets the cycles emitted less those on the way *)
Definition received (p o : epoch) (x : nat -> R) : R := feN * (1 + rfoff_estimate m Np rcv deltat x) * (1 - rate p o x / c).
Lemma equations_agree p o x : c <> 0 -> feN <> 0 -> Dion c feN p o = 0 -> Drel p o = 0 -> NdopDt p o = received p o x - frT ->
  Uobs p o - Utheo p o x = rfoff_estimate m Np rcv deltat x * rfoff_estimate m Np rcv deltat x * (c - rate p o x).
Proof.
  intros Nc Nf I0 R0 E. unfold PodObs_model.Uobs, PodObs_model.Utheo. rewrite I0, R0, E. unfold received.
  replace (1 / (o_t o - o_t p) * (norm (o_s o) - norm (o_s p))) with (rate p o x - Dtropo m Np rcv p o x) by (unfold rate, Rdiv; ring).
  generalize (rate p o x), (Dtropo m Np rcv p o x), (rfoff_estimate m Np rcv deltat x). intros u d e. field. split; assumption.
Qed.
Lemma residual_opposite p o x : c <> 0 -> feN <> 0 -> Dion c feN p o = 0 -> Drel p o = 0 -> NdopDt p o = frT - received p o x ->
  residual c m Np rcv deltat feN frT p o x = 2 * c * (1 + rfoff_estimate m Np rcv deltat x) * ((feN - frT) / feN) +
    rfoff_estimate m Np rcv deltat x * (rfoff_estimate m Np rcv deltat x * (c - rate p o x) - 2 * rate p o x).
Proof.
  intros Nc Nf I0 R0 E. unfold residual, PodObs_model.Uobs, PodObs_model.Utheo. rewrite I0, R0, E. unfold received.
  replace (1 / (o_t o - o_t p) * (norm (o_s o) - norm (o_s p))) with (rate p o x - Dtropo m Np rcv p o x) by (unfold rate, Rdiv; ring).
  generalize (rate p o x), (Dtropo m Np rcv p o x), (rfoff_estimate m Np rcv deltat x). intros u d e. field. split; assumption.
Qed.
(* the ionosphere: the correction is one of the phase, in cycles *)
Definition corrected (o : epoch) : epoch := Epoch (o_L1 o + o_iono o) (o_t o) 0 (o_rel o) (o_trop o) (o_s o).
Lemma ionosphere_wrong_way p o : o_t o - o_t p <> 0 -> Uobs p o = Uobs (corrected p) (corrected o) + 2 * Dion c feN p o.
Proof.
  intros T. unfold PodObs_model.Uobs, NdopDt, Dion, Drel. cbn. generalize (c / feN). intros k. field. exact T.
Qed.
End P.

(* ---- beacons ---- *)
Lemma name_eqb_eq a b : name_eqb a b = true <-> a = b.
Proof.
  destruct a as [[[a0 a1] a2] a3], b as [[[b0 b1] b2] b3]. cbn. rewrite !andb_true_iff, !Ascii.eqb_eq. split.
  - intros [[[-> ->] ->] ->]. reflexivity.
  - intros E. injection E as -> -> -> ->. auto.
Qed.
(* a beacon raised by the height the table first gives for it *)
Definition first_height (tbl : list (name * R)) (id : name) (h : R) : Prop :=
  exists before after, tbl = before ++ (id, h) :: after /\ forall e, In e before -> fst e <> id.
Definition raised (topo : vec -> mat) (tbl : list (name * R)) (a b : site) : Prop :=
  b_id b = b_id a /\ exists h, first_height tbl (b_id a) h /\ mulv (topo (b_xyz a)) (vsub (b_xyz b) (b_xyz a)) = V 0 0 h.
Lemma find_first tbl id : match find (fun e => name_eqb id (fst e)) tbl with
  | Some (n, h) => n = id /\ first_height tbl id h | None => forall h, ~ In (id, h) tbl end.
Proof.
  induction tbl as [|[n h] tbl IH]; cbn [find fst]; [intros h []|]. destruct (name_eqb id n) eqn:E.
  - apply name_eqb_eq in E as ->. split; [reflexivity|]. exists [], tbl. split; [reflexivity|]. intros e [].
  - assert (N : n <> id) by (intros <-; rewrite (proj2 (name_eqb_eq n n) eq_refl) in E; discriminate).
    destruct (find _ tbl) as [[n' h']|].
    + destruct IH as (-> & b & a & -> & F). split; [reflexivity|]. exists ((n, h) :: b), a. split; [reflexivity|].
      intros e [<-|I]; [exact N|apply F, I].
    + intros h' [D|I]; [injection D as -> _; apply N; reflexivity|apply (IH h' I)].
Qed.
Lemma there_and_back M r d : orthogonal M -> mulv M (vsub (vadd r (mulv (transpose M) d)) r) = d.
Proof.
  intros O. replace (vsub (vadd r (mulv (transpose M) d)) r) with (mulv (transpose M) d).
  - pose proof (orth_back (transpose M) d (orth_rows _ O)) as H. rewrite transpose_invol in H. exact H.
  - generalize (mulv (transpose M) d). intros v. clear. vec_ring.
Qed.
Section B.
Variable topo : vec -> mat.
Hypothesis O : forall r, orthogonal (topo r).
Lemma prepare_ok tbl v : match prepare_beacon_coordinates topo v tbl with
  | (code, v') => exists done, (done <= length v)%nat /\ Forall2 (raised topo tbl) (firstn done v) (firstn done v') /\ skipn done v' = skipn done v /\
      ((code = 0%Z /\ done = length v) \/ (code = 1%Z /\ exists b, nth_error v done = Some b /\ forall h, ~ In (b_id b, h) tbl))
  end.
Proof.
  induction v as [|b v IH]; cbn [prepare_beacon_coordinates].
  { exists 0%nat. split; [apply le_n|]. split; [constructor|]. split; [reflexivity|]. left. split; reflexivity. }
  pose proof (find_first tbl (b_id b)) as F. destruct (find _ tbl) as [[n h]|].
  - destruct F as (-> & F). destruct (prepare_beacon_coordinates topo v tbl) as [code v']. destruct IH as (k & L & A & B & C).
    exists (S k). split; [cbn; lia|]. split; [|split; [exact B|]].
    + constructor; [|exact A]. split; [reflexivity|]. exists h. split; [exact F|]. apply there_and_back, O.
    + destruct C as [[-> ->] | [-> C]]; [left; split; reflexivity|right; split; [reflexivity|exact C]].
  - exists 0%nat. split; [lia|]. split; [constructor|]. split; [reflexivity|]. right. split; [reflexivity|]. exists b. split; [reflexivity|exact F].
Qed.
Lemma arp2ion_ok arp pc : mulv (topo arp) (vsub (beacon_arp2ion topo arp pc) arp) = pc.
Proof. apply there_and_back, O. Qed.
End B.
Lemma beacon_coordinates_ok id v : match beacon_coordinates id v with
  | Some r => exists before b after, v = before ++ b :: after /\ b_id b = id /\ b_xyz b = r /\ forall e, In e before -> b_id e <> id
  | None => forall b, In b v -> b_id b <> id end.
Proof.
  unfold beacon_coordinates. induction v as [|b v IH]; cbn [find option_map]; [intros b []|]. destruct (name_eqb (b_id b) id) eqn:E.
  - apply name_eqb_eq in E. exists [], b, v. repeat split; [exact E|]. intros e [].
  - assert (N : b_id b <> id) by (intros H; apply name_eqb_eq in H; congruence).
    destruct (find _ v) as [b'|]; cbn [option_map] in *.
    + destruct IH as (x & y & z & -> & H1 & H2 & H3). exists (b :: x), y, z. repeat split; [exact H1|exact H2|]. intros e [<-|I]; [exact N|apply H3, I].
    + intros e [<-|I]; [exact N|apply IH, I].
Qed.

(* ---- the troposphere ---- *)
Lemma get_tropo_ok vmf3_ht sh aw grid lon lat h zd code v : get_tropo vmf3_ht sh aw grid lon lat h zd = Answer code v ->
  (code <> 0%Z /\ v = None) \/
  (code = 0%Z /\ exists g mfh mfw, grid = Some g /\ vmf3_ht (g_ah g) (g_aw g) lat lon h zd = Some (mfh, mfw) /\
     v = Some (Tropo (sh (g_p g) lat h) mfh (aw (g_e g) (g_Tm g) (g_la g)) mfw)).
Proof.
  unfold get_tropo. destruct (Rle_dec 0 zd); [|discriminate]. destruct (Rle_dec zd (PI / 2)); [|discriminate].
  destruct grid as [g|]; [|intros E; injection E as <- <-; left; split; [discriminate|reflexivity]].
  destruct (vmf3_ht _ _ _ _ _ _) as [[a b]|] eqn:F; intros E; injection E as <- <-; [right|left; split; [discriminate|reflexivity]].
  split; [reflexivity|]. exists g, a, b. auto.
Qed.
Lemma get_tropo_vmf_ok vmf3 d2r feed lat lon zd code v : get_tropo_vmf vmf3 d2r feed lat lon zd = Answer code v ->
  (code <> 0%Z /\ v = None) \/
  (code = 0%Z /\ exists w mfh mfw, feed = Some w /\ vmf3 (me_ah w) (me_aw w) lat lon (d2r zd) = Some (mfh, mfw) /\
     v = Some (Tropo (me_zhd w) mfh (me_zwd w) mfw)).
Proof.
  unfold get_tropo_vmf. destruct (Rle_dec 0 zd); [|discriminate]. destruct (Rle_dec zd (PI / 2)); [|discriminate].
  destruct feed as [g|]; [|intros E; injection E as <- <-; left; split; [discriminate|reflexivity]].
  destruct (vmf3 _ _ _ _ _) as [[a b]|] eqn:F; intros E; injection E as <- <-; [right|left; split; [discriminate|reflexivity]].
  split; [reflexivity|]. exists g, a, b. auto.
Qed.

(* ---- examples ---- *)
Definition no_tropo := Tropo 0 0 0 0.
(* a satellite overhead, the same place before *)
Definition before := Epoch 0 0 0 0 no_tropo (V 1 0 0).
Definition after := Epoch 0 1 0 0 no_tropo (V 1 0 0).
Lemma norm_x a : 0 <= a -> norm (V a 0 0) = a.
Proof. intros H. unfold norm, dot. cbn. replace (a * a + 0 * 0 + 0 * 0) with (a * a) by ring. apply sqrt_square, H. Qed.
Lemma identity_mulv r : mulv identity (vsub r vzero) = r. Proof. vec_ring. Qed.
Lemma position_derivative : derivable_pt_lim (fun s => predicted 1 CLinear 1 0 0 identity vzero 1 1 before after (bump 0 s (fun i => if Nat.eqb i 0 then 1 else 0))) 0 (-1).
Proof.
  apply deriv_near with (fun s => 0 + -1 * s) 1; [lra| |].
  - intros t T. rewrite Rminus_0_r in T. apply Rabs_def2 in T. unfold predicted, Utheo, seen, Dtropo, rfoff_estimate, tropo_sum. cbn [o_t o_s o_trop o_L1 before after no_tropo t_Lhz t_mfh t_Lwz t_mfw].
    rewrite identity_mulv. unfold bump. cbn. rewrite !norm_x by lra. field.
  - eapply deriv_eq; [apply deriv_plus; [apply deriv_const|apply deriv_scal, deriv_id]|ring].
Qed.
Lemma position_partial : partials 1 CLinear 1 0 0 identity 1 1 before after 0 = 0.
Proof. rewrite partials_position by auto. unfold before, after. cbn [o_s o_t]. rewrite norm_x by lra. unfold dot. cbn. field. Qed.
