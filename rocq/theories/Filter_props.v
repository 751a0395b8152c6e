(* Property theorems C27, C28. *)
From Coq Require Import List Arith ZArith.
From Verif Require Import Base Filter_model Filter_proofs.

(* C27 *)
Theorem filter_layout_is_bijective : forall (Np : nat) (m : clock_model) (n : nat),
  (forall q, param_ok Np m n q -> index Np m q < num_params Np m n) /\
  (forall q1 q2, param_ok Np m n q1 -> param_ok Np m n q2 -> index Np m q1 = index Np m q2 -> q1 = q2) /\
  (forall i, i < num_params Np m n -> exists q, param_ok Np m n q /\ index Np m q = i).
Proof. exact layout_ok. Qed.
Print Assumptions filter_layout_is_bijective.

(* C27 *)
Theorem linear_offset_estimate_reads_offset_and_drift : forall Np (f : filt Z) b dt,
  f_dim f = num_params Np CLinear (f_n f) -> b < f_n f ->
  rfoff_estimate_linear Np f b dt =
  Ok (f_x f (index Np CLinear (PRf b)) + dt * f_x f (index Np CLinear (PDrift b)))%Z.
Proof. exact linear_estimate. Qed.
Print Assumptions linear_offset_estimate_reads_offset_and_drift.

(* C28: one beacon, both clock models *)
Theorem set_tropo_one_beacon : forall V Np m (f : filt V) v b, wf V Np m f -> b < f_n f ->
  (exists f', set_tropo_apriori Np m f v (Some b) = Ok f' /\ sets_x V Np m f f' (sel_tropo V v (Some b))) /\
  (exists f', set_tropo_apriori_sigma Np m f v (Some b) = Ok f' /\ sets_P V Np m f f' (sel_tropo V v (Some b))).
Proof. exact tropo_single. Qed.
Print Assumptions set_tropo_one_beacon.

(* C28: all beacons, model without drift.  Missing: the Linear model with two
   or more beacons (refuted below). *)
Theorem set_tropo_all_beacons_partial : forall V Np (f : filt V) v, wf V Np CNone f ->
  (exists f', set_tropo_apriori Np CNone f v None = Ok f' /\ sets_x V Np CNone f f' (sel_tropo V v None)) /\
  (exists f', set_tropo_apriori_sigma Np CNone f v None = Ok f' /\ sets_P V Np CNone f f' (sel_tropo V v None)).
Proof. exact tropo_all_none. Qed.
Print Assumptions set_tropo_all_beacons_partial.

(* C28: all beacons, Linear model, at most one beacon *)
Theorem set_tropo_single_station_linear_partial : forall V Np (f : filt V) v, wf V Np CLinear f -> f_n f <= 1 ->
  (exists f', set_tropo_apriori Np CLinear f v None = Ok f' /\ sets_x V Np CLinear f f' (sel_tropo V v None)) /\
  (exists f', set_tropo_apriori_sigma Np CLinear f v None = Ok f' /\ sets_P V Np CLinear f f' (sel_tropo V v None)).
Proof. exact tropo_all_linear_one. Qed.
Print Assumptions set_tropo_single_station_linear_partial.

(* C28: false of the code *)
Theorem set_tropo_all_beacons_linear_refuted : exists (f : filt Z) v,
  wf Z 1 CLinear f /\
  ~ exists f', set_tropo_apriori 1 CLinear f v None = Ok f' /\ sets_x Z 1 CLinear f f' (sel_tropo Z v None).
Proof. exact tropo_all_linear_refuted. Qed.
Print Assumptions set_tropo_all_beacons_linear_refuted.

(* C28: extent of the defect - with two or more beacons the first beacon's
   drift is always overwritten *)
Theorem set_tropo_all_beacons_linear_overwrites : forall Np n (x0 : nat -> Z) (P0 : nat -> nat -> Z) v, 2 <= n ->
  exists f', set_tropo_apriori Np CLinear (filt_new Np CLinear n x0 P0) v None = Ok f' /\
   f_x f' (index Np CLinear (PDrift 0)) = v /\
   f_x f' (index Np CLinear (PTropo (n - 1))) = (if andb (Nat.eqb ((n - 1) mod 2) 0) (3 * (n - 1) <? 2 * n) then v
       else x0 (index Np CLinear (PTropo (n - 1)))).
Proof. exact tropo_all_linear_bad. Qed.
Print Assumptions set_tropo_all_beacons_linear_overwrites.

(* C28 *)
Theorem set_rfoff_all_beacons_linear : forall V Np (f : filt V) a d, wf V Np CLinear f ->
  (exists f', set_rfoff_apriori_linear Np f a d None = Ok f' /\ sets_x V Np CLinear f f' (sel_rf V a d None)) /\
  (exists f', set_rfoff_apriori_sigma_linear Np f a d None = Ok f' /\ sets_P V Np CLinear f f' (sel_rf V a d None)).
Proof. exact rf_all_linear. Qed.
Print Assumptions set_rfoff_all_beacons_linear.

(* C28 *)
Theorem set_rfoff_one_beacon_linear : forall V Np (f : filt V) a d b, wf V Np CLinear f -> b < f_n f ->
  (exists f', set_rfoff_apriori_linear Np f a d (Some b) = Ok f' /\ sets_x V Np CLinear f f' (sel_rf V a d (Some b))) /\
  (exists f', set_rfoff_apriori_sigma_linear Np f a d (Some b) = Ok f' /\ sets_P V Np CLinear f f' (sel_rf V a d (Some b))).
Proof. exact rf_single_linear. Qed.
Print Assumptions set_rfoff_one_beacon_linear.

(* C28 *)
Theorem set_rfoff_all_beacons_none : forall V Np (f : filt V) a, wf V Np CNone f ->
  (exists f', set_rfoff_apriori_none Np f a None = Ok f' /\ sets_x V Np CNone f f' (sel_rf V a a None)) /\
  (exists f', set_rfoff_apriori_sigma_none Np f a None = Ok f' /\ sets_P V Np CNone f f' (sel_rf V a a None)).
Proof. exact rf_all_none. Qed.
Print Assumptions set_rfoff_all_beacons_none.

(* C28 *)
Theorem set_rfoff_one_beacon_none : forall V Np (f : filt V) a b, wf V Np CNone f -> b < f_n f ->
  (exists f', set_rfoff_apriori_none Np f a (Some b) = Ok f' /\ sets_x V Np CNone f f' (sel_rf V a a (Some b))) /\
  (exists f', set_rfoff_apriori_sigma_none Np f a (Some b) = Ok f' /\ sets_P V Np CNone f f' (sel_rf V a a (Some b))).
Proof. exact rf_single_none. Qed.
Print Assumptions set_rfoff_one_beacon_none.

(* C28 *)
Theorem set_drag_touches_only_drag : forall V Np m (f : filt V) v, wf V Np m f -> 1 <= Np ->
  (exists f', set_drag_coef_apriori f v = Ok f' /\ sets_x V Np m f f' (sel_drag V v)) /\
  (exists f', set_drag_coef_apriori_sigma f v = Ok f' /\ sets_P V Np m f f' (sel_drag V v)).
Proof. exact drag_ok. Qed.
Print Assumptions set_drag_touches_only_drag.
