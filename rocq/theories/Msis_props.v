(* The properties of the NRLMSISE-00 atmosphere model. *)
From Coq Require Import List ZArith Reals Lra Lia.
From Verif Require Import Base Msis_model Msis_proofs Msis_history Msis_data Msis_code Msis_facts Msis_refute Legendre.
Import ListNotations.
Local Open Scope R_scope.

(* C54: one instance alone in the program: the result for an input does not depend on the calls made
   before, whatever they asked for, as long as no two latitudes and no two local times of the calls are
   different by less than the tolerance of the caches.  Missing: several instances, and closer inputs;
   both are refuted below *)
Theorem gtd7_history_free_partial : forall T, tables_ok T -> forall lats locs, grid lats -> grid locs ->
  forall l l' m m' i mass o o' oc oc' tz tz',
  Forall (fun c => on_grid lats locs (c_in c)) l -> Forall (fun c => on_grid lats locs (c_in c)) l' -> on_grid lats locs i ->
  72.5 <= alt i \/
  (32.5 < alt i /\ (mass = 48%Z \/ o = o') /\ (mass = 0%Z \/ ((mass > 0)%Z /\ mass_index mass <> 0%nat /\ on (sw i 14) = true))) \/
  (alt i < 32.5 /\ tn3 m 0%nat = tn3 m' 0%nat /\ (mass = 48%Z \/ o = o') /\ (mass = 0%Z \/ ((mass > 0)%Z /\ mass_index mass <> 0%nat /\ on (sw i 14) = true))) ->
  exists s s' r s1 s1', calls T l (statics0, m) = Ok s /\ calls T l' (statics0, m') = Ok s' /\
    gtd7 T i mass o oc tz s = Ok (r, s1) /\ gtd7 T i mass o' oc' tz' s' = Ok (r, s1').
Proof. exact history_free. Qed.
Print Assumptions gtd7_history_free_partial.
(* the coefficients of the code, whole degrees and whole hours *)
Example history_tables : tables_ok code_tables.
Proof. exact code_ok. Qed.
Definition whole (x : R) : Prop := exists k : Z, (-180 <= k <= 180)%Z /\ x = IZR k.
Example history_grid : grid whole.
Proof.
  split.
  - intros x y (a & A & ->) (b & B & ->). destruct (Z.eq_dec a b) as [->|N]; [left; reflexivity|right]. rewrite <- minus_IZR, <- abs_IZR. apply Rlt_le_trans with 1; [lra|]. apply (IZR_le 1). lia.
  - intros x (a & A & ->). apply Rlt_le_trans with 820; [lra|]. rewrite <- minus_IZR, <- abs_IZR. apply (IZR_le 820). lia.
Qed.
Example history_input : on_grid whole whole (wit 45) /\ 72.5 <= alt (wit 45).
Proof. split; [split; [exists 45%Z; split; [lia|reflexivity]|split; [exists 0%Z; split; [lia|reflexivity]|discriminate]]|cbn [alt wit]; lra]. Qed.

(* C54: a second instance asked for the same input gives another temperature: the caches that say the
   polynomials are up to date are shared, the polynomials are not *)
Theorem gtd7_two_instances_refuted : exists i o m r s1 r' s1', gtd7 code_tables i 0 o o 0 (statics0, m) = Ok (r, s1) /\ gtd7 code_tables i 0 o o 0 (fst s1, m) = Ok (r', s1') /\ t0 r <> t0 r'.
Proof. exists (wit 0), zero_out, zero_inst. exact two_instances. Qed.
Print Assumptions gtd7_two_instances_refuted.

(* C54: after a call for a latitude, a call for another one close to it gives another temperature than
   it gives as the first call *)
Theorem gtd7_close_latitudes_refuted : exists i i' o m r0 r s1 r' s1' s2, gtd7 code_tables i 0 o o 0 (statics0, m) = Ok (r0, s1) /\
  gtd7 code_tables i' 0 o o 0 s1 = Ok (r, s1') /\ gtd7 code_tables i' 0 o o 0 (statics0, m) = Ok (r', s2) /\ t0 r <> t0 r'.
Proof. exists (wit 0), (wit 0.0000005), zero_out, zero_inst. exact close_latitudes. Qed.
Print Assumptions gtd7_close_latitudes_refuted.

(* C73: the total mass density is the sum of the species' *)
Theorem gtd7_mass_density : forall T i o oc tz s r s1, gtd7 T i 48 o oc tz s = Ok (r, s1) ->
  d5 r = unit_mass i * (4 * d0 r + 16 * d1 r + 28 * d2 r + 32 * d3 r + 40 * d4 r + d6 r + 14 * d7 r).
Proof. exact gtd7_mass. Qed.
Print Assumptions gtd7_mass_density.
Theorem gtd7d_mass_density : forall T i o oc tz s r s1, gtd7d T i 48 o oc tz s = Ok (r, s1) ->
  d5 r = unit_mass i * (4 * d0 r + 16 * d1 r + 28 * d2 r + 32 * d3 r + 40 * d4 r + d6 r + 14 * d7 r + 16 * d8 r).
Proof. exact gtd7d_mass. Qed.
Print Assumptions gtd7d_mass_density.
(* C73: asking for metres changes the units and nothing else *)
Theorem gtd7_units_si : forall T i mass o oc tz s r s1, coefs_pos T -> meters i = false -> 72.5 <= alt i \/ (mass = 48%Z /\ on (sw i 14) = true) ->
  gtd7 T i mass o oc tz s = Ok (r, s1) -> exists r' s1', gtd7 T (with_meters i) mass o oc tz s = Ok (r', s1') /\ in_si r r'.
Proof. exact gtd7_units. Qed.
Print Assumptions gtd7_units_si.
(* C73: the number densities are positive in the thermosphere and upper mesosphere *)
Theorem gtd7_densities_positive : forall T i o oc tz s r s1, coefs_pos T -> 72.5 <= alt i -> gtd7 T i 48 o oc tz s = Ok (r, s1) ->
  0 < d0 r /\ 0 < d1 r /\ 0 < d2 r /\ 0 < d3 r /\ 0 < d4 r /\ 0 < d6 r /\ 0 < d7 r /\ 0 < d8 r.
Proof. intros T i o oc tz s r s1 C A E. destruct (gtd7_pos T i o oc tz s r s1 C A E) as (H2 & H0 & H1 & H3 & H4 & H6 & H7 & H8). repeat split; auto with arith. Qed.
Print Assumptions gtd7_densities_positive.
Example positive_code : coefs_pos code_tables.
Proof. exact code_pos. Qed.
Example gtd7_runs : exists r s1, gtd7 code_tables (wit 0) 48 zero_out zero_out 0 (statics0, zero_inst) = Ok (r, s1).
Proof. apply start_defined; cbn [glat lst doy wit]; [lra|lra|discriminate]. Qed.

(* C74: the expansions are in associated Legendre functions (without the factor (-1)^m) of the sine of
   the latitude: after any calls the stored ones are those of the latitude the cache names *)
Theorem gtd7_legendre : forall T lats locs l m s, tables_ok T -> grid lats -> grid locs -> Forall (fun c => on_grid lats locs (c_in c)) l -> calls T l (statics0, m) = Ok s ->
  xl (fst s) = 1000 \/ (lats (xl (fst s)) /\ forall a n, stored a n = true -> plg (snd s) a n = cos (deg2rad (xl (fst s))) ^ a * Ld n a (sin (deg2rad (xl (fst s))))).
Proof. exact polynomials. Qed.
Print Assumptions gtd7_legendre.
Example legendre_stored : stored 2 7 = true /\ stored 3 6 = true /\ stored 0 6 = true.
Proof. repeat split. Qed.

(* C75: a temperature taken from a member nobody has assigned *)
Theorem gtd7_unset_node_refuted : exists i o m m' r s1 r' s1', gtd7 code_tables i 0 o o 0 (statics0, m) = Ok (r, s1) /\ gtd7 code_tables i 0 o o 0 (statics0, m') = Ok (r', s1') /\ t1 r = 1 /\ t1 r' = 2.
Proof. exists (with_alt (wit 0) 32.5), zero_out, (with_node 1), (with_node 2). exact node_differs. Qed.
Print Assumptions gtd7_unset_node_refuted.
(* C75: for every input at 32.5 km and every state *)
Theorem gtd7_unset_node : forall T i o oc tz s r s1, alt i = 32.5 -> tn3 (snd s) 0%nat <> 0 -> gtd7 T i 0 o oc tz s = Ok (r, s1) -> t1 r = tn3 (snd s) 0%nat.
Proof. exact unset_node. Qed.
Print Assumptions gtd7_unset_node.
(* C75: densities left as the caller had them *)
Theorem gtd7_caller_value_refuted : exists i o o' m r s1 r' s1', gtd7 code_tables i 28 o zero_out 0 (statics0, m) = Ok (r, s1) /\ gtd7 code_tables i 28 o' zero_out 0 (statics0, m) = Ok (r', s1') /\ d0 r <> d0 r' /\ d5 r <> d5 r'.
Proof. exists (with_alt (wit 0) 70), zero_out, ones, zero_inst. exact caller_differs. Qed.
Print Assumptions gtd7_caller_value_refuted.
