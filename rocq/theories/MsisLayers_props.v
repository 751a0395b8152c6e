(* Property theorems C99 and C100: the layers of the atmosphere.  [code_tables] are the coefficients of the
   program; s is the state of the instance and of the shared caches, o, oc and tz what the output members and
   the local temperature held before the call. *)
From Coq Require Import List ZArith Reals Lra Lia.
From Verif Require Import Base Msis_model Msis_data Msis_facts Msis_code Msis_refute MsisSwitch_model MsisSwitch_proofs AirParams_proofs MsisLayers_proofs.
Local Open Scope R_scope.

(* C99: below 72.5 km there is no atomic oxygen, hydrogen, nitrogen and anomalous oxygen *)
Theorem layer_absent : forall T i mass o oc tz s r s1, mass <> 0%Z -> alt i < 72.5 -> gtd7 T i mass o oc tz s = Ok (r, s1) ->
  d1 r = 0 /\ d6 r = 0 /\ d7 r = 0 /\ d8 r = 0.
Proof. exact absent. Qed.
Print Assumptions layer_absent.

(* C99: up to 62.5 km helium, oxygen and argon are there in fixed proportions to nitrogen, whatever the date,
   the place, the indices, the switches and the altitude *)
Theorem layer_composition : forall i o oc tz s r s1, alt i <= 62.5 -> gtd7 code_tables i 48 o oc tz s = Ok (r, s1) ->
  d0 r = d2 r * (6.71072 / 10 ^ 6) /\ d3 r = d2 r * 0.26827 /\ d4 r = d2 r * 0.0119615.
Proof.
  intros i o oc tz s r s1 A E. destruct (fixed_ratios _ _ _ _ _ _ _ _ A E) as (P0 & P3 & P4). destruct code_layers as (_ & _ & _ & _ & C0 & C3 & C4).
  rewrite C0 in P0. rewrite C3 in P3. rewrite C4 in P4. auto.
Qed.
Print Assumptions layer_composition.

(* C99: from 62.5 to 72.5 km the proportions go linearly over to those at 72.5 km *)
Theorem layer_transition : forall i o oc tz o' tz' s r s1 r' s1', 62.5 < alt i < 72.5 ->
  gtd7 code_tables i 48 o oc tz s = Ok (r, s1) -> gtd7 code_tables (with_alt i 72.5) 48 o' oc tz' s = Ok (r', s1') ->
  let w := (alt i - 62.5) / 10 in
  d0 r = d2 r * ((1 - w) * (6.71072 / 10 ^ 6) + w * (d0 r' / d2 r')) /\
  d3 r = d2 r * ((1 - w) * 0.26827 + w * (d3 r' / d2 r')) /\ d4 r = d2 r * ((1 - w) * 0.0119615 + w * (d4 r' / d2 r')).
Proof.
  intros i o oc tz o' tz' s r s1 r' s1' A E E' w. destruct (transition _ _ _ _ _ _ _ _ _ _ _ _ code_pos A E E') as (P0 & P3 & P4). destruct code_layers as (_ & _ & _ & _ & C0 & C3 & C4).
  rewrite C0 in P0. rewrite C3 in P3. rewrite C4 in P4. auto.
Qed.
Print Assumptions layer_transition.
Example layer_transition_case : exists r s1 r' s1',
  gtd7 code_tables (with_alt (polar 10) 65) 48 zero_out zero_out 0 (statics0, zero_inst) = Ok (r, s1) /\ gtd7 code_tables (with_alt (with_alt (polar 10) 65) 72.5) 48 zero_out zero_out 0 (statics0, zero_inst) = Ok (r', s1') /\
  62.5 < alt (with_alt (polar 10) 65) < 72.5.
Proof.
  destruct (run_defined (with_alt (polar 10) 65) zero_inst 48 zero_out zero_out 0) as (r & s1 & E); [cbn [glat polar with_alt]; lra|cbn [lst polar with_alt]; lra|discriminate|].
  destruct (run_defined (with_alt (with_alt (polar 10) 65) 72.5) zero_inst 48 zero_out zero_out 0) as (r' & s1' & E'); [cbn [glat polar with_alt]; lra|cbn [lst polar with_alt]; lra|discriminate|].
  exists r, s1, r', s1'. split; [exact E|]. split; [exact E'|]. cbn [alt with_alt]. lra.
Qed.

(* C99: below 62.5 km the species asked for does not matter: the call ends or not, leaves the same state and
   gives the same nitrogen and temperatures *)
Theorem layer_any_species : forall T i p q o o' oc tz s r s1, (0 < p)%Z -> (0 < q)%Z -> alt i < 62.5 -> gtd7 T i p o oc tz s = Ok (r, s1) ->
  exists r', gtd7 T i q o' oc tz s = Ok (r', s1) /\ d2 r' = d2 r /\ t0 r' = t0 r /\ t1 r' = t1 r.
Proof. exact any_mass. Qed.
Print Assumptions layer_any_species.
Example layer_any_species_case : forall q, exists r s1, gtd7 code_tables (with_alt (polar 10) 50) q zero_out zero_out 0 (statics0, zero_inst) = Ok (r, s1) /\ alt (with_alt (polar 10) 50) < 62.5.
Proof.
  intros q. destruct (run_defined (with_alt (polar 10) 50) zero_inst q zero_out zero_out 0) as (r & s1 & E); [cbn [glat polar with_alt]; lra|cbn [lst polar with_alt]; lra|discriminate|].
  exists r, s1. split; [exact E|]. cbn [alt with_alt]. lra.
Qed.

(* C99: up to 123.435 km, so below 120 km as documented, the exospheric temperature is the global average,
   whatever the date, the place, the indices, the switches and the species asked for *)
Theorem layer_average : forall i mass o oc tz s r s1, alt i <= 123.435 -> gtd7 code_tables i mass o oc tz s = Ok (r, s1) -> t0 r = 1041.3 * 0.986573.
Proof.
  intros i mass o oc tz s r s1 A E. destruct code_layers as (CZ & _ & C0 & C1 & _). rewrite <- C0, <- C1. refine (average _ _ _ _ _ _ _ _ _ _ _ E); rewrite CZ; lra.
Qed.
Print Assumptions layer_average.

(* C75: asked below 72.5 km for a species other than helium, the call leaves in the place of helium what was
   there before, and likewise in that of the total density *)
Theorem layer_left_over : forall T i mass o oc tz s r s1, mass <> 0%Z -> mass <> 48%Z -> alt i < 72.5 -> gtd7 T i mass o oc tz s = Ok (r, s1) ->
  (mass <> 4%Z -> d0 r = d0 o) /\ d5 r = d5 o.
Proof. intros T i mass o oc tz s r s1 N N48 A E. destruct (left_over _ _ _ _ _ _ _ _ _ N A E) as [P0 P5]. auto. Qed.
Print Assumptions layer_left_over.
(* C75: so what is returned depends on what the output held before *)
Theorem layer_output_refuted : exists i mass o o' oc tz s r s1 r' s1', gtd7 code_tables i mass o oc tz s = Ok (r, s1) /\ gtd7 code_tables i mass o' oc tz s = Ok (r', s1') /\ d0 r = 0 /\ d0 r' = 1.
Proof.
  set (one := set_d0 zero_out 1).
  destruct (run_defined (with_alt (polar 10) 50) zero_inst 28 zero_out zero_out 0) as (r & s1 & E); [cbn [glat polar with_alt]; lra|cbn [lst polar with_alt]; lra|discriminate|].
  destruct (run_defined (with_alt (polar 10) 50) zero_inst 28 one zero_out 0) as (r' & s1' & E'); [cbn [glat polar with_alt]; lra|cbn [lst polar with_alt]; lra|discriminate|].
  exists (with_alt (polar 10) 50), 28%Z, zero_out, one, zero_out, 0, (statics0, zero_inst), r, s1, r', s1'. split; [exact E|]. split; [exact E'|].
  assert (A : alt (with_alt (polar 10) 50) < 72.5) by (cbn [alt with_alt]; lra).
  rewrite (proj1 (layer_left_over _ _ 28%Z _ _ _ _ _ _ ltac:(discriminate) ltac:(discriminate) A E) ltac:(discriminate)), (proj1 (layer_left_over _ _ 28%Z _ _ _ _ _ _ ltac:(discriminate) ltac:(discriminate) A E') ltac:(discriminate)). split; reflexivity.
Qed.
Print Assumptions layer_output_refuted.

(* C100: above 123.435 km the temperature at one place and time is an exponential of the height above 120 km,
   reduced for the fall of gravity, that tends to the exospheric temperature; the species asked for does not
   matter.  Missing: nitrogen asked for alone *)
Theorem layer_temperature_partial : forall i s, exists ti tl x rr, 0 < rr /\
  forall z mass o oc tz r s1, 123.435 < z -> mass <> 28%Z -> gtd7 code_tables (with_alt i z) mass o oc tz s = Ok (r, s1) ->
  t0 r = ti /\ t1 r = ti - (ti - tl) * exp (- (x / (ti - tl)) * ((z - 120) * (rr + 120) / (rr + z))) /\ tlb (snd s1) = tl.
Proof.
  intros i s. destruct code_layers as (CZ & CL & _). destruct (profile_above code_tables i s) as (ti & tl & x & rr & P & _ & H); [rewrite CZ; lra|]. exists ti, tl, x, rr. split; [exact P|].
  intros z mass o oc tz r s1 A N E. destruct (H z mass o oc tz r s1 ltac:(rewrite CZ; lra) N E) as (H0 & H1 & H2). rewrite CL in H1. auto.
Qed.
Print Assumptions layer_temperature_partial.

(* C100: so where the temperature once rises with height towards the exospheric one it does so at all greater
   heights, and never reaches it *)
Theorem layer_temperature_rises : forall i s z1 z2 z3 m1 m2 m3 o1 o2 o3 oc1 oc2 oc3 tz1 tz2 tz3 r1 r2 r3 s1 s2 s3,
  123.435 < z1 -> z1 < z2 -> z2 < z3 -> m1 <> 28%Z -> m2 <> 28%Z -> m3 <> 28%Z ->
  gtd7 code_tables (with_alt i z1) m1 o1 oc1 tz1 s = Ok (r1, s1) -> gtd7 code_tables (with_alt i z2) m2 o2 oc2 tz2 s = Ok (r2, s2) -> gtd7 code_tables (with_alt i z3) m3 o3 oc3 tz3 s = Ok (r3, s3) ->
  t1 r1 < t1 r2 -> t1 r2 < t0 r2 -> t0 r1 = t0 r2 /\ t0 r3 = t0 r2 /\ t1 r2 < t1 r3 < t0 r3.
Proof.
  intros i s z1 z2 z3 m1 m2 m3 o1 o2 o3 oc1 oc2 oc3 tz1 tz2 tz3 r1 r2 r3 s1 s2 s3 A B C N1 N2 N3 E1 E2 E3 U L.
  destruct (layer_temperature_partial i s) as (ti & tl & x & rr & P & H).
  destruct (H _ _ _ _ _ _ _ A N1 E1) as (T1 & U1 & _), (H _ _ _ _ _ _ _ (ltac:(lra) : 123.435 < z2) N2 E2) as (T2 & U2 & _), (H _ _ _ _ _ _ _ (ltac:(lra) : 123.435 < z3) N3 E3) as (T3 & U3 & _).
  rewrite U1, U2 in U. rewrite T2, U2 in L. split; [congruence|]. split; [congruence|]. rewrite T3, U2, U3. refine (approach _ _ _ _ _ _ _ U L).
  split; apply (zeta_grows rr); lra.
Qed.
Print Assumptions layer_temperature_rises.

(* C100: where the temperature rises with height towards the exospheric one, every density falls: between 550
   and 2500 km, helium, oxygen, nitrogen, molecular oxygen, argon, hydrogen, atomic nitrogen, anomalous oxygen
   and the total, with or without anomalous oxygen, for fluxes up to 10000 units from 150 and exospheric
   temperatures up to 5000 K.  Missing: other heights *)
Theorem layer_density_falls_partial : forall i z z' o oc tz o' oc' tz' s r s1 r' s1', 550 <= z -> z < z' -> z' <= 2500 -> Rabs (sw i 0 * (f107A i - 150)) <= 10000 ->
  gtd7 code_tables (with_alt i z) 48 o oc tz s = Ok (r, s1) -> gtd7 code_tables (with_alt i z') 48 o' oc' tz' s = Ok (r', s1') ->
  0 < t1 r -> t1 r < t1 r' -> t1 r' < t0 r -> t0 r <= 5000 -> 0 < tlb (snd s1) ->
  0 < d0 r' < d0 r /\ 0 < d1 r' < d1 r /\ 0 < d2 r' < d2 r /\ 0 < d3 r' < d3 r /\ 0 < d4 r' < d4 r /\ 0 < d5 r' < d5 r /\ 0 < d6 r' < d6 r /\ 0 < d7 r' < d7 r /\ 0 < d8 r' < d8 r.
Proof. exact gtd7_falls. Qed.
Print Assumptions layer_density_falls_partial.
(* the same for the density used for drag *)
Theorem layer_drag_falls_partial : forall i z z' o oc tz o' oc' tz' s r s1 r' s1', 550 <= z -> z < z' -> z' <= 2500 -> Rabs (sw i 0 * (f107A i - 150)) <= 10000 ->
  gtd7d code_tables (with_alt i z) 48 o oc tz s = Ok (r, s1) -> gtd7d code_tables (with_alt i z') 48 o' oc' tz' s = Ok (r', s1') ->
  0 < t1 r -> t1 r < t1 r' -> t1 r' < t0 r -> t0 r <= 5000 -> 0 < tlb (snd s1) -> 0 < d5 r' < d5 r.
Proof. intros. destruct (gtd7d_falls _ _ _ _ _ _ _ _ _ _ _ _ _ _ H H0 H1 H2 H3 H4 H5 H6 H7 H8 H9) as (_ & _ & _ & _ & _ & D & _). exact D. Qed.
Print Assumptions layer_drag_falls_partial.
(* 600 and 800 km with the variations switched off *)
Example layer_falls_case : exists r s1 r' s1', gtd7 code_tables (with_alt (polar 0) 600) 48 zero_out zero_out 0 (statics0, zero_inst) = Ok (r, s1) /\ gtd7 code_tables (with_alt (polar 0) 800) 48 zero_out zero_out 0 (statics0, zero_inst) = Ok (r', s1') /\
  0 < t1 r /\ t1 r < t1 r' /\ t1 r' < t0 r /\ t0 r <= 5000 /\ 0 < tlb (snd s1) /\ Rabs (sw (polar 0) 0 * (f107A (polar 0) - 150)) <= 10000.
Proof.
  destruct off_case as (r & s1 & r' & s1' & H0 & H1 & H2 & H3 & H4 & H5 & H6). exists r, s1, r', s1'. repeat (split; [assumption|]). cbn [sw polar f107A]. rewrite Rmult_0_l, Rabs_R0. lra.
Qed.
