From Coq Require Import List ZArith Reals Lra.
From Verif Require Import Base Msis_model Msis_data Msis_refute MsisSwitch_model MsisSwitch_proofs.
Local Open Scope R_scope.

(* C97: a switch is what the documentation says, and no other switch changes *)
Theorem switch_set : forall s (n : nat) val, (n < 25)%nat -> exists s1, set_switch s (Z.of_nat n) val = Ok s1 /\ s_sw s1 n = IZR (Z.rem val 2) /\ (s_swc s1 n = 1 <-> val = 1%Z \/ val = 2%Z) /\
  (s_swc s1 n = 1 \/ s_swc s1 n = 0) /\ (forall k, k <> n -> s_sw s1 k = s_sw s k /\ s_swc s1 k = s_swc s k).
Proof. exact set_switch_ok. Qed.
Print Assumptions switch_set.
(* C97: ... and an index outside the array is written to nonetheless *)
Theorem switch_outside : forall s index val, (index < 0 \/ 25 <= index)%Z -> set_switch s index val = UB.
Proof. exact set_switch_outside. Qed.
Print Assumptions switch_outside.
(* C97: use_aparray() sets switch 8 to -1 and nothing else *)
Theorem aparray_switch : forall i, exists i1, use_aparray i = Ok i1 /\ sw i1 8 = -1 /\ (forall k, k <> 8%nat -> sw i1 k = sw i k /\ swc i1 k = swc i k) /\ swc i1 8 = 0 /\ i1 = with_switches i (Switches (sw i1) (swc i1)).
Proof. exact use_aparray_ok. Qed.
Print Assumptions aparray_switch.
(* C97: after it the daily index has no effect whatsoever: on no result, no member, no static, no undefined
   behaviour *)
Theorem aparray_ignores_daily : forall T i a i1 i2 mass o oc tz, use_aparray i = Ok i1 -> use_aparray (with_indices i a (aparr i)) = Ok i2 ->
  gtd7 T i2 mass o oc tz = gtd7 T i1 mass o oc tz /\ gtd7d T i2 mass o oc tz = gtd7d T i1 mass o oc tz.
Proof. exact aparray_api. Qed.
Print Assumptions aparray_ignores_daily.
(* C97: without it the array has none *)
Theorem daily_ignores_array : forall T i r mass o oc tz, 0 <= sw i 8 ->
  gtd7 T (with_indices i (ap i) r) mass o oc tz = gtd7 T i mass o oc tz /\ gtd7d T (with_indices i (ap i) r) mass o oc tz = gtd7d T i mass o oc tz.
Proof. exact daily_api. Qed.
Print Assumptions daily_ignores_array.
(* ... which is no void claim: with the coefficients of the code a daily index does change the result *)
Example daily_matters : 0 <= sw (stormy 4) 8 /\ stormy 104 = with_indices (stormy 4) 104 (aparr (stormy 4)) /\
  exists r s1 r' s1', gtd7 code_tables (stormy 4) 0 zero_out zero_out 0 (statics0, zero_inst) = Ok (r, s1) /\ gtd7 code_tables (stormy 104) 0 zero_out zero_out 0 (statics0, zero_inst) = Ok (r', s1') /\ t0 r < t0 r'.
Proof. split; [cbn [sw stormy]; lra|]. split; [reflexivity|]. exact daily_counts. Qed.
(* C97: with every switch off the result depends on the altitude, the latitude and the units only *)
Theorem switched_off_result : forall T i j i1 j1 mass o oc tz c c' m, set_switches_off i = Ok i1 -> set_switches_off j = Ok j1 -> alt j = alt i -> glat j = glat i -> meters j = meters i ->
  value (gtd7 T i1 mass o oc tz (c, m)) = value (gtd7 T j1 mass o oc tz (c', m)).
Proof. exact off_api. Qed.
Print Assumptions switched_off_result.
Example switched_off_case : exists i1 j1 r, set_switches_off (stormy 4) = Ok i1 /\ set_switches_off (wit 0) = Ok j1 /\ value (gtd7 code_tables i1 0 zero_out zero_out 0 (statics0, zero_inst)) = Some r /\ ap (stormy 104) <> ap (wit 0).
Proof.
  destruct (off_ok (stormy 4)) as (i1 & E & _ & X), (off_ok (wit 0)) as (j1 & F & _).
  destruct (thermosphere code_tables i1 zero_out zero_out 0 statics0 zero_inst code_za) as (r & s & G & _); [rewrite X; reflexivity|].
  exists i1, j1, r. split; [exact E|]. split; [exact F|]. split; [rewrite G; reflexivity|]. cbn [ap stormy wit]. lra.
Qed.
(* C97: the comment says that gravity does not vary with latitude when switch 1 is off: it does, the
   test is std::abs(...) < 0 *)
Theorem gravity_switch_refuted : exists i j r s1 r' s1', (forall k, sw i k = 0 /\ swc i k = 0) /\ j = Input (sw i) (swc i) (doy i) (sec i) (alt i) (glat j) (glon i) (lst i) (f107A i) (f107 i) (ap i) (aparr i) (meters i) /\
  gtd7 code_tables i 0 zero_out zero_out 0 (statics0, zero_inst) = Ok (r, s1) /\ gtd7 code_tables j 0 zero_out zero_out 0 (statics0, zero_inst) = Ok (r', s1') /\ t1 r < t1 r'.
Proof.
  destruct gravity_latitude as (r & s1 & r' & s1' & E). exists (polar 0), (polar 90), r, s1, r', s1'. split; [split; reflexivity|]. split; [reflexivity|exact E].
Qed.
Print Assumptions gravity_switch_refuted.
(* C97: set_on and set_null write both values of one switch, or of all for a negative index *)
Theorem switch_on_off : forall s,
  (forall n, (n < 25)%nat -> (exists s1, set_on s (Z.of_nat n) = Ok s1 /\ holds s s1 (fun k => k = n) 1) /\ exists s1, set_null s (Z.of_nat n) = Ok s1 /\ holds s s1 (fun k => k = n) 0) /\
  (forall index, (index < 0)%Z -> (exists s1, set_on s index = Ok s1 /\ holds s s1 (fun k => (k < 25)%nat) 1) /\ exists s1, set_null s index = Ok s1 /\ holds s s1 (fun k => (k < 25)%nat) 0).
Proof. exact on_off. Qed.
Print Assumptions switch_on_off.
(* C97: a new InParamsCore has every switch on, results in centimetres and grams, and uses the daily index *)
Theorem new_parameters : forall i, exists i1, constructed i = Ok i1 /\ (forall k, (k < 25)%nat -> sw i1 k = 1 /\ swc i1 k = 1) /\ meters i1 = false.
Proof. exact constructed_ok. Qed.
Print Assumptions new_parameters.
Theorem new_parameters_daily : forall T i i1 r mass o oc tz, constructed i = Ok i1 ->
  gtd7 T (with_indices i1 (ap i1) r) mass o oc tz = gtd7 T i1 mass o oc tz /\ gtd7d T (with_indices i1 (ap i1) r) mass o oc tz = gtd7d T i1 mass o oc tz.
Proof. exact constructed_daily. Qed.
Print Assumptions new_parameters_daily.
