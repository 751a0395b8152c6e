(* Properties of a table index and of an interpolation parameter in double arithmetic. *)
From Coq Require Import List ZArith QArith Qreals Reals Bool Lia Lra.
From Flocq Require Import Core IEEE754.BinarySingleNaN IEEE754.Binary IEEE754.Bits.
From Verif Require Import Base Pcv_model Pcv_proofs FloatTime_model FloatTime_proofs FloatAngle_model FloatAngle_proofs FloatRange_model FloatRange_proofs.
Local Open Scope R_scope.

(* C109: for every zenith angle from 0 to the last double below pi/2 the look-up stays inside the table, and its result is
   the straight line between the published neighbours, to 1e-11 mm, also where rounding picks the neighbouring interval *)
Theorem pcv_in_table_double : forall c a z,
  finite z -> 0 <= val z -> val z < val DPI / 2 ->
  exists v, pcv_double c a z = Ok (v, 0%Z) /\ finite v /\
    forall i : nat, (i <= 17)%nat -> INR i <= val z * 36 / val DPI <= INR i + 1 ->
      Rabs (val v - line (millimetres (published a)) i (val z * 36 / val DPI)) <= / 100000000000.
Proof. intros c a. replace (millimetres (published a)) with (plarray a) by now destruct a. exact (pcv_ok c a). Qed.
Print Assumptions pcv_in_table_double.
(* C109: at pi/2 itself, which the bounds check lets through, it reads past the end *)
Theorem pcv_horizon_double_refuted : forall c a, exists z, finite z /\ val z = val DPI / 2 /\ pcv_double c a z = UB.
Proof. intros c a. exists (ddiv DPI two). destruct half_turn as [F V]. split; [exact F|]. split; [exact V|]. exact (pcv_right_angle c a). Qed.
Print Assumptions pcv_horizon_double_refuted.
(* C109: outside it is 0, and flagged but for the Alcatel antenna *)
Theorem pcv_outside_double : forall c a z, finite z -> val z < 0 \/ val DPI / 2 < val z ->
  pcv_double c a z = Ok (zero, match a with Alcatel => 0%Z | Starec_B | Starec_C => 1%Z end).
Proof. intros c a z F H. rewrite (pcv_outside c a z F H). now destruct a. Qed.
Print Assumptions pcv_outside_double.

(* C109: the parameter given to slerp is in [0, 1] for every interval and every epoch in it: the assertion never fails *)
Theorem slerp_parameter_double : forall t0 t1 t,
  finite t0 -> finite t1 -> finite t -> Rabs (val t0) <= pow2 1000 -> Rabs (val t1) <= pow2 1000 -> val t0 <= val t < val t1 ->
  finite (slerp_parameter t0 t1 t) /\ 0 <= val (slerp_parameter t0 t1 t) <= 1 /\ slerp_assertion t0 t1 t = true.
Proof. exact slerp_range. Qed.
Print Assumptions slerp_parameter_double.
(* C109: for days from 1948 to 2038 it is the exact fraction of the interval but for its last digit *)
Theorem slerp_fraction_double : forall t0 t1 t,
  finite t0 -> finite t1 -> finite t -> 32768 <= val t0 < 65536 -> 32768 <= val t1 < 65536 -> val t0 <= val t < val t1 ->
  Rabs (val (slerp_parameter t0 t1 t) - (val t - val t0) / (val t1 - val t0)) <= 2 * u.
Proof. exact slerp_exact. Qed.
Print Assumptions slerp_fraction_double.

(* the hypotheses can be met: the last angle, one in the tenth interval, and half of an interval of one day *)
Example FloatRange_nonvacuous :
  (finite last /\ 0 <= val last /\ val last < val DPI / 2) /\
  (finite one /\ 0 <= val one /\ val one < val DPI / 2 /\ INR 11 <= val one * 36 / val DPI <= INR 11 + 1) /\
  (finite (of_int 59215) /\ finite (of_int 59216) /\ 32768 <= val (of_int 59215) < 65536 /\ 32768 <= val (of_int 59216) < 65536 /\
   exists t, finite t /\ val (of_int 59215) < val t < val (of_int 59216) /\ is_equal (slerp_parameter (of_int 59215) (of_int 59216) t) half = true).
Proof.
  destruct last_val as [FL VL]. destruct DPI_val as [FP VP]. destruct one_ok as [F1 V1]. destruct (of_int_ok 59215 ltac:(discriminate)) as [F2 V2]. destruct (of_int_ok 59216 ltac:(discriminate)) as [F3 V3].
  rewrite VL, VP, V1, V2, V3. split; [split; [exact FL|lra]|]. split; [split; [exact F1|cbn; lra]|]. split; [exact F2|]. split; [exact F3|]. split; [lra|]. split; [lra|].
  exists (dadd (of_int 59215) half). assert (FH : finite half) by (vm_compute; reflexivity).
  assert (FT : finite (dadd (of_int 59215) half)) by (vm_compute; reflexivity). split; [exact FT|]. split.
  - rewrite <- V2 at 1. rewrite <- V3. split; apply dlt_ok; try assumption; vm_compute; reflexivity.
  - vm_compute. reflexivity.
Qed.
