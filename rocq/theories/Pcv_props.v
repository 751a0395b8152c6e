(* Property theorems C40, C41. *)
From Coq Require Import List ZArith QArith.
From Verif Require Import Base Pcv_model Pcv_proofs.
Import ListNotations.

(* C40: interpolation on [0, 90).  Missing: exactly 90 degrees, refuted below. *)
Theorem pcv_interpolates_partial : forall ant pi z a, 0 < pi -> degrees pi z a -> 0 <= a -> a < 90 ->
  exists v, pcv ant 1 pi z = Ok (v, 0%Z) /\ interpolates (millimetres (published ant)) a v.
Proof. exact pcv1_published. Qed.
Print Assumptions pcv_interpolates_partial.

(* C40: what interpolation means: between the neighbours, exact at the nodes, one value *)
Theorem interpolation_between_neighbours : forall t a v, interpolates t a v ->
  exists i lo hi, nth_error t i = Some lo /\ nth_error t (S i) = Some hi /\
    inject_Z (5 * Z.of_nat i) <= a < inject_Z (5 * Z.of_nat i + 5) /\ between lo hi v.
Proof. exact interpolates_between. Qed.
Print Assumptions interpolation_between_neighbours.
Theorem interpolation_at_nodes : forall t i v a, a == inject_Z (5 * Z.of_nat i) -> interpolates t a v ->
  exists x, nth_error t i = Some x /\ v == x.
Proof. exact interpolates_node. Qed.
Print Assumptions interpolation_at_nodes.
Theorem interpolation_unique : forall t a v w, interpolates t a v -> interpolates t a w -> v == w.
Proof. exact interpolates_unique. Qed.
Print Assumptions interpolation_unique.

(* C40: at exactly 90 degrees the 20th entry of a 19-entry table is read *)
Theorem pcv_reads_past_table_refuted : forall ant pi z, 0 < pi -> degrees pi z 90 -> pcv ant 1 pi z = UB.
Proof. exact pcv1_at_90. Qed.
Print Assumptions pcv_reads_past_table_refuted.

(* C41: Starec antennas and frequency 2.  Missing: Alcatel on frequency 1, refuted below
   (and 90 degrees on frequency 1, where C40 fails). *)
Theorem pcv_flags_out_of_range_partial : forall ant freq pi z a, 0 < pi -> degrees pi z a ->
  ~ a == 90 \/ freq <> 1%nat -> (ant <> Alcatel \/ freq <> 1%nat) ->
  exists v flag, pcv ant freq pi z = Ok (v, flag) /\ (flag <> 0%Z <-> a < 0 \/ 90 < a) /\ (flag <> 0%Z -> v == 0).
Proof. exact pcv_flag. Qed.
Print Assumptions pcv_flags_out_of_range_partial.

(* C41: Alcatel on frequency 1 never sets the flag *)
Theorem alcatel_out_of_range_refuted : exists pi z a, 0 < pi /\ degrees pi z a /\ 90 < a /\ pcv Alcatel 1 pi z = Ok (0, 0%Z).
Proof. exists (22 # 7), (22 # 7), 180. repeat split; reflexivity. Qed.
Print Assumptions alcatel_out_of_range_refuted.
Theorem alcatel_flag_always_zero_refuted : forall pi z v flag, pcv Alcatel 1 pi z = Ok (v, flag) -> flag = 0%Z.
Proof. exact alcatel_never_flags. Qed.
Print Assumptions alcatel_flag_always_zero_refuted.

(* 12.5 degrees, half-way between -0.32 and -1.12 *)
Example pcv_case : exists v, pcv Starec_C 1 (22 # 7) ((22 # 7) * (125 # 1800)) = Ok (v, 0%Z) /\ v == - (72 # 100) /\
  degrees (22 # 7) ((22 # 7) * (125 # 1800)) (125 # 10).
Proof. eexists. repeat split; reflexivity. Qed.
