(* C114: the observed range rate in binary64. *)
From Coq Require Import ZArith Reals Lia Lra Psatz.
From Flocq Require Import Core IEEE754.BinarySingleNaN IEEE754.Binary IEEE754.Bits.
From Verif Require Import FloatTime_model FloatTime_proofs FloatAngle_model FloatAngle_proofs FloatRel_model FloatRel_proofs FloatObs_model FloatObs_proofs.
Local Open Scope R_scope.

(* the range rate of Lemoine et al. (2016) from frequencies, elapsed time and the increments of cycles, ionospheric
   correction (cycles) and relativity *)
Definition range_rate (fe fr dt dL dI dR : R) : R := 299792458 / fe * (fe - fr - (dL - dI) / dt) + dR / dt.
Definition in_band (f : double) : Prop := finite f /\ 1000000000 <= val f <= 4000000000.
Definition within (b : R) (x : double) : Prop := finite x /\ Rabs (val x) <= b.
Definition in_range (x : obs) : Prop := within 1000000000 (o_L1 x) /\ within 1000000000 (o_iono x) /\ within 1000 (o_rel x).

(* C114: a number, within two micrometres per second of the exact range rate *)
Theorem range_rate_double : forall feN frT Dtau p o, in_band feN -> in_band frT -> finite Dtau -> 1 <= val Dtau -> in_range p -> in_range o ->
  finite (Uobs feN frT Dtau p o) /\
  Rabs (val (Uobs feN frT Dtau p o) -
        range_rate (val feN) (val frT) (val Dtau) (val (o_L1 o) - val (o_L1 p)) (val (o_iono o) - val (o_iono p)) (val (o_rel o) - val (o_rel p))) <= 2 / 1000000.
Proof.
  intros feN frT Dtau p o Ff Fr Ft Bt Up Uo. destruct (uobs_about feN frT Dtau p o Ff Fr (conj Ft Bt) Up Uo) as (F & E & _). split; [exact F|]. destruct Ff as [_ Bf].
  match type of E with Rabs (_ - ?X) <= _ => replace (range_rate _ _ _ _ _ _) with X end; [lra|]. unfold range_rate. field. lra.
Qed.
Print Assumptions range_rate_double.
(* C114: so a receiver whose cycles follow the law reports the rate: whatever the frequencies, what is left is two micrometres per second *)
Theorem range_rate_law_double : forall feN frT Dtau p o rate, in_band feN -> in_band frT -> finite Dtau -> 1 <= val Dtau -> in_range p -> in_range o ->
  val (o_rel o) = val (o_rel p) -> val (o_iono o) = val (o_iono p) ->
  val (o_L1 o) - val (o_L1 p) = (val feN * (1 - rate / 299792458) - val frT) * val Dtau ->
  Rabs (val (Uobs feN frT Dtau p o) - rate) <= 2 / 1000000.
Proof.
  intros feN frT Dtau p o rate Ff Fr Ft Bt Up Uo ER EI EL. destruct (range_rate_double feN frT Dtau p o Ff Fr Ft Bt Up Uo) as [_ E]. destruct Ff as [_ Bf].
  replace (range_rate _ _ _ _ _ _) with rate in E; [exact E|]. unfold range_rate. rewrite EL, ER, EI. field. lra.
Qed.
Print Assumptions range_rate_law_double.
(* C114: without elapsed time there is no number, whatever the rest *)
Theorem range_rate_no_time_double : forall feN frT s p o, is_finite 53 1024 (Uobs feN frT (B754_zero 53 1024 s) p o) = false.
Proof. exact no_time. Qed.
Print Assumptions range_rate_no_time_double.

(* the theoretical value: the rate of the distance and of the delay of the troposphere less the emitter's offset *)
Definition line_length (v : dvec) : R := sqrt (val (dx v) ^ 2 + val (dy v) ^ 2 + val (dz v) ^ 2).
Definition slant (d : tropo) (wet : R) : R := val (t_Lhz d) * val (t_mfh d) + wet * val (t_mfw d).
Definition theory (fe fr dt dL drho dT offset : R) : R := (drho + dT) / dt - 299792458 / fe * (dL / dt + fr) * offset.
Definition in_sight (v : dvec) : Prop := (within 16777216 (dx v) /\ within 16777216 (dy v) /\ within 16777216 (dz v)) /\ 1 <= line_length v.
Definition usual (d : tropo) : Prop := within 10 (t_Lhz d) /\ within 100 (t_mfh d) /\ within 100 (t_mfw d).
Lemma line_eq v : line_length v = exact_norm v.
Proof. unfold line_length, exact_norm, exact_square. f_equal. ring. Qed.
Lemma sight v : in_sight v -> bounded 24 v /\ 1 <= exact_square v.
Proof.
  intros [B Q]. split; [change (pow2 24) with 16777216 in *; exact B|]. rewrite line_eq in Q. unfold exact_norm in Q. destruct (Rle_or_lt 1 (exact_square v)) as [L|L]; [exact L|].
  pose proof (sum_sq (val (dx v)) (val (dy v)) (val (dz v))) as P. fold (exact_square v) in P. pose proof (sqrt_lt_1_alt (exact_square v) 1 ltac:(lra)) as T. rewrite sqrt_1 in T. lra.
Qed.
(* C114: a number, within a tenth of a micrometre per second of the exact one *)
Theorem theory_double : forall feN frT Dtau p o sp so tp to wet offset, in_band feN -> in_band frT -> finite Dtau -> 1 <= val Dtau -> in_range p -> in_range o ->
  in_sight sp -> in_sight so -> usual tp -> usual to -> within 10 wet -> within (1 / 1000) offset ->
  finite (Utheo feN frT Dtau p o sp so tp to wet offset) /\
  Rabs (val (Utheo feN frT Dtau p o sp so tp to wet offset) -
        theory (val feN) (val frT) (val Dtau) (val (o_L1 o) - val (o_L1 p)) (line_length so - line_length sp) (slant to (val wet) - slant tp (val wet)) (val offset)) <= 1 / 10000000.
Proof.
  intros feN frT Dtau p o sp so tp to wet offset Ff Fr Ft Bt Up Uo Sp So Tp To Ww Fd.
  destruct (utheo_about feN frT Dtau p o sp so tp to wet offset Ff Fr (conj Ft Bt) Up Uo (sight _ Sp) (sight _ So) Tp To Ww Fd) as (F & E & _). split; [exact F|]. destruct Ff as [_ Bf].
  match type of E with Rabs (_ - ?X) <= _ => replace (theory _ _ _ _ _ _ _) with X end; [lra|]. unfold theory, slant. rewrite !line_eq. field. lra.
Qed.
Print Assumptions theory_double.
(* C114: the residual on which the observation is kept or rejected is exact to 2.5 micrometres per second *)
Theorem residual_double : forall feN frT Dtau p o sp so tp to wet offset, in_band feN -> in_band frT -> finite Dtau -> 1 <= val Dtau -> in_range p -> in_range o ->
  in_sight sp -> in_sight so -> usual tp -> usual to -> within 10 wet -> within (1 / 1000) offset ->
  finite (residual feN frT Dtau p o sp so tp to wet offset) /\
  Rabs (val (residual feN frT Dtau p o sp so tp to wet offset) -
        (range_rate (val feN) (val frT) (val Dtau) (val (o_L1 o) - val (o_L1 p)) (val (o_iono o) - val (o_iono p)) (val (o_rel o) - val (o_rel p)) +
         theory (val feN) (val frT) (val Dtau) (val (o_L1 o) - val (o_L1 p)) (line_length so - line_length sp) (slant to (val wet) - slant tp (val wet)) (val offset))) <= 25 / 10000000.
Proof.
  intros feN frT Dtau p o sp so tp to wet offset Ff Fr Ft Bt Up Uo Sp So Tp To Ww Fd.
  pose proof (utheo_about feN frT Dtau p o sp so tp to wet offset Ff Fr (conj Ft Bt) Up Uo (sight _ Sp) (sight _ So) Tp To Ww Fd) as A1. pose proof (uobs_about feN frT Dtau p o Ff Fr (conj Ft Bt) Up Uo) as A2.
  pose proof (about_add _ _ _ _ _ _ _ _ A2 A1 ltac:(lra)) as (F & E & _). split; [exact F|]. destruct Ff as [_ Bf].
  match type of E with Rabs (_ - (?X + ?Y)) <= _ => replace (theory _ _ _ _ _ _ _) with Y; [replace (range_rate _ _ _ _ _ _) with X|] end; [unfold residual; lra|unfold range_rate; field; lra|].
  unfold theory, slant. rewrite !line_eq. field. lra.
Qed.
Print Assumptions residual_double.

(* the hypotheses can be met: both at 2036.25 MHz, ten seconds, no rate *)
Definition ex_f : double := of_int 2036250000.
Definition ex_obs : obs := Obs (of_int 12345) (of_int 7) (of_int 0).
Example FloatObs_nonvacuous : in_band ex_f /\ finite (of_int 10) /\ 1 <= val (of_int 10) /\ in_range ex_obs /\
  val (o_L1 ex_obs) - val (o_L1 ex_obs) = (val ex_f * (1 - 0 / 299792458) - val ex_f) * val (of_int 10).
Proof.
  destruct (of_int_ok 2036250000 ltac:(lia)) as [F1 V1]. destruct (of_int_ok 10 ltac:(lia)) as [F2 V2]. destruct (of_int_ok 12345 ltac:(lia)) as [F3 V3]. destruct (of_int_ok 7 ltac:(lia)) as [F4 V4]. destruct (of_int_ok 0 ltac:(lia)) as [F5 V5].
  unfold in_band, in_range, within, ex_f, ex_obs. cbn [o_L1 o_iono o_rel]. rewrite V1, V2, V3, V4, V5. repeat split; try assumption; try lra; rewrite Rabs_pos_eq; lra.
Qed.
(* and with a rate of c/3: 3 GHz emitted, 1.5 GHz in the receiver, half a milliard cycles in one second *)
Example FloatObs_rate_nonvacuous : in_band (of_int 3000000000) /\ in_band (of_int 1500000000) /\
  val (of_int 500000000) - val (of_int 0) = (val (of_int 3000000000) * (1 - 299792458 / 3 / 299792458) - val (of_int 1500000000)) * val (of_int 1).
Proof.
  destruct (of_int_ok 3000000000 ltac:(lia)) as [F1 V1]. destruct (of_int_ok 1500000000 ltac:(lia)) as [F2 V2]. unfold in_band. rewrite V1, V2, (proj2 (of_int_ok 500000000 ltac:(lia))), (proj2 (of_int_ok 0 ltac:(lia))), (proj2 (of_int_ok 1 ltac:(lia))).
  repeat split; try assumption; lra.
Qed.
Example FloatObs_theory_nonvacuous : in_sight (ints 3000 4000 0) /\ line_length (ints 3000 4000 0) = 5000 /\ usual (Tropo (of_int 2) (of_int 3) (of_int 3)) /\ within 10 (of_int 1) /\ within (1 / 1000) (of_int 0).
Proof.
  assert (L : line_length (ints 3000 4000 0) = 5000) by (rewrite line_eq, ints_norm by lia; change (3000 * 3000 + 4000 * 4000 + 0 * 0)%Z with (5000 * 5000)%Z; rewrite mult_IZR; apply sqrt_square; lra).
  assert (W : forall n b, (Z.abs n <= 2 ^ 53)%Z -> Rabs (IZR n) <= b -> within b (of_int n)) by (intros n b H B; destruct (of_int_ok n H) as [F V]; split; [exact F|]; rewrite V; exact B).
  split; [split; [|rewrite L; lra]; repeat split; apply W; try lia; rewrite Rabs_pos_eq; lra|]. split; [exact L|]. split; [repeat split; apply W; try lia; rewrite Rabs_pos_eq; lra|]. split; apply W; try lia; rewrite Rabs_pos_eq; lra.
Qed.
