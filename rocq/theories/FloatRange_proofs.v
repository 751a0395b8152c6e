(* Proofs for FloatRange_model.v: below the zenith angle of 90 degrees the index is inside the table and the value is the
   piecewise linear function of the table up to 1e-11 mm; the slerp parameter is in [0, 1]. *)
From Coq Require Import List ZArith QArith Qreals Reals Bool Lia Lra Psatz.
From Flocq Require Import Core Relative Plus_error Sterbenz IEEE754.BinarySingleNaN IEEE754.Binary IEEE754.Bits.
From Verif Require Import Base Pcv_model FloatTime_model FloatTime_proofs FloatAngle_model FloatAngle_proofs FloatRange_model.
Import ListNotations.
Local Open Scope R_scope.
#[local] Instance prec53r : Prec_gt_0 53 := eq_refl.

(* ---- the slerp parameter ---- *)
Lemma rnd_above x : pow2 (-1074) <= x -> 0 < rnd x.
Proof. intros H. apply Rlt_le_trans with (pow2 (-1074)); [apply bpow_gt_0|]. rewrite <- (rnd_pow (-1074)) by lia. now apply rnd_mono. Qed.
Lemma rnd_positive x y : val x < val y -> 0 < rnd (val y - val x).
Proof.
  intros H. assert (N : rnd (val y - val x) <> 0).
  { unfold rnd. pose proof (@round_plus_neq_0 radix2 (FLT_exp (-1074) 53) _ _ (round_mode mode_NE) _ (val y) (- val x)) as R. unfold Rminus. apply R; [apply format_of|apply generic_format_opp, format_of|lra]. }
  pose proof (rnd_pos (val y - val x)). lra.
Qed.
Lemma slerp_range t0 t1 t : finite t0 -> finite t1 -> finite t -> Rabs (val t0) <= pow2 1000 -> Rabs (val t1) <= pow2 1000 ->
  val t0 <= val t < val t1 ->
  finite (slerp_parameter t0 t1 t) /\ 0 <= val (slerp_parameter t0 t1 t) <= 1 /\ slerp_assertion t0 t1 t = true.
Proof.
  intros F0 F1 F B0 B1 H. apply Rabs_le_both in B0, B1. assert (P : pow2 1001 = 2 * pow2 1000) by (apply (pow2_S 1000)). pose proof (bpow_gt_0 radix2 1000) as PP.
  destruct (sub_ok t t0 1001 F F0 ltac:(lia)) as [FA VA]; [rewrite P; apply Rabs_le; lra|].
  destruct (sub_ok t1 t0 1001 F1 F0 ltac:(lia)) as [FB VB]; [rewrite P; apply Rabs_le; lra|].
  assert (DP : 0 < val (dsub t1 t0)) by (rewrite VB; apply rnd_positive; lra).
  assert (AP : 0 <= val (dsub t t0)) by (rewrite VA; apply rnd_pos; lra).
  assert (AB : val (dsub t t0) <= val (dsub t1 t0)) by (rewrite VA, VB; apply rnd_mono; lra).
  assert (Q : 0 <= val (dsub t t0) / val (dsub t1 t0) <= 1).
  { split; [apply Rmult_le_pos; [exact AP|apply Rlt_le, Rinv_0_lt_compat, DP]|]. apply (Rmult_le_reg_r (val (dsub t1 t0))); [exact DP|]. unfold Rdiv. rewrite Rmult_assoc, Rinv_l by lra. lra. }
  destruct (div_ok (dsub t t0) (dsub t1 t0) 0 FA ltac:(lra) ltac:(lia)) as [FC VC]; [rewrite Rabs_pos_eq by lra; exact (proj2 Q)|].
  change (ddiv (dsub t t0) (dsub t1 t0)) with (slerp_parameter t0 t1 t) in *.
  assert (R : 0 <= val (slerp_parameter t0 t1 t) <= 1).
  { rewrite VC. split; [apply rnd_pos; lra|]. rewrite <- (rnd_int 1) by discriminate. apply rnd_mono. lra. }
  split; [exact FC|]. split; [exact R|]. unfold slerp_assertion. destruct zero_ok as [FZ VZ]. destruct one_ok as [FO VO]. apply andb_true_intro. split; apply dle_ok; try assumption; lra.
Qed.
(* for Julian days it is the exact one up to its last digit *)
Lemma slerp_exact t0 t1 t : finite t0 -> finite t1 -> finite t -> 32768 <= val t0 < 65536 -> 32768 <= val t1 < 65536 -> val t0 <= val t < val t1 ->
  Rabs (val (slerp_parameter t0 t1 t) - (val t - val t0) / (val t1 - val t0)) <= 2 * u.
Proof.
  intros F0 F1 F B0 B1 H. assert (EX : forall a b, finite a -> finite b -> 32768 <= val a < 65536 -> 32768 <= val b < 65536 -> val b <= val a -> finite (dsub a b) /\ val (dsub a b) = val a - val b).
  { intros a b Fa Fb Ba Bb L. destruct (sub_ok a b 16 Fa Fb ltac:(lia)) as [FS VS]; [change (pow2 16) with 65536; apply Rabs_le; lra|]. split; [exact FS|]. rewrite VS.
    apply round_generic; [apply valid_rnd_N|]. apply sterbenz; [apply FLT_exp_valid; exact eq_refl|apply FLT_exp_monotone|apply format_of|apply format_of|]. split; lra. }
  destruct (EX t t0) as [FA VA]; try assumption; try lra. destruct (EX t1 t0) as [FB VB]; try assumption; try lra.
  assert (Q : 0 <= (val t - val t0) / (val t1 - val t0) <= 1).
  { split; [apply Rmult_le_pos; [lra|apply Rlt_le, Rinv_0_lt_compat; lra]|]. apply (Rmult_le_reg_r (val t1 - val t0)); [lra|]. unfold Rdiv. rewrite Rmult_assoc, Rinv_l by lra. lra. }
  destruct (div_ok (dsub t t0) (dsub t1 t0) 0 FA ltac:(lra) ltac:(lia)) as [FC VC]; [rewrite VA, VB, Rabs_pos_eq by lra; exact (proj2 Q)|].
  unfold slerp_parameter. rewrite VC, VA, VB. pose proof (rnd_near ((val t - val t0) / (val t1 - val t0))) as E. rewrite (Rabs_pos_eq (_ / _)) in E by lra. lra.
Qed.

(* ---- degrees ---- *)
Definition last : double := ddiv (of_int 7074237752028439) (of_int 4503599627370496).
Lemma last_val : finite last /\ val last = 7074237752028439 / 4503599627370496.
Proof.
  unfold last. destruct (of_int_ok 7074237752028439) as [F1 V1]; [discriminate|]. destruct (of_int_ok 4503599627370496) as [F2 V2]; [discriminate|].
  destruct (div_ok (of_int 7074237752028439) (of_int 4503599627370496) 1) as [F V]; [exact F1|rewrite V2; lra|lia|rewrite V1, V2, Rabs_pos_eq by lra; change (pow2 1) with 2; lra|].
  split; [exact F|]. rewrite V, V1, V2. apply round_generic; [apply valid_rnd_N|]. apply generic_format_FLT.
  exists (Float radix2 7074237752028439 (-52)); [unfold F2R; cbn; lra|cbn; lia|cbn; lia].
Qed.
Lemma below_right z : val z < val DPI / 2 -> val z <= val last.
Proof.
  intros H. rewrite (proj2 DPI_val) in H. rewrite (proj2 last_val).
  replace (7074237752028440 / 2251799813685248 / 2) with (7074237752028440 / 4503599627370496) in H by lra.
  assert (G : generic_format radix2 (FLT_exp (-1074) 53) (7074237752028440 / 4503599627370496)).
  { apply generic_format_FLT. exists (Float radix2 7074237752028440 (-52)); [unfold F2R; cbn; lra|cbn; lia|cbn; lia]. }
  assert (S : val z <= pred radix2 (FLT_exp (-1074) 53) (7074237752028440 / 4503599627370496)) by (apply pred_ge_gt; [apply FLT_exp_valid; exact eq_refl|apply format_of|exact G|exact H]).
  assert (M : mag_val radix2 (7074237752028440 / 4503599627370496) (mag radix2 (7074237752028440 / 4503599627370496)) = 1%Z) by (apply mag_unique_pos; cbn; lra).
  rewrite pred_eq_pos in S by lra. unfold pred_pos in S. rewrite M in S. rewrite Req_bool_false in S by (cbn; lra). rewrite ulp_neq_0 in S by lra.
  unfold cexp in S. rewrite M in S. cbn in S. lra.
Qed.
Notation dpi := (7074237752028440 / 2251799813685248).
(* the angle, its error and that it grows *)
Lemma degrees_ok c z : finite z -> 0 <= val z <= 2 ->
  finite (degrees c z) /\ 0 <= val (degrees c z) <= 128 /\ Rabs (val (degrees c z) - val z * 180 / val DPI) <= 512 * u.
Proof.
  intros F B. destruct DPI_val as [FP VP]. destruct (of_int_ok 180 ltac:(discriminate)) as [F1 V1].
  assert (DV : val z * 180 / val DPI <= 115) by (rewrite VP; lra). assert (DV0 : 0 <= val z * 180 / val DPI) by (rewrite VP; lra).
  destruct c; cbn [degrees].
  - destruct (mul_ok z (of_int 180) 9 F F1 ltac:(lia)) as [F2 V2]; [rewrite V1, Rabs_pos_eq by lra; change (pow2 9) with 512; lra|]. rewrite V1 in V2.
    pose proof (rnd_near (val z * 180)) as E. rewrite <- V2 in E. rewrite (Rabs_pos_eq (val z * 180)) in E by lra.
    assert (P2 : 0 <= val (dmul z (of_int 180))) by (rewrite V2; apply rnd_pos; lra). apply Rabs_le_both in E.
    destruct (div_ok (dmul z (of_int 180)) DPI 7 F2 ltac:(lra) ltac:(lia)) as [F3 V3]; [rewrite VP, Rabs_pos_eq by lra; change (pow2 7) with 128; lra|].
    pose proof (rnd_near (val (dmul z (of_int 180)) / val DPI)) as E3. rewrite <- V3 in E3. rewrite VP in *. rewrite (Rabs_pos_eq (_ / _)) in E3 by lra. apply Rabs_le_both in E3.
    split; [exact F3|]. split; [split; [rewrite V3; apply rnd_pos; lra|lra]|]. apply Rabs_le. lra.
  - destruct (div_ok (of_int 180) DPI 6 F1 ltac:(lra) ltac:(lia)) as [F2 V2]; [rewrite V1, VP, Rabs_pos_eq by lra; change (pow2 6) with 64; lra|]. rewrite V1, VP in V2.
    pose proof (rnd_near (180 / dpi)) as E. rewrite <- V2 in E. rewrite (Rabs_pos_eq (180 / dpi)) in E by lra. apply Rabs_le_both in E.
    set (k := ddiv (of_int 180) DPI) in *. clearbody k.
    assert (KB : 57 <= val k <= 58) by lra.
    assert (ZK : 0 <= val z * val k <= 2 * 58) by nra.
    destruct (mul_ok z k 7 F F2 ltac:(lia)) as [F3 V3]; [rewrite Rabs_pos_eq by lra; change (pow2 7) with 128; lra|].
    pose proof (rnd_near (val z * val k)) as E3. rewrite <- V3 in E3. rewrite (Rabs_pos_eq (_ * _)) in E3 by lra. apply Rabs_le_both in E3.
    split; [exact F3|]. split; [split; [rewrite V3; apply rnd_pos; lra|lra]|]. rewrite VP. apply Rabs_le.
    assert (EK : - (59 * u) <= val k - 180 / dpi <= 59 * u) by lra.
    assert (EZ : - (118 * u) <= val z * (val k - 180 / dpi) <= 118 * u) by nra.
    replace (val z * 180 / dpi) with (val z * (180 / dpi)) by lra. lra.
Qed.
Lemma degrees_mono c x y : finite x -> finite y -> 0 <= val x -> val x <= val y -> val y <= 2 -> val (degrees c x) <= val (degrees c y).
Proof.
  intros FX FY P L B. destruct DPI_val as [FP VP]. destruct (of_int_ok 180 ltac:(discriminate)) as [F1 V1].
  assert (TV : forall t, finite t -> 0 <= val t <= 2 -> finite (dmul t (of_int 180)) /\ val (dmul t (of_int 180)) = rnd (val t * 180) /\ 0 <= val (dmul t (of_int 180)) <= 361).
  { intros t Ft Bt. destruct (mul_ok t (of_int 180) 9 Ft F1 ltac:(lia)) as [F2 V2]; [rewrite V1, Rabs_pos_eq by lra; change (pow2 9) with 512; lra|]. rewrite V1 in V2.
    split; [exact F2|]. split; [exact V2|]. rewrite V2. split; [apply rnd_pos; lra|]. pose proof (rnd_near (val t * 180)) as E. rewrite (Rabs_pos_eq (val t * 180)) in E by lra. apply Rabs_le_both in E. lra. }
  destruct c; cbn [degrees].
  - destruct (TV x FX ltac:(lra)) as (F2 & V2 & B2). destruct (TV y FY ltac:(lra)) as (F3 & V3 & B3).
    destruct (div_ok (dmul x (of_int 180)) DPI 7 F2 ltac:(lra) ltac:(lia)) as [_ V4]; [rewrite VP, Rabs_pos_eq by lra; change (pow2 7) with 128; lra|].
    destruct (div_ok (dmul y (of_int 180)) DPI 7 F3 ltac:(lra) ltac:(lia)) as [_ V5]; [rewrite VP, Rabs_pos_eq by lra; change (pow2 7) with 128; lra|].
    rewrite V4, V5. apply rnd_mono. rewrite VP. assert (val (dmul x (of_int 180)) <= val (dmul y (of_int 180))) by (rewrite V2, V3; apply rnd_mono; lra). lra.
  - destruct (div_ok (of_int 180) DPI 6 F1 ltac:(lra) ltac:(lia)) as [F2 V2]; [rewrite V1, VP, Rabs_pos_eq by lra; change (pow2 6) with 64; lra|]. rewrite V1, VP in V2.
    pose proof (rnd_near (180 / dpi)) as E. rewrite <- V2 in E. rewrite (Rabs_pos_eq (180 / dpi)) in E by lra. apply Rabs_le_both in E.
    set (k := ddiv (of_int 180) DPI) in *. clearbody k. assert (KB : 57 <= val k <= 58) by lra.
    destruct (mul_ok x k 7 FX F2 ltac:(lia)) as [_ V3]; [rewrite Rabs_pos_eq by nra; change (pow2 7) with 128; nra|].
    destruct (mul_ok y k 7 FY F2 ltac:(lia)) as [_ V4]; [rewrite Rabs_pos_eq by nra; change (pow2 7) with 128; nra|].
    rewrite V3, V4. apply rnd_mono. nra.
Qed.
(* the index *)
Definition steps (c : conversion) (z : double) : double := ddiv (degrees c z) (of_int 5).
Lemma steps_ok c z : finite z -> 0 <= val z -> val z < val DPI / 2 ->
  finite (steps c z) /\ 0 <= val (steps c z) < 18 /\ Rabs (val (steps c z) - val z * 36 / val DPI) <= 150 * u.
Proof.
  intros F P H. pose proof (below_right z H) as L. destruct last_val as [FL VL]. destruct DPI_val as [FP VP]. destruct (of_int_ok 5 ltac:(discriminate)) as [F5 V5].
  destruct (degrees_ok c z F) as (FD & BD & ED); [lra|]. destruct (degrees_ok c last FL) as (FD' & BD' & _); [lra|].
  destruct (div_ok (degrees c z) (of_int 5) 5 FD ltac:(lra) ltac:(lia)) as [FS VS]; [rewrite V5, Rabs_pos_eq by lra; change (pow2 5) with 32; lra|].
  destruct (div_ok (degrees c last) (of_int 5) 5 FD' ltac:(lra) ltac:(lia)) as [FS' VS']; [rewrite V5, Rabs_pos_eq by lra; change (pow2 5) with 32; lra|].
  rewrite V5 in VS, VS'. fold (steps c z) in FS, VS. fold (steps c last) in FS', VS'.
  assert (LT : val (steps c last) < 18).
  { destruct (of_int_ok 18 ltac:(discriminate)) as [F18 V18]. rewrite <- V18. apply dlt_ok; [exact FS'|exact F18|]. destruct c; vm_compute; reflexivity. }
  split; [exact FS|]. split.
  - split; [rewrite VS; apply rnd_pos; lra|]. apply Rle_lt_trans with (2 := LT). rewrite VS, VS'. apply rnd_mono.
    pose proof (degrees_mono c z last F FL P L ltac:(lra)). lra.
  - pose proof (rnd_near (val (degrees c z) / 5)) as E. rewrite <- VS in E. rewrite (Rabs_pos_eq (_ / _)) in E by lra. apply Rabs_le_both in E, ED. apply Rabs_le.
    rewrite VP in *. lra.
Qed.
Lemma floor_ok x : finite x -> 0 <= val x < 18 -> exists i : Z, floor_int x = Ok i /\ (0 <= i <= 17)%Z /\ IZR i <= val x < IZR i + 1.
Proof.
  intros F B. unfold floor_int. set (i := Zfloor (val x)). pose proof (Zfloor_lb (val x)) as L. pose proof (Zfloor_ub (val x)) as U. fold i in L, U.
  assert (R : (0 <= i <= 17)%Z).
  { split; [apply Zfloor_lub; lra|]. assert (i < 18)%Z by (apply lt_IZR; lra). lia. }
  rewrite (to_int_val 32 x i F); [|rewrite Ztrunc_floor by lra; reflexivity|lia]. cbn [obind].
  destruct (of_int_ok i) as [FI VI]; [lia|]. destruct (dlt x (of_int i)) eqn:D; [apply (dlt_ok x (of_int i) F FI) in D; lra|].
  exists i. split; [reflexivity|]. split; [exact R|]. lra.
Qed.

(* ---- the value ---- *)
Definition entry (t : list Q) (i : nat) : R := Q2R (nth i t 0%Q).
(* the straight line through two neighbours of the table *)
Definition line (t : list Q) (i : nat) (x : R) : R := entry t i + (x - INR i) * (entry t (S i) - entry t i).
Definition small_entries (t : list Q) : Prop := Forall (fun q => printed q /\ Rabs (Q2R q) <= 32) t.
Lemma value_ok t angle i v v1 : printed v -> printed v1 -> Rabs (Q2R v) <= 32 -> Rabs (Q2R v1) <= 32 -> (0 <= i <= 17)%Z -> finite angle -> 0 <= val angle <= 128 ->
  Rabs (val angle - 5 * IZR i) <= 6 -> t = dadd (of_decimal v) (dmul (dsub angle (dmul (of_int 5) (of_int i))) (ddiv (dsub (of_decimal v1) (of_decimal v)) (of_int 5))) ->
  finite t /\ Rabs (val t - (Q2R v + (val angle - 5 * IZR i) * ((Q2R v1 - Q2R v) / 5))) <= 2000 * u.
Proof.
  intros P0 P1 B0 B1 I FA BA D ->. destruct (of_decimal_err v P0) as (F0 & e0 & E0 & V0). destruct (of_decimal_err v1 P1) as (F1 & e1 & E1 & V1).
  set (w := of_decimal v) in *. set (w1 := of_decimal v1) in *. clearbody w w1. set (a := Q2R v) in *. set (b := Q2R v1) in *. clearbody a b. apply Rabs_le_both in B0, B1, E0, E1, D.
  assert (W0 : - (32 * u) <= val w - a <= 32 * u) by (rewrite V0; nra). assert (W1 : - (32 * u) <= val w1 - b <= 32 * u) by (rewrite V1; nra). clear V0 V1 E0 E1 e0 e1.
  destruct (of_int_ok 5 ltac:(discriminate)) as [F5 V5]. destruct (of_int_ok i ltac:(lia)) as [FI VI].
  assert (IR : 0 <= IZR i <= 17) by (split; [apply IZR_le; lia|apply (IZR_le i 17); lia]).
  destruct (mul_ok (of_int 5) (of_int i) 7 F5 FI ltac:(lia)) as [FM VM]; [rewrite V5, VI, Rabs_pos_eq by lra; change (pow2 7) with 128; lra|].
  rewrite V5, VI, <- mult_IZR, rnd_int in VM by lia. rewrite mult_IZR in VM.
  destruct (sub_ok angle (dmul (of_int 5) (of_int i)) 3 FA FM ltac:(lia)) as [FS VS]; [rewrite VM; change (pow2 3) with 8; apply Rabs_le; lra|]. rewrite VM in VS.
  pose proof (rnd_near (val angle - 5 * IZR i)) as ES. rewrite <- VS in ES. assert (AB : Rabs (val angle - 5 * IZR i) <= 6) by (apply Rabs_le; lra).
  set (p := dsub angle (dmul (of_int 5) (of_int i))) in *. clearbody p. set (q := val angle - 5 * IZR i) in *. clearbody q. clear VM FM VS.
  destruct (sub_ok w1 w 7 F1 F0 ltac:(lia)) as [FD VD]; [change (pow2 7) with 128; apply Rabs_le; lra|].
  pose proof (rnd_near (val w1 - val w)) as ED. rewrite <- VD in ED. assert (DB : Rabs (val w1 - val w) <= 65) by (apply Rabs_le; lra).
  set (r := dsub w1 w) in *. clearbody r. assert (RE : - (130 * u) <= val r - (b - a) <= 130 * u) by (apply Rabs_le_both in ED; lra).
  destruct (div_ok r (of_int 5) 4 FD ltac:(lra) ltac:(lia)) as [FQ VQ]; [rewrite V5; change (pow2 4) with 16; apply Rabs_le; lra|]. rewrite V5 in VQ.
  pose proof (rnd_near (val r / 5)) as EQ. rewrite <- VQ in EQ. assert (QB : Rabs (val r / 5) <= 14) by (apply Rabs_le; lra).
  set (g := ddiv r (of_int 5)) in *. clearbody g. assert (GE : - (41 * u) <= val g - (b - a) / 5 <= 41 * u) by (apply Rabs_le_both in EQ; lra).
  assert (PE : - (7 * u) <= val p - q <= 7 * u) by (apply Rabs_le_both in ES; lra).
  assert (GB : -15 <= val g <= 15) by lra. assert (PB : -7 <= val p <= 7) by lra.
  assert (M1 : Rabs (val p * val g) <= 105) by (rewrite Rabs_mult; replace 105 with (7 * 15) by lra; apply Rmult_le_compat; auto using Rabs_pos; apply Rabs_le; lra).
  destruct (mul_ok p g 7 FS FQ ltac:(lia)) as [FG VG]; [change (pow2 7) with 128; lra|].
  pose proof (rnd_near (val p * val g)) as EG. rewrite <- VG in EG. set (h := dmul p g) in *. clearbody h.
  assert (X1 : - (287 * u) <= q * (val g - (b - a) / 5) <= 287 * u) by nra. assert (X2 : - (105 * u) <= (val p - q) * val g <= 105 * u) by nra.
  assert (HE : - (500 * u) <= val h - q * ((b - a) / 5) <= 500 * u).
  { apply Rabs_le_both in EG. replace (val h - q * ((b - a) / 5)) with ((val h - val p * val g) + (val p - q) * val g + q * (val g - (b - a) / 5)) by ring. lra. }
  assert (HB : -106 <= val h <= 106) by (apply Rabs_le_both in EG, M1; lra).
  destruct (add_ok w h 8 F0 FG ltac:(lia)) as [FF VF]; [change (pow2 8) with 256; apply Rabs_le; lra|]. split; [exact FF|].
  pose proof (rnd_near (val w + val h)) as EF. rewrite <- VF in EF. assert (FB : Rabs (val w + val h) <= 140) by (apply Rabs_le; lra).
  apply Rabs_le_both in EF. apply Rabs_le. lra.
Qed.
Lemma nth_load (t : list Q) i : (i < length t)%nat -> load t i = Ok (nth i t 0%Q).
Proof. intros H. unfold load. rewrite (nth_error_nth' t 0%Q H). reflexivity. Qed.
Lemma pcv_value_ok c t z : length t = 19%nat -> small_entries t -> finite z -> 0 <= val z -> val z < val DPI / 2 ->
  exists v, pcv_value t (degrees c z) = Ok v /\ finite v /\
    forall i : nat, (i <= 17)%nat -> INR i <= val z * 36 / val DPI <= INR i + 1 -> Rabs (val v - line t i (val z * 36 / val DPI)) <= / 100000000000.
Proof.
  intros LN SE F P H. destruct (steps_ok c z F P H) as (FS & BS & ES). destruct (floor_ok _ FS BS) as (j & FJ & RJ & BJ).
  unfold pcv_value. change (ddiv (degrees c z) (of_int 5)) with (steps c z). rewrite FJ. cbn [obind]. destruct (Z.ltb_spec j 0); [lia|].
  destruct DPI_val as [FP VP]. destruct (degrees_ok c z F) as (FD & BD & ED); [rewrite VP in *; lra|].
  assert (J1 : (Z.to_nat j < 19)%nat) by lia. assert (J2 : (Z.to_nat (j + 1) < 19)%nat) by lia.
  rewrite !nth_load by lia. cbn [obind]. eexists. split; [reflexivity|].
  replace (Z.to_nat (j + 1)) with (S (Z.to_nat j)) by lia.
  assert (EN : forall k, (k < 19)%nat -> printed (nth k t 0%Q) /\ Rabs (Q2R (nth k t 0%Q)) <= 32).
  { intros k K. pose proof (proj1 (Forall_forall _ t) SE) as A. apply A. apply nth_In. lia. }
  destruct (EN (Z.to_nat j) J1) as [N1 N2]. destruct (EN (S (Z.to_nat j)) ltac:(lia)) as [N3 N4].
  set (x := val z * 36 / val DPI) in *. assert (XE : val z * 180 / val DPI = 5 * x) by (unfold x; lra). rewrite XE in ED. apply Rabs_le_both in ED, ES.
  assert (AJ : Rabs (val (degrees c z) - 5 * IZR j) <= 6) by (apply Rabs_le; lra).
  destruct (value_ok _ (degrees c z) j (nth (Z.to_nat j) t 0%Q) (nth (S (Z.to_nat j)) t 0%Q) N1 N3 N2 N4 RJ FD BD AJ eq_refl) as [FV EV]. split; [exact FV|].
  intros i I X. fold (entry t (Z.to_nat j)) in EV, N2. fold (entry t (S (Z.to_nat j))) in EV, N4.
  assert (EI : forall k, (k < 19)%nat -> -32 <= entry t k <= 32) by (intros k K; apply Rabs_le_both, (proj2 (EN k K))).
  (* the line of the index found *)
  assert (LJ : Rabs (val (dadd (of_decimal (nth (Z.to_nat j) t 0%Q)) (dmul (dsub (degrees c z) (dmul (of_int 5) (of_int j))) (ddiv (dsub (of_decimal (nth (S (Z.to_nat j)) t 0%Q)) (of_decimal (nth (Z.to_nat j) t 0%Q))) (of_int 5)))) - line t (Z.to_nat j) x) <= 9000 * u).
  { set (v := val (dadd _ _)) in *. clearbody v. unfold line. rewrite INR_IZR_INZ, Z2Nat.id by lia. apply Rabs_le_both in EV, N2, N4. apply Rabs_le.
    set (a := entry t (Z.to_nat j)) in *. set (b := entry t (S (Z.to_nat j))) in *. clearbody a b.
    assert (D : - (6600 * u) <= (val (degrees c z) - 5 * x) * ((b - a) / 5) <= 6600 * u) by (clear - ED N2 N4; nra).
    replace ((val (degrees c z) - 5 * IZR j) * ((b - a) / 5)) with ((val (degrees c z) - 5 * x) * ((b - a) / 5) + (x - IZR j) * (b - a)) in EV by field. lra. }
  set (v := val (dadd _ _)) in *. clearbody v. clear EV N1 N2 N3 N4.
  (* the line of the interval asked for *)
  assert (LI : Rabs (line t (Z.to_nat j) x - line t i x) <= 20000 * u).
  { assert (IJ : (Z.of_nat i = j \/ Z.of_nat i = j - 1 \/ Z.of_nat i = j + 1)%Z).
    { rewrite INR_IZR_INZ in X. assert (Z.of_nat i < j + 2)%Z by (apply lt_IZR; rewrite plus_IZR; lra). assert (j - 2 < Z.of_nat i)%Z by (apply lt_IZR; rewrite minus_IZR; lra). lia. }
    destruct IJ as [E|[E|E]].
    - replace (Z.to_nat j) with i by lia. rewrite Rminus_eq_0, Rabs_R0. lra.
    - replace (Z.to_nat j) with (S i) by lia. rewrite INR_IZR_INZ, E, minus_IZR in X.
      assert (IS : INR i = IZR j - 1) by (rewrite INR_IZR_INZ, E, minus_IZR; reflexivity). unfold line. rewrite S_INR, IS.
      pose proof (EI i ltac:(lia)). pose proof (EI (S i) ltac:(lia)). pose proof (EI (S (S i)) ltac:(lia)).
      set (a := entry t i) in *. set (b := entry t (S i)) in *. set (d := entry t (S (S i))) in *. clearbody a b d.
      replace (b + (x - (IZR j - 1 + 1)) * (d - b) - (a + (x - (IZR j - 1)) * (b - a))) with ((x - IZR j) * ((d - b) - (b - a))) by ring.
      assert (- (150 * u) <= x - IZR j <= 0) by lra. apply Rabs_le. nra.
    - replace i with (S (Z.to_nat j)) in * by lia. set (k := Z.to_nat j) in *. assert (IS : INR k = IZR j) by (unfold k; rewrite INR_IZR_INZ, Z2Nat.id by lia; reflexivity).
      unfold line. rewrite S_INR, IS in *. pose proof (EI k ltac:(lia)). pose proof (EI (S k) ltac:(lia)). pose proof (EI (S (S k)) ltac:(lia)).
      set (a := entry t k) in *. set (b := entry t (S k)) in *. set (d := entry t (S (S k))) in *. clearbody a b d.
      replace (a + (x - IZR j) * (b - a) - (b + (x - (IZR j + 1)) * (d - b))) with ((x - (IZR j + 1)) * ((b - a) - (d - b))) by ring.
      assert (0 <= x - (IZR j + 1) <= 150 * u) by lra. apply Rabs_le. nra. }
  apply Rabs_le_both in LJ, LI. apply Rabs_le. lra.
Qed.
Lemma small_table a : length (plarray a) = 19%nat /\ small_entries (plarray a).
Proof.
  split; [now destruct a|].
  assert (K : forall t, Forall (fun q => (Z.abs (Qnum q) <= 3200)%Z /\ Qden q = 100%positive) t -> small_entries t).
  { intros t. apply Forall_impl. intros [n d] [A B]. cbn [Qnum Qden] in A, B. subst d. split; [split; cbn [Qnum Qden]; [apply Z.le_trans with (1 := A); discriminate|discriminate]|].
    unfold Q2R. cbn [Qnum Qden]. apply Rabs_le. assert (-3200 <= n <= 3200)%Z by lia. pose proof (IZR_le (-3200) n ltac:(lia)). pose proof (IZR_le n 3200 ltac:(lia)). lra. }
  apply K. destruct a; cbn [plarray]; repeat constructor; cbn; discriminate.
Qed.
Lemma half_turn : finite (ddiv DPI two) /\ val (ddiv DPI two) = val DPI / 2.
Proof.
  destruct DPI_val as [FP VP]. destruct two_ok as [F2 V2]. destruct (div_ok DPI two 2 FP ltac:(lra) ltac:(lia)) as [F V]; [rewrite V2, VP, Rabs_pos_eq by lra; change (pow2 2) with 4; lra|].
  split; [exact F|]. rewrite V, V2, VP. apply round_generic; [apply valid_rnd_N|]. apply generic_format_FLT.
  exists (Float radix2 7074237752028440 (-52)); [unfold F2R; cbn; lra|cbn; lia|cbn; lia].
Qed.
Lemma pcv_ok c a z : finite z -> 0 <= val z -> val z < val DPI / 2 ->
  exists v, pcv_double c a z = Ok (v, 0%Z) /\ finite v /\
    forall i : nat, (i <= 17)%nat -> INR i <= val z * 36 / val DPI <= INR i + 1 -> Rabs (val v - line (plarray a) i (val z * 36 / val DPI)) <= / 100000000000.
Proof.
  intros F P H. destruct (small_table a) as [LN SE]. destruct (pcv_value_ok c (plarray a) z LN SE F P H) as (v & E & FV & LV).
  exists v. split; [|split; [exact FV|exact LV]]. unfold pcv_double. destruct zero_ok as [FZ VZ]. destruct half_turn as [FH VH].
  destruct (dlt z zero) eqn:D1; [apply (dlt_ok z zero F FZ) in D1; lra|]. destruct (dlt (ddiv DPI two) z) eqn:D2; [apply (dlt_ok _ z FH F) in D2; lra|]. cbn [orb]. rewrite E. reflexivity.
Qed.
Lemma pcv_outside c a z : finite z -> val z < 0 \/ val DPI / 2 < val z -> pcv_double c a z = Ok (zero, match a with Alcatel => 0%Z | _ => 1%Z end).
Proof.
  intros F H. unfold pcv_double. destruct zero_ok as [FZ VZ]. destruct half_turn as [FH VH].
  assert (D : dlt z zero || dlt (ddiv DPI two) z = true).
  { apply orb_true_intro. destruct H as [H|H]; [left; apply dlt_ok; try assumption; lra|right; apply dlt_ok; try assumption; lra]. }
  rewrite D. now destruct a.
Qed.
Lemma pcv_right_angle c a : pcv_double c a (ddiv DPI two) = UB.
Proof.
  assert (E : floor_int (ddiv (degrees c (ddiv DPI two)) (of_int 5)) = Ok 18%Z) by (destruct c; vm_compute; reflexivity).
  assert (G : dlt (ddiv DPI two) zero || dlt (ddiv DPI two) (ddiv DPI two) = false) by (vm_compute; reflexivity).
  unfold pcv_double. rewrite G. unfold pcv_value. rewrite E. destruct a; reflexivity.
Qed.
