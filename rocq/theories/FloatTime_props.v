(* C107: times and phases in double precision. *)
From Coq Require Import String List ZArith QArith Qreals Reals Ascii Bool Lia.
From Flocq Require Import Core IEEE754.BinarySingleNaN IEEE754.Binary IEEE754.Bits.
From Verif Require Import Base CLib_model CLib_proofs Rinex_model Rinex_proofs FrameTime_model FloatTime_model FloatTime_proofs.
Import ListNotations.
Local Open Scope R_scope.

(* C107: the clock offset of an epoch line, printed with nine decimals, shifts the epoch by the printed nanoseconds or by
   one less (towards zero).  Missing: that it is the printed number (refuted below). *)
Theorem clock_offset_nanosecond_partial : forall strptime e t hdr neg ip fp,
  epoch_ok e -> strptime (me_date e ++ after_date e) = Some t -> me_clock e = Some (neg, ip, fp) -> length fp = 9%nat ->
  exists h k, resolve_data_epoch strptime (epoch_text e ++ [nul]) hdr = Ok (0%Z, h) /\
    l1_epoch_double false (h_epoch h) (of_decimal (h_clock h)) = Ok (t + k)%Z /\
    let n := signed neg (dval (ip ++ fp)) in k = n \/ k = (n - Z.sgn n)%Z.
Proof. exact clock_line. Qed.
Print Assumptions clock_offset_nanosecond_partial.

(* C107: 0.000000015 seconds are 14 nanoseconds *)
Theorem clock_offset_nanosecond_refuted : exists strptime e t hdr neg ip fp h k,
  epoch_ok e /\ strptime (me_date e ++ after_date e) = Some t /\ me_clock e = Some (neg, ip, fp) /\ length fp = 9%nat /\
  resolve_data_epoch strptime (epoch_text e ++ [nul]) hdr = Ok (0%Z, h) /\
  l1_epoch_double false (h_epoch h) (of_decimal (h_clock h)) = Ok (t + k)%Z /\ k <> signed neg (dval (ip ++ fp)).
Proof.
  exists (fun _ => Some 1000%Z), (ex_epoch [1%Z] (Some (false, [0%Z], [0; 0; 0; 0; 0; 0; 0; 1; 5]%Z))), 1000%Z, (RHdr 0 0 0 0 0), false, [0%Z], [0; 0; 0; 0; 0; 0; 0; 1; 5]%Z.
  eexists. exists 14%Z. split; [apply ex_epoch_ok; [split; [discriminate|repeat constructor; lia]|cbn; lia|]|].
  - split; [discriminate|]. split; [repeat constructor; lia|]. split; [repeat constructor; lia|cbn; lia].
  - split; [reflexivity|]. split; [reflexivity|]. split; [reflexivity|]. split; [vm_compute; reflexivity|]. split; [vm_compute; reflexivity|vm_compute; discriminate].
Qed.
Print Assumptions clock_offset_nanosecond_refuted.
Example clock_offset_case : l1_epoch_double false 0 (of_decimal (-4432841287 # 1000000000)) = Ok (-4432841287)%Z.
Proof. vm_compute. reflexivity. Qed.

(* C107: the same for the L2 / L1 offset, in microseconds with three decimals.  Missing: that it is the printed number
   (refuted below). *)
Theorem l21_offset_nanosecond_partial : forall q n, printed q -> (q * inject_Z 1000 == inject_Z n)%Q -> (Z.abs n <= 2 ^ 50)%Z ->
  exists k, l21_offset_double (of_decimal q) = Ok k /\ (k = n \/ k = (n - Z.sgn n)%Z).
Proof. exact l21_ok. Qed.
Print Assumptions l21_offset_nanosecond_partial.
Theorem l21_offset_nanosecond_refuted : exists q n k, printed q /\ (q * inject_Z 1000 == inject_Z n)%Q /\ (Z.abs n <= 2 ^ 50)%Z /\
  l21_offset_double (of_decimal q) = Ok k /\ k <> n.
Proof.
  exists (1001 # 1000)%Q, 1001%Z, 1000%Z. split; [split; vm_compute; discriminate|]. split; [reflexivity|]. split; [vm_compute; discriminate|].
  split; [vm_compute; reflexivity|discriminate].
Qed.
Print Assumptions l21_offset_nanosecond_refuted.
Example l21_offset_case : printed (-6 # 10) /\ ((-6 # 10) * inject_Z 1000 == inject_Z (-600))%Q /\ l21_offset_double (of_decimal (-6 # 10)) = Ok (-600)%Z.
Proof. split; [split; vm_compute; discriminate|]. split; [reflexivity|vm_compute; reflexivity]. Qed.

(* C107: fields of an observable that are read as the same double, over the same factor, were printed with the same
   number *)
Theorem phase_distinct : forall n1 i1 f1 n2 i2 f2 f, fld_ok (FNum n1 i1 f1) -> fld_ok (FNum n2 i2 f2) -> length f1 = length f2 -> (1 <= f < 2 ^ 31)%Z ->
  scaled_double (of_decimal (fixed_val n1 i1 f1)) f = scaled_double (of_decimal (fixed_val n2 i2 f2)) f -> (fixed_val n1 i1 f1 == fixed_val n2 i2 f2)%Q.
Proof. exact field_apart. Qed.
Print Assumptions phase_distinct.

(* C107: the difference of two phases printed with three decimals is that of the printed numbers to a hundredth of their
   last decimal *)
Theorem phase_difference : forall n1 i1 f1 n2 i2 f2 f, fld_ok (FNum n1 i1 f1) -> fld_ok (FNum n2 i2 f2) -> length f1 = 3%nat -> length f2 = 3%nat -> (1 <= f < 2 ^ 31)%Z ->
  Rabs (B2R 53 1024 (count_double (scaled_double (of_decimal (fixed_val n2 i2 f2)) f) (scaled_double (of_decimal (fixed_val n1 i1 f1)) f))
        - Q2R ((fixed_val n2 i2 f2 - fixed_val n1 i1 f1) / inject_Z f)) <= / 100 * / 1000 * / IZR f.
Proof. exact field_count. Qed.
Print Assumptions phase_difference.
Example phase_case : fld_ok (FNum true [1; 2; 3; 4; 5; 6; 7; 8; 9]%Z [1; 2; 3]%Z) /\ fld_ok (FNum false [9; 9; 9; 9; 9; 9; 9; 9; 9; 9]%Z [9; 9; 9]%Z).
Proof. split; (split; [discriminate|]; split; [repeat constructor; lia|]; split; [repeat constructor; lia|vm_compute; lia]). Qed.

(* C107: from 1948 to 2038 the date of a modified Julian day is its day and the nanoseconds of the rest of it, one less
   at most; no day has more than a day's nanoseconds *)
Theorem julian_day_nanosecond : forall x, 32768 <= B2R 53 1024 x < 65536 ->
  exists ns, tai_date_double x = Ok (Zfloor (B2R 53 1024 x), ns) /\ (0 <= ns < 86400000000000)%Z /\
  -1 - / 100 < IZR ns - (B2R 53 1024 x - IZR (Zfloor (B2R 53 1024 x))) * 86400000000000 < / 100 + / 1000.
Proof. exact tai_ok. Qed.
Print Assumptions julian_day_nanosecond.

(* C107: a date that is passed on as the nearest modified Julian day comes back within 316 nanoseconds.  Missing: that it
   comes back (refuted below). *)
Theorem julian_day_roundtrip_partial : forall x (d : date), 32768 <= B2R 53 1024 x < 65536 ->
  Rabs (B2R 53 1024 x - IZR (fst d * 86400000000000 + snd d) / 86400000000000) <= / 274877906944 ->
  exists d', tai_date_double x = Ok d' /\ (Z.abs (fst d' * 86400000000000 + snd d' - (fst d * 86400000000000 + snd d)) <= 316)%Z.
Proof. exact there_and_back. Qed.
Print Assumptions julian_day_roundtrip_partial.
(* the half of the distance between doubles used above is what rounding to nearest gives *)
Lemma julian_day_nearest : forall t, 32768 <= t <= 65536 - / 137438953472 ->
  Rabs (round radix2 (FLT_exp (-1074) 53) ZnearestE t - t) <= / 274877906944.
Proof. exact nearest_close. Qed.
(* C107: 300 nanoseconds past midnight become midnight *)
Theorem julian_day_roundtrip_refuted : exists x (d d' : date), 32768 <= B2R 53 1024 x < 65536 /\
  Rabs (B2R 53 1024 x - IZR (fst d * 86400000000000 + snd d) / 86400000000000) <= / 274877906944 /\ tai_date_double x = Ok d' /\ d' <> d.
Proof.
  exists (of_int 59000), (59000%Z, 300%Z), (59000%Z, 0%Z). destruct (of_int_val 59000) as [_ V]; [discriminate|]. unfold val in V. rewrite V.
  split; [Lra.lra|]. split; [|split; [vm_compute; reflexivity|discriminate]].
  cbn [fst snd]. replace (59000 - IZR (59000 * 86400000000000 + 300) / 86400000000000) with (- / 288000000000) by (cbn; Lra.lra).
  rewrite Rabs_Ropp, Rabs_right; Lra.lra.
Qed.
Print Assumptions julian_day_roundtrip_refuted.
Example julian_day_case : tai_date_double (of_decimal (118001 # 2)) = Ok (59000%Z, 43200000000000%Z).
Proof. vm_compute. reflexivity. Qed.
