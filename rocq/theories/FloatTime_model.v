(* Model of conversions that the other files treat as exact, in binary64 (Flocq's, round to nearest even): the clock
   offset of an epoch and the L2 / L1 offset to nanoseconds, the value of an observable over its factor, the difference
   of two, and the date of a modified Julian day.  Flocq's arithmetic stands for the processor's. *)
From Coq Require Import ZArith QArith Bool.
From Flocq Require Import IEEE754.BinarySingleNaN IEEE754.Binary IEEE754.Bits.
From Verif Require Import Base CLib_model Rinex_model FrameTime_model.
Local Open Scope Z_scope.

Definition double := binary64.
(* an integer (or an integer constant such as 1e9) as a double; exact up to 2^53 *)
Definition of_int (n : Z) : double := binary_normalize 53 1024 (eq_refl _) (eq_refl _) mode_NE n 0 false.
(* std::strtod, correctly rounded (glibc): the quotient is rounded once, numerator and denominator are exact as long as
   they have at most 53 bits (15 digits), also when reduced.  The sign of a zero is not kept *)
Definition of_decimal (q : Q) : double := b64_div mode_NE (of_int (Qnum (Qred q))) (of_int (Zpos (Qden (Qred q)))).
Definition is_equal (x y : double) : bool := match b64_compare x y with Some Eq => true | _ => false end.
(* static_cast to an integer type of [bits] bits: the fraction is dropped, undefined if the rest does not fit *)
Definition to_int (bits : Z) (x : double) : outcome Z :=
  if is_finite 53 1024 x then
    let z := Btrunc 53 1024 x in if (- 2 ^ (bits - 1) <=? z) && (z <? 2 ^ (bits - 1)) then Ok z else UB
  else UB.

(* doris_system_info.hpp:15-16: the least normal number *)
Definition missing : double := B754_finite 53 1024 false 4503599627370496 (-1074) eq_refl.
(* doris_rinex.hpp:391-404 *)
Definition l1_epoch_double (applied : bool) (epoch : Z) (clock : double) : outcome Z :=
  if applied then Ok epoch
  else
    let off := b64_mult mode_NE (of_int (if is_equal clock missing then 0 else 1)) clock in
    do n <- to_int 64 (b64_mult mode_NE off (of_int 1000000000)); Ok (epoch + n).
(* doris_rinex.hpp:306-312 *)
Definition l21_offset_double (offset_us : double) : outcome Z := to_int 64 (b64_mult mode_NE offset_us (of_int 1000)).
(* rinex/doris_rinex.cpp:191: the number of a field over its factor (an int) *)
Definition scaled_double (v : double) (factor : Z) : double := b64_div mode_NE v (of_int factor).
(* doris/extract_doppler_count.cpp:27-28 *)
Definition count_double (later earlier : double) : double := b64_minus mode_NE later earlier.
(* itrs2gcrs.cpp:163-169 *)
Definition tai_date_double (mjd_tai : double) : outcome date :=
  do imjd <- to_int 32 mjd_tai;
  let sec := b64_mult mode_NE (b64_minus mode_NE mjd_tai (of_int imjd)) (of_int 86400) in
  do isec <- to_int 64 (b64_mult mode_NE sec (of_int 1000000000));
  Ok (imjd, isec).
