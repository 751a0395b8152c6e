(* Model, in binary64, of two places that divide and then rely on the range of the quotient: the table index of
   AntennaOffsetTraits<T, 1>::pcv (Pcv_model.v has it over the rationals) and the interpolation parameter of the attitude
   quaternions.  Flocq's arithmetic stands for the processor's; no fused operations. *)
From Coq Require Import List ZArith QArith Bool.
From Flocq Require Import IEEE754.BinarySingleNaN IEEE754.Binary IEEE754.Bits.
From Verif Require Import Base Pcv_model FloatTime_model FloatAngle_model.
Import ListNotations.
Local Open Scope Z_scope.

(* dso::rad2deg (external): times 180 over pi, in either order *)
Inductive conversion := TimesFirst | QuotientFirst.
Definition degrees (c : conversion) (z : double) : double :=
  match c with
  | TimesFirst => ddiv (dmul z (of_int 180)) DPI
  | QuotientFirst => dmul z (ddiv (of_int 180) DPI)
  end.
(* int index = std::floor(...) *)
Definition floor_int (x : double) : outcome Z :=
  do t <- to_int 32 x; Ok (if dlt x (of_int t) then t - 1 else t).
(* antenna_pcv.hpp:55-60, 108-113, 160-165; the DEBUG assertion (which compares with the size in bytes) is left out *)
Definition pcv_value (t : list Q) (angle : double) : outcome double :=
  do index <- floor_int (ddiv angle (of_int 5));
  if Z.ltb index 0 then UB
  else
    do v <- load t (Z.to_nat index);
    do v1 <- load t (Z.to_nat (index + 1));
    Ok (dadd (of_decimal v) (dmul (dsub angle (dmul (of_int 5) (of_int index))) (ddiv (dsub (of_decimal v1) (of_decimal v)) (of_int 5)))).
(* antenna_pcv.hpp:48-61 (Alcatel, flag behind the return), 101-114, 153-166 *)
Definition pcv_double (c : conversion) (a : antenna) (zenith : double) : outcome (double * Z) :=
  let angle := degrees c zenith in
  if dlt zenith zero || dlt (ddiv DPI two) zenith then
    Ok (zero, match a with Alcatel => 0 | Starec_B | Starec_C => 1 end)
  else do v <- pcv_value (plarray a) angle; Ok (v, 0).

(* jason3_quaternions.cpp:214-218: the parameter of slerp, and whether the assertion holds *)
Definition slerp_parameter (t0 t1 t : double) : double := ddiv (dsub t t0) (dsub t1 t0).
Definition slerp_assertion (t0 t1 t : double) : bool := dle zero (slerp_parameter t0 t1 t) && dle (slerp_parameter t0 t1 t) one.
