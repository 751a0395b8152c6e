(* Model of relativistic_clock_correction, src/relativity/relativistic_clock_correction.cpp.
   Doubles are real numbers; the speed of light and the latitude given by dso::car2ell (the geodetic
   one, external) are arguments. *)
From Coq Require Import Reals.
From Verif Require Import Vec_model.
Local Open Scope R_scope.

(* relativistic_clock_correction.cpp:16-30 *)
Definition clock_correction (c : R) (recef vecef : vec) (GM : R) : R :=
  let U := GM / norm recef in
  let V2 := dot vecef vecef in
  (U + V2 / 2) / c.
(* relativistic_clock_correction.cpp:44-69 *)
Definition clock_correction_J2 (c : R) (latitude : R) (recef vecef : vec) (GM J2 Re : R) : R :=
  let r := norm recef in
  let U := GM / r * (1 - Re / r * (Re / r) * J2 * (3 * sin latitude * sin latitude - 1) / 2) in
  let V2 := dot vecef vecef in
  (U + V2 / 2) / c.
