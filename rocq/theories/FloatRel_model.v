(* Model, in binary64 (Flocq's, round to nearest even), of relativistic_clock_correction,
   src/relativity/relativistic_clock_correction.cpp; Relativity_model.v has it over the real numbers.  norm() and
   squaredNorm() of Eigen (external) are the sum of the squares from left to right and its root; no fused operations. *)
From Coq Require Import ZArith.
From Verif Require Import FloatTime_model FloatAngle_model.
Local Open Scope Z_scope.

(* iers2010::C (external): the speed of light, 299792458 m/s *)
Definition light : double := of_int 299792458.
(* relativistic_clock_correction.cpp:16-30 *)
Definition clock_correction (recef vecef : dvec) (GM : double) : double :=
  let U := ddiv GM (norm recef) in
  let V2 := dot vecef vecef in
  ddiv (dadd U (ddiv V2 two)) light.
(* relativistic_clock_correction.cpp:44-69; sinlat is what std::sin gives for the latitude found by dso::car2ell
   (external), evaluated twice in the source *)
Definition clock_correction_J2 (sinlat : double) (recef vecef : dvec) (GM J2 Re : double) : double :=
  let R := norm recef in
  let U := dmul (ddiv GM R)
             (dsub one (ddiv (dmul (dmul (dmul (ddiv Re R) (ddiv Re R)) J2) (dsub (dmul (dmul (of_int 3) sinlat) sinlat) one)) two)) in
  let V2 := dot vecef vecef in
  ddiv (dadd U (ddiv V2 two)) light.
(* test/rinex_pod.cpp:1110-1131: Drel_c, satellite (receiver) less beacon (emitter), which does not move *)
Definition Drel_c (sinlat : double) (rsat vsat rbeacon : dvec) (Re GM J2 : double) : double :=
  dsub (clock_correction_J2 sinlat rsat vsat GM J2 Re) (clock_correction rbeacon (D zero zero zero) GM).
