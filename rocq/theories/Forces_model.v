(* Model of src/astrodynamics/drag.cpp, src/astrodynamics/solar_radiation.cpp,
   src/gravity/point_mass_acceleration.cpp and src/sunmoon.cpp.  Doubles are real numbers.
   The constants iers2010::OmegaEarth and iers2010::AU are external and appear as arguments. *)
From Coq Require Import Reals.
From Verif Require Import Vec_model.
Local Open Scope R_scope.

(* Eigen's normalized(): a vector of length zero is returned as it is *)
Definition normalized (a : vec) : vec := if Rlt_dec 0 (dot a a) then vscale (/ norm a) a else a.

(* drag.cpp:26-27, 50-51, 74-75 *)
Definition earth_spin (omega0 : R) : vec := V 0 0 omega0.
(* drag.cpp:19-42.  vrel is kept by reference to temporaries in the C++ text; here it is evaluated. *)
Definition drag_accel_tod (omega0 : R) (rsat vsat : vec) (rbpn : mat) (Area CD Mass atmdens : R) : vec :=
  let rtod := mulv rbpn rsat in
  let vtod := mulv rbpn vsat in
  let vrel := vsub vtod (cross (earth_spin omega0) rtod) in
  let vabs := norm vrel in
  mulv (transpose rbpn) (vscale (- (1 / 2) * CD * (Area / Mass) * atmdens * vabs) vrel).
(* drag.cpp:44-62 *)
Definition drag_accel (omega0 : R) (rsat vsat : vec) (Area CD Mass atmdens : R) : vec :=
  let vrel := vsub vsat (cross (earth_spin omega0) rsat) in
  vscale (- (1 / 2) * CD * (Area / Mass) * atmdens * dot vrel vrel) (normalized vrel).
Record drag_result := Drag { dr_acc : vec; daccdr : mat; daccdv : mat; daccdC : vec }.
(* drag.cpp:64-103; the nine numbers of XOmega are read column by column *)
Definition drag_accel_partials (omega0 : R) (rsat vsat : vec) (Area CD Mass atmdens : R) (datmdensdr : vec) : drag_result :=
  let vrel := vsub vsat (cross (earth_spin omega0) rsat) in
  let acc := vscale (- (1 / 2) * CD * (Area / Mass) * atmdens * dot vrel vrel) (normalized vrel) in
  let dC := vscale (- (1 / 2) * (Area / Mass) * atmdens * norm vrel) vrel in
  let dv := mscale (- (1 / 2) * CD * (Area / Mass) * atmdens)
              (madd (mscale (norm vrel) identity) (mscale (/ norm vrel) (outer vrel vrel))) in
  let XOmega := transpose (mat9 0 omega0 0 (- omega0) 0 0 0 0 0) in
  let dr := msub (outer (vscale (- (1 / 2) * CD * (Area / Mass) * norm vrel) vrel) datmdensdr) (mulm dv XOmega) in
  Drag acc dr dv dC.

(* solar_radiation.cpp:13-14, 34-35 *)
Definition P0 : R := 456316 / 100000 / 1000000.
(* solar_radiation.cpp:3-18 *)
Definition srp_accel (AU : R) (rsat rsun : vec) (Area mass C : R) : vec :=
  let d := vsub rsat rsun in
  let D := norm d in
  let D3 := D * D * D in
  vscale (/ D3) (vscale (C * (Area / mass) * P0 * (AU * AU)) d).
Record srp_result := Srp { srp_acc : vec; dadr : mat; dadC : vec }.
(* solar_radiation.cpp:20-48 *)
Definition srp_accel_partials (AU : R) (rsat rsun : vec) (Area mass C : R) : srp_result :=
  let d := vsub rsat rsun in
  let D := norm d in
  let D3 := D * D * D in
  let dr := mscale (P0 * C * (Area / mass) * (AU * AU))
              (msub (mscale (/ D3) identity) (mscale (/ (D3 * D * D)) (mscale 3 (outer d d)))) in
  let acceleration := vscale (/ D3) (vscale (C * (Area / mass) * P0 * (AU * AU)) d) in
  Srp acceleration dr (vscale (/ C) acceleration).

(* point_mass_acceleration.cpp:3-19 *)
Definition point_mass_accel (GM : R) (rsat robj : vec) : vec :=
  let d := vsub rsat robj in
  let dn := norm d in
  let dn2 := dot d d in
  let sn := norm robj in
  let sn2 := dot robj robj in
  vscale (- GM) (vadd (vscale (/ (dn * dn2)) d) (vscale (/ (sn * sn2)) robj)).
(* point_mass_acceleration.cpp:21-44: acceleration and partials *)
Definition point_mass_partials (GM : R) (rsat robj : vec) : vec * mat :=
  let d := vsub rsat robj in
  let dn := norm d in
  let dn2 := dot d d in
  let sn := norm robj in
  let sn2 := dot robj robj in
  let sn5 := sn2 * sn2 * sn in
  (vscale (- GM) (vadd (vscale (/ (dn * dn2)) d) (vscale (/ (sn * sn2)) robj)),
   mscale (- GM) (madd (mscale (/ (dn * dn2)) identity) (mscale (/ sn5) (mscale 3 (outer d d))))).

(* sunmoon.cpp:5-42 after the dates: rSun and rMon are the positions given by the CSPICE
   routine for the epoch, in kilometres *)
Record sun_moon := SM { sun_acc : vec; moon_acc : vec; sun_pos : vec; mon_partials : mat }.
Definition SunMoon (rSun rMon rsat : vec) (GMSun GMMoon : R) : sun_moon :=
  let (ma, mp) := point_mass_partials (GMMoon * 10 ^ 9) rsat (vscale (10 ^ 3) rMon) in
  SM (vscale (/ 10 ^ 3) (point_mass_accel GMSun (vscale (/ 10 ^ 3) rsat) rSun)) ma (vscale (10 ^ 3) rSun) mp.
(* sunmoon.cpp:13-20: the TT Julian date of a TAI modified Julian date; modf only splits the
   number in two parts that are added again *)
Definition sunmoon_jd (mjd0_jd mjd_tai : R) : R := mjd_tai + 32184 / 1000 / 86400 + mjd0_jd.
