(* The object that hands date, place and space weather to the atmosphere model, and the density the
   drag computation takes from it: /repo/src/atmosphere/nrlmsise00.hpp:311-341,
   nrlmsise00_params.cpp, /repo/src/variational_equations.cpp:139-143.
   Numbers read from the file and seconds are exact rationals, everything the atmosphere model
   computes with is real. *)
From Coq Require Import List ZArith QArith Qround Reals Qreals.
From Verif Require Import Base CLib_model SpaceWeather_model Msis_model MsisSwitch_model.
Import ListNotations.

Section Air.
(* the external calendar: the date of a line of the file, the day of the year of a date *)
Variable ymd_mjd : Z -> Z -> Z -> Z.
Variable doy_of : Z -> Z.

(* nrlmsise00.hpp:311-313.  The members of params_ other than the indices are in a_mem, the indices
   (whose places in a_mem are not used) in a_par *)
Record air := Air { a_mem : input; a_feed : feed; a_par : params }.
(* params_ as it is handed to the model *)
Definition core (a : air) : input :=
  let m := a_mem a in let p := a_par a in
  Input (sw m) (swc m) (doy m) (sec m) (alt m) (glat m) (glon m) (lst m)
    (Q2R (p_f107A p)) (Q2R (p_f107 p)) (Q2R (p_ap p)) (fun k => nth k (map Q2R (p_arr p)) 0%R) (meters m).

(* nrlmsise00_params.cpp:5-7, nrlmsise00.hpp:323-325: the cast to an integer number of milliseconds
   and the datetime made of it, which carries whole days over.  The product with 1e3 is exact. *)
Definition ms_of (secday : Q) : Z := if Qle_bool 0 secday then Qfloor (secday * 1000) else (- Qfloor (- (secday * 1000)))%Z.
Definition day_of (mjd : Z) (secday : Q) : Z := (mjd + ms_of secday / 86400000)%Z.
Definition sec_of (secday : Q) : Q := inject_Z (ms_of secday mod 86400000) / 1000.

(* nrlmsise00_params.cpp:8-11, nrlmsise00.hpp:326-329 *)
Definition with_date (m : input) (d : Z) (s : Q) : input :=
  Input (sw m) (swc m) (doy_of d) (Q2R s) (alt m) (glat m) (glon m) (lst m) (f107A m) (f107 m) (ap m) (aparr m) (meters m).

(* nrlmsise00.hpp:315-316: [mem] is what the memory holds before; None inside: the feed throws *)
Definition make_air (file : option chars) (junk junk2 : chars) (win : list flux) (mem : input) (mjd : Z) (secday : Q)
  : option (outcome (option air)) :=
  match constructed mem with
  | UB => Some UB
  | Ok m =>
      let day := day_of mjd secday in
      let s := sec_of secday in
      match construct ymd_mjd file junk junk2 win day s with
      | None => None
      | Some UB => Some UB
      | Some (Ok None) => Some (Ok None)
      | Some (Ok (Some (fd, p))) => Some (Ok (Some (Air (with_date m day s) fd p)))
      end
  end.

(* nrlmsise00.hpp:320-331; the feed turns year and day of the year back into the date *)
Definition update_params (file : option chars) (junk junk2 : chars) (fresh : flux) (a : air) (mjd : Z) (secday : Q)
  : option (outcome (Z * air)) :=
  let day := day_of mjd secday in
  let s := sec_of secday in
  match update ymd_mjd file junk junk2 fresh day s (a_feed a) (a_par a) with
  | None => None
  | Some UB => Some UB
  | Some (Ok (code, fd, p)) => Some (Ok (code, Air (with_date (a_mem a) day s) fd p))
  end.
End Air.

(* nrlmsise00.hpp:333-341: [lfh] is what car2ell gives: longitude and latitude in radians, height
   in meters *)
Definition set_spatial (lfh : R * R * R) (a : air) : air :=
  let '(l, f, h) := lfh in
  let m := a_mem a in
  Air (Input (sw m) (swc m) (doy m) (sec m) (h * (1 / 1000)) (f * 180 / PI) (l * 180 / PI) (lst m) (f107A m) (f107 m) (ap m) (aparr m) (meters m))
    (a_feed a) (a_par a).
(* /repo/test/rinex_pod.cpp:527-529: the settings of the orbit determination; nrlmsise00.hpp:218 *)
Definition pod_settings (a : air) : outcome air :=
  do m <- set_switches_on (a_mem a);
  do m <- use_aparray m;
  Ok (Air (Input (sw m) (swc m) (doy m) (sec m) (alt m) (glat m) (glon m) (lst m) (f107A m) (f107 m) (ap m) (aparr m) true) (a_feed a) (a_par a)).
(* /repo/src/variational_equations.cpp:141-142: the call of the model with the default mass 48;
   [o], [oc], [tz] is what its output objects hold before *)
Definition air_density (T : tables) (a : air) (o oc : output) (tz : R) : M output := gtd7d T (core a) 48 o oc tz.
