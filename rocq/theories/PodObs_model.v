(* Model of the observation equation of test/rinex_pod.cpp:763-984 and of the functions it calls
   (get_tropo_vmf, get_tropo, relativity_corrections, beacon_coordinates, beacon_arp2ion,
   prepare_beacon_coordinates).  double is R.  The topocentric matrix of the beacon (external,
   dso::topocentric_matrix of dso::car2ell), the mapping function (external, dso::vmf3), the
   meteorological record and the speed of light are arguments. *)
From Coq Require Import List Reals ZArith Bool Ascii.
From Verif Require Import Base Vec_model Frames_model Relativity_model Filter_model.
Import ListNotations.
Local Open Scope R_scope.

(* rinex_pod.cpp:65-69 *)
Record tropo := Tropo { t_Lhz : R; t_mfh : R; t_Lwz : R; t_mfw : R }.
Definition tropo_sum (d : tropo) (Lwz : R) : R := t_Lhz d * t_mfh d + Lwz * t_mfw d.

(* an observation with what is computed for it, and what SatBeacon keeps of it (rinex_pod.cpp:75-84,
   111-122): cycles, proper time in seconds, ionospheric correction in cycles, relativity, troposphere,
   vector from the beacon in the topocentric frame *)
Record epoch := Epoch { o_L1 : R; o_t : R; o_iono : R; o_rel : R; o_trop : tropo; o_s : vec }.

Section Obs.
Variable c : R.                 (* iers2010::C *)
Variable m : clock_model.       (* RANDOM_RFO is CNone *)
Variable Np : nat.              (* drag parameters *)
Variable rcv : nat.             (* number of the beacon in the filter *)
Variable deltat : R.            (* Filter.deltat(tl1): seconds from the reference epoch *)
Variable Rt : mat.              (* topocentric matrix of the beacon *)
Variable bxyz : vec.            (* beacon, ionosphere free phase centre *)
Variables feN frT : R.

(* rinex_pod.cpp:763-765: car2top *)
Definition topocentric (r : vec) : vec := mulv Rt (vsub r bxyz).
(* rinex_pod.cpp:916, 918: Filter.rfoff_estimate *)
Definition rfoff_estimate (x : nat -> R) : R :=
  match m with
  | CNone => x (rfoff_index Np m rcv)
  | CLinear => x (rfoff_index Np m rcv) + deltat * x (rfoff_index Np m rcv + 1)%nat
  end.
(* rinex_pod.cpp:883-886 *)
Definition NdopDt (p o : epoch) : R := (o_L1 o - o_L1 p) / (o_t o - o_t p).
(* rinex_pod.cpp:896-898 *)
Definition Dion (p o : epoch) : R := c / feN * (o_iono o - o_iono p) / (o_t o - o_t p).
(* rinex_pod.cpp:903-906 *)
Definition Dtropo (p o : epoch) (x : nat -> R) : R :=
  let cWzd := x (tropo_index Np m rcv) in
  (tropo_sum (o_trop o) cWzd - tropo_sum (o_trop p) cWzd) / (o_t o - o_t p).
(* rinex_pod.cpp:910-911 *)
Definition Drel (p o : epoch) : R := (o_rel o - o_rel p) / (o_t o - o_t p).
(* rinex_pod.cpp:929-930 *)
Definition Uobs (p o : epoch) : R := c / feN * (feN - frT - NdopDt p o) + Dion p o + Drel p o.
(* rinex_pod.cpp:932-934 *)
Definition Utheo (p o : epoch) (x : nat -> R) : R :=
  1 / (o_t o - o_t p) * (norm (o_s o) - norm (o_s p)) + Dtropo p o x -
  c / feN * (NdopDt p o + frT) * rfoff_estimate x.
(* rinex_pod.cpp:936 *)
Definition residual (p o : epoch) (x : nat -> R) : R := Uobs p o + Utheo p o x.

(* dHdX(i) = v *)
Definition set (i : nat) (v : R) (h : nat -> R) : nat -> R := fun j => if Nat.eqb j i then v else h j.
(* rinex_pod.cpp:951-978, in the order of the assignments *)
Definition partials (p o : epoch) : nat -> R :=
  let Dtau := o_t o - o_t p in
  let g := vscale (1 / Dtau) (mulv (transpose Rt) (vsub (vscale (/ norm (o_s o)) (o_s o)) (vscale (/ norm (o_s p)) (o_s p)))) in
  let h := set 2 (vz g) (set 1 (vy g) (set 0 (vx g) (fun _ => 0))) in
  let h := set drag_coef_index 1 h in
  let i := rfoff_index Np m rcv in
  let h := match m with
           | CNone => set i (c / feN * (NdopDt p o + frT)) h
           | CLinear => set (i + 1) (- (deltat * (c / feN) * (NdopDt p o + frT))) (set i (- (c / feN) * (NdopDt p o + frT)) h)
           end in
  let h := set (tropo_index Np m rcv) ((t_mfw (o_trop o) - t_mfw (o_trop p)) / Dtau) h in
  fun j => - h j.
(* rinex_pod.cpp:983-984: what the filter is told: observation, prediction, sigma, partials; None: the
   division by zero *)
Definition measurement (p o : epoch) (x : nat -> R) (sigma el : R) : option (R * R * R * (nat -> R)) :=
  if Req_EM_T (o_t o - o_t p) 0 then None
  else if Req_EM_T (cos el) 0 then None
  else Some (Uobs p o, - Utheo p o x, sigma / cos el, partials p o).
End Obs.

(* rinex_pod.cpp:1110-1132 *)
Definition relativity_corrections (c latitude : R) (sv : state) (rbeacon : vec) (Re GM J2 : R) : R * R :=
  (clock_correction_J2 c latitude (st_r sv) (st_v sv) GM J2 Re - clock_correction c rbeacon vzero GM, 0).

(* the meteorological record of a site *)
Record meteo := Meteo { me_ah : R; me_aw : R; me_zhd : R; me_zwd : R }.
(* a call delivers a code and, with 0, a value; or an assertion fails *)
Inductive answer (A : Type) := Answer (code : Z) (v : option A) | Failed.
Arguments Answer {A}. Arguments Failed {A}.
Section Delay.
(* dso::vmf3: coefficients, latitude, longitude, zenith distance *)
Variable vmf3 : R -> R -> R -> R -> R -> option (R * R).
Variable deg2rad : R -> R.
(* rinex_pod.cpp:1250-1290; [feed] is what the interpolation for the site delivers *)
Definition get_tropo_vmf (feed : option meteo) (lat lon zd : R) : answer tropo :=
  if Rle_dec 0 zd then
    if Rle_dec zd (PI / 2) then
      match feed with
      | None => Answer 1 None
      | Some w =>
          match vmf3 (me_ah w) (me_aw w) lat lon (deg2rad zd) with
          | None => Answer 1 None
          | Some (mfh, mfw) => Answer 0 (Some (Tropo (me_zhd w) mfh (me_zwd w) mfw))
          end
      end
    else Failed
  else Failed.
(* dso::vmf3_ht: with the height; dso::saasthyd and dso::asknewet *)
Variable vmf3_ht : R -> R -> R -> R -> R -> R -> option (R * R).
Variable saasthyd : R -> R -> R -> R.
Variable asknewet : R -> R -> R -> R.
Record gpt3 := Gpt3 { g_ah : R; g_aw : R; g_p : R; g_e : R; g_Tm : R; g_la : R }.
(* rinex_pod.cpp:1197-1248; [grid] is what dso::gpt3_fast delivers for the site *)
Definition get_tropo (grid : option gpt3) (lon lat h zd : R) : answer tropo :=
  if Rle_dec 0 zd then
    if Rle_dec zd (PI / 2) then
      match grid with
      | None => Answer 20 None
      | Some g =>
          match vmf3_ht (g_ah g) (g_aw g) lat lon h zd with
          | None => Answer 30 None
          | Some (mfh, mfw) => Answer 0 (Some (Tropo (saasthyd (g_p g) lat h) mfh (asknewet (g_e g) (g_Tm g) (g_la g)) mfw))
          end
      end
    else Failed
  else Failed.
End Delay.

(* beacons: the first four characters of the name; coordinates *)
Definition name := (ascii * ascii * ascii * ascii)%type.
Definition name_eqb (a b : name) : bool :=
  match a, b with (a0, a1, a2, a3), (b0, b1, b2, b3) => (Ascii.eqb a0 b0 && Ascii.eqb a1 b1 && Ascii.eqb a2 b2 && Ascii.eqb a3 b3)%bool end.
Record site := Site { b_id : name; b_xyz : vec }.
Section Beacons.
(* topocentric matrix at a place *)
Variable topo : vec -> mat.
(* rinex_pod.cpp:1099-1108; None: the assertion (strncmp stops at a null; names have none) *)
Definition beacon_coordinates (id : name) (v : list site) : option vec := option_map b_xyz (find (fun b => name_eqb (b_id b) id) v).
(* rinex_pod.cpp:1137-1145 *)
Definition beacon_arp2ion (arp pc : vec) : vec := vadd arp (mulv (transpose (topo arp)) pc).
(* rinex_pod.cpp:1156-1192: code and vector; [tbl]: names and heights *)
Fixpoint prepare_beacon_coordinates (v : list site) (tbl : list (name * R)) : Z * list site :=
  match v with
  | [] => (0%Z, [])
  | b :: r =>
      match find (fun e => name_eqb (b_id b) (fst e)) tbl with
      | None => (1%Z, b :: r)
      | Some (_, h) =>
          let (code, r') := prepare_beacon_coordinates r tbl in
          (code, Site (b_id b) (vadd (b_xyz b) (mulv (transpose (topo (b_xyz b))) (V 0 0 h))) :: r')
      end
  end.
End Beacons.
