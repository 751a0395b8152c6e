(* Model of SatelliteState of test/rinex_pod.cpp:130-272 (the branch with attitude) and of the filter's
   time update of the same program.  double is R.  The integrator (Sgode_model), the Earth rotation
   (gcrs2itrs; the rate is the one yter2cel works with) and the attitude (get_at) are arguments.  The
   program is built with assertions: the calls inside assert() are made. *)
From Coq Require Import List Reals ZArith QArith Bool.
From Verif Require Import Base Vec_model Frames_model Ekf_model.
Import ListNotations.
Local Open Scope R_scope.

(* Eigen::Quaternion<double> *)
Record quat := Quat { qw : R; qv : vec }.
Definition conjugate (q : quat) : quat := Quat (qw q) (vscale (-1) (qv q)).
Definition squared_norm (q : quat) : R := qw q * qw q + dot (qv q) (qv q).
(* Eigen: nothing is done when the squared norm is not positive *)
Definition normalized (q : quat) : quat :=
  if Rlt_dec 0 (squared_norm q) then
    let s := / sqrt (squared_norm q) in Quat (s * qw q) (vscale s (qv q))
  else q.
(* Eigen: quaternion times vector *)
Definition turn (q : quat) (v : vec) : vec :=
  let uv := vscale 2 (cross (qv q) v) in vadd (vadd v (vscale (qw q) uv)) (cross (qv q) uv).

(* rinex_pod.cpp:132-141 *)
Record sat := Sat { sv_mjd : R; sv_state : state; sv_Phi : list (list R); sv_S : list (list R) }.
(* a function returns a code, leaving the satellite and the number of calls, or an assertion fails *)
Inductive result := Returns (code : Z) (s : sat) (calls : nat) | Aborts.

Section Satellite.
(* cog_sf and arp_sf: None is the null pointer *)
Variable antenna : option (vec * vec).
Variable attitude : R -> option quat.
Variable earth : R -> option (mat * R * R * mat).
(* SGOde::de: start (TAI MJD), seconds asked for, values; seconds reached and solution *)
Variable de : R -> R -> list R -> R * list R.

(* rinex_pod.cpp:154-161 *)
Definition eccentricity (q : quat) : vec :=
  match antenna with
  | Some (cog, arp) => turn (normalized (conjugate q)) (vsub cog arp)
  | None => vzero
  end.
(* a state at the head of a vector *)
Definition flat (y : state) : list R := [vx (st_r y); vy (st_r y); vz (st_r y); vx (st_v y); vy (st_v y); vz (st_v y)].
Definition head6 (l : list R) : outcome state :=
  match l with a :: b :: c :: d :: e :: f :: _ => Ok (State (V a b c) (V d e f)) | _ => UB end.
(* rinex_pod.cpp:171-172, 196-201: what follows the state, 36 + 6 numbers *)
Definition start_columns : list Z :=
  concat (map (fun col => map (fun row => if Nat.eqb (col - 1) row then 1%Z else 0%Z) (seq 0 6)) (seq 1 5)) ++ repeat 0%Z 12.
(* yPhi.block<6,1>(k, 0) *)
Definition block6 {A} (l : list A) (k : nat) : list A := firstn 6 (skipn k l).
(* rinex_pod.cpp:163-271; [calls] is the static counter *)
Definition integrate (calls : nat) (s : sat) (target : R) : outcome result :=
  match earth (sv_mjd s) with
  | None => Ok Aborts
  | Some (rc2i, era, omega, rpom) =>
  let y0 := yter2cel (sv_state s) rc2i era omega rpom in
  match (if Nat.eqb calls 0 then Some vzero else option_map eccentricity (attitude (sv_mjd s))) with
  | None => Ok Aborts
  | Some e0 =>
  let yPhi := flat (State (vadd (st_r y0) e0) (st_v y0)) ++ map IZR start_columns in
  let tout := (target - sv_mjd s) * 86400 in
  let (tsec, sol) := de (sv_mjd s) tout yPhi in
  let tout_mjd := sv_mjd s + tsec / 86400 in
  if Rlt_dec (1 / 1000000000000) (Rabs (tout_mjd - target)) then Ok (Returns 1 s calls)
  else
    match attitude tout_mjd with
    | None => Ok Aborts
    | Some q =>
    match earth tout_mjd with
    | None => Ok Aborts
    | Some (rc2i', era', omega', rpom') =>
        do y <- head6 sol;
        Ok (Returns 0 (Sat tout_mjd (ycel2ter (State (vsub (st_r y) (eccentricity q)) (st_v y)) rc2i' era' omega' rpom')
                         (map (fun i => block6 yPhi (6 * (i + 1))) (seq 0 6))
                         (map (fun i => block6 yPhi (6 * (i + 1) + 6 * 6)) (seq 0 1))) (S calls))
    end end
  end end.
(* rinex_pod.cpp:614-655: one epoch after the other; the codes *)
Fixpoint epochs (calls : nat) (s : sat) (targets : list R) : outcome result :=
  match targets with
  | [] => Ok (Returns 0 s calls)
  | t :: r =>
      do x <- integrate calls s t;
      match x with
      | Returns 0%Z s' c' => epochs c' s' r
      | o => Ok o
      end
  end.
End Satellite.

(* rinex_pod.cpp:688-689: PhiP of n parameters; the six columns of Phi are those of [start_columns]
   (they are assigned from the start values), rationals here *)
Definition PhiP : matn := fun i j =>
  if Nat.ltb i 6 && Nat.ltb j 6 then inject_Z (nth i (block6 start_columns (6 * j)) 0%Z) else ident i j.
(* rinex_pod.cpp:690-692 and 936-1002, 1036: the filter through one data block; [xk] is the state the
   integration ended with and the other estimates; observations as value, prediction, sigma, partials *)
Fixpoint updates {T} (n : nat) (e : ekf T) (obs : list (Q * Q * Q * vecn)) : option (ekf T) :=
  match obs with
  | [] => Some e
  | (z, g, sigma, H) :: r => match ekf_obs n e z g sigma H with Some e' => updates n e' r | None => None end
  end.
Definition block_update {T} (n : nat) (e : ekf T) (tk : T) (xk : vecn) (obs : list (Q * Q * Q * vecn)) : option (ekf T) :=
  updates n (ekf_time n e tk xk PhiP) obs.
