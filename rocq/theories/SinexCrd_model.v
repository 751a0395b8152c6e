(* Model of src/ids/get_pdop_crd.cpp.  Doubles are exact rationals, dates their MJD.  The SINEX
   reader is external: what its two block functions deliver appears as an argument, None being an
   error code. *)
From Coq Require Import List ZArith QArith Ascii Bool.
From Verif Require Import Base CLib_model.
Import ListNotations.
Local Open Scope Z_scope.

(* the members of dso::sinex::SolutionEstimate that are used *)
Record estimate := Est { s_site : chars; s_type : chars; s_units : chars; s_epoch : Q; s_value : Q }.
(* doris_utils.hpp: BeaconCoordinates *)
Record crd := Crd { c_id : chars; c_x : Q; c_y : Q; c_z : Q }.

Fixpoint same_chars (a b : chars) : bool :=
  match a, b with
  | [], [] => true
  | x :: a', y :: b' => Ascii.eqb x y && same_chars a' b'
  | _, _ => false
  end.
(* !strncmp(a, b, n) *)
Definition same_n (n : nat) (a b : chars) : bool := same_chars (firstn n (cstr a)) (firstn n (cstr b)).
Definition STAX : chars := ["S"; "T"; "A"; "X"]%char.
Definition STAY : chars := ["S"; "T"; "A"; "Y"]%char.
Definition STAZ : chars := ["S"; "T"; "A"; "Z"]%char.
(* get_pdop_crd.cpp:13-14 *)
Definition vel_of (sta : chars) : chars := ["V"; "E"; "L"; nth 3 sta nul]%char.

(* get_pdop_crd.cpp:15-27: find_if *)
Definition find_est (siteid par : chars) (l : list estimate) : option estimate :=
  find (fun e => same_n 4 (s_site e) siteid && same_n 4 (s_type e) par) l.
(* get_pdop_crd.cpp:11-54, one component.  The messages of the two error paths print the array
   [vel] of four characters without terminator with %s, a read past its end *)
Definition component (siteid sta : chars) (l : list estimate) (t : Q) : outcome Q :=
  match find_est siteid sta l, find_est siteid (vel_of sta) l with
  | Some p, Some v =>
      if same_n 2 (s_units p) ["m"; " "]%char && same_n 3 (s_units v) ["m"; "/"; "y"]%char then
        let dt := ((t - s_epoch p) / (36525 # 100))%Q in
        Ok (s_value p + s_value v * dt)%Q
      else UB
  | _, _ => UB
  end.
(* get_pdop_crd.cpp:6-56: pos.  The error return is only reached after the undefined print *)
Definition extrapolate_coordinates (siteid : chars) (l : list estimate) (t : Q) : outcome (Q * Q * Q) :=
  do x <- component siteid STAX l t;
  do y <- component siteid STAY l t;
  do z <- component siteid STAZ l t;
  Ok (x, y, z).

(* get_pdop_crd.cpp:123-135: the indexes of stations without a site, as a list of flags *)
Definition missing (ids sites : list chars) : list bool :=
  map (fun sid => negb (existsb (fun rid => same_n 4 sid rid) sites)) ids.
(* get_pdop_crd.cpp:155-180 *)
Fixpoint collect (l : list estimate) (t : Q) (ids : list chars) (miss : list bool) : outcome (list crd) :=
  match ids, miss with
  | sid :: ids', m :: miss' =>
      if m : bool then collect l t ids' miss'
      else
        match extrapolate_coordinates sid l t with
        | Ok (x, y, z) => do rest <- collect l t ids' miss'; Ok (Crd (firstn 4 sid) x y z :: rest)
        | UB => UB
        end
  | _, _ => Ok []
  end.
(* get_pdop_crd.cpp:98-183: the code returned and the result_size first elements of the result *)
Definition extrapolate_core (sites : option (list chars)) (ests : option (list estimate)) (ids : list chars) (t : Q) (missing_site_is_error : bool) : outcome (Z * list crd) :=
  match sites with
  | None => Ok (1, [])
  | Some site_vec =>
      let complete := Nat.eqb (length site_vec) (length ids) in
      if negb complete && missing_site_is_error then Ok (2, [])
      else
        let miss := if complete then map (fun _ => false) ids else missing ids site_vec in
        match ests with
        | None => Ok (1, [])
        | Some est_vec =>
            if Nat.ltb (length est_vec) (length ids * 6) then Ok (1, [])
            else do r <- collect est_vec t ids miss; Ok (0, r)
        end
  end.
(* get_pdop_crd.cpp:58-96: m_station_id of each beacon, at most four characters, into five zeroed bytes *)
Definition site_buffer (id : chars) : chars := let s := firstn 4 (cstr id) in s ++ repeat nul (5 - length s).
Definition extrapolate_beacons (sites : option (list chars)) (ests : option (list estimate)) (beacons : list chars) (t : Q) (missing_site_is_error : bool) : outcome (Z * list crd) :=
  extrapolate_core sites ests (map site_buffer beacons) t missing_site_is_error.
