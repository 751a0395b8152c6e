(* Model of the bookkeeping of the orbit determination program test/rinex_pod.cpp: which
   observations of the beacons are used, which Doppler counts are formed, how beacons and arcs are
   numbered, and the running statistics of the residuals.  double is Q, times are nanoseconds.
   What is computed from the orbit for an observation - the elevation, and the zenith wet delay when
   the mapping functions are found - is part of the observation here. *)
From Coq Require Import List ZArith QArith Ascii Bool.
From Verif Require Import Base CLib_model SysInfo_model Rinex_model.
Import ListNotations.
Local Open Scope nat_scope.

(* one observation of a beacon in a data block: proper time of the block (rinex_pod.cpp:624), the
   beacon, the values, elevation in degrees (762-772), zenith wet delay or no troposphere (814-815) *)
Record sight := Sight { s_time : Z; s_id : chars; s_vals : list rvalue; s_el : Q; s_lwz : option Q }.
(* SatBeacon, rinex_pod.cpp:75-127, without the corrections and the range vector *)
Record track := Track { t_id : chars; t_count : nat; t_proper : Z; t_l1 : Q; t_arc : Z; t_reinit : bool }.
(* what an observation leads to: skipped for its flags, its elevation, its troposphere; the first of
   a beacon, with the wet delay put into the filter; a fresh start, with the wet delay if the arc is
   new; a Doppler count with the beacon's number in the filter, the arc, the cycles and the time *)
Inductive event :=
| Flagged | Low | NoTropo
| First (n : nat) (lwz : Q)
| Again (n : nat) (lwz : option Q)
| Doppler (n : nat) (arc : Z) (cycles : Q) (dt : Z).
(* an assertion fails, or main returns a code, or the loop goes on *)
Inductive verdict := Goes (ts : list track) (n : nat) (e : event) | Assert | Code (c : Z).

(* rinex_pod.cpp:1065-1096: the code and l1, l2, f, w1, w2; the constructors of the codes do not throw *)
Definition get_rinex_indexes (codes : list obs_code) : Z * (Z * Z * Z * Z * Z) :=
  let l1 := get_observation_code_index codes (ObsCode phase 1) in
  let l2 := get_observation_code_index codes (ObsCode phase 2) in
  let f := get_observation_code_index codes (ObsCode frequency_offset 0) in
  let w1 := get_observation_code_index codes (ObsCode power_level 1) in
  let w2 := get_observation_code_index codes (ObsCode power_level 2) in
  ((if (f <? 0) || (l1 <? 0) || (l2 <? 0) || (w1 <? 0) || (w2 <? 0) then 1 else 0)%Z, (l1, l2, f, w1, w2)).

(* rinex_pod.cpp:30: 5 * 60L seconds, in nanoseconds *)
Definition max_for_new_arc : Z := (5 * 60 * 1000000000)%Z.

Section Loop.
Variables (sts : list station) (l1i l2i w1i w2i : nat) (cutoff : Q).

(* rinex_pod.cpp:712-723 *)
Definition bad_flags (vals : list rvalue) : outcome bool :=
  do l1 <- load vals l1i;
  if Ascii.eqb (rv_f1 l1) "1" then Ok true else
  if Ascii.eqb (rv_f2 l1) "1" then Ok true else
  do l2 <- load vals l2i;
  if Ascii.eqb (rv_f1 l2) "1" then Ok true else
  if Ascii.eqb (rv_f2 l2) "1" then Ok true else
  do w1 <- load vals w1i;
  if Ascii.eqb (rv_f1 w1) "1" then Ok true else
  do w2 <- load vals w2i;
  Ok (Ascii.eqb (rv_f1 w2) "1").
(* rinex_pod.cpp:727-732, 781-786: std::find_if over the tracks, as a position *)
Fixpoint find_track (id : chars) (ts : list track) (i : nat) : outcome (option nat) :=
  match ts with
  | [] => Ok None
  | t :: r => do e <- same3 (t_id t) id; if e then Ok (Some i) else find_track id r (S i)
  end.
(* rinex_pod.cpp:702-1033, one turn of the loop over the observations of a block; [k] is the
   indeterminate value of the shift factor.  The residual does not influence the bookkeeping. *)
Definition observe (k : Z) (ts : list track) (n : nat) (s : sight) : outcome verdict :=
  do st <- beacon_internal_id2BeaconStation sts (s_id s);
  match st with
  | None => Ok Assert
  | Some _ =>
  do bad <- bad_flags (s_vals s);
  if bad then
    do pos <- find_track (s_id s) ts 0;
    match pos with
    | None => Ok (Goes ts n Flagged)
    | Some i =>
        do t <- load ts i;
        do ts' <- store ts i (Track (t_id t) (t_count t) (t_proper t) (t_l1 t) (t_arc t) true);
        Ok (Goes ts' n Flagged)
    end
  else if negb (Qle_bool cutoff (s_el s)) then Ok (Goes ts n Low)
  else
    do pos <- find_track (s_id s) ts 0;
    do shift <- beacon_shift_factor sts (s_id s) k;
    if negb (fst shift =? 0)%Z then Ok (Code 1) else
    do l1 <- load (s_vals s) l1i;
    do l2 <- load (s_vals s) l2i;
    match s_lwz s with
    | None => Ok (Goes ts n NoTropo)
    | Some lwz =>
        match pos with
        | None =>
            do a <- load (s_id s) 0; do b <- load (s_id s) 1; do c <- load (s_id s) 2;
            Ok (Goes (ts ++ [Track [a; b; c] n (s_time s) (rv l1) 0 false]) (S n) (First n lwz))
        | Some i =>
            do t <- load ts i;
            let start_new_arc := (max_for_new_arc <? s_time s - t_proper t)%Z in
            if t_reinit t || start_new_arc then
              do ts' <- store ts i (Track (t_id t) (t_count t) (s_time s) (rv l1)
                                      (if start_new_arc then (t_arc t + 1)%Z else t_arc t) false);
              Ok (Goes ts' n (Again (t_count t) (if start_new_arc then Some lwz else None)))
            else
              do ts' <- store ts i (Track (t_id t) (t_count t) (s_time s) (rv l1) (t_arc t) (t_reinit t));
              Ok (Goes ts' n (Doppler (t_count t) (t_arc t) (rv l1 - t_l1 t)%Q (s_time s - t_proper t)))
        end
    end
  end.

(* how the loops end *)
Inductive ending := Finished (ts : list track) (n : nat) | Asserted | Returned (c : Z).
(* rinex_pod.cpp:614-1060: the observations of all blocks in order *)
Fixpoint run (k : Z) (ts : list track) (n : nat) (l : list sight) : outcome (list event * ending) :=
  match l with
  | [] => Ok ([], Finished ts n)
  | s :: r =>
      do v <- observe k ts n s;
      match v with
      | Assert => Ok ([], Asserted)
      | Code c => Ok ([], Returned c)
      | Goes ts' n' e => do p <- run k ts' n' r; Ok (e :: fst p, snd p)
      end
  end.
End Loop.

(* ---- RunningStatistics, rinex_pod.cpp:49-63 ---- *)
Record stats := Stats { r_mean : Q; r_var : Q; r_k : positive }.
(* :50-51 *)
Definition stats0 : stats := Stats 0 0 1.
(* :53-58 *)
Definition stats_update (r : stats) (x : Q) : stats :=
  let new_mean := (r_mean r + (x - r_mean r) / inject_Z (Zpos (r_k r)))%Q in
  Stats new_mean (r_var r + (x - r_mean r) * (x - new_mean))%Q (Pos.succ (r_k r)).
(* :60 *)
Definition stats_count (r : stats) : nat := Pos.to_nat (r_k r) - 1.
(* :62; None: zero divided by zero *)
Definition stats_variance (r : stats) : option Q :=
  match stats_count r with
  | O => None
  | m => Some (r_var r / inject_Z (Z.of_nat m))%Q
  end.
(* rinex_pod.cpp:936-941: the residual [oc] at elevation with sine [sn] > 0 is used; the comparison
   of |oc| with 30 * sqrt(variance) / sn is made between the squares *)
Definition accepted (r : stats) (sn oc : Q) : bool :=
  if Nat.ltb 5 (stats_count r) then
    match stats_variance r with
    | None => false
    | Some v => negb (Qle_bool (30 * 30 * v) (oc * sn * (oc * sn)))%Q
    end
  else negb (Qle_bool (1000 * 1000) (oc * oc))%Q.
(* rinex_pod.cpp:941-943, 1012: the statistics after a residual *)
Definition residual (r : stats) (p : Q * Q) : stats * bool :=
  if accepted r (fst p) (snd p) then (stats_update r (snd p), true) else (r, false).
Fixpoint residuals (r : stats) (l : list (Q * Q)) : stats * list bool :=
  match l with
  | [] => (r, [])
  | p :: q => let (r', b) := residual r p in let (r'', bs) := residuals r' q in (r'', b :: bs)
  end.
