(* Model of get_starting_rfo, get_rinex_rfo and fit_relative_frequency_offset, src/doris/fit_rfo.cpp:87-280, on the
   bytes of the files: the reading (BlockRead_model.v) in front of the filter (Kalman2_model.v).  The values of F are
   rationals, the filter is over the reals. *)
From Coq Require Import List Reals ZArith QArith Qreals Ascii Bool.
From Verif Require Import Base CLib_model Stream_model SysInfo_model Rinex_model RnxHead_model RnxFile_model Kalman2_model RfoKalman_model BlockRead_model.
Import ListNotations.
Local Open Scope nat_scope.

(* fit_rfo.cpp:97-109, 150-162: the first code of type F *)
Fixpoint find_f (codes : list obs_code) : option nat :=
  match codes with
  | [] => None
  | c :: r => if type_eqb (oc_type c) frequency_offset then Some 0 else option_map S (find_f r)
  end.
(* the numbers of the beacons of a block *)
Definition numbers (obs : list beacon_obs) : list (list Q) := map (fun o => map rv (b_vals o)) obs.

Section Files.
Variable strptime : chars -> option Z.
(* [junk] the uninitialised bytes of the header's arrays, [errno] whether errno is set when a header is read, [hdr0]
   the members of a fresh RinexDataRecordHeader: taken to be the same for all files *)
Variables (junk : chars) (errno : bool) (hdr0 : rhdr).

(* fit_rfo.cpp:87-137 with the static array of read_data_block before ([line0]) and after.  getline is not looked at *)
Definition starting_rfo (line0 : chars) (file : option chars) : option (outcome (done (option (Q * Z)) * chars)) :=
  match open_rinex Z strptime junk errno file with
  | None => None
  | Some UB => Some UB
  | Some (Ok (inl _)) => Some (Ok (Terminated, line0))
  | Some (Ok (inr (h, _, s))) =>
      match find_f (h_codes _ h) with
      | None => Some (Ok (Done 1%Z None, line0))
      | Some i =>
          Some (do a <- read_block strptime (List.length (h_codes _ h)) (h_factors _ h) (fetch (Reader [] hdr0 (RState s line0)));
                let (g, y) := a in
                match g with
                | GotBlock t obs => do v <- first_value (numbers obs) i; Ok (Done 0%Z (Some (v, t)), r_line (rd_state y))
                | _ => Ok (Done 1%Z None, r_line (rd_state y))
                end)
      end
  end.

(* fit_rfo.cpp:164-214: code, filter, state.  None: out of fuel (RfoFile_proofs.v: never) *)
Fixpoint rfo_loop (fuel nobs : nat) (scales : list Z) (i : nat) (k : lk) (x : reader) : option (outcome (Z * lk * reader)) :=
  match fuel with
  | O => None
  | S f =>
      match next_attempt strptime nobs scales x with
      | UB => Some UB
      | Ok (Ended eof, y) => Some (Ok ((if eof then 0 else 1)%Z, k, y))
      | Ok (GotBlock t obs, y) =>
          match (do v <- first_value (numbers obs) i; do same <- all_equal i v (numbers obs); Ok (v, same)) with
          | UB => Some UB
          | Ok (v, true) => rfo_loop f nobs scales i (lk_update k (Q2R v) t) y
          | Ok (_, false) => Some (Ok (1%Z, k, y))
          end
      | Ok (_, y) => Some (Ok (1%Z, k, y))
      end
  end.
(* fit_rfo.cpp:139-214 *)
Definition rinex_rfo (line0 : chars) (k : lk) (file : option chars) : option (outcome (done lk * chars)) :=
  match open_rinex Z strptime junk errno file with
  | None => None
  | Some UB => Some UB
  | Some (Ok (inl _)) => Some (Ok (Raised, line0))
  | Some (Ok (inr (h, _, s))) =>
      match find_f (h_codes _ h) with
      | None => Some (Ok (Done 1%Z k, line0))
      | Some i =>
          match rfo_loop (S (S (List.length (s_rest s)))) (List.length (h_codes _ h)) (h_factors _ h) i k (Reader [] hdr0 (RState s line0)) with
          | None => None
          | Some UB => Some UB
          | Some (Ok (c, k', y)) => Some (Ok (Done c k', r_line (rd_state y)))
          end
      end
  end.
(* fit_rfo.cpp:248-267 *)
Fixpoint every_file (line0 : chars) (k : lk) (files : list (option chars)) : option (outcome (done lk)) :=
  match files with
  | [] => Some (Ok (Done 0%Z k))
  | f :: r =>
      match rinex_rfo line0 k f with
      | None => None
      | Some UB => Some UB
      | Some (Ok (Done c k', line)) => if Z.eqb c 0 then every_file line k' r else Some (Ok (Done c k'))
      | Some (Ok (Raised, _)) => Some (Ok (Done 1%Z k))
      | Some (Ok (Terminated, _)) => Some (Ok Terminated)
      end
  end.
(* fit_rfo.cpp:216-281: the code; with 0 the filter whose coefficients are printed *)
Definition fit_files (line0 : chars) (files : list (option chars)) (sigma_x sigma_vx sigma_z : R) : option (outcome (done (option lk))) :=
  match files with
  | [] => Some UB
  | f0 :: _ =>
      match starting_rfo line0 f0 with
      | None => None
      | Some UB => Some UB
      | Some (Ok (Done c (Some (v, t)), line)) =>
          if negb (Z.eqb c 0) then Some (Ok (Done 1%Z None))
          else
            match every_file line (lk_init (Q2R v) 3 sigma_x sigma_vx sigma_z t) files with
            | None => None
            | Some UB => Some UB
            | Some (Ok (Done c k)) => Some (Ok (Done c (if Z.eqb c 0 then Some k else None)))
            | Some (Ok Raised) => Some (Ok Raised)
            | Some (Ok Terminated) => Some (Ok Terminated)
            end
      | Some (Ok (Done _ None, _)) | Some (Ok (Raised, _)) => Some (Ok (Done 1%Z None))
      | Some (Ok (Terminated, _)) => Some (Ok Terminated)
      end
  end.
End Files.
