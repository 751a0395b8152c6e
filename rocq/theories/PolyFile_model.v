(* Model of parse_rinex_rfos and fit_relative_frequency_offset (the one with a polynomial), src/rinex/fit_rfo.cpp:11-200,
   on the bytes of the files: the reading (Rinex_model.v, RnxFile_model.v) in front of the equations (RfoFit_model.v).
   Doubles are exact rationals. *)
From Coq Require Import List ZArith QArith Ascii Bool.
From Verif Require Import Base CLib_model Stream_model SysInfo_model Rinex_model RnxHead_model RnxFile_model RfoFit_model.
Import ListNotations.
Local Open Scope nat_scope.

(* fit_rfo.cpp:48, 53, 57-60: what is used of a block *)
Definition block_of (applied : bool) (it : iter) : outcome block :=
  do t <- corrected_l1_epoch applied (h_epoch (it_hdr it)) (h_clock (it_hdr it));
  Ok (Blk t (h_epoch (it_hdr it)) (map (fun o => map rv (b_vals o)) (it_block it))).
(* the code and the polynomial (inner None: no finite solution), or the program is terminated *)
Inductive poly_end := PCode (code : Z) (fit : option (option Z * list Q)) | PTerminated.

Section Files.
Variable strptime : chars -> option Z.
(* as in RfoFile_model.v; [none] a default-constructed epoch *)
Variables (junk : chars) (errno : bool) (hdr0 : rhdr) (none : Z).

(* fit_rfo.cpp:45-48, 91-94: the blocks up to the first whose time is not before [fin], which is the last one read; the
   code that ended the loop (with such a block RfoFit_model.v does not look at it).  None: out of fuel
   (PolyFile_proofs.v: never) *)
Fixpoint range_blocks (fuel nobs : nat) (scales : list Z) (applied : bool) (fin : Z) (it : iter) : option (outcome (list block * Z * chars)) :=
  match fuel with
  | O => None
  | S f =>
      match it_next strptime nobs scales it with
      | UB => Some UB
      | Ok (c, it') =>
          if (c =? 0)%Z then
            match block_of applied it' with
            | UB => Some UB
            | Ok b =>
                if (fin <=? b_tl1 b)%Z then Some (Ok ([b], (-1)%Z, r_line (it_r it')))
                else
                  match range_blocks f nobs scales applied fin it' with
                  | None => None
                  | Some UB => Some UB
                  | Some (Ok (l, e, line)) => Some (Ok (b :: l, e, line))
                  end
            end
          else Some (Ok ([], c, r_line (it_r it')))
      end
  end.
(* fit_rfo.cpp:26-37 and the loop, with the static array of read_data_block before and after.  None (inside): the
   constructor throws in a function that is noexcept *)
Definition as_rinex (fin : Z) (line0 : chars) (file : option chars) : option (outcome (option rinex * chars)) :=
  match open_rinex Z strptime junk errno file with
  | None => None
  | Some UB => Some UB
  | Some (Ok (inl _)) => Some (Ok (None, line0))
  | Some (Ok (inr (h, _, s))) =>
      match range_blocks (S (S (List.length (s_rest s)))) (List.length (h_codes _ h)) (h_factors _ h) (h_applied _ h) fin (Iter hdr0 [] (RState s line0)) with
      | None => None
      | Some UB => Some UB
      | Some (Ok (l, e, line)) =>
          Some (Ok (Some (Rnx (get_observation_code_index (h_codes _ h) (ObsCode frequency_offset 0))
                              (match h_date _ h RefStatDate with Some t => t | None => none end) l e), line))
      end
  end.
Inductive parsed := Rows (tref : option Z) (rows : list row) | Failed | Ended.
(* fit_rfo.cpp:171-182 *)
Fixpoint parse_files (use_tai : bool) (every order cap : nat) (start fin : Z) (line0 : chars) (tref : option Z) (rows : list row) (files : list (option chars))
  : option (outcome parsed) :=
  match files with
  | [] => Some (Ok (Rows tref rows))
  | f :: files =>
      match as_rinex fin line0 f with
      | None => None
      | Some UB => Some UB
      | Some (Ok (None, _)) => Some (Ok Ended)
      | Some (Ok (Some x, line)) =>
          match parse_rinex_rfos none use_tai every order cap (x_f x) start fin tref rows (x_ref x) (x_term x) (x_blocks x) with
          | UB => Some UB
          | Ok (code, t, rows) => if (code =? 0)%Z then parse_files use_tai every order cap start fin line (Some t) rows files else Some (Ok Failed)
          end
      end
  end.
(* fit_rfo.cpp:131-200, as in RfoFit_model.v *)
Definition fit_poly_files (solve : list (list Q) -> list Q -> list Q) (use_tai : bool) (every order : nat) (start fin : Z) (num_days : Q)
  (line0 : chars) (files : list (option chars)) : option (outcome poly_end) :=
  match every with
  | O => Some UB
  | _ =>
      match parse_files use_tai every order (room every num_days) start fin line0 None [] files with
      | None => None
      | Some UB => Some UB
      | Some (Ok Failed) => Some (Ok (PCode 1 None))
      | Some (Ok Ended) => Some (Ok PTerminated)
      | Some (Ok (Rows tref rows)) =>
          match finite rows with
          | None => Some (Ok (PCode 0 None))
          | Some l => Some (Ok (PCode 0 (Some (tref, firstn (order + 1) (solve (normal_matrix (order + 1) l) (normal_rhs (order + 1) l))))))
          end
      end
  end.
End Files.
