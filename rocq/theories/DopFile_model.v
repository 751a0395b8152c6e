(* Model of DorisObsRinex::get_doppler_counts, src/doris/extract_doppler_count.cpp:65-160, on the bytes of a file:
   the reading (BlockRead_model.v) in front of the counting (Doppler_model.v).  Nothing the counting does changes
   what is read, so all is read first. *)
From Coq Require Import List ZArith QArith Ascii Bool.
From Verif Require Import Base CLib_model Stream_model SysInfo_model Rinex_model RnxHead_model RnxFile_model Doppler_model BlockRead_model.
Import ListNotations.
Local Open Scope nat_scope.

(* doris_rinex.hpp:69-88.  An identifier that was never written is copied and compared: UB *)
Definition to_bobs (o : beacon_obs) : outcome bobs := do id <- of_option (b_id o); Ok (BObs id (map rv (b_vals o))).
Fixpoint all_bobs (l : list beacon_obs) : outcome (list bobs) :=
  match l with
  | [] => Ok []
  | o :: r => do b <- to_bobs o; do bs <- all_bobs r; Ok (b :: bs)
  end.

Section File.
Variable strptime : chars -> option Z.
(* extract_doppler_count.cpp:96-115, 120-135: what is read, up to the first failure.  None: out of fuel
   (DopFile_proofs.v: never) *)
Fixpoint all_reads (fuel : nat) (nobs : nat) (scales : list Z) (x : reader) : option (outcome (list rd * bool)) :=
  match fuel with
  | O => None
  | S f =>
      match next_attempt strptime nobs scales x with
      | UB => Some UB
      | Ok (Ended eof, _) => Some (Ok ([], eof))
      | Ok (BadEpoch, _) => Some (Ok ([RdHdrErr], false))
      | Ok (BadBlock, _) => Some (Ok ([RdDataErr], false))
      | Ok (GotBlock t obs, y) =>
          match all_bobs obs with
          | UB => Some UB
          | Ok bs =>
              match all_reads f nobs scales y with
              | None => None
              | Some UB => Some UB
              | Some (Ok (l, eof)) => Some (Ok (RdBlock t bs :: l, eof))
              end
          end
      end
  end.
(* test/test_ndop.cpp: the object, then the counts.  The object's stream is good and stands at m_end_of_head, where
   seekg (line 90) leaves it.  [pad] as in Doppler_model.v, [line0] what the static array of read_data_block holds,
   [hdr0] the members of the header.  inl: no object *)
Definition doppler_file (pad junk : chars) (errno : bool) (line0 : chars) (hdr0 : rhdr) (file : option chars)
  : option (outcome (Z + Z * list ndop * list bdata)) :=
  match open_rinex Z strptime junk errno file with
  | None => None
  | Some UB => Some UB
  | Some (Ok (inl c)) => Some (Ok (inl c))
  | Some (Ok (inr (h, _, s))) =>
      match all_reads (S (S (List.length (s_rest s)))) (List.length (h_codes _ h)) (h_factors _ h) (Reader [] hdr0 (RState s line0)) with
      | None => None
      | Some UB => Some UB
      | Some (Ok (rs, eof)) => Some (do r <- get_doppler_counts pad rs eof; Ok (inr r))
      end
  end.
End File.
