(* Model of reading a whole DORIS RINEX file as the programs do (src/rinex/fit_rfo.cpp:37-45,
   test/rinex_pod.cpp:619-720): make the object, take blocks until next() is not zero, look a beacon and
   an observable up in a block.  Both dates are read by the external dso::strptime_ymd_hms. *)
From Coq Require Import List ZArith QArith Ascii Bool.
From Verif Require Import Base CLib_model Stream_model SysInfo_model Rinex_model RnxHead_model RnxFile_model.
Import ListNotations.
Local Open Scope nat_scope.

(* doris_rinex.hpp:364-372 (std::find_if over the block); None = cblock.end().  The identifier of a
   beacon whose first line was never read is not initialised: UB *)
Fixpoint contains_beacon (block : list beacon_obs) (key : chars) : outcome (option beacon_obs) :=
  match block with
  | [] => Ok None
  | o :: r =>
      do id <- of_option (b_id o);
      do e <- same3 id key;
      if e then Ok (Some o) else contains_beacon r key
  end.
(* test/rinex_pod.cpp:713-722, 1067-1086: m_values[get_observation_code_index(c)], an index outside is UB *)
Definition value_at (codes : list obs_code) (o : beacon_obs) (c : obs_code) : outcome rvalue :=
  let i := get_observation_code_index codes c in
  if (i <? 0)%Z then UB else load (b_vals o) (Z.to_nat i).

Section Whole.
Variable strptime : chars -> option Z.

(* fit_rfo.cpp:45, rinex_pod.cpp:619: while (!(error = it.next())); the iterator after every call that
   returned 0 and the code that ended the loop.  None: out of fuel (RnxWhole_proofs.v: never) *)
Fixpoint all_blocks (fuel : nat) (nobs : nat) (scales : list Z) (it : iter) : option (outcome (list iter * Z)) :=
  match fuel with
  | O => None
  | S f =>
      match it_next strptime nobs scales it with
      | UB => Some UB
      | Ok (c, it') =>
          if (c =? 0)%Z then
            match all_blocks f nobs scales it' with
            | None => None
            | Some UB => Some UB
            | Some (Ok (l, e)) => Some (Ok (it' :: l, e))
            end
          else Some (Ok ([], c))
      end
  end.

(* the object (doris_rinex.cpp:14-33), an iterator on it (doris_rinex.hpp:374-377) and the loop.  [line0] is
   what the static line of read_data_block holds, [hdr0] the members of the iterator's header before the first
   block.  inl: no object *)
Definition read_file (junk : chars) (errno : bool) (line0 : chars) (hdr0 : rhdr) (file : option chars)
  : option (outcome (Z + head Z * list iter * Z)) :=
  match open_rinex Z strptime junk errno file with
  | None => None
  | Some UB => Some UB
  | Some (Ok (inl c)) => Some (Ok (inl c))
  | Some (Ok (inr (h, _, s))) =>
      match all_blocks (S (S (List.length (s_rest s)))) (List.length (h_codes _ h)) (h_factors _ h) (Iter hdr0 [] (RState s line0)) with
      | None => None
      | Some UB => Some UB
      | Some (Ok (l, e)) => Some (Ok (inr (h, l, e)))
      end
  end.
End Whole.
