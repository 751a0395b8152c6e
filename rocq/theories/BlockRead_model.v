(* Model of the reading of one data block by the programs that use the stream of the object directly
   (src/doris/extract_doppler_count.cpp:96-135, src/doris/fit_rfo.cpp:111-180): a line into a local array, the
   epoch, the block.  Values are rationals. *)
From Coq Require Import List ZArith QArith Ascii Bool.
From Verif Require Import Base CLib_model Stream_model SysInfo_model Rinex_model.
Import ListNotations.
Local Open Scope nat_scope.

(* the local array [line] (the bytes written so far), the header that is read again and again, the stream with the
   static array of read_data_block *)
Record reader := Reader { rd_line : chars; rd_hdr : rhdr; rd_state : rstate }.
(* no line; a line that is not an epoch; an epoch without its data; a block *)
Inductive got := Ended (eof : bool) | BadEpoch | BadBlock | GotBlock (t : Z) (obs : list beacon_obs).

Section Attempt.
Variable strptime : chars -> option Z.
(* extract_doppler_count.cpp:103-115, fit_rfo.cpp:170-181 once a line is in the array *)
Definition read_block (nobs : nat) (scales : list Z) (x : reader) : outcome (got * reader) :=
  do h <- resolve_data_epoch strptime (rd_line x) (rd_hdr x);
  let (e, hdr) := h in
  if negb (Z.eqb e 0) then Ok (BadEpoch, Reader (rd_line x) hdr (rd_state x))
  else
    do b <- read_data_block nobs scales (h_num hdr) (rd_state x);
    let '(c, block, r) := b in
    Ok ((if Z.eqb c 0 then GotBlock (h_epoch hdr) block else BadBlock), Reader (rd_line x) hdr r).
(* getline into the local array, whose bytes behind the terminator stay *)
Definition fetch (x : reader) : reader :=
  let (text, s) := getline MAX_RECORD_CHARS (r_st (rd_state x)) in
  Reader (into_buffer (rd_line x) text) (rd_hdr x) (RState s (r_line (rd_state x))).
(* extract_doppler_count.cpp:96-115 and 120-135, fit_rfo.cpp:166-181: the block if there is a line *)
Definition next_attempt (nobs : nat) (scales : list Z) (x : reader) : outcome (got * reader) :=
  let y := fetch x in
  if negb (s_ok (r_st (rd_state y))) then Ok (Ended (s_eof (r_st (rd_state y))), y) else read_block nobs scales y.
End Attempt.
