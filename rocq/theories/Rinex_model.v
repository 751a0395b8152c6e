(* Model of the data-record part of DORIS RINEX reading:
   src/doris_rinex.hpp, src/rinex/doris_rinex.cpp, src/rinex/rnx_datablock_iterator.cpp.
   double is Q. *)
From Coq Require Import List ZArith QArith Ascii Bool.
From Verif Require Import Base CLib_model Stream_model SysInfo_model.
Import ListNotations.
Local Open Scope nat_scope.

(* doris_rinex.hpp:99-103 *)
Definition MAX_RECORD_CHARS : nat := 124.
(* doris_system_info.hpp:15-21: numeric_limits<double>::min() = 2^-1022 *)
Definition MISSING : Q := 1 # (2 ^ 1022).

(* doris_rinex.hpp:163-166 (int arithmetic, C++ truncating division of a size >= 0) *)
Definition lines_per_beacon (obs : Z) : Z :=
  (1 + (if (Z.rem obs 5 =? 0)%Z then Z.quot obs 5 - 1 else Z.quot obs 5))%Z.

(* doris/doris_rinex.cpp:37-43 (std::find) *)
Fixpoint index_of {A} (p : A -> bool) (l : list A) (i : Z) : Z :=
  match l with
  | [] => (-1)%Z
  | x :: r => if p x then i else index_of p r (i + 1)%Z
  end.
Definition get_observation_code_index (codes : list obs_code) (t : obs_code) : Z :=
  index_of (fun c => code_eqb c t) codes 0%Z.

(* std::strncmp(a,b,n) = 0; a char array read past its end is UB *)
Fixpoint strncmp_eq (a b : chars) (n : nat) {struct n} : outcome bool :=
  match n with
  | O => Ok true
  | S m => match a, b with
           | x :: a', y :: b' =>
               if Ascii.eqb x y then (if Ascii.eqb x nul then Ok true else strncmp_eq a' b' m) else Ok false
           | _, _ => UB
           end
  end.
Fixpoint find_station (p : station -> outcome bool) (l : list station) : outcome (option station) :=
  match l with
  | [] => Ok None
  | s :: r => do e <- p s; if e then Ok (Some s) else find_station p r
  end.
(* rinex/doris_rinex.cpp:45-55; the 4-char station id, None = nullptr *)
Definition beacon_internal_id2id (sts : list station) (inid : chars) : outcome (option chars) :=
  do f <- find_station (fun b => strncmp_eq inid (st_code b) 3) sts; Ok (option_map st_id f).
(* rinex/doris_rinex.cpp:57-67 *)
Definition beacon_id2internal_id (sts : list station) (inid : chars) : outcome (option chars) :=
  do f <- find_station (fun b => strncmp_eq inid (st_id b) 4) sts; Ok (option_map st_code f).
(* doris_rinex.hpp:263-270, 286-292: bytewise comparison with && *)
Definition same3 (a b : chars) : outcome bool :=
  do a0 <- load a 0; do b0 <- load b 0;
  if Ascii.eqb a0 b0 then
    do a1 <- load a 1; do b1 <- load b 1;
    if Ascii.eqb a1 b1 then
      do a2 <- load a 2; do b2 <- load b 2; Ok (Ascii.eqb a2 b2)
    else Ok false
  else Ok false.
Definition beacon_internal_id2BeaconStation (sts : list station) (inid : chars) : outcome (option station) :=
  find_station (fun b => same3 inid (st_code b)) sts.
(* doris_rinex.hpp:286-298: return code and the shift factor (unchanged when absent) *)
Definition beacon_shift_factor (sts : list station) (id : chars) (k : Z) : outcome (Z * Z) :=
  do f <- find_station (fun b => same3 (st_code b) id) sts;
  Ok (match f with Some s => (0%Z, st_shift s) | None => (1%Z, k) end).

(* ---- data blocks ---- *)
(* doris_rinex.hpp:55-88 *)
Record rvalue := RValue { rv : Q; rv_f1 : ascii; rv_f2 : ascii }.
Record beacon_obs := BeaconObs { b_id : option chars; b_vals : list rvalue }.

(* stream and the function's static line buffer *)
Record rstate := RState { r_st : stream; r_line : chars }.
Definition next_line (r : rstate) : rstate :=
  let (t, s) := getline MAX_RECORD_CHARS (r_st r) in RState s (into_buffer (r_line r) t).

(* rinex/doris_rinex.cpp:166-193 for field k of the current line; None = return 2.
   Division by a zero scale factor (infinite in the code) is outside the model: UB. *)
Definition read_field (line : chars) (k : nat) (scale : Z) : outcome (option rvalue) :=
  let buf := columns line (3 + k * 16) 14 ++ [nul; nul] in
  let s := cstr buf in
  let buf_is_empty := forallb is_space s in
  do flagm1 <- load line (3 + k * 16 + 14);
  do flagm2 <- load line (3 + k * 16 + 15);
  let (val, used) := if buf_is_empty then (MISSING, length s) else strtod s in
  if Nat.eqb used 0 then Ok None
  else
    let val := if Qeq_bool val 0 then MISSING else val in
    if Z.eqb scale 0 then UB else Ok (Some (RValue (val / inject_Z scale) flagm1 flagm2)).

(* rinex/doris_rinex.cpp:153-195 from observable curobs on, [todo] observables
   left; curline = 0 exactly when curobs = 0 *)
Fixpoint read_obs (scales : list Z) (todo curobs : nat) (id : option chars) (vals : list rvalue)
    (r : rstate) : outcome (Z * beacon_obs * rstate) :=
  match todo with
  | O => Ok (0%Z, BeaconObs id vals, r)
  | S todo' =>
      let r1 := if Nat.eqb (curobs mod 5) 0 then next_line r else r in
      let line := r_line r1 in
      do c0 <- load line 0;
      if Nat.eqb curobs 0 && negb (Ascii.eqb c0 "D") then Ok (1%Z, BeaconObs id vals, r1)
      else
        let id1 := if Nat.eqb curobs 0 then Some (columns line 0 3) else id in
        do sc <- load scales curobs;
        do f <- read_field line (curobs mod 5) sc;
        match f with
        | None => Ok (2%Z, BeaconObs id1 vals, r1)
        | Some v => read_obs scales todo' (S curobs) id1 (vals ++ [v]) r1
        end
  end.

(* rinex/doris_rinex.cpp:145-205: return code, obsvec, state *)
Fixpoint read_beacons (nobs : nat) (scales : list Z) (beacons : nat) (acc : list beacon_obs) (r : rstate)
  : outcome (Z * list beacon_obs * rstate) :=
  match beacons with
  | O => Ok (0%Z, acc, r)
  | S b =>
      do res <- read_obs scales nobs 0 None [] r;
      let '(code, o, r1) := res in
      if Z.eqb code 0 then read_beacons nobs scales b (acc ++ [o]) r1
      else Ok (code, acc ++ [o], r1)
  end.
Definition read_data_block (nobs : nat) (scales : list Z) (num_stations : Z) (r : rstate)
  : outcome (Z * list beacon_obs * rstate) :=
  read_beacons nobs scales (Z.to_nat num_stations) [] r.

(* rinex/doris_rinex.cpp:69-76; only the stream matters, the buffer is local *)
Fixpoint getlines (k : nat) (s : stream) : stream :=
  match k with O => s | S k' => getlines k' (snd (getline MAX_RECORD_CHARS s)) end.
Definition skip_data_block (nobs : nat) (num_stations : Z) (s : stream) : stream :=
  getlines (Z.to_nat (num_stations * lines_per_beacon (Z.of_nat nobs))) s.

(* ---- epoch lines ---- *)
(* doris_rinex.hpp:35-46 *)
Record rhdr := RHdr { h_epoch : Z; h_clock : Q; h_num : Z; h_flag : Z; h_cflag : Z }.

Section Epoch.
(* dso::strptime_ymd_hms (ggdatetime library, not in /repo): None = throws *)
Variable strptime : chars -> option Z.

(* rinex/doris_rinex.cpp:239-304.  [line] is the buffer up to its last
   initialised byte; reading past it is UB.  int_fast8_t is 8 bits,
   int_fast16_t 64 bits (x86-64 glibc). *)
Definition first_error (status code : Z) : Z := if Z.eqb status 0 then code else status.
Definition range (line : chars) (off n : nat) : outcome chars :=
  if Nat.leb (off + n) (List.length line) then Ok (columns line off n) else UB.
(* a C string starting at off: UB when the buffer has no terminator *)
Definition string_at (line : chars) (off : nat) : outcome chars :=
  if existsb (Ascii.eqb nul) (skipn off line) then Ok (cstr (skipn off line)) else UB.

Definition resolve_data_epoch (line : chars) (hdr : rhdr) : outcome (Z * rhdr) :=
  do c0 <- load line 0;
  if negb (Ascii.eqb c0 ">") then Ok (1%Z, hdr)
  else
    do dstr <- string_at line 2;
    let (st1, epoch) := match strptime dstr with
                        | Some t => (0%Z, t)
                        | None => (2%Z, h_epoch hdr) end in
    do fld <- range line 31 3;
    let lf := strtol (cstr (fld ++ [nul])) in
    let st2 := if Nat.eqb (l_used lf) 0 || l_range lf then first_error st1 3 else st1 in
    do fln <- range line 34 3;
    let ln := strtol (cstr (fln ++ [nul])) in
    let st3 := if Nat.eqb (l_used ln) 0 || l_range ln then first_error st2 4 else st2 in
    do fc <- range line 43 13;
    let has_clock := negb (forallb (Ascii.eqb blank) fc) in
    do scl <- string_at line 43;
    let (st4, clk) := if has_clock then
                        let (v, used) := strtod scl in
                        ((if Nat.eqb used 0 then first_error st3 5 else st3), v)
                      else (st3, MISSING) in
    do scf <- string_at line 56;
    let lc := strtol scf in
    let st5 := if Nat.eqb (l_used lc) 0 || l_range lc then first_error st4 6 else st4 in
    Ok (st5, RHdr epoch clk (wrap 64 (l_val ln)) (wrap 8 (l_val lf)) (wrap 8 (l_val lc))).

(* ---- the block iterator ---- *)
(* rinex/rnx_datablock_iterator.cpp:3-33: return code, header, block, state.
   The line buffer is local and uninitialised: only the bytes getline writes exist. *)
Record iter := Iter { it_hdr : rhdr; it_block : list beacon_obs; it_r : rstate }.
Definition it_next (nobs : nat) (scales : list Z) (it : iter) : outcome (Z * iter) :=
  let (text, s) := getline MAX_RECORD_CHARS (r_st (it_r it)) in
  let r := RState s (r_line (it_r it)) in
  if negb (s_ok s) then
    Ok ((if s_eof s then (-1) else 1)%Z, Iter (it_hdr it) (it_block it) r)
  else
    do h <- resolve_data_epoch (text ++ [nul]) (it_hdr it);
    let (e, hdr) := h in
    if negb (Z.eqb e 0) then Ok (2%Z, Iter hdr (it_block it) r)
    else
      do b <- read_data_block nobs scales (h_num hdr) r;
      let '(c, block, r2) := b in
      Ok ((if Z.eqb c 0 then 0 else 3)%Z, Iter hdr block r2).
End Epoch.

(* static_cast<long>(double): truncation; values that do not fit are UB *)
Definition trunc (q : Q) : Z := Z.quot (Qnum q) (Zpos (Qden q)).
Definition to_long (q : Q) : outcome Z :=
  let z := trunc q in
  if ((LONG_MIN <=? z) && (z <=? LONG_MAX))%Z then Ok z else UB.
(* doris_rinex.hpp:391-404 *)
Definition corrected_l1_epoch (applied : bool) (epoch : Z) (clock : Q) : outcome Z :=
  if applied then Ok epoch
  else
    let off := ((if Qeq_bool clock MISSING then 0 else 1) * clock)%Q in
    do n <- to_long (off * inject_Z 1000000000); Ok (epoch + n)%Z.
(* doris_rinex.hpp:306-312 *)
Definition l21_date_offset (offset_us : Q) : outcome Z := to_long (offset_us * inject_Z 1000).
(* rinex/rnx_datablock_iterator.cpp:35-54: (tl1, tl2) *)
Definition corrected_l12_epoch (applied : bool) (epoch : Z) (clock offset_us : Q) : outcome (Z * Z) :=
  do t <- (if applied then Ok epoch
           else do n <- to_long (clock * inject_Z 1000000000); Ok (epoch + n)%Z);
  do o <- l21_date_offset offset_us;
  Ok (t, (t + o)%Z).
