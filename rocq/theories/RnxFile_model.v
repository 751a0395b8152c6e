(* Model of DorisObsRinex::read_header, src/rinex/read_rnx_header.cpp, and of the constructor,
   src/rinex/doris_rinex.cpp.  float and double are Q (no rounding, no ERANGE); a date is what
   dso::strptime_ymd_hms (external) makes of the C string, None = it throws.  The bytes the line
   buffer holds before the first line are an argument; behind the terminator it keeps those of
   earlier lines.  errno is true when it is not zero.  DEBUG messages are left out. *)
From Coq Require Import List ZArith QArith Ascii String Bool.
From Verif Require Import Base CLib_model Stream_model SysInfo_model Rinex_model RnxHead_model.
Import ListNotations.
Local Open Scope nat_scope.

(* doris_rinex.hpp:100 *)
Definition MAX_HEADER_CHARS : nat := 81.
(* doris_rinex.hpp:21-29 *)
Record ref_station := RefStation { rs_code : chars; rs_bias : Q; rs_shift : Q }.
(* the character arrays, numbers and dates of doris_rinex.hpp:110-147 *)
Inductive text_member := SatelliteName | CosparNumber | RecChain | RecType | RecVersion | AntennaType | AntennaNumber.
Inductive number_member := Version | ApproxPosition (i : nat) | CenterMass (i : nat) | DateOffset.
Inductive date_member := FirstObs | RefStatDate.
Scheme Equality for text_member.
Scheme Equality for number_member.
Scheme Equality for date_member.

Section Header.
Variable date : Type.
Variable read_date : chars -> option date.

(* doris_rinex.hpp:105-158 and the counters of read_rnx_header.cpp:41-43; None: not assigned (an
   array, float or double then holds no value) *)
Record head := Head {
  h_text : text_member -> option chars;
  h_number : number_member -> option Q;
  h_date : date_member -> option date;
  h_codes : list obs_code; h_ncodes : Z; h_factors : list Z;
  h_stations : list station; h_nstations : Z; h_refs : list ref_station; h_applied : bool }.
Definition head0 : head := Head (fun _ => None) (fun _ => None) (fun _ => None) [] 0 [] [] 0 [] false.
Definition with_text (h : head) (m : text_member) (v : chars) : head :=
  Head (fun x => if text_member_beq x m then Some v else h_text h x) (h_number h) (h_date h) (h_codes h) (h_ncodes h)
    (h_factors h) (h_stations h) (h_nstations h) (h_refs h) (h_applied h).
Definition with_number (h : head) (m : number_member) (v : Q) : head :=
  Head (h_text h) (fun x => if number_member_beq x m then Some v else h_number h x) (h_date h) (h_codes h) (h_ncodes h)
    (h_factors h) (h_stations h) (h_nstations h) (h_refs h) (h_applied h).
Definition with_date (h : head) (m : date_member) (v : date) : head :=
  Head (h_text h) (h_number h) (fun x => if date_member_beq x m then Some v else h_date h x) (h_codes h) (h_ncodes h)
    (h_factors h) (h_stations h) (h_nstations h) (h_refs h) (h_applied h).
Definition with_codes (h : head) (cs : list obs_code) (n : Z) : head :=
  Head (h_text h) (h_number h) (h_date h) cs n (h_factors h) (h_stations h) (h_nstations h) (h_refs h) (h_applied h).
Definition with_factors (h : head) (fs : list Z) : head :=
  Head (h_text h) (h_number h) (h_date h) (h_codes h) (h_ncodes h) fs (h_stations h) (h_nstations h) (h_refs h) (h_applied h).
Definition with_stations (h : head) (l : list station) (n : Z) : head :=
  Head (h_text h) (h_number h) (h_date h) (h_codes h) (h_ncodes h) (h_factors h) l n (h_refs h) (h_applied h).
Definition with_refs (h : head) (l : list ref_station) : head :=
  Head (h_text h) (h_number h) (h_date h) (h_codes h) (h_ncodes h) (h_factors h) (h_stations h) (h_nstations h) l (h_applied h).
Definition with_applied (h : head) (b : bool) : head :=
  Head (h_text h) (h_number h) (h_date h) (h_codes h) (h_ncodes h) (h_factors h) (h_stations h) (h_nstations h) (h_refs h) b.

(* read_rnx_header.cpp:19-23 with str = line + off: the character is read before the index is tested *)
Fixpoint count_length_reverse (line : chars) (off from : nat) : outcome nat :=
  do c <- load line (off + from);
  if Ascii.eqb c blank then
    match from with
    | O => if Nat.eqb off 0 then UB else Ok 0
    | S f => count_length_reverse line off f
    end
  else Ok (S from).
(* read_rnx_header.cpp:89-93 and alike: the length is 1..18; memcpy of the characters *)
Definition text20 (line : chars) (off : nat) : outcome (option chars) :=
  do n <- count_length_reverse line off 19;
  Ok (if (Nat.ltb n 1 || Nat.leb 19 n) then None else Some (columns line off n)).
(* !std::strncmp(line + 60, text, strlen(text)) *)
Definition labelled (line : chars) (text : string) : outcome bool :=
  let t := list_ascii_of_string text in strncmp_eq (skipn 60 line) t (List.length t).

(* the branches of read_rnx_header.cpp:60-348, in their order *)
Inductive kind := KSatellite | KCospar | KMarker | KObserver | KReceiver | KAntenna | KPosition | KMass | KObsTypes
  | KFirst | KDcbs | KScale | KOffset | KStations | KStation | KRefs | KRef | KRefDate | KClock | KEnd | KIgnored.
Definition labels : list (string * kind) :=
  [("SATELLITE NAME", KSatellite); ("COSPAR NUMBER", KCospar); ("MARKER TYPE", KMarker);
   ("OBSERVER / AGENCY", KObserver); ("REC # / TYPE / VERS", KReceiver); ("ANT # / TYPE", KAntenna);
   ("APPROX POSITION XYZ", KPosition); ("CENTER OF MASS: XYZ", KMass); ("SYS / # / OBS TYPES", KObsTypes);
   ("TIME OF FIRST OBS", KFirst); ("SYS / DCBS APPLIED", KDcbs); ("SYS / SCALE FACTOR", KScale);
   ("L2 / L1 DATE OFFSET", KOffset); ("# OF STATIONS", KStations); ("STATION REFERENCE", KStation);
   ("# TIME REF STATIONS", KRefs); ("TIME REF STATION", KRef); ("TIME REF STAT DATE", KRefDate);
   ("RCV CLOCK OFFS APPL", KClock); ("END OF HEADER", KEnd)]%string.
Fixpoint kind_among (ls : list (string * kind)) (line : chars) : outcome kind :=
  match ls with
  | [] => Ok KIgnored
  | (t, k) :: r => do e <- labelled line t; if e then Ok k else kind_among r line
  end.

(* what a line does: go on, return a code, leave the loop *)
Inductive action := Go (h : head) (errno : bool) | Return (code : Z) | Break.

(* read_rnx_header.cpp:123-133, 136-146: three numbers, 14 columns apart *)
Fixpoint three (line : chars) (base : Z) (m : nat -> number_member) (left i : nat) (h : head) : outcome action :=
  match left with
  | O => Ok (Go h false)
  | S left' =>
      do s <- string_at line (14 * i);
      let (q, used) := strtod s in
      if Nat.eqb used 0 then Ok (Return (base + Z.of_nat i))
      else three line base m left' (S i) (with_number h (m i) q)
  end.
(* read_rnx_header.cpp:264-265, 284-285, 332-333: a number at the start of the line; None: none there *)
Definition leading_int (line : chars) : outcome (option Z) :=
  do s <- string_at line 0;
  let r := strtol s in
  Ok (if l_range r || Nat.eqb (l_used r) 0 then None else Some (wrap 32 (l_val r))).

(* read_rnx_header.cpp:61-348, one turn of the loop *)
Definition record (h : head) (errno : bool) (line : chars) : outcome action :=
  do k <- kind_among labels line;
  match k with
  | KSatellite =>                                     (* 61-67 *)
      do n <- count_length_reverse line 0 59;
      Ok (if Nat.eqb n 0 || Nat.leb 59 n then Return 30 else Go (with_text h SatelliteName (columns line 0 n)) errno)
  | KCospar =>                                        (* 69-75 *)
      do n <- count_length_reverse line 0 59;
      Ok (if Nat.eqb n 0 || Nat.ltb 19 n then Return 40 else Go (with_text h CosparNumber (columns line 0 n)) errno)
  | KMarker =>                                        (* 77-80 *)
      do e <- strncmp_eq line (list_ascii_of_string "SPACEBORNE") 10;
      Ok (if e then Go h errno else Return 50)
  | KObserver | KIgnored => Ok (Go h errno)           (* 82-84, 345-348 *)
  | KReceiver =>                                      (* 86-103 *)
      do a <- text20 line 0;
      match a with
      | None => Ok (Return 71)
      | Some a =>
          do b <- text20 line 20;
          match b with
          | None => Ok (Return 72)
          | Some b =>
              do c <- text20 line 40;
              Ok (match c with
                  | None => Return 73
                  | Some c => Go (with_text (with_text (with_text h RecChain a) RecType b) RecVersion c) errno
                  end)
          end
      end
  | KAntenna =>                                       (* 105-120 *)
      do a <- text20 line 0;
      match a with
      | None => Ok (Return 81)
      | Some a =>
          do b <- text20 line 20;
          Ok (match b with
              | None => Return 82
              | Some b =>
                  if list_eq_dec ascii_dec (cstr a) (list_ascii_of_string "DORIS") then
                    if list_eq_dec ascii_dec (cstr b) (list_ascii_of_string "STAREC") then
                      Go (with_text (with_text h AntennaNumber a) AntennaType b) errno
                    else Return 84
                  else Return 84
              end)
      end
  | KPosition => three line 90 ApproxPosition 3 0 h   (* 122-133 *)
  | KMass => three line 100 CenterMass 3 0 h          (* 135-146 *)
  | KObsTypes =>                                      (* 148-179 *)
      do r <- obs_types_line line (h_codes h) (h_ncodes h);
      let '(code, cs, n) := r in
      Ok (if (code =? 0)%Z then Go (with_codes h cs n) false else Return code)
  | KFirst =>                                         (* 181-190 *)
      do e <- strncmp_eq (skipn 48 line) (list_ascii_of_string "DOR") 3;
      if e then
        do s <- string_at line 0;
        Ok (match read_date s with Some d => Go (with_date h FirstObs d) errno | None => Return 122 end)
      else Ok (Return 121)
  | KDcbs => Ok (Return 130)                          (* 192-194 *)
  | KScale =>                                         (* 196-248 *)
      do r <- scale_line (h_codes h) (h_factors h) line;
      Ok (if (fst r =? 0)%Z then Go (with_factors h (snd r)) false else Return (fst r))
  | KOffset =>                                        (* 250-259 *)
      do c <- load line 0;
      if Ascii.eqb c "D" then
        do s <- string_at line 3;
        let (q, used) := strtod s in
        Ok (if Nat.eqb used 0 then Return 152 else Go (with_number h DateOffset q) false)
      else Ok (Return 151)
  | KStations =>                                      (* 261-272 *)
      do n <- leading_int line;
      Ok (match n with
          | Some n => if (n =? 0)%Z then Return 161 else Go (with_stations h (h_stations h) n) false
          | None => Return 161
          end)
  | KStation =>                                       (* 274-279 *)
      do s <- string_at line 0;
      let '(code, st, e) := set_from_rinex_line errno (Station [] [] [] [] 0 0) s in
      Ok (if (code =? 0)%Z then Go (with_stations h (h_stations h ++ [st]) (h_nstations h)) e else Return 171)
  | KRefs =>                                          (* 281-290 *)
      do n <- leading_int line;
      Ok (match n with
          | Some n => if (n =? 0)%Z then Return 181 else Go h false
          | None => Return 181
          end)
  | KRef =>                                           (* 292-317 *)
      let code := columns line 0 3 in
      do s <- string_at line 5;
      let (bias, used) := strtod s in
      if Nat.eqb used 0 then Ok (Return 191)
      else
        do s <- string_at line 19;
        let (shift, used) := strtod s in
        if Nat.eqb used 0 then Ok (Return 192)
        else
          do f <- find_station (fun b => strncmp_eq (st_code b) code 3) (h_stations h);
          Ok (match f with
              | None => Return 193
              | Some _ => Go (with_refs h (h_refs h ++ [RefStation code bias shift])) false
              end)
  | KRefDate =>                                       (* 319-326 *)
      do s <- string_at line 0;
      Ok (match read_date s with Some d => Go (with_date h RefStatDate d) errno | None => Return 201 end)
  | KClock =>                                         (* 328-338; errno is not cleared before *)
      do n <- leading_int line;
      Ok (match n with
          | Some n => if errno || (n <? 0)%Z || (1 <? n)%Z then Return 210 else Go (with_applied h (n =? 1)%Z) errno
          | None => Return 210
          end)
  | KEnd => Ok Break                                  (* 340-343 *)
  end.

(* read_rnx_header.cpp:60-349; None: out of fuel (RnxFile_proofs.v: never).  inl: a code; inr: the header
   behind the loop, whether the end mark was met, and the stream there *)
Fixpoint records (fuel : nat) (h : head) (errno : bool) (buf : chars) (s : stream)
  : option (outcome (Z + head * bool * stream)) :=
  match fuel with
  | O => None
  | S f =>
      let (t, s') := getline MAX_HEADER_CHARS s in
      if s_ok s then
        if s_ok s' then
          let buf' := into_buffer buf t in
          match record h errno buf' with
          | UB => Some UB
          | Ok (Go h' errno') => records f h' errno' buf' s'
          | Ok (Return code) => Some (Ok (inl code))
          | Ok Break => Some (Ok (inr (h, true, s')))
          end
        else Some (Ok (inr (h, false, s')))
      else Some (Ok (inr (h, false, s)))
  end.

(* read_rnx_header.cpp:352-361.  tellg (342) on a stream at its end sets failbit; the stream is not good
   either way *)
Definition final_checks (h : head) (marked : bool) (s : stream) : Z :=
  if negb (s_good s) || negb marked then -2
  else if negb (Nat.eqb (List.length (h_codes h)) (List.length (h_factors h)))
          || negb (h_ncodes h =? Z.of_nat (List.length (h_codes h)))%Z then -3
  else if negb (h_nstations h =? Z.of_nat (List.length (h_stations h)))%Z
          || Nat.leb (List.length (h_stations h)) (List.length (h_refs h)) then -3
  else 0%Z.

(* read_rnx_header.cpp:28-364 on an open stream at the start of the file: the code, or the header and
   the stream at m_end_of_head *)
Definition read_header (junk : chars) (errno : bool) (content : chars) : option (outcome (Z + head * stream)) :=
  let (t1, s1) := getline MAX_HEADER_CHARS (s_open content) in
  let buf1 := into_buffer junk t1 in
  match labelled buf1 "RINEX VERSION / TYPE" with
  | UB => Some UB
  | Ok false => Some (Ok (inl 10%Z))
  | Ok true =>
      match (do s <- string_at buf1 0; do c20 <- load buf1 20; do c40 <- load buf1 40; Ok (strtod s, c20, c40)) with
      | UB => Some UB
      | Ok ((version, used), c20, c40) =>
          if Nat.eqb used 0 || negb (Ascii.eqb c20 "O") || negb (Ascii.eqb c40 "D") then Some (Ok (inl 11%Z))
          else
            let (t2, s2) := getline MAX_HEADER_CHARS s1 in
            let buf2 := into_buffer buf1 t2 in
            match labelled buf2 "PGM / RUN BY / DATE" with
            | UB => Some UB
            | Ok false => Some (Ok (inl 20%Z))
            | Ok true =>
                match records (S (S (List.length content))) (with_number head0 Version version) errno buf2 s2 with
                | None => None
                | Some UB => Some UB
                | Some (Ok (inl code)) => Some (Ok (inl code))
                | Some (Ok (inr (h, marked, s))) =>
                    let code := final_checks h marked s in
                    Some (Ok (if (code =? 0)%Z then inr (h, s) else inl code))
                end
            end
      end
  end.

(* doris_rinex.cpp:14-33: None: the file cannot be opened.  inl: std::runtime_error, with the code
   printed; inr: the object, with the lines per beacon and the place where the data starts *)
Definition open_rinex (junk : chars) (errno : bool) (file : option chars)
  : option (outcome (Z + head * Z * stream)) :=
  match file with
  | None => Some (Ok (inl (-1)%Z))
  | Some content =>
      match read_header junk errno content with
      | None => None
      | Some UB => Some UB
      | Some (Ok (inl code)) => Some (Ok (inl code))
      | Some (Ok (inr (h, s))) => Some (Ok (inr (h, lines_per_beacon (Z.of_nat (List.length (h_codes h))), s)))
      end
  end.
End Header.
