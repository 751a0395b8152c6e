(* Model of src/var/celestrak_swdata.cpp, src/var/celestrak.hpp and
   src/atmosphere/nrlmsise00_get_flux_data.cpp.  Doubles are exact rationals.
   The calendar functions of the external datetime library are the oracles
   [ymd_mjd] (year, month, day) and, for the feed, the day number itself. *)
From Coq Require Import String List ZArith QArith Qround Ascii Bool.
From Verif Require Import Base CLib_model Stream_model.
Import ListNotations.
Local Open Scope Z_scope.

Notation "'let*' p <- e ; f" := (obind e (fun p => f)) (at level 200, p pattern, e at level 100, f at level 200).

(* celestrak.hpp:14-25 *)
Record flux := Flux { fx_mjd : Z; fx_obs : Q; fx_adj : Q; fx_obsc : Q; fx_obsl : Q; fx_adjc : Q; fx_apd : Q; fx_ap : list Z; fx_flag : chars }.
Definition set_mjd v f := Flux v (fx_obs f) (fx_adj f) (fx_obsc f) (fx_obsl f) (fx_adjc f) (fx_apd f) (fx_ap f) (fx_flag f).
Definition set_obs v f := Flux (fx_mjd f) v (fx_adj f) (fx_obsc f) (fx_obsl f) (fx_adjc f) (fx_apd f) (fx_ap f) (fx_flag f).
Definition set_adj v f := Flux (fx_mjd f) (fx_obs f) v (fx_obsc f) (fx_obsl f) (fx_adjc f) (fx_apd f) (fx_ap f) (fx_flag f).
Definition set_obsc v f := Flux (fx_mjd f) (fx_obs f) (fx_adj f) v (fx_obsl f) (fx_adjc f) (fx_apd f) (fx_ap f) (fx_flag f).
Definition set_obsl v f := Flux (fx_mjd f) (fx_obs f) (fx_adj f) (fx_obsc f) v (fx_adjc f) (fx_apd f) (fx_ap f) (fx_flag f).
Definition set_adjc v f := Flux (fx_mjd f) (fx_obs f) (fx_adj f) (fx_obsc f) (fx_obsl f) v (fx_apd f) (fx_ap f) (fx_flag f).
Definition set_apd v f := Flux (fx_mjd f) (fx_obs f) (fx_adj f) (fx_obsc f) (fx_obsl f) (fx_adjc f) v (fx_ap f) (fx_flag f).
Definition set_ap v f := Flux (fx_mjd f) (fx_obs f) (fx_adj f) (fx_obsc f) (fx_obsl f) (fx_adjc f) (fx_apd f) v (fx_flag f).
Definition set_flag v f := Flux (fx_mjd f) (fx_obs f) (fx_adj f) (fx_obsc f) (fx_obsl f) (fx_adjc f) (fx_apd f) (fx_ap f) v.

Definition comma : ascii := ","%char.
Definition MAX_SW_CHARS : nat := 512.
(* celestrak_swdata.cpp:15-18 *)
Definition header : chars := list_ascii_of_string
  "DATE,BSRN,ND,KP1,KP2,KP3,KP4,KP5,KP6,KP7,KP8,KP_SUM,AP1,AP2,AP3,AP4,AP5,AP6,AP7,AP8,AP_AVG,CP,C9,ISN,F10.7_OBS,F10.7_ADJ,F10.7_DATA_TYPE,F10.7_OBS_CENTER81,F10.7_OBS_LAST81,F10.7_ADJ_CENTER81,F10.7_ADJ_LAST81".

Section Calendar.
Variable ymd_mjd : Z -> Z -> Z -> Z.

(* celestrak_swdata.cpp:132-156: the array read is the caller's; one of fewer than ten
   bytes is read past its end.  None: error, the argument is left alone. *)
Definition resolve_date (buf : chars) : outcome (option Z) :=
  if Nat.ltb (length buf) 10 then UB
  else Ok (match from_chars_int (firstn 4 buf), from_chars_int (firstn 2 (skipn 5 buf)), from_chars_int (firstn 2 (skipn 8 buf)) with
           | Some (y, _), Some (m, _), Some (d, _) => Some (ymd_mjd y m d)
           | _, _, _ => None
           end).

(* A pointer c into the line array is the bytes from it on, with last - c. *)
Definition cursor := (chars * Z)%type.
(* celestrak_swdata.cpp:40-45, 75-80: how far  while ( *c++ && commas < n) if ( *c == ',') ++commas;  moves c *)
Fixpoint skip_commas (n : nat) (b : chars) : outcome nat :=
  match b with
  | [] => UB
  | c :: t =>
      if Ascii.eqb c nul || Nat.eqb n 0 then Ok 1%nat
      else match t with
           | [] => UB
           | d :: _ => do k <- skip_commas (if Ascii.eqb d comma then pred n else n) t; Ok (S k)
           end
  end.
(* the same with the test that follows (46-48, 81-83); None: end of the string *)
Definition skip_to (n : nat) (cur : cursor) : outcome (option cursor) :=
  let (b, room) := cur in
  do k <- skip_commas n b;
  match skipn k b with
  | [] => UB
  | c :: t => Ok (if Ascii.eqb c nul then None else Some (c :: t, room - Z.of_nat k))
  end.
(* celestrak_swdata.cpp:56-60 and the like: from_chars(c, last, v), then a comma: the value
   stored, and the place behind the comma if there is one *)
Definition field {V} (conv : chars -> option (V * nat)) (cur : cursor) : outcome (option V * option cursor) :=
  let (b, room) := cur in
  if room <? 0 then UB
  else match conv (firstn (Z.to_nat room) b) with
       | Some (v, n) =>
           match skipn n b with
           | [] => UB
           | c :: t => Ok (Some v, if Ascii.eqb c comma then Some (t, room - Z.of_nat n - 1) else None)
           end
       | None => Ok (None, None)
       end.

(* the flux structure and either the code returned or the place reached *)
Definition parsed := (flux * (Z + cursor))%type.
Definition andthen (x : outcome parsed) (f : flux -> cursor -> outcome parsed) : outcome parsed :=
  let* (fl, r) <- x;
  match r with inl e => Ok (fl, inl e) | inr cur => f fl cur end.

(* celestrak_swdata.cpp:54-62: Ap values i, .., i + k - 1 *)
Fixpoint read_aps (k i : nat) (fl : flux) (cur : cursor) : outcome parsed :=
  match k with
  | O => Ok (fl, inr cur)
  | S k' =>
      let* (v, next) <- field from_chars_int cur;
      let* fl' <- match v with Some v => do l <- store (fx_ap fl) i v; Ok (set_ap l fl) | None => Ok fl end;
      match next with
      | None => Ok (fl', inl (3 + Z.of_nat i))
      | Some cur' => read_aps k' (S i) fl' cur'
      end
  end.
(* celestrak_swdata.cpp:66-70, 86-90, 93-97, 106-121 *)
Definition read_double (set : Q -> flux -> flux) (code : Z) (fl : flux) (cur : cursor) : outcome parsed :=
  let* (v, next) <- field from_chars_double cur;
  let fl' := match v with Some v => set v fl | None => fl end in
  Ok (fl', match next with None => inl code | Some cur' => inr cur' end).
Definition read_skip (n : nat) (code : Z) (fl : flux) (cur : cursor) : outcome parsed :=
  do r <- skip_to n cur;
  Ok (fl, match r with None => inl code | Some cur' => inr cur' end).
(* celestrak_swdata.cpp:100-103; flag has five bytes *)
Definition read_flag (code : Z) (fl : flux) (cur : cursor) : outcome parsed :=
  match cur with
  | (a :: b :: c :: d :: t, room) =>
      Ok (set_flag (a :: b :: c :: skipn 3 (fx_flag fl)) fl,
          if Ascii.eqb d comma then inr (t, room - 4) else inl code)
  | _ => UB
  end.

(* celestrak_swdata.cpp:26-130: code and structure; [buf] is the array behind line *)
Definition resolve_records (buf : chars) (fl : flux) : outcome (Z * flux) :=
  let* d <- resolve_date buf;
  match d with
  | None => Ok (1, fl)
  | Some mjd =>
      let last := Z.of_nat (length (cstr buf)) - 1 in
      let* (fl', r) <-
        andthen (read_skip 12 2 (set_mjd mjd fl) (buf, last)) (fun fl cur =>
        andthen (read_aps 8 0 fl cur) (fun fl cur =>
        andthen (read_double set_apd 11 fl cur) (fun fl cur =>
        andthen (read_skip 3 12 fl cur) (fun fl cur =>
        andthen (read_double set_obs 13 fl cur) (fun fl cur =>
        andthen (read_double set_adj 14 fl cur) (fun fl cur =>
        andthen (read_flag 15 fl cur) (fun fl cur =>
        andthen (read_double set_obsc 16 fl cur) (fun fl cur =>
        andthen (read_double set_obsl 17 fl cur) (fun fl cur =>
        read_double set_adjc 18 fl cur)))))))));
      Ok (match r with inl e => e | inr _ => 0 end, fl')
  end.

(* ---- files: position 0 is the beginning, -1 the failed pos_type(-1) ---- *)
Definition seek (f : chars) (pos : Z) : stream :=
  if pos <? 0 then Stream f false true else s_open (skipn (Z.to_nat pos) f).
Definition tell (f : chars) (s : stream) : Z :=
  if s_good s then Z.of_nat (length f) - Z.of_nat (length (s_rest s)) else -1.

Definition fn_error : Z := -1.
Definition parse_error : Z := -2.
Definition target_prior : Z := 1.
Definition eof_reached : Z := 9.

(* celestrak_swdata.cpp:252-259: error code, the array, the stream.  None when the step
   budget is spent (each pass takes a character or ends the file). *)
Fixpoint seek_day (fuel : nat) (start cmjd : Z) (buf : chars) (s : stream) : option (outcome (Z * chars * stream)) :=
  if cmjd =? start then Some (Ok (0, buf, s))
  else match fuel with
       | O => None
       | S f =>
           let (t, s') := getline MAX_SW_CHARS s in
           let buf' := into_buffer buf t in
           if s_ok s' then
             match resolve_date buf' with
             | UB => Some UB
             | Ok None => Some (Ok (1, buf', s'))
             | Ok (Some d) => seek_day f start d buf' s'
             end
           else Some (Ok (999, buf', s'))
       end.

(* celestrak_swdata.cpp:268-293, with [k] days still to do: code, window, position *)
Fixpoint read_days (k i : nat) (f : chars) (start : Z) (buf : chars) (s : stream) (win : list flux)
  : outcome (Z * list flux * Z) :=
  match k with
  | O => Ok (0, win, tell f s)
  | S k' =>
      do fl <- load win i;
      let* (code, fl') <- resolve_records buf fl;
      do win' <- store win i fl';
      if negb (code =? 0) then Ok (parse_error, win', 0)
      else
        let (t, s') := getline MAX_SW_CHARS s in
        if s_ok s' then
          let buf' := into_buffer buf t in
          let* d <- resolve_date buf';
          let cmjd := match d with Some d => d | None => start + Z.of_nat i end in
          if negb (cmjd =? start + Z.of_nat (S i)) then Ok (parse_error, win', 0)
          else read_days k' (S i) f start buf' s' win'
        else Ok (0, win', 0)
  end.

(* celestrak_swdata.cpp:215-230: goes to the position and checks the header at the beginning;
   header right, line array, stream *)
Definition read_header (f buf : chars) (pos : Z) : bool * chars * stream :=
  if pos =? 0 then
    let (t, s1) := getline MAX_SW_CHARS (seek f pos) in
    (s_ok s1 && (if list_eq_dec Ascii.ascii_dec (firstn (length header) (cstr (into_buffer buf t))) header then true else false),
     into_buffer buf t, s1)
  else (true, buf, seek f pos).

(* celestrak_swdata.cpp:210-296 with the file open; [retry] is the call of line 247 *)
Definition parse_open (retry : option (outcome (Z * list flux * Z))) (f : chars) (buf : chars)
  (pos mjd : Z) (before after : nat) (win : list flux) : option (outcome (Z * list flux * Z)) :=
  let start := mjd - Z.of_nat before in
  let '(head_ok, buf, s0) := read_header f buf pos in
  if negb head_ok then Some (Ok (fn_error, win, 0))
  else
    let (t, s1) := getline MAX_SW_CHARS s0 in
    let buf1 := into_buffer buf t in
    match resolve_date buf1 with
    | UB => Some UB
    | Ok None => Some (Ok (parse_error, win, 0))
    | Ok (Some d) =>
        if d >? start then (if pos =? 0 then Some (Ok (target_prior, win, 0)) else retry)
        else
          match seek_day (length (s_rest s1) + 2) start d buf1 s1 with
          | None => None
          | Some UB => Some UB
          | Some (Ok (e, buf2, s2)) =>
              if negb (e =? 0) then Some (Ok (if s_eof s2 then eof_reached else e, win, 0))
              else Some (read_days (before + 1 + after) 0 f start buf2 s2 win)
          end
    end.
(* celestrak_swdata.cpp:191-296: code, window, fpos; [file] is None when it cannot be
   opened; [junk], [junk2] are the indeterminate line arrays of the call and of the
   recursive call *)
Definition parse (file : option chars) (junk junk2 : chars) (pos mjd : Z) (before after : nat) (win : list flux)
  : option (outcome (Z * list flux * Z)) :=
  match file with
  | None => Some (Ok (fn_error, win, 0))
  | Some f => parse_open (parse_open None f junk2 0 mjd before after win) f junk pos mjd before after win
  end.

(* celestrak_swdata.cpp:158-189 ([fresh] is new_flux); the DEBUG asserts are left out *)
Definition get_next (file : option chars) (junk junk2 : chars) (fresh : flux) (pos mjd : Z) (win : list flux)
  : option (outcome (Z * list flux * Z)) :=
  match parse file junk junk2 pos mjd 0 0 [fresh] with
  | Some (Ok (code, new, pos')) =>
      Some (if negb (code =? 0) then Ok (1, win, pos')
            else match new with
                 | [fl] => Ok (0, skipn 1 win ++ [fl], pos')
                 | _ => UB
                 end)
  | x => x
  end.

(* ---- the feed ---- *)
(* static_cast<int> of a double *)
Definition to_int (q : Q) : outcome Z :=
  let z := if Qle_bool 0 q then Qfloor q else - Qfloor (- q) in
  if (z >? INT_MAX) || (z <? INT_MIN) then UB else Ok z.
(* nrlmsise00_get_flux_data.cpp:27-30 *)
Definition ihours (sec : Q) : outcome Z := do s <- to_int sec; Ok (Z.quot s 3600).

Definition loadz {A} (l : list A) (i : Z) : outcome A := if i <? 0 then UB else load l (Z.to_nat i).
Definition ap_at (win : list flux) (day index : Z) : outcome Z := do d <- loadz win day; loadz (fx_ap d) index.
(* nrlmsise00_get_flux_data.cpp:70-74, 78-82, 86-90 *)
Definition back3 (di : Z * Z) : Z * Z :=
  let (day, index) := di in if index - 1 <? 0 then (day - 1, 7) else (day, index - 1).
(* nrlmsise00_get_flux_data.cpp:110-123, 143-155: sum and number from (day, index) up to (stop, stopi);
   33 passes leave the array of 4 x 8 values *)
Fixpoint sum_until (fuel : nat) (win : list flux) (day index stop stopi : Z) (sum : Q) (num : Z) : outcome (Q * Z) :=
  if (day =? stop) && (index =? stopi) then Ok (sum, num)
  else match fuel with
       | O => UB
       | S f =>
           do a <- ap_at win day index;
           let (day', index') := if index + 1 >? 7 then (day + 1, 0) else (day, index + 1) in
           sum_until f win day' index' stop stopi (sum + inject_Z a)%Q (num + 1)
       end.

(* the values written into InParamsCore: f107A, f107, ap, aparr *)
Record params := Params { p_f107A : Q; p_f107 : Q; p_ap : Q; p_arr : list Q }.
(* nrlmsise00_get_flux_data.cpp:32-164: parameters and chi; pointers into flux_data_ are indices *)
Definition init (win : list flux) (sec : Q) : outcome (params * Z) :=
  do cur <- load win 3;
  do prev <- load win 2;
  do h <- ihours sec;
  let k := Z.quot h 3 in
  do a1 <- ap_at win 3 k;
  let (d2, i2) := back3 (3, k) in
  do a2 <- ap_at win d2 i2;
  let (d3, i3) := back3 (d2, i2) in
  do a3 <- ap_at win d3 i3;
  let (d4, i4) := back3 (d3, i3) in
  do a4 <- ap_at win d4 i4;
  let* (s5, n5) <- sum_until 33 win (d4 - 1) i4 d4 i4 0 0;
  let* (s6, n6) <- sum_until 33 win (d4 - 2) i4 (d4 - 1) i4 0 0;
  Ok (Params (fx_obsc cur) (fx_obs prev) (fx_apd cur)
        [fx_apd cur; inject_Z a1; inject_Z a2; inject_Z a3; inject_Z a4; (s5 / inject_Z n5)%Q; (s6 / inject_Z n6)%Q], k).

(* nrlmsise00.hpp:257-268; the file name is replaced by the file *)
Record feed := Feed { fd_chi : Z; fd_mjd : Z; fd_win : list flux; fd_pos : Z }.
(* nrlmsise00_get_flux_data.cpp:9-25: [day] is the date of (year, doy); [win] the default-initialised
   window; None: the constructor throws.  fpos starts as pos_type() (0). *)
Definition construct (file : option chars) (junk junk2 : chars) (win : list flux) (day : Z) (sec : Q)
  : option (outcome (option (feed * params))) :=
  match parse file junk junk2 0 day 3 0 win with
  | None => None
  | Some UB => Some UB
  | Some (Ok (code, win', pos)) =>
      Some (if negb (code =? 0) then Ok None
            else let* (p, chi) <- init win' sec; Ok (Some (Feed chi day win' pos, p)))
  end.

(* nrlmsise00_get_flux_data.cpp:166-203: code, feed, parameters *)
Definition update (file : option chars) (junk junk2 : chars) (fresh : flux) (day : Z) (sec : Q) (fd : feed) (p : params)
  : option (outcome (Z * feed * params)) :=
  match to_int (sec / 86400) with
  | UB => Some UB
  | Ok extra =>
      let new_mjd := day + extra in
      if new_mjd =? fd_mjd fd then
        Some (let* h <- ihours sec;
              if Z.quot h 3 =? fd_chi fd then Ok (0, fd, p)
              else let* (p', chi) <- init (fd_win fd) sec; Ok (0, Feed chi (fd_mjd fd) (fd_win fd) (fd_pos fd), p'))
      else
        match (if fd_mjd fd + 1 =? new_mjd then get_next file junk junk2 fresh (fd_pos fd) new_mjd (fd_win fd)
               else parse file junk junk2 (fd_pos fd) new_mjd 3 0 (fd_win fd)) with
        | None => None
        | Some UB => Some UB
        | Some (Ok (code, win', pos')) =>
            Some (if negb (code =? 0) then Ok (code, Feed (fd_chi fd) (fd_mjd fd) win' pos', p)
                  else let* (p', chi) <- init win' sec; Ok (0, Feed chi new_mjd win' pos', p'))
        end
  end.
End Calendar.
