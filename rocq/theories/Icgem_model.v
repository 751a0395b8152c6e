(* Model of src/icgemio.hpp, src/gravity/icgemio_rdhead.cpp,
   src/gravity/icgemio_rddata.cpp and src/gravity/parse_coefficients.cpp.
   Doubles are exact rationals.  The copies of GM and Re into the coefficient
   object (icgemio_rddata.cpp:60-61) are not modelled.  A failed assert is the
   outcome [Abort]. *)
From Coq Require Import String List ZArith QArith Ascii Bool.
From Verif Require Import Base CLib_model Stream_model SysInfo_model Harmonics_model.
Import ListNotations.
Local Open Scope Z_scope.

Inductive res (A : Type) := Val (a : A) | Abort | Undef.
Arguments Val {A}. Arguments Abort {A}. Arguments Undef {A}.
Definition rbind {A B} (x : res A) (f : A -> res B) : res B :=
  match x with Val a => f a | Abort => Abort | Undef => Undef end.
Notation "'try' x <- e ; f" := (rbind e (fun x => f)) (at level 200, x pattern, e at level 100, f at level 200).
Definition lift {A} (x : outcome A) : res A := match x with Ok a => Val a | UB => Undef end.

Definition lit (s : string) : chars := list_ascii_of_string s.
(* strncmp(pattern, s, strlen(pattern)) == 0 *)
Fixpoint starts_with (pattern s : chars) : bool :=
  match pattern, s with
  | [], _ => true
  | p :: ps, c :: cs => Ascii.eqb p c && starts_with ps cs
  | _ :: _, [] => false
  end.

(* ---- header: icgemio_rdhead.cpp ---- *)
(* icgemio_rdhead.cpp:32-37 *)
Fixpoint next_non_ws (s : chars) : chars :=
  match s with c :: t => if Ascii.eqb c blank then next_non_ws t else s | [] => [] end.
(* icgemio_rdhead.cpp:39-44: number of characters up to the next blank or the end *)
Fixpoint word_length (s : chars) : nat :=
  match s with c :: t => if Ascii.eqb c blank then O else S (word_length t) | [] => O end.

(* icgemio_rdhead.cpp:50-71.  [line] is a C string.  A line that ends with the
   keyword makes the code read the buffer behind the terminator (left-over or
   uninitialised bytes): Undef.  start and stop are never null. *)
Definition resolve (kw line : chars) : res (option (chars * nat)) :=
  if starts_with kw line then
    if Nat.eqb (length line) (length kw) then Undef
    else let start := next_non_ws (skipn (length kw + 1) line) in
         Val (Some (start, (word_length start + 1)%nat))
  else Val None.

(* strncpy(dst, src, n) for n <= sizeof dst *)
Definition strncpy (n : nat) (src dst : chars) : chars :=
  firstn n (src ++ repeat nul n) ++ skipn n dst.

(* icgemio.hpp:31-38 *)
Record hdr := Hdr { hd_product : chars; hd_model : chars; hd_tide : chars; hd_norm : chars; hd_errors : chars;
                    hd_gm : Q; hd_radius : Q; hd_degree : Z }.
Definition filled (n : nat) (s : chars) : chars := s ++ repeat nul (n - length s).
Definition hdr0 : hdr :=
  Hdr (filled 64 []) (filled 128 []) (filled 64 (lit "unknown")) (filled 64 (lit "fully_normalized")) (filled 64 []) 0 0 0.
(* icgemio.hpp:50-52 *)
Definition is_normalized (h : hdr) : bool :=
  if list_eq_dec Ascii.ascii_dec (cstr (hd_norm h)) (lit "fully_normalized") then true else false.

(* the text fields: icgemio_rdhead.cpp:98-108, 111-121, 185-221 *)
Definition kw_text (kw line buf : chars) : res chars :=
  try r <- resolve kw line;
  match r with
  | None => Val buf
  | Some (start, size) => if Nat.ltb size (length buf) then Val (strncpy size start buf) else Abort
  end.
(* the numeric fields: icgemio_rdhead.cpp:124-162; value and error flag *)
Definition kw_double (kw line : chars) (v : Q) (err : Z) : res (Q * Z) :=
  try r <- resolve kw line;
  match r with
  | None => Val (v, err)
  | Some (start, _) =>
      let (q, used) := strtod start in
      Val (q, if Nat.eqb used 0 || Qeq_bool q 0 then 2 else err)
  end.
(* icgemio_rdhead.cpp:165-182 *)
Definition kw_int (kw line : chars) (v err : Z) : res (Z * Z) :=
  try r <- resolve kw line;
  match r with
  | None => Val (v, err)
  | Some (start, _) =>
      let l := strtol start in
      let d := wrap 32 (l_val l) in
      Val (d, if Nat.eqb (l_used l) 0 || (d =? 0) then 2 else err)
  end.

(* icgemio_rdhead.cpp:95-221: one header line; the new state and the error flag *)
Definition header_line (h : hdr) (buf : chars) : res (hdr * Z) :=
  let line := next_non_ws buf in
  try p <- kw_text (lit "product_type") line (hd_product h);
  try m <- kw_text (lit "modelname") line (hd_model h);
  try (g, e1) <- kw_double (lit "earth_gravity_constant") line (hd_gm h) 0;
  try (r, e2) <- kw_double (lit "radius") line (hd_radius h) e1;
  try (d, e3) <- kw_int (lit "max_degree") line (hd_degree h) e2;
  try e <- kw_text (lit "errors") line (hd_errors h);
  try t <- kw_text (lit "tide_system") line (hd_tide h);
  try n <- kw_text (lit "norm") line (hd_norm h);
  Val (Hdr p m t n e g r d, e3).

(* icgemio_rdhead.cpp:91-234: [left] more lines are accepted; the code, the state
   and the stream behind the header *)
Fixpoint header_loop (left : nat) (h : hdr) (buf : chars) (s : stream) : res (Z * hdr * stream) :=
  if starts_with (lit "end_of_head") buf then Val (0, h, s)
  else
    try (h', err) <- header_line h buf;
    let (raw, s') := getline 256 s in
    if negb (err =? 0) then Val (err, h', s')
    else match left with
         | O => Val (1, h', s')                    (* ++counter > max_header_lines *)
         | S left' => header_loop left' h' (cstr raw) s'
         end.
(* icgemio_rdhead.cpp:76-238; None: the file cannot be opened *)
Definition parse_header (content : option chars) (h : hdr) : res (Z * hdr * stream) :=
  match content with
  | None => Val (1, h, s_open [])
  | Some f => let (raw, s) := getline 256 (s_open f) in header_loop 1000 h (cstr raw) s
  end.

(* ---- data section: icgemio_rddata.cpp ---- *)
(* icgemio_rddata.cpp:17-27; l, m >= 0 *)
Definition coeffs_nr (l m : nat) : nat :=
  if Nat.eqb l m then let n := (l + 1)%nat in (n * (n - 1) / 2 + n)%nat
  else fold_left (fun sum i => sum + (if Nat.ltb m i then m + 1 else i + 1))%nat (seq 0 (l + 1)) O.

Definition sentinel : Q := inject_Z (-999).

(* icgemio_rddata.cpp:84-141: one line; None = return 1 *)
Definition data_line (l m : Z) (h : hc Q) (read : nat) (line : chars) : res (option (hc Q * nat)) :=
  if starts_with (lit "gfc ") line then
    let s0 := skipn 4 line in
    let rl := strtol s0 in
    if Nat.eqb (l_used rl) 0 then Val None
    else
      let s1 := skipn (l_used rl) s0 in
      let rm := strtol s1 in
      if Nat.eqb (l_used rm) 0 then Val None
      else
        let ll := wrap 32 (l_val rl) in
        let mm := wrap 32 (l_val rm) in
        if (ll <=? l) && (mm <=? m) then
          let s2 := skipn (l_used rm) s1 in
          let (c, kc) := strtod s2 in
          if Nat.eqb kc 0 then Val None
          else
            let s3 := skipn kc s2 in
            let (s, ks) := strtod s3 in
            if Nat.eqb ks 0 then Val None
            else
              try h1 <- lift (C_put h ll mm c);
              if mm =? 0 then if Qeq_bool s 0 then Val (Some (h1, S read)) else Abort
              else try h2 <- lift (S_put h1 ll mm s); Val (Some (h2, S read))
        else Val (Some (h, read))
  else Val (Some (h, read)).

(* icgemio_rddata.cpp:82-144: the coefficients, their number and whether a line was
   malformed (return code 1); None when the step budget is spent *)
Fixpoint data_loop (fuel : nat) (l m : Z) (to_read : nat) (h : hc Q) (read : nat) (buf : chars) (s : stream)
  : option (res (hc Q * nat * bool)) :=
  match fuel with
  | O => None
  | S f =>
      if s_good s && Nat.ltb read to_read then
        match data_line l m h read (cstr buf) with
        | Val (Some (h', read')) => let (raw, s') := getline 512 s in data_loop f l m to_read h' read' raw s'
        | Val None => Some (Val (h, read, true))
        | Abort => Some Abort
        | Undef => Some Undef
        end
      else Some (Val (h, read, false))
  end.

(* icgemio_rddata.cpp:146-166 *)
Definition data_finish (to_read : nat) (h : hc Q) (read : nat) : res (Z * hc Q) :=
  if Nat.ltb read to_read then
    try a <- lift (C_get h 1 0);
    try b <- lift (C_get h 1 1);
    if Nat.eqb (to_read - read) 2 && (Qeq_bool a b && Qeq_bool b sentinel) then
      try h1 <- lift (C_put h 1 0 0%Q);
      try h2 <- lift (C_put h1 1 1 0%Q);
      Val (0, h2)
    else Val (2, h)
  else Val (0, h).

(* icgemio_rddata.cpp:31-167 on the stream positioned at the data section.  The
   members C(1,0), C(1,1) read in the last test are evaluated only when two
   values are missing; reading them earlier has no effect (line 73 wrote them). *)
Definition parse_data (hd : hdr) (content : option stream) (l m : Z) (h : hc Q) : option (res (Z * hc Q)) :=
  if (hd_degree hd <? l) || (l <? m) || (h_degree h <? l) then Some (Val (1, h))
  else
    match content with
    | None => Some (Val (1, h))
    | Some s =>
        let h0 := HC (is_normalized hd) (h_degree h) (h_rows h) in
        match (try h1 <- lift (C_put h0 1 0 sentinel); lift (C_put h1 1 1 sentinel)) with
        | Abort => Some Abort
        | Undef => Some Undef
        | Val h2 =>
            let to_read := coeffs_nr (Z.to_nat l) (Z.to_nat m) in
            let (raw, s') := getline 512 s in
            match data_loop (length (s_rest s) + 2) l m to_read h2 0 raw s' with
            | None => None
            | Some (Val (h3, _, true)) => Some (Val (1, h3))
            | Some (Val (h3, read, false)) => Some (data_finish to_read h3 read)
            | Some Abort => Some Abort
            | Some Undef => Some Undef
            end
        end
    end.

(* gravity/harmonic_coeffs.cpp:23-33, the coefficients seen by value; [junk] is the
   content of fresh memory.  Shrinking keeps the allocation. *)
Definition h_resize (junk : nat -> nat -> Q) (h : hc Q) (n : Z) : hc Q :=
  if n <=? h_degree h then HC (h_normalized h) n (h_rows h) else HC (h_normalized h) n (allocate junk n).

(* gravity/parse_coefficients.cpp:5-36, 42-43 with denormalize = false (the
   de-normalisation of lines 38-40 is Harmonics_model.denormalize).  The data
   section starts at the position behind the header (icgemio_rdhead.cpp:236,
   icgemio_rddata.cpp:64). *)
Definition parse_gravity_model (junk : nat -> nat -> Q) (content : option chars) (degree order : Z) (h : hc Q)
  : option (res (Z * hc Q)) :=
  match parse_header content hdr0 with
  | Abort => Some Abort
  | Undef => Some Undef
  | Val (code, hd, s) =>
      if negb (code =? 0) then Some (Val (1, h))
      else if negb ((degree <=? hd_degree hd) && (order <=? degree)) then Some (Val (1, h))
      else
        match parse_data hd (Some (s_open (s_rest s))) degree order (h_resize junk h degree) with
        | Some (Val (c, h')) => Some (Val (if c =? 0 then 0 else 1, h'))
        | x => x
        end
  end.
