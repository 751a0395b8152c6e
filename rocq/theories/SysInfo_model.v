(* Model of src/doris_system_info.hpp, src/doris/doris_system_info.cpp and
   src/doris_observation_equations.hpp (carrier correction).
   double is Q (exact); throwing is the result None. *)
From Coq Require Import List ZArith QArith Ascii String Bool.
From Verif Require Import Base CLib_model.
Import ListNotations.
Local Open Scope Z_scope.

(* doris_system_info.hpp:60-70 *)
Inductive obs_type := phase | pseudorange | power_level | frequency_offset
  | ground_pressure | ground_temperature | ground_humidity.

(* doris/doris_system_info.cpp:6-26; the throwing default is unreachable for enumerators *)
Definition type_to_char (o : obs_type) : ascii :=
  match o with
  | phase => "L" | pseudorange => "C" | power_level => "W" | frequency_offset => "F"
  | ground_pressure => "P" | ground_temperature => "T" | ground_humidity => "H"
  end%char.

(* doris/doris_system_info.cpp:28-48; None = throws *)
Definition char_to_type (c : ascii) : option obs_type :=
  if Ascii.eqb c "L" then Some phase
  else if Ascii.eqb c "C" then Some pseudorange
  else if Ascii.eqb c "W" then Some power_level
  else if Ascii.eqb c "F" then Some frequency_offset
  else if Ascii.eqb c "P" then Some ground_pressure
  else if Ascii.eqb c "T" then Some ground_temperature
  else if Ascii.eqb c "H" then Some ground_humidity
  else None.

(* doris/doris_system_info.cpp:56-69 *)
Definition has_frequency (o : obs_type) : bool :=
  match o with
  | phase | pseudorange | power_level => true
  | _ => false
  end.

(* doris_system_info.hpp:104-106 *)
Record obs_code := ObsCode { oc_type : obs_type; oc_freq : Z }.

(* doris/doris_system_info.cpp:77-86; None = throws *)
Definition mk_code (t : obs_type) (freq : Z) : option obs_code :=
  if has_frequency t then
    if (freq <? 1) || (freq >? 2) then None else Some (ObsCode t freq)
  else Some (ObsCode t 0).

(* doris_system_info.hpp:118-120, enum comparison *)
Definition type_eqb (a b : obs_type) : bool :=
  match a, b with
  | phase, phase | pseudorange, pseudorange | power_level, power_level
  | frequency_offset, frequency_offset | ground_pressure, ground_pressure
  | ground_temperature, ground_temperature | ground_humidity, ground_humidity => true
  | _, _ => false
  end.
Definition code_eqb (a b : obs_code) : bool :=
  type_eqb (oc_type a) (oc_type b) && (oc_freq a =? oc_freq b).

(* doris/doris_system_info.cpp:134-138: "%c%1d"; assertion m_freq < 10.  Only
   the one-digit non-negative frequencies a constructed code can hold. *)
Definition code_to_str (c : obs_code) : outcome chars :=
  if (0 <=? oc_freq c) && (oc_freq c <? 10)
  then Ok [type_to_char (oc_type c); ascii_of_nat (Z.to_nat (48 + oc_freq c))]
  else UB.

(* ---- stations ---- *)
Inductive antenna := Alcatel | Starec_B | Starec_C.

(* doris_system_info.hpp:138-150 *)
Record station := Station {
  st_code : chars;    (* char[3]  *)
  st_id : chars;      (* char[4]  *)
  st_name : chars;    (* char[30] *)
  st_domes : chars;   (* char[10] *)
  st_type : Z;        (* int_fast8_t *)
  st_shift : Z }.     (* int *)

(* conversion of a long to an n-bit signed integer (modular) *)
Definition wrap (n v : Z) : Z := (v + 2 ^ (n - 1)) mod 2 ^ n - 2 ^ (n - 1).

(* memcpy(dst, line + off, n) from a string of at least off+n characters *)
Definition columns (line : chars) (off n : nat) : chars := firstn n (skipn off line).

(* doris/doris_system_info.cpp:118-123 on the reversed array: blanks become NUL,
   the first character is never touched *)
Fixpoint strip_rev (r : chars) : chars :=
  match r with
  | [] => []
  | [c] => [c]
  | c :: t => if Ascii.eqb c blank then nul :: strip_rev t else r
  end.
Definition strip_tail (b : chars) : chars := rev (strip_rev (rev b)).

(* doris/doris_system_info.cpp:98-126.  [errno] is the process error number on
   entry (true = non-zero); the result carries the code, the object and errno.
   [line] is the content of a NUL-terminated string. *)
Definition set_from_rinex_line (errno : bool) (st : station) (line : chars)
  : Z * station * bool :=
  if (Nat.ltb (List.length line) 60) then (1, st, errno)
  else
    let code := columns line 0 3 in
    let id := columns line 5 4 in
    let name := columns line 10 30 in
    let domes := columns line 40 10 in
    let r1 := strtol (skipn 50 line) in
    let errno1 := errno || l_range r1 in
    let ty := wrap 8 (l_val r1) in
    if errno1 || Nat.eqb (l_used r1) 0 then (2, Station code id name domes ty (st_shift st), false)
    else
      let r2 := strtol (skipn 52 line) in
      let errno2 := errno1 || l_range r2 in
      let sh := wrap 32 (l_val r2) in
      if errno2 || Nat.eqb (l_used r2) 0 then (3, Station code id name domes ty sh, false)
      else (0, Station code id (strip_tail name) (strip_tail domes) ty sh, errno2).

(* doris/doris_system_info.cpp:140-152 *)
Definition antenna_of (st : station) : outcome (option antenna) :=
  do c <- load (st_id st) 3;
  Ok (if Ascii.eqb c "A" then Some Alcatel
      else if Ascii.eqb c "B" then Some Starec_B
      else if Ascii.eqb c "C" then Some Starec_C
      else None).

(* %.Ns of printf: up to N characters, stopping at NUL; reading past an array
   that has fewer than N characters and no NUL is UB *)
Fixpoint print_prec (n : nat) (b : chars) : outcome chars :=
  match n with
  | O => Ok []
  | S n' => match b with
            | [] => UB
            | c :: t => if Ascii.eqb c nul then Ok [] else do r <- print_prec n' t; Ok (c :: r)
            end
  end.
(* %s: the array must contain a NUL *)
Fixpoint print_s (b : chars) : outcome chars :=
  match b with
  | [] => UB
  | c :: t => if Ascii.eqb c nul then Ok [] else do r <- print_s t; Ok (c :: r)
  end.
(* doris/doris_system_info.cpp:128-132: "[%.3s/%.4s_%.9s](%s)", without the final NUL *)
Definition station_to_str (st : station) : outcome chars :=
  do a <- print_prec 3 (st_code st);
  do b <- print_prec 4 (st_id st);
  do c <- print_prec 9 (st_domes st);
  do d <- print_s (st_name st);
  Ok (["["%char] ++ a ++ ["/"%char] ++ b ++ ["_"%char] ++ c ++ ["]"; "("]%char ++ d ++ [")"%char]).

(* ---- frequencies ---- *)
Local Open Scope Q_scope.
(* doris_system_info.hpp:24-38 *)
Definition FREQ1 : Q := 203625 # 100.
Definition FREQ2 : Q := 40125 # 100.
Definition GAMMA_SQRT : Q := FREQ1 / FREQ2.
Definition GAMMA : Q := GAMMA_SQRT * GAMMA_SQRT.
Definition USO_F0 : Q := 5000000.

(* doris_system_info.hpp:46-56: (s1_freq, u2_freq) *)
Definition beacon_nominal_frequency (k : Z) : Q * Q :=
  let two26 := inject_Z (2 ^ 26) in
  let fac1 := USO_F0 * (75 # 100) in
  let fac2 := (USO_F0 * (87 * inject_Z k)) / (5 * two26) in
  (543 * fac1 + 543 * fac2, 107 * fac1 + 107 * fac2).

(* doris_observation_equations.hpp:16-19 *)
Definition carrier_iono_correction (L1 L2 : Q) : Q :=
  (L1 - GAMMA_SQRT * L2) / (GAMMA - 1).

(* doris_system_info.hpp:162-179, one coordinate, in the units of the offsets
   times 1e-3; r1/r2 are the two offsets selected by antenna type *)
Definition iono_free_offset (r1 r2 : Q) : Q :=
  (r1 + (r1 - r2) / (GAMMA - 1)) * (1 # 1000).
