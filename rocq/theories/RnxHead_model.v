(* Model of the observation-code and scale-factor records of
   src/rinex/read_rnx_header.cpp.  [line] is the header buffer (MAX_HEADER_CHARS
   bytes, the bytes behind the terminator are left over from earlier lines); a C
   string without terminator in the buffer is UB.  errno is zero on entry to both
   branches (lines 149 and 197). *)
From Coq Require Import List ZArith Ascii Bool.
From Verif Require Import Base CLib_model Stream_model SysInfo_model Rinex_model.
Import ListNotations.
Local Open Scope nat_scope.

(* while ( *s == ' ') ++s *)
Fixpoint drop_blanks (s : chars) : chars :=
  match s with
  | c :: t => if Ascii.eqb c blank then drop_blanks t else s
  | [] => []
  end.

(* read_rnx_header.cpp:161-179: codes k, k+1, ... of the OBS TYPES line, n left *)
Fixpoint obs_codes (line : chars) (n k : nat) (acc : list obs_code) : outcome (Z * list obs_code) :=
  match n with
  | O => Ok (0%Z, acc)
  | S n' =>
      do s0 <- string_at line (6 + k * 4);
      match drop_blanks s0 with
      | [] => Ok (114%Z, acc)                     (* char_to_observationType('\0') throws *)
      | c :: s =>
          match char_to_type c with
          | None => Ok (114%Z, acc)
          | Some t =>
              let r := strtol s in
              if has_frequency t && (Nat.eqb (l_used r) 0 || l_range r) then Ok (113%Z, acc)
              else
                match mk_code t (if has_frequency t then wrap 32 (l_val r) else 0%Z) with
                | None => Ok (114%Z, acc)
                | Some code => obs_codes line n' (S k) (acc ++ [code])
                end
          end
      end
  end.
(* read_rnx_header.cpp:148-179: status, m_obs_codes, obs_types_num *)
Definition obs_types_line (line : chars) (old : list obs_code) (oldnum : Z) : outcome (Z * list obs_code * Z) :=
  do c0 <- load line 0;
  if negb (Ascii.eqb c0 "D") then Ok (111%Z, old, oldnum)
  else
    do s <- string_at line 1;
    let r := strtol s in
    let num := wrap 32 (l_val r) in
    if (Nat.eqb (l_used r) 0 || l_range r || (num =? 0)%Z) then Ok (112%Z, old, num)
    else if negb (num <? 13)%Z then UB            (* assert(obs_types_num < 13) *)
    else
      do res <- obs_codes line (Z.to_nat num) 0 [];
      Ok (fst res, snd res, num).

(* read_rnx_header.cpp:222-248: codes k, k+1, ... of a SCALE FACTOR line *)
Fixpoint scale_codes (codes : list obs_code) (line : chars) (factor : Z) (n k : nat) (factors : list Z)
  : outcome (Z * list Z) :=
  match n with
  | O => Ok (0%Z, factors)
  | S n' =>
      do s0 <- string_at line (10 + k * 4);
      match drop_blanks s0 with
      | [] => Ok (146%Z, factors)
      | c :: s =>
          match char_to_type c with
          | None => Ok (146%Z, factors)
          | Some t =>
              let r := strtol s in
              let freq := if has_frequency t then wrap 32 (l_val r) else 0%Z in
              if has_frequency t && ((freq =? 0)%Z || l_range r || Nat.eqb (l_used r) 0) then Ok (144%Z, factors)
              else
                match mk_code t freq with
                | None => Ok (146%Z, factors)
                | Some code =>
                    let i := get_observation_code_index codes code in
                    if (i <? 0)%Z then Ok (145%Z, factors)
                    else
                      do f <- store factors (Z.to_nat i) factor;
                      scale_codes codes line factor n' (S k) f
                end
          end
      end
  end.
(* read_rnx_header.cpp:196-248: status and m_obs_scale_factors *)
Definition scale_line (codes : list obs_code) (old : list Z) (line : chars) : outcome (Z * list Z) :=
  do c0 <- load line 0;
  if negb (Ascii.eqb c0 "D") then Ok (141%Z, old)
  else
    let factors := repeat 1%Z (length codes) in
    do s <- string_at line 2;
    let r := strtol s in
    let factor := wrap 32 (l_val r) in
    if ((factor =? 0)%Z || l_range r || Nat.eqb (l_used r) 0) then Ok (142%Z, factors)
    else
      do c8 <- load line 8; do c9 <- load line 9;
      if Ascii.eqb c8 c9 && Ascii.eqb c8 blank then
        scale_codes codes line factor (length codes) 0 factors
      else
        do s8 <- string_at line 8;
        let r8 := strtol s8 in
        let num := wrap 32 (l_val r8) in
        if ((num =? 0)%Z || (Z.of_nat (length codes) <? num)%Z || l_range r8 || Nat.eqb (l_used r8) 0)
        then Ok (143%Z, factors)
        else scale_codes codes line factor (Z.to_nat num) 0 factors.

(* the SCALE FACTOR lines of one header, in order, behind its OBS TYPES line *)
Fixpoint scale_lines (codes : list obs_code) (factors : list Z) (lines : list chars) : outcome (Z * list Z) :=
  match lines with
  | [] => Ok (0%Z, factors)
  | l :: rest =>
      do r <- scale_line codes factors l;
      if (fst r =? 0)%Z then scale_lines codes (snd r) rest else Ok r
  end.
