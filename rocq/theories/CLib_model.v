(* The parts of the C/C++ run-time library the modelled code calls: character
   classes, C strings in fixed buffers, strtol, strtod, std::from_chars.  They
   follow the C11 (7.22.1) and C++17 (23.20.3) texts in the "C" locale; they
   are part of the trusted base, not code of /repo. *)
From Coq Require Import List ZArith QArith Ascii Bool.
Import ListNotations.
Local Open Scope Z_scope.

Notation chars := (list ascii).
Definition nul : ascii := Ascii.zero.
Definition blank : ascii := " "%char.

Definition code (c : ascii) : Z := Z.of_nat (nat_of_ascii c).

(* isspace() *)
Definition is_space (c : ascii) : bool :=
  (code c =? 32) || ((9 <=? code c) && (code c <=? 13)).

(* isdigit(), with the digit's value *)
Definition digit_of (c : ascii) : option Z :=
  if (48 <=? code c) && (code c <=? 57) then Some (code c - 48) else None.

(* content of a C string stored in a buffer: the characters before the first NUL *)
Fixpoint cstr (b : chars) : chars :=
  match b with
  | [] => []
  | c :: t => if Ascii.eqb c nul then [] else c :: cstr t
  end.

Fixpoint skip_spaces (s : chars) : nat * chars :=
  match s with
  | c :: t => if is_space c then let (k, r) := skip_spaces t in (S k, r) else (O, s)
  | [] => (O, [])
  end.

(* optional sign: (negative?, characters consumed, rest) *)
Definition sign_of (s : chars) : bool * nat * chars :=
  match s with
  | c :: t => if Ascii.eqb c "-" then (true, 1%nat, t)
              else if Ascii.eqb c "+" then (false, 1%nat, t)
              else (false, O, s)
  | [] => (false, O, [])
  end.

(* longest run of digits: (value continuing from acc, number of digits, rest) *)
Fixpoint digits (acc : Z) (s : chars) : Z * nat * chars :=
  match s with
  | c :: t => match digit_of c with
              | Some d => let '(v, n, r) := digits (acc * 10 + d) t in (v, S n, r)
              | None => (acc, O, s)
              end
  | [] => (acc, O, [])
  end.

Definition LONG_MAX : Z := 2 ^ 63 - 1.
Definition LONG_MIN : Z := - 2 ^ 63.

(* strtol(s, &end, 10): value, end - s, ERANGE *)
Record lres := LRes { l_val : Z; l_used : nat; l_range : bool }.
Definition strtol (s : chars) : lres :=
  let (k, s1) := skip_spaces s in
  let '(neg, k1, s2) := sign_of s1 in
  let '(v, n, _) := digits 0 s2 in
  if Nat.eqb n 0 then LRes 0 0 false
  else
    let v := if neg then - v else v in
    let used := (k + k1 + n)%nat in
    if v >? LONG_MAX then LRes LONG_MAX used true
    else if v <? LONG_MIN then LRes LONG_MIN used true
    else LRes v used false.

(* std::from_chars(first, last, int&): no leading blanks, no '+'.
   None = invalid_argument / result_out_of_range (no value stored). *)
Definition INT_MAX : Z := 2 ^ 31 - 1.
Definition INT_MIN : Z := - 2 ^ 31.
Definition from_chars_int (s : chars) : option (Z * nat) :=
  let '(neg, k1, s2) :=
    match s with
    | c :: t => if Ascii.eqb c "-" then (true, 1%nat, t) else (false, O, s)
    | [] => (false, O, s)
    end in
  let '(v, n, _) := digits 0 s2 in
  if Nat.eqb n 0 then None
  else let v := if neg then - v else v in
       if (v >? INT_MAX) || (v <? INT_MIN) then None else Some (v, (k1 + n)%nat).

(* decimal floating literal: digits [. digits] [(e|E) [sign] digits].  Value as
   an exact rational (no rounding, no overflow to infinity); hexadecimal,
   "inf" and "nan" forms are not recognised. *)
Definition Qpow10 (e : Z) : Q :=
  if 0 <=? e then inject_Z (10 ^ e) else / inject_Z (10 ^ (- e)).
Definition decimal (s : chars) : option (Q * nat) :=
  let '(ip, ni, s1) := digits 0 s in
  let '(m, nf, s2, kdot) :=
    match s1 with
    | c :: t => if Ascii.eqb c "." then
                  let '(v, nf, r) := digits ip t in (v, nf, r, 1%nat)
                else (ip, O, s1, O)
    | [] => (ip, O, s1, O)
    end in
  if Nat.eqb (ni + nf) 0 then None
  else
    let q0 := (inject_Z m * Qpow10 (- Z.of_nat nf))%Q in
    let used0 := (ni + kdot + nf)%nat in
    match s2 with
    | c :: t =>
        if Ascii.eqb c "e" || Ascii.eqb c "E" then
          let '(neg, k1, s3) := sign_of t in
          let '(e, ne, _) := digits 0 s3 in
          if Nat.eqb ne 0 then Some (q0, used0)
          else Some ((q0 * Qpow10 (if neg then - e else e))%Q, (used0 + 1 + k1 + ne)%nat)
        else Some (q0, used0)
    | [] => Some (q0, used0)
    end.

(* strtod(s,&end): value and end - s (0 = no conversion, value 0) *)
Definition strtod (s : chars) : Q * nat :=
  let (k, s1) := skip_spaces s in
  let '(neg, k1, s2) := sign_of s1 in
  match decimal s2 with
  | None => (0%Q, O)
  | Some (q, n) => ((if neg then - q else q)%Q, (k + k1 + n)%nat)
  end.

(* std::from_chars(first,last,double&) *)
Definition from_chars_double (s : chars) : option (Q * nat) :=
  match s with
  | c :: t => if Ascii.eqb c "-"
              then match decimal t with Some (q, n) => Some ((- q)%Q, S n) | None => None end
              else decimal s
  | [] => None
  end.
