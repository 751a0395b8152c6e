(* std::istream as the modelled readers use it (C++17 30.7.4.3): the
   characters not yet extracted and the eof/fail flags (the file itself never
   reports hardware errors, so badbit is not modelled).  Part of the trusted
   base, not code of /repo. *)
From Coq Require Import List Ascii Bool.
From Verif Require Import CLib_model.
Import ListNotations.

Definition nl : ascii := ascii_of_nat 10.
Record stream := Stream { s_rest : chars; s_eof : bool; s_fail : bool }.
Definition s_open (content : chars) : stream := Stream content false false.
Definition s_good (s : stream) : bool := negb (s_eof s) && negb (s_fail s).
(* operator bool *)
Definition s_ok (s : stream) : bool := negb (s_fail s).

Inductive line_end := AtEof | AtNl | Full.
Fixpoint take_line (room : nat) (l : chars) : chars * chars * line_end :=
  match l with
  | [] => ([], [], AtEof)
  | c :: t =>
      if Ascii.eqb c nl then ([], t, AtNl)
      else match room with
           | O => ([], l, Full)
           | S r => let '(a, b, e) := take_line r t in (c :: a, b, e)
           end
  end.

(* istream::getline(buf, n): the characters stored (before the NUL) *)
Definition getline (n : nat) (s : stream) : chars * stream :=
  if s_good s then
    let '(a, b, e) := take_line (n - 1) (s_rest s) in
    let eof := match e with AtEof => true | _ => false end in
    let fail := match e, a with AtEof, [] => true | Full, _ => true | _, _ => false end in
    (a, Stream b eof fail)
  else ([], Stream (s_rest s) (s_eof s) true).

(* the same into a character array: bytes behind the terminator keep their old value *)
Definition into_buffer (buf text : chars) : chars := text ++ nul :: skipn (S (length text)) buf.
