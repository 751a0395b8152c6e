(* Model of src/beacon_tbl/beacon_tbl.cpp and src/beacon_tbl.hpp.  Dates are numbers of
   nanoseconds; the external date reader is the oracle [strptime] on the C string it is given,
   None standing for its exception, and is taken not to touch errno.  Heights are exact
   rationals, never out of the range of double, so strtod leaves errno alone too: it is the
   value left by earlier calls. *)
From Coq Require Import List ZArith QArith Ascii Bool.
From Verif Require Import Base CLib_model Stream_model Lines_model.
Import ListNotations.
Local Open Scope Z_scope.

(* beacon_tbl.hpp:11-27 *)
Record entry := Entry { b_id : chars; b_height : Q; b_from : Z; b_to : Z }.
(* what a call ends with: rows, or a runtime_error or the exception of the date reader *)
Inductive result := Rows (l : list entry) | Throw.

Section Reader.
Variable strptime : chars -> option Z.

(* the C string at an offset of the line array; reading on past the end of the array is UB *)
Definition text_at (buf : chars) (k : nat) : outcome chars :=
  let s := skipn k buf in if existsb (Ascii.eqb nul) s then Ok (cstr s) else UB.
(* state of the loop: the array and the rows so far *)
Definition bst := (chars * list entry)%type.
(* beacon_tbl.cpp:21-35 *)
Definition row_body (errno t : Z) (st : bst) (text : chars) : bst + outcome result :=
  let buf := into_buffer (fst st) text in
  match text_at buf 5 with
  | UB => inr UB
  | Ok f =>
  match strptime f with
  | None => inr (Ok Throw)
  | Some from =>
  match text_at buf 24 with
  | UB => inr UB
  | Ok o =>
  match strptime o with
  | None => inr (Ok Throw)
  | Some to =>
  match text_at buf 45 with
  | UB => inr UB
  | Ok h =>
      let (height, used) := strtod h in
      if negb (errno =? 0) || Nat.eqb used 0 then inr (Ok Throw)
      else if (from <=? t) && (t <? to) then inl (buf, snd st ++ [Entry (firstn 4 buf) height from to])
      else inl (buf, snd st)
  end end end end end.
(* beacon_tbl.cpp:4-39; [content] is None if the file cannot be opened, [array] what the stack holds
   in the line array; None if the steps are used up *)
Definition load_to_memory (content : option chars) (array : chars) (errno t : Z) : option (outcome result) :=
  match content with
  | None => Some (Ok Throw)
  | Some c =>
      let (header, s) := getline 256 (s_open c) in
      match loop_lines (line_budget s) 256 (row_body errno t) (into_buffer array header, []) s with
      | None => None
      | Some (inl st) => Some (Ok (Rows (snd st)))
      | Some (inr r) => Some r
      end
  end.
End Reader.
