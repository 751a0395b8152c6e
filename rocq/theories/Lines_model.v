(* The loop  while (fin.getline(line, n)) { ... }  shared by the text readers:
   the body maps the state and the characters stored in the buffer (before the
   terminating NUL written by getline) to a new state, or leaves the loop with a
   result.  The result is None when the step budget is spent; the callers pass a
   budget that Lines_proofs.v shows to be sufficient for every stream.  This is
   C++ semantics (trusted base), not code of /repo. *)
From Coq Require Import List Ascii.
From Verif Require Import CLib_model Stream_model.
Import ListNotations.

Fixpoint loop_lines {S R : Type} (fuel n : nat) (step : S -> chars -> S + R) (st : S) (s : stream)
  : option (S + R) :=
  match fuel with
  | O => None
  | Datatypes.S f =>
      let (t, s') := getline n s in
      if s_ok s' then
        match step st t with
        | inl st' => loop_lines f n step st' s'
        | inr r => Some (inr r)
        end
      else Some (inl st)
  end.
(* enough steps for any stream: every completed pass takes a character or ends the file *)
Definition line_budget (s : stream) : nat := length (s_rest s) + 2.
