(* Model of parse_iers_C04, src/iers/parse_c04.cpp.
   Doubles are exact rationals.  dso::utc2tai belongs to the external datetime
   library: [tt] gives the TT date stored for 0h UTC of a day (lines 81-85).
   Days are unbounded integers (modified_julian_day and the int difference of
   line 47 do not overflow); start <= end is a precondition (a negative number
   of days would give the table a negative size). *)
From Coq Require Import List ZArith QArith Ascii Bool.
From Verif Require Import Base CLib_model Stream_model Lines_model Eop_model.
Import ListNotations.
Local Open Scope Z_scope.

(* parse_c04.cpp:8 *)
Definition C04_LINE : nat := 256.

(* std::from_chars(first, last, long&) *)
Definition from_chars_long (s : chars) : option (Z * nat) :=
  let '(neg, k1, s2) :=
    match s with
    | c :: t => if Ascii.eqb c "-" then (true, 1%nat, t) else (false, O, s)
    | [] => (false, O, s)
    end in
  let '(v, n, _) := digits 0 s2 in
  if Nat.eqb n 0 then None
  else let v := if neg then - v else v in
       if (v >? LONG_MAX) || (v <? LONG_MIN) then None else Some (v, (k1 + n)%nat).

(* parse_c04.cpp:10-15 *)
Fixpoint next_num (s : chars) : chars :=
  match s with c :: t => if Ascii.eqb c blank then next_num t else s | [] => [] end.

(* parse_c04.cpp:89-105: n numbers; None = error counted *)
Fixpoint read_doubles (n : nat) (s : chars) : option (list Q) :=
  match n with
  | O => Some []
  | S m => let s' := next_num s in
           match from_chars_double s' with
           | None => None
           | Some (q, k) => match read_doubles m (skipn k s') with Some l => Some (q :: l) | None => None end
           end
  end.

(* parse_c04.cpp:107-113 *)
Definition c04_columns : list column := [Xp; Yp; Ut1; Lod; Dx; Dy].
Fixpoint assign (t : table Q) (i : nat) (cs : list column) (vs : list Q) : outcome (table Q) :=
  match cs, vs with
  | c :: cs', v :: vs' => do t' <- t_set t c i v; assign t' i cs' vs'
  | _, _ => Ok t
  end.

Section C04.
Variable tt : Z -> Q.
Definition c04_state := (nat * table Q)%type.
(* parse_c04.cpp:124 *)
Definition c04_finish (days : Z) (st : c04_state) : outcome (Z * table Q) :=
  Ok (if days =? Z.of_nat (fst st) then 0 else 1, snd st).

(* parse_c04.cpp:56-120; a line shorter than 12 characters makes from_chars run
   on a reversed range: undefined *)
Definition c04_body (start fin days : Z) (st : c04_state) (raw : chars) : c04_state + outcome (Z * table Q) :=
  let (sz, tbl) := st in
  let line := cstr raw in
  match line with
  | [] => inl st
  | c :: _ =>
      if Ascii.eqb c blank || Ascii.eqb c "#" then inl st
      else if (length line <? 12)%nat then inr UB
      else
        let s := next_num (skipn 12 line) in
        match from_chars_long s with
        | None => inr (Ok (1, tbl))
        | Some (imjd, k) =>
            if (start <=? imjd) && (imjd <? fin) then
              match t_set tbl Mjd sz (tt imjd) with
              | UB => inr UB
              | Ok t1 =>
                  match read_doubles 6 (skipn k s) with
                  | None => inr (Ok (2, t1))
                  | Some vs => match assign t1 sz c04_columns vs with
                               | UB => inr UB
                               | Ok t2 => inl (S sz, t2)
                               end
                  end
              end
            else if fin <=? imjd then inr (c04_finish days st) else inl st
        end
  end.

(* parse_c04.cpp:33-125; [content] is None when the file cannot be opened *)
Definition parse_c04 (content : option chars) (start fin : Z) (t : table Q) : option (outcome (Z * table Q)) :=
  match content with
  | None => Some (Ok (1, t))
  | Some f =>
      let days := fin - start in
      let s := s_open f in
      match loop_lines (line_budget s) C04_LINE (c04_body start fin days) (O, t_resize t (Z.to_nat days)) s with
      | None => None
      | Some (inl st) => Some (c04_finish days st)
      | Some (inr r) => Some r
      end
  end.
End C04.
