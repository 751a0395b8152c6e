(* Model of src/satellites/satellite_corrections.cpp and of
   SatelliteInfo<...>::mass_cog (src/satellites/jason3.hpp:75-94,
   src/satellites/cryosat2.hpp:52-71).  Doubles are exact rationals; the epoch is
   given as its Julian day and seconds of day. *)
From Coq Require Import List ZArith QArith Ascii Bool.
From Verif Require Import Base CLib_model Stream_model Lines_model.
Import ListNotations.
Notation "'let*' p <- e ; f" := (obind e (fun p => f)) (at level 200, p pattern, e at level 100, f at level 200).

(* while ( *c++ == ' ');  on the rest of the 256-byte array.  The character that
   ends the loop is passed over as well; running off the array is UB. *)
Fixpoint skip_drop (s : chars) : outcome chars :=
  match s with [] => UB | c :: t => if Ascii.eqb c blank then skip_drop t else Ok t end.

(* from_chars(c, line + 255, v) on the rest of the array: value (None: invalid
   argument, v untouched) and number of characters passed; a rest of length 0 has c > last *)
Definition num_at (s : chars) : outcome (option Q * nat) :=
  match s with
  | [] => UB
  | _ => match from_chars_double (removelast s) with
         | Some (q, n) => Ok (Some q, n)
         | None => Ok (None, O)
         end
  end.

(* satellite_corrections.cpp:36-41, 42-46: skip, number, one separator; the value,
   the number of errors (0 or 1) and the rest *)
Definition key_field (s : chars) : outcome (option Q * nat * chars) :=
  do s1 <- skip_drop s;
  let* (v, n) <- num_at s1;
  do c <- load s1 n;
  Ok (v, match v with Some _ => if Ascii.eqb c blank then O else 1%nat | None => 1%nat end, skipn (S n) s1).

(* satellite_corrections.cpp:53-61, one pass; the test of the separator is commented out *)
Definition cor_field (s : chars) (old : Q) : outcome (Q * nat * chars) :=
  do s1 <- skip_drop s;
  let* (v, n) <- num_at s1;
  Ok (match v with Some q => (q, O) | None => (old, 1%nat) end, skipn (S n) s1).
Fixpoint cor_fields (s : chars) (olds : list Q) : outcome (list Q * nat) :=
  match olds with
  | [] => Ok ([], O)
  | old :: rest =>
      let* (r, s') <- cor_field s old;
      let* (l, e) <- cor_fields s' rest;
      Ok (fst r :: l, snd r + e)%nat
  end.

(* state of the loop: the buffer, dmdxyz and error *)
Record cst := Cst { c_buf : chars; c_dm : list Q; c_err : nat }.
(* result of leaving the loop early *)
Inductive cexit := Stop (st : cst) | Bad.

Definition comment_line (buf : chars) : bool :=
  match buf with c :: _ => Ascii.eqb c "C" || Ascii.eqb c "/" | [] => false end.

(* satellite_corrections.cpp:26-63: the body of the loop.  The buffer keeps the
   bytes behind the terminator of the new line. *)
Definition cor_body (jd sec : Q) (st : cst) (text : chars) : cst + cexit :=
  let buf := into_buffer (c_buf st) text in
  let st := Cst buf (c_dm st) (c_err st) in
  if negb (Nat.eqb (c_err st) 0) then inr (Stop st)                  (* && !error *)
  else if comment_line buf then inl st
  else
    match (let* (r1, s1) <- key_field buf; let* (r2, s2) <- key_field s1; Ok (r1, r2, s2)) with
    | UB => inr Bad
    | Ok (r1, r2, s2) =>
        let err := (snd r1 + snd r2)%nat in
        match fst r1, fst r2, err with
        | Some cjd, Some csec, O =>
            if Qle_bool jd cjd && Qle_bool sec csec then inr (Stop st)
            else match cor_fields s2 (c_dm st) with
                 | UB => inr Bad
                 | Ok (dm, e) => inl (Cst buf dm e)
                 end
        | _, _, _ => inr (Stop (Cst buf (c_dm st) err))
        end
    end.

(* satellite_corrections.cpp:5-76: [buf0] is the indeterminate initial content of
   the 256-byte array; the code and dmdxyz.  None: step budget spent. *)
Definition sat_corrections (buf0 : chars) (content : option chars) (jd sec : Q) (dm0 : list Q) : option (outcome (nat * list Q)) :=
  match content with
  | None => Some (Ok (1%nat, dm0))
  | Some f =>
      match loop_lines (line_budget (s_open f)) 256 (cor_body jd sec) (Cst buf0 [0; 0; 0; 0]%Q O) (s_open f) with
      | None => None
      | Some (inl st) | Some (inr (Stop st)) => Some (Ok (c_err st, c_dm st))
      | Some (inr Bad) => Some UB
      end
  end.

(* jason3.hpp:40, 47, 77-94; cryosat2.hpp:17, 24, 54-71: code, mass and centre of gravity;
   the outputs keep their values on failure *)
Inductive satellite := Jason3 | Cryosat2.
Definition initial (s : satellite) : list Q :=
  match s with
  | Jason3 => [5096 # 10; 10023 # 10000; 0 # 10000; -21 # 10000]
  | Cryosat2 => [7246 # 10; 16312 # 10000; 112 # 10000; 137 # 10000]
  end.
Definition mass_cog (s : satellite) (buf0 : chars) (content : option chars) (jd sec : Q) (uninit out0 : list Q)
  : option (outcome (nat * list Q)) :=
  match sat_corrections buf0 content jd sec uninit with
  | Some (Ok (O, cor)) => Some (Ok (O, map (fun p => (fst p + snd p)%Q) (combine (initial s) cor)))
  | Some (Ok (_, _)) => Some (Ok (1%nat, out0))
  | Some UB => Some UB
  | None => None
  end.
