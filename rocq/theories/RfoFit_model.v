(* Model of the least squares fit of the receiver's relative frequency offset,
   src/rinex/fit_rfo.cpp.  Doubles are exact rationals, epochs are nanoseconds.  The blocks are what
   RinexDataBlockIterator delivers (modelled in Rinex_model.v), with the code of the call that ends
   the iteration.  LDLT's solve is an argument (the object y refers to a decomposition that no longer
   exists when it is used; that is not modelled). *)
From Coq Require Import List ZArith QArith Bool.
From Verif Require Import Base.
Import ListNotations.
Local Open Scope Z_scope.

(* an epoch: corrected_l1_epoch, proper_time and the values of each beacon *)
Record block := Blk { b_tl1 : Z; b_proper : Z; b_obs : list (list Q) }.
(* a line of b and A; None is a value that is not finite *)
Record row := Row { rw_b : option Q; rw_a : list Q }.
Record rfo_state := RS { s_cval : nat; s_fs : list Q; s_t0 : Z; s_tend : Z; s_rows : list row }.

(* fit_rfo.cpp:57-60 *)
Definition f_value (b : block) (f_idx : Z) : outcome Q :=
  match b_obs b with
  | [] => UB
  | o :: _ => if f_idx <? 0 then UB else load o (Z.to_nat f_idx)
  end.
Definition total (l : list Q) : Q := fold_left Qplus l 0%Q.
(* fit_rfo.cpp:70-75, 112-116 *)
Definition middle (t0 tend : Z) : Z := t0 + Z.quot (tend - t0) 2.
(* src/filters/models.hpp:33-39 *)
Definition seconds_from (t tref : Z) : Q := inject_Z (t - tref) / inject_Z 1000000000.
(* fit_rfo.cpp:120 *)
Definition days_from (t tref : Z) : Q := inject_Z (t - tref) / inject_Z 86400000000000.
(* fit_rfo.cpp:78-82: n more powers after a *)
Fixpoint powers (a dt : Q) (n : nat) : list Q :=
  match n with O => [] | S n => (a * dt)%Q :: powers (a * dt)%Q dt n end.
Definition design (order : nat) (dt : Q) : list Q := 1%Q :: dt :: powers dt dt (order - 1).
(* b(idx) = ..., A(idx, .) = ..., ++idx on matrices with room for cap lines *)
Definition push (cap : nat) (rows : list row) (r : row) : outcome (list row) :=
  if (length rows <? cap)%nat then Ok (rows ++ [r]) else UB.

Section Parse.
Variables (use_tai : bool) (every order cap : nat) (f_idx start fin tref : Z).
(* fit_rfo.cpp:49-89: an epoch inside the range *)
Definition take_block (st : rfo_state) (b : block) : outcome rfo_state :=
  do f <- f_value b f_idx;
  do fs <- store (s_fs st) (Nat.modulo (s_cval st) every) f;
  let tend := if use_tai then b_tl1 b else b_proper b in
  if Nat.eqb (Nat.modulo (s_cval st + 1) every) 0 then
    let v := (total fs / inject_Z (Z.of_nat every))%Q in
    do rows <- push cap (s_rows st) (Row (Some v) (design order (seconds_from (middle (s_t0 st) tend) tref)));
    Ok (RS (s_cval st + 1) fs (s_t0 st) tend rows)
  else Ok (RS (s_cval st + 1) fs (if Nat.eqb (Nat.modulo (s_cval st) every) 0 then tend else s_t0 st) tend (s_rows st)).
(* fit_rfo.cpp:44-93: the state and the value of error after the loop *)
Fixpoint read_blocks (term : Z) (st : rfo_state) (bs : list block) : outcome (rfo_state * Z) :=
  match bs with
  | [] => Ok (st, term)
  | b :: bs =>
      if (start <=? b_tl1 b) && (b_tl1 b <? fin) then do st <- take_block st b; read_blocks term st bs
      else if fin <=? b_tl1 b then Ok (st, 0)
      else read_blocks term st bs
  end.
(* fit_rfo.cpp:105-126 *)
Definition leftover (st : rfo_state) : outcome (list row) :=
  let j := Z.rem (Z.of_nat (s_cval st) - 1) (Z.of_nat every) in
  if j =? Z.of_nat every - 1 then Ok (s_rows st)
  else if 0 <? j then UB
  else
    let s := total (firstn (Z.to_nat (Z.of_nat every + j)) (s_fs st)) in
    push cap (s_rows st) (Row (if j =? 0 then None else Some (s / inject_Z j)%Q) (design order (days_from (middle (s_t0 st) (s_tend st)) tref))).
End Parse.

(* fit_rfo.cpp:11-129; none is a default-constructed epoch, file_ref the reference epoch of the file *)
Definition parse_rinex_rfos (none : Z) (use_tai : bool) (every order cap : nat) (f_idx start fin : Z) (tref : option Z) (rows : list row) (file_ref : Z) (term : Z) (bs : list block) : outcome (Z * Z * list row) :=
  match every with
  | O => UB
  | _ =>
      let tref := match tref with Some t => t | None => file_ref end in
      do se <- read_blocks use_tai every order cap f_idx start fin tref term (RS 0 (repeat 0%Q every) none none rows) bs;
      if 0 <? snd se then Ok (1, tref, s_rows (fst se))
      else do rows <- leftover every order cap tref (fst se); Ok (0, tref, rows)
  end.

(* a RINEX file: index of F, reference epoch, blocks, code of the last call of the iterator *)
Record rinex := Rnx { x_f : Z; x_ref : Z; x_blocks : list block; x_term : Z }.
(* fit_rfo.cpp:171-182 *)
Fixpoint parse_all (none : Z) (use_tai : bool) (every order cap : nat) (start fin : Z) (tref : option Z) (rows : list row) (files : list rinex) : outcome (option (option Z * list row)) :=
  match files with
  | [] => Ok (Some (tref, rows))
  | f :: files =>
      do r <- parse_rinex_rfos none use_tai every order cap (x_f f) start fin tref rows (x_ref f) (x_term f) (x_blocks f);
      let '(code, t, rows) := r in
      if code =? 0 then parse_all none use_tai every order cap start fin (Some t) rows files else Ok None
  end.
(* fit_rfo.cpp:144-160: num_days as a rational; every divides as integers *)
Definition room (every : nat) (num_days : Q) : nat :=
  let v := (inject_Z (17280 / Z.of_nat every) * num_days + 10)%Q in Z.to_nat (Z.quot (Qnum v) (Zpos (Qden v))).

Definition dotp (a b : list Q) : Q := total (map (fun p => fst p * snd p)%Q (combine a b)).
Definition col (k : nat) (rows : list (Q * list Q)) : list Q := map (fun r => nth k (snd r) 0%Q) rows.
(* A^T A and A^T b *)
Definition normal_matrix (m : nat) (rows : list (Q * list Q)) : list (list Q) := map (fun i => map (fun k => dotp (col i rows) (col k rows)) (seq 0 m)) (seq 0 m).
Definition normal_rhs (m : nat) (rows : list (Q * list Q)) : list Q := map (fun i => dotp (col i rows) (map fst rows)) (seq 0 m).
Fixpoint finite (rows : list row) : option (list (Q * list Q)) :=
  match rows with
  | [] => Some []
  | r :: rows => match rw_b r, finite rows with Some v, Some l => Some ((v, rw_a r) :: l) | _, _ => None end
  end.
(* fit_rfo.cpp:131-200; the polynomial, xref and coefficients.  Inner None: no finite solution *)
Definition fit_offsets (solve : list (list Q) -> list Q -> list Q) (none : Z) (use_tai : bool) (every order : nat) (start fin : Z) (num_days : Q) (files : list rinex) : outcome (Z * option (option Z * list Q)) :=
  match every with
  | O => UB
  | _ =>
      do r <- parse_all none use_tai every order (room every num_days) start fin None [] files;
      match r with
      | None => Ok (1, None)
      | Some (tref, rows) =>
          match finite rows with
          | None => Ok (0, None)
          | Some l => Ok (0, Some (tref, firstn (order + 1) (solve (normal_matrix (order + 1) l) (normal_rhs (order + 1) l))))
          end
      end
  end.
