(* Model of EopLookUpTable, src/eop.hpp:30-256.
   A cell of the arena is [Some v], or [None] when its bytes are indeterminate
   (fresh memory) or a mixture of two values (partially copied).  The arena is
   [None] for the null pointer.  Allocation never fails; sizes are >= 0. *)
From Coq Require Import List Arith Bool.
From Verif Require Import Base.
Import ListNotations.

Section Eop.
Variable V : Type.
Definition cells := list (option V).

(* eop.hpp:35-45: the column pointers are kept as offsets into the arena, in the
   order mjd, xp, yp, ut1, dx, dy, lod, omega *)
Record table := Table { t_sz : nat; t_cap : nat; t_arena : option cells; t_base : list nat }.
Inductive column := Mjd | Xp | Yp | Ut1 | Dx | Dy | Lod | Omega.
Definition col_nr (c : column) : nat :=
  match c with Mjd => 0 | Xp => 1 | Yp => 2 | Ut1 => 3 | Dx => 4 | Dy => 5 | Lod => 6 | Omega => 7 end.

(* eop.hpp:139-145, 157-167: column k starts at mem_arena + k*capacity *)
Definition bases (cap : nat) : list nat := map (fun k => k * cap) (seq 0 8).
Definition fresh (cap : nat) : cells := repeat None (cap * 8).

(* eop.hpp:138-145 *)
Definition t_new (cap : nat) : table := Table cap cap (Some (fresh cap)) (bases cap).

(* eop.hpp:48-135 (release build): *( column + i ) for reading and writing *)
Definition t_get (t : table) (c : column) (i : nat) : outcome (option V) :=
  match t_arena t with
  | None => UB
  | Some a => do b <- load (t_base t) (col_nr c); load a (b + i)
  end.
Definition t_set (t : table) (c : column) (i : nat) (v : V) : outcome table :=
  match t_arena t with
  | None => UB
  | Some a => do b <- load (t_base t) (col_nr c); do a' <- store a (b + i) (Some v);
              Ok (Table (t_sz t) (t_cap t) (Some a') (t_base t))
  end.

(* eop.hpp:148-168 *)
Definition t_resize (t : table) (n : nat) : table :=
  if n <? t_cap t then Table n (t_cap t) (t_arena t) (t_base t)
  else Table n n (Some (fresh n)) (bases n).

(* eop.hpp:178-184: (new object, moved-from object) *)
Definition t_move (t : table) : table * table :=
  (Table (t_sz t) (t_sz t) (t_arena t) (t_base t), Table 0 0 None (t_base t)).
(* eop.hpp:212-231; the old arena of the target is dropped (leaked) *)
Definition t_move_assign (dst src : table) : table * table := t_move src.

(* memcpy(dst + d, src + s, bytes) on 8-byte doubles: whole cells are copied, a
   partially copied cell is indeterminate *)
Fixpoint copy_cells (n : nat) (dst : cells) (d : nat) (src : cells) (s : nat) : outcome cells :=
  match n with
  | O => Ok dst
  | S m => do v <- load src s; do dst' <- store dst d v; copy_cells m dst' (S d) src (S s)
  end.
Definition memcpy_bytes (dst : cells) (d : nat) (src : cells) (s bytes : nat) : outcome cells :=
  do r <- copy_cells (bytes / 8) dst d src s;
  if Nat.eqb (bytes mod 8) 0 then Ok r
  else do _ <- load src (s + bytes / 8); store r (d + bytes / 8) None.

(* eop.hpp:192-206, 239-254: the eight memcpy calls *)
Fixpoint copy_columns (k n : nat) (dst : cells) (dcap : nat) (src : cells) (scap sz : nat) : outcome cells :=
  match n with
  | O => Ok dst
  | S m => do dst' <- memcpy_bytes dst (k * dcap) src (k * scap) sz; copy_columns (S k) m dst' dcap src scap sz
  end.
(* eop.hpp:237-254 *)
Definition t_copy (src : table) : outcome table :=
  match t_arena src with
  | None => if Nat.eqb (t_sz src) 0 then Ok (Table 0 0 (Some []) (bases 0)) else UB
  | Some a => do c <- copy_columns 0 8 (fresh (t_sz src)) (t_sz src) a (t_cap src) (t_sz src);
              Ok (Table (t_sz src) (t_sz src) (Some c) (bases (t_sz src)))
  end.
(* eop.hpp:187-209 *)
Definition t_copy_assign (dst src : table) : outcome table :=
  let t := if Nat.eqb (t_sz dst) (t_sz src) then dst else t_resize dst (t_sz src) in
  match t_arena t, t_arena src with
  | Some d, Some a => do c <- copy_columns 0 8 d (t_cap t) a (t_cap src) (t_sz t);
                      Ok (Table (t_sz t) (t_cap t) (Some c) (bases (t_cap t)))
  | _, _ => if Nat.eqb (t_sz t) 0 then Ok t else UB
  end.

(* histories of one table *)
Inductive eop := EWrite (c : column) (i : nat) (v : V) | EResize (n : nat).
Definition e_step (t : table) (op : eop) : outcome table :=
  match op with
  | EWrite c i v => t_set t c i v
  | EResize n => Ok (t_resize t n)
  end.
Fixpoint e_run (t : table) (ops : list eop) : outcome table :=
  match ops with [] => Ok t | op :: rest => do t' <- e_step t op; e_run t' rest end.
End Eop.
Arguments Table {V}. Arguments t_sz {V}. Arguments t_cap {V}. Arguments t_arena {V}. Arguments t_base {V}.
Arguments t_get {V}. Arguments t_set {V}. Arguments t_resize {V}. Arguments t_move {V}. Arguments t_move_assign {V}.
Arguments t_copy {V}. Arguments t_copy_assign {V}. Arguments EWrite {V}. Arguments EResize {V}.
Arguments e_step {V}. Arguments e_run {V}. Arguments copy_cells {V}. Arguments memcpy_bytes {V}. Arguments copy_columns {V}.
