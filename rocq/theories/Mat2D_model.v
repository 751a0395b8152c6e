(* Model of src/cmat2d.hpp : compact 2-D matrices.
   Simplifications: [int] row/column numbers are [nat] (negative sizes or
   indices are outside the model); overflow of [int] offsets is not modelled;
   element values are of an arbitrary type [V] and a freshly allocated element
   is [None] (indeterminate).  Copying a Mat2D (lines 235-255) calls
   memset(double*, double*, n), which is ill-formed when instantiated, and move
   assignment (257-262) has no return statement; neither is modelled. *)
From Coq Require Import List Arith.
From Verif Require Import Base.
Import ListNotations.

(* cmat2d.hpp:18-22 *)
Inductive storage := RowWise | ColumnWise | Trapezoid.

(* cmat2d.hpp:34-35, 93-94, 134-135 (the two data members) *)
Record shape := Shape { rows : nat; cols : nat }.

(* cmat2d.hpp:51-53 *)
Definition pts_in_row (s : shape) (row : nat) : nat := Nat.min (row + 1) (cols s).

(* cmat2d.hpp:44-45, loop [for r in 0..rows-1: n += min(r+1, cols)] *)
Fixpoint trap_count (c : nat) (r : nat) : nat :=
  match r with 0 => 0 | S r' => trap_count c r' + Nat.min (r' + 1) c end.

(* cmat2d.hpp:62-65, loop [for i in 0..row-1: offset += pts_in_row(i)] *)
Fixpoint trap_slice (s : shape) (row : nat) : nat :=
  match row with 0 => 0 | S i => trap_slice s i + pts_in_row s i end.

(* cmat2d.hpp:38-48 (Trapezoid), 97 (RowWise), 138 (ColumnWise) *)
Definition num_elements (k : storage) (s : shape) : nat :=
  match k with
  | Trapezoid =>
      if Nat.eqb (rows s) (cols s) then (rows s * (rows s + 1)) / 2
      else trap_count (cols s) (rows s)
  | RowWise | ColumnWise => rows s * cols s
  end.

(* cmat2d.hpp:61-66 (Trapezoid), 114 (RowWise), 155 (ColumnWise) *)
Definition slice (k : storage) (s : shape) (i : nat) : nat :=
  match k with
  | Trapezoid => trap_slice s i
  | RowWise => i * cols s
  | ColumnWise => i * rows s
  end.

(* cmat2d.hpp:71-73 (Trapezoid), 102-104 (RowWise), 143-145 (ColumnWise) *)
Definition element_offset (k : storage) (s : shape) (row column : nat) : nat :=
  match k with
  | Trapezoid =>
      if Nat.leb column (rows s) then trap_slice s row + column
      else trap_slice s column + row
  | RowWise => row * cols s + column
  | ColumnWise => column * rows s + row
  end.

Section Values.
Variable V : Type.

(* cmat2d.hpp:173-176: the object (storage kind, shape, heap array) *)
Record mat := Mat { m_kind : storage; m_shape : shape; m_data : list (option V) }.

(* cmat2d.hpp:227-228: constructor, [new double[num_elements()]] *)
Definition mat_new (k : storage) (s : shape) : mat :=
  Mat k s (repeat None (num_elements k s)).

(* cmat2d.hpp:188-193: operator()(i,j) used as an lvalue *)
Definition mat_set (m : mat) (i j : nat) (v : V) : outcome mat :=
  do d <- store (m_data m) (element_offset (m_kind m) (m_shape m) i j) (Some v);
  Ok (Mat (m_kind m) (m_shape m) d).

(* cmat2d.hpp:196-201: operator()(i,j) used as an rvalue; reading outside the
   array is UB, an element never written is [None] *)
Definition mat_get (m : mat) (i j : nat) : outcome (option V) :=
  load (m_data m) (element_offset (m_kind m) (m_shape m) i j).

(* cmat2d.hpp:215: slice(i)[k] = v *)
Definition mat_slice_set (m : mat) (i k : nat) (v : V) : outcome mat :=
  do d <- store (m_data m) (slice (m_kind m) (m_shape m) i + k) (Some v);
  Ok (Mat (m_kind m) (m_shape m) d).

(* cmat2d.hpp:207-209: value of slice(i)[k] *)
Definition mat_slice_get (m : mat) (i k : nat) : outcome (option V) :=
  load (m_data m) (slice (m_kind m) (m_shape m) i + k).

(* cmat2d.hpp:217-219: std::fill over [m_data, m_data+num_elements()) *)
Definition mat_fill (m : mat) (v : V) : outcome mat :=
  let n := num_elements (m_kind m) (m_shape m) in
  if Nat.leb n (length (m_data m))
  then Ok (Mat (m_kind m) (m_shape m) (repeat (Some v) n ++ skipn n (m_data m)))
  else UB.

(* The public mutators as data, to speak about arbitrary call histories. *)
Inductive mop :=
| MSet (i j : nat) (v : V)
| MSliceSet (i k : nat) (v : V)
| MFill (v : V).

Definition mat_step (m : mat) (o : mop) : outcome mat :=
  match o with
  | MSet i j v => mat_set m i j v
  | MSliceSet i k v => mat_slice_set m i k v
  | MFill v => mat_fill m v
  end.

Fixpoint mat_run (m : mat) (ops : list mop) : outcome mat :=
  match ops with
  | [] => Ok m
  | o :: r => do m' <- mat_step m o; mat_run m' r
  end.
End Values.
Arguments MSet {V}. Arguments MSliceSet {V}. Arguments MFill {V}.
Arguments mat_new {V}. Arguments mat_set {V}. Arguments mat_get {V}.
Arguments mat_step {V}. Arguments mat_run {V}. Arguments mat_slice_get {V}.
Arguments mat_slice_set {V}. Arguments mat_fill {V}.
Arguments Mat {V}. Arguments m_kind {V}. Arguments m_shape {V}. Arguments m_data {V}.
