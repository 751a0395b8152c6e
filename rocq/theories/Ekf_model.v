(* Model of src/filters/ekf.hpp (ExtendedKalmanFilter).  Doubles are exact rationals; a matrix is
   the function giving its elements, n is the number of parameters of the filter (sizes that do not
   agree fail an assertion of Eigen and are not modelled).  The time stamp is an opaque tag.  Eigen
   evaluates every product before assigning (no .noalias()), so the right-hand sides all see the
   old P. *)
From Coq Require Import List QArith.
Import ListNotations.
Local Open Scope Q_scope.

Definition vecn := nat -> Q.
Definition matn := nat -> nat -> Q.
Fixpoint sum (n : nat) (f : nat -> Q) : Q := match n with O => 0 | S n => sum n f + f n end.
Definition dotn (n : nat) (a b : vecn) : Q := sum n (fun k => a k * b k).
Definition mulv (n : nat) (A : matn) (v : vecn) : vecn := fun i => dotn n (A i) v.
Definition mulm (n : nat) (A B : matn) : matn := fun i j => dotn n (A i) (fun k => B k j).
Definition transp (A : matn) : matn := fun i j => A j i.
Definition plusm (A B : matn) : matn := fun i j => A i j + B i j.
Definition minusm (A B : matn) : matn := fun i j => A i j - B i j.
(* a column times a row *)
Definition outer (a b : vecn) : matn := fun i j => a i * b j.
Definition scalev (c : Q) (a : vecn) : vecn := fun i => c * a i.
Definition plusv (a b : vecn) : vecn := fun i => a i + b i.
Definition ident : matn := fun i j => if Nat.eqb i j then 1 else 0.

Section Ekf.
Variables (T : Type) (n : nat).
(* ekf.hpp:11-15 *)
Record ekf := Ekf { e_t : T; e_x : vecn; e_P : matn }.
(* ekf.hpp:41-47 *)
Definition ekf_time (e : ekf) (tk : T) (xk : vecn) (phi : matn) : ekf :=
  Ekf tk xk (mulm n (mulm n phi (e_P e)) (transp phi)).
(* ekf.hpp:49-56 *)
Definition ekf_time_q (e : ekf) (tk : T) (xk : vecn) (phi Qdt : matn) : ekf :=
  Ekf tk xk (plusm (mulm n (mulm n phi (e_P e)) (transp phi)) Qdt).
(* ekf.hpp:60-64: the divisor and the gain *)
Definition ekf_innov_var (e : ekf) (sigma : Q) (H : vecn) : Q := sigma * sigma + dotn n H (mulv n (e_P e) H).
Definition ekf_gain (e : ekf) (sigma : Q) (H : vecn) : vecn := fun i => mulv n (e_P e) H i / ekf_innov_var e sigma H.
(* ekf.hpp:58-75; None = division by zero (NaN/inf in the code) *)
Definition ekf_obs (e : ekf) (z g sigma : Q) (H : vecn) : option ekf :=
  if Qeq_bool (ekf_innov_var e sigma H) 0 then None else
  let K := ekf_gain e sigma H in
  let x := plusv (e_x e) (fun i => K i * (z - g)) in
  let KWm1Kt := outer (fun i => K i * sigma) (fun i => K i * sigma) in
  let ImKG := minusm ident (outer K H) in
  Some (Ekf (e_t e) x (plusm (mulm n (mulm n ImKG (e_P e)) (transp ImKG)) KWm1Kt)).

Inductive ekf_op :=
| ETime (tk : T) (xk : vecn) (phi : matn)
| ETimeQ (tk : T) (xk : vecn) (phi Qdt : matn)
| EObs (z g sigma : Q) (H : vecn).
Definition ekf_step (e : ekf) (op : ekf_op) : option ekf :=
  match op with
  | ETime tk xk phi => Some (ekf_time e tk xk phi)
  | ETimeQ tk xk phi Qdt => Some (ekf_time_q e tk xk phi Qdt)
  | EObs z g sigma H => ekf_obs e z g sigma H
  end.
Fixpoint ekf_run (e : ekf) (ops : list ekf_op) : option ekf :=
  match ops with
  | [] => Some e
  | o :: r => match ekf_step e o with Some e' => ekf_run e' r | None => None end
  end.
End Ekf.
Arguments Ekf {T}.
Arguments e_t {T}.
Arguments e_x {T}.
Arguments e_P {T}.
Arguments ETime {T}.
Arguments ETimeQ {T}.
Arguments EObs {T}.
Arguments ekf_time {T}.
Arguments ekf_time_q {T}.
Arguments ekf_innov_var {T}.
Arguments ekf_gain {T}.
Arguments ekf_obs {T}.
Arguments ekf_step {T}.
Arguments ekf_run {T}.
