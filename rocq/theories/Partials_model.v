(* Model of src/astrodynamics/state_partials.cpp and of the second function of
   src/astrodynamics/propagate_state.cpp.  Doubles are real numbers.  6-vectors are states
   (position and velocity), 6x6 matrices are given by their columns or by their rows. *)
From Coq Require Import Reals ZArith.
From Verif Require Import Vec_model Kepler_model.
Local Open Scope R_scope.

Definition sadd (x y : state) : state := State (vadd (st_r x) (st_r y)) (vadd (st_v x) (st_v y)).
Definition sscale (k : R) (x : state) : state := State (vscale k (st_r x)) (vscale k (st_v x)).
Definition sdot (x y : state) : R := dot (st_r x) (st_r y) + dot (st_v x) (st_v y).
Record mat6 := M6 { m6_0 : state; m6_1 : state; m6_2 : state; m6_3 : state; m6_4 : state; m6_5 : state }.

(* state_partials.cpp:10-80 for the perifocal state of the date.  None: the node is undefined,
   its vector has length zero and the divisions give NaN.  The columns of the result are the
   partials by a, e, i, Omega, omega and the mean anomaly at epoch *)
Definition partials_at (GM : R) (el : elements) (dt : R) (p : state) : option mat6 :=
  let x := vx (st_r p) in
  let y := vy (st_r p) in
  let vX := vx (st_v p) in
  let vY := vy (st_v p) in
  let r := norm (st_r p) in
  let PQW := mulm (mulm (turn_z (el_Omega el)) (turn_x (el_i el))) (turn_z (el_omega el)) in
  let P := col0 PQW in
  let Q := col1 PQW in
  let W := col2 PQW in
  let N0 := cross unit_z W in
  if Req_EM_T (norm N0) 0 then None else
  let N := vscale (/ norm N0) N0 in
  let dPdi := cross N P in
  let dPdO := cross unit_z P in
  let dPdo := Q in
  let dQdi := cross N Q in
  let dQdO := cross unit_z Q in
  let dQdo := vscale (-1) P in
  let lin (u w : vec) := State (vadd (vscale x u) (vscale y w)) (vadd (vscale vX u) (vscale vY w)) in
  let dYdi := lin dPdi dQdi in
  let dYdO := lin dPdO dQdO in
  let dYdo := lin dPdo dQdo in
  let a := el_a el in
  let e := el_e el in
  let fac := sqrt ((1 - e) * (1 + e)) in
  let n := sqrt (GM / (a * a * a)) in
  let dYda := State (vadd (vscale (x / a) P) (vscale (y / a) Q))
                    (vadd (vscale (- vX / (2 * a)) P) (vscale (- vY / (2 * a)) Q)) in
  let dYde := State (vadd (vscale (- a - (y / fac) ^ 2 / r) P) (vscale (x * y / (r * fac * fac)) Q))
                    (vadd (vscale (vX * (2 * a * x + e * (y / fac) ^ 2) / (r * r)) P)
                          (vscale (n / fac * (a / r) ^ 2 * (x * x / r - (y / fac) ^ 2 / a)) Q)) in
  let dYdM := State (vscale (/ n) (vadd (vscale vX P) (vscale vY Q)))
                    (vscale (- n * (a / r) ^ 3) (vadd (vscale x P) (vscale y Q))) in
  let dMda := - (15 / 10) * (n / a) * dt in
  Some (M6 (sadd dYda (sscale dMda dYdM)) dYde dYdi dYdO dYdo dYdM).
(* state_partials.cpp:5-81 *)
Definition state_partials (GM : R) (el : elements) (dt : R) : option mat6 :=
  match elements2perifocal GM el dt with None => None | Some p => partials_at GM el dt p end.

(* propagate_state.cpp:58-91: the rows of the partials of the elements by the state, from the
   partials of the state by the elements *)
Definition poisson (GM : R) (el : elements) (dYdA : mat6) : mat6 :=
  let a := el_a el in
  let e := el_e el in
  let i := el_i el in
  let n := sqrt (GM / (a * a * a)) in
  let sqe2 := sqrt ((1 - e) * (1 + e)) in
  let naa := n * a * a in
  let P_aM := - (2) / (n * a) in
  let P_eM := - (1 - e) * (1 + e) / (naa * e) in
  let P_eo := sqe2 / (naa * e) in
  let P_io := - (1) / (naa * sqe2 * tan i) in
  let P_iO := 1 / (naa * sqe2 * sin i) in
  (* position row from the velocity part of a column, velocity row from minus its position part *)
  let turn (k : R) (c : state) := State (vscale k (st_v c)) (vscale (- k) (st_r c)) in
  M6 (turn P_aM (m6_5 dYdA))
     (sadd (turn P_eo (m6_4 dYdA)) (turn P_eM (m6_5 dYdA)))
     (sadd (turn P_iO (m6_3 dYdA)) (turn P_io (m6_4 dYdA)))
     (turn (- P_iO) (m6_2 dYdA))
     (sadd (turn (- P_eo) (m6_1 dYdA)) (turn (- P_io) (m6_2 dYdA)))
     (sadd (turn (- P_aM) (m6_0 dYdA)) (turn (- P_eM) (m6_1 dYdA))).
(* matrix given by columns times vector, and its product with a matrix given by rows (propagate_state.cpp:95) *)
Definition mul6 (m : mat6) (c0 c1 c2 c3 c4 c5 : R) : state :=
  sadd (sscale c0 (m6_0 m)) (sadd (sscale c1 (m6_1 m)) (sadd (sscale c2 (m6_2 m)) (sadd (sscale c3 (m6_3 m)) (sadd (sscale c4 (m6_4 m)) (sscale c5 (m6_5 m)))))).
Definition row_col (m rows : mat6) (get : state -> R) : state :=
  mul6 m (get (m6_0 rows)) (get (m6_1 rows)) (get (m6_2 rows)) (get (m6_3 rows)) (get (m6_4 rows)) (get (m6_5 rows)).
Definition mulm6 (m rows : mat6) : mat6 :=
  M6 (row_col m rows (fun s => vx (st_r s))) (row_col m rows (fun s => vy (st_r s))) (row_col m rows (fun s => vz (st_r s)))
     (row_col m rows (fun s => vx (st_v s))) (row_col m rows (fun s => vy (st_v s))) (row_col m rows (fun s => vz (st_v s))).
Definition apply6 (m : mat6) (y : state) : state :=
  mul6 m (vx (st_r y)) (vy (st_r y)) (vz (st_r y)) (vx (st_v y)) (vy (st_v y)) (vz (st_v y)).
(* propagate_state.cpp:45-99: state and transition matrix *)
Definition propagate_state_partials (GM : R) (Y0 : state) (dt : R) : option (state * mat6) :=
  let el := state2elements (st_r Y0) (st_v Y0) GM in
  match state_partials GM el 0, state_partials GM el dt, propagate_state GM el dt with
  | Some dY0dA0, Some dYdA0, Some Y => Some (Y, mulm6 dYdA0 (poisson GM el dY0dA0))
  | _, _, _ => None
  end.
