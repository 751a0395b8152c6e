(* Model, in binary64, of the two filters whose variances are printed or used as such: the two-parameter filter of
   doris/fit_rfo.cpp (Kalman2_model.v has it over the reals) and filters/ekf.hpp with one parameter (Ekf_model.v has it
   over the rationals, for any number).  Flocq's arithmetic stands for the processor's; no fused operations. *)
From Coq Require Import List ZArith.
From Flocq Require Import IEEE754.BinarySingleNaN IEEE754.Binary IEEE754.Bits.
From Verif Require Import FloatTime_model FloatAngle_model.
Import ListNotations.
Local Open Scope Z_scope.

(* fit_rfo.cpp:79-85; K and Q are never used, tref is in [days] *)
Record filter2 := F2 { f_x0 : double; f_x1 : double; f_P0 : double; f_P1 : double; f_P2 : double; f_R : double }.
(* fit_rfo.cpp:8-17 *)
Definition start (x0 x1 s0 s1 sobs : double) : filter2 := F2 x0 x1 (dmul s0 s0) zero (dmul s1 s1) (dmul sobs sobs).
(* fit_rfo.cpp:24-27, with fractional_days (external): nanoseconds since the reference over those of a day *)
Definition days (ns : Z) : double := ddiv (of_int ns) (of_int 86400000000000).
(* fit_rfo.cpp:19-22 *)
Definition value_at (f : filter2) (dt : double) : double := dadd (f_x0 f) (dmul dt (f_x1 f)).
(* fit_rfo.cpp:29-46 *)
Definition update (f : filter2) (z dt : double) : filter2 :=
  let y := dsub z (value_at f dt) in
  let p0p1dt := dadd (f_P0 f) (dmul (f_P1 f) dt) in
  let p1p2dt := dadd (f_P1 f) (dmul (f_P2 f) dt) in
  let s := dadd (dadd p0p1dt (dmul dt p1p2dt)) (f_R f) in
  let k0 := ddiv p0p1dt s in
  let k1 := ddiv p1p2dt s in
  let x0 := dadd (f_x0 f) (dmul k0 y) in
  let x1 := dadd (f_x1 f) (dmul k1 y) in
  let p0 := dsub (dmul (dsub one k0) (f_P0 f)) (dmul (dmul (f_P1 f) k0) dt) in
  let p1 := ddiv (dadd (dsub (dmul (dsub one k0) (f_P1 f)) (dmul (dmul (f_P2 f) k0) dt))
                       (dadd (dmul (dopp k1) (f_P0 f)) (dmul (dsub one (dmul k1 dt)) (f_P1 f)))) two in
  let p2 := dadd (dmul (dopp k1) (f_P1 f)) (dmul (dsub one (dmul k1 dt)) (f_P2 f)) in
  F2 x0 x1 p0 p1 p2 (f_R f).
(* fit_rfo.cpp:200-201, 250-255: the updates of all blocks, each a value and the nanoseconds since the reference *)
Definition run (f : filter2) (obs : list (double * Z)) : filter2 := fold_left (fun f o => update f (fst o) (days (snd o))) obs f.
(* fit_rfo.cpp:202-204: the printed standard deviations *)
Definition sigma_x0 (f : filter2) : double := dsqrt (f_P0 f).
Definition sigma_x1 (f : filter2) : double := dsqrt (f_P2 f).

(* ekf.hpp:11-15 for one parameter: estimate and variance *)
Record filter1 := F1 { e_x : double; e_P : double }.
(* ekf.hpp:60-64; Eigen's sums start with the first product *)
Definition gain (P sigma H : double) : double := ddiv (dmul P H) (dadd (dmul sigma sigma) (dmul H (dmul P H))).
(* ekf.hpp:58-75: an observation (z, g, sigma, H) *)
Definition observe (f : filter1) (o : double * double * double * double) : filter1 :=
  let '(z, g, sigma, H) := o in
  let K := gain (e_P f) sigma H in
  let ImKG := dsub one (dmul K H) in
  F1 (dadd (e_x f) (dmul K (dsub z g))) (dadd (dmul (dmul ImKG (e_P f)) ImKG) (dmul (dmul K sigma) (dmul K sigma))).
(* ekf.hpp:41-47: a new estimate and the transition of one parameter *)
Definition predict (f : filter1) (x phi : double) : filter1 := F1 x (dmul (dmul phi (e_P f)) phi).
Inductive step1 := Observation (o : double * double * double * double) | Prediction (x phi : double).
Definition do_step (f : filter1) (s : step1) : filter1 :=
  match s with Observation o => observe f o | Prediction x phi => predict f x phi end.
Definition steps (f : filter1) (l : list step1) : filter1 := fold_left do_step l f.
