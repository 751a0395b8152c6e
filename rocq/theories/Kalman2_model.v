(* Model of the two-parameter frequency-offset filter in
   src/doris/fit_rfo.cpp (struct LinearKalman).  double is R; an epoch is its
   integer count of nanoseconds. *)
From Coq Require Import List Reals ZArith.
Import ListNotations.
Local Open Scope R_scope.

(* fit_rfo.cpp:79-85; K and Q are never used *)
Record lk := LK { lk_x0 : R; lk_x1 : R; lk_P0 : R; lk_P1 : R; lk_P2 : R; lk_R : R; lk_tref : Z }.

(* fit_rfo.cpp:8-17 *)
Definition lk_init (x0 x1 s0 s1 sobs : R) (reft : Z) : lk :=
  LK x0 x1 (s0 * s0) 0 (s1 * s1) (sobs * sobs) reft.

(* fit_rfo.cpp:24-27: elapsed time in fractional days *)
Definition lk_t2d (f : lk) (t : Z) : R := IZR (t - lk_tref f) / 86400000000000.

(* fit_rfo.cpp:19-22 *)
Definition lk_value_at (f : lk) (t : Z) : R := lk_x0 f + lk_t2d f t * lk_x1 f.

(* fit_rfo.cpp:29-46 *)
Definition lk_update (f : lk) (z : R) (t : Z) : lk :=
  let dt := lk_t2d f t in
  let y := z - lk_value_at f t in
  let p0p1dt := lk_P0 f + lk_P1 f * dt in
  let p1p2dt := lk_P1 f + lk_P2 f * dt in
  let s := p0p1dt + dt * p1p2dt + lk_R f in
  let k0 := p0p1dt / s in
  let k1 := p1p2dt / s in
  let x0 := lk_x0 f + k0 * y in
  let x1 := lk_x1 f + k1 * y in
  let p0 := (1 - k0) * lk_P0 f - lk_P1 f * k0 * dt in
  let p1 := (((1 - k0) * lk_P1 f - lk_P2 f * k0 * dt) +
             (- k1 * lk_P0 f + (1 - k1 * dt) * lk_P1 f)) / 2 in
  let p2 := - k1 * lk_P1 f + (1 - k1 * dt) * lk_P2 f in
  LK x0 x1 p0 p1 p2 (lk_R f) (lk_tref f).

(* the loop of fit_rfo.cpp:217-280 restricted to its filter updates *)
Definition lk_run (f : lk) (obs : list (R * Z)) : lk :=
  fold_left (fun f o => lk_update f (fst o) (snd o)) obs f.
