(* Model of src/itrs2gcrs.cpp (the branch without ABCD).  Doubles are real numbers. *)
From Coq Require Import Reals.
From Verif Require Import Vec_model.
Local Open Scope R_scope.

(* position and velocity: a 6-vector *)
Record state := State { st_r : vec; st_v : vec }.
(* itrs2gcrs.cpp:89, 125: AngleAxisd(era, -UnitZ) *)
Definition rot_era (era : R) : mat := turn_z (- era).
(* the product rpom * AngleAxisd(era, -UnitZ) * rc2i of itrs2gcrs.cpp:89-90 *)
Definition cel2ter (rc2i : mat) (era : R) (rpom : mat) : mat := mulm rpom (mulm (rot_era era) rc2i).
(* itrs2gcrs.cpp:80-82 *)
Definition OmegaEarth (omega0 xlod : R) : R := omega0 * (1 - xlod / 86400).
(* itrs2gcrs.cpp:105: Eigen reads the nine numbers column by column *)
Definition spin_matrix : mat := transpose (mat9 0 (-1) 0 1 0 0 0 0 0).
(* itrs2gcrs.cpp:107-116: omega is OmegaEarth(xlod) with NEW_EOP, the constant otherwise.
   The product is kept by reference to a temporary in the C++ text; here it is evaluated. *)
Definition cel2ter_rate (rc2i : mat) (era omega : R) (rpom : mat) : mat :=
  mulm rpom (mulm (mulm (mscale omega spin_matrix) (rot_era era)) rc2i).
(* itrs2gcrs.cpp:84-91 *)
Definition rcel2ter (r : vec) (rc2i : mat) (era : R) (rpom : mat) : vec := mulv (cel2ter rc2i era rpom) r.
(* itrs2gcrs.cpp:93-118 *)
Definition ycel2ter (y : state) (rc2i : mat) (era omega : R) (rpom : mat) : state :=
  State (rcel2ter (st_r y) rc2i era rpom)
        (vadd (rcel2ter (st_v y) rc2i era rpom) (mulv (cel2ter_rate rc2i era omega rpom) (st_r y))).
(* itrs2gcrs.cpp:120-127 *)
Definition rter2cel (r : vec) (rc2i : mat) (era : R) (rpom : mat) : vec := mulv (transpose (cel2ter rc2i era rpom)) r.
(* itrs2gcrs.cpp:129-154 *)
Definition yter2cel (y : state) (rc2i : mat) (era omega : R) (rpom : mat) : state :=
  State (rter2cel (st_r y) rc2i era rpom)
        (vadd (rter2cel (st_v y) rc2i era rpom) (mulv (transpose (cel2ter_rate rc2i era omega rpom)) (st_r y))).
