(* Three-vectors and 3x3 matrices over the reals: the operations of dso::Vector3 and
   dso::Mat3x3 (matvec/matvec.hpp) and of the Eigen fixed-size types used in /repo.
   Both libraries are external; doubles are idealised as real numbers. *)
From Coq Require Import Reals.
Local Open Scope R_scope.

Record vec := V { vx : R; vy : R; vz : R }.
Definition vadd (a b : vec) : vec := V (vx a + vx b) (vy a + vy b) (vz a + vz b).
Definition vsub (a b : vec) : vec := V (vx a - vx b) (vy a - vy b) (vz a - vz b).
Definition vscale (k : R) (a : vec) : vec := V (k * vx a) (k * vy a) (k * vz a).
Definition dot (a b : vec) : R := vx a * vx b + vy a * vy b + vz a * vz b.
Definition cross (a b : vec) : vec :=
  V (vy a * vz b - vz a * vy b) (vz a * vx b - vx a * vz b) (vx a * vy b - vy a * vx b).
Definition norm (a : vec) : R := sqrt (dot a a).
Definition vzero : vec := V 0 0 0.
Definition unit_z : vec := V 0 0 1.

(* rows *)
Record mat := M { row0 : vec; row1 : vec; row2 : vec }.
Definition mat9 (a b c d e f g h i : R) : mat := M (V a b c) (V d e f) (V g h i).
Definition transpose (m : mat) : mat :=
  M (V (vx (row0 m)) (vx (row1 m)) (vx (row2 m)))
    (V (vy (row0 m)) (vy (row1 m)) (vy (row2 m)))
    (V (vz (row0 m)) (vz (row1 m)) (vz (row2 m))).
Definition mulv (m : mat) (a : vec) : vec := V (dot (row0 m) a) (dot (row1 m) a) (dot (row2 m) a).
(* first, second, third column *)
Definition col0 (m : mat) : vec := row0 (transpose m).
Definition col1 (m : mat) : vec := row1 (transpose m).
Definition col2 (m : mat) : vec := row2 (transpose m).
Definition mulm (m n : mat) : mat :=
  M (V (dot (row0 m) (col0 n)) (dot (row0 m) (col1 n)) (dot (row0 m) (col2 n)))
    (V (dot (row1 m) (col0 n)) (dot (row1 m) (col1 n)) (dot (row1 m) (col2 n)))
    (V (dot (row2 m) (col0 n)) (dot (row2 m) (col1 n)) (dot (row2 m) (col2 n))).
Definition madd (m n : mat) : mat := M (vadd (row0 m) (row0 n)) (vadd (row1 m) (row1 n)) (vadd (row2 m) (row2 n)).
Definition msub (m n : mat) : mat := M (vsub (row0 m) (row0 n)) (vsub (row1 m) (row1 n)) (vsub (row2 m) (row2 n)).
Definition mscale (k : R) (m : mat) : mat := M (vscale k (row0 m)) (vscale k (row1 m)) (vscale k (row2 m)).
Definition identity : mat := mat9 1 0 0 0 1 0 0 0 1.
(* a b^T *)
Definition outer (a b : vec) : mat := M (vscale (vx a) b) (vscale (vy a) b) (vscale (vz a) b).
(* Eigen::AngleAxisd(angle, UnitZ), (angle, UnitX): counterclockwise rotations of vectors *)
Definition turn_z (t : R) : mat := mat9 (cos t) (- sin t) 0 (sin t) (cos t) 0 0 0 1.
Definition turn_x (t : R) : mat := mat9 1 0 0 0 (cos t) (- sin t) 0 (sin t) (cos t).
