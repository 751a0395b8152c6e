(* Model of the row-wise overload of lagrange_polynomials, src/gravity/lagrange_poly.cpp:5-65 (compiled with
   DEBUG; test/test_grav1.cpp compares it with the other one).  Doubles are real numbers; degrees and orders
   are natural numbers. *)
From Coq Require Import ZArith Reals Bool Arith.
From Verif Require Import Base Vec_model Gravity_model.
Local Open Scope R_scope.

(* cmat2d.hpp:92-127, Mat2D<RowWise>: the cells with i < rows and j < cols; any other index is taken as undefined *)
Definition row_inside (t : table) (i j : nat) : bool := Nat.ltb i (t_rows t) && Nat.ltb j (t_cols t).
Definition row_get (t : table) (i j : nat) : outcome R := if row_inside t i j then Ok (t_val t i j) else UB.
Definition row_put (t : table) (i j : nat) (v : R) : outcome table :=
  if row_inside t i j then Ok (Table (t_rows t) (t_cols t) (fun a b => if Nat.eqb a i && Nat.eqb b j then v else t_val t a b)) else UB.

(* lagrange_poly.cpp:36-40 *)
Definition row_zonal_step (z0 rho : R) (n : nat) (s : table * table) : outcome (table * table) :=
  let (V, W) := s in
  do v1 <- row_get V (n - 1) 0;
  do v2 <- row_get V (n - 2) 0;
  do V' <- row_put V n 0 (((2 * INR n - 1) * z0 * v1 - (INR n - 1) * rho * v2) / INR n);
  do W' <- row_put W n 0 0;
  Ok (V', W').
(* lagrange_poly.cpp:53-60 *)
Definition row_tesseral_step (z0 rho : R) (m n : nat) (s : table * table) : outcome (table * table) :=
  let (V, W) := s in
  do v1 <- row_get V (n - 1) m;
  do v2 <- row_get V (n - 2) m;
  do V' <- row_put V n m (((2 * INR n - 1) * z0 * v1 - (INR n + INR m - 1) * rho * v2) / (INR n - INR m));
  do w1 <- row_get W (n - 1) m;
  do w2 <- row_get W (n - 2) m;
  do W' <- row_put W n m (((2 * INR n - 1) * z0 * w1 - (INR n + INR m - 1) * rho * w2) / (INR n - INR m));
  Ok (V', W').
(* lagrange_poly.cpp:42-61; W(m,m) is computed after V(m,m), from the cells of order m - 1 *)
Definition row_order_step (x0 y0 z0 rho : R) (l m : nat) (s : table * table) : outcome (table * table) :=
  let (V, W) := s in
  do v <- row_get V (m - 1) (m - 1);
  do w <- row_get W (m - 1) (m - 1);
  do V1 <- row_put V m m ((2 * INR m - 1) * x0 * v - y0 * w);
  do W1 <- row_put W m m ((2 * INR m - 1) * x0 * w + y0 * v);
  do s2 <- (if Nat.ltb m l then
              do v1 <- row_get V1 m m;
              do V2 <- row_put V1 (m + 1) m ((2 * INR m + 1) * z0 * v1);
              do w1 <- row_get W1 m m;
              do W2 <- row_put W1 (m + 1) m ((2 * INR m + 1) * z0 * w1);
              Ok (V2, W2)
            else Ok (V1, W1));
  loop (m + 2) l (row_tesseral_step z0 rho m) s2.
(* lagrange_poly.cpp:6-64: code, V and W *)
Definition row_lagrange_polynomials (p : vec) (Re : R) (l k : nat) (V W : table) : outcome (Z * (table * table)) :=
  if Nat.ltb l k then Ok (1%Z, (V, W))
  else
    let (x, y, z) := p in
    let r2 := x * x + y * y + z * z in
    let rho := Re * Re / r2 in
    let x0 := Re * x / r2 in
    let y0 := Re * y / r2 in
    let z0 := Re * z / r2 in
    do V <- row_put V 0 0 (Re / sqrt r2);
    do W <- row_put W 0 0 0;
    do v <- row_get V 0 0;
    do V <- row_put V 1 0 (z0 * v);
    do W <- row_put W 1 0 0;
    do s <- loop 2 l (row_zonal_step z0 rho) (V, W);
    do s <- loop 1 k (row_order_step x0 y0 z0 rho l) s;
    Ok (0%Z, s).
