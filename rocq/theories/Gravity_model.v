(* Model of src/gravity/lagrange_poly.cpp:67-125 (the Trapezoid version; the row-wise one is for
   debugging only), src/gravity/gravity_acceleration.cpp and src/egravity.hpp.  Doubles are real
   numbers; degrees and orders are natural numbers (int without overflow and not negative). *)
From Coq Require Import List ZArith Reals Bool Arith.
From Verif Require Import Base Vec_model Harmonics_model.
Import ListNotations.
Local Open Scope R_scope.

(* Mat2D<Trapezoid>: the cells (i,j) with i < rows, j < cols, j <= i (Mat2D_model.v has the
   layout); any other index is taken as undefined *)
Record table := Table { t_rows : nat; t_cols : nat; t_val : nat -> nat -> R }.
Definition inside (t : table) (i j : nat) : bool := Nat.ltb i (t_rows t) && Nat.ltb j (t_cols t) && Nat.leb j i.
Definition get (t : table) (i j : nat) : outcome R := if inside t i j then Ok (t_val t i j) else UB.
Definition put (t : table) (i j : nat) (v : R) : outcome table :=
  if inside t i j then Ok (Table (t_rows t) (t_cols t) (fun a b => if Nat.eqb a i && Nat.eqb b j then v else t_val t a b)) else UB.

(* for (int i = lo; i <= hi; i++) *)
Fixpoint iterate {S} (lo count : nat) (f : nat -> S -> outcome S) (s : S) : outcome S :=
  match count with
  | O => Ok s
  | Datatypes.S c => do s' <- f lo s; iterate (Datatypes.S lo) c f s'
  end.
Definition loop {S} (lo hi : nat) (f : nat -> S -> outcome S) (s : S) : outcome S := iterate lo (Datatypes.S hi - lo) f s.

(* lagrange_poly.cpp:96-100 *)
Definition zonal_step (z0 rho : R) (n : nat) (s : table * table) : outcome (table * table) :=
  let (V, W) := s in
  do v1 <- get V (n - 1) 0;
  do v2 <- get V (n - 2) 0;
  do V' <- put V n 0 (((2 * INR n - 1) * z0 * v1 - (INR n - 1) * rho * v2) / INR n);
  do W' <- put W n 0 0;
  Ok (V', W').
(* lagrange_poly.cpp:113-120 *)
Definition tesseral_step (z0 rho : R) (m n : nat) (s : table * table) : outcome (table * table) :=
  let (V, W) := s in
  do v1 <- get V (n - 1) m;
  do v2 <- get V (n - 2) m;
  do V' <- put V n m (((2 * INR n - 1) * z0 * v1 - (INR n + INR m - 1) * rho * v2) / (INR n - INR m));
  do w1 <- get W (n - 1) m;
  do w2 <- get W (n - 2) m;
  do W' <- put W n m (((2 * INR n - 1) * z0 * w1 - (INR n + INR m - 1) * rho * w2) / (INR n - INR m));
  Ok (V', W').
(* lagrange_poly.cpp:102-121 *)
Definition order_step (x0 y0 z0 rho : R) (l m : nat) (s : table * table) : outcome (table * table) :=
  let (V, W) := s in
  do v <- get V (m - 1) (m - 1);
  do w <- get W (m - 1) (m - 1);
  do V1 <- put V m m ((2 * INR m - 1) * (x0 * v - y0 * w));
  do W1 <- put W m m ((2 * INR m - 1) * (x0 * w + y0 * v));
  do s2 <- (if Nat.ltb m l then
              do v1 <- get V1 m m;
              do V2 <- put V1 (m + 1) m ((2 * INR m + 1) * z0 * v1);
              do w1 <- get W1 m m;
              do W2 <- put W1 (m + 1) m ((2 * INR m + 1) * z0 * w1);
              Ok (V2, W2)
            else Ok (V1, W1));
  loop (m + 2) l (tesseral_step z0 rho m) s2.
(* lagrange_poly.cpp:67-125: code, V and W *)
Definition lagrange_polynomials (p : vec) (Re : R) (l k : nat) (V W : table) : outcome (Z * (table * table)) :=
  if Nat.ltb l k then Ok (1%Z, (V, W))
  else
    let (x, y, z) := p in
    let r2 := x * x + y * y + z * z in
    let rho := Re * Re / r2 in
    let x0 := Re * x / r2 in
    let y0 := Re * y / r2 in
    let z0 := Re * z / r2 in
    do V <- put V 0 0 (Re / sqrt r2);
    do W <- put W 0 0 0;
    do v <- get V 0 0;
    do V <- put V 1 0 (z0 * v);
    do W <- put W 1 0 0;
    do s <- loop 2 l (zonal_step z0 rho) (V, W);
    do s <- loop 1 k (order_step x0 y0 z0 rho l) s;
    Ok (0%Z, s).

(* the coefficients: HarmonicCoeffs::C, S *)
Definition Cnm (h : hc R) (i j : nat) : outcome R := C_get h (Z.of_nat i) (Z.of_nat j).
Definition Snm (h : hc R) (i j : nat) : outcome R := S_get h (Z.of_nat i) (Z.of_nat j).

(* gravity_acceleration.cpp:21-26, 90-98 *)
Definition acc_zonal (V W : table) (h : hc R) (i : nat) (a : vec) : outcome vec :=
  do c <- Cnm h i 0;
  do v0 <- get V (i + 1) 0;
  do v1 <- get V (i + 1) 1;
  do w1 <- get W (i + 1) 1;
  Ok (vsub a (vscale c (Vec_model.V v1 w1 ((INR i + 1) * v0)))).
(* gravity_acceleration.cpp:32-47, 143-161 *)
Definition acc_tesseral (V W : table) (h : hc R) (i j : nat) (a : vec) : outcome vec :=
  do c <- Cnm h i j;
  do s <- Snm h i j;
  do vm <- get V (i + 1) (j - 1);
  do v0 <- get V (i + 1) j;
  do vp <- get V (i + 1) (j + 1);
  do wm <- get W (i + 1) (j - 1);
  do w0 <- get W (i + 1) j;
  do wp <- get W (i + 1) (j + 1);
  let fac := (INR i - INR j + 1) * (INR i - INR j + 2) / 2 in
  Ok (vadd a (Vec_model.V (/ 2 * (- c * vp - s * wp) + fac * (c * vm + s * wm))
                          (/ 2 * (- c * wp + s * vp) + fac * (- c * wm + s * vm))
                          ((INR i - INR j + 1) * (- c * v0 - s * w0)))).
(* gravity_acceleration.cpp:12-63 *)
Definition grav_accel (degree order : nat) (Re GM : R) (V W : table) (h : hc R) : outcome vec :=
  do a <- loop 0 degree (acc_zonal V W h) vzero;
  do a2 <- loop 1 degree (fun i => loop 1 (min i order) (acc_tesseral V W h i)) vzero;
  Ok (vscale (GM / (Re * Re)) (vadd a a2)).

(* ---- acceleration and partials ---- *)
(* the accumulators of the partials: daxdx, daxdy, daxdz, daydz, dazdz *)
Record dd := DD { xx : R; xy : R; xz : R; yz : R; zz : R }.
Definition dd0 : dd := DD 0 0 0 0 0.
(* factorial.hpp:28-38 *)
Fixpoint product (lo count : nat) : R := match count with O => 1 | S c => INR lo * product (S lo) c end.
Definition factorialRatio (num den : nat) : R := product (S (min num den)) (max num den - min num den).
(* gravity_acceleration.cpp:81-104 *)
Definition dd_zonal (V W : table) (h : hc R) (i : nat) (s : dd * R) : outcome (dd * R) :=
  let (d, fac) := s in
  do c <- Cnm h i 0;
  do v0 <- get V (i + 2) 0;
  do v1 <- get V (i + 2) 1;
  do v2 <- get V (i + 2) 2;
  do w1 <- get W (i + 2) 1;
  do w2 <- get W (i + 2) 2;
  Ok (DD (xx d + / 2 * (c * v2 - fac * (c * v0)))
         (xy d + / 2 * (c * w2))
         (xz d + (INR i + 1) * c * v1)
         (yz d + (INR i + 1) * c * w1)
         (zz d + (INR i + 1) * (INR i + 2) * (c * v0)),
      fac * ((INR i + 3) / (INR i + 1))).
(* gravity_acceleration.cpp:108-121: daxdx, daxdy and dazdz only *)
Definition dd_first (V W : table) (h : hc R) (i : nat) (s : dd * R) : outcome (dd * R) :=
  let (d, fac) := s in
  do c <- Cnm h i 1;
  do s1 <- Snm h i 1;
  do v1 <- get V (i + 2) 1;
  do v3 <- get V (i + 2) 3;
  do w1 <- get W (i + 2) 1;
  do w3 <- get W (i + 2) 3;
  Ok (DD (xx d + / 4 * (c * v3 + s1 * w3 + fac * (- (3) * c * v1 - s1 * w1)))
         (xy d + / 4 * (c * w3 - s1 * v3 + fac * (- c * w1 - s1 * v1)))
         (xz d) (yz d)
         (zz d + INR i * (INR i + 1) * (c * v1 + s1 * w1)),
      fac * ((INR i + 2) / INR i)).
Record facs := Facs { fac2 : R; fac3 : R; fac4 : R }.
(* gravity_acceleration.cpp:163-189, the case j > 1 *)
Definition dd_tesseral (V W : table) (h : hc R) (i j : nat) (s : dd * facs) : outcome (dd * facs) :=
  if Nat.ltb 1 j then
    let (d, f) := s in
    do c <- Cnm h i j;
    do s1 <- Snm h i j;
    do vpp <- get V (i + 2) (j + 2);
    do vp <- get V (i + 2) (j + 1);
    do v0 <- get V (i + 2) j;
    do vm <- get V (i + 2) (j - 1);
    do vmm <- get V (i + 2) (j - 2);
    do wpp <- get W (i + 2) (j + 2);
    do wp <- get W (i + 2) (j + 1);
    do w0 <- get W (i + 2) j;
    do wm <- get W (i + 2) (j - 1);
    do wmm <- get W (i + 2) (j - 2);
    Ok (DD (xx d + / 4 * (c * vpp + s1 * wpp + 2 * fac2 f * (- c * v0 - s1 * w0) + fac4 f * (c * vmm + s1 * wmm)))
           (xy d + / 4 * (c * wpp - s1 * vpp + fac4 f * (- c * wmm + s1 * vmm)))
           (xz d + ((INR i - INR j + 1) / 2 * (c * vp + s1 * wp) + fac3 f * / 2 * (- c * vm - s1 * wm)))
           (yz d + ((INR i - INR j + 1) / 2 * (c * wp - s1 * vp) + fac3 f * / 2 * (c * wm - s1 * vm)))
           (zz d + fac2 f * (c * v0 + s1 * w0)),
        Facs (fac2 f * ((INR i - INR j) / (INR i - INR j + 2)))
             (fac3 f * ((INR i - INR j) / (INR i - INR j + 3)))
             (fac4 f * ((INR i - INR j) / (INR i - INR j + 4))))
  else Ok s.
(* gravity_acceleration.cpp:127-141 *)
Definition start_facs (i : nat) : facs :=
  if Nat.ltb 1 i then Facs (factorialRatio (i - 2 + 2) (i - 2)) (factorialRatio (i - 2 + 3) (i - 2)) (factorialRatio (i - 2 + 4) (i - 2))
  else Facs 0 0 0.
Definition dd_degree (V W : table) (h : hc R) (order i : nat) (d : dd) : outcome dd :=
  do r <- loop 1 (min i order) (dd_tesseral V W h i) (d, start_facs i);
  Ok (fst r).
(* gravity_acceleration.cpp:65-223: the accelerations of the two versions are the same sums.  The
   elements (0,1), (0,2) and (1,2) of the matrix are assigned to themselves and keep what the
   caller passed in, [junk] *)
Definition grav_accel_partials (degree order : nat) (Re GM : R) (V W : table) (h : hc R) (junk : mat) : outcome (vec * mat) :=
  do a <- grav_accel degree order Re GM V W h;
  do d0 <- loop 0 degree (dd_zonal V W h) (dd0, 2);
  do d1 <- loop 1 degree (dd_first V W h) (dd0, 2);
  do d2 <- loop 1 degree (dd_degree V W h order) dd0;
  let xx_ := xx (fst d0) + xx (fst d1) + xx d2 in
  let zz_ := zz (fst d0) + zz (fst d1) + zz d2 in
  let xy_ := xy (fst d0) + xy (fst d1) + xy d2 in
  let xz_ := xz (fst d0) + xz d2 in
  let yz_ := yz (fst d0) + yz d2 in
  Ok (a, mscale (GM / Re / Re / Re)
           (mat9 xx_ (vy (row0 junk)) (vz (row0 junk))
                 xy_ (- (xx_ + zz_)) (vz (row1 junk))
                 xz_ yz_ zz_)).

(* egravity.hpp:162-174; Re and GM are members of the coefficients.  None: an assertion fails *)
Definition accel_at (pos : vec) (degree order : nat) (Re GM : R) (V W : table) (h : hc R) : outcome (option (vec * (table * table))) :=
  if Nat.leb (degree + 2) (t_rows V) && Nat.leb (order + 2) (t_cols V) && Nat.leb (degree + 2) (t_rows W) && Nat.leb (order + 2) (t_cols W) then
    do r <- lagrange_polynomials pos Re (degree + 1) (order + 1) V W;
    let '(code, (V', W')) := r in
    if Z.eqb code 0 then do a <- grav_accel degree order Re GM V' W' h; Ok (Some (a, (V', W'))) else Ok None
  else Ok None.
(* egravity.hpp:181-195 *)
Definition accel_partials_at (pos : vec) (degree order : nat) (Re GM : R) (V W : table) (h : hc R) (junk : mat) : outcome (option ((vec * mat) * (table * table))) :=
  if Nat.eqb (degree + 3) (t_rows V) && Nat.eqb (order + 3) (t_cols V) && Nat.eqb (degree + 3) (t_rows W) && Nat.eqb (order + 3) (t_cols W) then
    do r <- lagrange_polynomials pos Re (degree + 2) (order + 2) V W;
    let '(code, (V', W')) := r in
    if Z.eqb code 0 then do a <- grav_accel_partials degree order Re GM V' W' h junk; Ok (Some (a, (V', W'))) else Ok None
  else Ok None.
