(* Model of src/atmosphere/nrlmsise_spline.cpp, nrlmsise00_splint.cpp and nrlmsise00_splini.cpp.
   Doubles are real numbers; the number of nodes is a natural number, at least one (for n = 0 the
   index n - 1 is negative: undefined). *)
From Coq Require Import List ZArith Reals Arith Bool.
From Verif Require Import Base Gravity_model.
Local Open Scope R_scope.

(* a C array of doubles *)
Record arr := Arr { a_len : nat; a_val : nat -> R }.
Definition rd (a : arr) (i : nat) : outcome R := if Nat.ltb i (a_len a) then Ok (a_val a i) else UB.
Definition wr (a : arr) (i : nat) (v : R) : outcome arr := if Nat.ltb i (a_len a) then Ok (Arr (a_len a) (fun k => if Nat.eqb k i then v else a_val a k)) else UB.
Definition rgt (x y : R) : bool := if Rlt_dec y x then true else false.

(* nrlmsise00_splint.cpp:9-18; None when the fuel runs out *)
Fixpoint bisect (fuel : nat) (xa : arr) (x : R) (klo khi : nat) : outcome (option (nat * nat)) :=
  match fuel with
  | O => Ok None
  | S f =>
      let k := ((khi + klo) / 2)%nat in
      do xk <- rd xa k;
      let '(klo', khi') := if rgt xk x then (klo, k) else (k, khi) in
      if Z.gtb (Z.of_nat khi' - Z.of_nat klo') 1 then bisect f xa x klo' khi' else Ok (Some (klo', khi'))
  end.
(* nrlmsise00_splint.cpp:3-31 *)
Definition splint (xa ya y2a : arr) (n : nat) (x : R) : outcome (option R) :=
  if Nat.eqb n 0 then UB else
  do r <- bisect n xa x 0 (n - 1);
  match r with
  | None => Ok None
  | Some (klo, khi) =>
      do xh <- rd xa khi;
      do xl <- rd xa klo;
      let h := xh - xl in
      if Req_EM_T h 0 then Ok (Some (IZR 1 * / 10 ^ 30))
      else
        let a := (xh - x) / h in
        let b := (x - xl) / h in
        do yl <- rd ya klo;
        do yh <- rd ya khi;
        do y2l <- rd y2a klo;
        do y2h <- rd y2a khi;
        Ok (Some (a * yl + b * yh + ((a * a * a - a) * y2l + (b * b * b - b) * y2h) * h * h / 6))
  end.

(* nrlmsise00_splini.cpp:13-29; None when the fuel runs out *)
Fixpoint splini_loop (fuel : nat) (xa ya y2a : arr) (n : nat) (x : R) (klo khi : nat) (yi : R) : outcome (option R) :=
  match fuel with
  | O => Ok None
  | S f =>
      do xx <- (if Nat.ltb khi (n - 1) then do v <- rd xa khi; Ok (if Rlt_dec v x then v else x) else Ok x);
      do xh <- rd xa khi;
      do xl <- rd xa klo;
      let h := xh - xl in
      let a := (xh - xx) / h in
      let b := (xx - xl) / h in
      let a2 := a * a in
      let b2 := b * b in
      do yl <- rd ya klo;
      do yh <- rd ya khi;
      do y2l <- rd y2a klo;
      do y2h <- rd y2a khi;
      let yi' := yi + ((1 - a2) * yl / 2 + b2 * yh / 2 + ((- (1 + a2 * a2) / 4 + a2 / 2) * y2l + (b2 * b2 / 4 - b2 / 2) * y2h) * h * h / 6) * h in
      do xk <- rd xa (S klo);
      if rgt x xk && Nat.ltb (S khi) n then splini_loop f xa ya y2a n x (S klo) (S khi) yi' else Ok (Some yi')
  end.
(* nrlmsise00_splini.cpp:4-32 *)
Definition splini (xa ya y2a : arr) (n : nat) (x : R) : outcome (option R) := splini_loop n xa ya y2a n x 0 1 0.

(* nrlmsise_spline.cpp:18-29 *)
Definition forward (x y : arr) (i : nat) (s : arr * arr) : outcome (arr * arr) :=
  let (y2, u) := s in
  do xi <- rd x i;
  do xm <- rd x (i - 1);
  do xp <- rd x (i + 1);
  let sig := (xi - xm) / (xp - xm) in
  do y2m <- rd y2 (i - 1);
  let p := sig * y2m + 2 in
  do y2' <- wr y2 i ((sig - 1) / p);
  do yp <- rd y (i + 1);
  do yi <- rd y i;
  do ym <- rd y (i - 1);
  do um <- rd u (i - 1);
  do u' <- wr u i ((6 * ((yp - yi) / (xp - xi) - (yi - ym) / (xi - xm)) / (xp - xm) - sig * um) / p);
  Ok (y2', u').
(* nrlmsise_spline.cpp:42-44 with k = n - 2 - j *)
Definition backward (n : nat) (u : arr) (j : nat) (y2 : arr) : outcome arr :=
  let k := (n - 2 - j)%nat in
  do a <- rd y2 k;
  do b <- rd y2 (k + 1);
  do c <- rd u k;
  wr y2 k (a * b + c).
Definition huge : R := 0.99 * 10 ^ 30.
(* nrlmsise_spline.cpp:4-46; n >= 2 (below that the indices n - 2 are negative: undefined).  The
   arrays are distinct (__restrict__) *)
Definition spline (x y : arr) (n : nat) (yp1 ypn : R) (y2 work : arr) : outcome (arr * arr) :=
  if Nat.ltb n 2 then UB else
  do s0 <- (if rgt yp1 huge then
              do y2' <- wr y2 0 0;
              do u' <- wr work 0 0;
              Ok (y2', u')
            else
              do y2' <- wr y2 0 (- (1 / 2));
              do x1 <- rd x 1;
              do x0 <- rd x 0;
              do y1 <- rd y 1;
              do y0 <- rd y 0;
              do u' <- wr work 0 ((3 / (x1 - x0)) * ((y1 - y0) / (x1 - x0) - yp1));
              Ok (y2', u'));
  do s1 <- loop 1 (n - 2) (forward x y) s0;
  let (y2, u) := s1 in
  do qu <- (if rgt ypn huge then Ok (0, 0)
            else
              let nn := (n - 1)%nat in
              do xn <- rd x nn;
              do xm <- rd x (nn - 1);
              do yn <- rd y nn;
              do ym <- rd y (nn - 1);
              Ok (1 / 2, (3 / (xn - xm)) * (ypn - (yn - ym) / (xn - xm))));
  let (qn, un) := qu in
  do um <- rd u (n - 2);
  do ym <- rd y2 (n - 2);
  do y2 <- wr y2 (n - 1) ((un - qn * um) / (qn * ym + 1));
  do y2 <- loop 0 (n - 2) (backward n u) y2;
  Ok (y2, u).
