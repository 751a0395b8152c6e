(* Model of the Shampine-Gordon integrator: src/integrators/sgode.hpp, sgode_de.cpp, sgode_step.cpp
   and sgode_intrp.cpp.  Doubles are real numbers (divisions by zero have some unspecified real value,
   where the code would carry on with an infinity or a NaN).  The right-hand side is a function of
   time and state; what the code hands it in params is part of that function.  Members and arrays that
   the constructor leaves uninitialised hold arbitrary numbers at the start. *)
From Coq Require Import List ZArith Reals Arith Bool.
From Verif Require Import Base Gravity_model Spline_model.
Import ListNotations.
Local Open Scope R_scope.

Definition rle (x y : R) : bool := negb (rgt x y).
(* Eigen::VectorXd of neqn components; components beyond neqn have no meaning *)
Definition vec := nat -> R. (* sgode_*.cpp: Eigen::VectorXd and the columns of ArraysNeqn *)
Definition vzero : vec := fun _ => 0.
Definition vadd (a b : vec) : vec := fun i => a i + b i.
Definition vsub (a b : vec) : vec := fun i => a i - b i.
Definition vscale (k : R) (a : vec) : vec := fun i => k * a i.
Definition vdiv (a b : vec) : vec := fun i => a i / b i.
(* squaredNorm, norm *)
Fixpoint norm2 (n : nat) (a : vec) : R := match n with O => 0 | S m => norm2 m a + a m * a m end.
Definition norm (n : nat) (a : vec) : R := sqrt (norm2 n a).
(* sgode_step.cpp:7-9, sgode_de.cpp:7-9 *)
Definition umach : R := / 2 ^ 52.
Definition twou : R := 2 * umach.
Definition fouru : R := 4 * umach.
(* std::copysign; minus zero does not exist here *)
Definition copysign (a b : R) : R := if Rlt_dec b 0 then - Rabs a else Rabs a.
(* sgode_step.cpp:13-15 *)
Definition gstr : arr := Arr 13 (fun i => nth i [0.5; 0.0833; 0.0417; 0.0264; 0.0188; 0.0143; 0.0114; 0.00936; 0.00789; 0.00679; 0.00592; 0.00524; 0.00468] 0).

(* the work arrays, sgode.hpp:48-108; each has the size the code documents for it *)
Record coef := Coef { psi : arr; alpha : arr; beta : arr; v : arr; w : arr; sig : arr; g : arr }.
(* the matrix Phi, sgode.hpp:15, 116: sixteen columns *)
Definition cols := nat -> vec.
Definition col (P : cols) (j : nat) : outcome vec := if Nat.ltb j 16 then Ok (P j) else UB.
Definition setcol (P : cols) (j : nat) (u : vec) : outcome cols := if Nat.ltb j 16 then Ok (fun i => if Nat.eqb i j then u else P i) else UB.

(* sgode_step.cpp:106-114: one turn of the loop; (psi, beta, alpha, sig, tmp1) *)
Definition old_step (h : R) (i : nat) (s : arr * arr * arr * arr * R) : outcome (arr * arr * arr * arr * R) :=
  let '(ps, be, al, sg, tmp1) := s in
  do tmp2 <- rd ps (i - 1);
  do ps <- wr ps (i - 1) tmp1;
  do b <- rd be (i - 1);
  do q <- rd ps (i - 1);
  do be <- wr be i (b * q / tmp2);
  let tmp1 := tmp2 + h in
  do al <- wr al i (h / tmp1);
  do a <- rd al i;
  do t <- rd sg i;
  do sg <- wr sg (i + 1) ((INR i + 1) * (a * t));
  Ok (ps, be, al, sg, tmp1).
(* sgode_step.cpp:149, 163, 177: a[i] -= c * a[i + 1] *)
Definition less (c : R) (a : arr) (i : nat) : outcome arr := do x <- rd a i; do y <- rd a (i + 1); wr a i (x - c * y).
(* memcpy(w, v, n): sgode_step.cpp:130, 165 *)
Definition copy (n : nat) (src dst : arr) : outcome arr := iterate 0 n (fun i d => do x <- rd src i; wr d i x) dst.
(* sgode_step.cpp:127-129 *)
Definition fresh (k : nat) (vv : arr) : outcome arr := iterate 0 k (fun iq a => wr a iq (1 / ((INR iq + 1) * (INR iq + 2)))) vv.
(* sgode_step.cpp:140-152: the diagonal; j counts from one *)
Definition diagonal (k ns : nat) (al vv : arr) : outcome arr :=
  do vv <- wr vv (k - 1) (1 / (INR k * (INR k + 1)));
  iterate 1 (ns - 2) (fun j a => do c <- rd al j; less c a (k - j - 1)) vv.
(* sgode_step.cpp:98-182, block 1 after ns is known; k, ns at least one *)
Definition coefficients (h : R) (k kold ns : nat) (c : coef) : outcome coef :=
  if Nat.ltb k ns then Ok c
  else
    do be <- wr (beta c) (ns - 1) 1;
    do al <- wr (alpha c) (ns - 1) (1 / INR ns);
    do sg <- wr (sig c) ns 1;
    do r <- iterate ns (k - ns) (old_step h) (psi c, be, al, sg, h * INR ns);
    let '(ps, be, al, sg, tmp1) := r in
    do ps <- wr ps (k - 1) tmp1;
    do r <- (if Nat.leb ns 1 then
               do vv <- fresh k (v c);
               do ww <- copy k vv (w c);
               Ok (vv, ww, g c)
             else
               do vv <- (if Nat.ltb kold k then diagonal k ns al (v c) else Ok (v c));
               let limit1 := (k + 1 - ns)%nat in
               do t <- rd al (ns - 1);
               do vv <- iterate 0 limit1 (fun iq a => less t a iq) vv;
               do ww <- copy limit1 vv (w c);
               do w0 <- rd ww 0;
               do gg <- wr (g c) ns w0;
               Ok (vv, ww, gg));
    let '(vv, ww, gg) := r in
    do r <- iterate (ns + 2) (k + 1 - (ns + 1)) (fun i (s : arr * arr) =>
              let (ww, gg) := s in
              do t <- rd al (i - 2);
              do ww <- iterate 0 (k + 2 - i) (fun iq a => less t a iq) ww;
              do w0 <- rd ww 0;
              do gg <- wr gg (i - 1) w0;
              Ok (ww, gg)) (ww, gg);
    Ok (Coef ps al be vv (fst r) sg (snd r)).

(* the data members step works on, sgode.hpp:112-123, the columns of ArraysNeqn:34-46 *)
Record ode := Ode { s_x : R; s_h : R; s_hold : R; s_k : nat; s_kold : nat; s_ns : nat; s_start : bool; s_phase1 : bool; s_nornd : bool; s_yy : vec; s_yp : vec; s_p : vec; s_wt : vec; s_phi : cols; s_co : coef }.
Definition rhs := R -> vec -> vec.

(* sgode_step.cpp:193-198: phi to phi star *)
Definition star (k ns : nat) (be : arr) (ph : cols) : outcome cols :=
  iterate ns (k - ns) (fun i ph => do b <- rd be i; do u <- col ph i; setcol ph i (vscale b u)) ph.
(* sgode_step.cpp:202-214: p and the differences *)
Definition predict (k : nat) (gg : arr) (ph : cols) : outcome (vec * cols) :=
  do u <- col ph k;
  do ph <- setcol ph (k + 1) u;
  do ph <- setcol ph k vzero;
  iterate 0 k (fun j (s : vec * cols) =>
    let (p, ph) := s in
    let i := (k - 1 - j)%nat in
    do gi <- rd gg i;
    do a <- col ph i;
    do b <- col ph (i + 1);
    do ph <- setcol ph i (vadd a b);
    Ok (vadd p (vscale gi a), ph)) (vzero, ph).
(* sgode_step.cpp:289-296: the differences and psi as they were before the attempt *)
Definition restore (k : nat) (h : R) (c : coef) (ph : cols) : outcome (coef * cols) :=
  do ph <- iterate 0 k (fun i ph => do b <- rd (beta c) i; do a <- col ph i; do u <- col ph (i + 1); setcol ph i (vscale (1 / b) (vsub a u))) ph;
  do ps <- iterate 1 (k - 1) (fun i ps => do q <- rd ps i; wr ps (i - 1) (q - h)) (psi c);
  Ok (Coef ps (alpha c) (beta c) (v c) (w c) (sig c) (g c), ph).
(* sgode_step.cpp:93-96: the number of steps taken with this step size *)
Definition count_steps (s : ode) : nat :=
  let ns := if Req_EM_T (s_h s) (s_hold s) then s_ns s else O in
  if Nat.leb ns (s_kold s) then S ns else ns.
(* what one pass of the loop sgode_step.cpp:80-325 ends in *)
Inductive tried :=
| Accepted (s : ode) (knew : nat) (erkm1 erk : R)
| Again (s : ode) (ifail : Z)
| Crashed (s : ode) (eps : R).
(* sgode_step.cpp:86-324.  With nornd false the code keeps an expression of temporaries that are gone
   (lines 218-220, tau refers to the reference object p() returned): undefined *)
Definition attempt (f : rhs) (n : nat) (eps : R) (ifail : Z) (s : ode) : outcome tried :=
  let k := s_k s in
  let h := s_h s in
  let ns := count_steps s in
  do c <- coefficients h k (s_kold s) ns (s_co s);
  do ph <- star k ns (beta c) (s_phi s);
  do r <- predict k (g c) ph;
  let (q, ph) := (r : vec * cols) in
  if negb (s_nornd s) then UB else
  let p := vadd (s_yy s) (vscale h q) in
  let x := s_x s + h in
  let absh := Rabs h in
  let yp := f x p in
  do phi0 <- col ph 0;
  let t4 := vsub yp phi0 in
  do erkm1 <- (if Nat.leb 2 k then do u <- col ph (k - 1); do sg <- rd (sig c) (k - 1); do gs <- rd gstr (k - 2); Ok (absh * sg * gs * norm n (vdiv (vadd u t4) (s_wt s))) else Ok 0);
  do erkm2 <- (if Nat.leb 3 k then do u <- col ph (k - 2); do sg <- rd (sig c) (k - 2); do gs <- rd gstr (k - 3); Ok (absh * sg * gs * norm n (vdiv (vadd u t4) (s_wt s))) else Ok 0);
  let t5 := absh * sqrt (norm2 n (vdiv t4 (s_wt s))) in
  do gk <- rd (g c) (k - 1);
  do gk1 <- rd (g c) k;
  do sg <- rd (sig c) k;
  do gs <- rd gstr (k - 1);
  let err := t5 * (gk - gk1) in
  let erk := t5 * sg * gs in
  let knew := if Nat.leb 3 k then (if rle (Rmax erkm1 erkm2) erk then k - 1 else k)%nat
              else if Nat.eqb k 2 then (if rle erkm1 (0.5 * erk) then k - 1 else k)%nat else k in
  if rle err eps then
    Ok (Accepted (Ode x h (s_hold s) k (s_kold s) ns (s_start s) (s_phase1 s) true (s_yy s) yp p (s_wt s) ph c) knew erkm1 erk)
  else
    do r <- restore k h c ph;
    let ifail := (ifail + 1)%Z in
    let t2 := if Z.ltb ifail 3 then (if rgt (0.25 * erk) (0.5 * eps) then sqrt (0.5 * eps / erk) else 0.5) else 0.5 in
    let knew := if Z.leb ifail 3 then 1%nat else knew in
    let h := t2 * h in
    if rle (fouru * Rabs (s_x s)) (Rabs h) then
      Ok (Again (Ode (s_x s) h (s_hold s) knew (s_kold s) ns (s_start s) false true (s_yy s) yp p (s_wt s) (snd r) (fst r)) ifail)
    else
      Ok (Crashed (Ode (s_x s) (copysign (fouru * Rabs (s_x s)) h) (s_hold s) knew (s_kold s) ns (s_start s) false true (s_yy s) yp p (s_wt s) (snd r) (fst r)) (eps + eps)).
(* sgode_step.cpp:335-437, block 4, for nornd true *)
Definition settle (f : rhs) (n : nat) (eps : R) (s : ode) (knew : nat) (erkm1 erk : R) : outcome ode :=
  let k := s_k s in
  let h := s_h s in
  let absh := Rabs h in
  let c := s_co s in
  do gk1 <- rd (g c) k;
  do phi0 <- col (s_phi s) 0;
  let yy := vadd (s_p s) (vscale (h * gk1) (vsub (s_yp s) phi0)) in
  let yp := f (s_x s) yy in
  do ph <- setcol (s_phi s) k (vsub yp phi0);
  do a <- col ph k;
  do b <- col ph (k + 1);
  do ph <- setcol ph (k + 1) (vsub a b);
  do ph <- iterate 0 k (fun i ph => do u <- col ph i; do a <- col ph k; setcol ph i (vadd u a)) ph;
  let lower := Nat.eqb (S knew) k in
  let phase1 := s_phase1 s && negb (lower || Nat.eqb k 12) in
  do r <- (if phase1 then Ok (1%Z, 0)
           else if lower then Ok ((-1)%Z, 0)
           else if Nat.ltb (s_ns s) (k + 1) then Ok (0%Z, 0)
           else
             do u <- col ph (k + 1);
             do gs <- rd gstr k;
             let erkp1 := absh * gs * sqrt (norm2 n (vdiv u (s_wt s))) in
             Ok (if Nat.ltb 1 k then
                   if rle erkm1 (Rmin erk erkp1) then (-1)%Z
                   else if rle erk erkp1 || Nat.eqb k 12 then 0%Z else 1%Z
                 else if rle (0.5 * erk) erkp1 then 0%Z else 1%Z, erkp1));
  let '(deg, erkp1) := r in
  let '(k', erk') := if Z.eqb deg (-1) then ((k - 1)%nat, erkm1) else if Z.eqb deg 1 then ((k + 1)%nat, erkp1) else (k, erk) in
  let p5eps := 0.5 * eps in
  let hnew := if phase1 || rle (erk' * 2 ^ (k' + 1)) p5eps then 2 * h
              else if rgt erk' p5eps then
                let r := Rpower (p5eps / erk') (1 / (INR k' + 1)) in
                copysign (Rmax (absh * Rmax 0.5 (Rmin 0.9 r)) (fouru * Rabs (s_x s))) h
              else h in
  Ok (Ode (s_x s) hnew h k' k (s_ns s) (s_start s) phase1 true yy yp (s_p s) (s_wt s) ph c).
(* sgode_step.cpp:80-437: the passes; None when the fuel runs out *)
Fixpoint passes (fuel : nat) (f : rhs) (n : nat) (eps : R) (ifail : Z) (s : ode) : outcome (option (bool * R * ode)) :=
  match fuel with
  | O => Ok None
  | S fu =>
      do r <- attempt f n eps ifail s;
      match r with
      | Accepted s knew erkm1 erk => do s <- settle f n eps s knew erkm1 erk; Ok (Some (false, eps, s))
      | Again s ifail => passes fu f n eps ifail s
      | Crashed s eps => Ok (Some (true, eps, s))
      end
  end.
(* sgode_step.cpp:43-45 *)
Definition ready (c : coef) : outcome coef :=
  do gg <- wr (g c) 0 1;
  do gg <- wr gg 1 0.5;
  do sg <- wr (sig c) 0 1;
  Ok (Coef (psi c) (alpha c) (beta c) (v c) (w c) sg gg).
(* sgode_step.cpp:18-438: crash, eps and the members.  junk is what the uninitialised ifail holds:
   only the first step of an integration sets it *)
Definition step (fuel : nat) (f : rhs) (n : nat) (junk : Z) (eps : R) (s : ode) : outcome (option (bool * R * ode)) :=
  if rgt (fouru * Rabs (s_x s)) (Rabs (s_h s)) then
    Ok (Some (true, eps, Ode (s_x s) (copysign (fouru * Rabs (s_x s)) (s_h s)) (s_hold s) (s_k s) (s_kold s) (s_ns s) (s_start s) (s_phase1 s) (s_nornd s) (s_yy s) (s_yp s) (s_p s) (s_wt s) (s_phi s) (s_co s)))
  else
    let p5eps := 0.5 * eps in
    let round := twou * norm n (vdiv (s_yy s) (s_wt s)) in
    if rgt round p5eps then Ok (Some (true, 2 * round * (1 + fouru), s))
    else
      do c <- ready (s_co s);
      if s_start s then
        let yp := f (s_x s) (s_yy s) in
        do ph <- setcol (s_phi s) 0 yp;
        do ph <- setcol ph 1 vzero;
        let sum := norm n (vdiv yp (s_wt s)) in
        let absh := if rgt (16 * sum * s_h s * s_h s) eps then 0.25 * sqrt (eps / sum) else Rabs (s_h s) in
        let h := copysign (Rmax absh (fouru * Rabs (s_x s))) (s_h s) in
        let nornd := negb (rle p5eps (100 * round)) in
        do ph <- (if nornd then Ok ph else setcol ph 14 vzero);
        passes fuel f n eps 0 (Ode (s_x s) h 0 1 0 (s_ns s) false true nornd (s_yy s) yp (s_p s) (s_wt s) ph c)
      else
        passes fuel f n eps junk (Ode (s_x s) (s_h s) (s_hold s) (s_k s) (s_kold s) (s_ns s) false (s_phase1 s) (s_nornd s) (s_yy s) (s_yp s) (s_p s) (s_wt s) (s_phi s) c).

(* sgode_intrp.cpp:8-59: yout and ypout; the local arrays g, w, rho have 13 elements *)
Definition intrp (s : ode) (xout : R) (junk : nat -> R) : outcome (vec * vec) :=
  let hi := xout - s_x s in
  let ki := (s_kold s + 1)%nat in
  do gg <- wr (Arr 13 junk) 0 1;
  do rho <- wr (Arr 13 junk) 0 1;
  do ww <- iterate 0 ki (fun i a => wr a i (1 / (INR i + 1))) (Arr 13 junk);
  do r <- iterate 1 (ki - 1) (fun j (s' : arr * arr * arr * R) =>
            let '(gg, ww, rho, term) := s' in
            do psijm1 <- rd (psi (s_co s)) (j - 1);
            let gamma := (hi + term) / psijm1 in
            let eta := hi / psijm1 in
            do ww <- iterate 0 (ki - j) (fun i a => do x <- rd a i; do y <- rd a (i + 1); wr a i (gamma * x - eta * y)) ww;
            do w0 <- rd ww 0;
            do gg <- wr gg j w0;
            do r0 <- rd rho (j - 1);
            do rho <- wr rho j (gamma * r0);
            Ok (gg, ww, rho, psijm1)) (gg, ww, rho, 0);
  let '(gg, _, rho, _) := r in
  do o <- iterate 0 ki (fun j (s' : vec * vec) =>
            let (yo, ypo) := s' in
            let i := (ki - 1 - j)%nat in
            do t2 <- rd gg i;
            do t3 <- rd rho i;
            do u <- col (s_phi s) i;
            Ok (vadd yo (vscale t2 u), vadd ypo (vscale t3 u))) (vzero, vzero);
  Ok (vadd (s_yy s) (vscale hi (fst o)), snd o).

(* the whole object, sgode.hpp:112-126 *)
Record solver := Solver { iflag : Z; told : R; delsgn : R; isnold : Z; relerr : R; abserr : R; neqn : Z; core : ode }.
(* sgode_de.cpp:26 *)
Definition maxnum : nat := 500.
(* sgode_de.cpp:11-12: what a call of de returns: the code, t, yout and the object *)
Record result := Result { code : Z; r_t : R; r_y : vec; r_solver : solver }.
Definition set_core (S : solver) (s : ode) : solver := Solver (iflag S) (told S) (delsgn S) (isnold S) (relerr S) (abserr S) (neqn S) s.
Definition set_h (s : ode) (h : R) : ode := Ode (s_x s) h (s_hold s) (s_k s) (s_kold s) (s_ns s) (s_start s) (s_phase1 s) (s_nornd s) (s_yy s) (s_yp s) (s_p s) (s_wt s) (s_phi s) (s_co s).
Definition set_yp (s : ode) (yp : vec) : ode := Ode (s_x s) (s_h s) (s_hold s) (s_k s) (s_kold s) (s_ns s) (s_start s) (s_phase1 s) (s_nornd s) (s_yy s) yp (s_p s) (s_wt s) (s_phi s) (s_co s).
Definition set_wt (s : ode) (wt : vec) : ode := Ode (s_x s) (s_h s) (s_hold s) (s_k s) (s_kold s) (s_ns s) (s_start s) (s_phase1 s) (s_nornd s) (s_yy s) (s_yp s) (s_p s) wt (s_phi s) (s_co s).
(* sgode_de.cpp:94-98, 108-112: the end of a successful call *)
Definition arrive (S : solver) (isn : Z) (tout : R) (y : vec) (s : ode) : result :=
  Result 0 tout y (Solver 2 tout (delsgn S) isn (relerr S) (abserr S) (neqn S) s).
(* sgode_de.cpp:89-154; the routine step is a parameter *)
Fixpoint de_loop (fuel : nat) (stp : R -> ode -> outcome (option (bool * R * ode))) (f : rhs) (junk : nat -> R)
    (isn : Z) (t tout tend absdel releps abseps : R) (nostep kle4 : nat) (stiff : bool) (eps : R) (yout : vec) (S : solver) : outcome (option result) :=
  match fuel with
  | O => Ok None
  | Datatypes.S fu =>
      let s := core S in
      if rle absdel (Rabs (s_x s - t)) then
        do y <- intrp s tout junk;
        Ok (Some (arrive S isn tout (fst y) s))
      else if Z.leb isn 0 && rgt (fouru * Rabs (s_x s)) (Rabs (tout - s_x s)) then
        let h := tout - s_x s in
        let yp := f (s_x s) (s_yy s) in
        Ok (Some (arrive S isn tout (vadd (s_yy s) (vscale h yp)) (set_yp (set_h s h) yp)))
      else if Nat.leb maxnum nostep then
        Ok (Some (Result 1 (s_x s) (s_yy s) (Solver (isn * (if stiff then 5 else 4)) (s_x s) (delsgn S) 1 (relerr S) (abserr S) (neqn S) s)))
      else
        let h := copysign (Rmin (Rabs (s_h s)) (Rabs (tend - s_x s))) (s_h s) in
        let wt := fun i => releps * Rabs (s_yy s i) + abseps in
        do r <- stp eps (set_wt (set_h s h) wt);
        match r with
        | None => Ok None
        | Some (crash, eps, s) =>
            if (crash : bool) then
              Ok (Some (Result 1 (s_x s) (s_yy s) (Solver (isn * 3) (s_x s) (delsgn S) 1 (eps * releps) (eps * abseps) (neqn S) s)))
            else
              let kle4 := if Nat.ltb 4 (s_kold s) then O else Datatypes.S kle4 in
              de_loop fu stp f junk isn t tout tend absdel releps abseps (Datatypes.S nostep) kle4 (stiff || Nat.leb 50 kle4) eps yout (set_core S s)
        end
  end.
(* sgode_de.cpp:11-157 *)
Definition de (fuel : nat) (stp : R -> ode -> outcome (option (bool * R * ode))) (f : rhs) (junk : nat -> R) (t tout : R) (y0 yout : vec) (S : solver) : outcome (option result) :=
  let eps := Rmax (relerr S) (abserr S) in
  if Z.ltb (neqn S) 1 || (if Req_EM_T t tout then true else false) || rgt 0 (relerr S) || rgt 0 (abserr S) || rgt 0 eps || Z.eqb (iflag S) 0 ||
     ((if Req_EM_T t (told S) then false else true) && negb (Z.eqb (Z.abs (iflag S)) 1)) then
    Ok (Some (Result 1 t yout (Solver 6 (told S) (delsgn S) (isnold S) (relerr S) (abserr S) (neqn S) (core S))))
  else
    let isn := Z.sgn (iflag S) in
    let fl := Z.abs (iflag S) in
    if Z.ltb 5 fl then Ok (Some (Result 1 t yout (Solver fl (told S) (delsgn S) (isnold S) (relerr S) (abserr S) (neqn S) (core S))))
    else
      let del := tout - t in
      let tend := if Z.ltb isn 0 then tout else t + 10 * del in
      let s := core S in
      let S :=
        if rle (delsgn S * del) 0 || Z.eqb fl 1 then
          let h := copysign (Rmax (Rabs (tout - t)) (fouru * Rabs t)) (tout - t) in
          Solver fl (told S) (copysign 1 del) (isnold S) (relerr S) (abserr S) (neqn S)
            (Ode t h (s_hold s) (s_k s) (s_kold s) (s_ns s) true (s_phase1 s) (s_nornd s) y0 (s_yp s) (s_p s) (s_wt s) (s_phi s) (s_co s))
        else Solver fl (told S) (delsgn S) (isnold S) (relerr S) (abserr S) (neqn S) s in
      de_loop fuel stp f junk isn t tout tend (Rabs del) (relerr S / eps) (abserr S / eps) 0 0 false eps yout S.
