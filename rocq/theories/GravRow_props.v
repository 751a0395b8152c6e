(* C102: the row-wise version of the Lagrange polynomials. *)
From Coq Require Import List ZArith Reals Lra Lia Arith.
From Verif Require Import Base Vec_model Vec_proofs Harmonics_model Legendre GravHarm Gravity_model Gravity_proofs GravRow_model GravRow_proofs.
Local Open Scope R_scope.

(* C102: up to order one, and in the plane y = 0, the tables hold (Re/r)^(n+1) P_nm(sin phi) cos(m lambda) and
   sin(m lambda).  Missing: orders above one (refuted below). *)
Theorem row_polynomials_right_partial : forall p lam Re l k V W, p <> vzero -> longitude p lam -> (k <= l)%nat -> sized V l k -> sized W l k ->
  (k <= 1)%nat \/ vy p = 0 ->
  exists V' W', row_lagrange_polynomials p Re l k V W = Ok (0%Z, (V', W')) /\ holds V' (fun n m => Vnm Re n m p lam) l k /\ holds W' (fun n m => Wnm Re n m p lam) l k.
Proof. exact row_right. Qed.
Print Assumptions row_polynomials_right_partial.
Example row_polynomials_right_example : Vec_model.V 0 0 1 <> vzero /\ longitude (Vec_model.V 0 0 1) 0 /\ sized (ex_table 4 4) 3 2 /\ vy (Vec_model.V 0 0 1) = 0.
Proof. split; [exact ex_p|]. split; [|split; [unfold sized; cbn; lia|reflexivity]]. unfold longitude. cbn [vx vy]. rewrite !Rmult_0_l, Rplus_0_l, sqrt_0. lra. Qed.

(* C102: up to order one, and in the plane y = 0, the two versions do the same on any tables: the same code, the
   same cells, undefined together *)
Theorem row_polynomials_agree_partial : forall p Re l k V W, (k <= 1)%nat \/ vy p = 0 ->
  row_lagrange_polynomials p Re l k V W = lagrange_polynomials p Re l k V W.
Proof. exact row_same. Qed.
Print Assumptions row_polynomials_agree_partial.

(* C102: at order two they differ: the factor 2m - 1 multiplies the first product only *)
Theorem row_polynomials_agree_refuted : exists p V1 W1 V2 W2,
  row_lagrange_polynomials p 1 2 2 (ex_table 3 3) (ex_table 3 3) = Ok (0%Z, (V1, W1)) /\
  lagrange_polynomials p 1 2 2 (ex_table 3 3) (ex_table 3 3) = Ok (0%Z, (V2, W2)) /\
  t_val V1 2 2 = -1 /\ t_val V2 2 2 = -3.
Proof. exists (Vec_model.V 0 1 0). exact row_wrong. Qed.
Print Assumptions row_polynomials_agree_refuted.
