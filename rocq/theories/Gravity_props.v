From Coq Require Import List ZArith Reals Lra Lia Arith.
From Verif Require Import Base Vec_model Vec_proofs Calc Harmonics_model Legendre GravHarm Gravity_model Gravity_proofs.
Import ListNotations.
Local Open Scope R_scope.

(* C59: the tables hold (Re/r)^(n+1) P_nm(sin phi) cos(m lambda) and sin(m lambda) at every degree up to l and every order up to k, for every point but the centre *)
Theorem lagrange_polynomials_right : forall p lam Re l k V W, p <> vzero -> longitude p lam -> (k <= l)%nat -> sized V l k -> sized W l k ->
  exists V' W', lagrange_polynomials p Re l k V W = Ok (0%Z, (V', W')) /\ holds V' (fun n m => Vnm Re n m p lam) l k /\ holds W' (fun n m => Wnm Re n m p lam) l k.
Proof. exact lagrange_tables. Qed.
Print Assumptions lagrange_polynomials_right.
Example lagrange_polynomials_right_example : Vec_model.V 0 0 1 <> vzero /\ longitude (Vec_model.V 0 0 1) 0 /\ sized (ex_table 4 4) 3 2.
Proof. split; [exact ex_p|]. split; [|unfold sized; cbn; lia]. unfold longitude. cbn [vx vy]. rewrite !Rmult_0_l, Rplus_0_l, sqrt_0. lra. Qed.
(* C59: an order above the degree is refused and the tables are left alone *)
Theorem lagrange_order_refused : forall p Re l k V W, (l < k)%nat -> lagrange_polynomials p Re l k V W = Ok (1%Z, (V, W)).
Proof. exact lagrange_order. Qed.
Print Assumptions lagrange_order_refused.
(* C59: every point has a longitude, so the first theorem speaks of every point *)
Theorem longitude_of_every_point : forall p, exists lam, longitude p lam.
Proof. exact longitude_exists. Qed.
Print Assumptions longitude_of_every_point.
(* C59: tables just large enough for degree zero are written beyond their end *)
Theorem lagrange_degree_zero_refuted : exists p V W, p <> vzero /\ t_rows V = 1%nat /\ t_cols V = 1%nat /\ t_rows W = 1%nat /\ t_cols W = 1%nat /\ lagrange_polynomials p 1 0 0 V W = UB.
Proof. exists (Vec_model.V 0 0 1), (ex_table 1 1), (ex_table 1 1). split; [exact ex_p|]. do 4 (split; [reflexivity|]). apply lagrange_one_row. reflexivity. Qed.
Print Assumptions lagrange_degree_zero_refuted.
(* C59: the functions named P_nm are the usual ones *)
Example legendre_20 : forall u, Pnm 2 0 u = (3 * u * u - 1) / 2.
Proof. intros u. pose proof (Ld_rec 0 0 u) as E. unfold Pnm. cbn [pow]. rewrite Ld_00, Ld_10 in E. cbn [INR] in E. lra. Qed.

(* C71: the acceleration is the gradient of the potential up to the degree and order asked for: along any curve the potential changes as acceleration times velocity *)
Theorem acceleration_is_gradient : forall Re GM C S degree order V W h p lam s u, Re <> 0 -> (order <= degree)%nat -> coefficients h degree C S -> vderiv p s u -> p s <> vzero -> (forall t, longitude (p t) (lam t)) ->
  holds V (fun n m => Vnm Re n m (p s) (lam s)) (degree + 1) (order + 1) -> holds W (fun n m => Wnm Re n m (p s) (lam s)) (degree + 1) (order + 1) ->
  exists a, grav_accel degree order Re GM V W h = Ok a /\ derivable_pt_lim (fun t => potential GM Re C S degree order (p t) (lam t)) s (dot a u).
Proof. exact accel_gradient. Qed.
Print Assumptions acceleration_is_gradient.
(* C71: and so does the version that fills the tables itself *)
Theorem acceleration_at_is_gradient : forall Re GM C S degree order V W h p lam s u, Re <> 0 -> (order <= degree)%nat -> coefficients h degree C S -> vderiv p s u -> p s <> vzero -> (forall t, longitude (p t) (lam t)) -> sized V (degree + 1) (order + 1) -> sized W (degree + 1) (order + 1) ->
  exists a tabs, accel_at (p s) degree order Re GM V W h = Ok (Some (a, tabs)) /\ derivable_pt_lim (fun t => potential GM Re C S degree order (p t) (lam t)) s (dot a u).
Proof. exact accel_at_gradient. Qed.
Print Assumptions acceleration_at_is_gradient.
Example acceleration_at_is_gradient_example : coefficients ex_coeff 1 ex_C ex_S /\ sized (ex_table 3 3) (1 + 1) (1 + 1) /\
  vderiv (fun t => vadd (Vec_model.V 0 0 1) (vscale t (Vec_model.V 1 0 0))) 0 (Vec_model.V 1 0 0) /\ (forall t, exists lam, longitude (vadd (Vec_model.V 0 0 1) (vscale t (Vec_model.V 1 0 0))) lam).
Proof. split; [exact ex_coefficients|]. split; [unfold sized; cbn; lia|]. split; [apply vderiv_line|intros; apply longitude_exists]. Qed.
(* C71: tables that are too small stop the program *)
Theorem acceleration_small_tables : forall p degree order Re GM V W h, ~ (sized V (degree + 1) (order + 1) /\ sized W (degree + 1) (order + 1)) -> accel_at p degree order Re GM V W h = Ok None.
Proof. exact accel_at_small. Qed.
Print Assumptions acceleration_small_tables.

(* C72 (partial): the elements (0,0), (1,0), (1,1) and (2,2) of the partials are those of the derivative of the acceleration by the position.  Missing: the other five *)
Theorem gravity_partials_partial : forall Re GM C S degree order V W h A q junk, Re <> 0 -> (1 <= order <= degree)%nat -> coefficients h degree C S -> q <> vzero -> exact_size V degree order -> exact_size W degree order -> acceleration degree order Re GM V W h A ->
  exists P J tabs, accel_partials_at q degree order Re GM V W h junk = Ok (Some ((A q, P), tabs)) /\ is_jacobian A q J /\
    vx (row0 P) = vx (row0 J) /\ vx (row1 P) = vx (row1 J) /\ vy (row1 P) = vy (row1 J) /\ vz (row2 P) = vz (row2 J).
Proof. exact partials_right. Qed.
Print Assumptions gravity_partials_partial.
Example gravity_partials_example : coefficients ex_j2 2 ex_j2_C (fun _ _ => 0) /\ exact_size (ex_table 5 4) 2 1 /\ acceleration 2 1 1 1 (ex_table 5 4) (ex_table 5 4) ex_j2 (field 1 1 ex_j2_C (fun _ _ => 0) 2 1).
Proof. split; [exact ex_j2_coefficients|]. split; [split; reflexivity|]. apply ex_acceleration; [lia|exact ex_j2_coefficients|unfold sized; cbn; lia|unfold sized; cbn; lia]. Qed.
(* C72: the derivative is a single matrix *)
Theorem gravity_jacobian_unique : forall A q J K, is_jacobian A q J -> is_jacobian A q K -> J = K.
Proof. exact jacobian_unique. Qed.
Print Assumptions gravity_jacobian_unique.
(* C72 (partial): the whole last row is right for fields without coefficients of order one *)
Theorem gravity_partials_last_row_partial : forall Re GM C S degree order V W h A q junk, Re <> 0 -> (1 <= order <= degree)%nat -> coefficients h degree C S -> (forall n, C n 1%nat = 0 /\ S n 1%nat = 0) -> q <> vzero -> exact_size V degree order -> exact_size W degree order -> acceleration degree order Re GM V W h A ->
  exists P J tabs, accel_partials_at q degree order Re GM V W h junk = Ok (Some ((A q, P), tabs)) /\ is_jacobian A q J /\ row2 P = row2 J.
Proof. exact partials_last_row. Qed.
Print Assumptions gravity_partials_last_row_partial.
(* C72: the terms of order one are missing in the element (2,0) *)
Theorem gravity_partials_last_row_refuted : exists degree order h V W A q junk a P J tabs, accel_partials_at q degree order 1 1 V W h junk = Ok (Some ((a, P), tabs)) /\ acceleration degree order 1 1 V W h A /\ is_jacobian A q J /\ vx (row2 P) <> vx (row2 J).
Proof. exact last_row_wrong. Qed.
Print Assumptions gravity_partials_last_row_refuted.
(* C72: the elements above the diagonal are what the caller left there *)
Theorem gravity_partials_upper_refuted : exists degree order h V W A q junk a P J tabs, accel_partials_at q degree order 1 1 V W h junk = Ok (Some ((a, P), tabs)) /\ acceleration degree order 1 1 V W h A /\ is_jacobian A q J /\ vy (row0 P) <> vy (row0 J) /\ vz (row0 P) <> vz (row0 J) /\ vz (row1 P) <> vz (row1 J).
Proof. exact upper_wrong. Qed.
Print Assumptions gravity_partials_upper_refuted.
(* C72: asked for a zonal field (order zero), the function reads the fourth column of tables that must have three *)
Theorem gravity_partials_zonal_undefined : forall Re GM C S degree V W h q junk, (1 <= degree)%nat -> coefficients h degree C S -> q <> vzero -> exact_size V degree 0 -> exact_size W degree 0 -> accel_partials_at q degree 0 Re GM V W h junk = UB.
Proof. exact partials_order_zero. Qed.
Print Assumptions gravity_partials_zonal_undefined.
Example gravity_partials_zonal_example : coefficients ex_j2 2 ex_j2_C (fun _ _ => 0) /\ exact_size (ex_table 5 3) 2 0.
Proof. split; [exact ex_j2_coefficients|split; reflexivity]. Qed.
