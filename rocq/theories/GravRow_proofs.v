(* Lemmas behind GravRow_props.v. *)
From Coq Require Import List ZArith Reals Lra Lia Arith Bool.
From Verif Require Import Base Vec_model Vec_proofs Harmonics_model Legendre GravHarm Gravity_model Gravity_proofs GravRow_model.
Import ListNotations.
Local Open Scope R_scope.

Lemma row_inside_low t i j : (j <= i)%nat -> row_inside t i j = inside t i j.
Proof. intros L. unfold row_inside, inside. rewrite (proj2 (Nat.leb_le j i) L). now rewrite andb_true_r. Qed.
Lemma row_get_low t i j : (j <= i)%nat -> row_get t i j = get t i j.
Proof. intros L. unfold row_get, get. now rewrite row_inside_low. Qed.
Lemma row_put_low t i j v : (j <= i)%nat -> row_put t i j v = put t i j v.
Proof. intros L. unfold row_put, put. now rewrite row_inside_low. Qed.
Lemma iterate_ext {S} (f g : nat -> S -> outcome S) : forall count lo s, (forall i s, (lo <= i < lo + count)%nat -> f i s = g i s) ->
  iterate lo count f s = iterate lo count g s.
Proof.
  induction count as [|c IH]; intros lo s H; [reflexivity|]. cbn [iterate]. rewrite H by lia.
  destruct (g lo s) as [s'|]; cbn [obind]; [|reflexivity]. apply IH. intros i t L. apply H. lia.
Qed.
Lemma loop_ext {S} (f g : nat -> S -> outcome S) lo hi s : (forall i s, (lo <= i <= hi)%nat -> f i s = g i s) -> loop lo hi f s = loop lo hi g s.
Proof. intros H. unfold loop. apply iterate_ext. intros i t L. apply H. lia. Qed.

Lemma row_zonal_same z0 rho n s : row_zonal_step z0 rho n s = zonal_step z0 rho n s.
Proof.
  destruct s as [V W]. unfold row_zonal_step, zonal_step. rewrite ?row_get_low by lia.
  destruct (get V (n - 1) 0) as [v1|]; cbn [obind]; [|reflexivity]. destruct (get V (n - 2) 0) as [v2|]; cbn [obind]; [|reflexivity].
  rewrite ?row_put_low by lia. reflexivity.
Qed.
Lemma row_tesseral_same z0 rho m n s : (m + 2 <= n)%nat -> row_tesseral_step z0 rho m n s = tesseral_step z0 rho m n s.
Proof.
  intros L. destruct s as [V W]. unfold row_tesseral_step, tesseral_step. rewrite ?row_get_low by lia.
  destruct (get V (n - 1) m) as [v1|]; cbn [obind]; [|reflexivity]. destruct (get V (n - 2) m) as [v2|]; cbn [obind]; [|reflexivity].
  rewrite ?row_put_low by lia. destruct (put V n m _) as [V'|]; cbn [obind]; [|reflexivity]. 
  destruct (get W (n - 1) m) as [w1|]; cbn [obind]; [|reflexivity]. destruct (get W (n - 2) m) as [w2|]; cbn [obind]; [|reflexivity].
  rewrite ?row_put_low by lia. reflexivity.
Qed.
(* the step agrees when the factor of the diagonal is one or y is zero *)
Lemma row_order_same x0 y0 z0 rho l m s : (m = 1)%nat \/ y0 = 0 -> row_order_step x0 y0 z0 rho l m s = order_step x0 y0 z0 rho l m s.
Proof.
  intros H. destruct s as [V W]. unfold row_order_step, order_step. rewrite ?row_get_low by lia.
  destruct (get V (m - 1) (m - 1)) as [v|]; cbn [obind]; [|reflexivity]. destruct (get W (m - 1) (m - 1)) as [w|]; cbn [obind]; [|reflexivity].
  assert (A : (2 * INR m - 1) * x0 * v - y0 * w = (2 * INR m - 1) * (x0 * v - y0 * w)) by (destruct H as [-> | ->]; cbn [INR]; ring).
  assert (B : (2 * INR m - 1) * x0 * w + y0 * v = (2 * INR m - 1) * (x0 * w + y0 * v)) by (destruct H as [-> | ->]; cbn [INR]; ring).
  rewrite A, B, !row_put_low by lia.
  destruct (put V m m _) as [V1|]; cbn [obind]; [|reflexivity]. destruct (put W m m _) as [W1|]; cbn [obind]; [|reflexivity].
  assert (C : forall s2, loop (m + 2) l (row_tesseral_step z0 rho m) s2 = loop (m + 2) l (tesseral_step z0 rho m) s2)
    by (intros s2; apply loop_ext; intros i t L; apply row_tesseral_same; lia).
  destruct (Nat.ltb m l); [|cbn [obind]; apply C]. rewrite ?row_get_low by lia.
  destruct (get V1 m m) as [v1|]; cbn [obind]; [|reflexivity]. rewrite row_put_low by lia.
  destruct (put V1 (m + 1) m _) as [V2|]; cbn [obind]; [|reflexivity].
  destruct (get W1 m m) as [w1|]; cbn [obind]; [|reflexivity]. rewrite row_put_low by lia.
  destruct (put W1 (m + 1) m _) as [W2|]; cbn [obind]; [|reflexivity]. apply C.
Qed.
Lemma row_same p Re l k V W : (k <= 1)%nat \/ vy p = 0 -> row_lagrange_polynomials p Re l k V W = lagrange_polynomials p Re l k V W.
Proof.
  intros H. unfold row_lagrange_polynomials, lagrange_polynomials. destruct (Nat.ltb l k); [reflexivity|]. destruct p as [x y z]. cbn [vy] in H.
  rewrite ?row_put_low by lia. destruct (put V 0 0 _) as [V0|]; cbn [obind]; [|reflexivity].
  rewrite ?row_put_low by lia. destruct (put W 0 0 0) as [W0|]; cbn [obind]; [|reflexivity].
  rewrite ?row_get_low by lia. destruct (get V0 0 0) as [v|]; cbn [obind]; [|reflexivity].
  rewrite ?row_put_low by lia. destruct (put V0 1 0 _) as [V1|]; cbn [obind]; [|reflexivity].
  rewrite ?row_put_low by lia. destruct (put W0 1 0 _) as [W1|]; cbn [obind]; [|reflexivity].
  rewrite (loop_ext _ (zonal_step (Re * z / (x * x + y * y + z * z)) (Re * Re / (x * x + y * y + z * z)))) by (intros; apply row_zonal_same).
  destruct (loop 2 l _ (V1, W1)) as [s|]; cbn [obind]; [|reflexivity].
  rewrite (loop_ext (row_order_step _ _ _ _ l) (order_step (Re * x / (x * x + y * y + z * z)) (Re * y / (x * x + y * y + z * z)) (Re * z / (x * x + y * y + z * z)) (Re * Re / (x * x + y * y + z * z)) l)); [reflexivity|].
  intros i t L. apply row_order_same. destruct H as [H|H]; [left; lia|right; rewrite H; unfold Rdiv; ring].
Qed.
Lemma row_right p lam Re l k V W : p <> vzero -> longitude p lam -> (k <= l)%nat -> sized V l k -> sized W l k -> (k <= 1)%nat \/ vy p = 0 ->
  exists V' W', row_lagrange_polynomials p Re l k V W = Ok (0%Z, (V', W')) /\ holds V' (fun n m => Vnm Re n m p lam) l k /\ holds W' (fun n m => Wnm Re n m p lam) l k.
Proof. intros A B C D E F. rewrite row_same by exact F. exact (lagrange_tables p lam Re l k V W A B C D E). Qed.

(* the point on the y axis at distance one: -1 where -3 is due *)
Lemma row_wrong : exists V1 W1 V2 W2,
  row_lagrange_polynomials (Vec_model.V 0 1 0) 1 2 2 (ex_table 3 3) (ex_table 3 3) = Ok (0%Z, (V1, W1)) /\
  lagrange_polynomials (Vec_model.V 0 1 0) 1 2 2 (ex_table 3 3) (ex_table 3 3) = Ok (0%Z, (V2, W2)) /\
  t_val V1 2 2 = -1 /\ t_val V2 2 2 = -3.
Proof.
  do 4 eexists. split; [reflexivity|]. split; [reflexivity|]. cbn -[sqrt].
  replace (0 * 0 + 1 * 1 + 0 * 0) with 1 by ring. rewrite sqrt_1. split; field.
Qed.
