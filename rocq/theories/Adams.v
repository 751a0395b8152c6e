(* Interpolating polynomials, divided differences and the integrals of Newton's basis: the mathematics
   behind the multistep method of the integrator. *)
From Coq Require Import Reals Lra Lia Arith.
From Verif Require Calc.
Local Open Scope R_scope.

(* ---- specification ---- *)
Fixpoint sumn (m : nat) (f : nat -> R) : R := match m with O => 0 | S k => sumn k f + f k end.
(* polynomials of degree less than m *)
Definition degree_below (m : nat) (P : R -> R) : Prop := exists c : nat -> R, forall t, P t = sumn m (fun i => c i * t ^ i).
(* P takes the value F j at X j, for j < m *)
Definition through (m : nat) (X F : nat -> R) (P : R -> R) : Prop := forall j, (j < m)%nat -> P (X j) = F j.
Definition primitive (P Q : R -> R) : Prop := forall t, derivable_pt_lim Q t (P t).
(* all different *)
Definition distinct (m : nat) (X : nat -> R) : Prop := forall i j, (i < j < m)%nat -> X i <> X j.

(* ---- sums and products ---- *)
Fixpoint prodn (m : nat) (f : nat -> R) : R := match m with O => 1 | S k => prodn k f * f k end.
Lemma sumn_ext m f g : (forall i, (i < m)%nat -> f i = g i) -> sumn m f = sumn m g.
Proof. induction m as [|m IH]; intros H; cbn [sumn]; [reflexivity|]. rewrite IH by (intros; apply H; lia). rewrite (H m) by lia. reflexivity. Qed.
Lemma prodn_ext m f g : (forall i, (i < m)%nat -> f i = g i) -> prodn m f = prodn m g.
Proof. induction m as [|m IH]; intros H; cbn [prodn]; [reflexivity|]. rewrite IH by (intros; apply H; lia). rewrite (H m) by lia. reflexivity. Qed.
Lemma sumn_plus m f g : sumn m (fun i => f i + g i) = sumn m f + sumn m g.
Proof. induction m as [|m IH]; cbn [sumn]; [ring|rewrite IH; ring]. Qed.
Lemma sumn_scal m k f : sumn m (fun i => k * f i) = k * sumn m f.
Proof. induction m as [|m IH]; cbn [sumn]; [ring|rewrite IH; ring]. Qed.
Lemma sumn_first m f : sumn (S m) f = f O + sumn m (fun i => f (S i)).
Proof. induction m as [|m IH]; [cbn [sumn]; ring|]. cbn [sumn] in *. rewrite IH. ring. Qed.
Lemma prodn_first m f : prodn (S m) f = f O * prodn m (fun i => f (S i)).
Proof. induction m as [|m IH]; [cbn [prodn]; ring|]. cbn [prodn] in *. rewrite IH. ring. Qed.
Lemma prodn_mult m f g : prodn m (fun i => f i * g i) = prodn m f * prodn m g.
Proof. induction m as [|m IH]; cbn [prodn]; [ring|rewrite IH; ring]. Qed.
Lemma prodn_zero m f i : (i < m)%nat -> f i = 0 -> prodn m f = 0.
Proof. induction m as [|m IH]; intros L E; [lia|]. cbn [prodn]. destruct (Nat.eq_dec i m) as [->|]; [rewrite E; ring|rewrite IH by (lia || assumption); ring]. Qed.
Lemma prodn_nonzero m f : (forall i, (i < m)%nat -> f i <> 0) -> prodn m f <> 0.
Proof. induction m as [|m IH]; intros H; cbn [prodn]; [lra|]. apply Rmult_integral_contrapositive_currified; [apply IH; intros; apply H; lia|apply H; lia]. Qed.

(* ---- divided differences ---- *)
Definition shift (X : nat -> R) : nat -> R := fun j => X (S j).
Fixpoint dd (i : nat) (X F : nat -> R) : R := match i with O => F O | S m => (dd m X F - dd m (shift X) (shift F)) / (X O - X (S m)) end.
Lemma dd_ext i : forall X Y F G, (forall j, (j <= i)%nat -> X j = Y j) -> (forall j, (j <= i)%nat -> F j = G j) -> dd i X F = dd i Y G.
Proof.
  induction i as [|i IH]; intros X Y F G HX HF; cbn [dd]; [apply HF; lia|].
  rewrite (IH X Y F G) by (intros; first [apply HX; lia|apply HF; lia]). rewrite (IH (shift X) (shift Y) (shift F) (shift G)) by (intros; unfold shift; first [apply HX; lia|apply HF; lia]).
  rewrite (HX O) by lia. rewrite (HX (S i)) by lia. reflexivity.
Qed.
Lemma distinct_shift m X : distinct (S m) X -> distinct m (shift X).
Proof. intros D i j L. unfold shift. apply D. lia. Qed.
Lemma distinct_le m m' X : (m <= m')%nat -> distinct m' X -> distinct m X.
Proof. intros L D i j B. apply D. lia. Qed.
Lemma dd_step i X F : distinct (S (S i)) X -> dd (S i) X F * (X O - X (S i)) = dd i X F - dd i (shift X) (shift F).
Proof. intros D. cbn [dd]. field. specialize (D O (S i)). assert (X O <> X (S i)) by (apply D; lia). lra. Qed.
Lemma dd_plus i : forall X F G, dd i X (fun j => F j + G j) = dd i X F + dd i X G.
Proof. induction i as [|i IH]; intros X F G; cbn [dd]; [ring|]. change (shift (fun j => F j + G j)) with (fun j => shift F j + shift G j). rewrite !IH. unfold Rdiv. ring. Qed.
Lemma dd_scal i k : forall X F, dd i X (fun j => k * F j) = k * dd i X F.
Proof. induction i as [|i IH]; intros X F; cbn [dd]; [ring|]. change (shift (fun j => k * F j)) with (fun j => k * shift F j). rewrite !IH. unfold Rdiv. ring. Qed.
(* Leibniz's rule for a linear factor *)
Lemma dd_linear i : forall X F, distinct (S (S i)) X -> dd (S i) X (fun j => X j * F j) = X O * dd (S i) X F + dd i (shift X) (shift F).
Proof.
  induction i as [|i IH]; intros X F D.
  - cbn [dd]. unfold shift. field. assert (X O <> X 1%nat) by (apply D; lia). lra.
  - assert (N : X O <> X (S (S i))) by (apply D; lia).
    assert (E : dd (S (S i)) X (fun j => X j * F j) = (dd (S i) X (fun j => X j * F j) - dd (S i) (shift X) (fun j => shift X j * shift F j)) / (X O - X (S (S i)))) by reflexivity.
    rewrite E. rewrite (IH X F) by (apply distinct_le with (S (S (S i))); [lia|exact D]). rewrite (IH (shift X) (shift F)) by (apply distinct_shift; exact D).
    pose proof (dd_step (S i) X F D) as S1. pose proof (dd_step i (shift X) (shift F) (distinct_shift _ _ D)) as S2.
    assert (S3 : dd (S i) (shift X) (shift F) = dd (S i) X F - dd (S (S i)) X F * (X O - X (S (S i)))) by lra.
    change (shift X O) with (X 1%nat) in S2. change (shift X (S i)) with (X (S (S i))) in S2. assert (S4 : dd i (shift (shift X)) (shift (shift F)) = dd i (shift X) (shift F) - dd (S i) (shift X) (shift F) * (X 1%nat - X (S (S i)))) by lra.
    rewrite S4. change (shift X O) with (X 1%nat). rewrite S3. field. lra.
Qed.

(* ---- Newton's form ---- *)
Definition basis (X : nat -> R) (i : nat) (t : R) : R := prodn i (fun j => t - X j).
Definition newton (m : nat) (X F : nat -> R) (t : R) : R := sumn m (fun i => dd i X F * basis X i t).
Lemma basis_first X i t : basis X (S i) t = (t - X O) * basis (shift X) i t.
Proof. unfold basis. rewrite prodn_first. reflexivity. Qed.
Lemma newton_linear m X F t : distinct (S m) X -> newton (S m) X (fun j => X j * F j) t = X O * newton (S m) X F t + (t - X O) * newton m (shift X) (shift F) t.
Proof.
  intros D. unfold newton. rewrite (sumn_first m (fun i => dd i X (fun j => X j * F j) * basis X i t)), (sumn_first m (fun i => dd i X F * basis X i t)).
  rewrite (sumn_ext m (fun i => dd (S i) X (fun j => X j * F j) * basis X (S i) t) (fun i => X O * (dd (S i) X F * basis X (S i) t) + (t - X O) * (dd i (shift X) (shift F) * basis (shift X) i t))).
  - rewrite sumn_plus, !sumn_scal. cbn [dd]. ring.
  - intros i L. rewrite dd_linear by (apply distinct_le with (S m); [lia|exact D]). rewrite basis_first. ring.
Qed.
Lemma newton_ext m X F G t : (forall j, (j < m)%nat -> F j = G j) -> newton m X F t = newton m X G t.
Proof. intros H. unfold newton. apply sumn_ext. intros i L. rewrite (dd_ext i X X F G); [reflexivity|reflexivity|intros; apply H; lia]. Qed.
Lemma newton_power e : forall m X t, (e < m)%nat -> distinct m X -> newton m X (fun j => X j ^ e) t = t ^ e.
Proof.
  induction e as [|e IH]; intros m X t L D.
  - destruct m as [|m]; [lia|]. unfold newton. rewrite sumn_first. change (dd 0 X (fun j : nat => X j ^ 0)) with 1. unfold basis at 1. cbn [prodn pow].
    rewrite (sumn_ext m _ (fun i => 0 * 0)); [rewrite sumn_scal; ring|].
    intros i Li. assert (Z : forall i X, dd (S i) X (fun _ => 1) = 0).
    { clear. induction i as [|i IH]; intros X; [cbn [dd]; unfold shift, Rdiv; ring|]. change (dd (S (S i)) X (fun _ => 1)) with ((dd (S i) X (fun _ => 1) - dd (S i) (shift X) (fun _ => 1)) / (X O - X (S (S i)))). rewrite !IH. unfold Rdiv. ring. }
    change (fun j : nat => X j ^ 0) with (fun _ : nat => 1). rewrite Z. ring.
  - destruct m as [|m]; [lia|]. change (fun j => X j ^ S e) with (fun j => X j * X j ^ e). rewrite (newton_linear m X (fun j => X j ^ e) t D). rewrite (IH (S m) X t ltac:(lia) D).
    change (shift (fun j => X j ^ e)) with (fun j => shift X j ^ e). rewrite (IH m (shift X) t ltac:(lia) (distinct_shift m X D)). cbn [pow]. ring.
Qed.
Lemma newton_sum m X : forall d (F : nat -> nat -> R) t, newton m X (fun j => sumn d (fun i => F i j)) t = sumn d (fun i => newton m X (F i) t).
Proof.
  induction d as [|d IH]; intros F t; cbn [sumn].
  - unfold newton. rewrite (sumn_ext m _ (fun i => 0 * basis X i t)); [rewrite sumn_scal; ring|]. intros i L.
    rewrite (dd_ext i X X (fun _ => 0) (fun j => 0 * 0)) by (intros; ring). rewrite (dd_scal i 0 X (fun _ => 0)). ring.
  - rewrite <- IH. unfold newton. rewrite <- sumn_plus. apply sumn_ext. intros i L. rewrite dd_plus. ring.
Qed.
Lemma newton_scal m X F k t : newton m X (fun j => k * F j) t = k * newton m X F t.
Proof. unfold newton. rewrite <- sumn_scal. apply sumn_ext. intros. rewrite dd_scal. ring. Qed.
(* a polynomial of degree less than m is the Newton polynomial of its values at m points *)
Lemma newton_form m X F P t : distinct m X -> degree_below m P -> through m X F P -> P t = newton m X F t.
Proof.
  intros D (c & HP) T. rewrite (newton_ext m X F (fun j => sumn m (fun i => c i * X j ^ i))) by (intros j L; rewrite <- (T j L); apply HP).
  rewrite newton_sum, HP. apply sumn_ext. intros i L. rewrite newton_scal, newton_power by assumption. reflexivity.
Qed.
(* and there is one *)
Lemma degree_plus m P Q : degree_below m P -> degree_below m Q -> degree_below m (fun t => P t + Q t).
Proof. intros (c & H) (d & K). exists (fun i => c i + d i). intros t. rewrite H, K, <- sumn_plus. apply sumn_ext. intros. ring. Qed.
Lemma degree_scal m k P : degree_below m P -> degree_below m (fun t => k * P t).
Proof. intros (c & H). exists (fun i => k * c i). intros t. rewrite H, <- sumn_scal. apply sumn_ext. intros. ring. Qed.
Lemma degree_up m P : degree_below m P -> degree_below (S m) P.
Proof. intros (c & H). exists (fun i => if Nat.ltb i m then c i else 0). intros t. rewrite H. cbn [sumn]. rewrite Nat.ltb_irrefl. rewrite Rmult_0_l, Rplus_0_r. apply sumn_ext. intros i L. destruct (Nat.ltb_spec i m); [reflexivity|lia]. Qed.
Lemma degree_times m a P : degree_below m P -> degree_below (S m) (fun t => P t * (t - a)).
Proof.
  intros (c & H). assert (T : degree_below (S m) (fun t => t * P t)).
  { exists (fun i => match i with O => 0 | S j => c j end). intros t. rewrite H, sumn_first, <- sumn_scal. rewrite Rmult_0_l, Rplus_0_l. apply sumn_ext. intros. cbn [pow]. ring. }
  assert (U : degree_below (S m) (fun t => - a * P t)) by (apply degree_scal, degree_up; exists c; exact H).
  destruct (degree_plus _ _ _ T U) as (d & E). exists d. intros t. rewrite <- E. ring.
Qed.
Lemma degree_ext m P Q : (forall t, P t = Q t) -> degree_below m P -> degree_below m Q.
Proof. intros E (c & H). exists c. intros t. rewrite <- E. apply H. Qed.
Lemma degree_basis X i : degree_below (S i) (basis X i).
Proof.
  induction i as [|i IH]; [exists (fun _ => 1); intros t; unfold basis; cbn [prodn sumn pow]; ring|].
  apply (degree_times _ (X i)) in IH. exact IH.
Qed.
Lemma degree_newton m X F : degree_below m (newton m X F).
Proof.
  induction m as [|m IH]; [exists (fun _ => 0); intros t; reflexivity|].
  apply (degree_plus (S m) (newton m X F) (fun t => dd m X F * basis X m t)); [apply degree_up, IH|apply degree_scal, degree_basis].
Qed.
Lemma newton_shift m : forall X F t, distinct (S m) X -> newton (S m) X F t - newton m (shift X) (shift F) t = dd m X F * basis (shift X) m t.
Proof.
  induction m as [|m IH]; intros X F t D; [unfold newton, basis; cbn [sumn dd prodn]; ring|].
  change (newton (S (S m)) X F t) with (newton (S m) X F t + dd (S m) X F * basis X (S m) t).
  change (newton (S m) (shift X) (shift F) t) with (newton m (shift X) (shift F) t + dd m (shift X) (shift F) * basis (shift X) m t).
  specialize (IH X F t (distinct_le (S m) (S (S m)) X ltac:(lia) D)). rewrite basis_first. change (basis (shift X) (S m) t) with (basis (shift X) m t * (t - X (S m))).
  pose proof (dd_step m X F D) as E. assert (E' : dd m (shift X) (shift F) = dd m X F - dd (S m) X F * (X O - X (S m))) by lra. rewrite E'.
  replace (newton (S m) X F t) with (newton m (shift X) (shift F) t + dd m X F * basis (shift X) m t) by lra. ring.
Qed.
Lemma newton_through m : forall X F, distinct m X -> through m X F (newton m X F).
Proof.
  induction m as [|m IH]; intros X F D j L; [lia|]. destruct j as [|j].
  - unfold newton. rewrite sumn_first. unfold basis at 1. change (dd 0 X F) with (F O). cbn [prodn]. rewrite (sumn_ext m _ (fun i => 0 * 0)); [rewrite sumn_scal; ring|]. intros i Li. rewrite basis_first. replace (X O - X O) with 0 by ring. ring.
  - pose proof (newton_shift m X F (X (S j)) D) as E. unfold basis in E. rewrite (prodn_zero m _ j) in E by (lia || (unfold shift; ring)).
    pose proof (IH (shift X) (shift F) (distinct_shift _ _ D) j ltac:(lia)) as T. change (newton m (shift X) (shift F) (X (S j)) = F (S j)) in T. lra.
Qed.
Lemma interpolant_exists m X F : distinct m X -> exists P, degree_below m P /\ through m X F P.
Proof. intros D. exists (newton m X F). split; [apply degree_newton|apply newton_through, D]. Qed.
Lemma newton_primitive m X F : exists Q, primitive (newton m X F) Q.
Proof.
  destruct (degree_newton m X F) as (c & H). exists (fun t => sumn m (fun i => c i / (INR i + 1) * t ^ S i)). intros t. rewrite H. clear H.
  induction m as [|m IH]; cbn [sumn]; [apply Calc.deriv_const|]. apply Calc.deriv_plus; [exact IH|].
  eapply Calc.deriv_eq; [apply Calc.deriv_scal, (derivable_pt_lim_pow t (S m))|]. rewrite S_INR. cbn [pred]. field. pose proof (pos_INR m). lra.
Qed.

(* ---- the integrals over [0, 1] of u^q times a product of linear factors c j - e j u ---- *)
Fixpoint level (c e : nat -> R) (i q : nat) : R := match i with O => 1 / (INR q + 1) | S m => c m * level c e m q - e m * level c e m (S q) end.
Definition factors (c e : nat -> R) (i : nat) (u : R) : R := prodn i (fun j => c j - e j * u).
Lemma level_integral c e i : forall q, exists A, (forall u, derivable_pt_lim A u (u ^ q * factors c e i u)) /\ A 1 - A 0 = level c e i q.
Proof.
  induction i as [|i IH]; intros q.
  - exists (fun u => 1 / (INR q + 1) * u ^ S q). split.
    + intros u. eapply Calc.deriv_eq; [apply Calc.deriv_scal, (derivable_pt_lim_pow u (S q))|]. unfold factors. cbn [prodn pred]. rewrite S_INR. field. pose proof (pos_INR q). lra.
    + cbn [level]. rewrite pow1. cbn [pow]. ring.
  - destruct (IH q) as (A & DA & VA). destruct (IH (S q)) as (B & DB & VB). exists (fun u => c i * A u - e i * B u). split.
    + intros u. eapply Calc.deriv_eq; [apply Calc.deriv_minus; apply Calc.deriv_scal; [apply DA|apply DB]|]. unfold factors. cbn [prodn pow]. ring.
    + cbn [level]. rewrite <- VA, <- VB. ring.
Qed.
Lemma level_ext c c' e e' i : forall q, (forall j, (j < i)%nat -> c j = c' j /\ e j = e' j) -> level c e i q = level c' e' i q.
Proof. induction i as [|i IH]; intros q H; cbn [level]; [reflexivity|]. rewrite !IH by (intros; apply H; lia). destruct (H i ltac:(lia)) as (-> & ->). reflexivity. Qed.
(* two primitives of the same function increase by the same amount *)
Lemma same_increase A B d a b : (forall u, derivable_pt_lim A u (d u)) -> (forall u, derivable_pt_lim B u (d u)) -> A b - A a = B b - B a.
Proof.
  intros DA DB. assert (E : constant (fun u => A u - B u)).
  { assert (pr : derivable (fun u => A u - B u)) by (intros u; exists (d u - d u); apply Calc.deriv_minus; [apply DA|apply DB]).
    apply (null_derivative_1 _ pr). intros u. apply derive_pt_eq_0. eapply Calc.deriv_eq; [apply Calc.deriv_minus; [apply DA|apply DB]|ring]. }
  specialize (E a b). cbn in E. lra.
Qed.
Lemma comp_line P Q x h : primitive P Q -> forall u, derivable_pt_lim (fun u => Q (x + h * (1 - u))) u (P (x + h * (1 - u)) * - h).
Proof.
  intros H u. refine (derivable_pt_lim_comp (fun u => x + h * (1 - u)) Q u (- h) _ _ (H _)).
  eapply Calc.deriv_eq; [apply Calc.deriv_plus; [apply Calc.deriv_const|apply Calc.deriv_scal, Calc.deriv_minus; [apply Calc.deriv_const|apply Calc.deriv_id]]|ring].
Qed.
Lemma sum_primitive c e (b : nat -> R) m : exists A, (forall u, derivable_pt_lim A u (sumn m (fun i => b i * factors c e i u))) /\ A 1 - A 0 = sumn m (fun i => b i * level c e i 0).
Proof.
  induction m as [|m (A & DA & VA)]; [exists (fun _ => 0); split; [intros u; apply Calc.deriv_const|cbn [sumn]; ring]|].
  destruct (level_integral c e m 0) as (B & DB & VB). exists (fun u => A u + b m * B u). split.
  - intros u. cbn [sumn]. apply Calc.deriv_plus; [apply DA|]. eapply Calc.deriv_eq; [apply Calc.deriv_scal, DB|cbn [pow]; ring].
  - cbn [sumn]. rewrite <- VA, <- VB. ring.
Qed.
(* the integral of P from x to x + h when P is a combination of products of linear factors *)
Lemma integral_factors c e b m x h P Q : primitive P Q -> (forall u, P (x + h * (1 - u)) = sumn m (fun i => b i * factors c e i u)) ->
  Q (x + h) - Q x = h * sumn m (fun i => b i * level c e i 0).
Proof.
  intros HQ HP. destruct (sum_primitive c e b m) as (A & DA & VA).
  pose proof (same_increase (fun u => Q (x + h * (1 - u))) (fun u => - h * A u) (fun u => P (x + h * (1 - u)) * - h) 0 1) as E. cbn beta in E.
  rewrite <- VA. replace (x + h * (1 - 0)) with (x + h) in E by ring. replace (x + h * (1 - 1)) with x in E by ring.
  enough (Q x - Q (x + h) = - h * A 1 - - h * A 0) by lra. apply E; [apply comp_line, HQ|].
  intros u. eapply Calc.deriv_eq; [apply Calc.deriv_scal, DA|]. rewrite HP. ring.
Qed.
Lemma level_pos e i q : (forall j, (j < i)%nat -> 0 < e j <= 1) -> 0 < level (fun _ => 1) e i q.
Proof.
  intros H. destruct (level_integral (fun _ => 1) e i q) as (A & DA & <-).
  destruct (MVT_cor2 A (fun u => u ^ q * factors (fun _ => 1) e i u) 0 1 ltac:(lra) (fun c _ => DA c)) as (c & E & C). rewrite E, Rminus_0_r, Rmult_1_r.
  apply Rmult_lt_0_compat; [apply pow_lt; lra|]. unfold factors. clear DA E. induction i as [|i IH]; cbn [prodn]; [lra|]. apply Rmult_lt_0_compat; [apply IH; intros; apply H; lia|]. specialize (H i ltac:(lia)). nra.
Qed.
Lemma sumn_rev m f : sumn m (fun i => f (m - 1 - i)%nat) = sumn m f.
Proof.
  induction m as [|m IH]; [reflexivity|]. rewrite sumn_first. cbn [sumn]. replace (S m - 1 - 0)%nat with m by lia. rewrite <- IH. rewrite Rplus_comm. f_equal. apply sumn_ext. intros i L. f_equal. lia.
Qed.
