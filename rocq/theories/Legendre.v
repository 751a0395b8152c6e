(* Derivatives of the Legendre polynomials, from Rodrigues' formula, and their recursions. *)
From Coq Require Import Reals Lra Lia Arith Psatz.
From Coquelicot Require Import Coquelicot.
From Verif Require Import LegendreAlg.
Local Open Scope R_scope.

(* d^k/du^k of the Legendre polynomial of degree n *)
Definition Ld (n k : nat) (u : R) : R := Derive_n (fun x => (x ^ 2 - 1) ^ n) (n + k) u / (2 ^ n * INR (fact n)).

(* ---- polynomial functions ---- *)
Inductive poly : (R -> R) -> Prop :=
| poly_const f c : (forall x, f x = c) -> poly f
| poly_step f a g : poly g -> (forall x, f x = a + x * g x) -> poly f.
Lemma poly_ext f g : (forall x, f x = g x) -> poly f -> poly g.
Proof. intros E P. destruct P as [f c H|f a h P H]; [apply (poly_const _ c)|apply (poly_step _ a h P)]; intros x; rewrite <- E; apply H. Qed.
Lemma poly_plus f g : poly f -> poly g -> poly (fun x => f x + g x).
Proof.
  intros P. revert g. induction P as [f c H|f a f' P IH H]; intros g Q.
  - destruct Q as [g d K|g b g' Q K]; [apply (poly_const _ (c + d)); intros x; rewrite H, K; reflexivity|].
    apply (poly_step _ (c + b) g' Q). intros x. rewrite H, K. ring.
  - destruct Q as [g d K|g b g' Q K].
    + apply (poly_step _ (a + d) f' P). intros x. rewrite H, K. ring.
    + apply (poly_step _ (a + b) (fun x => f' x + g' x)); [apply IH, Q|]. intros x. rewrite H, K. ring.
Qed.
Lemma poly_scal c f : poly f -> poly (fun x => c * f x).
Proof.
  induction 1 as [f d H|f a g P IH H]; [apply (poly_const _ (c * d)); intros; rewrite H; reflexivity|].
  apply (poly_step _ (c * a) (fun x => c * g x) IH). intros x. rewrite H. ring.
Qed.
Lemma poly_mulx f : poly f -> poly (fun x => x * f x).
Proof. intros P. apply (poly_step _ 0 f P). intros x. ring. Qed.
Lemma poly_derivable f : poly f -> exists f', poly f' /\ forall x, is_derive f x (f' x).
Proof.
  induction 1 as [f c H|f a g P (g' & P' & D) H].
  - exists (fun _ => 0). split; [apply (poly_const _ 0); reflexivity|]. intros x. apply (is_derive_ext (fun _ => c)); [intros; symmetry; apply H|]. apply @is_derive_const.
  - exists (fun x => g x + x * g' x). split; [apply poly_plus; [exact P|apply poly_mulx, P']|].
    intros x. apply (is_derive_ext (fun x => a + x * g x)); [intros; symmetry; apply H|].
    specialize (D x). auto_derive; [eexists; exact D|]. replace (Derive (fun x0 => g x0) x) with (g' x) by (symmetry; apply is_derive_unique, D). ring.
Qed.
Lemma poly_ex f x : poly f -> ex_derive f x. Proof. intros P. destruct (poly_derivable f P) as (f' & _ & D). eexists. apply D. Qed.
Lemma poly_Derive f : poly f -> poly (Derive f).
Proof. intros P. destruct (poly_derivable f P) as (f' & Q & D). apply (poly_ext f'); [|exact Q]. intros x. symmetry. apply is_derive_unique, D. Qed.
Lemma poly_Derive_n f k : poly f -> poly (Derive_n f k).
Proof. intros P. induction k as [|k IH]; [exact P|]. cbn. apply poly_Derive, IH. Qed.
Lemma D_plus f g k x : poly f -> poly g -> Derive_n (fun y => f y + g y) k x = Derive_n f k x + Derive_n g k x.
Proof.
  intros P Q. revert x. induction k as [|k IH]; intros x; [reflexivity|]. cbn. rewrite (Derive_ext _ _ x IH). apply Derive_plus; apply poly_ex, poly_Derive_n; assumption.
Qed.
Lemma D_scal c f k x : Derive_n (fun y => c * f y) k x = c * Derive_n f k x.
Proof. apply Derive_n_scal_l. Qed.
Lemma D_mulx f k x : poly f -> Derive_n (fun y => y * f y) (S k) x = x * Derive_n f (S k) x + INR (S k) * Derive_n f k x.
Proof.
  intros P. revert x. induction k as [|k IH]; intros x.
  - cbn [Derive_n]. rewrite Derive_mult; [|apply ex_derive_id|apply poly_ex, P]. rewrite Derive_id. change (Derive (fun x0 : R => f x0) x) with (Derive f x). change (INR 1) with 1. ring.
  - pose proof (poly_Derive_n f k P) as P1. pose proof (poly_Derive_n f (S k) P) as P2.
    change (Derive_n (fun y => y * f y) (S (S k)) x) with (Derive (Derive_n (fun y => y * f y) (S k)) x). rewrite (Derive_ext _ (fun y => y * Derive_n f (S k) y + INR (S k) * Derive_n f k y) x IH).
    assert (D1 : is_derive (Derive_n f (S k)) x (Derive_n f (S (S k)) x)) by (apply Derive_correct, poly_ex, P2).
    assert (D2 : is_derive (Derive_n f k) x (Derive_n f (S k) x)) by (apply Derive_correct, poly_ex, P1).
    apply is_derive_unique. rewrite (S_INR (S k)).
    replace (x * Derive_n f (S (S k)) x + (INR (S k) + 1) * Derive_n f (S k) x) with ((1 * Derive_n f (S k) x + x * Derive_n f (S (S k)) x) + INR (S k) * Derive_n f (S k) x) by ring.
    apply (is_derive_plus (fun y => y * Derive_n f (S k) y) (fun y => INR (S k) * Derive_n f k y)); [|apply is_derive_scal, D2].
    apply (is_derive_mult (fun y : R => y) (Derive_n f (S k))); [apply @is_derive_id|exact D1|intros; apply Rmult_comm].
Qed.
Lemma D_shift f k x : Derive_n f (S k) x = Derive_n (Derive f) k x.
Proof. change (Derive f) with (fun y => Derive_n f 1 y). rewrite Derive_n_comp. f_equal. lia. Qed.
(* ---- powers of x^2 - 1 ---- *)
Definition w (n : nat) (x : R) : R := (x ^ 2 - 1) ^ n.
Lemma w_poly n : poly (w n).
Proof.
  induction n as [|n IH]; [apply (poly_const _ 1); reflexivity|].
  apply (poly_ext (fun x => x * (x * w n x) + (-1) * w n x)); [intros; unfold w; cbn; ring|].
  apply poly_plus; [apply poly_mulx, poly_mulx, IH|apply poly_scal, IH].
Qed.
Lemma w_Derive n x : Derive (w (S n)) x = 2 * INR (S n) * (x * w n x).
Proof. apply is_derive_unique. unfold w. auto_derive; [exact I|]. change (match n with O => 1 | S _ => INR n + 1 end) with (INR (S n)). replace (x * (x * 1) + - (1)) with (x ^ 2 - 1) by ring. ring. Qed.
Lemma w_up n k x : Derive_n (w (S n)) (S k) x = 2 * INR (S n) * Derive_n (fun y => y * w n y) k x.
Proof. rewrite D_shift, (Derive_n_ext _ _ k x (w_Derive n)). apply D_scal. Qed.
Lemma Ld_w n k u : Ld n k u = Derive_n (w n) (n + k) u / (2 ^ n * INR (fact n)). Proof. reflexivity. Qed.
Lemma scale_pos n : 0 < 2 ^ n * INR (fact n). Proof. apply Rmult_lt_0_compat; [apply pow_lt; lra|apply INR_fact_lt_0]. Qed.
Lemma scale_S n : 2 ^ S n * INR (fact (S n)) = 2 * INR (S n) * (2 ^ n * INR (fact n)).
Proof. change (fact (S n)) with (S n * fact n)%nat. rewrite mult_INR. cbn [pow]. ring. Qed.
(* raising the degree *)
Lemma Ld_B n k u : Ld (S n) (S k) u = u * Ld n (S k) u + (INR n + INR k + 1) * Ld n k u.
Proof.
  rewrite !Ld_w. replace (S n + S k)%nat with (S (S (n + k))) by lia. rewrite w_up, D_mulx by apply w_poly. rewrite scale_S.
  replace (n + S k)%nat with (S (n + k)) by lia. rewrite (S_INR (n + k)), plus_INR. pose proof (scale_pos n) as NP. generalize dependent (2 ^ n * INR (fact n)). intros N NP. assert (INR (S n) <> 0) by (apply not_0_INR; lia). field. split; lra.
Qed.
Lemma Ld_A n k u : Ld (S (S n)) (S k) u = (2 * INR n + 3) * Ld (S n) k u + Ld n (S k) u.
Proof.
  rewrite !Ld_w. replace (S (S n) + S k)%nat with (S (S (S n + k))) by lia. rewrite w_up.
  assert (E : forall x, Derive_n (fun y => y * w (S n) y) 1 x = (2 * INR n + 3) * w (S n) x + 2 * INR (S n) * w n x).
  { intros x. rewrite (D_mulx _ 0) by apply w_poly. cbn [Derive_n]. rewrite w_Derive. rewrite !S_INR. cbn [INR]. unfold w. cbn [pow]. ring. }
  replace (S (S n + k)) with ((S n + k) + 1)%nat by lia. rewrite <- Derive_n_comp, (Derive_n_ext _ _ _ u E).
  rewrite D_plus by (apply poly_scal, w_poly). rewrite !D_scal. rewrite (scale_S (S n)), (scale_S n). replace (n + S k)%nat with (S n + k)%nat by lia.
  pose proof (scale_pos n) as NP. generalize dependent (2 ^ n * INR (fact n)). intros N NP. assert (INR (S n) <> 0) by (apply not_0_INR; lia). assert (INR (S (S n)) <> 0) by (apply not_0_INR; lia). field. repeat split; lra.
Qed.
Lemma Ld_00 u : Ld 0 0 u = 1. Proof. unfold Ld. cbn. field. Qed.
Lemma Ld_10 u : Ld 1 0 u = u.
Proof. rewrite Ld_w. cbn [plus]. rewrite (w_up 0 0). cbn [Derive_n]. unfold w. cbn. field. Qed.
Lemma Ld_zero n : forall k u, (n < k)%nat -> Ld n k u = 0.
Proof.
  induction n as [|n IH]; intros [|k] u H; try lia.
  - rewrite Ld_w. change (Derive_n (w 0) (0 + S k) u) with (Derive_n (fun _ : R => 1) (S k) u). rewrite Derive_n_const. unfold Rdiv. ring.
  - rewrite Ld_B, !IH by lia. ring.
Qed.
Lemma Ld_derive n k u : is_derive (Ld n k) u (Ld n (S k) u).
Proof.
  unfold Ld. pose proof (poly_Derive_n _ (n + k) (w_poly n)) as P. destruct (poly_derivable _ P) as (f & _ & D). specialize (D u).
  replace (n + S k)%nat with (S (n + k)) by lia. cbn [Derive_n]. change (fun x => (x ^ 2 - 1) ^ n) with (w n). rewrite (is_derive_unique _ _ _ D).
  apply (is_derive_ext (fun x => / (2 ^ n * INR (fact n)) * Derive_n (w n) (n + k) x)); [intros; unfold Rdiv; apply Rmult_comm|]. unfold Rdiv. rewrite (Rmult_comm (f u)). apply is_derive_scal, D.
Qed.
(* ---- Bonnet's recursion and its derivatives ---- *)
Lemma Ld_c n k u : Ld n (S k) u = u * Ld (S n) (S k) u - (INR n - INR k + 1) * Ld (S n) k u.
Proof. pose proof (Ld_A n k u) as A. pose proof (Ld_B (S n) k u) as B. rewrite S_INR in B. rewrite A in B. lra. Qed.
Lemma Ld_bonnet n u : (INR n + 2) * Ld (S (S n)) 0 u = (2 * INR n + 3) * u * Ld (S n) 0 u - (INR n + 1) * Ld n 0 u.
Proof.
  pose proof (Ld_c n 0 u) as c. pose proof (Ld_c (S n) 0 u) as c1. pose proof (Ld_B (S n) 0 u) as b. pose proof (Ld_B n 0 u) as b0. rewrite !S_INR in *. cbn [INR] in *. exact (alg_bonnet _ _ _ _ _ _ _ _ c c1 b b0).
Qed.
Lemma Ld_rec n k u : (INR n + 2 - INR k) * Ld (S (S n)) k u = (2 * INR n + 3) * u * Ld (S n) k u - (INR n + INR k + 1) * Ld n k u.
Proof.
  destruct k as [|k]; [pose proof (Ld_bonnet n u); cbn [INR]; lra|].
  pose proof (Ld_A n k u) as A. pose proof (Ld_B (S n) k u) as B. rewrite !S_INR in *. exact (alg_rec _ _ _ _ _ _ _ A B).
Qed.
Lemma Ld_sect m u : Ld (S m) (S m) u = (2 * INR m + 1) * Ld m m u.
Proof. rewrite Ld_B, (Ld_zero m (S m)) by lia. ring. Qed.
Lemma Ld_next m u : Ld (S m) m u = (2 * INR m + 1) * u * Ld m m u.
Proof.
  destruct m as [|m]; [rewrite Ld_10, Ld_00; cbn; ring|].
  pose proof (Ld_rec m (S m) u) as R. rewrite (Ld_zero m (S m)) in R by lia. rewrite !S_INR in *. lra.
Qed.
(* ---- derivatives and the equation of Legendre ---- *)
Lemma Ld_slope n k u : (INR n + INR k + 1) * u * Ld n k u - (1 - u * u) * Ld n (S k) u = (INR n - INR k + 1) * Ld (S n) k u.
Proof.
  revert u. induction k as [|k IH]; intros u.
  - pose proof (Ld_c n 0 u) as c. pose proof (Ld_B n 0 u) as b. cbn [INR] in *. exact (alg_slope0 _ _ _ _ _ _ c b).
  - assert (D1 : is_derive (fun u => (INR n + INR k + 1) * u * Ld n k u - (1 - u * u) * Ld n (S k) u) u
        ((INR n + INR k + 1) * Ld n k u + (INR n + INR k + 1) * u * Ld n (S k) u + 2 * u * Ld n (S k) u - (1 - u * u) * Ld n (S (S k)) u)).
    { pose proof (Ld_derive n k u) as E1. pose proof (Ld_derive n (S k) u) as E2. auto_derive.
      - split; [eexists; exact E1|]. split; [eexists; exact E2|exact I].
      - change (Derive (fun x => Ld n k x) u) with (Derive (Ld n k) u). change (Derive (fun x => Ld n (S k) x) u) with (Derive (Ld n (S k)) u). rewrite (is_derive_unique _ _ _ E1), (is_derive_unique _ _ _ E2). ring. }
    assert (D2 : is_derive (fun u => (INR n - INR k + 1) * Ld (S n) k u) u ((INR n - INR k + 1) * Ld (S n) (S k) u)) by (apply is_derive_scal, Ld_derive).
    apply (is_derive_ext _ (fun u => (INR n - INR k + 1) * Ld (S n) k u)) in D1; [|exact IH].
    pose proof (is_derive_unique _ _ _ D1) as U1. pose proof (is_derive_unique _ _ _ D2) as U2. rewrite U1 in U2. clear U1 D1 D2 IH. pose proof (Ld_B n k u) as B. rewrite !S_INR. exact (alg_slope _ _ _ _ _ _ _ U2 B).
Qed.
Lemma Ld_two n k u : 2 * (INR k + 1) * Ld n (S k) u = (1 - u * u) * Ld (S n) (S (S k)) u + (INR n - INR k + 1) * (INR n - INR k) * Ld (S n) k u.
Proof.
  pose proof (Ld_slope (S n) (S k) u) as s. pose proof (Ld_c n k u) as c. pose proof (Ld_B (S n) k u) as B. rewrite !S_INR in *. exact (alg_two _ _ _ _ _ _ _ _ s c B).
Qed.
