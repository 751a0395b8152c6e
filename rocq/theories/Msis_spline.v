(* The temperature profiles of the atmosphere model: the spline routines look at nothing beyond the
   first n entries of their inputs, so the uninitialised work arrays have no influence; and they run
   to completion over increasing nodes. *)
From Coq Require Import List ZArith Reals Arith Bool Lra Lia.
From Verif Require Import Base Gravity_model Spline_model Spline_proofs Msis_model.
Local Open Scope R_scope.

(* both runs have the same outcome, up to Q *)
Definition both {A} (Q : A -> A -> Prop) (o o' : outcome A) : Prop := match o, o' with Ok a, Ok a' => Q a a' | UB, UB => True | _, _ => False end.
Lemma both_bind {A B} (Q : A -> A -> Prop) (Q' : B -> B -> Prop) o o' f f' : both Q o o' -> (forall a a', Q a a' -> both Q' (f a) (f' a')) -> both Q' (obind o f) (obind o' f').
Proof. destruct o, o'; cbn; try contradiction; auto. Qed.
Lemma both_weak {A} (Q Q' : A -> A -> Prop) o o' : (forall a a', Q a a' -> Q' a a') -> both Q o o' -> both Q' o o'.
Proof. destruct o, o'; cbn; auto. Qed.
Definition eqon (n : nat) (a a' : arr) : Prop := a_len a = a_len a' /\ forall k, (k < n)%nat -> a_val a k = a_val a' k.
Lemma both_rd n a a' i : eqon n a a' -> (i < n)%nat -> both eq (rd a i) (rd a' i).
Proof. intros [L V] H. unfold rd. rewrite L. destruct (Nat.ltb i (a_len a')); cbn; auto. Qed.
Lemma both_wr n a a' i v : eqon n a a' -> (i <= n)%nat -> both (fun b b' => eqon n b b' /\ eqon (if Nat.eqb i n then S n else n) b b') (wr a i v) (wr a' i v).
Proof.
  intros [L V] H. unfold wr. rewrite L. destruct (Nat.ltb i (a_len a')); cbn; [|trivial].
  assert (E : forall k, (k < n)%nat -> (if Nat.eqb k i then v else a_val a k) = (if Nat.eqb k i then v else a_val a' k)) by (intros k K; destruct (Nat.eqb k i); [reflexivity|apply V, K]).
  split; (split; [reflexivity|cbn]); [exact E|]. destruct (Nat.eqb_spec i n); [|exact E]. subst i. intros k K. destruct (Nat.eqb_spec k n); [reflexivity|apply V; lia].
Qed.
Ltac rdstep := eapply both_bind; [eapply both_rd; [eassumption|lia]|intros ? ? <-].
Lemma both_iterate {S} (Q : nat -> S -> S -> Prop) f f' : forall c lo s s', (forall i s s', (lo <= i < lo + c)%nat -> Q i s s' -> both (Q (Datatypes.S i)) (f i s) (f' i s')) -> Q lo s s' -> both (Q (lo + c)%nat) (iterate lo c f s) (iterate lo c f' s').
Proof.
  induction c as [|c IH]; intros lo s s' H H0; cbn [iterate].
  - rewrite Nat.add_0_r. exact H0.
  - eapply both_bind; [apply H; [lia|exact H0]|]. intros a a' Ha. replace (lo + Datatypes.S c)%nat with (Datatypes.S lo + c)%nat by lia. apply IH; [|exact Ha]. intros i t t' Hi. apply H. lia.
Qed.
Lemma both_refl_if {A} (Q : A -> A -> Prop) (b : bool) o1 o1' o2 o2' : (b = true -> both Q o1 o1') -> (b = false -> both Q o2 o2') -> both Q (if b then o1 else o2) (if b then o1' else o2').
Proof. destruct b; auto. Qed.

Lemma spline_agree n x x' y y' yp1 ypn y2 y2' w w' : eqon n x x' -> eqon n y y' -> a_len y2 = a_len y2' -> a_len w = a_len w' ->
  both (fun r r' => eqon n (fst r) (fst r')) (spline x y n yp1 ypn y2 w) (spline x' y' n yp1 ypn y2' w').
Proof.
  intros X Y L2 LW. unfold spline. destruct (Nat.ltb_spec n 2) as [|N]; [exact I|].
  assert (Z2 : eqon 0 y2 y2') by (split; [exact L2|intros; lia]). assert (ZW : eqon 0 w w') by (split; [exact LW|intros; lia]).
  apply (both_bind (fun s s' => eqon 1 (fst s) (fst s') /\ eqon 1 (snd s) (snd s'))).
  { apply both_refl_if; intros _.
    - eapply both_bind; [apply (both_wr 0 _ _ 0 0 Z2); lia|]. intros a a' [_ A]. eapply both_bind; [apply (both_wr 0 _ _ 0 0 ZW); lia|]. intros b b' [_ B]. cbn in *. split; assumption.
    - eapply both_bind; [apply (both_wr 0 _ _ 0 _ Z2); lia|]. intros a a' [_ A]. do 4 rdstep. eapply both_bind; [apply (both_wr 0 _ _ 0 _ ZW); lia|]. intros b b' [_ B]. cbn in *. split; assumption. }
  intros s0 s0' [A0 B0].
  apply (both_bind (fun s s' => eqon (n - 1) (fst s) (fst s') /\ eqon (n - 1) (snd s) (snd s'))).
  { unfold loop. replace (n - 1)%nat with (1 + (S (n - 2) - 1))%nat by lia.
    apply (both_iterate (fun i s s' => eqon i (fst s) (fst s') /\ eqon i (snd s) (snd s'))); [|split; assumption].
    intros i [a b] [a' b'] Hi [A B]. cbn [fst snd] in *. unfold forward. do 3 rdstep. rdstep.
    eapply both_bind; [apply (both_wr i _ _ i _ A); lia|]. intros c c' [_ C]. rewrite Nat.eqb_refl in C. do 3 rdstep. rdstep.
    eapply both_bind; [apply (both_wr i _ _ i _ B); lia|]. intros d d' [_ D]. rewrite Nat.eqb_refl in D. cbn. split; assumption. }
  intros [a b] [a' b'] [A B]. cbn [fst snd] in *.
  apply (both_bind eq).
  { apply both_refl_if; intros _; [reflexivity|]. do 4 rdstep. reflexivity. }
  intros [qn un] _ <-. do 2 rdstep. eapply both_bind; [apply (both_wr (n - 1) _ _ (n - 1) _ A); lia|]. intros c c' [_ C]. rewrite Nat.eqb_refl in C. replace (S (n - 1)) with n in C by lia.
  apply (both_bind (eqon n)).
  { unfold loop. change (eqon n) with ((fun _ : nat => eqon n) (0 + (S (n - 2) - 0))%nat). apply both_iterate; [|exact C].
    intros i t t' Hi Ht. unfold backward. do 3 rdstep. eapply both_weak; [|apply (both_wr n _ _ _ _ Ht); lia]. intros u u' [U _]. exact U. }
  intros t t' Ht. exact Ht.
Qed.

Lemma bisect_agree n xa xa' x : eqon n xa xa' -> forall fuel klo khi, (klo <= khi < n)%nat -> both (fun r r' => r = r' /\ match r with Some (a, b) => (a < n /\ b < n)%nat | None => True end) (bisect fuel xa x klo khi) (bisect fuel xa' x klo khi).
Proof.
  intros X. induction fuel as [|f IH]; intros klo khi H; cbn [bisect]; [split; [reflexivity|exact I]|].
  assert (K : (klo <= (khi + klo) / 2 <= khi)%nat) by (split; [apply Nat.div_le_lower_bound; lia|apply Nat.div_le_upper_bound; lia]).
  eapply both_bind; [eapply both_rd; [eassumption|lia]|intros ? ? <-].
  destruct (rgt a x); match goal with |- context [Z.gtb ?u ?v] => destruct (Z.gtb u v) end; try (apply IH; lia); cbn [both]; (split; [reflexivity|lia]).
Qed.
Lemma splint_agree n xa xa' ya ya' m m' x : eqon n xa xa' -> eqon n ya ya' -> eqon n m m' -> both eq (splint xa ya m n x) (splint xa' ya' m' n x).
Proof.
  intros X Y M. unfold splint. destruct (Nat.eqb_spec n 0) as [|N]; [exact I|].
  eapply both_bind; [apply (bisect_agree n); [exact X|lia]|]. intros r _ [<- H]. destruct r as [[a b]|]; [|reflexivity]. do 2 rdstep.
  destruct (Req_EM_T (a0 - a1) 0); [reflexivity|]. do 4 rdstep. reflexivity.
Qed.
Lemma splini_agree n xa xa' ya ya' m m' x : (2 <= n)%nat -> eqon n xa xa' -> eqon n ya ya' -> eqon n m m' -> both eq (splini xa ya m n x) (splini xa' ya' m' n x).
Proof.
  intros N X Y M. unfold splini. assert (G : forall fuel klo yi, (S klo < n)%nat -> both eq (splini_loop fuel xa ya m n x klo (S klo) yi) (splini_loop fuel xa' ya' m' n x klo (S klo) yi)); [|apply G; lia].
  induction fuel as [|f IH]; intros klo yi H; cbn [splini_loop]; [reflexivity|].
  apply (both_bind eq). { apply both_refl_if; intros _; [rdstep; reflexivity|reflexivity]. }
  intros xx _ <-. do 2 rdstep. do 4 rdstep. rdstep. destruct (rgt x a5); cbn [andb]; [|reflexivity]. destruct (Nat.ltb_spec (S (S klo)) n); [|reflexivity]. apply IH. lia.
Qed.

(* what a profile depends on *)
Lemma profile_agree m m' dim mn zn tn tn' tgn tgn' z : (2 <= mn)%nat -> re m = re m' -> (forall k, (k < mn)%nat -> tn k = tn' k) -> tgn 0%nat = tgn' 0%nat -> tgn 1%nat = tgn' 1%nat ->
  both eq (profile m dim mn zn tn tgn z) (profile m' dim mn zn tn' tgn' z).
Proof.
  intros N HR HT G0 G1. unfold profile. rewrite HR, <- G0, <- G1, <- (HT 0%nat) by lia. rewrite <- (HT (mn - 1)%nat) by lia.
  match goal with |- context [spline ?a ?b _ ?c ?d _ _] => set (xs := a); set (ys := b); set (yd1 := c); set (yd2 := d) end.
  set (ys' := Arr dim (fun k => 1 / tn' k)). assert (X : eqon mn xs xs) by (split; reflexivity). assert (Y : eqon mn ys ys') by (split; [reflexivity|]; intros k K; cbn; rewrite (HT k K); reflexivity).
  eapply both_bind; [apply (spline_agree mn xs xs ys ys'); [exact X|exact Y|reflexivity|reflexivity]|]. intros a a' A.
  eapply both_bind with (Q := eq). { pose proof (splint_agree mn xs xs ys ys' (fst a) (fst a') (zeta (re m') z (zn 0%nat) / zeta (re m') (zn (mn - 1)%nat) (zn 0%nat)) X Y A) as H. destruct (splint xs ys (fst a) mn _), (splint xs ys' (fst a') mn _); cbn in *; try contradiction; subst; try exact I. destruct a1; cbn; reflexivity || exact I. }
  intros y _ <-.
  eapply both_bind with (Q := eq). { pose proof (splini_agree mn xs xs ys ys' (fst a) (fst a') (zeta (re m') z (zn 0%nat) / zeta (re m') (zn (mn - 1)%nat) (zn 0%nat)) N X Y A) as H. destruct (splini xs ys (fst a) mn _), (splini xs ys' (fst a') mn _); cbn in *; try contradiction; subst; try exact I. destruct a1; cbn; reflexivity || exact I. }
  intros yi _ <-. reflexivity.
Qed.

(* decreasing altitudes give increasing nodes *)
Lemma zeta_mono r z1 a b : 0 < r + z1 -> 0 < r + a -> a < b -> zeta r a z1 < zeta r b z1.
Proof.
  intros H1 Ha Hb. unfold zeta. apply Rminus_lt.
  replace ((a - z1) * (r + z1) / (r + a) - (b - z1) * (r + z1) / (r + b)) with (- ((b - a) * ((r + z1) * (r + z1)) / ((r + a) * (r + b)))) by (field; lra).
  apply Ropp_lt_gt_0_contravar. apply Rdiv_lt_0_compat; [apply Rmult_lt_0_compat; [lra|apply Rmult_lt_0_compat; lra]|apply Rmult_lt_0_compat; lra].
Qed.
Lemma zeta_self r z : zeta r z z = 0. Proof. unfold zeta. replace (z - z) with 0 by lra. unfold Rdiv. rewrite !Rmult_0_l. reflexivity. Qed.
Lemma profile_total m dim mn zn tn tgn z : (3 <= mn <= dim)%nat -> (forall k, (k < mn)%nat -> 0 < re m + zn k) -> (forall k, (S k < mn)%nat -> zn (S k) < zn k) -> exists r, profile m dim mn zn tn tgn z = Ok r.
Proof.
  intros N P D. unfold profile.
  match goal with |- context [spline ?a ?b _ ?c ?d _ _] => set (xs := a); set (ys := b); set (yd1 := c); set (yd2 := d) end.
  assert (Dk : forall j k, (j < k)%nat -> (k < mn)%nat -> zn k < zn j).
  { intros j k. induction k as [|k IH]; intros H1 H2; [lia|]. destruct (Nat.eq_dec j k); [subst; apply D; exact H2|]. specialize (D k H2). specialize (IH ltac:(lia) ltac:(lia)). lra. }
  assert (Z : zeta (re m) (zn (mn - 1)%nat) (zn 0%nat) < 0).
  { rewrite <- (zeta_self (re m) (zn 0%nat)). apply zeta_mono; [apply P; lia|apply P; lia|apply Dk; lia]. }
  assert (NX : nodes xs mn).
  { split; [cbn; lia|]. intros k K. cbn. assert (H : zeta (re m) (zn (S k)) (zn 0%nat) < zeta (re m) (zn k) (zn 0%nat)) by (apply zeta_mono; [apply P; lia|apply P; lia|apply D; exact K]).
    unfold Rdiv. apply Ropp_lt_cancel. rewrite !Ropp_mult_distr_r. apply Rmult_lt_compat_r; [|exact H]. apply Ropp_0_gt_lt_contravar. apply Rinv_lt_0_compat. exact Z. }
  assert (RY : room ys mn) by (unfold room; cbn; lia). assert (RJ : room (Arr dim (junk m)) mn) by (unfold room; cbn; lia).
  destruct (spline_defined xs ys mn yd1 yd2 _ _ NX RY ltac:(lia) RJ RJ) as (y2 & u & E & R2). rewrite E. cbn [obind fst].
  destruct (splint_defined xs ys y2 mn NX RY R2 ltac:(lia)) as (f & F). rewrite F. cbn [solid obind].
  destruct (splini_integral xs ys y2 mn (zeta (re m) z (zn 0%nat) / zeta (re m) (zn (mn - 1)%nat) (zn 0%nat)) f NX RY R2 ltac:(lia) (fun t _ => F t)) as (v & V & _). rewrite V. cbn. eexists. reflexivity.
Qed.
