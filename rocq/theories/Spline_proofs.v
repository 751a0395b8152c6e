From Coq Require Import List ZArith Reals Lra Lia Arith Bool.
From Coquelicot Require Import Coquelicot.
From Verif Require Import Base Calc Gravity_model Gravity_proofs Spline_model.
Local Open Scope R_scope.

(* ---- specification ---- *)
(* the cubic between node k and node k+1 with values Y and second derivatives M *)
Definition piece (X Y M : nat -> R) (k : nat) (t : R) : R :=
  let h := X (S k) - X k in
  let a := (X (S k) - t) / h in
  let b := (t - X k) / h in
  a * Y k + b * Y (S k) + ((a ^ 3 - a) * M k + (b ^ 3 - b) * M (S k)) * h ^ 2 / 6.
(* the piece that applies at t, the outer ones being extended *)
Definition located (X : nat -> R) (n k : nat) (t : R) : Prop := (S k < n)%nat /\ (k = 0%nat \/ X k <= t) /\ (S (S k) = n \/ t < X (S k)).
Definition nodes (a : arr) (n : nat) : Prop := (n <= a_len a)%nat /\ forall i, (S i < n)%nat -> a_val a i < a_val a (S i).
Definition room (a : arr) (n : nat) : Prop := (n <= a_len a)%nat.

Lemma rd_ok a n i : room a n -> (i < n)%nat -> rd a i = Ok (a_val a i).
Proof. unfold room, rd. intros R L. destruct (Nat.ltb_spec i (a_len a)); [reflexivity|lia]. Qed.
Lemma wr_ok a n i v : room a n -> (i < n)%nat -> exists a', wr a i v = Ok a' /\ room a' n /\ a_val a' i = v /\ forall k, k <> i -> a_val a' k = a_val a k.
Proof.
  unfold room, wr. intros R L. destruct (Nat.ltb_spec i (a_len a)); [|lia]. eexists. split; [reflexivity|]. cbn. rewrite Nat.eqb_refl. split; [exact R|]. split; [reflexivity|]. intros k K. destruct (Nat.eqb_spec k i); [contradiction|reflexivity].
Qed.
Lemma nodes_lt xa n i j : nodes xa n -> (i < j)%nat -> (j < n)%nat -> a_val xa i < a_val xa j.
Proof. intros [_ H] L. induction L as [|j L IH]; intros B; [apply H, B|]. apply Rlt_trans with (a_val xa j); [apply IH; lia|apply H, B]. Qed.
Lemma nodes_room xa n : nodes xa n -> room xa n. Proof. intros [A _]. exact A. Qed.
Lemma rgt_true x y : rgt x y = true <-> y < x.
Proof. unfold rgt. destruct (Rlt_dec y x); split; intros; try lra; discriminate || reflexivity. Qed.
Lemma rgt_false x y : rgt x y = false <-> x <= y.
Proof. unfold rgt. destruct (Rlt_dec y x); split; intros; try lra; discriminate || reflexivity. Qed.

Lemma located_unique xa n t j k : nodes xa n -> located (a_val xa) n j t -> located (a_val xa) n k t -> j = k.
Proof.
  intros N. assert (LT : forall j k, (j < k)%nat -> located (a_val xa) n j t -> located (a_val xa) n k t -> False).
  { intros a b L (A1 & A2 & A3) (B1 & B2 & B3). destruct A3 as [A3|A3]; [lia|]. destruct B2 as [B2|B2]; [lia|]. assert (a_val xa (S a) <= a_val xa b); [|lra]. destruct (Nat.eq_dec (S a) b) as [<-|NE]; [lra|]. apply Rlt_le, (nodes_lt xa n); [exact N|lia|lia]. }
  intros A B. destruct (Nat.lt_trichotomy j k) as [L|[E|L]]; [exfalso; eauto|exact E|exfalso; eauto].
Qed.
(* ---- the search ---- *)
Lemma bisect_ok xa n x : nodes xa n -> forall fuel klo khi, (klo < khi < n)%nat -> (khi - klo <= fuel)%nat -> (2 <= khi - klo)%nat \/ a_val xa klo <= x ->
  (klo = 0%nat \/ a_val xa klo <= x) -> (S khi = n \/ x < a_val xa khi) ->
  exists k, bisect fuel xa x klo khi = Ok (Some (k, S k)) /\ located (a_val xa) n k x.
Proof.
  intros N. induction fuel as [|f IH]; intros klo khi B F D L H; [lia|]. cbn [bisect]. set (k := ((khi + klo) / 2)%nat).
  assert (K : (2 * k <= khi + klo < 2 * k + 2)%nat) by (unfold k; pose proof (Nat.div_mod (khi + klo) 2 ltac:(lia)) as E; pose proof (Nat.mod_upper_bound (khi + klo) 2 ltac:(lia)); lia). clearbody k.
  rewrite (rd_ok xa n k (nodes_room _ _ N)) by lia. cbn [obind].
  destruct (rgt (a_val xa k) x) eqn:G.
  - apply rgt_true in G. assert (D2 : (2 <= khi - klo)%nat) by (destruct D as [D|D]; [exact D|]; destruct (Nat.eq_dec k klo) as [->|]; [lra|lia]).
    destruct (Z.gtb_spec (Z.of_nat k - Z.of_nat klo) 1).
    + apply IH; [lia|lia|left; lia|exact L|right; exact G].
    + exists klo. assert (k = S klo) by lia. subst k. split; [reflexivity|]. split; [lia|]. split; [exact L|right; exact G].
  - apply rgt_false in G. destruct (Z.gtb_spec (Z.of_nat khi - Z.of_nat k) 1).
    + apply IH; [lia|lia|left; lia|right; exact G|exact H].
    + exists k. assert (khi = S k) by lia. subst khi. split; [reflexivity|]. split; [lia|]. split; [right; exact G|destruct H; [left; lia|right; assumption]].
Qed.
Lemma splint_piece xa ya y2a n x : nodes xa n -> room ya n -> room y2a n -> (3 <= n)%nat \/ (n = 2%nat /\ a_val xa 0 <= x) ->
  exists k, located (a_val xa) n k x /\ splint xa ya y2a n x = Ok (Some (piece (a_val xa) (a_val ya) (a_val y2a) k x)).
Proof.
  intros N RY RM D. unfold splint. destruct (Nat.eqb_spec n 0); [lia|].
  destruct (bisect_ok xa n x N n 0 (n - 1)) as (k & E & L); [lia|lia|destruct D as [D|[D E]]; [left; lia|right; exact E]|left; reflexivity|left; lia|].
  rewrite E. cbn [obind]. exists k. split; [exact L|]. destruct L as (L & _). pose proof (nodes_room _ _ N) as RX. rewrite (rd_ok xa n) by (assumption || lia). cbn [obind]. rewrite (rd_ok xa n) by (assumption || lia). cbn [obind].
  pose proof (proj2 N k L) as P. destruct (Req_EM_T (a_val xa (S k) - a_val xa k) 0); [lra|].
  rewrite !(rd_ok ya n) by (assumption || lia). cbn [obind]. rewrite !(rd_ok y2a n) by (assumption || lia). cbn [obind]. do 2 f_equal. unfold piece. cbn [pow]. field. lra.
Qed.
Lemma piece_left X Y M k : X k < X (S k) -> piece X Y M k (X k) = Y k. Proof. intros H. unfold piece. field. lra. Qed.
Lemma piece_right X Y M k : X k < X (S k) -> piece X Y M k (X (S k)) = Y (S k). Proof. intros H. unfold piece. field. lra. Qed.
Lemma splint_node xa ya y2a n i : nodes xa n -> room ya n -> room y2a n -> (2 <= n)%nat -> (i < n)%nat -> splint xa ya y2a n (a_val xa i) = Ok (Some (a_val ya i)).
Proof.
  intros N RY RM L I. assert (D : (3 <= n)%nat \/ (n = 2%nat /\ a_val xa 0 <= a_val xa i)).
  { destruct (le_lt_dec 3 n); [left; lia|right]. split; [lia|]. destruct i as [|i]; [lra|]. apply Rlt_le, (nodes_lt xa n); [exact N|lia|exact I]. }
  destruct (splint_piece xa ya y2a n (a_val xa i) N RY RM D) as (k & (K1 & K2 & K3) & E). rewrite E. do 2 f_equal.
  pose proof (proj2 N k K1) as P.
  assert (C : i = k \/ i = S k).
  { destruct (Nat.lt_trichotomy i k) as [A|[A|A]]; [|left; exact A|].
    - destruct K2 as [->|K2]; [lia|]. pose proof (nodes_lt xa n i k N A ltac:(lia)). lra.
    - destruct (Nat.eq_dec i (S k)) as [B|B]; [right; exact B|]. destruct K3 as [K3|K3]; [lia|]. pose proof (nodes_lt xa n (S k) i N ltac:(lia) I). lra. }
  destruct C as [->| ->]; [apply piece_left, P|apply piece_right, P].
Qed.
Lemma splint_two xa ya y2a x : nodes xa 2 -> x < a_val xa 0 -> splint xa ya y2a 2 x = Ok (Some (1 * / 10 ^ 30)).
Proof.
  intros N H. pose proof (nodes_room _ _ N) as RX. unfold splint. cbn [Nat.eqb Nat.sub bisect]. change ((1 + 0) / 2)%nat with 0%nat. rewrite (rd_ok xa 2) by (assumption || lia). cbn [obind]. destruct (rgt (a_val xa 0) x) eqn:G; [|apply rgt_false in G; lra]. cbn [Z.of_nat Z.sub Z.gtb Z.compare Z.opp Z.add obind].
  rewrite !(rd_ok xa 2) by (assumption || lia). cbn [obind]. destruct (Req_EM_T (a_val xa 0 - a_val xa 0) 0); [reflexivity|lra].
Qed.

(* ---- the integral ---- *)
Definition prim (X Y M : nat -> R) (k : nat) (t : R) : R :=
  let h := X (S k) - X k in
  let a := (X (S k) - t) / h in
  let b := (t - X k) / h in
  ((1 - a ^ 2) * Y k / 2 + b ^ 2 * Y (S k) / 2 + ((- (1 + a ^ 4) / 4 + a ^ 2 / 2) * M k + (b ^ 4 / 4 - b ^ 2 / 2) * M (S k)) * h ^ 2 / 6) * h.
Lemma prim_derive X Y M k t : X k < X (S k) -> is_derive (prim X Y M k) t (piece X Y M k t).
Proof. intros H. unfold prim, piece. auto_derive; [repeat split; lra|]. field. lra. Qed.
Lemma piece_derive X Y M k t : X k < X (S k) -> is_derive (piece X Y M k) t ((Y (S k) - Y k) / (X (S k) - X k) + ((X (S k) - X k) / 6) * (- (3 * ((X (S k) - t) / (X (S k) - X k)) ^ 2 - 1) * M k + (3 * ((t - X k) / (X (S k) - X k)) ^ 2 - 1) * M (S k))).
Proof. intros H. unfold piece. auto_derive; [repeat split; lra|]. field. lra. Qed.
Lemma prim_RInt X Y M k s t : X k < X (S k) -> is_RInt (piece X Y M k) s t (prim X Y M k t - prim X Y M k s).
Proof.
  intros H. apply (is_RInt_derive (prim X Y M k) (piece X Y M k)).
  - intros x _. apply prim_derive, H.
  - intros x _. apply (ex_derive_continuous (piece X Y M k)). eexists. apply piece_derive, H.
Qed.
Lemma prim_start X Y M k : X k < X (S k) -> prim X Y M k (X k) = 0. Proof. intros H. unfold prim. field. lra. Qed.

Lemma splini_loop_ok xa ya y2a n x f : nodes xa n -> room ya n -> room y2a n -> (forall k t, located (a_val xa) n k t -> f t = piece (a_val xa) (a_val ya) (a_val y2a) k t) ->
  forall fuel k yi, (S k < n)%nat -> (n <= k + fuel)%nat -> (k = 0%nat \/ a_val xa k < x) -> is_RInt f (a_val xa 0) (a_val xa k) yi ->
  exists v, splini_loop fuel xa ya y2a n x k (S k) yi = Ok (Some v) /\ is_RInt f (a_val xa 0) x v.
Proof.
  intros N RY RM HF. pose proof (nodes_room _ _ N) as RX. set (X := a_val xa) in *. set (Y := a_val ya) in *. set (M := a_val y2a) in *.
  induction fuel as [|fu IH]; intros k yi L FU C I; [lia|]. cbn [splini_loop]. pose proof (proj2 N k L) as P. fold X in P.
  set (xx := if Nat.ltb (S k) (n - 1) then if Rlt_dec (X (S k)) x then X (S k) else x else x).
  assert (EX : (if Nat.ltb (S k) (n - 1) then do v <- rd xa (S k); Ok (if Rlt_dec v x then v else x) else Ok x) = Ok xx).
  { unfold xx. destruct (Nat.ltb (S k) (n - 1)); [|reflexivity]. rewrite (rd_ok xa n) by (assumption || lia). reflexivity. }
  rewrite EX. cbn [obind]. rewrite !(rd_ok xa n) by (assumption || lia). cbn [obind]. rewrite !(rd_ok ya n) by (assumption || lia). cbn [obind]. rewrite !(rd_ok y2a n) by (assumption || lia). cbn [obind]. fold X Y M.
  set (yi' := yi + _ * (X (S k) - X k)). 
  assert (EY : yi' = yi + prim X Y M k xx) by (unfold yi', prim; cbn [pow]; field; lra). clearbody yi'.
  assert (IX : is_RInt f (X 0%nat) xx yi').
  { rewrite EY. apply (is_RInt_Chasles f (X 0%nat) (X k) xx yi (prim X Y M k xx)); [exact I|].
    apply (is_RInt_ext (piece X Y M k)).
    - intros t T. symmetry. apply HF. split; [exact L|]. unfold xx in T. fold X.
      destruct C as [C|C].
      + split; [left; exact C|]. destruct (Nat.ltb_spec (S k) (n - 1)); [|left; lia]. right. destruct (Rlt_dec (X (S k)) x); [rewrite Rmax_right in T by lra; lra|]. destruct (Rle_dec (X k) x); [rewrite Rmax_right in T by lra; lra|rewrite Rmax_left in T by lra; lra].
      + split; [right; destruct (Nat.ltb (S k) (n - 1)); [destruct (Rlt_dec (X (S k)) x)|]; rewrite Rmin_left in T by lra; lra|]. destruct (Nat.ltb_spec (S k) (n - 1)); [|left; lia]. right. destruct (Rlt_dec (X (S k)) x); rewrite Rmax_right in T by lra; lra.
    - pose proof (prim_RInt X Y M k (X k) xx P) as Q. rewrite prim_start in Q by exact P. rewrite Rminus_0_r in Q. exact Q. }
  destruct (rgt x (X (S k))) eqn:G; cbn [andb].
  - apply rgt_true in G. destruct (Nat.ltb_spec (S (S k)) n) as [A|A].
    + apply IH; [exact A|lia|right; exact G|]. replace (X (S k)) with xx; [exact IX|]. unfold xx. destruct (Nat.ltb_spec (S k) (n - 1)); [|lia]. destruct (Rlt_dec (X (S k)) x); [reflexivity|lra].
    + exists yi'. split; [reflexivity|]. replace x with xx; [exact IX|]. unfold xx. destruct (Nat.ltb_spec (S k) (n - 1)); [lia|reflexivity].
  - apply rgt_false in G. exists yi'. split; [reflexivity|]. replace x with xx at 1; [exact IX|]. unfold xx. destruct (Nat.ltb_spec (S k) (n - 1)); [|reflexivity]. destruct (Rlt_dec (X (S k)) x); [lra|reflexivity].
Qed.
Lemma splini_integral xa ya y2a n x f : nodes xa n -> room ya n -> room y2a n -> (3 <= n)%nat \/ (n = 2%nat /\ a_val xa 0 <= x) ->
  (forall t, Rmin (a_val xa 0) x < t < Rmax (a_val xa 0) x -> splint xa ya y2a n t = Ok (Some (f t))) ->
  exists v, splini xa ya y2a n x = Ok (Some v) /\ is_RInt f (a_val xa 0) x v.
Proof.
  intros N RY RM D HF. set (X := a_val xa) in *. set (Y := a_val ya) in *. set (M := a_val y2a) in *.
  assert (G : exists g, (forall k t, located X n k t -> g t = piece X Y M k t) /\ forall t, Rmin (X 0%nat) x < t < Rmax (X 0%nat) x -> g t = f t).
  { destruct D as [D|[-> D]].
    - exists (fun t => match splint xa ya y2a n t with Ok (Some v) => v | _ => 0 end). split.
      + intros k t L. destruct (splint_piece xa ya y2a n t N RY RM (or_introl D)) as (j & J & ->). rewrite (located_unique xa n t j k N J L). reflexivity.
      + intros t T. rewrite (HF t T). reflexivity.
    - exists (piece X Y M 0). split.
      + intros k t (L & _). assert (k = 0)%nat by lia. subst k. reflexivity.
      + intros t T. assert (T0 : X 0%nat <= t) by (rewrite Rmin_left in T by exact D; lra). destruct (splint_piece xa ya y2a 2 t N RY RM (or_intror (conj eq_refl T0))) as (j & (J & _) & E). assert (j = 0)%nat by lia. subst j. rewrite (HF t T) in E. injection E as E. symmetry. exact E. }
  destruct G as (g & G1 & G2). unfold splini. destruct (splini_loop_ok xa ya y2a n x g N RY RM G1 n 0 0) as (v & E & I); [lia|lia|left; reflexivity|apply (is_RInt_point g)|]. exists v. split; [exact E|]. apply (is_RInt_ext g); [exact G2|exact I].
Qed.

(* ---- the second derivatives ---- *)
Section System.
Context (x y : arr) (n : nat) (N : nodes x n) (RY : room y n) (N2 : (2 <= n)%nat).
Let X := a_val x.
Let Y := a_val y.
Let RX := nodes_room _ _ N.
Definition sig (i : nat) : R := (X i - X (i - 1)%nat) / (X (i + 1)%nat - X (i - 1)%nat).
Definition rhs (i : nat) : R := 6 * ((Y (i + 1)%nat - Y i) / (X (i + 1)%nat - X i) - (Y i - Y (i - 1)%nat) / (X i - X (i - 1)%nat)) / (X (i + 1)%nat - X (i - 1)%nat).
(* the rows of the elimination below i *)
Definition eliminated (c d : nat -> R) (i : nat) : Prop :=
  (forall j, (j < i)%nat -> -1 < c j <= 0) /\
  forall j, (1 <= j < i)%nat -> (sig j * c (j - 1)%nat + 2) * c j = sig j - 1 /\ (sig j * c (j - 1)%nat + 2) * d j = rhs j - sig j * d (j - 1)%nat.
Lemma sig_range i : (1 <= i)%nat -> (i + 1 < n)%nat -> 0 < sig i < 1.
Proof.
  intros A B. unfold sig. pose proof (nodes_lt x n (i - 1) i N ltac:(lia) ltac:(lia)) as P. pose proof (nodes_lt x n i (i + 1) N ltac:(lia) ltac:(lia)) as Q. fold X in P, Q. split.
  - apply Rdiv_lt_0_compat; lra.
  - apply Rmult_lt_reg_r with (X (i + 1)%nat - X (i - 1)%nat); [lra|]. unfold Rdiv. rewrite Rmult_assoc, Rinv_l by lra. lra.
Qed.
Lemma forward_ok i s : (1 <= i)%nat -> (i + 1 < n)%nat -> room (fst s) n -> room (snd s) n -> eliminated (a_val (fst s)) (a_val (snd s)) i ->
  exists s', forward x y i s = Ok s' /\ room (fst s') n /\ room (snd s') n /\ eliminated (a_val (fst s')) (a_val (snd s')) (S i) /\ a_val (fst s') 0 = a_val (fst s) 0 /\ a_val (snd s') 0 = a_val (snd s) 0.
Proof.
  intros A B R1 R2 [C D]. destruct s as [y2 u]. cbn [fst snd] in *. unfold forward. rewrite !(rd_ok x n) by (assumption || lia). cbn [obind]. rewrite (rd_ok y2 n) by (assumption || lia). cbn [obind]. fold X. fold (sig i).
  destruct (sig_range i A B) as [S1 S2]. destruct (C (i - 1)%nat ltac:(lia)) as [C1 C2]. set (p := sig i * a_val y2 (i - 1) + 2). assert (P : 1 < p) by (unfold p; nra).
  destruct (wr_ok y2 n i ((sig i - 1) / p) R1 ltac:(lia)) as (y2' & E1 & R1' & V1 & O1). rewrite E1. cbn [obind]. rewrite !(rd_ok y n) by (assumption || lia). cbn [obind]. rewrite (rd_ok u n) by (assumption || lia). cbn [obind]. fold Y.
  match goal with |- context [wr u i ?v] => destruct (wr_ok u n i v R2 ltac:(lia)) as (u' & E2 & R2' & V2 & O2); rewrite E2 end. cbn [obind]. eexists. split; [reflexivity|]. cbn [fst snd]. fold (rhs i) in V2.
  split; [exact R1'|]. split; [exact R2'|]. split; [|split; [apply O1; lia|apply O2; lia]]. split.
  - intros j J. destruct (Nat.eq_dec j i) as [->|NE]; [|rewrite O1 by exact NE; apply C; lia]. rewrite V1. split.
    + apply Rmult_lt_reg_r with p; [lra|]. unfold Rdiv. rewrite Rmult_assoc, Rinv_l by lra. lra.
    + apply Rmult_le_reg_r with p; [lra|]. unfold Rdiv. rewrite Rmult_assoc, Rinv_l by lra. lra.
  - intros j J. destruct (Nat.eq_dec j i) as [->|NE].
    + rewrite V1, V2, (O1 (i - 1)%nat), (O2 (i - 1)%nat) by lia. fold p. split; field; lra.
    + rewrite !(O1 _ ltac:(lia) : a_val y2' _ = _) || idtac. rewrite (O1 j), (O1 (j - 1)%nat), (O2 j), (O2 (j - 1)%nat) by lia. apply D. lia.
Qed.
Lemma forward_all s : room (fst s) n -> room (snd s) n -> -1 < a_val (fst s) 0 <= 0 ->
  exists s', loop 1 (n - 2) (forward x y) s = Ok s' /\ room (fst s') n /\ room (snd s') n /\ eliminated (a_val (fst s')) (a_val (snd s')) (n - 1) /\ a_val (fst s') 0 = a_val (fst s) 0 /\ a_val (snd s') 0 = a_val (snd s) 0.
Proof.
  intros R1 R2 C0. destruct (loop_inv (fun i s' => room (fst s') n /\ room (snd s') n /\ eliminated (a_val (fst s')) (a_val (snd s')) i /\ a_val (fst s') 0 = a_val (fst s) 0 /\ a_val (snd s') 0 = a_val (snd s) 0) (forward x y) 1 (n - 2) s) as (s' & E & H).
  - lia.
  - split; [exact R1|]. split; [exact R2|]. split; [|split; reflexivity]. split; [intros j J; assert (j = 0)%nat by lia; subst j; exact C0|intros j J; lia].
  - intros i s1 L (A & B & C & D & F). destruct (forward_ok i s1 ltac:(lia) ltac:(lia) A B C) as (s2 & E & A' & B' & C' & D' & F'). exists s2. split; [exact E|]. repeat (split; try assumption); try congruence; apply C'.
  - exists s'. split; [exact E|]. replace (S (n - 2)) with (n - 1)%nat in H by lia. exact H.
Qed.
Lemma backward_all c d u y2 : room y2 n -> room u n -> (forall k, (k < n - 1)%nat -> a_val y2 k = c k /\ a_val u k = d k) ->
  exists y2', loop 0 (n - 2) (backward n u) y2 = Ok y2' /\ room y2' n /\ a_val y2' (n - 1) = a_val y2 (n - 1) /\ forall k, (k < n - 1)%nat -> a_val y2' k = c k * a_val y2' (S k) + d k.
Proof.
  intros R1 R2 H0. destruct (loop_inv (fun j y => room y n /\ a_val y (n - 1) = a_val y2 (n - 1) /\ (forall k, (k < n - 1)%nat -> (k + j < n - 1)%nat -> a_val y k = c k) /\ (forall k, (k < n - 1)%nat -> (n - 1 <= k + j)%nat -> a_val y k = c k * a_val y (S k) + d k)) (backward n u) 0 (n - 2) y2) as (y' & E & A & B & C & D).
  - lia.
  - split; [exact R1|]. split; [reflexivity|]. split; [intros k K _; apply H0, K|intros k K1 K2; lia].
  - intros j y' L (A & B & C & D). unfold backward. set (k := (n - 2 - j)%nat) in *. rewrite !(rd_ok y' n) by (assumption || lia). cbn [obind]. rewrite (rd_ok u n) by (assumption || lia). cbn [obind].
    match goal with |- context [wr y' k ?v] => destruct (wr_ok y' n k v A ltac:(lia)) as (y3 & E3 & R3 & V3 & O3); rewrite E3 end. exists y3. split; [reflexivity|]. split; [exact R3|]. split; [rewrite O3 by lia; exact B|]. split.
    + intros i I1 I2. rewrite O3 by lia. apply C; lia.
    + intros i I1 I2. destruct (Nat.eq_dec i k) as [->|NE].
      * rewrite V3. rewrite (O3 (S k)) by lia. rewrite (C k) by lia. replace (k + 1)%nat with (S k) by lia. destruct (H0 k ltac:(lia)) as [_ ->]. reflexivity.
      * rewrite (O3 i) by lia. rewrite (O3 (S i)) by lia. apply D; lia.
  - exists y'. split; [exact E|]. split; [exact A|]. split; [exact B|]. intros k K. apply D; lia.
Qed.
Lemma spline_ok yp1 ypn y2 work : room y2 n -> room work n ->
  exists y2' u', spline x y n yp1 ypn y2 work = Ok (y2', u') /\ room y2' n /\ let M := a_val y2' in
    (forall i, (1 <= i)%nat -> (i + 1 < n)%nat -> sig i * M (i - 1)%nat + 2 * M i + (1 - sig i) * M (i + 1)%nat = rhs i) /\
    (huge < yp1 -> M 0%nat = 0) /\ (yp1 <= huge -> 2 * M 0%nat + M 1%nat = 6 / (X 1%nat - X 0%nat) * ((Y 1%nat - Y 0%nat) / (X 1%nat - X 0%nat) - yp1)) /\
    (huge < ypn -> M (n - 1)%nat = 0) /\ (ypn <= huge -> M (n - 2)%nat + 2 * M (n - 1)%nat = 6 / (X (n - 1)%nat - X (n - 2)%nat) * (ypn - (Y (n - 1)%nat - Y (n - 2)%nat) / (X (n - 1)%nat - X (n - 2)%nat))).
Proof.
  intros R1 R2. unfold spline. destruct (Nat.ltb_spec n 2); [lia|].
  set (c0 := if rgt yp1 huge then 0 else - (1 / 2)). set (d0 := if rgt yp1 huge then 0 else (3 / (X 1%nat - X 0%nat)) * ((Y 1%nat - Y 0%nat) / (X 1%nat - X 0%nat) - yp1)).
  match goal with |- context [do s0 <- ?e; _] => assert (S0 : exists y3 u3, e = Ok (y3, u3) /\ room y3 n /\ room u3 n /\ a_val y3 0 = c0 /\ a_val u3 0 = d0) end.
  { unfold c0, d0. destruct (rgt yp1 huge).
    - destruct (wr_ok y2 n 0 0 R1 ltac:(lia)) as (y3 & E1 & A1 & V1 & _). rewrite E1. cbn [obind]. destruct (wr_ok work n 0 0 R2 ltac:(lia)) as (u3 & E2 & A2 & V2 & _). rewrite E2. cbn [obind]. exists y3, u3. tauto.
    - destruct (wr_ok y2 n 0 (- (1 / 2)) R1 ltac:(lia)) as (y3 & E1 & A1 & V1 & _). rewrite E1. cbn [obind]. rewrite !(rd_ok x n) by (assumption || lia). cbn [obind]. rewrite !(rd_ok y n) by (assumption || lia). cbn [obind]. fold X Y.
      match goal with |- context [wr work 0 ?v] => destruct (wr_ok work n 0 v R2 ltac:(lia)) as (u3 & E2 & A2 & V2 & _); rewrite E2 end. cbn [obind]. exists y3, u3. tauto. }
  destruct S0 as (y3 & u3 & -> & A1 & A2 & V1 & V2). cbn [obind].
  destruct (forward_all (y3, u3) A1 A2) as ([y4 u4] & E4 & B1 & B2 & EL & W1 & W2); [cbn [fst]; rewrite V1; unfold c0; destruct (rgt yp1 huge); lra|]. rewrite E4. cbn [obind fst snd] in *.
  set (qn := if rgt ypn huge then 0 else 1 / 2). set (un := if rgt ypn huge then 0 else (3 / (X (n - 1)%nat - X (n - 2)%nat)) * (ypn - (Y (n - 1)%nat - Y (n - 2)%nat) / (X (n - 1)%nat - X (n - 2)%nat))).
  match goal with |- context [do qu <- ?e; _] => assert (EQ : e = Ok (qn, un)) end.
  { unfold qn, un. destruct (rgt ypn huge); [reflexivity|]. replace (n - 1 - 1)%nat with (n - 2)%nat by lia. rewrite !(rd_ok x n) by (assumption || lia). cbn [obind]. rewrite !(rd_ok y n) by (assumption || lia). cbn [obind]. reflexivity. }
  rewrite EQ. cbn [obind]. rewrite (rd_ok u4 n) by (assumption || lia). cbn [obind]. rewrite (rd_ok y4 n) by (assumption || lia). cbn [obind].
  match goal with |- context [wr y4 (n - 1) ?v] => destruct (wr_ok y4 n (n - 1) v B1 ltac:(lia)) as (y5 & E5 & B5 & V5 & O5); rewrite E5 end. cbn [obind].
  destruct (backward_all (a_val y4) (a_val u4) u4 y5 B5 B2) as (y6 & E6 & B6 & V6 & R6); [intros k K; split; [apply O5; lia|reflexivity]|]. rewrite E6. cbn [obind].
  exists y6, u4. split; [reflexivity|]. split; [exact B6|]. cbn zeta. destruct EL as [CR EL].
  destruct (CR (n - 2)%nat ltac:(lia)) as [Q1 Q2].
  split; [|split; [|split; [|split]]].
  - intros i I1 I2. destruct (EL i ltac:(lia)) as [L1 L2]. rewrite (R6 (i - 1)%nat) by lia. replace (S (i - 1)) with i by lia. rewrite (R6 i) by lia. replace (S i) with (i + 1)%nat by lia.
    set (c := a_val y4 (i - 1)) in *. set (d := a_val u4 (i - 1)) in *. set (c' := a_val y4 i) in *. set (d' := a_val u4 i) in *. set (m := a_val y6 (i + 1)). 
    replace (sig i * (c * (c' * m + d') + d) + 2 * (c' * m + d') + (1 - sig i) * m) with ((sig i * c + 2) * c' * m + (sig i * c + 2) * d' + sig i * d + (1 - sig i) * m) by ring. rewrite L1, L2. ring.
  - intros HU. rewrite (R6 0%nat) by lia. rewrite W1, W2, V1, V2. unfold c0, d0. destruct (rgt yp1 huge) eqn:G; [ring|apply rgt_false in G; lra].
  - intros HU. rewrite (R6 0%nat) by lia. rewrite W1, W2, V1, V2. unfold c0, d0. destruct (rgt yp1 huge) eqn:G; [apply rgt_true in G; lra|]. pose proof (proj2 N 0%nat ltac:(lia)) as P. fold X in P. field. lra.
  - intros HU. rewrite V6, V5. unfold qn, un. destruct (rgt ypn huge) eqn:G; [field|apply rgt_false in G; lra].
  - intros HU. rewrite (R6 (n - 2)%nat) by lia. replace (S (n - 2)) with (n - 1)%nat by lia. rewrite V6, V5. unfold qn, un. destruct (rgt ypn huge) eqn:G; [apply rgt_true in G; lra|]. pose proof (nodes_lt x n (n - 2) (n - 1) N ltac:(lia) ltac:(lia)) as P. fold X in P. field. split; lra.
Qed.
End System.

(* ---- smoothness ---- *)
Lemma glue f g h x d r : 0 < r -> (forall t, Rabs (t - x) < r -> t < x -> f t = g t) -> (forall t, Rabs (t - x) < r -> x <= t -> f t = h t) -> g x = h x -> derivable_pt_lim g x d -> derivable_pt_lim h x d -> derivable_pt_lim f x d.
Proof.
  intros R0 HG HH E DG DH eps EP. destruct (DG eps EP) as [d1 H1]. destruct (DH eps EP) as [d2 H2]. pose proof (cond_pos d1) as P1. pose proof (cond_pos d2) as P2.
  assert (P : 0 < Rmin r (Rmin d1 d2)) by (repeat apply Rmin_pos; assumption). exists (mkposreal _ P). intros k K L. cbn [pos] in L.
  pose proof (Rlt_le_trans _ _ _ L (Rmin_l _ _)) as L1. pose proof (Rlt_le_trans _ _ _ L (Rmin_r _ _)) as L2. pose proof (Rlt_le_trans _ _ _ L2 (Rmin_l _ _)) as L3. pose proof (Rlt_le_trans _ _ _ L2 (Rmin_r _ _)) as L4.
  assert (FX : f x = h x) by (apply HH; [rewrite Rminus_eq_0, Rabs_R0; exact R0|lra]).
  destruct (Rlt_le_dec k 0) as [S|S].
  - rewrite HG by (first [replace (x + k - x) with k by ring; exact L1|lra]). rewrite FX, <- E. apply H1; assumption.
  - rewrite HH by (first [replace (x + k - x) with k by ring; exact L1|lra]). rewrite FX. apply H2; assumption.
Qed.
Lemma glue_cont f g h x r : 0 < r -> (forall t, Rabs (t - x) < r -> t < x -> f t = g t) -> (forall t, Rabs (t - x) < r -> x <= t -> f t = h t) -> g x = h x -> continuity_pt g x -> continuity_pt h x -> continuity_pt f x.
Proof.
  intros R0 HG HH E CG CH eps EP. destruct (CG eps EP) as (d1 & P1 & H1). destruct (CH eps EP) as (d2 & P2 & H2). exists (Rmin r (Rmin d1 d2)). split; [repeat apply Rmin_pos; assumption|]. intros t [T L].
  pose proof (Rlt_le_trans _ _ _ L (Rmin_l _ _)) as L1. pose proof (Rlt_le_trans _ _ _ L (Rmin_r _ _)) as L2. pose proof (Rlt_le_trans _ _ _ L2 (Rmin_l _ _)) as L3. pose proof (Rlt_le_trans _ _ _ L2 (Rmin_r _ _)) as L4.
  assert (FX : f x = h x) by (apply HH; [rewrite Rminus_eq_0, Rabs_R0; exact R0|lra]).
  destruct (Rlt_le_dec t x) as [S|S].
  - rewrite (HG t L1 S), FX, <- E. apply H1. split; assumption.
  - rewrite (HH t L1 S), FX. apply H2. split; assumption.
Qed.
Section Smooth.
Context (x : arr) (n : nat) (N : nodes x n) (N3 : (3 <= n)%nat).
Let X := a_val x.
Definition loc (t : R) : nat := match bisect n x t 0 (n - 1) with Ok (Some (k, _)) => k | _ => 0%nat end.
Lemma loc_ok t : located X n (loc t) t.
Proof. unfold loc. destruct (bisect_ok x n t N n 0 (n - 1)) as (k & -> & L); [lia|lia|left; lia|left; reflexivity|left; lia|exact L]. Qed.
Lemma loc_is t k : located X n k t -> loc t = k. Proof. intros L. exact (located_unique x n t (loc t) k N (loc_ok t) L). Qed.
Lemma around t : (exists r, 0 < r /\ forall t', Rabs (t' - t) < r -> loc t' = loc t) \/
  (exists r k, 0 < r /\ (S (S k) < n)%nat /\ t = X (S k) /\ (forall t', Rabs (t' - t) < r -> t' < t -> loc t' = k) /\ (forall t', Rabs (t' - t) < r -> t <= t' -> loc t' = S k)).
Proof.
  destruct (loc_ok t) as (L & A & B). remember (loc t) as k eqn:KL.
  assert (UP : exists r, 0 < r /\ forall t', Rabs (t' - t) < r -> S (S k) = n \/ t' < X (S k)).
  { destruct B as [B|B]; [exists 1; split; [lra|]; intros; left; exact B|]. exists (X (S k) - t). split; [lra|]. intros t' H. right. apply Rabs_def2 in H. lra. }
  destruct UP as (r & R0 & UP).
  destruct k as [|k].
  - left. exists r. split; [exact R0|]. intros t' H. apply loc_is. split; [exact L|]. split; [left; reflexivity|apply UP, H].
  - destruct A as [A|A]; [lia|]. destruct (Rle_lt_or_eq_dec _ _ A) as [LT|EQ].
    + left. exists (Rmin r (t - X (S k))). split; [apply Rmin_pos; lra|]. intros t' H. apply loc_is. pose proof (Rlt_le_trans _ _ _ H (Rmin_l _ _)) as H1. pose proof (Rlt_le_trans _ _ _ H (Rmin_r _ _)) as H2. apply Rabs_def2 in H2. split; [exact L|]. split; [right; lra|apply UP, H1].
    + right. pose proof (proj2 N k ltac:(lia)) as P. fold X in P. exists (Rmin r (X (S k) - X k)), k. split; [apply Rmin_pos; lra|]. split; [exact L|]. split; [symmetry; exact EQ|]. split; intros t' H O; pose proof (Rlt_le_trans _ _ _ H (Rmin_l _ _)) as H1; pose proof (Rlt_le_trans _ _ _ H (Rmin_r _ _)) as H2; apply loc_is.
      * apply Rabs_def2 in H2. split; [lia|]. split; [right; lra|right; lra].
      * split; [exact L|]. split; [right; lra|apply UP, H1].
Qed.
Lemma pieces_deriv (q q' : nat -> R -> R) : (forall k t, (S k < n)%nat -> derivable_pt_lim (q k) t (q' k t)) -> (forall k, (S (S k) < n)%nat -> q k (X (S k)) = q (S k) (X (S k))) -> (forall k, (S (S k) < n)%nat -> q' k (X (S k)) = q' (S k) (X (S k))) ->
  forall t, derivable_pt_lim (fun s => q (loc s) s) t (q' (loc t) t).
Proof.
  intros D M M' t. pose proof (loc_ok t) as (LT & _). destruct (around t) as [(r & R0 & H)|(r & k & R0 & L & E & H1 & H2)].
  - apply (deriv_near (q (loc t)) _ t _ r R0); [intros s S; rewrite (H s S); reflexivity|apply D, LT].
  - assert (K : loc t = S k) by (apply H2; [rewrite Rminus_eq_0, Rabs_R0; exact R0|lra]). rewrite K.
    apply (glue _ (q k) (q (S k)) t _ r R0); [intros s S O; rewrite (H1 s S O); reflexivity|intros s S O; rewrite (H2 s S O); reflexivity|rewrite E; apply M, L| |apply D; lia].
    eapply deriv_eq; [apply D; lia|]. rewrite E. apply M', L.
Qed.
Lemma pieces_cont (q : nat -> R -> R) : (forall k t, (S k < n)%nat -> continuity_pt (q k) t) -> (forall k, (S (S k) < n)%nat -> q k (X (S k)) = q (S k) (X (S k))) -> forall t, continuity_pt (fun s => q (loc s) s) t.
Proof.
  intros D M t. pose proof (loc_ok t) as (LT & _). destruct (around t) as [(r & R0 & H)|(r & k & R0 & L & E & H1 & H2)].
  - apply (glue_cont _ (q (loc t)) (q (loc t)) t r R0); [intros s S _; rewrite (H s S); reflexivity|intros s S _; rewrite (H s S); reflexivity|reflexivity|apply D, LT|apply D, LT].
  - apply (glue_cont _ (q k) (q (S k)) t r R0); [intros s S O; rewrite (H1 s S O); reflexivity|intros s S O; rewrite (H2 s S O); reflexivity|rewrite E; apply M, L|apply D; lia|apply D; lia].
Qed.
End Smooth.
Definition piece' (X Y M : nat -> R) (k : nat) (t : R) : R :=
  (Y (S k) - Y k) / (X (S k) - X k) + ((X (S k) - X k) / 6) * (- (3 * ((X (S k) - t) / (X (S k) - X k)) ^ 2 - 1) * M k + (3 * ((t - X k) / (X (S k) - X k)) ^ 2 - 1) * M (S k)).
Definition piece'' (X M : nat -> R) (k : nat) (t : R) : R := ((X (S k) - t) * M k + (t - X k) * M (S k)) / (X (S k) - X k).
Lemma piece'_derive X Y M k t : X k < X (S k) -> is_derive (piece' X Y M k) t (piece'' X M k t).
Proof. intros H. unfold piece', piece''. auto_derive; [repeat split; lra|]. field. lra. Qed.
Lemma piece''_derive X M k t : X k < X (S k) -> is_derive (piece'' X M k) t ((M (S k) - M k) / (X (S k) - X k)).
Proof. intros H. unfold piece''. auto_derive; [repeat split; lra|]. field. lra. Qed.

(* a twice continuously differentiable function through the nodes, with the end conditions *)
Lemma spline_smooth x y n yp1 ypn y2 work f : nodes x n -> room y n -> (3 <= n)%nat -> room y2 n -> room work n ->
  forall y2' u', spline x y n yp1 ypn y2 work = Ok (y2', u') -> (forall t, splint x y y2' n t = Ok (Some (f t))) ->
  exists f' f'', (forall t, derivable_pt_lim f t (f' t)) /\ (forall t, derivable_pt_lim f' t (f'' t)) /\ continuity f'' /\ (forall i, (i < n)%nat -> f (a_val x i) = a_val y i) /\
    (huge < yp1 -> f'' (a_val x 0) = 0) /\ (yp1 <= huge -> f' (a_val x 0) = yp1) /\ (huge < ypn -> f'' (a_val x (n - 1)) = 0) /\ (ypn <= huge -> f' (a_val x (n - 1)) = ypn).
Proof.
  intros N RY N3 RM RW y2' u' E HF. destruct (spline_ok x y n N RY ltac:(lia) yp1 ypn y2 work RM RW) as (M' & U & E2 & RM' & I & A1 & A2 & B1 & B2). rewrite E in E2. injection E2 as -> ->. cbn zeta in *.
  set (X := a_val x) in *. set (Y := a_val y) in *. set (M := a_val M') in *.
  assert (P : forall k, (S k < n)%nat -> X k < X (S k)) by apply (proj2 N).
  exists (fun t => piece' X Y M (loc x n t) t), (fun t => piece'' X M (loc x n t) t).
  assert (F : forall t, f t = piece X Y M (loc x n t) t).
  { intros t. destruct (splint_piece x y M' n t N RY RM' (or_introl N3)) as (k & L & Q). rewrite HF in Q. injection Q as ->. rewrite (loc_is x n N N3 t k L). reflexivity. }
  assert (C1 : forall k, (S (S k) < n)%nat -> piece' X Y M k (X (S k)) = piece' X Y M (S k) (X (S k))).
  { intros k K. specialize (I (S k) ltac:(lia) ltac:(lia)). unfold sig, rhs in I. replace (S k - 1)%nat with k in I by lia. replace (S k + 1)%nat with (S (S k)) in I by lia. fold X Y M in I. pose proof (P k ltac:(lia)) as P1. pose proof (P (S k) K) as P2.
    unfold piece'. apply Rminus_diag_uniq. match type of I with ?a = ?b => assert (J : (a - b) * (X (S (S k)) - X k) / 6 = 0) by (rewrite I; field; lra) end.
    rewrite <- J. field. repeat split; lra. }
  assert (L0 : loc x n (X 0%nat) = 0%nat).
  { apply loc_is; try assumption. split; [lia|]. split; [left; reflexivity|right; apply P; lia]. }
  assert (LN : loc x n (X (n - 1)%nat) = (n - 2)%nat).
  { apply loc_is; try assumption. split; [lia|]. split; [right; apply Rlt_le, (nodes_lt x n); [exact N|lia|lia]|left; lia]. }
  split; [|split; [|split; [|split; [|split; [|split; [|split]]]]]].
  - intros t. apply (deriv_ext (fun s => piece X Y M (loc x n s) s)); [intros s; symmetry; apply F|]. apply (pieces_deriv x n N N3 (piece X Y M) (piece' X Y M)).
    + intros k s K. apply is_derive_Reals. apply piece_derive, P, K.
    + intros k K. rewrite piece_right, piece_left by (apply P; lia). reflexivity.
    + exact C1.
  - apply (pieces_deriv x n N N3 (piece' X Y M) (piece'' X M)).
    + intros k s K. apply is_derive_Reals. apply piece'_derive, P, K.
    + exact C1.
    + intros k K. pose proof (P k ltac:(lia)). pose proof (P (S k) K). unfold piece''. fold X. field. split; lra.
  - intros t. apply (pieces_cont x n N N3 (piece'' X M)).
    + intros k s K. apply derivable_continuous_pt. eexists. apply is_derive_Reals, piece''_derive, P, K.
    + intros k K. pose proof (P k ltac:(lia)). pose proof (P (S k) K). unfold piece''. fold X. field. split; lra.
  - intros i L. pose proof (splint_node x y M' n i N RY RM' ltac:(lia) L) as Q. rewrite HF in Q. injection Q as Q. exact Q.
  - intros H. rewrite L0. pose proof (P 0%nat ltac:(lia)). unfold piece''. rewrite (A1 H). field. lra.
  - intros H. rewrite L0. pose proof (P 0%nat ltac:(lia)) as P0. specialize (A2 H). fold X Y in A2. unfold piece'. apply Rminus_diag_uniq. match type of A2 with ?a = ?b => assert (J : - (a - b) * (X 1%nat - X 0%nat) / 6 = 0) by (rewrite A2; field; lra) end. rewrite <- J. field. lra.
  - intros H. rewrite LN. pose proof (P (n - 2)%nat ltac:(lia)) as P0. replace (S (n - 2)) with (n - 1)%nat in P0 by lia. unfold piece''. replace (S (n - 2)) with (n - 1)%nat by lia. rewrite (B1 H). field. lra.
  - intros H. rewrite LN. pose proof (P (n - 2)%nat ltac:(lia)) as P0. replace (S (n - 2)) with (n - 1)%nat in P0 by lia. specialize (B2 H). fold X Y in B2. unfold piece'. replace (S (n - 2)) with (n - 1)%nat by lia. apply Rminus_diag_uniq. match type of B2 with ?a = ?b => assert (J : (a - b) * (X (n - 1)%nat - X (n - 2)%nat) / 6 = 0) by (rewrite B2; field; lra) end. rewrite <- J. field. lra.
Qed.
Lemma spline_defined x y n yp1 ypn y2 work : nodes x n -> room y n -> (2 <= n)%nat -> room y2 n -> room work n -> exists y2' u', spline x y n yp1 ypn y2 work = Ok (y2', u') /\ room y2' n.
Proof. intros N RY N2 R1 R2. destruct (spline_ok x y n N RY N2 yp1 ypn y2 work R1 R2) as (a & b & E & R & _). exists a, b. split; assumption. Qed.
Lemma splint_defined x y y2 n : nodes x n -> room y n -> room y2 n -> (3 <= n)%nat -> exists f, forall t, splint x y y2 n t = Ok (Some (f t)).
Proof.
  intros N RY RM L. exists (fun t => match splint x y y2 n t with Ok (Some v) => v | _ => 0 end). intros t. destruct (splint_piece x y y2 n t N RY RM (or_introl L)) as (k & _ & ->). reflexivity.
Qed.

(* ---- example objects ---- *)
Definition ex_nodes : arr := Arr 4 (fun i => INR i * INR i).
Definition ex_vals : arr := Arr 4 (fun i => match i with O => 2 | 1%nat => - 1 | 2%nat => 5 | _ => 3 end).
Lemma ex_nodes_ok : nodes ex_nodes 4.
Proof. split; [cbn; lia|]. intros i L. cbn [a_val ex_nodes]. rewrite S_INR. pose proof (pos_INR i). nra. Qed.
Lemma ex_nodes_two : nodes ex_nodes 2.
Proof. split; [cbn; lia|]. intros i L. cbn [a_val ex_nodes]. rewrite S_INR. pose proof (pos_INR i). nra. Qed.
Lemma two_nodes_wrong : exists xa ya y2a x v, nodes xa 2 /\ room ya 2 /\ room y2a 2 /\ splint xa ya y2a 2 x = Ok (Some v) /\ v <> piece (a_val xa) (a_val ya) (a_val y2a) 0 x.
Proof.
  exists ex_nodes, ex_vals, (Arr 2 (fun _ => 0)), (- 1), (1 * / 10 ^ 30). split; [exact ex_nodes_two|]. split; [unfold room; cbn; lia|]. split; [unfold room; cbn; lia|]. split; [apply splint_two; [exact ex_nodes_two|cbn; lra]|].
  unfold piece. cbn [a_val ex_nodes ex_vals INR]. assert (0 < 10 ^ 30) by (apply pow_lt; lra). assert (1 <= 10 ^ 30) by (apply pow_R1_Rle; lra). assert (/ 10 ^ 30 <= 1) by (rewrite <- Rinv_1; apply Rinv_le_contravar; lra). intros Q.
  match type of Q with ?a = ?b => replace b with 5 in Q by field end. lra.
Qed.
