(* What the filter of the orbit determination program makes of the transition matrix it is given. *)
From Coq Require Import List ZArith QArith Bool Lia Lqa.
From Verif Require Import Base Ekf_model Ekf_proofs PodState_model.
Import ListNotations.
Local Open Scope Q_scope.

Lemma sum_zero n f : (forall k, (k < n)%nat -> f k == 0) -> sum n f == 0.
Proof. induction n as [|n IH]; intros H; cbn [sum]; [reflexivity|]. rewrite IH, H by (auto with arith; lia). reflexivity. Qed.
Lemma PhiP_row k : PhiP 5%nat k == 0.
Proof.
  unfold PhiP. destruct (Nat.ltb_spec k 6) as [L|L].
  - cbn [Nat.ltb Nat.leb andb]. do 6 (destruct k as [|k]; [vm_compute; reflexivity|]). lia.
  - rewrite andb_false_r. unfold ident. replace (Nat.eqb 5 k) with false by (symmetry; apply Nat.eqb_neq; lia). reflexivity.
Qed.
(* row and column of the velocity along z *)
Definition silent {T} (n : nat) (e : ekf T) : Prop := forall j, (j < n)%nat -> e_P e 5%nat j == 0 /\ e_P e j 5%nat == 0.
Lemma time_silent {T} n (e : ekf T) tk xk : silent n (ekf_time n e tk xk PhiP).
Proof.
  intros j _. unfold ekf_time, mulm, dotn, transp. cbn [e_P]. split; apply sum_zero; intros k _.
  - rewrite (sum_zero n); [ring|]. intros l _. rewrite PhiP_row. ring.
  - rewrite PhiP_row. ring.
Qed.
Lemma obs_silent {T} n (e e' : ekf T) z g sigma H : (5 < n)%nat -> silent n e -> ekf_obs n e z g sigma H = Some e' ->
  silent n e' /\ e_x e' 5%nat == e_x e 5%nat.
Proof.
  intros N S. unfold ekf_obs. destruct (Qeq_bool _ 0) eqn:V; [discriminate|]. intros E. injection E as <-.
  assert (K0 : ekf_gain n e sigma H 5%nat == 0).
  { unfold ekf_gain, mulv, dotn. rewrite (sum_zero n); [unfold Qdiv; ring|]. intros k L. rewrite (proj1 (S k L)). ring. }
  set (K := ekf_gain n e sigma H) in *. split.
  - intros j L. cbn [e_P]. unfold plusm, mulm, dotn, transp, outer, minusm. split.
    + rewrite K0. rewrite (sum_zero n); [ring|]. intros k Lk. rewrite (sum_zero n); [ring|].
      intros l Ll. unfold ident. destruct (Nat.eqb_spec 5 l) as [<-|D]; [rewrite (proj1 (S k Lk)); ring|]. rewrite K0. ring.
    + rewrite K0. rewrite (sum_zero n); [ring|]. intros k Lk. unfold ident at 2. destruct (Nat.eqb_spec 5 k) as [<-|D].
      * rewrite (sum_zero n); [ring|]. intros l Ll. rewrite (proj2 (S l Ll)). ring.
      * rewrite K0. ring.
  - cbn [e_x]. unfold plusv. rewrite K0. ring.
Qed.
Lemma updates_silent {T} n obs : (5 < n)%nat -> forall e e' : ekf T, silent n e -> updates n e obs = Some e' -> silent n e' /\ e_x e' 5%nat == e_x e 5%nat.
Proof.
  intros N. induction obs as [|[[[z g] sigma] H] r IH]; intros e e' S; cbn [updates].
  - intros E. injection E as <-. split; [exact S|reflexivity].
  - destruct (ekf_obs n e z g sigma H) as [e1|] eqn:E1; [|discriminate]. intros E.
    destruct (obs_silent n e e1 z g sigma H N S E1) as [S1 X1]. destruct (IH e1 e' S1 E) as [S2 X2]. split; [exact S2|]. rewrite X2, X1. reflexivity.
Qed.
Lemma never_corrected {T} n (e e' : ekf T) tk xk obs : (5 < n)%nat -> block_update n e tk xk obs = Some e' ->
  e_x e' 5%nat == xk 5%nat /\ e_P e' 5%nat 5%nat == 0.
Proof.
  intros N E. destruct (updates_silent n obs N _ e' (time_silent n e tk xk) E) as [S X]. split; [exact X|]. apply (S 5%nat N).
Qed.
(* the time update: every parameter but the sixth keeps its variance and its covariances *)
Lemma PhiP_other i k : i <> 5%nat -> PhiP i k = if Nat.eqb i k then 1 else 0.
Proof.
  intros N. unfold PhiP. destruct (Nat.ltb i 6) eqn:I; [|reflexivity]. destruct (Nat.ltb k 6) eqn:K; [|reflexivity]. apply Nat.ltb_lt in I, K.
  destruct i as [|[|[|[|[|[|i]]]]]]; try lia; (destruct k as [|[|[|[|[|[|k]]]]]]; try lia; reflexivity).
Qed.
Lemma time_keeps T n (e e' : ekf T) tk xk : block_update n e tk xk [] = Some e' -> e_t e' = tk /\ (forall i, e_x e' i = xk i) /\
  forall i j, (i < n)%nat -> (j < n)%nat -> i <> 5%nat -> j <> 5%nat -> e_P e' i j == e_P e i j.
Proof.
  unfold block_update. cbn [updates]. intros E. injection E as <-. split; [reflexivity|]. split; [reflexivity|]. intros i j I J NI NJ. cbn [ekf_time e_P].
  rewrite mulm3. rewrite (sum_ext n _ (fun k => (if Nat.eqb i k then 1 else 0) * sum n (fun l => (if Nat.eqb j l then 1 else 0) * e_P e k l))).
  - rewrite sum_delta by exact I. rewrite sum_delta by exact J. reflexivity.
  - intros k K. rewrite <- sum_scale. apply sum_ext. intros l L. rewrite (PhiP_other i k NI), (PhiP_other j l NJ). ring.
Qed.
