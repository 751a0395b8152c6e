(* Specification of, and proofs about, the filter's parameters (C27, C28). *)
From Coq Require Import List Arith ZArith Lia Bool ZifyNat.
From Verif Require Import Base Filter_model.
Import ListNotations.

(* The parameters of the estimation problem. *)
Inductive param := PState (c : nat) | PForce (p : nat) | PTropo (b : nat) | PRf (b : nat) | PDrift (b : nat).
Definition param_ok (Np : nat) (m : clock_model) (n : nat) (q : param) : Prop :=
  match q with
  | PState c => c < 6
  | PForce p => p < Np
  | PTropo b | PRf b => b < n
  | PDrift b => m = CLinear /\ b < n
  end.
(* where the filter keeps each; state components come first, then the force
   parameters (the drag coefficient is force parameter 0) *)
Definition index (Np : nat) (m : clock_model) (q : param) : nat :=
  match q with
  | PState c => c
  | PForce p => drag_coef_index + p
  | PTropo b => tropo_index Np m b
  | PRf b => rfoff_index Np m b
  | PDrift b => drift_index Np b
  end.

Lemma layout_in_range Np m n q : param_ok Np m n q -> index Np m q < num_params Np m n.
Proof.
  unfold num_params. destruct q as [c|p|b|b|b]; cbn [param_ok index];
  unfold drift_index, tropo_index, rfoff_index, drag_coef_index.
  - lia.
  - lia.
  - destruct m; lia.
  - destruct m; lia.
  - intros [-> H]. lia.
Qed.

Ltac Zify.zify_post_hook ::= Z.div_mod_to_equations.

Lemma layout_injective Np m n q1 q2 : param_ok Np m n q1 -> param_ok Np m n q2 ->
  index Np m q1 = index Np m q2 -> q1 = q2.
Proof.
  unfold drift_index, tropo_index, rfoff_index, drag_coef_index, index.
  destruct q1 as [c|p|b|b|b], q2 as [c'|p'|b'|b'|b']; cbn [param_ok]; intros H1 H2 E;
    destruct m; cbn in *; try (destruct H1; congruence); try (destruct H2; congruence);
    try (f_equal; lia); exfalso; lia.
Qed.

Lemma layout_covers Np m n i : i < num_params Np m n ->
  exists q, param_ok Np m n q /\ index Np m q = i.
Proof.
  unfold num_params. intros H.
  destruct (Nat.lt_ge_cases i 6) as [A|A]; [exists (PState i); split; [exact A|reflexivity]|].
  destruct (Nat.lt_ge_cases i (6 + Np)) as [B|B].
  { exists (PForce (i - 6)). cbn [param_ok index]; unfold drag_coef_index; lia. }
  pose (k := i - (6 + Np)). destruct m.
  - destruct (Nat.eq_dec (k mod 2) 0) as [E|E].
    + exists (PTropo (k / 2)). cbn [param_ok index]; unfold tropo_index, rfoff_index; unfold k in *; lia.
    + exists (PRf (k / 2)). cbn [param_ok index]; unfold tropo_index, rfoff_index; unfold k in *; lia.
  - destruct (Nat.eq_dec (k mod 3) 0) as [E|E]; [|destruct (Nat.eq_dec (k mod 3) 1) as [E1|E1]].
    + exists (PTropo (k / 3)). cbn [param_ok index]; unfold tropo_index, rfoff_index; unfold k in *; lia.
    + exists (PRf (k / 3)). cbn [param_ok index]; unfold tropo_index, rfoff_index; unfold k in *; lia.
    + exists (PDrift (k / 3)). cbn [param_ok index]; unfold drift_index, rfoff_index; unfold k in *; repeat split; lia.
Qed.
Ltac Zify.zify_post_hook ::= idtac.

Lemma layout_ok Np m n :
  (forall q, param_ok Np m n q -> index Np m q < num_params Np m n) /\
  (forall q1 q2, param_ok Np m n q1 -> param_ok Np m n q2 -> index Np m q1 = index Np m q2 -> q1 = q2) /\
  (forall i, i < num_params Np m n -> exists q, param_ok Np m n q /\ index Np m q = i).
Proof.
  split; [apply layout_in_range|]. split; [apply layout_injective|apply layout_covers].
Qed.

Example layout_case : param_ok 2 CLinear 4 (PDrift 3) /\ index 2 CLinear (PDrift 3) = 19.
Proof. split; [split; [reflexivity|lia]|reflexivity]. Qed.

Section V.
Variable V : Type.
Implicit Types f : filt V.

(* a filter object for n beacons *)
Definition wf (Np : nat) (m : clock_model) f : Prop := f_dim f = num_params Np m (f_n f).

(* what a setter is supposed to do: the estimates of the parameters selected
   by [sel] become the given values, everything else (and the covariance)
   stays; [None] = keep *)
Definition sets_x (Np : nat) (m : clock_model) f f' (sel : param -> option V) : Prop :=
  f_n f' = f_n f /\ f_dim f' = f_dim f /\ f_P f' = f_P f /\
  forall q, param_ok Np m (f_n f) q ->
    f_x f' (index Np m q) = match sel q with Some v => v | None => f_x f (index Np m q) end.
Definition sets_P (Np : nat) (m : clock_model) f f' (sel : param -> option V) : Prop :=
  f_n f' = f_n f /\ f_dim f' = f_dim f /\ f_x f' = f_x f /\
  forall q1 q2, param_ok Np m (f_n f) q1 -> param_ok Np m (f_n f) q2 ->
    f_P f' (index Np m q1) (index Np m q2) =
    match sel q1 with
    | Some v => if Nat.eqb (index Np m q1) (index Np m q2) then v else f_P f (index Np m q1) (index Np m q2)
    | None => f_P f (index Np m q1) (index Np m q2)
    end.

Definition sel_tropo (v : V) (b : option nat) (q : param) : option V :=
  match q with
  | PTropo c => match b with None => Some v | Some b => if Nat.eqb c b then Some v else None end
  | _ => None
  end.
Definition sel_rf (a d : V) (b : option nat) (q : param) : option V :=
  match q with
  | PRf c => match b with None => Some a | Some b => if Nat.eqb c b then Some a else None end
  | PDrift c => match b with None => Some d | Some b => if Nat.eqb c b then Some d else None end
  | _ => None
  end.
Definition sel_drag (v : V) (q : param) : option V :=
  match q with PForce 0 => Some v | _ => None end.

(* ---- generic loop lemmas ---- *)
(* does idx lie on the arithmetic progression start, start+step, ... (k terms)? *)
Definition on_prog (start step k j : nat) : bool :=
  existsb (fun i => Nat.eqb j (start + i * step)) (seq 0 k).

Lemma on_prog_S start step k j :
  on_prog start step (S k) j = Nat.eqb j start || on_prog (start + step) step k j.
Proof.
  unfold on_prog. cbn [seq existsb]. rewrite Nat.mul_0_l, Nat.add_0_r. f_equal.
  rewrite <- seq_shift. induction (seq 0 k) as [|x l IH]; [reflexivity|].
  cbn [map existsb]. rewrite IH. f_equal. f_equal. lia.
Qed.

Lemma on_prog_true start step k j : on_prog start step k j = true <->
  exists i, i < k /\ j = start + i * step.
Proof.
  unfold on_prog. rewrite existsb_exists. split.
  - intros (i & HI & E). apply in_seq in HI. apply Nat.eqb_eq in E. exists i. lia.
  - intros (i & HI & ->). exists i. split; [apply in_seq; lia|apply Nat.eqb_refl].
Qed.

Lemma loop_x v step k : forall f start,
  (forall i, i < k -> start + i * step < f_dim f) ->
  exists f', all_beacons (fun f i => put_x f i v) f start step k = Ok f' /\
    f_n f' = f_n f /\ f_dim f' = f_dim f /\ f_P f' = f_P f /\
    forall j, f_x f' j = if on_prog start step k j then v else f_x f j.
Proof.
  induction k as [|k IH]; intros f start H.
  - exists f. repeat split; reflexivity.
  - cbn [all_beacons]. unfold put_x at 1.
    assert (H0 : start < f_dim f) by (specialize (H 0); lia).
    destruct (Nat.ltb_spec start (f_dim f)); [|lia]. cbn [obind].
    destruct (IH (Filt (f_n f) (f_dim f) (fun j => if j =? start then v else f_x f j) (f_P f)) (start + step))
      as (f' & E & En & Ed & EP & Ex).
    { intros i Hi. cbn [f_dim]. specialize (H (S i)). lia. }
    exists f'. split; [exact E|]. cbn in En, Ed, EP, Ex. repeat split; try assumption.
    intros j. rewrite Ex, on_prog_S. destruct (on_prog (start + step) step k j); [rewrite orb_true_r; reflexivity|].
    rewrite orb_false_r. reflexivity.
Qed.

Lemma loop_P v step k : forall f start,
  (forall i, i < k -> start + i * step < f_dim f) ->
  exists f', all_beacons (fun f i => put_P f i v) f start step k = Ok f' /\
    f_n f' = f_n f /\ f_dim f' = f_dim f /\ f_x f' = f_x f /\
    forall j l, f_P f' j l = if on_prog start step k j && Nat.eqb j l then v else f_P f j l.
Proof.
  induction k as [|k IH]; intros f start H.
  - exists f. repeat split; reflexivity.
  - cbn [all_beacons]. unfold put_P at 1.
    assert (H0 : start < f_dim f) by (specialize (H 0); lia).
    destruct (Nat.ltb_spec start (f_dim f)); [|lia]. cbn [obind].
    destruct (IH (Filt (f_n f) (f_dim f) (f_x f) (fun j k0 => if (j =? start) && (k0 =? start) then v else f_P f j k0)%bool) (start + step))
      as (f' & E & En & Ed & EP & Ex).
    { intros i Hi. cbn [f_dim]. specialize (H (S i)). lia. }
    exists f'. split; [exact E|]. cbn in En, Ed, EP, Ex. repeat split; try assumption.
    intros j l. rewrite Ex, on_prog_S.
    destruct (on_prog (start + step) step k j) eqn:O; simpl; rewrite ?orb_true_r, ?orb_false_r; simpl.
    + destruct (Nat.eqb_spec j l); [reflexivity|].
      destruct (Nat.eqb_spec j start); destruct (Nat.eqb_spec l start); simpl; try reflexivity; lia.
    + destruct (Nat.eqb_spec j start); destruct (Nat.eqb_spec l start); destruct (Nat.eqb_spec j l);
        simpl; try reflexivity; lia.
Qed.

Lemma loop_x2 a d k : forall f start,
  (forall i, i < k -> start + i * 3 + 1 < f_dim f) ->
  exists f', all_beacons (fun f i => do f' <- put_x f i a; put_x f' (i + 1) d) f start 3 k = Ok f' /\
    f_n f' = f_n f /\ f_dim f' = f_dim f /\ f_P f' = f_P f /\
    forall j, f_x f' j = if on_prog start 3 k j then a else if on_prog (start + 1) 3 k j then d else f_x f j.
Proof.
  induction k as [|k IH]; intros f start H.
  - exists f. repeat split; reflexivity.
  - cbn [all_beacons]. unfold put_x at 1.
    assert (H0 : start + 1 < f_dim f) by (specialize (H 0); lia).
    destruct (Nat.ltb_spec start (f_dim f)); [|lia]. cbn [obind].
    unfold put_x at 1. cbn [f_dim]. destruct (Nat.ltb_spec (start + 1) (f_dim f)); [|lia]. cbn [obind].
    match goal with |- context [all_beacons _ ?g (start + 3) 3 k] =>
      destruct (IH g (start + 3)) as (f' & E & En & Ed & EP & Ex) end.
    { intros i Hi. cbn [f_dim]. specialize (H (S i)). lia. }
    exists f'. split; [exact E|]. cbn in En, Ed, EP, Ex. repeat split; try assumption.
    intros j. rewrite Ex, !on_prog_S. replace (start + 1 + 3) with (start + 3 + 1) by lia.
    destruct (on_prog (start + 3) 3 k j) eqn:O1; [rewrite orb_true_r; reflexivity|].
    rewrite orb_false_r.
    destruct (on_prog (start + 3 + 1) 3 k j) eqn:O2.
    + rewrite orb_true_r. destruct (Nat.eqb_spec j start) as [->|]; [|reflexivity].
      apply on_prog_true in O2. destruct O2 as (i & _ & O2). lia.
    + rewrite orb_false_r. destruct (Nat.eqb_spec j start) as [->|]; [|reflexivity].
      destruct (Nat.eqb_spec start (start + 1)); [lia|reflexivity].
Qed.

Lemma loop_P2 a d k : forall f start,
  (forall i, i < k -> start + i * 3 + 1 < f_dim f) ->
  exists f', all_beacons (fun f i => do f' <- put_P f i a; put_P f' (i + 1) d) f start 3 k = Ok f' /\
    f_n f' = f_n f /\ f_dim f' = f_dim f /\ f_x f' = f_x f /\
    forall j l, f_P f' j l = if Nat.eqb j l then
       (if on_prog start 3 k j then a else if on_prog (start + 1) 3 k j then d else f_P f j l) else f_P f j l.
Proof.
  induction k as [|k IH]; intros f start H.
  - exists f. repeat split; try reflexivity. intros j l. cbn. destruct (j =? l); reflexivity.
  - cbn [all_beacons]. unfold put_P at 1.
    assert (H0 : start + 1 < f_dim f) by (specialize (H 0); lia).
    destruct (Nat.ltb_spec start (f_dim f)); [|lia]. cbn [obind].
    unfold put_P at 1. cbn [f_dim]. destruct (Nat.ltb_spec (start + 1) (f_dim f)); [|lia]. cbn [obind].
    match goal with |- context [all_beacons _ ?g (start + 3) 3 k] =>
      destruct (IH g (start + 3)) as (f' & E & En & Ed & EP & Ex) end.
    { intros i Hi. cbn [f_dim]. specialize (H (S i)). lia. }
    exists f'. split; [exact E|]. cbn in En, Ed, EP, Ex. repeat split; try assumption.
    intros j l. rewrite Ex, !on_prog_S. replace (start + 1 + 3) with (start + 3 + 1) by lia.
    destruct (Nat.eqb_spec j l) as [<-|N].
    + destruct (on_prog (start + 3) 3 k j) eqn:O1; [rewrite orb_true_r; reflexivity|].
      rewrite orb_false_r.
      destruct (on_prog (start + 3 + 1) 3 k j) eqn:O2.
      * rewrite orb_true_r. destruct (Nat.eqb_spec j start) as [->|]; [|reflexivity].
        apply on_prog_true in O2. destruct O2 as (i & _ & O2). lia.
      * rewrite orb_false_r. destruct (Nat.eqb_spec j (start + 1)) as [->|]; simpl.
        -- destruct (Nat.eqb_spec (start + 1) start); [lia|reflexivity].
        -- rewrite andb_diag. reflexivity.
    + destruct (Nat.eqb_spec j (start + 1)); destruct (Nat.eqb_spec l (start + 1)); simpl; try lia;
      destruct (Nat.eqb_spec j start); destruct (Nat.eqb_spec l start); simpl; try reflexivity; lia.
Qed.

(* membership of a parameter's index in a progression *)
Lemma prog_index Np m n (mk : nat -> param) step :
  (forall b, index Np m (mk b) = index Np m (mk 0) + b * step) ->
  (forall b, b < n -> param_ok Np m n (mk b)) ->
  forall q, param_ok Np m n q ->
  on_prog (index Np m (mk 0)) step n (index Np m q) = true <-> exists b, b < n /\ q = mk b.
Proof.
  intros Hs Hok q Hq. rewrite on_prog_true. split.
  - intros (i & Hi & E). exists i. split; [exact Hi|].
    eapply layout_injective; [exact Hq|apply Hok, Hi|]. rewrite E, <- Hs. reflexivity.
  - intros (b & Hb & ->). exists b. split; [exact Hb|apply Hs].
Qed.

Lemma put_x_sets Np m f q0 v : wf Np m f -> param_ok Np m (f_n f) q0 ->
  exists f', put_x f (index Np m q0) v = Ok f' /\ f_n f' = f_n f /\ f_dim f' = f_dim f /\ f_P f' = f_P f /\
   forall q, param_ok Np m (f_n f) q ->
     (q = q0 -> f_x f' (index Np m q) = v) /\ (q <> q0 -> f_x f' (index Np m q) = f_x f (index Np m q)).
Proof.
  intros W Hq0. unfold put_x. pose proof (layout_in_range _ _ _ _ Hq0) as R. rewrite <- W in R.
  destruct (Nat.ltb_spec (index Np m q0) (f_dim f)); [|lia].
  eexists. split; [reflexivity|]. cbn. repeat split; try reflexivity.
  - intros ->. rewrite Nat.eqb_refl. reflexivity.
  - intros N. destruct (Nat.eqb_spec (index Np m q) (index Np m q0)) as [E|]; [|reflexivity].
    exfalso. apply N. eapply layout_injective; eassumption.
Qed.

Lemma put_P_sets Np m f q0 v : wf Np m f -> param_ok Np m (f_n f) q0 ->
  exists f', put_P f (index Np m q0) v = Ok f' /\ f_n f' = f_n f /\ f_dim f' = f_dim f /\ f_x f' = f_x f /\
   forall q1 q2, param_ok Np m (f_n f) q1 -> param_ok Np m (f_n f) q2 ->
     (q1 = q0 -> q2 = q0 -> f_P f' (index Np m q1) (index Np m q2) = v) /\
     (q1 <> q0 \/ q2 <> q0 -> f_P f' (index Np m q1) (index Np m q2) = f_P f (index Np m q1) (index Np m q2)).
Proof.
  intros W Hq0. unfold put_P. pose proof (layout_in_range _ _ _ _ Hq0) as R. rewrite <- W in R.
  destruct (Nat.ltb_spec (index Np m q0) (f_dim f)); [|lia].
  eexists. split; [reflexivity|]. cbn. repeat split; try reflexivity.
  - intros -> ->. rewrite Nat.eqb_refl. reflexivity.
  - intros N. destruct (Nat.eqb_spec (index Np m q1) (index Np m q0)) as [E1|]; [|reflexivity].
    destruct (Nat.eqb_spec (index Np m q2) (index Np m q0)) as [E2|]; [|reflexivity].
    exfalso. destruct N as [N|N]; apply N; eapply layout_injective; eassumption.
Qed.

Lemma param_eq_dec (a b : param) : {a = b} + {a <> b}.
Proof. decide equality; apply Nat.eq_dec. Qed.

(* single beacon *)
Lemma tropo_single Np m f v b : wf Np m f -> b < f_n f ->
  (exists f', set_tropo_apriori Np m f v (Some b) = Ok f' /\ sets_x Np m f f' (sel_tropo v (Some b))) /\
  (exists f', set_tropo_apriori_sigma Np m f v (Some b) = Ok f' /\ sets_P Np m f f' (sel_tropo v (Some b))).
Proof.
  intros W Hb. split.
  - destruct (put_x_sets Np m f (PTropo b) v W Hb) as (f' & E & En & Ed & EP & Ex).
    exists f'. split; [exact E|]. repeat split; try assumption.
    intros q Hq. destruct (Ex q Hq) as [A B].
    destruct (param_eq_dec q (PTropo b)) as [->|N].
    + cbn [sel_tropo]. rewrite Nat.eqb_refl. apply A. reflexivity.
    + rewrite (B N). destruct q as [c|p|c|c|c]; cbn [sel_tropo]; try reflexivity.
      destruct (Nat.eqb_spec c b); [congruence|reflexivity].
  - destruct (put_P_sets Np m f (PTropo b) v W Hb) as (f' & E & En & Ed & EP & Ex).
    exists f'. split; [exact E|]. repeat split; try assumption.
    intros q1 q2 Hq1 Hq2. destruct (Ex q1 q2 Hq1 Hq2) as [A B].
    destruct (param_eq_dec q1 (PTropo b)) as [->|N].
    + cbn [sel_tropo]. rewrite Nat.eqb_refl.
      destruct (param_eq_dec q2 (PTropo b)) as [->|N2].
      * rewrite Nat.eqb_refl. apply A; reflexivity.
      * rewrite B by (right; exact N2).
        destruct (Nat.eqb_spec (index Np m (PTropo b)) (index Np m q2)) as [E2|]; [|reflexivity].
        exfalso. apply N2. symmetry. eapply layout_injective; eassumption.
    + rewrite B by (left; exact N). destruct q1 as [c|p|c|c|c]; cbn [sel_tropo]; try reflexivity.
      destruct (Nat.eqb_spec c b); [congruence|reflexivity].
Qed.

Lemma index_bound Np m f q : wf Np m f -> param_ok Np m (f_n f) q -> index Np m q < f_dim f.
Proof. intros W H. rewrite W. apply layout_in_range, H. Qed.

(* all beacons, generic in what the loop addresses *)
Lemma all_x Np m f mk step v sel : wf Np m f ->
  (forall b, index Np m (mk b) = index Np m (mk 0) + b * step) ->
  (forall b, b < f_n f -> param_ok Np m (f_n f) (mk b)) ->
  (forall q, param_ok Np m (f_n f) q -> sel q = if on_prog (index Np m (mk 0)) step (f_n f) (index Np m q) then Some v else None) ->
  exists f', all_beacons (fun f i => put_x f i v) f (index Np m (mk 0)) step (f_n f) = Ok f' /\
             sets_x Np m f f' sel.
Proof.
  intros W Hs Hok Hsel.
  destruct (loop_x v step (f_n f) f (index Np m (mk 0))) as (f' & E & En & Ed & EP & Ex).
  { intros i Hi. rewrite <- Hs. apply index_bound; auto. }
  exists f'. split; [exact E|]. repeat split; try assumption.
  intros q Hq. rewrite Ex, (Hsel q Hq). destruct (on_prog _ _ _ _); reflexivity.
Qed.
Lemma all_P Np m f mk step v sel : wf Np m f ->
  (forall b, index Np m (mk b) = index Np m (mk 0) + b * step) ->
  (forall b, b < f_n f -> param_ok Np m (f_n f) (mk b)) ->
  (forall q, param_ok Np m (f_n f) q -> sel q = if on_prog (index Np m (mk 0)) step (f_n f) (index Np m q) then Some v else None) ->
  exists f', all_beacons (fun f i => put_P f i v) f (index Np m (mk 0)) step (f_n f) = Ok f' /\
             sets_P Np m f f' sel.
Proof.
  intros W Hs Hok Hsel.
  destruct (loop_P v step (f_n f) f (index Np m (mk 0))) as (f' & E & En & Ed & EP & Ex).
  { intros i Hi. rewrite <- Hs. apply index_bound; auto. }
  exists f'. split; [exact E|]. repeat split; try assumption.
  intros q1 q2 Hq1 Hq2. rewrite Ex, (Hsel q1 Hq1). destruct (on_prog _ _ _ _); reflexivity.
Qed.

Lemma sel_by_prog Np m n mk step (v : V) (sel : param -> option V) :
  (forall b, index Np m (mk b) = index Np m (mk 0) + b * step) ->
  (forall b, b < n -> param_ok Np m n (mk b)) ->
  (forall b, b < n -> sel (mk b) = Some v) ->
  (forall q, param_ok Np m n q -> (forall b, q <> mk b) -> sel q = None) ->
  (forall q, param_ok Np m n q -> (exists b, b < n /\ q = mk b) \/ (forall b, q <> mk b)) ->
  forall q, param_ok Np m n q ->
   sel q = if on_prog (index Np m (mk 0)) step n (index Np m q) then Some v else None.
Proof.
  intros Hs Hok H1 H2 H3 q Hq. destruct (H3 q Hq) as [(b & Hb & ->)|N].
  - rewrite (proj2 (prog_index Np m n mk step Hs Hok (mk b) (Hok b Hb))) by eauto. apply H1, Hb.
  - rewrite (H2 q Hq N). destruct (on_prog _ _ _ _) eqn:O; [|reflexivity].
    apply (prog_index Np m n mk step Hs Hok q Hq) in O. destruct O as (b & _ & ->). exfalso. apply (N b). reflexivity.
Qed.

Lemma tropo_all_none Np f v : wf Np CNone f ->
  (exists f', set_tropo_apriori Np CNone f v None = Ok f' /\ sets_x Np CNone f f' (sel_tropo v None)) /\
  (exists f', set_tropo_apriori_sigma Np CNone f v None = Ok f' /\ sets_P Np CNone f f' (sel_tropo v None)).
Proof.
  intros W.
  assert (Hs : forall b, index Np CNone (PTropo b) = index Np CNone (PTropo 0) + b * 2) by (intros b; cbn; lia).
  assert (Hsel := sel_by_prog Np CNone (f_n f) PTropo 2 v (sel_tropo v None) Hs (fun b H => H) (fun b H => eq_refl)).
  assert (H2 : forall q, param_ok Np CNone (f_n f) q -> (forall b, q <> PTropo b) -> sel_tropo v None q = None).
  { intros q _ N. destruct q; try reflexivity. exfalso. eapply N. reflexivity. }
  assert (H3 : forall q, param_ok Np CNone (f_n f) q -> (exists b, b < f_n f /\ q = PTropo b) \/ (forall b, q <> PTropo b)).
  { intros q Hq. destruct q; try (right; congruence). left. eexists. split; [exact Hq|reflexivity]. }
  specialize (Hsel H2 H3). split.
  - apply (all_x Np CNone f PTropo 2 v (sel_tropo v None) W Hs (fun b H => H) Hsel).
  - apply (all_P Np CNone f PTropo 2 v (sel_tropo v None) W Hs (fun b H => H) Hsel).
Qed.

Lemma rf_all_none Np f a : wf Np CNone f ->
  (exists f', set_rfoff_apriori_none Np f a None = Ok f' /\ sets_x Np CNone f f' (sel_rf a a None)) /\
  (exists f', set_rfoff_apriori_sigma_none Np f a None = Ok f' /\ sets_P Np CNone f f' (sel_rf a a None)).
Proof.
  intros W.
  assert (Hs : forall b, index Np CNone (PRf b) = index Np CNone (PRf 0) + b * 2) by (intros b; cbn; lia).
  assert (Hsel := sel_by_prog Np CNone (f_n f) PRf 2 a (sel_rf a a None) Hs (fun b H => H) (fun b H => eq_refl)).
  assert (H2 : forall q, param_ok Np CNone (f_n f) q -> (forall b, q <> PRf b) -> sel_rf a a None q = None).
  { intros q Hq N. destruct q; try reflexivity. - exfalso. eapply N. reflexivity. - destruct Hq. discriminate. }
  assert (H3 : forall q, param_ok Np CNone (f_n f) q -> (exists b, b < f_n f /\ q = PRf b) \/ (forall b, q <> PRf b)).
  { intros q Hq. destruct q; try (right; congruence). left. eexists. split; [exact Hq|reflexivity]. }
  specialize (Hsel H2 H3). split.
  - apply (all_x Np CNone f PRf 2 a (sel_rf a a None) W Hs (fun b H => H) Hsel).
  - apply (all_P Np CNone f PRf 2 a (sel_rf a a None) W Hs (fun b H => H) Hsel).
Qed.

Lemma rf_all_linear Np f a d : wf Np CLinear f ->
  (exists f', set_rfoff_apriori_linear Np f a d None = Ok f' /\ sets_x Np CLinear f f' (sel_rf a d None)) /\
  (exists f', set_rfoff_apriori_sigma_linear Np f a d None = Ok f' /\ sets_P Np CLinear f f' (sel_rf a d None)).
Proof.
  intros W.
  assert (Hb : forall i, i < f_n f -> rfoff_index Np CLinear 0 + i * 3 + 1 < f_dim f).
  { intros i Hi. rewrite W. unfold rfoff_index, num_params. lia. }
  assert (P1 : forall q, param_ok Np CLinear (f_n f) q ->
     on_prog (rfoff_index Np CLinear 0) 3 (f_n f) (index Np CLinear q) = true <-> exists b, b < f_n f /\ q = PRf b).
  { apply (prog_index Np CLinear (f_n f) PRf 3); [intros b; cbn; lia|intros b H; exact H]. }
  assert (P2 : forall q, param_ok Np CLinear (f_n f) q ->
     on_prog (rfoff_index Np CLinear 0 + 1) 3 (f_n f) (index Np CLinear q) = true <-> exists b, b < f_n f /\ q = PDrift b).
  { apply (prog_index Np CLinear (f_n f) PDrift 3); [intros b; cbn; unfold drift_index, rfoff_index; lia|
      intros b H; split; [reflexivity|exact H]]. }
  assert (Sel : forall q, param_ok Np CLinear (f_n f) q ->
     forall w : V, (if on_prog (rfoff_index Np CLinear 0) 3 (f_n f) (index Np CLinear q) then a
      else if on_prog (rfoff_index Np CLinear 0 + 1) 3 (f_n f) (index Np CLinear q) then d else w)
     = match sel_rf a d None q with Some v => v | None => w end).
  { intros q Hq w. specialize (P1 q Hq). specialize (P2 q Hq).
    destruct (on_prog (rfoff_index Np CLinear 0) 3 _ _).
    - destruct (proj1 P1 eq_refl) as (b & _ & ->). reflexivity.
    - destruct (on_prog (rfoff_index Np CLinear 0 + 1) 3 _ _).
      + destruct (proj1 P2 eq_refl) as (b & _ & ->). reflexivity.
      + destruct q as [c|p|b|b|b]; try reflexivity.
        * assert (false = true) by (apply P1; exists b; split; [exact Hq|reflexivity]). discriminate.
        * assert (false = true) by (apply P2; exists b; split; [exact (proj2 Hq)|reflexivity]). discriminate. }
  split.
  - destruct (loop_x2 a d (f_n f) f (rfoff_index Np CLinear 0) Hb) as (f' & E & En & Ed & EP & Ex).
    exists f'. split; [exact E|]. repeat split; try assumption.
    intros q Hq. rewrite Ex. apply Sel, Hq.
  - destruct (loop_P2 a d (f_n f) f (rfoff_index Np CLinear 0) Hb) as (f' & E & En & Ed & EP & Ex).
    exists f'. split; [exact E|]. repeat split; try assumption.
    intros q1 q2 Hq1 Hq2. rewrite Ex, (Sel q1 Hq1).
    destruct (sel_rf a d None q1); destruct (index Np CLinear q1 =? index Np CLinear q2); reflexivity.
Qed.

(* single-beacon frequency offsets *)
Lemma rf_single_linear Np f a d b : wf Np CLinear f -> b < f_n f ->
  (exists f', set_rfoff_apriori_linear Np f a d (Some b) = Ok f' /\ sets_x Np CLinear f f' (sel_rf a d (Some b))) /\
  (exists f', set_rfoff_apriori_sigma_linear Np f a d (Some b) = Ok f' /\ sets_P Np CLinear f f' (sel_rf a d (Some b))).
Proof.
  intros W Hb. split.
  - destruct (put_x_sets Np CLinear f (PRf b) a W Hb) as (f1 & E1 & En1 & Ed1 & EP1 & Ex1).
    assert (W1 : wf Np CLinear f1) by (unfold wf; rewrite En1, Ed1; exact W).
    assert (Hb1 : param_ok Np CLinear (f_n f1) (PDrift b)) by (rewrite En1; split; [reflexivity|exact Hb]).
    destruct (put_x_sets Np CLinear f1 (PDrift b) d W1 Hb1) as (f2 & E2 & En2 & Ed2 & EP2 & Ex2).
    exists f2. split.
    { unfold set_rfoff_apriori_linear. change (rfoff_index Np CLinear b) with (index Np CLinear (PRf b)) at 1.
      cbn [index] in *. rewrite E1. cbn [obind]. exact E2. }
    split; [congruence|]. split; [congruence|]. split; [congruence|].
    intros q Hq. assert (Hq1 : param_ok Np CLinear (f_n f1) q) by (rewrite En1; exact Hq).
    destruct (Ex1 q Hq) as [A1 B1]. destruct (Ex2 q Hq1) as [A2 B2].
    destruct (param_eq_dec q (PDrift b)) as [->|N2]; [cbn [sel_rf]; rewrite Nat.eqb_refl; auto|].
    rewrite (B2 N2). destruct (param_eq_dec q (PRf b)) as [->|N1]; [cbn [sel_rf]; rewrite Nat.eqb_refl; auto|].
    rewrite (B1 N1). destruct q as [c|p|c|c|c]; cbn [sel_rf]; try reflexivity;
      destruct (Nat.eqb_spec c b); try reflexivity; congruence.
  - destruct (put_P_sets Np CLinear f (PRf b) a W Hb) as (f1 & E1 & En1 & Ed1 & EP1 & Ex1).
    assert (W1 : wf Np CLinear f1) by (unfold wf; rewrite En1, Ed1; exact W).
    assert (Hb1 : param_ok Np CLinear (f_n f1) (PDrift b)) by (rewrite En1; split; [reflexivity|exact Hb]).
    destruct (put_P_sets Np CLinear f1 (PDrift b) d W1 Hb1) as (f2 & E2 & En2 & Ed2 & EP2 & Ex2).
    exists f2. split.
    { unfold set_rfoff_apriori_sigma_linear. cbn [index] in *. rewrite E1. cbn [obind]. exact E2. }
    split; [congruence|]. split; [congruence|]. split; [congruence|].
    intros q1 q2 Hq1 Hq2.
    assert (Hq11 : param_ok Np CLinear (f_n f1) q1) by (rewrite En1; exact Hq1).
    assert (Hq21 : param_ok Np CLinear (f_n f1) q2) by (rewrite En1; exact Hq2).
    destruct (Ex1 q1 q2 Hq1 Hq2) as [A1 B1]. destruct (Ex2 q1 q2 Hq11 Hq21) as [A2 B2].
    assert (J : index Np CLinear q1 = index Np CLinear q2 -> q1 = q2).
    { intros E. eapply layout_injective; eassumption. }
    destruct (param_eq_dec q1 q2) as [<-|N].
    + rewrite Nat.eqb_refl.
      destruct (param_eq_dec q1 (PDrift b)) as [->|N2]; [cbn [sel_rf]; rewrite Nat.eqb_refl; auto|].
      rewrite B2 by (left; exact N2).
      destruct (param_eq_dec q1 (PRf b)) as [->|N1]; [cbn [sel_rf]; rewrite Nat.eqb_refl; auto|].
      rewrite B1 by (left; exact N1). destruct q1 as [c|p|c|c|c]; cbn [sel_rf]; try reflexivity;
      destruct (Nat.eqb_spec c b); try reflexivity; congruence.
    + destruct (Nat.eqb_spec (index Np CLinear q1) (index Np CLinear q2)) as [E|_]; [apply J in E; contradiction|].
      rewrite B2, B1; [destruct (sel_rf a d (Some b) q1); reflexivity| |];
        [destruct (param_eq_dec q1 (PRf b)); [right|left]|destruct (param_eq_dec q1 (PDrift b)); [right|left]]; congruence.
Qed.

Lemma rf_single_none Np f a b : wf Np CNone f -> b < f_n f ->
  (exists f', set_rfoff_apriori_none Np f a (Some b) = Ok f' /\ sets_x Np CNone f f' (sel_rf a a (Some b))) /\
  (exists f', set_rfoff_apriori_sigma_none Np f a (Some b) = Ok f' /\ sets_P Np CNone f f' (sel_rf a a (Some b))).
Proof.
  intros W Hb. split.
  - destruct (put_x_sets Np CNone f (PRf b) a W Hb) as (f1 & E1 & En1 & Ed1 & EP1 & Ex1).
    exists f1. split; [exact E1|]. repeat split; try assumption.
    intros q Hq. destruct (Ex1 q Hq) as [A1 B1].
    destruct (param_eq_dec q (PRf b)) as [->|N1]; [cbn [sel_rf]; rewrite Nat.eqb_refl; auto|].
    rewrite (B1 N1). destruct q as [c|p|c|c|c]; cbn [sel_rf]; try reflexivity.
    + destruct (Nat.eqb_spec c b); try reflexivity; congruence.
    + destruct Hq as [X _]. discriminate X.
  - destruct (put_P_sets Np CNone f (PRf b) a W Hb) as (f1 & E1 & En1 & Ed1 & EP1 & Ex1).
    exists f1. split; [exact E1|]. repeat split; try assumption.
    intros q1 q2 Hq1 Hq2. destruct (Ex1 q1 q2 Hq1 Hq2) as [A1 B1].
    assert (J : index Np CNone q1 = index Np CNone q2 -> q1 = q2).
    { intros E. eapply layout_injective; eassumption. }
    destruct (param_eq_dec q1 q2) as [<-|N].
    + rewrite Nat.eqb_refl. destruct (param_eq_dec q1 (PRf b)) as [->|N1]; [cbn [sel_rf]; rewrite Nat.eqb_refl; auto|].
      rewrite B1 by (left; exact N1). destruct q1 as [c|p|c|c|c]; cbn [sel_rf]; try reflexivity.
      * destruct (Nat.eqb_spec c b); try reflexivity; congruence.
      * destruct Hq1 as [X _]. discriminate X.
    + destruct (Nat.eqb_spec (index Np CNone q1) (index Np CNone q2)) as [E|_]; [apply J in E; contradiction|].
      rewrite B1; [destruct (sel_rf a a (Some b) q1); reflexivity|].
      destruct (param_eq_dec q1 (PRf b)); [right|left]; congruence.
Qed.

Lemma drag_ok Np m f v : wf Np m f -> 1 <= Np ->
  (exists f', set_drag_coef_apriori f v = Ok f' /\ sets_x Np m f f' (sel_drag v)) /\
  (exists f', set_drag_coef_apriori_sigma f v = Ok f' /\ sets_P Np m f f' (sel_drag v)).
Proof.
  intros W HNp. assert (P0 : param_ok Np m (f_n f) (PForce 0)) by exact HNp. split.
  - destruct (put_x_sets Np m f (PForce 0) v W P0) as (f1 & E1 & En1 & Ed1 & EP1 & Ex1).
    exists f1. split; [exact E1|]. repeat split; try assumption.
    intros q Hq. destruct (Ex1 q Hq) as [A1 B1].
    destruct (param_eq_dec q (PForce 0)) as [->|N1]; [cbn; auto|].
    rewrite (B1 N1). destruct q as [c|[|p]|c|c|c]; cbn [sel_drag]; try reflexivity. congruence.
  - destruct (put_P_sets Np m f (PForce 0) v W P0) as (f1 & E1 & En1 & Ed1 & EP1 & Ex1).
    exists f1. split; [exact E1|]. repeat split; try assumption.
    intros q1 q2 Hq1 Hq2. destruct (Ex1 q1 q2 Hq1 Hq2) as [A1 B1].
    assert (J : index Np m q1 = index Np m q2 -> q1 = q2).
    { intros E. eapply layout_injective; eassumption. }
    destruct (param_eq_dec q1 q2) as [<-|N].
    + rewrite Nat.eqb_refl. destruct (param_eq_dec q1 (PForce 0)) as [->|N1]; [cbn; auto|].
      rewrite B1 by (left; exact N1). destruct q1 as [c|[|p]|c|c|c]; cbn [sel_drag]; try reflexivity. congruence.
    + destruct (Nat.eqb_spec (index Np m q1) (index Np m q2)) as [E|_]; [apply J in E; contradiction|].
      rewrite B1; [destruct (sel_drag v q1); reflexivity|].
      destruct (param_eq_dec q1 (PForce 0)); [right|left]; congruence.
Qed.

(* Linear model, all beacons: right with at most one beacon *)
Lemma tropo_all_linear_one Np f v : wf Np CLinear f -> f_n f <= 1 ->
  (exists f', set_tropo_apriori Np CLinear f v None = Ok f' /\ sets_x Np CLinear f f' (sel_tropo v None)) /\
  (exists f', set_tropo_apriori_sigma Np CLinear f v None = Ok f' /\ sets_P Np CLinear f f' (sel_tropo v None)).
Proof.
  intros W H1. destruct (f_n f) as [|[|k]] eqn:N; [| |lia].
  - assert (Sx : forall q, param_ok Np CLinear 0 q -> sel_tropo v None q = None).
    { intros q Hq. destruct q; try reflexivity. cbn in Hq. lia. }
    split.
    + exists f. unfold set_tropo_apriori. rewrite N. split; [reflexivity|]. repeat split.
      intros q Hq. rewrite N in Hq. rewrite (Sx q Hq). reflexivity.
    + exists f. unfold set_tropo_apriori_sigma. rewrite N. split; [reflexivity|]. repeat split.
      intros q1 q2 Hq1 _. rewrite N in Hq1. rewrite (Sx q1 Hq1). reflexivity.
  - assert (Hb : 0 < f_n f) by lia.
    assert (S1 : forall q, param_ok Np CLinear (f_n f) q -> sel_tropo v (Some 0) q = sel_tropo v None q).
    { intros q Hq. destruct q as [c|p|b|b|b]; try reflexivity. cbn in Hq. replace b with 0 by lia. reflexivity. }
    destruct (tropo_single Np CLinear f v 0 W Hb) as [(f1 & E1 & En1 & Ed1 & EP1 & Ex1) (f2 & E2 & En2 & Ed2 & EP2 & Ex2)].
    split.
    + exists f1. split.
      { unfold set_tropo_apriori in *. rewrite N. cbn [all_beacons]. rewrite E1. reflexivity. }
      repeat split; try assumption. intros q Hq. rewrite (Ex1 q Hq), (S1 q Hq). reflexivity.
    + exists f2. split.
      { unfold set_tropo_apriori_sigma in *. rewrite N. cbn [all_beacons]. rewrite E2. reflexivity. }
      repeat split; try assumption. intros q1 q2 Hq1 Hq2. rewrite (Ex2 q1 q2 Hq1 Hq2), (S1 q1 Hq1). reflexivity.
Qed.

(* the reading back of any estimate through its index *)
Lemma linear_estimate Np (f : filt Z) b dt : f_dim f = num_params Np CLinear (f_n f) -> b < f_n f ->
  rfoff_estimate_linear Np f b dt =
  Ok (f_x f (index Np CLinear (PRf b)) + dt * f_x f (index Np CLinear (PDrift b)))%Z.
Proof.
  intros W H. unfold rfoff_estimate_linear. cbn [index]. unfold drift_index.
  destruct (Nat.ltb_spec (rfoff_index Np CLinear b + 1) (f_dim f)) as [|G]; [reflexivity|].
  exfalso. rewrite W in G. unfold rfoff_index, num_params in G. lia.
Qed.
End V.

(* Linear model with two beacons or more: some tropospheric parameter is not
   set and some other parameter is overwritten, for every filter. *)
Lemma tropo_all_linear_bad Np n (x0 : nat -> Z) (P0 : nat -> nat -> Z) v : 2 <= n ->
  exists f', set_tropo_apriori Np CLinear (filt_new Np CLinear n x0 P0) v None = Ok f' /\
   f_x f' (index Np CLinear (PDrift 0)) = v /\
   f_x f' (index Np CLinear (PTropo (n - 1))) = (if Nat.eqb ((n - 1) mod 2) 0 && (3 * (n - 1) <? 2 * n) then v
       else x0 (index Np CLinear (PTropo (n - 1)))).
Proof.
  intros Hn. unfold set_tropo_apriori, filt_new. cbn [f_n].
  destruct (loop_x Z v 2 n (Filt n (num_params Np CLinear n) x0 P0) (tropo_index Np CLinear 0))
    as (f' & E & _ & _ & _ & Ex).
  { intros i Hi. cbn. unfold num_params. lia. }
  exists f'. split; [exact E|]. split.
  - rewrite Ex. replace (on_prog (tropo_index Np CLinear 0) 2 n (index Np CLinear (PDrift 0))) with true; [reflexivity|].
    symmetry. apply on_prog_true. exists 1. split; [lia|]. cbn. unfold drift_index, rfoff_index. lia.
  - rewrite Ex. cbn [f_x]. destruct (on_prog _ 2 n (index Np CLinear (PTropo (n - 1)))) eqn:O.
    + apply on_prog_true in O. destruct O as (i & Hi & O). cbn in O.
      assert (E3 : 3 * (n - 1) = 2 * i) by lia.
      destruct (Nat.eqb_spec ((n - 1) mod 2) 0) as [M|M].
      * destruct (Nat.ltb_spec (3 * (n - 1)) (2 * n)); [reflexivity|lia].
      * exfalso. apply M. pose proof (Nat.mod_upper_bound (n - 1) 2 ltac:(lia)).
        pose proof (Nat.div_mod (n - 1) 2 ltac:(lia)). lia.
    + destruct (Nat.eqb_spec ((n - 1) mod 2) 0) as [M|M]; [|reflexivity].
      destruct (Nat.ltb_spec (3 * (n - 1)) (2 * n)); [|reflexivity].
      exfalso. assert (on_prog (tropo_index Np CLinear 0) 2 n (index Np CLinear (PTropo (n - 1))) = true); [|congruence].
      apply on_prog_true. pose proof (Nat.div_mod (n - 1) 2 ltac:(lia)).
      exists (3 * ((n - 1) / 2)). cbn. lia.
Qed.

Lemma tropo_all_linear_refuted : exists (f : filt Z) v,
  wf Z 1 CLinear f /\
  ~ exists f', set_tropo_apriori 1 CLinear f v None = Ok f' /\ sets_x Z 1 CLinear f f' (sel_tropo Z v None).
Proof.
  exists (filt_new 1 CLinear 2 (fun _ => 0%Z) (fun _ _ => 0%Z)), 5%Z.
  split; [reflexivity|]. intros (f' & E & _ & _ & _ & H).
  vm_compute in E. injection E as <-.
  specialize (H (PTropo 1) ltac:(cbn; lia)). vm_compute in H. discriminate.
Qed.

Example wf_case : wf Z 1 CNone (filt_new 1 CNone 3 (fun _ => 0%Z) (fun _ _ => 0%Z)).
Proof. reflexivity. Qed.
