(* The coefficient arrays of the code have what the history results ask for. *)
From Coq Require Import List QArith Qreals Reals Lra Lia Bool Qabs.
From Verif Require Import Msis_model Msis_proofs Msis_data.
Import ListNotations.
Local Open Scope R_scope.

Definition tol : Q := (1 # 1000000)%Q.
Definition farb (x y : Q) : bool := negb (Qle_bool (Qabs (x - y)) tol).
Definition apartb (x y : Q) : bool := Qeq_bool x y || farb x y.
Lemma far_ok x y : farb x y = true -> 0.000001 < Rabs (Q2R x - Q2R y).
Proof.
  unfold farb. rewrite negb_true_iff. intros H. apply not_true_iff_false in H. rewrite Qle_bool_iff in H. apply Qnot_le_lt, Qlt_Rlt in H.
  rewrite <- Q2R_minus. replace (Rabs (Q2R (x - y))) with (Q2R (Qabs (x - y))).
  - eapply Rle_lt_trans; [|exact H]. unfold tol, Q2R. cbn. lra.
  - apply Qabs_case; intros L; apply Qle_Rle in L; replace (Q2R 0) with 0 in L by (unfold Q2R; cbn; lra); [rewrite Rabs_right; [reflexivity|lra]|rewrite Q2R_opp, Rabs_left1; [reflexivity|lra]].
Qed.
Lemma apart_ok x y : apartb x y = true -> apart (Q2R x) (Q2R y).
Proof. unfold apartb. rewrite orb_true_iff. intros [H|H]; [left; apply Qeq_eqR, Qeq_bool_iff, H|right; apply far_ok, H]. Qed.
Definition col (k : nat) (l : list Q) : Q := nth k l 0%Q.
Definition all2 (f : list Q -> list Q -> bool) (L : list (list Q)) : bool := forallb (fun p => forallb (f p) L) L.
Lemma all2_ok f L p q : all2 f L = true -> In p L -> In q L -> f p q = true.
Proof. unfold all2. intros H P Q. rewrite forallb_forall in H. specialize (H p P). rewrite forallb_forall in H. exact (H q Q). Qed.
Definition list_g : list (list Q) := q_pt :: q_ps :: q_pd.
Definition list_s : list (list Q) := q_ptl ++ q_pma.
Lemma rows_g_code p : rows_g code_tables p -> exists l, In l list_g /\ p = real1 l.
Proof.
  intros [->|[->|(k & H & ->)]]; [exists q_pt; split; [left; reflexivity|reflexivity]|exists q_ps; split; [right; left; reflexivity|reflexivity]|].
  exists (nth k q_pd []). split; [right; right; apply nth_In; cbn [length q_pd]; lia|reflexivity].
Qed.
Lemma rows_s_code p : rows_s code_tables p -> exists l, In l list_s /\ p = real1 l.
Proof.
  unfold list_s. intros [(k & H & ->)|(k & H & ->)]; [exists (nth k q_ptl [])|exists (nth k q_pma [])]; (split; [apply in_or_app; (left; apply nth_In; cbn [length q_ptl]; lia) || (right; apply nth_In; cbn [length q_pma]; lia)|reflexivity]).
Qed.
Lemma code_ok : tables_ok code_tables.
Proof.
  constructor.
  - intros p q P Q. destruct (rows_g_code p P) as (l & L & ->), (rows_g_code q Q) as (l' & L' & ->).
    assert (A : all2 (fun a b => apartb (col 13 a) (col 13 b) && apartb (col 17 a) (col 17 b) && apartb (col 31 a) (col 31 b) && apartb (col 38 a) (col 38 b)) list_g = true) by (vm_compute; reflexivity).
    pose proof (all2_ok _ _ _ _ A L L') as H. rewrite !andb_true_iff in H. destruct H as [[[H1 H2] H3] H4]. repeat split; apply apart_ok; assumption.
  - intros p q P Q. destruct (rows_s_code p P) as (l & L & ->), (rows_s_code q Q) as (l' & L' & ->).
    assert (A : all2 (fun a b => apartb (col 13 a) (col 13 b) && apartb (col 17 a) (col 17 b) && apartb (col 31 a) (col 31 b)) list_s = true) by (vm_compute; reflexivity).
    pose proof (all2_ok _ _ _ _ A L L') as H. rewrite !andb_true_iff in H. destruct H as [[H1 H2] H3]. repeat split; apply apart_ok; assumption.
  - intros p q P Q N. destruct (rows_s_code p P) as (l & L & ->), (rows_s_code q Q) as (l' & L' & ->).
    assert (A : all2 (fun a b => Qeq_bool (col 37 a) 0 || farb (col 39 b) (col 38 a)) list_s = true) by (vm_compute; reflexivity).
    pose proof (all2_ok _ _ _ _ A L L') as H. rewrite orb_true_iff in H. destruct H as [H|H]; [|apply far_ok, H]. exfalso. apply N. apply Qeq_bool_iff, Qeq_eqR in H. unfold real1. unfold col in H. rewrite H. unfold Q2R. cbn. lra.
  - intros p P. destruct (rows_g_code p P) as (l & L & ->). assert (A : forallb (fun a => Qeq_bool (col 51 a) 0 || farb (col 51 a) 0) list_g = true) by (vm_compute; reflexivity). rewrite forallb_forall in A. specialize (A l L). rewrite orb_true_iff in A.
    replace 0 with (Q2R 0) by (unfold Q2R; cbn; lra). destruct A as [A|A]; [left; apply Qeq_eqR, Qeq_bool_iff, A|right]. apply far_ok in A. replace (Q2R 0) with 0 in A by (unfold Q2R; cbn; lra). rewrite Rminus_0_r in A. exact A.
  - assert (F : forall a, farb a 0 = true -> 0.000001 < Rabs (Q2R a)) by (intros a A; apply far_ok in A; replace (Q2R 0) with 0 in A by (unfold Q2R; cbn; lra); rewrite Rminus_0_r in A; exact A).
    split; [|split]; apply F; vm_compute; reflexivity.
  - cbn [pdl code_tables]. unfold real2. replace 110 with (Q2R 110) by (unfold Q2R; cbn; lra). apply Qlt_Rlt. vm_compute. reflexivity.
Qed.
