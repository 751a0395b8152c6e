From Coq Require Import String List Arith Ascii Bool Lia.
From Verif Require Import CLib_model Kernels_model.
Import ListNotations.

(* how often a file of a kind is in the pool *)
Definition chars_dec : forall a b : chars, {a = b} + {a <> b} := list_eq_dec ascii_dec.
Definition kind_dec (a b : kind) : {a = b} + {a <> b}. Proof. decide equality. Defined.
Definition kernel_dec (a b : kernel) : {a = b} + {a <> b}. Proof. decide equality; [apply chars_dec|apply kind_dec]. Defined.
Definition times (f : kernel) (p : pool) : nat := count_occ kernel_dec p f.
(* one name is the beginning of a longer one *)
Definition proper_prefix (a b : chars) : Prop := exists c t, b = a ++ c :: t.

Lemma same_chars_iff : forall a b, same_chars a b = true <-> a = b.
Proof.
  induction a as [|x a IH]; intros [|y b]; cbn; split; intros H; try discriminate; try reflexivity.
  - apply andb_prop in H. destruct H as [A B]. apply Ascii.eqb_eq in A. apply IH in B. subst. reflexivity.
  - injection H as -> ->. rewrite Ascii.eqb_refl. apply IH. reflexivity.
Qed.
Lemma begins_iff file name : begins file name = true <-> exists t, file = name ++ t.
Proof.
  unfold begins. rewrite same_chars_iff. split.
  - intros E. exists (skipn (length name) file). rewrite <- E at 1. symmetry. apply firstn_skipn.
  - intros [t ->]. rewrite firstn_app, firstn_all, Nat.sub_diag. cbn. apply app_nil_r.
Qed.
Lemma kind_eqb_iff a b : kind_eqb a b = true <-> a = b. Proof. destruct a, b; cbn; split; intros H; try reflexivity; discriminate. Qed.
Lemma seen_iff k name p : existsb (fun file => begins file name) (names k p) = true <->
  exists f, In f p /\ k_kind f = k /\ length name <= FILLEN - 1 /\ exists t, k_name f = name ++ t.
Proof.
  rewrite existsb_exists. unfold names. split.
  - intros (x & Hx & B). apply in_map_iff in Hx. destruct Hx as (f & <- & Hf). apply filter_In in Hf. destruct Hf as [Hf K]. apply kind_eqb_iff in K. apply begins_iff in B. destruct B as [t B].
    exists f. split; [exact Hf|]. split; [exact K|]. split.
    + pose proof (f_equal (@length _) B) as L. rewrite app_length in L. pose proof (firstn_le_length (FILLEN - 1) (k_name f)). lia.
    + exists (t ++ skipn (FILLEN - 1) (k_name f)). rewrite app_assoc, <- B. symmetry. apply firstn_skipn.
  - intros (f & Hf & K & L & t & E). exists (firstn (FILLEN - 1) (k_name f)). split.
    + apply in_map_iff. exists f. split; [reflexivity|]. apply filter_In. split; [exact Hf|]. apply kind_eqb_iff, K.
    + apply begins_iff. rewrite E, firstn_app, firstn_all2 by exact L. eexists. reflexivity.
Qed.
Lemma times_app f p q : times f (p ++ q) = times f p + times f q. Proof. apply count_occ_app. Qed.
Lemma times_in f p : In f p <-> 1 <= times f p. Proof. apply count_occ_In. Qed.

Lemma load_good kind_of k name p : kind_of name = k -> length name <= 127 ->
  (forall f, In f p -> k_kind f = k -> ~ proper_prefix name (k_name f)) ->
  let q := load_if_unloaded kind_of k name p in
  times (Kernel k name) q = max 1 (times (Kernel k name) p) /\ (forall f, f <> Kernel k name -> times f q = times f p) /\ load_if_unloaded kind_of k name q = q.
Proof.
  intros KD L NP q. assert (Q : existsb (fun file => begins file name) (names k p) = true <-> In (Kernel k name) p).
  { rewrite seen_iff. split.
    - intros (f & Hf & K & _ & t & E). destruct t as [|c t]; [|exfalso; apply (NP f Hf K); exists c, t; exact E]. rewrite app_nil_r in E. destruct f as [fk fn]. cbn in K, E. subst. exact Hf.
    - intros H. exists (Kernel k name). split; [exact H|]. split; [reflexivity|]. split; [unfold FILLEN; lia|]. exists []. cbn. symmetry. apply app_nil_r. }
  assert (R : forall p', In (Kernel k name) p' -> load_if_unloaded kind_of k name p' = p').
  { intros p' H. unfold load_if_unloaded. destruct (existsb (fun file => begins file name) (names k p')) eqn:E; [reflexivity|]. exfalso. assert (X : existsb (fun file => begins file name) (names k p') = true); [|congruence]. apply seen_iff. exists (Kernel k name). split; [exact H|]. split; [reflexivity|]. split; [unfold FILLEN; lia|]. exists []. cbn. symmetry. apply app_nil_r. }
  assert (EQ : q = if existsb (fun file => begins file name) (names k p) then p else p ++ [Kernel (kind_of name) name]) by reflexivity. clearbody q. destruct (existsb (fun file => begins file name) (names k p)) eqn:B; subst q.
  - assert (H : In (Kernel k name) p) by (apply Q; reflexivity). split; [apply times_in in H; lia|]. split; [reflexivity|]. apply R, H.
  - assert (H : ~ In (Kernel k name) p) by (intros H; apply Q in H; discriminate). rewrite KD. split; [|split].
    + rewrite times_app. assert (times (Kernel k name) p = 0) by (apply count_occ_not_In, H). assert (times (Kernel k name) [Kernel k name] = 1) by (unfold times; cbn [count_occ]; destruct (kernel_dec (Kernel k name) (Kernel k name)); [reflexivity|congruence]). lia.
    + intros f NE. rewrite times_app. assert (times f [Kernel k name] = 0) by (unfold times; cbn [count_occ]; destruct (kernel_dec (Kernel k name) f); [congruence|reflexivity]). lia.
    + apply R. apply in_or_app. right. left. reflexivity.
Qed.
(* a pool built only by these calls, with names none of which begins another *)
Lemma load_fresh_names kind_of k name p : existsb (fun file => begins file name) (names k p) = false -> load_if_unloaded kind_of k name p = p ++ [Kernel (kind_of name) name].
Proof. intros E. unfold load_if_unloaded. rewrite E. reflexivity. Qed.
Lemma load_grows kind_of k name p : exists q, load_if_unloaded kind_of k name p = p ++ q /\ length q <= 1 /\ Forall (fun f => k_name f = name) q.
Proof. unfold load_if_unloaded. destruct (existsb _ _); [exists []; rewrite app_nil_r; repeat constructor|eexists; split; [reflexivity|]; repeat constructor]. Qed.
(* the entry point for each kind *)
Definition loader (k : kind) : (chars -> kind) -> chars -> pool -> pool :=
  match k with Text => load_lsk | Spk => load_spk | Pck => load_pck end.
Lemma loader_good kind_of k name p : kind_of name = k -> length name <= 127 ->
  (forall f, In f p -> k_kind f = k -> ~ proper_prefix name (k_name f)) ->
  let q := loader k kind_of name p in
  times (Kernel k name) q = max 1 (times (Kernel k name) p) /\ (forall f, f <> Kernel k name -> times f q = times f p) /\ loader k kind_of name q = q.
Proof. replace (loader k) with (fun ko => load_if_unloaded ko k) by (destruct k; reflexivity). exact (load_good kind_of k name p). Qed.
Lemma loader_grows kind_of k name p : exists q, loader k kind_of name p = p ++ q /\ length q <= 1 /\ Forall (fun f => k_name f = name) q.
Proof. replace (loader k) with (fun ko => load_if_unloaded ko k) by (destruct k; reflexivity). exact (load_grows kind_of k name p). Qed.
