(* Specification of, and proofs about, compact 2-D matrices (C01-C04). *)
From Coq Require Import List Arith Bool Lia.
From Verif Require Import Base Mat2D_model.
Import ListNotations.

(* ---- specification (no model helper used) ---------------------------- *)

(* Which index pairs a matrix of the given kind stores. *)
Definition stored (k : storage) (s : shape) (i j : nat) : Prop :=
  match k with
  | Trapezoid => i < rows s /\ j < cols s /\ j <= i
  | _ => i < rows s /\ j < cols s
  end.

(* Storage order: row by row, or column by column. *)
Definition before (k : storage) (i j i' j' : nat) : Prop :=
  match k with
  | ColumnWise => j < j' \/ (j = j' /\ i < i')
  | _ => i < i' \/ (i = i' /\ j < j')
  end.

(* k-th entry of the i-th slice (row; column for column-wise storage) *)
Definition slice_entry (k : storage) (i e : nat) : nat * nat :=
  match k with ColumnWise => (e, i) | _ => (i, e) end.

Definition layout_spec (k : storage) (s : shape)
  (num : nat) (off : nat -> nat -> nat) (sl : nat -> nat) : Prop :=
  (* in bounds *)
  (forall i j, stored k s i j -> off i j < num) /\
  (* order preserving, hence pairwise distinct *)
  (forall i j i' j', stored k s i j -> stored k s i' j' ->
     before k i j i' j' -> off i j < off i' j') /\
  (* every slot of the storage is used *)
  (forall p, p < num -> exists i j, stored k s i j /\ off i j = p) /\
  (* slices are contiguous *)
  (forall i e, stored k s (fst (slice_entry k i e)) (snd (slice_entry k i e)) ->
     off (fst (slice_entry k i e)) (snd (slice_entry k i e)) = sl i + e).

(* ---- trapezoid -------------------------------------------------------- *)

Lemma trap_slice_count s r : trap_slice s r = trap_count (cols s) r.
Proof. induction r as [|r IH]; simpl; [reflexivity|]. rewrite IH. reflexivity. Qed.

Lemma trap_count_small c r : r <= c -> 2 * trap_count c r = r * (r + 1).
Proof.
  induction r as [|r IH]; intros H; [reflexivity|].
  cbn [trap_count]. rewrite Nat.min_l by lia. specialize (IH ltac:(lia)). nia.
Qed.

Lemma num_trap s : num_elements Trapezoid s = trap_count (cols s) (rows s).
Proof.
  unfold num_elements. destruct (Nat.eqb_spec (rows s) (cols s)) as [E|E]; [|reflexivity].
  rewrite <- E. pose proof (trap_count_small (rows s) (rows s) (le_n _)) as H.
  symmetry. apply Nat.div_unique with 0; lia.
Qed.

Lemma trap_count_mono c r r' : r <= r' -> trap_count c r <= trap_count c r'.
Proof. induction 1; simpl; lia. Qed.

Lemma trap_row_end c i i' j : j < c -> j <= i -> i < i' ->
  trap_count c i + j < trap_count c i'.
Proof.
  intros Hj Hi Hlt. pose proof (trap_count_mono c (S i) i' ltac:(lia)) as H.
  simpl in H. destruct (Nat.min_spec (i + 1) c); lia.
Qed.

Lemma trap_offset s i j : stored Trapezoid s i j ->
  element_offset Trapezoid s i j = trap_count (cols s) i + j.
Proof.
  intros (Hi & Hj & Hji). simpl. rewrite (proj2 (Nat.leb_le j (rows s))) by lia.
  rewrite trap_slice_count. reflexivity.
Qed.

Lemma trap_cover c r p : p < trap_count c r ->
  exists i j, i < r /\ j < c /\ j <= i /\ trap_count c i + j = p.
Proof.
  induction r as [|r IH]; cbn [trap_count]; intros H; [lia|].
  destruct (Nat.lt_ge_cases p (trap_count c r)) as [L|G].
  - destruct (IH L) as (i & j & ? & ? & ? & ?). exists i, j. repeat split; lia.
  - exists r, (p - trap_count c r). repeat split; lia.
Qed.

Lemma trap_layout s : layout_spec Trapezoid s
  (num_elements Trapezoid s) (element_offset Trapezoid s) (slice Trapezoid s).
Proof.
  rewrite num_trap. split; [|split; [|split]].
  - intros i j H. rewrite (trap_offset _ _ _ H). destruct H as (Hi & Hj & Hji).
    apply trap_row_end; lia.
  - intros i j i' j' H H'. rewrite (trap_offset _ _ _ H), (trap_offset _ _ _ H').
    destruct H as (Hi & Hj & Hji). intros [L|[-> L]]; [|lia].
    pose proof (trap_row_end (cols s) i i' j Hj Hji L). lia.
  - intros p Hp. destruct (trap_cover _ _ _ Hp) as (i & j & Hi & Hj & Hji & E).
    exists i, j. assert (St : stored Trapezoid s i j) by (simpl; auto).
    split; [exact St|]. rewrite trap_offset; assumption.
  - intros i e St. simpl in *. rewrite (proj2 (Nat.leb_le e (rows s))) by lia. reflexivity.
Qed.

Lemma row_layout s : layout_spec RowWise s
  (num_elements RowWise s) (element_offset RowWise s) (slice RowWise s).
Proof.
  unfold layout_spec; simpl. split; [|split; [|split]].
  - intros i j [Hi Hj]. nia.
  - intros i j i' j' [Hi Hj] [Hi' Hj'] [L|[-> L]]; nia.
  - intros p Hp. assert (C : cols s <> 0) by nia.
    exists (p / cols s), (p mod cols s).
    pose proof (Nat.div_mod p (cols s) C) as D.
    pose proof (Nat.mod_upper_bound p (cols s) C) as B.
    split; [split; [|exact B]|].
    + apply Nat.div_lt_upper_bound; [exact C | nia].
    + lia.
  - intros i e _. reflexivity.
Qed.

Lemma col_layout s : layout_spec ColumnWise s
  (num_elements ColumnWise s) (element_offset ColumnWise s) (slice ColumnWise s).
Proof.
  unfold layout_spec; simpl. split; [|split; [|split]].
  - intros i j [Hi Hj]. nia.
  - intros i j i' j' [Hi Hj] [Hi' Hj'] [L|[-> L]]; nia.
  - intros p Hp. assert (C : rows s <> 0) by nia.
    exists (p mod rows s), (p / rows s).
    pose proof (Nat.div_mod p (rows s) C) as D.
    pose proof (Nat.mod_upper_bound p (rows s) C) as B.
    split; [split; [exact B|]|].
    + apply Nat.div_lt_upper_bound; [exact C | nia].
    + lia.
  - intros i e _. reflexivity.
Qed.

Lemma any_layout k s : layout_spec k s
  (num_elements k s) (element_offset k s) (slice k s).
Proof. destruct k; [apply row_layout | apply col_layout | apply trap_layout]. Qed.

(* distinctness, as a corollary stated on its own *)
Lemma offset_inj k s i j i' j' : stored k s i j -> stored k s i' j' ->
  element_offset k s i j = element_offset k s i' j' -> i = i' /\ j = j'.
Proof.
  intros H H' E. destruct (any_layout k s) as (_ & M & _).
  assert (D : before k i j i' j' \/ before k i' j' i j \/ (i = i' /\ j = j'))
    by (destruct k; simpl; lia).
  destruct D as [D|[D|D]]; [| |exact D]; exfalso.
  - pose proof (M _ _ _ _ H H' D). lia.
  - pose proof (M _ _ _ _ H' H D). lia.
Qed.

Example trapezoid_4x3_layout :
  num_elements Trapezoid (Shape 4 3) = 9 /\
  stored Trapezoid (Shape 4 3) 3 2 /\ element_offset Trapezoid (Shape 4 3) 3 2 = 8 /\
  slice Trapezoid (Shape 4 3) 2 = 3.
Proof. vm_compute. repeat split; lia. Qed.

(* ---- C04: accesses admitted by the debug assertion ---------------------- *)

(* the assertion of operator(): i < rows() && j < cols() *)
Definition admitted_by_assert (s : shape) (i j : nat) : Prop := i < rows s /\ j < cols s.

Definition same_unordered (i j i' j' : nat) : Prop :=
  (i = i' /\ j = j') \/ (i = j' /\ j = i').

Lemma trap_assert_refuted :
  (exists s i j i' j',
    admitted_by_assert s i j /\ admitted_by_assert s i' j' /\
    element_offset Trapezoid s i j = element_offset Trapezoid s i' j' /\
    ~ same_unordered i j i' j') /\
  (exists s i j, admitted_by_assert s i j /\
    num_elements Trapezoid s <= element_offset Trapezoid s i j).
Proof.
  split.
  - exists (Shape 3 3), 1, 2, 2, 0. unfold admitted_by_assert, same_unordered.
    vm_compute. repeat split; try lia.
  - exists (Shape 2 5), 1, 4. unfold admitted_by_assert. vm_compute. repeat split; lia.
Qed.

(* What an admitted upper-triangle access really does when cols <= rows + 1:
   it never reaches an element of its own row; it aliases an element of a
   later row, or leaves the storage. *)
Lemma trap_upper_aliases s i j : admitted_by_assert s i j -> i < j -> cols s <= rows s + 1 ->
  num_elements Trapezoid s <= element_offset Trapezoid s i j \/
  exists i' j', stored Trapezoid s i' j' /\ i < i' /\
    element_offset Trapezoid s i j = element_offset Trapezoid s i' j'.
Proof.
  intros [Hi Hj] Hij Hc.
  destruct (Nat.lt_ge_cases (element_offset Trapezoid s i j) (num_elements Trapezoid s))
    as [L|G]; [right|left; exact G].
  destruct (trap_layout s) as (_ & _ & C & _).
  destruct (C _ L) as (i' & j' & St & E). exists i', j'. split; [exact St|].
  split; [|symmetry; exact E].
  destruct (Nat.lt_ge_cases i i') as [K|K]; [exact K|exfalso].
  rewrite (trap_offset _ _ _ St) in E. simpl in E.
  rewrite (proj2 (Nat.leb_le j (rows s))) in E by lia.
  rewrite trap_slice_count in E. destruct St as (Hi' & Hj' & Hji').
  assert (i' = i \/ i' < i) as [->|K'] by lia; [lia|].
  pose proof (trap_row_end (cols s) i' i j' Hj' Hji' K'). lia.
Qed.

Example trap_upper_case : admitted_by_assert (Shape 3 3) 1 2 /\ 1 < 2 /\ 3 <= 3 + 1.
Proof. unfold admitted_by_assert; simpl; lia. Qed.

(* ---- C03: refinement to independent cells ------------------------------- *)

Section Refine.
Variable V : Type.

Definition op_ok (k : storage) (s : shape) (o : mop V) : Prop :=
  match o with
  | MSet i j _ => stored k s i j
  | MSliceSet i e _ => stored k s (fst (slice_entry k i e)) (snd (slice_entry k i e))
  | MFill _ => True
  end.

(* abstract state: a function from index pairs to the last value written *)
Definition spec_state := nat -> nat -> option V.
Definition spec_init : spec_state := fun _ _ => None.
Definition spec_put (f : spec_state) (i j : nat) (v : V) : spec_state :=
  fun a b => if Nat.eqb a i && Nat.eqb b j then Some v else f a b.
Definition spec_step (k : storage) (f : spec_state) (o : mop V) : spec_state :=
  match o with
  | MSet i j v => spec_put f i j v
  | MSliceSet i e v => spec_put f (fst (slice_entry k i e)) (snd (slice_entry k i e)) v
  | MFill v => fun _ _ => Some v
  end.

Definition represents (k : storage) (s : shape) (m : mat V) (f : spec_state) : Prop :=
  m_kind m = k /\ m_shape m = s /\ length (m_data m) = num_elements k s /\
  (forall i j, stored k s i j -> mat_get m i j = Ok (f i j)).

Lemma store_represents k s (m : mat V) f i j v :
  represents k s m f -> stored k s i j ->
  exists d, store (m_data m) (element_offset k s i j) (Some v) = Ok d /\
    represents k s (Mat k s d) (spec_put f i j v).
Proof.
  intros (Ek & Es & L & G) St.
  destruct (any_layout k s) as (B & _).
  destruct (store_ok (m_data m) (element_offset k s i j) (Some v)) as (d & E & Ld & N).
  { rewrite L. apply B, St. }
  exists d. split; [exact E|]. split; [reflexivity|]. split; [reflexivity|].
  split; [simpl; lia|]. intros a b Sab. unfold mat_get, load; simpl.
  rewrite N. unfold spec_put.
  destruct (Nat.eqb_spec a i) as [Ea|Ea]; destruct (Nat.eqb_spec b j) as [Eb|Eb]; simpl.
  - subst. rewrite Nat.eqb_refl. reflexivity.
  - destruct (Nat.eqb_spec (element_offset k s a b) (element_offset k s i j)) as [Q|_].
    + destruct (offset_inj _ _ _ _ _ _ Sab St Q). contradiction.
    + pose proof (G a b Sab) as H. unfold mat_get, load in H. rewrite Ek, Es in H. exact H.
  - destruct (Nat.eqb_spec (element_offset k s a b) (element_offset k s i j)) as [Q|_].
    + destruct (offset_inj _ _ _ _ _ _ Sab St Q). contradiction.
    + pose proof (G a b Sab) as H. unfold mat_get, load in H. rewrite Ek, Es in H. exact H.
  - destruct (Nat.eqb_spec (element_offset k s a b) (element_offset k s i j)) as [Q|_].
    + destruct (offset_inj _ _ _ _ _ _ Sab St Q). contradiction.
    + pose proof (G a b Sab) as H. unfold mat_get, load in H. rewrite Ek, Es in H. exact H.
Qed.

Lemma nth_error_repeat_lt A (x : A) n p : p < n -> nth_error (repeat x n) p = Some x.
Proof.
  revert p; induction n as [|n IH]; intros p H; [lia|].
  destruct p; simpl; [reflexivity|]. apply IH. lia.
Qed.

Lemma step_represents k s (m : mat V) f o :
  represents k s m f -> op_ok k s o ->
  exists m', mat_step m o = Ok m' /\ represents k s m' (spec_step k f o).
Proof.
  intros R Ho. pose proof R as (Ek & Es & L & G). destruct o as [i j v|i e v|v]; simpl in Ho.
  - destruct (store_represents k s m f i j v R Ho) as (d & E & R').
    exists (Mat k s d). split; [|exact R'].
    simpl. unfold mat_set. rewrite Ek, Es, E. reflexivity.
  - destruct (store_represents k s m f _ _ v R Ho) as (d & E & R').
    exists (Mat k s d). split; [|exact R'].
    simpl. unfold mat_slice_set. rewrite Ek, Es.
    destruct (any_layout k s) as (_ & _ & _ & C).
    rewrite <- (C i e Ho), E. reflexivity.
  - simpl. unfold mat_fill. rewrite Ek, Es, L.
    rewrite (proj2 (Nat.leb_le _ _)) by lia.
    eexists. split; [reflexivity|]. split; [reflexivity|]. split; [reflexivity|].
    rewrite <- L, skipn_all, app_nil_r. split; [simpl; apply repeat_length|].
    intros i j St. unfold mat_get, load; simpl.
    rewrite nth_error_repeat_lt; [reflexivity|].
    rewrite L. destruct (any_layout k s) as (B & _). apply B, St.
Qed.

Lemma run_represents k s ops : forall (m : mat V) f,
  represents k s m f -> Forall (op_ok k s) ops ->
  exists m', mat_run m ops = Ok m' /\
    represents k s m' (fold_left (spec_step k) ops f).
Proof.
  induction ops as [|o r IH]; intros m f R H; simpl.
  - exists m. split; [reflexivity|exact R].
  - inversion H as [|? ? Ho Hr]; subst.
    destruct (step_represents k s m f o R Ho) as (m1 & E & R1).
    rewrite E. simpl. apply IH; assumption.
Qed.

Lemma mat_refines k s ops : Forall (op_ok k s) ops ->
  exists m', mat_run (@mat_new V k s) ops = Ok m' /\
    (forall i j, stored k s i j ->
       mat_get m' i j = Ok (fold_left (spec_step k) ops spec_init i j)) /\
    (forall i e, stored k s (fst (slice_entry k i e)) (snd (slice_entry k i e)) ->
       mat_slice_get m' i e =
       Ok (fold_left (spec_step k) ops spec_init
             (fst (slice_entry k i e)) (snd (slice_entry k i e)))).
Proof.
  intros H. destruct (run_represents k s ops (mat_new k s) spec_init) as (m' & E & R).
  - split; [reflexivity|]. split; [reflexivity|].
    split; [simpl; apply repeat_length|].
    intros i j St. unfold mat_get, load; simpl.
    rewrite nth_error_repeat_lt; [reflexivity|].
    destruct (any_layout k s) as (B & _). apply B, St.
  - exact H.
  - exists m'. split; [exact E|]. destruct R as (Ek & Es & L & G). split; [exact G|].
    intros i e St. rewrite <- (G _ _ St). unfold mat_slice_get, mat_get.
    rewrite Ek, Es. destruct (any_layout k s) as (_ & _ & _ & C).
    rewrite (C i e St). reflexivity.
Qed.
End Refine.

Example mat_refines_case :
  Forall (op_ok nat Trapezoid (Shape 3 2)) [MFill 0; MSet 2 1 7; MSliceSet 1 0 5; MSet 2 1 9].
Proof. repeat constructor; simpl; lia. Qed.
