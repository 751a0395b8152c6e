(* Shared vocabulary of the models: an outcome monad with undefined behaviour
   as a distinct result, and bounds-checked arrays.  Nothing here models code
   of /repo; the C++ notions represented are named at each definition. *)
From Coq Require Import List Arith Lia.
Import ListNotations.

(* Result of executing a piece of C++: a normal value, or undefined behaviour
   (out-of-bounds access, use of an indeterminate value, ...). *)
Inductive outcome (A : Type) : Type :=
| Ok (a : A)
| UB.
Arguments Ok {A} a.
Arguments UB {A}.

Definition obind {A B} (x : outcome A) (f : A -> outcome B) : outcome B :=
  match x with Ok a => f a | UB => UB end.

Notation "'do' x <- e ; f" := (obind e (fun x => f))
  (at level 200, x name, e at level 100, f at level 200, right associativity).

Definition of_option {A} (x : option A) : outcome A :=
  match x with Some a => Ok a | None => UB end.

(* a[i] = v on a heap/stack array; None = write outside the array. *)
Fixpoint upd {A} (l : list A) (i : nat) (v : A) : option (list A) :=
  match l, i with
  | [], _ => None
  | _ :: t, 0 => Some (v :: t)
  | h :: t, S i' => match upd t i' v with Some t' => Some (h :: t') | None => None end
  end.

(* *(p+i) = v / value of p[i], with out-of-range access as UB *)
Definition store {A} (l : list A) (i : nat) (v : A) : outcome (list A) :=
  of_option (upd l i v).
Definition load {A} (l : list A) (i : nat) : outcome A :=
  of_option (nth_error l i).

Lemma upd_Some_iff {A} (l : list A) i v :
  i < length l <-> exists l', upd l i v = Some l'.
Proof.
  revert i; induction l as [|h t IH]; intros i; simpl.
  - split; [lia | intros [l' H]; discriminate].
  - destruct i as [|i].
    + split; [eexists; reflexivity | lia].
    + rewrite <- Nat.succ_lt_mono, (IH i). split; intros [l' H].
      * rewrite H. eexists; reflexivity.
      * destruct (upd t i v) eqn:E; [eexists; reflexivity | discriminate].
Qed.

Lemma upd_length {A} (l l' : list A) i v : upd l i v = Some l' -> length l' = length l.
Proof.
  revert i l'; induction l as [|h t IH]; intros i l' H; [discriminate|].
  destruct i as [|i]; simpl in H.
  - injection H as <-. reflexivity.
  - destruct (upd t i v) as [t'|] eqn:E; [|discriminate].
    injection H as <-. simpl. f_equal. eapply IH, E.
Qed.

Lemma upd_nth {A} (l l' : list A) i v : upd l i v = Some l' ->
  forall j, nth_error l' j = if Nat.eqb j i then Some v else nth_error l j.
Proof.
  revert i l'; induction l as [|h t IH]; intros i l' H j; [discriminate|].
  destruct i as [|i]; simpl in H.
  - injection H as <-. destruct j; reflexivity.
  - destruct (upd t i v) as [t'|] eqn:E; [|discriminate].
    injection H as <-. destruct j as [|j]; [reflexivity|].
    simpl. apply (IH _ _ E).
Qed.

Lemma store_ok {A} (l : list A) i v : i < length l ->
  exists l', store l i v = Ok l' /\ length l' = length l /\
    forall j, nth_error l' j = if Nat.eqb j i then Some v else nth_error l j.
Proof.
  intros H. destruct (proj1 (upd_Some_iff l i v) H) as [l' E].
  exists l'. unfold store. rewrite E. split; [reflexivity|]. split.
  - eapply upd_length, E.
  - eapply upd_nth, E.
Qed.

Lemma store_UB {A} (l : list A) i v : length l <= i -> store l i v = UB.
Proof.
  intros H. unfold store. destruct (upd l i v) eqn:E; [|reflexivity].
  exfalso. assert (i < length l) by (apply (upd_Some_iff l i v); eexists; exact E). lia.
Qed.
