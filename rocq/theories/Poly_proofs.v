(* Specification of, and proofs about, the polynomial model (C31). *)
From Coq Require Import List Reals Lia Lra Arith.
From Verif Require Import Base Poly_model.
Import ListNotations.

(* ---- abstract objects: each variable holds its own value ---- *)
Definition aobj : Type := option R * list (option R).     (* reference, coefficients c0.. *)
Definition aworld := list (option aobj).

Definition set_nth {A} (l : list A) (i : nat) (v : A) : list A := firstn i l ++ [v] ++ skipn (S i) l.

(* histories without moves; None = operation outside an object's lifetime or
   an index beyond the order *)
Definition a_step (s : aworld) (op : pop) : option aworld :=
  match op with
  | PNew v n => match nth_error s v with
                | Some None => Some (set_nth s v (Some (None, repeat None (n + 1))))
                | _ => None end
  | PSetCoef v i x => match nth_error s v with
                | Some (Some (r, cs)) =>
                    if i <? length cs then Some (set_nth s v (Some (r, set_nth cs i (Some x)))) else None
                | _ => None end
  | PSetRef v x => match nth_error s v with
                | Some (Some (r, cs)) => Some (set_nth s v (Some (Some x, cs)))
                | _ => None end
  | PResize v n => match nth_error s v with
                | Some (Some (r, cs)) =>
                    if Nat.eqb (n + 1) (length cs) then Some s
                    else Some (set_nth s v (Some (r, repeat None (n + 1))))
                | _ => None end
  | PCopyNew dst src => match nth_error s dst, nth_error s src with
                | Some None, Some (Some o) => Some (set_nth s dst (Some o))
                | _, _ => None end
  | PDestroy v => match nth_error s v with
                | Some (Some _) => Some (set_nth s v None)
                | _ => None end
  | PMoveNew _ _ | PMoveAssign _ _ => None
  end.
Fixpoint a_run (s : aworld) (ops : list pop) : option aworld :=
  match ops with [] => Some s | o :: r => match a_step s o with Some s' => a_run s' r | None => None end end.

(* value of a polynomial with coefficients cs at t *)
Fixpoint poly (cs : list R) (t : R) : R :=
  match cs with [] => 0 | c :: r => c + t * poly r t end%R.

(* ---- list helpers ---- *)
Lemma upd_set_nth {A} (l : list A) i v : i < length l -> upd l i v = Some (set_nth l i v).
Proof.
  revert i; induction l as [|h t IH]; intros i H; simpl in H; [lia|].
  destruct i as [|i]; [reflexivity|]. cbn [upd]. rewrite IH by lia. reflexivity.
Qed.
Lemma set_nth_length {A} (l : list A) i v : i < length l -> length (set_nth l i v) = length l.
Proof. intros H. eapply upd_length, upd_set_nth, H. Qed.
Lemma nth_set_nth {A} (l : list A) i v j : i < length l ->
  nth_error (set_nth l i v) j = if Nat.eqb j i then Some v else nth_error l j.
Proof. intros H. apply (upd_nth _ _ _ _ (upd_set_nth l i v H)). Qed.
Lemma nth_Some_lt {A} (l : list A) i x : nth_error l i = Some x -> i < length l.
Proof. intros H. apply nth_error_Some. congruence. Qed.
Lemma store_set {A} (l : list A) i v : i < length l -> store l i v = Ok (set_nth l i v).
Proof. intros H. unfold store. rewrite upd_set_nth by exact H. reflexivity. Qed.

Lemma set_nth_same {A} (l : list A) i v : nth_error l i = Some v -> set_nth l i v = l.
Proof.
  revert i; induction l as [|h t IH]; intros [|i] H; simpl in H; try discriminate.
  - injection H as ->. reflexivity.
  - unfold set_nth in *. cbn [firstn skipn app] in *. f_equal. apply IH, H.
Qed.

(* ---- refinement ---- *)
Definition same_slot (h : pheap) (c : option (option pobj)) (a : option (option aobj)) : Prop :=
  match c, a with
  | None, None => True
  | Some None, Some None => True
  | Some (Some o), Some (Some (r, cs)) =>
      p_ref o = r /\ p_order o + 1 = length cs /\ nth_error h (p_cf o) = Some (Some cs)
  | _, _ => False
  end.
Record PInv (w : pworld) (s : aworld) : Prop := {
  pi_slots : forall v, same_slot (pw_heap w) (nth_error (pw_objs w) v) (nth_error s v);
  pi_distinct : forall v1 v2 o1 o2, nth_error (pw_objs w) v1 = Some (Some o1) ->
     nth_error (pw_objs w) v2 = Some (Some o2) -> p_cf o1 = p_cf o2 -> v1 = v2 }.
(* every live array is owned *)
Definition no_leak (w : pworld) : Prop := forall i cs, nth_error (pw_heap w) i = Some (Some cs) ->
  exists v o, nth_error (pw_objs w) v = Some (Some o) /\ p_cf o = i.

Lemma slot_live w s v r cs : PInv w s -> nth_error s v = Some (Some (r, cs)) ->
  exists o, nth_error (pw_objs w) v = Some (Some o) /\ p_ref o = r /\ p_order o + 1 = length cs /\
    nth_error (pw_heap w) (p_cf o) = Some (Some cs).
Proof.
  intros I H. pose proof (pi_slots _ _ I v) as S. rewrite H in S.
  destruct (nth_error (pw_objs w) v) as [[o|]|]; simpl in S; try contradiction. exists o. tauto.
Qed.
Lemma slot_dead w s v : PInv w s -> nth_error s v = Some None -> nth_error (pw_objs w) v = Some None.
Proof.
  intros I H. pose proof (pi_slots _ _ I v) as S. rewrite H in S.
  destruct (nth_error (pw_objs w) v) as [[o|]|]; simpl in S; try contradiction. reflexivity.
Qed.
Lemma slot_live_inv w s v o : PInv w s -> nth_error (pw_objs w) v = Some (Some o) ->
  exists cs, nth_error s v = Some (Some (p_ref o, cs)) /\ p_order o + 1 = length cs /\
    nth_error (pw_heap w) (p_cf o) = Some (Some cs).
Proof.
  intros I H. pose proof (pi_slots _ _ I v) as S. rewrite H in S.
  destruct (nth_error s v) as [[[r cs]|]|]; simpl in S; try contradiction.
  exists cs. destruct S as (<- & A & B). tauto.
Qed.

(* changing slot v to [c]/[a] and the heap to h', where no other object's array changes *)
Lemma PInv_update w s v h' c a :
  PInv w s -> v < length (pw_objs w) -> v < length s ->
  (forall u o cs, u <> v -> nth_error (pw_objs w) u = Some (Some o) ->
      nth_error (pw_heap w) (p_cf o) = Some (Some cs) -> nth_error h' (p_cf o) = Some (Some cs)) ->
  same_slot h' (Some c) (Some a) ->
  (forall o u o2, c = Some o -> u <> v -> nth_error (pw_objs w) u = Some (Some o2) -> p_cf o <> p_cf o2) ->
  PInv (PWorld h' (set_nth (pw_objs w) v c)) (set_nth s v a).
Proof.
  intros I Hv Hs Hh Hslot Hd. constructor; cbn [pw_heap pw_objs].
  - intros u. rewrite !nth_set_nth by assumption. destruct (Nat.eqb_spec u v) as [->|N]; [exact Hslot|].
    pose proof (pi_slots _ _ I u) as S. destruct (nth_error (pw_objs w) u) as [[o|]|] eqn:E;
      destruct (nth_error s u) as [[[r cs]|]|]; simpl in *; try tauto.
    destruct S as (A & B & C). repeat split; try assumption. eapply Hh; eassumption.
  - intros v1 v2 o1 o2. rewrite !nth_set_nth by assumption.
    destruct (Nat.eqb_spec v1 v) as [->|N1]; destruct (Nat.eqb_spec v2 v) as [->|N2]; intros E1 E2 E.
    + reflexivity.
    + injection E1 as ->. exfalso. eapply (Hd o1 v2 o2); eauto.
    + injection E2 as ->. exfalso. eapply (Hd o2 v1 o1); eauto.
    + eapply (pi_distinct _ _ I); eassumption.
Qed.

Lemma nth_app_new (h : pheap) x i : nth_error (h ++ [x]) i =
  if Nat.eqb i (length h) then Some x else nth_error h i.
Proof.
  destruct (Nat.eqb_spec i (length h)) as [->|N].
  - rewrite nth_error_app2, Nat.sub_diag by lia. reflexivity.
  - destruct (Nat.lt_ge_cases i (length h)).
    + rewrite nth_error_app1 by lia. reflexivity.
    + rewrite (proj2 (nth_error_None _ _)) by (rewrite app_length; simpl; lia).
      symmetry. apply nth_error_None. lia.
Qed.

Definition destroys_constant (s : aworld) (op : pop) : Prop :=
  match op with
  | PDestroy v => exists r c, nth_error s v = Some (Some (r, [c]))
  | _ => False
  end.

Lemma p_step_sim w s op s' : PInv w s -> a_step s op = Some s' ->
  exists w', p_step w op = Some (Ok w') /\ PInv w' s' /\
    (no_leak w -> ~ destroys_constant s op -> no_leak w').
Proof.
  intros I H. destruct op as [v n|v i x|v x|v n|dst src|dst src|dst src|v]; simpl in H; try discriminate.
  - (* new *)
    destruct (nth_error s v) as [[a|]|] eqn:E; try discriminate. injection H as <-.
    pose proof (slot_dead _ _ _ I E) as E'. pose proof (nth_Some_lt _ _ _ E) as Ls.
    pose proof (nth_Some_lt _ _ _ E') as Lo.
    exists (PWorld (pw_heap w ++ [Some (repeat None (n + 1))])
              (set_nth (pw_objs w) v (Some (PObj n None (length (pw_heap w)))))).
    split; [cbn [p_step]; rewrite E'; unfold p_alloc, pw_set; rewrite upd_set_nth by exact Lo; reflexivity|].
    split.
    + apply PInv_update; try assumption.
      * intros u o cs N Eu Hcs. rewrite nth_app_new. apply nth_Some_lt in Hcs as L.
        destruct (Nat.eqb_spec (p_cf o) (length (pw_heap w))); [lia|exact Hcs].
      * cbn. rewrite repeat_length, nth_app_new, Nat.eqb_refl. repeat split; reflexivity.
      * intros o u o2 Eo N Eu EE. injection Eo as <-. cbn in EE.
        destruct (slot_live_inv _ _ _ _ I Eu) as (cs & _ & _ & L). apply nth_Some_lt in L. lia.
    + intros NL _ i cs. cbn [pw_heap pw_objs]. rewrite nth_app_new.
      destruct (Nat.eqb_spec i (length (pw_heap w))) as [->|N].
      * intros _. exists v. eexists. rewrite nth_set_nth, Nat.eqb_refl by exact Lo. split; reflexivity.
      * intros L. destruct (NL _ _ L) as (u & o & Eu & <-). exists u, o. split; [|reflexivity].
        rewrite nth_set_nth by exact Lo. destruct (Nat.eqb_spec u v) as [->|]; [congruence|exact Eu].
  - (* set coefficient *)
    destruct (nth_error s v) as [[[r cs]|]|] eqn:E; try discriminate.
    destruct (Nat.ltb_spec i (length cs)) as [Li|]; [|discriminate]. injection H as <-.
    destruct (slot_live _ _ _ _ _ I E) as (o & Eo & Er & El & Eh).
    pose proof (nth_Some_lt _ _ _ E) as Ls. pose proof (nth_Some_lt _ _ _ Eo) as Lo.
    pose proof (nth_Some_lt _ _ _ Eh) as Lh.
    exists (PWorld (set_nth (pw_heap w) (p_cf o) (Some (set_nth cs i (Some x)))) (pw_objs w)).
    split.
    { cbn [p_step]. rewrite Eo. unfold p_read. rewrite Eh. cbn [obind].
      rewrite store_set by exact Li. cbn [obind]. rewrite store_set by exact Lh. reflexivity. }
    split.
    + assert (EQ : pw_objs w = set_nth (pw_objs w) v (Some o)).
      { symmetry. apply set_nth_same, Eo. }
      rewrite EQ at 1. apply PInv_update; try assumption.
      * intros u o2 cs2 N Eu Hcs. rewrite nth_set_nth by exact Lh.
        destruct (Nat.eqb_spec (p_cf o2) (p_cf o)) as [EE|]; [|exact Hcs].
        exfalso. apply N. eapply (pi_distinct _ _ I); eassumption.
      * cbn. rewrite set_nth_length by exact Li. rewrite nth_set_nth, Nat.eqb_refl by exact Lh. auto.
      * intros o1 u o2 E1 N Eu EE. injection E1 as <-. apply N. symmetry. eapply (pi_distinct _ _ I); eassumption.
    + intros NL _ j cs2. cbn [pw_heap pw_objs]. rewrite nth_set_nth by exact Lh.
      destruct (Nat.eqb_spec j (p_cf o)) as [->|]; [intros _; eauto|]. apply NL.
  - (* set reference *)
    destruct (nth_error s v) as [[[r cs]|]|] eqn:E; try discriminate. injection H as <-.
    destruct (slot_live _ _ _ _ _ I E) as (o & Eo & Er & El & Eh).
    pose proof (nth_Some_lt _ _ _ E) as Ls. pose proof (nth_Some_lt _ _ _ Eo) as Lo.
    exists (PWorld (pw_heap w) (set_nth (pw_objs w) v (Some (PObj (p_order o) (Some x) (p_cf o))))).
    split; [cbn [p_step]; rewrite Eo; unfold pw_set; rewrite upd_set_nth by exact Lo; reflexivity|]. split.
    + apply PInv_update; try assumption.
      * intros; assumption.
      * cbn. auto.
      * intros o1 u o2 E1 N Eu EE. injection E1 as <-. cbn in EE. apply N. symmetry. eapply (pi_distinct _ _ I); eassumption.
    + intros NL _ j cs2 L. cbn [pw_heap pw_objs] in *. destruct (NL _ _ L) as (u & o2 & Eu & <-).
      destruct (Nat.eq_dec u v) as [->|N].
      * rewrite Eo in Eu. injection Eu as <-. exists v. eexists. rewrite nth_set_nth, Nat.eqb_refl by exact Lo. split; reflexivity.
      * exists u, o2. split; [|reflexivity]. rewrite nth_set_nth by exact Lo. destruct (Nat.eqb_spec u v); [contradiction|exact Eu].
  - (* resize *)
    destruct (nth_error s v) as [[[r cs]|]|] eqn:E; try discriminate.
    destruct (slot_live _ _ _ _ _ I E) as (o & Eo & Er & El & Eh).
    pose proof (nth_Some_lt _ _ _ E) as Ls. pose proof (nth_Some_lt _ _ _ Eo) as Lo.
    pose proof (nth_Some_lt _ _ _ Eh) as Lh.
    cbn [p_step]. rewrite Eo.
    destruct (Nat.eqb_spec (n + 1) (length cs)) as [EN|NN].
    + injection H as <-. exists w. destruct (Nat.eqb_spec n (p_order o)); [|lia]. auto.
    + injection H as <-. destruct (Nat.eqb_spec n (p_order o)); [lia|].
      unfold p_free. rewrite Eh. rewrite store_set by exact Lh. unfold p_alloc, pw_set.
      rewrite upd_set_nth by exact Lo. eexists. split; [reflexivity|].
      set (h1 := set_nth (pw_heap w) (p_cf o) None).
      assert (L1 : length h1 = length (pw_heap w)) by (apply set_nth_length, Lh). split.
      * apply PInv_update; try assumption.
        -- intros u o2 cs2 N Eu Hcs. rewrite nth_app_new, L1. pose proof (nth_Some_lt _ _ _ Hcs).
           destruct (Nat.eqb_spec (p_cf o2) (length (pw_heap w))); [lia|].
           unfold h1. rewrite nth_set_nth by exact Lh.
           destruct (Nat.eqb_spec (p_cf o2) (p_cf o)) as [EE|]; [|exact Hcs].
           exfalso. apply N. eapply (pi_distinct _ _ I); eassumption.
        -- cbn. rewrite repeat_length, nth_app_new, Nat.eqb_refl. auto.
        -- intros o1 u o2 E1 N Eu EE. injection E1 as <-. cbn in EE.
           destruct (slot_live_inv _ _ _ _ I Eu) as (cs2 & _ & _ & L). apply nth_Some_lt in L. lia.
      * intros NL _ j cs2. cbn [pw_heap pw_objs]. rewrite nth_app_new.
        destruct (Nat.eqb_spec j (length h1)) as [->|N].
        -- intros _. exists v. eexists. rewrite nth_set_nth, Nat.eqb_refl by exact Lo. split; reflexivity.
        -- unfold h1. rewrite nth_set_nth by exact Lh. destruct (Nat.eqb_spec j (p_cf o)) as [->|Nj]; [discriminate|].
           intros L. destruct (NL _ _ L) as (u & o2 & Eu & <-). exists u, o2. split; [|reflexivity].
           rewrite nth_set_nth by exact Lo. destruct (Nat.eqb_spec u v) as [->|]; [|exact Eu].
           rewrite Eo in Eu. congruence.
  - (* copy construction *)
    destruct (nth_error s dst) as [[a|]|] eqn:E; try discriminate.
    destruct (nth_error s src) as [[[r cs]|]|] eqn:E2; try discriminate. injection H as <-.
    destruct (slot_live _ _ _ _ _ I E2) as (o & Eo & Er & El & Eh).
    pose proof (slot_dead _ _ _ I E) as E'. pose proof (nth_Some_lt _ _ _ E) as Ls.
    pose proof (nth_Some_lt _ _ _ E') as Lo. pose proof (nth_Some_lt _ _ _ Eh) as Lh.
    cbn [p_step]. rewrite E', Eo. unfold p_alloc. cbn [fst snd].
    unfold p_read. rewrite nth_app_new. destruct (Nat.eqb_spec (p_cf o) (length (pw_heap w))); [lia|].
    rewrite Eh. destruct (Nat.ltb_spec (length cs) (p_order o + 1)); [lia|].
    rewrite store_set by (rewrite app_length; simpl; lia).
    unfold pw_set. rewrite upd_set_nth by exact Lo. eexists. split; [reflexivity|].
    rewrite El, firstn_all. set (h1 := pw_heap w ++ [Some (repeat None (length cs))]).
    assert (L1 : length (pw_heap w) < length h1) by (unfold h1; rewrite app_length; simpl; lia).
    split.
    + apply PInv_update; try assumption.
      * intros u o2 cs2 N Eu Hcs. rewrite nth_set_nth by exact L1. pose proof (nth_Some_lt _ _ _ Hcs).
        destruct (Nat.eqb_spec (p_cf o2) (length (pw_heap w))); [lia|]. unfold h1. rewrite nth_app_new.
        destruct (Nat.eqb_spec (p_cf o2) (length (pw_heap w))); [lia|exact Hcs].
      * cbn. rewrite nth_set_nth, Nat.eqb_refl by exact L1. auto.
      * intros o1 u o2 E1 N Eu EE. injection E1 as <-. cbn in EE.
        destruct (slot_live_inv _ _ _ _ I Eu) as (cs2 & _ & _ & L). apply nth_Some_lt in L. lia.
    + intros NL _ j cs2. cbn [pw_heap pw_objs]. rewrite nth_set_nth by exact L1.
      destruct (Nat.eqb_spec j (length (pw_heap w))) as [->|N].
      * intros _. exists dst. eexists. rewrite nth_set_nth, Nat.eqb_refl by exact Lo. split; reflexivity.
      * unfold h1. rewrite nth_app_new. destruct (Nat.eqb_spec j (length (pw_heap w))); [contradiction|].
        intros L. destruct (NL _ _ L) as (u & o2 & Eu & <-). exists u, o2. split; [|reflexivity].
        rewrite nth_set_nth by exact Lo. destruct (Nat.eqb_spec u dst) as [->|]; [congruence|exact Eu].
  - (* destroy *)
    destruct (nth_error s v) as [[[r cs]|]|] eqn:E; try discriminate. injection H as <-.
    destruct (slot_live _ _ _ _ _ I E) as (o & Eo & Er & El & Eh).
    pose proof (nth_Some_lt _ _ _ E) as Ls. pose proof (nth_Some_lt _ _ _ Eo) as Lo.
    pose proof (nth_Some_lt _ _ _ Eh) as Lh.
    cbn [p_step]. rewrite Eo. destruct (Nat.eqb_spec (p_order o) 0) as [Z|NZ].
    + unfold pw_set. rewrite upd_set_nth by exact Lo. eexists. split; [reflexivity|]. split.
      * apply PInv_update; try assumption; [intros; assumption|exact Logic.I|discriminate].
      * intros _ ND. exfalso. apply ND. exists r. destruct cs as [|c [|c2 cs]]; simpl in El; try lia. exists c. exact E.
    + unfold p_free. rewrite Eh, store_set by exact Lh. unfold pw_set. rewrite upd_set_nth by exact Lo.
      eexists. split; [reflexivity|]. split.
      * apply PInv_update; try assumption; [|exact Logic.I|discriminate].
        intros u o2 cs2 N Eu Hcs. rewrite nth_set_nth by exact Lh.
        destruct (Nat.eqb_spec (p_cf o2) (p_cf o)) as [EE|]; [|exact Hcs].
        exfalso. apply N. eapply (pi_distinct _ _ I); eassumption.
      * intros NL _ j cs2. cbn [pw_heap pw_objs]. rewrite nth_set_nth by exact Lh.
        destruct (Nat.eqb_spec j (p_cf o)) as [->|Nj]; [discriminate|].
        intros L. destruct (NL _ _ L) as (u & o2 & Eu & <-). exists u, o2. split; [|reflexivity].
        rewrite nth_set_nth by exact Lo. destruct (Nat.eqb_spec u v) as [->|]; [|exact Eu].
        rewrite Eo in Eu. congruence.
Qed.

Fixpoint destroys_no_constant (s : aworld) (ops : list pop) : Prop :=
  match ops with
  | [] => True
  | o :: r => ~ destroys_constant s o /\ match a_step s o with Some s' => destroys_no_constant s' r | None => True end
  end.

Lemma p_run_sim ops : forall w s s', PInv w s -> a_run s ops = Some s' ->
  exists w', p_run w ops = Some (Ok w') /\ PInv w' s' /\
    (no_leak w -> destroys_no_constant s ops -> no_leak w').
Proof.
  induction ops as [|o r IH]; intros w s s' I H; cbn [a_run p_run destroys_no_constant] in *.
  - injection H as <-. exists w. auto.
  - destruct (a_step s o) as [s1|] eqn:E; [|discriminate].
    destruct (p_step_sim _ _ _ _ I E) as (w1 & E1 & I1 & N1). rewrite E1.
    destruct (IH _ _ _ I1 H) as (w2 & E2 & I2 & N2). exists w2. split; [exact E2|]. split; [exact I2|].
    intros NL [A B]. auto.
Qed.

Lemma nth_repeat_none {A} n v : nth_error (repeat (@None A) n) v = if v <? n then Some None else None.
Proof.
  revert v; induction n as [|n IH]; intros [|v]; try reflexivity. cbn [repeat nth_error]. rewrite IH. reflexivity.
Qed.

Lemma PInv_init n : PInv (pw_init n) (repeat None n).
Proof.
  constructor; cbn [pw_init pw_heap pw_objs].
  - intros v. rewrite !nth_repeat_none. destruct (v <? n); exact Logic.I.
  - intros v1 v2 o1 o2 H. rewrite nth_repeat_none in H. destruct (v1 <? n); discriminate.
Qed.

(* evaluation *)
Lemma p_loop_poly t cs : forall pre y tp,
  p_loop (map Some (pre ++ cs)) t y tp (length pre) (length cs) = Ok (y + tp * poly cs t)%R.
Proof.
  induction cs as [|c cs IH]; intros pre y tp; cbn [length p_loop poly].
  - f_equal. ring.
  - unfold p_load, load. rewrite nth_error_map, nth_error_app2, Nat.sub_diag by lia. cbn.
    specialize (IH (pre ++ [c]) (y + c * tp)%R (tp * t)%R).
    rewrite <- app_assoc, app_length in IH. cbn [app length] in IH.
    rewrite Nat.add_1_r in IH. rewrite IH. f_equal. ring.
Qed.

Lemma poly_sum cs t : cs <> [] -> poly cs t = sum_f_R0 (fun i => nth i cs 0 * t ^ i)%R (length cs - 1).
Proof.
  induction cs as [|c cs IH]; [congruence|]. intros _. destruct cs as [|c2 cs].
  - simpl. ring.
  - change (poly (c :: c2 :: cs) t) with (c + t * poly (c2 :: cs) t)%R. rewrite IH by discriminate.
    cbn [length]. replace (S (S (length cs)) - 1) with (S (length cs)) by lia.
    replace (S (length cs) - 1) with (length cs) by lia.
    rewrite (decomp_sum _ (S (length cs))) by lia. cbn [Nat.pred].
    rewrite scal_sum. cbn [nth pow]. rewrite Rmult_1_r. f_equal. apply sum_eq. intros i _. cbn [nth pow]. ring.
Qed.

Lemma value_at_ok w s v r cs x : PInv w s -> nth_error s v = Some (Some (Some r, map Some cs)) ->
  p_value_at w v x = Some (Ok (sum_f_R0 (fun i => nth i cs 0 * (x - r) ^ i)%R (length cs - 1))).
Proof.
  intros I H. destruct (slot_live _ _ _ _ _ I H) as (o & Eo & Er & El & Eh).
  unfold p_value_at. rewrite Eo, Er. cbn [of_option obind]. unfold p_read. rewrite Eh. cbn [obind].
  rewrite map_length in El. destruct cs as [|c cs]; [simpl in El; lia|].
  unfold p_load at 1, load at 1. cbn [map nth_error of_option obind].
  pose proof (p_loop_poly (x - r) cs [c] c (x - r)) as P. cbn [app map length] in P.
  replace (p_order o) with (length cs) by (simpl in El; lia). rewrite P.
  rewrite <- poly_sum by discriminate. reflexivity.
Qed.

Lemma poly_history_ok n ops s : a_run (repeat None n) ops = Some s ->
  exists w, p_run (pw_init n) ops = Some (Ok w) /\
   (forall v r cs x, nth_error s v = Some (Some (Some r, map Some cs)) ->
      p_value_at w v x = Some (Ok (sum_f_R0 (fun i => nth i cs 0 * (x - r) ^ i)%R (length cs - 1)))) /\
   (destroys_no_constant (repeat None n) ops -> no_leak w).
Proof.
  intros H. destruct (p_run_sim ops _ _ _ (PInv_init n) H) as (w & E & I & N).
  exists w. split; [exact E|]. split.
  - intros v r cs x. apply (value_at_ok w s); assumption.
  - apply N. intros i cs L. cbn in L. destruct i; discriminate.
Qed.

Lemma poly_ownership_refuted_lemma :
  p_run (pw_init 2) [PNew 0 1; PMoveNew 1 0; PDestroy 0; PDestroy 1] = Some UB /\
  (exists w, p_run (pw_init 1) [PNew 0 0; PDestroy 0] = Some (Ok w) /\ ~ no_leak w).
Proof.
  split; [reflexivity|].
  eexists. split; [reflexivity|].
  intros N. destruct (N 0 [None] eq_refl) as (v & o & H & _). destruct v as [|[|v]]; discriminate.
Qed.

Lemma linear_value_ok xref a b x : linear_value xref a b x =
  sum_f_R0 (fun i => nth i [a; b] 0 * (x - xref) ^ i)%R 1.
Proof. unfold linear_value. simpl. ring. Qed.

Example poly_case : exists s,
  a_run (repeat None 2) [PNew 0 1; PSetCoef 0 0 3; PSetCoef 0 1 2; PSetRef 0 1; PCopyNew 1 0; PSetCoef 1 0 7; PDestroy 1] = Some s
  /\ nth_error s 0 = Some (Some (Some 1%R, map Some [3%R; 2%R])).
Proof. eexists. split; reflexivity. Qed.
