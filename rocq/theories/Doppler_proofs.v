(* Specification and proofs for C32. *)
From Coq Require Import List Ascii ZArith QArith Bool Lia.
From Verif Require Import Base CLib_model Doppler_model.
Import ListNotations.
Local Open Scope nat_scope.

(* an observation as the file presents it: beacon, values, epoch *)
Definition sighting : Type := bobs * Z.
Definition block : Type := Z * list bobs.
Definition sightings (b : block) : list sighting := map (fun o => (o, fst b)) (snd b).
Definition history (bs : list block) : list sighting := flat_map sightings bs.

(* [last_of id h s]: s is the last sighting of id in h *)
Definition last_of (id : chars) (h : list sighting) (s : sighting) : Prop :=
  exists before after, h = before ++ s :: after /\ bo_id (fst s) = id /\
    forall s', In s' after -> bo_id (fst s') <> id.
Definition seen (id : chars) (h : list sighting) : Prop := exists s, In s h /\ bo_id (fst s) = id.

Definition good_id (id : chars) : Prop := length id = 3 /\ ~ In nul id.
Definition good_obs (o : bobs) : Prop := good_id (bo_id o) /\ 2 <= length (bo_vals o).
Definition good_block (b : block) : Prop := forall o, In o (snd b) -> good_obs o.

(* what must be printed for an observation o at epoch t, given the sightings of
   the earlier blocks *)
Definition count_of (h : list sighting) (t : Z) (o : bobs) (l : list ndop) : Prop :=
  (~ seen (bo_id o) h /\ l = []) \/
  (exists o' t' a1 b1 r1 a2 b2 r2, last_of (bo_id o) h (o', t') /\
     bo_vals o = a1 :: b1 :: r1 /\ bo_vals o' = a2 :: b2 :: r2 /\
     l = [NDop (bo_id o) t (a1 - a2) (b1 - b2) (t - t')]).
Inductive counts_of (h : list sighting) (t : Z) : list bobs -> list ndop -> Prop :=
| co_nil : counts_of h t [] []
| co_cons o r l ls : count_of h t o l -> counts_of h t r ls -> counts_of h t (o :: r) (l ++ ls).
(* printed output of a whole run: every block is compared with the blocks before it *)
Inductive output_of : list block -> list ndop -> Prop :=
| oo_nil : output_of [] []
| oo_snoc bs b out p : output_of bs out -> counts_of (history bs) (fst b) (snd b) p ->
    output_of (bs ++ [b]) (out ++ p).

(* the table holds exactly the last sightings *)
Definition table_of (h : list sighting) (data : list bdata) : Prop :=
  NoDup (map (fun d => bo_id (bd_obs d)) data) /\
  (forall d, In d data -> last_of (bo_id (bd_obs d)) h (bd_obs d, bd_t d)) /\
  (forall id, seen id h -> exists d, In d data /\ bo_id (bd_obs d) = id).

(* ---- *)
Section Pad.
Variable rest : chars.
Notation pad := (nul :: rest).

Lemma strcmp_good a b : length a = length b -> ~ In nul a -> ~ In nul b ->
  strcmp_eq (mem pad a) (mem pad b) = Ok (if list_eq_dec ascii_dec a b then true else false).
Proof.
  unfold mem. revert b; induction a as [|x a IH]; intros [|y b] L Na Nb; try discriminate.
  - cbn. reflexivity.
  - cbn [app strcmp_eq]. destruct (Ascii.eqb_spec x y) as [->|N].
    + destruct (Ascii.eqb_spec y nul) as [->|_]; [exfalso; apply Na; left; reflexivity|].
      rewrite IH; [|simpl in L; lia|intros H; apply Na; right; exact H|intros H; apply Nb; right; exact H].
      destruct (list_eq_dec ascii_dec a b), (list_eq_dec ascii_dec (y :: a) (y :: b)); congruence.
    + destruct (list_eq_dec ascii_dec (x :: a) (y :: b)); congruence.
Qed.

Lemma print_good a : ~ In nul a -> print_str (mem pad a) = Ok a.
Proof.
  unfold mem. induction a as [|x a IH]; intros N; cbn [app print_str].
  - reflexivity.
  - destruct (Ascii.eqb_spec x nul) as [->|_]; [exfalso; apply N; left; reflexivity|].
    rewrite IH; [reflexivity|intros H; apply N; right; exact H].
Qed.

Definition good_table (data : list bdata) : Prop := forall d, In d data -> good_obs (bd_obs d).

Lemma find_beacon_ok data id : forall i, good_table data -> good_id id ->
  exists f, find_beacon pad data id i = Ok f /\
   match f with
   | None => forall d, In d data -> bo_id (bd_obs d) <> id
   | Some j => exists l d r, data = l ++ d :: r /\ j = i + length l /\ bo_id (bd_obs d) = id
   end.
Proof.
  induction data as [|d r IH]; intros i G [Gl Gn]; cbn [find_beacon].
  - exists None. split; [reflexivity|]. intros d [].
  - destruct (G d (or_introl eq_refl)) as [[Dl Dn] _].
    rewrite strcmp_good by (try assumption; congruence). cbn [obind].
    destruct (list_eq_dec ascii_dec (bo_id (bd_obs d)) id) as [E|N].
    + exists (Some i). split; [reflexivity|]. exists [], d, r. split; [reflexivity|]. split; [simpl; lia|exact E].
    + destruct (IH (S i)) as (f & Ef & Hf); [intros d' H; apply G; right; exact H|split; assumption|].
      exists f. split; [exact Ef|]. destruct f as [j|].
      * destruct Hf as (l & d' & r' & -> & -> & E). exists (d :: l), d', r'. split; [reflexivity|]. split; [simpl; lia|exact E].
      * intros d' [<-|H]; [exact N|apply Hf, H].
Qed.

Lemma upd_mid {A} (l : list A) x r y : upd (l ++ x :: r) (length l) y = Some (l ++ y :: r).
Proof. induction l as [|h t IH]; [reflexivity|]. cbn [app length upd]. rewrite IH. reflexivity. Qed.

Lemma last_of_snoc_same id h s : bo_id (fst s) = id -> last_of id (h ++ [s]) s.
Proof. intros E. exists h, []. split; [reflexivity|]. split; [exact E|]. intros s' []. Qed.
Lemma last_of_snoc_other id h s s1 : bo_id (fst s1) <> id -> last_of id h s -> last_of id (h ++ [s1]) s.
Proof.
  intros N (b & a & -> & E & H). exists b, (a ++ [s1]). split; [rewrite <- app_assoc; reflexivity|].
  split; [exact E|]. intros s' I. apply in_app_or in I. destruct I as [I|[<-|[]]]; [apply H, I|exact N].
Qed.

Lemma update_one data h o t : good_table data -> good_obs o -> table_of h data ->
  exists data', (do f <- find_beacon pad data (bo_id o) 0;
      match f with None => Ok (data ++ [BData o t]) | Some i => store data i (BData o t) end) = Ok data' /\
    good_table data' /\ table_of (h ++ [(o, t)]) data'.
Proof.
  intros G Go (ND & LA & SE). destruct Go as [Gi Gv].
  destruct (find_beacon_ok data (bo_id o) 0 G Gi) as (f & -> & Hf). cbn [obind]. destruct f as [j|].
  - destruct Hf as (l & d & r & -> & -> & E). cbn [Nat.add]. unfold store. rewrite upd_mid. cbn [of_option].
    eexists. split; [reflexivity|]. rewrite map_app in ND. cbn [map] in ND.
    split; [|split; [|split]].
    + intros d' I. apply in_app_or in I. destruct I as [I|[<-|I]].
      * apply G, in_or_app. auto.
      * split; assumption.
      * apply G, in_or_app. right. right. exact I.
    + rewrite map_app. cbn [map bd_obs]. rewrite <- E. exact ND.
    + intros d' I. assert (I' : d' = BData o t \/ (In d' (l ++ r))).
      { apply in_app_or in I. destruct I as [I|[<-|I]]; [right; apply in_or_app; auto|left; reflexivity|right; apply in_or_app; auto]. }
      destruct I' as [->|I'].
      * cbn [bd_obs bd_t]. apply last_of_snoc_same. reflexivity.
      * apply last_of_snoc_other.
        -- cbn [fst]. rewrite <- E. intros EE. apply NoDup_remove_2 in ND. apply ND. rewrite EE.
           rewrite <- map_app. apply in_map_iff. exists d'. split; [reflexivity|exact I'].
        -- apply LA. apply in_app_or in I'. apply in_or_app. destruct I'; [left|right; right]; assumption.
    + intros id (s & I & Es). destruct (list_eq_dec ascii_dec (bo_id o) id) as [Eo|No].
      * exists (BData o t). split; [apply in_or_app; right; left; reflexivity|exact Eo].
      * apply in_app_or in I. destruct I as [I|[<-|[]]]; [|contradiction].
        destruct (SE id) as (d' & I' & E'); [exists s; auto|]. exists d'. split; [|exact E'].
        apply in_app_or in I'. apply in_or_app. destruct I' as [I'|[<-|I']]; [left; exact I'| congruence |right; right; exact I'].
  - eexists. split; [reflexivity|]. split; [|split; [|split]].
    + intros d' I. apply in_app_or in I. destruct I as [I|[<-|[]]]; [apply G, I|split; assumption].
    + rewrite map_app. cbn [map bd_obs]. apply NoDup_rev in ND.
      rewrite <- rev_involutive. apply NoDup_rev. rewrite rev_app_distr. cbn [rev app].
      constructor; [|exact ND]. rewrite <- in_rev. rewrite in_map_iff. intros (d' & E & I). apply (Hf d' I E).
    + intros d' I. apply in_app_or in I. destruct I as [I|[<-|[]]].
      * apply last_of_snoc_other; [cbn; intros EE; apply (Hf d' I); congruence|apply LA, I].
      * apply last_of_snoc_same. reflexivity.
    + intros id (s & I & Es). apply in_app_or in I. destruct I as [I|[<-|[]]].
      * destruct (SE id) as (d' & I' & E'); [exists s; auto|]. exists d'. split; [apply in_or_app; left; exact I'|exact E'].
      * exists (BData o t). split; [apply in_or_app; right; left; reflexivity|exact Es].
Qed.

Lemma update_ok t obs : forall data h, good_table data -> (forall o, In o obs -> good_obs o) -> table_of h data ->
  exists data', update pad obs t data = Ok data' /\ good_table data' /\ table_of (h ++ sightings (t, obs)) data'.
Proof.
  induction obs as [|o r IH]; intros data h G Go T; cbn [update].
  - exists data. cbn. rewrite app_nil_r. auto.
  - destruct (update_one data h o t G (Go o (or_introl eq_refl)) T) as (d1 & E1 & G1 & T1).
    destruct (find_beacon pad data (bo_id o) 0) as [f|]; [|discriminate]. cbn [obind] in *. rewrite E1. cbn [obind].
    destruct (IH d1 (h ++ [(o, t)]) G1) as (d2 & E2 & G2 & T2); [intros o' I; apply Go; right; exact I|exact T1|].
    exists d2. split; [exact E2|]. split; [exact G2|].
    unfold sightings in *. cbn [fst snd map] in *. rewrite <- app_assoc in T2. exact T2.
Qed.

Lemma ndop_ok t obs : forall data h, good_table data -> (forall o, In o obs -> good_obs o) -> table_of h data ->
  exists p, compute_ndop pad obs t data = Ok p /\ counts_of h t obs p.
Proof.
  induction obs as [|o r IH]; intros data h G Go T; cbn [compute_ndop].
  - exists []. split; [reflexivity|constructor].
  - destruct (Go o (or_introl eq_refl)) as [Gi Gv].
    destruct (IH data h G (fun o' I => Go o' (or_intror I)) T) as (p & Ep & Cp).
    destruct (find_beacon_ok data (bo_id o) 0 G Gi) as (f & -> & Hf). cbn [obind].
    destruct T as (ND & LA & SE). destruct f as [j|].
    + destruct Hf as (l & d & r' & -> & -> & E). cbn [Nat.add].
      assert (Id : In d (l ++ d :: r')) by (apply in_or_app; right; left; reflexivity).
      unfold load at 1. rewrite nth_error_app2, Nat.sub_diag by lia. cbn [nth_error of_option obind].
      destruct (G d Id) as [_ Gd]. destruct (bo_vals o) as [|a1 [|b1 r1]] eqn:V1; try (simpl in Gv; lia).
      destruct (bo_vals (bd_obs d)) as [|a2 [|b2 r2]] eqn:V2; try (simpl in Gd; lia).
      cbn [load nth_error of_option obind]. rewrite print_good by apply Gi. cbn [obind]. rewrite Ep. cbn [obind].
      eexists. split; [reflexivity|]. constructor; [|exact Cp]. right.
      exists (bd_obs d), (bd_t d), a1, b1, r1, a2, b2, r2. repeat split; try assumption.
      rewrite <- E. apply LA, Id.
    + cbn [obind]. rewrite Ep. cbn [obind]. eexists. split; [reflexivity|]. constructor; [|exact Cp]. left.
      split; [|reflexivity]. intros S. destruct (SE _ S) as (d & I & E). apply (Hf d I E).
Qed.

Lemma history_snoc bs b : history (bs ++ [b]) = history bs ++ sightings b.
Proof. unfold history. rewrite flat_map_app. cbn. rewrite app_nil_r. reflexivity. Qed.

Definition blocks (bs : list block) : list rd := map (fun b => RdBlock (fst b) (snd b)) bs.

Lemma count_loop_ok bs eof : forall before data out, (forall b, In b bs -> good_block b) -> good_table data ->
  table_of (history before) data -> output_of before out ->
  exists out' data', count_loop pad (blocks bs) eof data out = Ok ((if eof then 0 else 1)%Z, out', data') /\
    table_of (history (before ++ bs)) data' /\ output_of (before ++ bs) out'.
Proof.
  induction bs as [|b r IH]; intros before data out Gb G T O; cbn [blocks map count_loop].
  - exists out, data. rewrite app_nil_r. auto.
  - destruct (ndop_ok (fst b) (snd b) data _ G (Gb b (or_introl eq_refl)) T) as (p & Ep & Cp). rewrite Ep. cbn [obind].
    destruct (update_ok (fst b) (snd b) data _ G (Gb b (or_introl eq_refl)) T) as (d1 & E1 & G1 & T1). rewrite E1. cbn [obind].
    replace (sightings (fst b, snd b)) with (sightings b) in T1 by (destruct b; reflexivity).
    rewrite <- history_snoc in T1.
    destruct (IH (before ++ [b]) d1 (out ++ p)) as (o2 & d2 & E2 & T2 & O2);
      [intros b' I; apply Gb; right; exact I|exact G1|exact T1|constructor; assumption|].
    rewrite <- app_assoc in T2, O2. exists o2, d2. auto.
Qed.

Lemma doppler_ok b bs eof : (forall x, In x (b :: bs) -> good_block x) ->
  exists out data, get_doppler_counts pad (blocks (b :: bs)) eof = Ok ((if eof then 0 else 1)%Z, out, data) /\
    table_of (history (b :: bs)) data /\ output_of (b :: bs) out.
Proof.
  intros Gb. unfold get_doppler_counts, blocks. cbn [map]. fold (blocks bs).
  assert (T0 : table_of (history []) []).
  { split; [constructor|]. split; [intros d []|]. intros id (s & [] & _). }
  destruct (update_ok (fst b) (snd b) [] _ (fun d F => match F with end) (Gb b (or_introl eq_refl)) T0) as (d1 & E1 & G1 & T1).
  rewrite E1. cbn [obind]. cbn [history flat_map app] in T1.
  apply (count_loop_ok bs eof [b] d1 []); [intros x I; apply Gb; right; exact I|exact G1| |].
  - cbn [history flat_map]. rewrite app_nil_r. destruct b. exact T1.
  - change [b] with (([] : list block) ++ [b]). change (@nil ndop) with ([] ++ @nil ndop). constructor; [constructor|].
    assert (A : forall l, counts_of (history []) (fst b) l []).
    { induction l as [|o r IH]; [constructor|]. change (@nil ndop) with (@nil ndop ++ []). constructor; [|exact IH].
      left. split; [|reflexivity]. intros (s & [] & _). }
    apply A.
Qed.
End Pad.

(* last_of determines the sighting *)
Lemma last_of_fun id h s1 s2 : last_of id h s1 -> last_of id h s2 -> s1 = s2.
Proof.
  intros (b1 & a1 & E1 & I1 & N1) (b2 & a2 & E2 & I2 & N2). subst h.
  revert b2 E2. induction b1 as [|x b1 IH]; intros [|y b2] E2; cbn [app] in E2.
  - injection E2 as E _. exact E.
  - injection E2 as E E'. exfalso. subst y. apply (N1 s2); [|exact I2].
    rewrite E'. apply in_or_app. right. left. reflexivity.
  - injection E2 as E E'. exfalso. subst x. apply (N2 s1); [|exact I1].
    rewrite <- E'. apply in_or_app. right. left. reflexivity.
  - injection E2 as _ E'. apply (IH b2 E').
Qed.

(* under the C++ rules the comparison itself is undefined: a beacon seen twice *)
Lemma doppler_ub id v1 v2 t1 t2 eof : good_id id ->
  get_doppler_counts [] (blocks [(t1, [BObs id v1]); (t2, [BObs id v2])]) eof = UB.
Proof.
  intros [L N]. destruct id as [|a [|b [|c [|d id]]]]; try discriminate.
  cbn. unfold mem. cbn [app].
  assert (forall x, In x [a; b; c] -> Ascii.eqb x nul = false).
  { intros x I. destruct (Ascii.eqb_spec x nul) as [->|]; [contradiction|reflexivity]. }
  unfold strcmp_eq. rewrite !Ascii.eqb_refl, !H by (simpl; auto). reflexivity.
Qed.

Example doppler_case : exists out data,
  good_block (0%Z, [BObs ["D"; "0"; "1"]%char [1; 2]%Q]) /\
  get_doppler_counts [nul] (blocks [(0%Z, [BObs ["D"; "0"; "1"]%char [1; 2]%Q]); (10%Z, [BObs ["D"; "0"; "1"]%char [3; 5]%Q])]) true
  = Ok (0%Z, out, data) /\ length out = 1 /\ length data = 1.
Proof.
  do 2 eexists. split; [|split; [reflexivity|split; reflexivity]].
  intros o [<-|[]]. split; [split; [reflexivity|]|simpl; lia]. cbn. intuition discriminate.
Qed.
