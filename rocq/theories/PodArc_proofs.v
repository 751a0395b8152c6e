(* Which Doppler counts the orbit determination program forms, stated from the observations alone. *)
From Coq Require Import List ZArith QArith Qabs Ascii Bool Lia Lqa Sorted.
From Verif Require Import Base CLib_model SysInfo_model Rinex_model Rinex_proofs PodArc_model.
Import ListNotations.
Local Open Scope nat_scope.

(* ---- specification ---- *)
Section Spec.
Variables (l1i l2i w1i w2i : nat) (cutoff : Q).
Definition beacon (s : sight) : chars := firstn 3 (s_id s).
Definition flag (vals : list rvalue) (i : nat) (f : rvalue -> ascii) : bool :=
  match nth_error vals i with Some v => Ascii.eqb (f v) "1" | None => false end.
(* a flag of the phase or power measurements is raised *)
Definition flagged (s : sight) : Prop :=
  existsb (fun p => flag (s_vals s) (fst p) (snd p))
    [(l1i, rv_f1); (l1i, rv_f2); (l2i, rv_f1); (l2i, rv_f2); (w1i, rv_f1); (w2i, rv_f1)] = true.
Definition usable (s : sight) : Prop := ~ flagged s /\ (cutoff <= s_el s)%Q /\ s_lwz s <> None.
(* the last usable observation of the beacon, and what was observed since *)
Definition latest (pre : list sight) (b : chars) (p : sight) (since : list sight) : Prop :=
  exists a, pre = a ++ p :: since /\ beacon p = b /\ usable p /\
    forall q, In q since -> beacon q = b -> ~ usable q.
Definition never (pre : list sight) (b : chars) : Prop := forall q, In q pre -> beacon q = b -> ~ usable q.
Definition interrupted (since : list sight) (b : chars) : Prop := exists q, In q since /\ beacon q = b /\ flagged q.
Definition gap (p o : sight) : Z := (s_time o - s_time p)%Z.
Definition new_arc (p o : sight) : Prop := (300000000000 < gap p o)%Z.
(* beacons are numbered in the order of their first usable observations *)
Inductive numbered : list sight -> list chars -> Prop :=
| num_nil : numbered [] []
| num_skip pre ids o : numbered pre ids -> ~ usable o \/ In (beacon o) ids -> numbered (pre ++ [o]) ids
| num_new pre ids o : numbered pre ids -> usable o -> ~ In (beacon o) ids -> numbered (pre ++ [o]) (ids ++ [beacon o]).
(* arcs of a beacon are counted from zero *)
Inductive arcs (b : chars) : list sight -> Z -> Prop :=
| arc_first pre o : never pre b -> usable o -> beacon o = b -> arcs b (pre ++ [o]) 0
| arc_skip pre o n : arcs b pre n -> beacon o <> b \/ ~ usable o -> arcs b (pre ++ [o]) n
| arc_same pre o n p since : arcs b pre n -> usable o -> beacon o = b -> latest pre b p since -> ~ new_arc p o -> arcs b (pre ++ [o]) n
| arc_next pre o n p since : arcs b pre n -> usable o -> beacon o = b -> latest pre b p since -> new_arc p o -> arcs b (pre ++ [o]) (n + 1).
Definition phase_of (s : sight) (x : Q) : Prop := exists v, nth_error (s_vals s) l1i = Some v /\ rv v = x.
(* what is expected of the observation [o] after [pre] *)
Definition expected (pre : list sight) (o : sight) (e : event) : Prop :=
  match e with
  | Flagged => flagged o
  | Low => ~ flagged o /\ (s_el o < cutoff)%Q
  | NoTropo => ~ flagged o /\ (cutoff <= s_el o)%Q /\ s_lwz o = None
  | First n lwz => usable o /\ s_lwz o = Some lwz /\ never pre (beacon o) /\
      exists ids, numbered (pre ++ [o]) ids /\ nth_error ids n = Some (beacon o)
  | Again n lwz => usable o /\ exists p since, latest pre (beacon o) p since /\
      (interrupted since (beacon o) \/ new_arc p o) /\
      (exists ids, numbered pre ids /\ nth_error ids n = Some (beacon o)) /\
      ((lwz = s_lwz o /\ new_arc p o) \/ (lwz = None /\ ~ new_arc p o))
  | Doppler n arc cycles dt => usable o /\ exists p since, latest pre (beacon o) p since /\
      ~ interrupted since (beacon o) /\ ~ new_arc p o /\
      (exists ids, numbered pre ids /\ nth_error ids n = Some (beacon o)) /\
      arcs (beacon o) pre arc /\ dt = gap p o /\
      exists x y, phase_of p x /\ phase_of o y /\ cycles = (y - x)%Q
  end.
(* an observation as the RINEX reader delivers it *)
Definition complete (s : sight) : Prop :=
  3 <= length (s_id s) /\ l1i < length (s_vals s) /\ l2i < length (s_vals s) /\
  w1i < length (s_vals s) /\ w2i < length (s_vals s).
End Spec.

(* ---- lemmas ---- *)
Section Proofs.
Variables (sts : list station) (l1i l2i w1i w2i : nat) (cutoff : Q).
Notation flagged := (flagged l1i l2i w1i w2i).
Notation usable := (usable l1i l2i w1i w2i cutoff).
Notation latest := (latest l1i l2i w1i w2i cutoff).
Notation never := (never l1i l2i w1i w2i cutoff).
Notation interrupted := (interrupted l1i l2i w1i w2i).
Notation numbered := (numbered l1i l2i w1i w2i cutoff).
Notation arcs := (arcs l1i l2i w1i w2i cutoff).
Notation expected := (expected l1i l2i w1i w2i cutoff).
Notation complete := (complete l1i l2i w1i w2i).
Notation observe := (observe sts l1i l2i w1i w2i cutoff).
Notation run := (run sts l1i l2i w1i w2i cutoff).

Lemma load_ok {A} (l : list A) i : i < length l -> exists x, load l i = Ok x /\ nth_error l i = Some x.
Proof.
  intros H. destruct (nth_error l i) as [x|] eqn:E.
  - exists x. unfold load. rewrite E. auto.
  - apply nth_error_None in E. lia.
Qed.
Lemma bad_flags_ok s : complete s -> exists b, bad_flags l1i l2i w1i w2i (s_vals s) = Ok b /\ (b = true <-> flagged s).
Proof.
  intros (_ & H1 & H2 & H3 & H4). unfold bad_flags, PodArc_proofs.flagged.
  destruct (load_ok _ _ H1) as (a & -> & E1). destruct (load_ok _ _ H2) as (b & E2' & E2).
  destruct (load_ok _ _ H3) as (c & E3' & E3). destruct (load_ok _ _ H4) as (d & E4' & E4).
  cbn [obind existsb fst snd]. unfold flag. rewrite E1, E2, E3, E4.
  destruct (Ascii.eqb (rv_f1 a) "1"); [exists true; cbn; tauto|].
  destruct (Ascii.eqb (rv_f2 a) "1"); [exists true; cbn; tauto|].
  rewrite E2'. cbn [obind].
  destruct (Ascii.eqb (rv_f1 b) "1"); [exists true; cbn; tauto|].
  destruct (Ascii.eqb (rv_f2 b) "1"); [exists true; cbn; tauto|].
  rewrite E3'. cbn [obind].
  destruct (Ascii.eqb (rv_f1 c) "1"); [exists true; cbn; tauto|].
  rewrite E4'. cbn [obind]. exists (Ascii.eqb (rv_f1 d) "1"). split; [reflexivity|].
  cbn. destruct (Ascii.eqb (rv_f1 d) "1"); cbn; tauto.
Qed.
Lemma find_track_ok id ts i : 3 <= length id -> Forall (fun t => length (t_id t) = 3) ts ->
  (exists j t, find_track id ts i = Ok (Some (i + j)) /\ nth_error ts j = Some t /\ t_id t = firstn 3 id) \/
  (find_track id ts i = Ok None /\ forall t, In t ts -> t_id t <> firstn 3 id).
Proof.
  intros L. revert i. induction ts as [|t r IH]; intros i F; cbn [find_track].
  - right. split; [reflexivity|]. intros t [].
  - pose proof (Forall_inv F) as Lt. cbn beta in Lt. destruct (same3_ok (t_id t) id) as (e & -> & He); [lia|exact L|].
    cbn [obind]. rewrite (firstn_exact (t_id t) 3 Lt) in He. destruct e.
    + left. exists 0, t. rewrite Nat.add_0_r. split; [reflexivity|]. split; [reflexivity|]. apply He. reflexivity.
    + assert (N : t_id t <> firstn 3 id) by (intros X; apply He in X; discriminate).
      destruct (IH (S i) (Forall_inv_tail F)) as [(j & u & E & Hj & Hu)|[E H]].
      * left. exists (S j), u. rewrite E. split; [do 2 f_equal; lia|]. split; assumption.
      * right. split; [exact E|]. intros u [<-|I]; auto.
Qed.
Lemma store_ok {A} (l : list A) i v : i < length l -> exists l', store l i v = Ok l' /\ length l' = length l /\
  forall j, nth_error l' j = if Nat.eqb j i then Some v else nth_error l j.
Proof.
  intros H. destruct (proj1 (upd_Some_iff l i v) H) as [l' E]. exists l'. unfold store. rewrite E.
  split; [reflexivity|]. split; [apply (upd_length _ _ _ _ E)|]. apply (upd_nth _ _ _ _ E).
Qed.

(* the invariant of the loop *)
Definition tracked (pre : list sight) (i : nat) (t : track) : Prop :=
  t_count t = i /\ exists p since, latest pre (t_id t) p since /\ t_proper t = s_time p /\ phase_of l1i p (t_l1 t) /\
    arcs (t_id t) pre (t_arc t) /\ (t_reinit t = true <-> interrupted since (t_id t)).
Definition invariant (pre : list sight) (ts : list track) (n : nat) : Prop :=
  n = length ts /\ numbered pre (map t_id ts) /\ NoDup (map t_id ts) /\
  Forall (fun t => length (t_id t) = 3) ts /\
  (forall b, ~ In b (map t_id ts) -> never pre b) /\
  (forall i t, nth_error ts i = Some t -> tracked pre i t).

Lemma in_snoc {A} (q : A) l o : In q (l ++ [o]) <-> In q l \/ q = o.
Proof. rewrite in_app_iff. cbn. intuition congruence. Qed.
Lemma latest_skip pre b p since o : latest pre b p since -> beacon o <> b \/ ~ usable o -> latest (pre ++ [o]) b p (since ++ [o]).
Proof.
  intros (a & -> & Hb & Hu & N) H. exists a. rewrite <- app_assoc. split; [reflexivity|]. split; [exact Hb|]. split; [exact Hu|].
  intros q I B. apply in_snoc in I as [I| ->]; [auto|]. destruct H as [H|H]; [contradiction|exact H].
Qed.
Lemma latest_now pre o : usable o -> latest (pre ++ [o]) (beacon o) o [].
Proof. intros H. exists pre. split; [reflexivity|]. split; [reflexivity|]. split; [exact H|]. intros q []. Qed.
Lemma never_skip pre b o : never pre b -> beacon o <> b \/ ~ usable o -> never (pre ++ [o]) b.
Proof. intros N H q I B. apply in_snoc in I as [I| ->]; [apply N; assumption|]. destruct H; [contradiction|assumption]. Qed.
Lemma interrupted_skip since b o : beacon o <> b \/ ~ flagged o -> (interrupted (since ++ [o]) b <-> interrupted since b).
Proof.
  intros H. split; intros (q & I & B & F).
  - apply in_snoc in I as [I| ->]; [exists q; auto|]. destruct H; contradiction.
  - exists q. split; [apply in_snoc; auto|auto].
Qed.
(* a track not touched by the observation *)
Lemma tracked_skip pre i t o : tracked pre i t -> t_id t <> beacon o \/ (~ usable o /\ ~ flagged o) -> tracked (pre ++ [o]) i t.
Proof.
  intros (Hc & p & since & L & T & P & A & R) H. split; [exact Hc|]. exists p, (since ++ [o]).
  assert (H1 : beacon o <> t_id t \/ ~ usable o) by (destruct H as [H|[H _]]; [left; congruence|right; exact H]).
  assert (H2 : beacon o <> t_id t \/ ~ flagged o) by (destruct H as [H|[_ H]]; [left; congruence|right; exact H]).
  split; [apply latest_skip; assumption|]. split; [exact T|]. split; [exact P|]. split; [apply arc_skip; assumption|].
  rewrite interrupted_skip by exact H2. exact R.
Qed.
Lemma invariant_skip pre ts n o : invariant pre ts n -> ~ usable o -> ~ flagged o -> invariant (pre ++ [o]) ts n.
Proof.
  intros (Hn & Num & ND & Len & Out & Tr) U F. refine (conj _ (conj _ (conj _ (conj _ (conj _ _))))); try assumption.
  - apply num_skip; auto.
  - intros b I. apply never_skip; [apply Out; exact I|right; exact U].
  - intros i t E. apply tracked_skip; [apply Tr; exact E|right; auto].
Qed.
Lemma nth_map_id ts j (t : track) : nth_error ts j = Some t -> nth_error (map t_id ts) j = Some (t_id t).
Proof. intros H. apply map_nth_error. exact H. Qed.
Lemma ids_kept ts ts' j t t' : nth_error ts j = Some t -> t_id t' = t_id t ->
  (forall i, nth_error ts' i = if Nat.eqb i j then Some t' else nth_error ts i) -> map t_id ts' = map t_id ts.
Proof.
  intros Hj E H. revert ts' j Hj H. induction ts as [|u r IH]; intros ts' j Hj H.
  - destruct j; discriminate.
  - destruct ts' as [|u' r'].
    + specialize (H 0). destruct j; cbn in H; discriminate.
    + destruct j as [|j].
      * cbn in Hj. injection Hj as ->. pose proof (H 0) as H0. cbn in H0. injection H0 as ->. cbn. f_equal; [exact E|].
        assert (r' = r) as ->; [|reflexivity].
        clear - H. revert r' H. induction r as [|x r IH]; intros r' H; destruct r' as [|y r']; [reflexivity| | |].
        -- specialize (H 1). discriminate.
        -- specialize (H 1). discriminate.
        -- pose proof (H 1) as H1. cbn in H1. injection H1 as ->. f_equal. apply IH.
           intros [|i]; [reflexivity|]. specialize (H (S (S i))). exact H.
      * pose proof (H 0) as H0. cbn in H0. injection H0 as ->. cbn. f_equal. apply (IH r' j); [exact Hj|].
        intros i. specialize (H (S i)). exact H.
Qed.
Lemma nodup_id ts i j (t u : track) : NoDup (map t_id ts) -> nth_error ts i = Some t -> nth_error ts j = Some u -> t_id t = t_id u -> i = j.
Proof.
  intros ND Hi Hj E. apply (proj1 (NoDup_nth_error (map t_id ts)) ND).
  - rewrite map_length. apply nth_error_Some. congruence.
  - rewrite (nth_map_id _ _ _ Hi), (nth_map_id _ _ _ Hj), E. reflexivity.
Qed.

(* the invariant after the track [j] has been replaced *)
Lemma invariant_store pre ts ts' n o j t t' : invariant pre ts n -> nth_error ts j = Some t -> t_id t = beacon o ->
  t_id t' = t_id t -> length ts' = length ts -> (forall i, nth_error ts' i = if Nat.eqb i j then Some t' else nth_error ts i) ->
  tracked (pre ++ [o]) j t' -> invariant (pre ++ [o]) ts' n.
Proof.
  intros (Hn & Num & ND & Len & Out & Tr) Hj B E L N T.
  pose proof (ids_kept ts ts' j t t' Hj E N) as M.
  assert (I : In (beacon o) (map t_id ts)) by (rewrite <- B; apply in_map, (nth_error_In _ _ Hj)).
  refine (conj _ (conj _ (conj _ (conj _ (conj _ _))))).
  - congruence.
  - rewrite M. apply num_skip; auto.
  - rewrite M. exact ND.
  - apply Forall_forall. intros u Hu. apply In_nth_error in Hu as [i Hi]. rewrite N in Hi. destruct (Nat.eqb i j).
    + injection Hi as <-. rewrite E. apply (proj1 (Forall_forall _ _) Len). apply (nth_error_In _ _ Hj).
    + apply (proj1 (Forall_forall _ _) Len). apply (nth_error_In _ _ Hi).
  - intros b Hb. rewrite M in Hb. apply never_skip; [apply Out; exact Hb|left]. intros <-. contradiction.
  - intros i u Hi. rewrite N in Hi. destruct (Nat.eqb_spec i j) as [->|D].
    + injection Hi as <-. exact T.
    + apply tracked_skip; [apply Tr; exact Hi|]. left. rewrite <- B. intros X. apply D. apply (nodup_id ts i j u t ND Hi Hj X).
Qed.

Lemma el_cases c e : (Qle_bool c e = true /\ (c <= e)%Q) \/ (Qle_bool c e = false /\ (e < c)%Q).
Proof.
  destruct (Qle_bool c e) eqn:E; [left|right]; (split; [reflexivity|]).
  - apply Qle_bool_iff. exact E.
  - apply Qnot_le_lt. intros H. apply Qle_bool_iff in H. congruence.
Qed.
Lemma gap_test p o : ((max_for_new_arc <? s_time o - s_time p)%Z = true <-> new_arc p o).
Proof. unfold new_arc, gap. rewrite Z.ltb_lt. change max_for_new_arc with 300000000000%Z. tauto. Qed.

Lemma observe_ok k pre ts n o : stations_ok sts -> complete o -> invariant pre ts n ->
  (observe k ts n o = Ok Assert /\ forall s, In s sts -> st_code s <> beacon o) \/
  (exists ts' n' e, observe k ts n o = Ok (Goes ts' n' e) /\ invariant (pre ++ [o]) ts' n' /\ expected pre o e /\
     exists s, In s sts /\ st_code s = beacon o).
Proof.
  intros Hs Hc Inv. pose proof Hc as (L3 & H1 & H2 & H3 & H4). unfold PodArc_model.observe.
  destruct (station_of_ok sts (s_id o) Hs L3) as (st & -> & Hst). cbn [obind].
  destruct st as [st|]; [right|left; split; [reflexivity|exact Hst]].
  destruct Hst as (sa & sb & Ests & Est & _).
  assert (Known : exists s, In s sts /\ st_code s = beacon o).
  { exists st. split; [rewrite Ests; apply in_or_app; right; left; reflexivity|exact Est]. }
  destruct (bad_flags_ok o Hc) as (b & -> & Hb). cbn [obind].
  pose proof Inv as (Hn & Num & ND & Len & Out & Tr).
  pose proof (find_track_ok (s_id o) ts 0 L3 Len) as Find.
  destruct b.
  - assert (F : flagged o) by (apply Hb; reflexivity). assert (U : ~ usable o) by (intros [X _]; contradiction).
    destruct Find as [(j & t & -> & Hj & Ht)|[-> Hno]]; cbn [obind].
    + cbn [plus]. assert (Lj : j < length ts) by (apply nth_error_Some; congruence).
      unfold load at 1. rewrite Hj. cbn [of_option obind].
      destruct (store_ok ts j (Track (t_id t) (t_count t) (t_proper t) (t_l1 t) (t_arc t) true) Lj) as (ts' & -> & Ll & Nn).
      cbn [obind]. exists ts', n, Flagged. split; [reflexivity|]. split; [|split; [exact F|exact Known]].
      eapply invariant_store; try eassumption; [reflexivity|].
      destruct (Tr j t Hj) as (Hcnt & p & since & La & T & P & A & R). split; [exact Hcnt|]. exists p, (since ++ [o]). cbn.
      split; [apply latest_skip; auto|]. split; [exact T|]. split; [exact P|]. split; [apply arc_skip; auto|].
      split; [|reflexivity]. intros _. exists o. split; [apply in_snoc; auto|]. split; [symmetry; exact Ht|exact F].
    + exists ts, n, Flagged. split; [reflexivity|]. split; [|split; [exact F|exact Known]]. refine (conj _ (conj _ (conj _ (conj _ (conj _ _))))); try assumption.
      * apply num_skip; auto.
      * intros b I. apply never_skip; [apply Out; exact I|right; exact U].
      * intros i t E. apply tracked_skip; [apply Tr; exact E|left]. apply Hno. apply (nth_error_In _ _ E).
  - assert (F : ~ flagged o) by (intros X; apply Hb in X; discriminate).
    destruct (el_cases cutoff (s_el o)) as [[-> El]|[-> El]]; cbn [negb].
    + destruct (shift_factor_ok sts (s_id o) k Hs L3) as (os & Esf & Hos).
      destruct os as [os|]; [|exfalso; destruct Known as (s & I & E); apply (Hos s I E)].
      assert (Load1 : exists v, load (s_vals o) l1i = Ok v /\ nth_error (s_vals o) l1i = Some v) by (apply load_ok; exact H1).
      destruct Load1 as (v1 & EL1 & NL1). destruct (load_ok _ _ H2) as (v2 & EL2 & NL2).
      assert (NT : s_lwz o = None -> ~ usable o) by (intros E (_ & _ & X); contradiction).
      destruct Find as [(j & t & -> & Hj & Ht)|[-> Hno]]; cbn [obind plus]; rewrite Esf; cbn [obind fst Z.eqb negb];
        rewrite EL1; cbn [obind]; rewrite EL2; cbn [obind]; destruct (s_lwz o) as [lwz|] eqn:Elwz.
      * assert (U : usable o) by (split; [exact F|split; [exact El|congruence]]).
        assert (Lj : j < length ts) by (apply nth_error_Some; congruence).
        unfold load at 1. rewrite Hj. cbn [of_option obind].
        destruct (Tr j t Hj) as (Hcnt & p & since & La & T & P & A & R). cbn zeta.
        rewrite Ht in La, A, R. change (firstn 3 (s_id o)) with (beacon o) in La, A, R, Ht.
        assert (Ids : exists ids, numbered pre ids /\ nth_error ids (t_count t) = Some (beacon o)).
        { exists (map t_id ts). split; [exact Num|]. rewrite Hcnt, (nth_map_id _ _ _ Hj), Ht. reflexivity. }
        pose proof (gap_test p o) as G. rewrite T.
        destruct (max_for_new_arc <? s_time o - s_time p)%Z eqn:Eg.
        -- assert (NA : new_arc p o) by (apply G; reflexivity). rewrite orb_true_r.
           match goal with |- context [store ts j ?x] => destruct (store_ok ts j x Lj) as (ts' & -> & Ll & Nn) end.
           cbn [obind]. eexists ts', n, _. split; [reflexivity|]. split; [|split; [|exact Known]].
           ++ eapply invariant_store; try eassumption; [reflexivity|]. split; [exact Hcnt|]. exists o, []. cbn. rewrite Ht.
              split; [apply latest_now; exact U|]. split; [reflexivity|]. split; [exists v1; auto|].
              split; [apply (arc_next _ _ _ _ _ _ _ _ _ p since); auto|]. split; [discriminate|]. intros (q & [] & _).
           ++ split; [exact U|]. exists p, since. split; [exact La|]. split; [right; exact NA|]. split; [exact Ids|]. left. rewrite Elwz. auto.
        -- assert (NA : ~ new_arc p o) by (intros X; apply G in X; discriminate). rewrite orb_false_r.
           destruct (t_reinit t) eqn:Er.
           ++ match goal with |- context [store ts j ?x] => destruct (store_ok ts j x Lj) as (ts' & -> & Ll & Nn) end.
              cbn [obind]. eexists ts', n, _. split; [reflexivity|]. split; [|split; [|exact Known]].
              ** eapply invariant_store; try eassumption; [reflexivity|]. split; [exact Hcnt|]. exists o, []. cbn. rewrite Ht.
                 split; [apply latest_now; exact U|]. split; [reflexivity|]. split; [exists v1; auto|].
                 split; [apply (arc_same _ _ _ _ _ _ _ _ _ p since); auto|]. split; [discriminate|]. intros (q & [] & _).
              ** split; [exact U|]. exists p, since. split; [exact La|]. split; [left; apply R; reflexivity|]. split; [exact Ids|]. right. auto.
           ++ match goal with |- context [store ts j ?x] => destruct (store_ok ts j x Lj) as (ts' & -> & Ll & Nn) end.
              cbn [obind]. eexists ts', n, _. split; [reflexivity|]. split; [|split; [|exact Known]].
              ** eapply invariant_store; try eassumption; [reflexivity|]. split; [exact Hcnt|]. exists o, []. cbn. rewrite Ht.
                 split; [apply latest_now; exact U|]. split; [reflexivity|]. split; [exists v1; auto|].
                 split; [apply (arc_same _ _ _ _ _ _ _ _ _ p since); auto|]. split; [discriminate|]. intros (q & [] & _).
              ** split; [exact U|]. exists p, since. split; [exact La|].
                 split; [intros X; apply R in X; discriminate|]. split; [exact NA|]. split; [exact Ids|]. split; [exact A|]. split; [reflexivity|].
                 exists (t_l1 t), (rv v1). split; [exact P|]. split; [exists v1; auto|reflexivity].
      * exists ts, n, NoTropo. split; [reflexivity|]. split; [apply invariant_skip; auto|]. split; [cbn; auto|exact Known].
      * assert (U : usable o) by (split; [exact F|split; [exact El|congruence]]).
        destruct (s_id o) as [|a [|b [|c id]]] eqn:Eid; try (cbn in L3; lia). cbn [load nth_error of_option obind].
        assert (Bo : beacon o = [a; b; c]) by (unfold beacon; rewrite Eid; reflexivity).
        assert (Nin : ~ In (beacon o) (map t_id ts)).
        { intros I. apply in_map_iff in I as (t & E & I). apply (Hno t I). rewrite E, Bo. reflexivity. }
        assert (Num' : numbered (pre ++ [o]) (map t_id ts ++ [beacon o])) by (apply num_new; assumption).
        eexists _, (S n), _. split; [reflexivity|]. split; [|split; [|exact Known]].
        -- assert (Inv' : invariant (pre ++ [o]) (ts ++ [Track [a; b; c] n (s_time o) (rv v1) 0 false]) (S n)); [|exact Inv'].
           unfold invariant. rewrite app_length, map_app. cbn [map length t_id]. rewrite <- Bo.
           split; [lia|]. split; [exact Num'|]. split; [|split; [|split]].
           ++ rewrite <- (rev_involutive (map t_id ts ++ [beacon o])), rev_app_distr. apply NoDup_rev. cbn. constructor.
              ** intros I. apply in_rev in I. contradiction.
              ** apply NoDup_rev. exact ND.
           ++ apply Forall_app. split; [exact Len|]. constructor; [cbn [t_id]; rewrite Bo; reflexivity|constructor].
           ++ intros b' Hb'. apply never_skip.
              ** apply Out. intros I. apply Hb'. apply in_or_app. auto.
              ** left. intros <-. apply Hb'. apply in_or_app. right. left. reflexivity.
           ++ intros i t E. destruct (Nat.lt_ge_cases i (length ts)) as [Li|Li].
              ** rewrite nth_error_app1 in E by exact Li. apply tracked_skip; [apply Tr; exact E|left].
                 intros X. apply Nin. rewrite <- X. apply in_map, (nth_error_In _ _ E).
              ** rewrite nth_error_app2 in E by exact Li. destruct (i - length ts) as [|m] eqn:Em; [|destruct m; discriminate].
                 cbn in E. injection E as <-. split; [cbn; lia|]. exists o, []. cbn [t_id t_proper t_l1 t_arc t_reinit].
                 split; [apply latest_now; exact U|]. split; [reflexivity|]. split; [exists v1; auto|].
                 split; [apply arc_first; auto|]. split; [discriminate|]. intros (q & [] & _).
        -- cbn. split; [exact U|]. split; [exact Elwz|]. split; [apply Out; exact Nin|].
           exists (map t_id ts ++ [beacon o]). split; [exact Num'|].
           rewrite nth_error_app2 by (rewrite map_length; lia). rewrite map_length, Hn, Nat.sub_diag. reflexivity.
      * exists ts, n, NoTropo. split; [reflexivity|]. split; [apply invariant_skip; auto|]. split; [cbn; auto|exact Known].
    + assert (U : ~ usable o) by (intros (_ & X & _); apply (Qlt_not_le _ _ El X)).
      exists ts, n, Low. split; [reflexivity|]. split; [apply invariant_skip; auto|]. split; [cbn; auto|exact Known].
Qed.

(* ---- the whole run ---- *)
Lemma invariant_start : invariant [] [] 0.
Proof.
  refine (conj eq_refl (conj _ (conj _ (conj _ (conj _ _))))).
  - constructor.
  - constructor.
  - constructor.
  - intros b _ q [].
  - intros i t E. destruct i; discriminate.
Qed.
Definition known (o : sight) : Prop := exists s, In s sts /\ st_code s = beacon o.
Definition run_result (pre l : list sight) (evs : list event) (fin : ending) : Prop :=
  (forall a o b e, l = a ++ o :: b -> nth_error evs (length a) = Some e -> expected (pre ++ a) o e /\ known o) /\
  ((fin = Asserted /\ exists a o b, l = a ++ o :: b /\ length evs = length a /\ ~ known o) \/
   (exists ts n, fin = Finished ts n /\ length evs = length l)).
Lemma run_ok k l : stations_ok sts -> Forall complete l -> forall pre ts n, invariant pre ts n ->
  exists evs fin, run k ts n l = Ok (evs, fin) /\ run_result pre l evs fin.
Proof.
  intros Hs. induction l as [|o r IH]; intros C pre ts n Inv; cbn [PodArc_model.run].
  - exists [], (Finished ts n). split; [reflexivity|]. split; [|right; eauto].
    intros a o b e E. destruct a; discriminate.
  - destruct (observe_ok k pre ts n o Hs (Forall_inv C) Inv) as [[-> No]|(ts' & n' & e & -> & Inv' & Ex & Kn)]; cbn [obind].
    + exists [], Asserted. split; [reflexivity|]. split.
      * intros a o' b e _ E. destruct (length a); discriminate.
      * left. split; [reflexivity|]. exists [], o, r. split; [reflexivity|]. split; [reflexivity|].
        intros (s & I & E). apply (No s I E).
    + destruct (IH (Forall_inv_tail C) _ _ _ Inv') as (evs & fin & -> & Spec & End). cbn [obind fst snd].
      exists (e :: evs), fin. split; [reflexivity|]. split.
      * intros a o' b e' E N. destruct a as [|x a].
        -- injection E as <- <-. cbn in N. injection N as <-. rewrite app_nil_r. auto.
        -- injection E as <- E. cbn in N. destruct (Spec a o' b e' E N) as [S1 S2]. rewrite <- app_assoc in S1. auto.
      * destruct End as [(-> & a & o' & b & E & L & No)|(t2 & n2 & -> & L)].
        -- left. split; [reflexivity|]. exists (o :: a), o', b. cbn. rewrite E, L. auto.
        -- right. exists t2, n2. cbn. rewrite L. auto.
Qed.
Lemma run_spec k l : stations_ok sts -> Forall complete l ->
  exists evs fin, run k [] 0 l = Ok (evs, fin) /\ run_result [] l evs fin.
Proof. intros Hs C. apply run_ok; auto using invariant_start. Qed.

Lemma snoc_or_nil {A} (l : list A) : l = [] \/ exists a x, l = a ++ [x].
Proof. destruct l as [|y l] using rev_ind; [auto|]. right. eauto. Qed.
Lemma latest_unique pre b p s p' s' : latest pre b p s -> latest pre b p' s' -> p = p' /\ s = s'.
Proof.
  intros (a & E & B & U & N) (a' & E' & B' & U' & N'). rewrite E in E'. clear E.
  assert (H : forall (a a' : list sight) p s p' s', a ++ p :: s = a' ++ p' :: s' -> (p = p' /\ s = s') \/ In p s' \/ In p' s).
  { clear. induction a as [|x a IH]; intros a' p s p' s' E.
    - destruct a' as [|y a']; cbn in E.
      + injection E as <- <-. auto.
      + injection E as <- E. right. right. rewrite E. apply in_or_app. right. left. reflexivity.
    - destruct a' as [|y a']; cbn in E.
      + injection E as <- E. right. left. rewrite <- E. apply in_or_app. right. left. reflexivity.
      + injection E as <- E. apply (IH _ _ _ _ _ E). }
  destruct (H _ _ _ _ _ _ E') as [Q|[I|I]]; [exact Q| |]; exfalso; [apply (N' p I B U)|apply (N p' I B' U')].
Qed.
Lemma latest_not_never pre b p s : latest pre b p s -> never pre b -> False.
Proof. intros (a & -> & B & U & _) N. apply (N p); [apply in_or_app; right; left; reflexivity|exact B|exact U]. Qed.
(* a count is formed whenever it can be *)
Lemma doppler_formed_ok k l evs fin : stations_ok sts -> Forall complete l -> run k [] 0 l = Ok (evs, fin) ->
  forall a o b p since, l = a ++ o :: b -> length a < length evs -> usable o -> latest a (beacon o) p since ->
  ~ interrupted since (beacon o) -> ~ new_arc p o ->
  exists n arc x y vp vo, nth_error evs (length a) = Some (Doppler n arc (y - x)%Q (gap p o)) /\
    nth_error (s_vals p) l1i = Some vp /\ rv vp = x /\ nth_error (s_vals o) l1i = Some vo /\ rv vo = y.
Proof.
  intros Hs C R a o b p since E L U La NI NA. destruct (run_spec k l Hs C) as (evs' & fin' & R' & Spec & _).
  rewrite R in R'. injection R' as <- <-. destruct (nth_error evs (length a)) as [e|] eqn:Ne; [|apply nth_error_None in Ne; lia].
  destruct (Spec a o b e E Ne) as [X _]. cbn [app] in X. pose proof U as (UF & UE & UL). destruct e; cbn [PodArc_proofs.expected] in X.
  - contradiction.
  - exfalso. destruct X as [_ X]. apply (Qlt_not_le _ _ X UE).
  - exfalso. tauto.
  - exfalso. destruct X as (_ & _ & X & _). apply (latest_not_never _ _ _ _ La X).
  - exfalso. destruct X as (_ & p' & s' & La' & D & _). destruct (latest_unique _ _ _ _ _ _ La La') as [<- <-]. tauto.
  - destruct X as (_ & p' & s' & La' & _ & _ & _ & _ & -> & x & y & (vp & P1 & P2) & (vo & O1 & O2) & ->).
    destruct (latest_unique _ _ _ _ _ _ La La') as [<- <-]. exists n, arc, x, y, vp, vo. auto.
Qed.

(* ---- numbers of the beacons ---- *)
Definition number_of (e : event) : option nat :=
  match e with First n _ | Again n _ | Doppler n _ _ _ => Some n | _ => None end.
Lemma numbered_inv pre o ids : numbered (pre ++ [o]) ids ->
  (numbered pre ids /\ (~ usable o \/ In (beacon o) ids)) \/
  (exists i, ids = i ++ [beacon o] /\ numbered pre i /\ usable o /\ ~ In (beacon o) i).
Proof.
  intros H. inversion H as [E|p i x N D E|p i x N U D E].
  - destruct pre; discriminate.
  - apply app_inj_tail in E as [-> ->]. auto.
  - apply app_inj_tail in E as [-> ->]. right. exists i. auto.
Qed.
Lemma numbered_props pre : forall ids, numbered pre ids ->
  NoDup ids /\ forall b, In b ids -> exists o, In o pre /\ beacon o = b.
Proof.
  intros ids H. induction H as [|pre ids o H [IH1 IH2] D|pre ids o H [IH1 IH2] U D].
  - split; [constructor|intros b []].
  - split; [exact IH1|]. intros b I. destruct (IH2 b I) as (q & Iq & Bq). exists q. split; [apply in_or_app; auto|exact Bq].
  - split.
    + rewrite <- (rev_involutive (ids ++ [beacon o])), rev_app_distr. apply NoDup_rev. cbn. constructor.
      * intros I. apply in_rev in I. contradiction.
      * apply NoDup_rev. exact IH1.
    + intros b I. apply in_app_or in I as [I|[<-|[]]].
      * destruct (IH2 b I) as (q & Iq & Bq). exists q. split; [apply in_or_app; auto|exact Bq].
      * exists o. split; [apply in_or_app; right; left; reflexivity|reflexivity].
Qed.
Lemma numbered_fun pre : forall i j, numbered pre i -> numbered pre j -> i = j.
Proof.
  induction pre as [|o pre IH] using rev_ind; intros i j Hi Hj.
  - inversion Hi as [E1|? ? ? ? ? E1|? ? ? ? ? ? E1]; try (destruct pre; discriminate).
    inversion Hj as [E2|? ? ? ? ? E2|? ? ? ? ? ? E2]; try (destruct pre; discriminate). reflexivity.
  - apply numbered_inv in Hi as [[Hi Di]|(i' & -> & Hi & Ui & Ni)]; apply numbered_inv in Hj as [[Hj Dj]|(j' & -> & Hj & Uj & Nj)].
    + auto.
    + pose proof (IH _ _ Hi Hj) as <-. tauto.
    + pose proof (IH _ _ Hi Hj) as <-. tauto.
    + rewrite (IH _ _ Hi Hj). reflexivity.
Qed.
Lemma numbered_prefix l pre : forall ids ids', numbered pre ids -> numbered (pre ++ l) ids' -> exists r, ids' = ids ++ r.
Proof.
  induction l as [|o l IH] using rev_ind; intros ids ids' H H'.
  - rewrite app_nil_r in H'. exists []. rewrite app_nil_r. apply (numbered_fun pre); assumption.
  - rewrite app_assoc in H'. apply numbered_inv in H' as [[H' _]|(i & -> & H' & _)].
    + apply (IH ids ids' H H').
    + destruct (IH ids i H H') as [r ->]. exists (r ++ [beacon o]). apply app_assoc_reverse.
Qed.
Lemma expected_number pre o e n : expected pre o e -> number_of e = Some n ->
  exists ids, numbered (pre ++ [o]) ids /\ nth_error ids n = Some (beacon o).
Proof.
  intros X E. destruct e; try discriminate; injection E as ->; cbn in X.
  - destruct X as (_ & _ & _ & X). exact X.
  - destruct X as (U & p & s & La & _ & (ids & N & I) & _). exists ids. split; [|exact I].
    apply num_skip; [exact N|right; apply (nth_error_In _ _ I)].
  - destruct X as (U & p & s & La & _ & _ & (ids & N & I) & _). exists ids. split; [|exact I].
    apply num_skip; [exact N|right; apply (nth_error_In _ _ I)].
Qed.
Lemma split_order {A} (a : list A) : forall o b a' o' b', a ++ o :: b = a' ++ o' :: b' -> length a <= length a' ->
  (a = a' /\ o = o') \/ exists m, a' = a ++ o :: m.
Proof.
  induction a as [|x a IH]; intros o b a' o' b' E L; destruct a' as [|y a']; cbn in E; cbn in L.
  - injection E as -> _. auto.
  - injection E as -> E. right. exists a'. reflexivity.
  - lia.
  - injection E as -> E. destruct (IH _ _ _ _ _ E ltac:(lia)) as [[-> ->]|[m ->]]; [auto|]. right. exists m. reflexivity.
Qed.
Lemma numbers_ok k l evs fin : stations_ok sts -> Forall complete l -> run k [] 0 l = Ok (evs, fin) ->
  forall a o b e n a' o' b' e' n', l = a ++ o :: b -> l = a' ++ o' :: b' ->
  nth_error evs (length a) = Some e -> nth_error evs (length a') = Some e' ->
  number_of e = Some n -> number_of e' = Some n' ->
  n < length sts /\ (n = n' <-> beacon o = beacon o').
Proof.
  intros Hs C R. destruct (run_spec k l Hs C) as (evs' & fin' & R' & Spec & _).
  rewrite R in R'. injection R' as <- <-.
  assert (W : forall a o b e n a' o' b' e' n', l = a ++ o :: b -> l = a' ++ o' :: b' -> length a <= length a' ->
    nth_error evs (length a) = Some e -> nth_error evs (length a') = Some e' ->
    number_of e = Some n -> number_of e' = Some n' -> (n = n' <-> beacon o = beacon o')).
  { intros a o b e n a' o' b' e' n' E E' L N N' Nu Nu'.
    destruct (Spec a o b e E N) as [X _]. destruct (Spec a' o' b' e' E' N') as [X' _]. cbn [app] in X, X'.
    destruct (expected_number _ _ _ _ X Nu) as (ids & H & I). destruct (expected_number _ _ _ _ X' Nu') as (ids' & H' & I').
    assert (P : exists r, ids' = ids ++ r).
    { rewrite E in E'. destruct (split_order _ _ _ _ _ _ E' L) as [[-> ->]|[m ->]].
      - exists []. rewrite app_nil_r. apply (numbered_fun (a' ++ [o'])); assumption.
      - apply (numbered_prefix (m ++ [o']) (a ++ [o])); [exact H|].
        replace ((a ++ [o]) ++ m ++ [o']) with ((a ++ o :: m) ++ [o']); [exact H'|]. rewrite <- !app_assoc. reflexivity. }
    destruct P as [r ->]. assert (I2 : nth_error (ids ++ r) n = Some (beacon o)).
    { rewrite nth_error_app1; [exact I|]. apply nth_error_Some. congruence. }
    destruct (numbered_props _ _ H') as [ND _]. split.
    - intros <-. congruence.
    - intros EB. apply (proj1 (NoDup_nth_error _) ND).
      + apply nth_error_Some. congruence.
      + congruence. }
  intros a o b e n a' o' b' e' n' E E' N N' Nu Nu'. split.
  - destruct (Spec a o b e E N) as [X _]. cbn [app] in X. destruct (expected_number _ _ _ _ X Nu) as (ids & H & I).
    destruct (numbered_props _ _ H) as [ND In2].
    assert (Inc : incl ids (map st_code sts)).
    { intros c Ic. destruct (In2 c Ic) as (q & Iq & <-). apply in_split in Iq as (u & v & Euv).
      assert (Lu : length u <= length a).
      { apply (f_equal (@length sight)) in Euv. rewrite !app_length in Euv. cbn in Euv. lia. }
      destruct (nth_error evs (length u)) as [eu|] eqn:Eu.
      - destruct (Spec u q (v ++ b) eu) as [_ (s & Is & Es)]; [|exact Eu|].
        + rewrite E. replace (a ++ o :: b) with ((a ++ [o]) ++ b) by (rewrite <- app_assoc; reflexivity).
          rewrite Euv, <- app_assoc. reflexivity.
        + rewrite <- Es. apply in_map. exact Is.
      - apply nth_error_None in Eu. assert (length a < length evs) by (apply nth_error_Some; congruence). lia. }
    pose proof (NoDup_incl_length ND Inc) as Le. rewrite map_length in Le.
    assert (n < length ids) by (apply nth_error_Some; congruence). lia.
  - destruct (Nat.le_ge_cases (length a) (length a')) as [L|L].
    + apply (W a o b e n a' o' b' e' n' E E' L N N' Nu Nu').
    + pose proof (W a' o' b' e' n' a o b e n E' E L N' N Nu' Nu) as [W1 W2]. split; intros; symmetry; auto.
Qed.

(* ---- intervals ---- *)
Definition before (p o : sight) : Prop := (s_time p < s_time o)%Z \/ (s_time p = s_time o /\ beacon p <> beacon o).
Definition in_order (l : list sight) : Prop := StronglySorted before l.
Lemma in_order_pair l : in_order l -> forall a p b o c, l = a ++ p :: b ++ o :: c -> before p o.
Proof.
  intros S. induction S as [|x l S IH F]; intros a p b o c E; [destruct a; discriminate|].
  destruct a as [|y a]; injection E as -> E.
  - rewrite Forall_forall in F. apply F. rewrite E. apply in_or_app. right. left. reflexivity.
  - apply (IH a p b o c E).
Qed.
Lemma interval_ok k l evs fin a o b n arc cyc dt : stations_ok sts -> Forall complete l -> in_order l ->
  run k [] 0 l = Ok (evs, fin) -> l = a ++ o :: b -> nth_error evs (length a) = Some (Doppler n arc cyc dt) -> (0 < dt <= 300000000000)%Z.
Proof.
  intros Hs C Ord R E N. destruct (run_spec k l Hs C) as (evs' & fin' & R' & Spec & _).
  rewrite R in R'. injection R' as <- <-. destruct (Spec a o b _ E N) as [X _]. cbn [PodArc_proofs.expected app] in X.
  destruct X as (_ & p & s & (u & -> & B & _) & _ & NA & _ & _ & -> & _). unfold new_arc in NA. split; [|lia].
  unfold gap. destruct (in_order_pair l Ord u p s o b) as [O|[_ O]]; [rewrite E, <- app_assoc; reflexivity|lia|congruence].
Qed.
End Proofs.

(* ---- running statistics ---- *)
Local Open Scope Q_scope.
Fixpoint total (l : list Q) : Q := match l with [] => 0 | x :: r => x + total r end.
Definition nb (l : list Q) : Q := inject_Z (Z.of_nat (length l)).
Definition spread (m : Q) (l : list Q) : Q := total (map (fun x => (x - m) * (x - m)) l).
Lemma total_app l x : total (l ++ [x]) == total l + x.
Proof. induction l as [|y l IH]; cbn; [ring|]. rewrite IH. ring. Qed.
Lemma spread_eq m l : spread m l == total (map (fun x => x * x) l) - 2 * m * total l + nb l * m * m.
Proof.
  unfold spread, nb. induction l as [|x l IH]; cbn [map total length]; [cbn; ring|].
  rewrite Nat2Z.inj_succ, <- Z.add_1_l, inject_Z_plus, IH. ring.
Qed.
Lemma nb_app l x : nb (l ++ [x]) == nb l + 1.
Proof. unfold nb. rewrite app_length. cbn [length]. rewrite Nat2Z.inj_add, inject_Z_plus. reflexivity. Qed.
Lemma nb_pos x l : 0 < nb (x :: l).
Proof. unfold nb. cbn [length]. rewrite Nat2Z.inj_succ. unfold Qlt. cbn. lia. Qed.
Lemma nb_nonneg l : 0 <= nb l.
Proof. unfold nb, Qle. cbn. lia. Qed.
Definition collected (r : stats) (l : list Q) : Prop :=
  Z.pos (r_k r) = (1 + Z.of_nat (length l))%Z /\ nb l * r_mean r == total l /\
  r_var r == total (map (fun x => x * x) l) - r_mean r * total l.
Lemma collected_update r l x : collected r l -> collected (stats_update r x) (l ++ [x]).
Proof.
  intros (K & M & V). unfold collected. cbn [stats_update r_k r_mean r_var].
  assert (KN : inject_Z (Z.pos (r_k r)) == nb l + 1) by (rewrite K, inject_Z_plus; unfold nb; ring).
  pose proof (nb_nonneg l) as P. set (n := nb l) in *.
  assert (N1 : ~ n + 1 == 0) by lra.
  split; [rewrite Pos2Z.inj_succ, K, app_length; cbn [length]; lia|].
  rewrite map_app. cbn [map]. rewrite !total_app, nb_app, KN. fold n. rewrite V, <- M. split; field; exact N1.
Qed.
Lemma collected_all xs : forall r l, collected r l -> collected (fold_left stats_update xs r) (l ++ xs).
Proof.
  induction xs as [|x xs IH]; intros r l H; cbn [fold_left].
  - rewrite app_nil_r. exact H.
  - replace (l ++ x :: xs) with ((l ++ [x]) ++ xs) by (rewrite <- app_assoc; reflexivity). apply IH, collected_update, H.
Qed.
Lemma collected_start : collected stats0 [].
Proof. split; [reflexivity|]. split; reflexivity. Qed.
Lemma statistics_ok x xs : let l := x :: xs in let r := fold_left stats_update l stats0 in
  stats_count r = length l /\ r_mean r == total l / nb l /\
  exists v, stats_variance r = Some v /\ v == spread (total l / nb l) l / nb l.
Proof.
  intros l r. destruct (collected_all l _ _ collected_start) as (K & M & V). fold r in K, M, V. cbn [app] in K, M, V.
  pose proof (nb_pos x xs) as P. fold l in P. assert (N : ~ nb l == 0) by lra.
  assert (C : stats_count r = length l) by (unfold stats_count; lia).
  assert (M' : r_mean r == total l / nb l) by (rewrite <- M; field; exact N).
  split; [exact C|]. split; [exact M'|]. unfold stats_variance. rewrite C. unfold l at 1. cbn [length].
  eexists. split; [reflexivity|]. change (inject_Z (Z.of_nat (S (length xs)))) with (nb l).
  rewrite V, M', spread_eq. field. exact N.
Qed.
Definition sample_variance (l : list Q) : Q := spread (total l / nb l) l / (nb l - 1).

(* ---- the test of the residuals ---- *)
(* the squares in the model are the comparison of the program *)
Lemma square_lt a b : 0 <= b -> (Qabs a < b <-> a * a < b * b).
Proof.
  intros B. destruct (Qabs_case a (fun q => q < b <-> a * a < b * b)); try tauto.
  - intros A. split; intros H; [nra|]. apply Qnot_le_lt. intros L. nra.
  - intros A. split; intros H; [nra|]. apply Qnot_le_lt. intros L. nra.
Qed.
Lemma accepted_early r sn oc : (stats_count r <= 5)%nat -> (accepted r sn oc = true <-> Qabs oc < 1000).
Proof.
  intros C. unfold accepted. replace (Nat.ltb 5 (stats_count r)) with false by (symmetry; apply Nat.ltb_ge; exact C).
  rewrite square_lt by (unfold Qle; cbn; lia). rewrite negb_true_iff. split; intros H.
  - apply Qnot_le_lt. intros L. apply Qle_bool_iff in L. congruence.
  - destruct (Qle_bool (1000 * 1000) (oc * oc)) eqn:E; [|reflexivity]. apply Qle_bool_iff in E. lra.
Qed.
(* [sd] is the standard deviation *)
Lemma accepted_late r sn oc sd v : (5 < stats_count r)%nat -> stats_variance r = Some v -> 0 <= sd -> sd * sd == v -> 0 < sn ->
  (accepted r sn oc = true <-> Qabs oc < 30 * sd / sn).
Proof.
  intros C V S E N. unfold accepted. replace (Nat.ltb 5 (stats_count r)) with true by (symmetry; apply Nat.ltb_lt; exact C).
  rewrite V, negb_true_iff.
  assert (D : Qabs oc < 30 * sd / sn <-> Qabs (oc * sn) < 30 * sd).
  { rewrite Qabs_Qmult, (Qabs_pos sn) by lra. split; intros H.
    - apply (Qmult_lt_r _ _ sn N) in H. setoid_replace (30 * sd / sn * sn) with (30 * sd) in H by (field; lra). exact H.
    - apply (Qmult_lt_r _ _ sn N). setoid_replace (30 * sd / sn * sn) with (30 * sd) by (field; lra). exact H. }
  rewrite D, square_lt by lra. setoid_replace (30 * sd * (30 * sd)) with (30 * 30 * v) by (rewrite <- E; ring).
  split; intros H.
  - apply Qnot_le_lt. intros L. apply Qle_bool_iff in L. congruence.
  - destruct (Qle_bool (30 * 30 * v) (oc * sn * (oc * sn))) eqn:X; [|reflexivity]. apply Qle_bool_iff in X. lra.
Qed.
(* the statistics are those of the accepted residuals *)
Fixpoint chosen (l : list (Q * Q)) (bs : list bool) : list Q :=
  match l, bs with p :: q, b :: c => if b then snd p :: chosen q c else chosen q c | _, _ => [] end.
Lemma residuals_ok l : forall r r' bs, residuals r l = (r', bs) ->
  length bs = length l /\ r' = fold_left stats_update (chosen l bs) r.
Proof.
  induction l as [|p l IH]; intros r r' bs H; cbn [residuals] in H.
  - injection H as <- <-. auto.
  - unfold residual in H. destruct (accepted r (fst p) (snd p)).
    + destruct (residuals (stats_update r (snd p)) l) as [r2 b2] eqn:E. injection H as <- <-.
      destruct (IH _ _ _ E) as [L ->]. cbn. auto.
    + destruct (residuals r l) as [r2 b2] eqn:E. injection H as <- <-.
      destruct (IH _ _ _ E) as [L ->]. cbn. auto.
Qed.
(* once the accepted residuals agree exactly, nothing is accepted any more *)
Lemma stuck r l v : (5 < stats_count r)%nat -> stats_variance r = Some v -> v == 0 -> residuals r l = (r, map (fun _ => false) l).
Proof.
  intros C V E. induction l as [|p l IH]; [reflexivity|]. cbn [residuals map]. unfold residual.
  assert (A : accepted r (fst p) (snd p) = false).
  { unfold accepted. replace (Nat.ltb 5 (stats_count r)) with true by (symmetry; apply Nat.ltb_lt; exact C). rewrite V.
    apply negb_false_iff, Qle_bool_iff. rewrite E. nra. }
  rewrite A, IH. reflexivity.
Qed.

(* ---- the indices ---- *)
Local Open Scope nat_scope.
Definition first_at (codes : list obs_code) (c : obs_code) (i : Z) : Prop :=
  exists a b, codes = a ++ c :: b /\ ~ In c a /\ i = Z.of_nat (length a).
Lemma code_index codes c : let i := get_observation_code_index codes c in
  ((i <? 0)%Z = false -> first_at codes c i) /\ (first_at codes c i -> (i <? 0)%Z = false) /\ ((i <? 0)%Z = true -> ~ In c codes).
Proof.
  intros i. destruct (proj1 (obs_index_ok codes c i) eq_refl) as [[-> N]|(a & b & E & N & ->)].
  - split; [discriminate|]. split; [|auto]. intros (a & b & _ & _ & X). lia.
  - assert (L : (Z.of_nat (length a) <? 0)%Z = false) by (apply Z.ltb_ge; lia). rewrite L.
    split; [intros _; exists a, b; auto|]. split; [reflexivity|discriminate].
Qed.
Lemma indexes_ok codes code l1 l2 f w1 w2 : get_rinex_indexes codes = (code, (l1, l2, f, w1, w2)) ->
  (code = 0%Z /\ first_at codes (ObsCode phase 1) l1 /\ first_at codes (ObsCode phase 2) l2 /\ first_at codes (ObsCode frequency_offset 0) f /\
     first_at codes (ObsCode power_level 1) w1 /\ first_at codes (ObsCode power_level 2) w2) \/
  (code = 1%Z /\ exists c, In c [ObsCode phase 1; ObsCode phase 2; ObsCode frequency_offset 0; ObsCode power_level 1; ObsCode power_level 2] /\ ~ In c codes).
Proof.
  unfold get_rinex_indexes. intros H. injection H as <- <- <- <- <- <-.
  destruct (code_index codes (ObsCode phase 1)) as (A1 & _ & B1). destruct (code_index codes (ObsCode phase 2)) as (A2 & _ & B2).
  destruct (code_index codes (ObsCode frequency_offset 0)) as (A3 & _ & B3). destruct (code_index codes (ObsCode power_level 1)) as (A4 & _ & B4).
  destruct (code_index codes (ObsCode power_level 2)) as (A5 & _ & B5).
  destruct (get_observation_code_index codes (ObsCode frequency_offset 0) <? 0)%Z; [right; split; [reflexivity|]; eexists; split; [|apply B3; reflexivity]; cbn; tauto|].
  destruct (get_observation_code_index codes (ObsCode phase 1) <? 0)%Z; [right; split; [reflexivity|]; eexists; split; [|apply B1; reflexivity]; cbn; tauto|].
  destruct (get_observation_code_index codes (ObsCode phase 2) <? 0)%Z; [right; split; [reflexivity|]; eexists; split; [|apply B2; reflexivity]; cbn; tauto|].
  destruct (get_observation_code_index codes (ObsCode power_level 1) <? 0)%Z; [right; split; [reflexivity|]; eexists; split; [|apply B4; reflexivity]; cbn; tauto|].
  destruct (get_observation_code_index codes (ObsCode power_level 2) <? 0)%Z; [right; split; [reflexivity|]; eexists; split; [|apply B5; reflexivity]; cbn; tauto|].
  left. cbn [orb]. auto 10.
Qed.

(* ---- an example ---- *)
Local Open Scope char_scope.
Definition d01 : station := Station ["D"; "0"; "1"] ["T"; "H"; "U"; "B"] (repeat "x" 30) (repeat "4" 10) 3 0.
Definition d02 : station := Station ["D"; "0"; "2"] ["D"; "I"; "O"; "B"] (repeat "x" 30) (repeat "4" 10) 3 5.
Definition clear_value (x : Q) : rvalue := RValue x " " " ".
Definition seen (t : Z) (id : chars) (l1 : Q) (el : Q) (w : option Q) : sight :=
  Sight (t * 1000000000) id [clear_value l1; clear_value 3; clear_value 5; clear_value 6] el w.
Definition broken (t : Z) (id : chars) : sight :=
  Sight (t * 1000000000) id [RValue 7 " " "1"; clear_value 3; clear_value 5; clear_value 6] 40 (Some 1%Q).
Definition ex_day : list sight :=
  [seen 0 ["D"; "0"; "1"] 100 20 (Some 1%Q); seen 0 ["D"; "0"; "2"] 500 30 (Some 2%Q);
   seen 10 ["D"; "0"; "1"] 140 21 (Some 1%Q); broken 20 ["D"; "0"; "1"]; seen 20 ["D"; "0"; "2"] 520 31 (Some 2%Q);
   seen 30 ["D"; "0"; "1"] 250 22 (Some 1%Q); seen 40 ["D"; "0"; "1"] 290 23 (Some 1%Q); seen 50 ["D"; "0"; "1"] 333 5 (Some 1%Q);
   seen 400 ["D"; "0"; "1"] 10 25 (Some 9%Q); seen 410 ["D"; "0"; "1"] 25 25 None; seen 420 ["D"; "0"; "1"] 30 25 (Some 1%Q)].
Definition ex_run := run [d01; d02] 0 1 2 3 10 0 [] 0 ex_day.
Lemma ex_run_ok : exists fin, ex_run = Ok ([First 0 1; First 1 2; Doppler 0 0 (140 - 100) 10000000000; Flagged; Doppler 1 0 (520 - 500) 20000000000;
    Again 0 None; Doppler 0 0 (290 - 250) 10000000000; Low; Again 0 (Some 9%Q); NoTropo; Doppler 0 1 (30 - 10) 20000000000], fin).
Proof. eexists. vm_compute. reflexivity. Qed.
Lemma ex_day_ok : stations_ok [d01; d02] /\ Forall (complete 0 1 2 3) ex_day.
Proof. split; [intros s [<-|[<-|[]]]; split; reflexivity|]. repeat constructor. Qed.
(* two records of one beacon in one data block *)
Definition ex_twice : list sight := [seen 0 ["D"; "0"; "1"] 100 20 (Some 1%Q); seen 0 ["D"; "0"; "1"] 101 20 (Some 1%Q)].
Lemma ex_day_order : in_order ex_day.
Proof. repeat (constructor; [|repeat (constructor; [first [left; reflexivity|right; split; [reflexivity|discriminate]]|]); constructor]). constructor. Qed.
