From Coq Require Import List Reals ZArith QArith Qreals Bool Lia Lra.
From Verif Require Import Base Kalman2_model Kalman2_proofs RfoKalman_model.
Import ListNotations.
Local Open Scope Z_scope.

(* ---- specification ---- *)
(* a block gives the value [z] at epoch [t]: it has beacons and all have this value of F *)
Definition gives (i : nat) (a : attempt) (o : R * Z) : Prop :=
  exists v obs, a = Block (snd o) obs /\ obs <> [] /\ fst o = Q2R v /\ Forall (fun b => exists w, nth_error b i = Some w /\ (w == v)%Q) obs.
(* a file that is read to its end *)
Definition good_file (f : file) (obs : list (R * Z)) : Prop := exists i l, f = File (Some i) l true /\ Forall2 (gives i) l obs.
(* every beacon of every block has a value of F: what the readers guarantee (C05) *)
Definition complete (f : file) : Prop :=
  match f with
  | File (Some i) l _ => Forall (fun a => match a with Block _ obs => obs <> [] /\ Forall (fun b => (i < length b)%nat) obs | _ => True end) l
  | _ => True
  end.

Lemma load_some {A} (l : list A) i v : load l i = Ok v <-> nth_error l i = Some v.
Proof. unfold load. destruct (nth_error l i); split; intros E; try discriminate; injection E as ->; reflexivity. Qed.
Lemma all_equal_ok i v obs : Forall (fun b => exists w, nth_error b i = Some w /\ (w == v)%Q) obs -> all_equal i v obs = Ok true.
Proof.
  induction obs as [|b obs IH]; intros F; [reflexivity|]. inversion F as [|? ? (w & E & Q) F']; subst. cbn [all_equal].
  apply load_some in E. rewrite E. cbn [obind]. apply Qeq_bool_iff in Q. rewrite Q. apply IH, F'.
Qed.
Lemma all_equal_inv i v obs : all_equal i v obs = Ok true -> Forall (fun b => exists w, nth_error b i = Some w /\ (w == v)%Q) obs.
Proof.
  induction obs as [|b obs IH]; cbn [all_equal]; [constructor|]. destruct (load b i) as [w|] eqn:E; [|discriminate]. cbn [obind].
  destruct (Qeq_bool w v) eqn:Q; [|discriminate]. intros H. constructor; [|apply IH, H]. exists w. split; [apply load_some, E|apply Qeq_bool_iff, Q].
Qed.
(* the first value is one of those equal *)
Lemma first_value_ok i v obs : obs <> [] -> Forall (fun b => exists w, nth_error b i = Some w /\ (w == v)%Q) obs ->
  exists v', first_value obs i = Ok v' /\ (v' == v)%Q /\ Forall (fun b => exists w, nth_error b i = Some w /\ (w == v')%Q) obs.
Proof.
  intros N F. destruct obs as [|b obs]; [contradiction|]. pose proof F as F0. inversion F as [|? ? (w & E & Q) _]; subst. exists w. cbn [first_value].
  split; [apply load_some, E|]. split; [exact Q|]. eapply Forall_impl; [|exact F0]. intros b' (w' & E' & Q'). exists w'. split; [exact E'|]. rewrite Q', Q. reflexivity.
Qed.

Lemma read_all_ok i l obs : Forall2 (gives i) l obs -> forall k, read_all i k l true = Ok (0, lk_run k obs).
Proof.
  induction 1 as [|a [z t] l obs (v & bs & -> & N & E & F) _ IH]; intros k; [reflexivity|]. cbn [snd fst] in *.
  destruct (first_value_ok i v bs N F) as (v' & E' & Q & F'). cbn [read_all]. rewrite E'. cbn [obind]. rewrite (all_equal_ok _ _ _ F'). cbn [obind].
  rewrite IH. rewrite (Qeq_eqR _ _ Q), <- E. reflexivity.
Qed.
Lemma read_all_inv i l : forall k eof k', read_all i k l eof = Ok (0, k') -> eof = true /\ exists obs, Forall2 (gives i) l obs.
Proof.
  induction l as [|a l IH]; intros k eof k'; cbn [read_all].
  - destruct eof; [|discriminate]. intros _. split; [reflexivity|]. exists []. constructor.
  - destruct a as [| |t bs]; [discriminate..|]. destruct (first_value bs i) as [v|] eqn:E; [|discriminate]. cbn [obind].
    destruct (all_equal i v bs) as [[|]|] eqn:F; [|discriminate..]. cbn [obind]. intros H. apply IH in H as (Ee & obs & G).
    split; [exact Ee|]. exists ((Q2R v, t) :: obs). constructor; [|exact G]. exists v, bs. split; [reflexivity|]. split; [intros ->; discriminate|].
    split; [reflexivity|apply all_equal_inv, F].
Qed.
Lemma read_all_code i l : forall k eof c k', read_all i k l eof = Ok (c, k') -> c = 0 \/ c = 1.
Proof.
  induction l as [|a l IH]; intros k eof c k'; cbn [read_all].
  - destruct eof; intros E; injection E as <- <-; auto.
  - destruct a as [| |t bs]; [intros E; injection E as <- <-; auto..|]. destruct (first_value bs i); [|discriminate]. cbn [obind].
    destruct (all_equal i _ bs) as [[|]|]; [|intros E; injection E as <- <-; auto|discriminate]. cbn [obind]. apply IH.
Qed.

Lemma all_files_ok files obss : Forall2 good_file files obss -> forall k, all_files k files = Ok (Done 0 (lk_run k (concat obss))).
Proof.
  induction 1 as [|f obs files obss (i & l & -> & G) _ IH]; intros k; [reflexivity|]. cbn [all_files get_rinex_rfo]. rewrite (read_all_ok i l obs G). cbn [obind fst snd].
  rewrite IH. cbn [concat]. unfold lk_run. rewrite fold_left_app. reflexivity.
Qed.
Lemma all_files_inv files : forall k k', all_files k files = Ok (Done 0 k') -> exists obss, Forall2 good_file files obss.
Proof.
  induction files as [|f files IH]; intros k k'; cbn [all_files]; [exists []; constructor|].
  destruct f as [|[i|] l eof]; cbn [get_rinex_rfo obind]; [discriminate| |discriminate].
  destruct (read_all i k l eof) as [[c k1]|] eqn:E; [|discriminate]. cbn [obind fst snd].
  destruct (read_all_code _ _ _ _ _ _ E) as [-> | ->]; [|discriminate]. intros H. destruct (IH _ _ H) as (obss & G).
  apply read_all_inv in E as (-> & obs & F). exists (obs :: obss). constructor; [|exact G]. exists i, l. split; [reflexivity|exact F].
Qed.
Lemma all_files_code files : forall k r, all_files k files = Ok r -> exists k', r = Done 0 k' \/ r = Done 1 k'.
Proof.
  induction files as [|f files IH]; intros k r; cbn [all_files]; [intros E; injection E as <-; eauto|].
  destruct f as [|[i|] l eof]; cbn [get_rinex_rfo obind]; [intros E; injection E as <-; eauto| |intros E; injection E as <-; eauto].
  destruct (read_all i k l eof) as [[c k1]|] eqn:E; [|discriminate]. cbn [obind fst snd].
  destruct (read_all_code _ _ _ _ _ _ E) as [-> | ->]; [apply IH|intros H; injection H as <-; eauto].
Qed.

Lemma fit_ok files obss z0 t0 obs0 rest sx sv sz : Forall2 good_file files obss -> obss = ((z0, t0) :: obs0) :: rest ->
  fit_relative_frequency_offset files sx sv sz = Ok (Done 0 (Some (lk_run (filter_of (Setup z0 3 sx sv sz t0)) (concat obss)))).
Proof.
  intros F E. pose proof F as F0. rewrite E in F0. inversion F0 as [|f ? files' ? (i & l & -> & G) _]; subst.
  inversion G as [|a ? l' ? (v & bs & -> & N & E & Fv) _]; subst. cbn [fst snd] in *.
  destruct (first_value_ok i v bs N Fv) as (v' & E' & Q & _). cbn [fit_relative_frequency_offset get_starting_rfo]. rewrite E'. cbn [obind].
  rewrite (all_files_ok _ _ F). cbn [obind]. unfold filter_of. cbn [su_x0 su_x1 su_s0 su_s1 su_so su_t0]. rewrite (Qeq_eqR _ _ Q), <- E. reflexivity.
Qed.
Lemma fit_inv files sx sv sz v : fit_relative_frequency_offset files sx sv sz = Ok (Done 0 v) ->
  files <> [] /\ v <> None /\ exists obss, Forall2 good_file files obss.
Proof.
  destruct files as [|f files]; [discriminate|]. intros H. split; [discriminate|]. cbn [fit_relative_frequency_offset] in H.
  destruct (get_starting_rfo f) as [[[| |] [[v0 t0]|]| |]|]; cbn [obind] in H; try discriminate.
  destruct (all_files _ _) as [d|] eqn:E; [|discriminate]. cbn [obind] in H.
  destruct (all_files_code _ _ _ E) as (k' & [-> | ->]); [|discriminate]. injection H as <-. split; [discriminate|]. exact (all_files_inv _ _ _ E).
Qed.
Lemma fit_code files sx sv sz r : fit_relative_frequency_offset files sx sv sz = Ok r ->
  (exists k, r = Done 0 (Some k)) \/ r = Done 1 None \/ (r = Terminated /\ exists rest, files = Throws :: rest).
Proof.
  destruct files as [|f files]; [discriminate|]. cbn [fit_relative_frequency_offset].
  destruct (get_starting_rfo f) as [d|] eqn:S; [|discriminate]. cbn [obind].
  destruct d as [c [[v0 t0]|]| |].
  - destruct c as [| |]; [|intros E; injection E as <-; auto..]. destruct (all_files _ _) as [d|] eqn:E; [|discriminate]. cbn [obind].
    destruct (all_files_code _ _ _ E) as (k' & [-> | ->]); intros H; injection H as <-; eauto.
  - destruct c; intros E; injection E as <-; auto.
  - intros E; injection E as <-; auto.
  - intros E; injection E as <-. right. right. split; [reflexivity|]. destruct f as [|[i|] [|[| |t obs] l] eof]; cbn in S; try discriminate; [eauto|].
    destruct (first_value obs i); discriminate.
Qed.
(* when the blocks are complete nothing undefined happens *)
Lemma first_value_complete i obs : obs <> [] -> Forall (fun b => (i < length b)%nat) obs -> exists v, first_value obs i = Ok v.
Proof.
  intros N F. destruct F as [|b obs L F]; [contradiction|]. cbn. unfold load. destruct (nth_error b i) eqn:E; [cbn; eauto|apply nth_error_None in E; lia].
Qed.
Lemma all_equal_complete i v obs : Forall (fun b => (i < length b)%nat) obs -> exists r, all_equal i v obs = Ok r.
Proof.
  induction 1 as [|b obs L F IH]; cbn [all_equal]; [eauto|]. unfold load. destruct (nth_error b i) eqn:E; [|apply nth_error_None in E; lia]. cbn [obind of_option].
  destruct (Qeq_bool _ v); [exact IH|eauto].
Qed.
Lemma fit_defined files sx sv sz : files <> [] -> Forall complete files -> fit_relative_frequency_offset files sx sv sz <> UB.
Proof.
  intros N F. destruct files as [|f files]; [contradiction|].
  assert (R : forall i l eof, complete (File (Some i) l eof) -> forall k, read_all i k l eof <> UB).
  { intros i l eof C. cbn in C. induction C as [|a l A C IH]; intros k; cbn [read_all]; [discriminate|]. destruct a as [| |t obs]; [discriminate..|].
    destruct A as [A1 A2]. destruct (first_value_complete i obs A1 A2) as (v & ->). cbn [obind]. destruct (all_equal_complete i v obs A2) as ([|] & ->); cbn [obind]; [apply IH|discriminate]. }
  assert (A : forall l, Forall complete l -> forall k, all_files k l <> UB).
  { induction 1 as [|g l C _ IH]; intros k; cbn [all_files]; [discriminate|]. destruct g as [|[i|] at' eof]; cbn [get_rinex_rfo obind]; [discriminate| |discriminate].
    pose proof (R i at' eof C k) as U. destruct (read_all i k at' eof) as [[c k1]|]; [|congruence]. cbn [obind fst snd].
    destruct c; [apply IH|discriminate..]. }
  cbn [fit_relative_frequency_offset].
  assert (S : exists d, get_starting_rfo f = Ok d).
  { inversion F as [|? ? C _]; subst. destruct f as [|[i|] [|[| |t obs] l] eof]; cbn; eauto. cbn in C. apply Forall_inv in C as [A1 A2].
    destruct (first_value_complete i obs A1 A2) as (v & ->). cbn. eauto. }
  destruct S as (d & ->). cbn [obind]. destruct d as [[| |] [[v0 t0]|]| |]; try discriminate.
  pose proof (A _ F (lk_init (Q2R v0) 3 sx sv sz t0)) as U. destruct (all_files _ _) as [d|] eqn:E; [|congruence]. cbn [obind].
  destruct (all_files_code _ _ _ E) as (k' & [-> | ->]); discriminate.
Qed.
