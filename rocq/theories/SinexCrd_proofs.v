From Coq Require Import String List ZArith QArith Ascii Bool Lia.
From Verif Require Import Base CLib_model SinexCrd_model.
Import ListNotations.
Local Open Scope Z_scope.

(* ---- what is asked for ---- *)
Definition str (s : string) : chars := list_ascii_of_string s.
Definition is_for (id : chars) (par : string) (e : estimate) : Prop :=
  firstn 4 (cstr (s_site e)) = firstn 4 (cstr id) /\ firstn 4 (cstr (s_type e)) = str par.
(* the first estimate of the list for a site and parameter *)
Definition first_for (l : list estimate) (id : chars) (par : string) (e : estimate) : Prop :=
  exists a b, l = a ++ e :: b /\ is_for id par e /\ Forall (fun x => ~ is_for id par x) a.
Definition metres (p v : estimate) : Prop := firstn 2 (cstr (s_units p)) = str "m " /\ firstn 3 (cstr (s_units v)) = str "m/y".
(* position and velocity of a coordinate, in the right units, and the value at a date *)
Definition moved (l : list estimate) (id : chars) (sta vel : string) (t q : Q) : Prop :=
  exists p v, first_for l id sta p /\ first_for l id vel v /\ metres p v /\ (q == s_value p + s_value v * ((t - s_epoch p) / (36525 # 100)))%Q.
Definition complete (l : list estimate) (id : chars) : Prop :=
  forall sta vel, In (sta, vel) [("STAX", "VELX"); ("STAY", "VELY"); ("STAZ", "VELZ")]%string -> exists p v, first_for l id sta p /\ first_for l id vel v /\ metres p v.
Definition delivered (l : list estimate) (t : Q) (id : chars) (c : crd) : Prop :=
  c_id c = firstn 4 id /\ moved l id "STAX" "VELX" t (c_x c) /\ moved l id "STAY" "VELY" t (c_y c) /\ moved l id "STAZ" "VELZ" t (c_z c).
(* a station has a site *)
Definition has_site (sites : list chars) (id : chars) : Prop := exists s, In s sites /\ firstn 4 (cstr s) = firstn 4 (cstr id).

Lemma same_iff : forall a b, same_chars a b = true <-> a = b.
Proof.
  induction a as [|x a IH]; intros [|y b]; cbn; split; intros H; try discriminate; try reflexivity.
  - apply andb_prop in H. destruct H as [A B]. apply Ascii.eqb_eq in A. apply IH in B. subst. reflexivity.
  - injection H as -> ->. rewrite Ascii.eqb_refl. apply IH. reflexivity.
Qed.
Lemma same_n_iff n a b : same_n n a b = true <-> firstn n (cstr a) = firstn n (cstr b). Proof. apply same_iff. Qed.
Lemma is_for_iff id par sp e : firstn 4 (cstr par) = str sp -> same_n 4 (s_site e) id && same_n 4 (s_type e) par = true <-> is_for id sp e.
Proof. intros E. rewrite andb_true_iff, !same_n_iff, E. reflexivity. Qed.
Lemma find_first id par sp l e : firstn 4 (cstr par) = str sp -> find_est id par l = Some e <-> first_for l id sp e.
Proof.
  intros E. unfold find_est, first_for. induction l as [|x l IH]; cbn [find].
  - split; [discriminate|]. intros (a & b & X & _). destruct a; discriminate.
  - destruct (same_n 4 (s_site x) id && same_n 4 (s_type x) par) eqn:M.
    + apply (is_for_iff _ _ sp) in M; [|exact E]. split.
      * intros H. injection H as ->. exists [], l. split; [reflexivity|]. split; [exact M|constructor].
      * intros (a & b & X & F & N). destruct a as [|y a]; cbn in X; injection X as -> X; [reflexivity|]. inversion N; subst. contradiction.
    + assert (NM : ~ is_for id sp x) by (intros H; apply (is_for_iff _ par sp _ E) in H; congruence). rewrite IH. split.
      * intros (a & b & -> & F & N). exists (x :: a), b. split; [reflexivity|]. split; [exact F|]. constructor; assumption.
      * intros (a & b & X & F & N). destruct a as [|y a]; cbn in X; injection X as -> X; [contradiction|]. inversion N; subst. exists a, b. split; [reflexivity|]. split; assumption.
Qed.
Lemma units_iff p v : same_n 2 (s_units p) ["m"; " "]%char && same_n 3 (s_units v) ["m"; "/"; "y"]%char = true <-> metres p v.
Proof. rewrite andb_true_iff, !same_n_iff. reflexivity. Qed.
Lemma component_ok id par sp vp l t q : firstn 4 (cstr par) = str sp -> firstn 4 (cstr (vel_of par)) = str vp -> component id par l t = Ok q -> moved l id sp vp t q.
Proof.
  intros E1 E2 H. unfold component in H. destruct (find_est id par l) as [p|] eqn:P; [|discriminate]. destruct (find_est id (vel_of par) l) as [v|] eqn:V; [|discriminate].
  destruct (same_n 2 _ _ && same_n 3 _ _) eqn:U; [|discriminate]. injection H as <-. exists p, v. split; [apply (find_first _ _ _ _ _ E1), P|]. split; [apply (find_first _ _ _ _ _ E2), V|]. split; [apply units_iff, U|]. reflexivity.
Qed.
Lemma component_some id par sp vp l t : firstn 4 (cstr par) = str sp -> firstn 4 (cstr (vel_of par)) = str vp -> (exists p v, first_for l id sp p /\ first_for l id vp v /\ metres p v) <-> exists q, component id par l t = Ok q.
Proof.
  intros E1 E2. unfold component. split.
  - intros (p & v & P & V & U). apply (find_first _ par _ _ _ E1) in P. apply (find_first _ (vel_of par) _ _ _ E2) in V. rewrite P, V. apply units_iff in U. rewrite U. eauto.
  - intros [q H]. destruct (find_est id par l) as [p|] eqn:P; [|discriminate]. destruct (find_est id (vel_of par) l) as [v|] eqn:V; [|discriminate]. destruct (same_n 2 _ _ && same_n 3 _ _) eqn:U; [|discriminate].
    exists p, v. split; [apply (find_first _ _ _ _ _ E1), P|]. split; [apply (find_first _ _ _ _ _ E2), V|apply units_iff, U].
Qed.
Lemma station_ok id l t x y z : extrapolate_coordinates id l t = Ok (x, y, z) -> moved l id "STAX" "VELX" t x /\ moved l id "STAY" "VELY" t y /\ moved l id "STAZ" "VELZ" t z.
Proof.
  unfold extrapolate_coordinates. destruct (component id STAX l t) as [x'|] eqn:X; [|discriminate]. cbn [obind]. destruct (component id STAY l t) as [y'|] eqn:Y; [|discriminate]. cbn [obind]. destruct (component id STAZ l t) as [z'|] eqn:Z; [|discriminate]. cbn [obind]. intros H. injection H as -> -> ->.
  split; [apply (component_ok id STAX)|split; [apply (component_ok id STAY)|apply (component_ok id STAZ)]]; try assumption; reflexivity.
Qed.
Lemma station_some id l t : complete l id <-> exists r, extrapolate_coordinates id l t = Ok r.
Proof.
  pose proof (component_some id STAX "STAX" "VELX" l t eq_refl eq_refl) as CX. pose proof (component_some id STAY "STAY" "VELY" l t eq_refl eq_refl) as CY. pose proof (component_some id STAZ "STAZ" "VELZ" l t eq_refl eq_refl) as CZ.
  unfold extrapolate_coordinates. split.
  - intros C. destruct (proj1 CX (C _ _ (or_introl eq_refl))) as [x X]. destruct (proj1 CY (C _ _ (or_intror (or_introl eq_refl)))) as [y Y]. destruct (proj1 CZ (C _ _ (or_intror (or_intror (or_introl eq_refl))))) as [z Z]. rewrite X, Y, Z. cbn. eauto.
  - intros [r H]. destruct (component id STAX l t) as [x|]; [|discriminate]. destruct (component id STAY l t) as [y|]; [|discriminate]. destruct (component id STAZ l t) as [z|]; [|discriminate].
    intros sta vel [E|[E|[E|[]]]]; injection E as <- <-; [apply CX|apply CY|apply CZ]; eauto.
Qed.
(* the stations kept *)
Fixpoint kept (ids : list chars) (miss : list bool) : list chars :=
  match ids, miss with
  | id :: ids', m :: miss' => if m : bool then kept ids' miss' else id :: kept ids' miss'
  | _, _ => []
  end.
Lemma collect_ok l t : forall ids miss rs, collect l t ids miss = Ok rs -> Forall2 (delivered l t) (kept ids miss) rs.
Proof.
  induction ids as [|id ids IH]; intros [|m miss] rs H; cbn in *; try (injection H as <-; constructor). destruct m; [apply IH, H|].
  destruct (extrapolate_coordinates id l t) as [[[x y] z]|] eqn:X; [|discriminate]. destruct (collect l t ids miss) as [r|] eqn:C; [|discriminate]. injection H as <-. constructor; [|apply IH, C].
  apply station_ok in X. split; [reflexivity|exact X].
Qed.
Lemma collect_some l t : forall ids miss, Forall (complete l) (kept ids miss) <-> exists rs, collect l t ids miss = Ok rs.
Proof.
  induction ids as [|id ids IH]; intros [|m miss]; cbn; try (split; [eauto|constructor]). destruct m; [apply IH|]. split.
  - intros F. inversion F as [|x y C F']; subst. apply (station_some id l t) in C. destruct C as [[[x y] z] ->]. apply IH in F'. destruct F' as [rs ->]. cbn. eauto.
  - intros [rs H]. destruct (extrapolate_coordinates id l t) as [r|] eqn:X; [|discriminate]. destruct r as [[x y] z]. destruct (collect l t ids miss) as [r|] eqn:C; [|discriminate].
    constructor; [apply (station_some id l t); eauto|]. apply IH. eauto.
Qed.
Lemma kept_all (ids : list chars) : kept ids (map (fun _ => false) ids) = ids.
Proof. induction ids as [|id ids IH]; cbn; [reflexivity|]. rewrite IH. reflexivity. Qed.
(* the stations with a site, in order *)
Fixpoint with_site (sites ids : list chars) : list chars :=
  match ids with [] => [] | id :: r => if existsb (fun s => same_n 4 id s) sites then id :: with_site sites r else with_site sites r end.
Lemma has_site_iff sites id : existsb (fun s => same_n 4 id s) sites = true <-> has_site sites id.
Proof.
  rewrite existsb_exists. split; intros (s & I & E); exists s; (split; [exact I|]); [apply same_n_iff in E|apply same_n_iff]; symmetry; exact E.
Qed.
Lemma kept_missing sites ids : kept ids (missing ids sites) = with_site sites ids.
Proof. induction ids as [|id ids IH]; [reflexivity|]. cbn [with_site missing map kept]. fold (missing ids sites). destruct (existsb (fun rid => same_n 4 id rid) sites); cbn [negb]; [f_equal|]; exact IH. Qed.
Inductive subseq {A} : list A -> list A -> Prop :=
| sub_nil : subseq [] []
| sub_take x a b : subseq a b -> subseq (x :: a) (x :: b)
| sub_drop x a b : subseq a b -> subseq a (x :: b).
Lemma with_site_spec sites ids : subseq (with_site sites ids) ids /\ forall id, In id (with_site sites ids) <-> In id ids /\ has_site sites id.
Proof.
  induction ids as [|id ids [S I]]; cbn [with_site]; [split; [constructor|]; cbn; intuition|]. destruct (existsb (fun s => same_n 4 id s) sites) eqn:E.
  - split; [constructor; exact S|]. intros x. cbn. rewrite I. apply has_site_iff in E. split; [intros [<-|[A B]]; auto|intros [[<-|A] B]; auto].
  - split; [constructor; exact S|]. intros x. cbn. rewrite I. split; [intros [A B]; auto|]. intros [[<-|A] B]; [|auto]. apply has_site_iff in B. congruence.
Qed.

Lemma core_ok sites ests ids t flag rs : extrapolate_core sites ests ids t flag = Ok (0, rs) ->
  exists sv l who, sites = Some sv /\ ests = Some l /\ Forall2 (delivered l t) who rs /\
    (length sv = length ids -> who = ids) /\ (length sv <> length ids -> flag = false /\ subseq who ids /\ forall id, In id who <-> In id ids /\ has_site sv id).
Proof.
  unfold extrapolate_core. destruct sites as [sv|]; [|discriminate]. destruct (Nat.eqb (length sv) (length ids)) eqn:N; cbn [negb andb].
  - apply Nat.eqb_eq in N. destruct ests as [l|]; [|discriminate]. destruct (Nat.ltb _ _); [discriminate|]. destruct (collect l t ids _) as [r|] eqn:C; [|discriminate]. cbn [obind]. intros H. injection H as <-.
    apply collect_ok in C. rewrite kept_all in C. exists sv, l, ids. split; [reflexivity|]. split; [reflexivity|]. split; [exact C|]. split; [reflexivity|]. intros X. contradiction.
  - apply Nat.eqb_neq in N. destruct flag; [discriminate|]. destruct ests as [l|]; [|discriminate]. destruct (Nat.ltb _ _); [discriminate|]. destruct (collect l t ids _) as [r|] eqn:C; [|discriminate]. cbn [obind]. intros H. injection H as <-.
    apply collect_ok in C. rewrite kept_missing in C. exists sv, l, (with_site sv ids). split; [reflexivity|]. split; [reflexivity|]. split; [exact C|]. split; [intros X; contradiction|]. intros _. split; [reflexivity|]. apply with_site_spec.
Qed.
Lemma core_all sv l ids t flag : length sv = length ids -> (6 * length ids <= length l)%nat -> Forall (complete l) ids ->
  exists rs, extrapolate_core (Some sv) (Some l) ids t flag = Ok (0, rs) /\ Forall2 (delivered l t) ids rs.
Proof.
  intros N L F. unfold extrapolate_core. rewrite (proj2 (Nat.eqb_eq _ _) N). cbn [negb andb]. destruct (Nat.ltb_spec (length l) (length ids * 6)) as [B|_]; [lia|].
  destruct (proj1 (collect_some l t ids (map (fun _ => false) ids)) ltac:(rewrite kept_all; exact F)) as [rs C]. rewrite C. exists rs. split; [reflexivity|]. apply collect_ok in C. rewrite kept_all in C. exact C.
Qed.
Lemma core_errors sites ests ids t flag :
  (sites = None -> extrapolate_core sites ests ids t flag = Ok (1, [])) /\
  (forall sv, sites = Some sv -> length sv <> length ids -> flag = true -> extrapolate_core sites ests ids t flag = Ok (2, [])) /\
  (forall sv, sites = Some sv -> length sv <> length ids -> flag = false -> forall l, ests = Some l -> (length l < 6 * length ids)%nat -> extrapolate_core sites ests ids t flag = Ok (1, [])).
Proof.
  split; [intros ->; reflexivity|]. split.
  - intros sv -> N ->. unfold extrapolate_core. rewrite (proj2 (Nat.eqb_neq _ _) N). reflexivity.
  - intros sv -> N -> l -> L. unfold extrapolate_core. rewrite (proj2 (Nat.eqb_neq _ _) N). cbn [negb andb]. destruct (Nat.ltb_spec (length l) (length ids * 6)) as [B|B]; [reflexivity|lia].
Qed.
(* examples *)
Definition ex_est (site par units : string) (v : Q) : estimate := Est (str site) (str par) (str units) 59000 v.
Definition ex_site (site : string) : list estimate :=
  [ex_est site "STAX  " "m   " 1; ex_est site "STAY  " "m   " 2; ex_est site "STAZ  " "m   " 3;
   ex_est site "VELX  " "m/y " (1 # 10); ex_est site "VELY  " "m/y " (2 # 10); ex_est site "VELZ  " "m/y " (3 # 10)].
Lemma ex_two : extrapolate_core (Some [str "DIOB"; str "THUB"]) (Some (ex_site "DIOB" ++ ex_site "THUB")) [str "THUB"; str "DIOB"] (59000 + (36525 # 50)) true =
  Ok (0%Z, [Crd (str "THUB") (1 + (1 # 10) * ((59000 + (36525 # 50) - 59000) / (36525 # 100))) (2 + (2 # 10) * ((59000 + (36525 # 50) - 59000) / (36525 # 100))) (3 + (3 # 10) * ((59000 + (36525 # 50) - 59000) / (36525 # 100)));
          Crd (str "DIOB") (1 + (1 # 10) * ((59000 + (36525 # 50) - 59000) / (36525 # 100))) (2 + (2 # 10) * ((59000 + (36525 # 50) - 59000) / (36525 # 100))) (3 + (3 # 10) * ((59000 + (36525 # 50) - 59000) / (36525 # 100)))])%Q.
Proof. reflexivity. Qed.
Lemma ex_complete : Forall (complete (ex_site "DIOB" ++ ex_site "THUB")) [str "THUB"; str "DIOB"].
Proof.
  repeat constructor; apply (station_some _ _ 0%Q); eexists; reflexivity.
Qed.
(* a station of four characters keeps its code through the wrapper *)
Lemma wrapper_code id : length (firstn 4 (cstr id)) = 4%nat -> firstn 4 (site_buffer id) = firstn 4 (cstr id) /\ firstn 4 (cstr (site_buffer id)) = firstn 4 (cstr id).
Proof.
  intros L. unfold site_buffer. set (s := firstn 4 (cstr id)) in *. rewrite L. cbn [repeat Nat.sub].
  assert (NN : Forall (fun c => Ascii.eqb c nul = false) s). { unfold s. clear. generalize 4%nat as n. induction id as [|c id IH]; intros [|n]; cbn; try constructor; destruct (Ascii.eqb c nul) eqn:E; cbn; try constructor; [exact E|apply IH]. }
  clearbody s. destruct s as [|a [|b [|c [|d [|]]]]]; try discriminate L. split; [reflexivity|].
  inversion NN as [|? ? E1 N1]; subst. inversion N1 as [|? ? E2 N2]; subst. inversion N2 as [|? ? E3 N3]; subst. inversion N3 as [|? ? E4 N4]; subst. cbn. rewrite E1, E2, E3, E4. reflexivity.
Qed.
