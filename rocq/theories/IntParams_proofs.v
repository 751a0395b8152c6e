(* Specification and lemmas behind IntParams_props.v. *)
From Coq Require Import List ZArith Reals Lra Lia Arith Bool.
From Verif Require Import Base Vec_model Vec_proofs Harmonics_model Legendre GravHarm Gravity_model Gravity_proofs IntParams_model.
Import ListNotations.
Local Open Scope R_scope.

(* ---- the specification: objects as values, with no memory behind them ---- *)
(* an object that is alive: degree, order, harmonics; None: gone *)
Record thing := Thing { g_degree : nat; g_order : nat; g_h : hc R; g_Re : R; g_GM : R; g_gm : R * R }.
(* a program that makes no copies, names only objects that are alive, makes objects for fields of degree at least
   the order and evaluates away from the centre *)
Inductive proper : list (option thing) -> list op -> Prop :=
  | proper_end l : proper l []
  | proper_make l d o h Re GM gm junk r : (1 <= o <= d)%nat -> h_degree h = Z.of_nat d -> (exists C S, coefficients h d C S) ->
      proper (l ++ [Some (Thing d o h Re GM gm)]) r -> proper l (Make d o h Re GM gm junk :: r)
  | proper_destroy l i g r : nth_error l i = Some (Some g) -> proper (set_at l i None) r -> proper l (Destroy i :: r)
  | proper_evaluate l i g p junk r : nth_error l i = Some (Some g) -> p <> vzero -> proper l r -> proper l (Evaluate i p junk :: r).
(* what the program sees: every evaluation is that of the field of the object, whatever happened before *)
Inductive seen : list (option thing) -> list op -> list result -> Prop :=
  | seen_end l : seen l [] []
  | seen_make l d o h Re GM gm junk r rs : seen (l ++ [Some (Thing d o h Re GM gm)]) r rs -> seen l (Make d o h Re GM gm junk :: r) (Done :: rs)
  | seen_destroy l i r rs : seen (set_at l i None) r rs -> seen l (Destroy i :: r) (Done :: rs)
  | seen_evaluate l i g p junk r rs a P : nth_error l i = Some (Some g) ->
      (forall C S, coefficients (g_h g) (g_degree g) C S -> a = field (g_Re g) (g_GM g) C S (g_degree g) (g_order g) p /\
         vx (row0 P) = vx (row0 (tensor (g_Re g) (g_GM g) C S (g_degree g) (g_order g) p))) ->
      seen l r rs -> seen l (Evaluate i p junk :: r) (Value a P :: rs).
Fixpoint after (l : list (option thing)) (os : list op) : list (option thing) :=
  match os with
  | [] => l
  | Make d o h Re GM gm _ :: r => after (l ++ [Some (Thing d o h Re GM gm)]) r
  | Destroy i :: r => after (set_at l i None) r
  | _ :: r => after l r
  end.

(* ---- the tie between memory and things ---- *)
Definition tied (w : world) (l : list (option thing)) : Prop :=
  length (w_objs w) = length l /\ length (w_heap w) = (2 * length l)%nat /\
  forall i, (i < length l)%nat ->
    match nth_error l i with
    | Some (Some g) => exists V W, nth_error (w_objs w) i = Some (Some (Params (2 * i) (2 * i + 1) (g_degree g) (g_order g) (Some (g_gm g)) (g_h g) (g_Re g) (g_GM g))) /\
        nth_error (w_heap w) (2 * i) = Some (Some V) /\ nth_error (w_heap w) (2 * i + 1) = Some (Some W) /\
        exact_size V (g_degree g) (g_order g) /\ exact_size W (g_degree g) (g_order g) /\
        (1 <= g_order g <= g_degree g)%nat /\ exists C S, coefficients (g_h g) (g_degree g) C S
    | _ => nth_error (w_objs w) i = Some None /\ nth_error (w_heap w) (2 * i) = Some None /\ nth_error (w_heap w) (2 * i + 1) = Some None
    end.
Lemma set_at_length {A} (x : A) : forall l i, length (set_at l i x) = length l.
Proof. induction l as [|y l IH]; intros [|i]; cbn; auto. Qed.
Lemma set_at_same {A} (x : A) : forall l i, (i < length l)%nat -> nth_error (set_at l i x) i = Some x.
Proof. induction l as [|y l IH]; intros [|i] H; cbn in *; [lia|lia|reflexivity|apply IH; lia]. Qed.
Lemma set_at_other {A} (x : A) : forall l i j, i <> j -> nth_error (set_at l i x) j = nth_error l j.
Proof. induction l as [|y l IH]; intros [|i] [|j] H; cbn; try reflexivity; [lia|apply IH; lia]. Qed.
Lemma the_ok {A} (l : list (option A)) i x : nth_error l i = Some (Some x) -> the l i = Ok x.
Proof. intros E. unfold the. now rewrite E. Qed.

Lemma lagrange_size p Re l k V W c V' W' : lagrange_polynomials p Re l k V W = Ok (c, (V', W')) ->
  t_rows V' = t_rows V /\ t_cols V' = t_cols V /\ t_rows W' = t_rows W /\ t_cols W' = t_cols W.
Proof.
  assert (PS : forall t i j v t', put t i j v = Ok t' -> t_rows t' = t_rows t /\ t_cols t' = t_cols t).
  { intros t i j v t'. unfold put. destruct (inside t i j); [|discriminate]. intros E. injection E as <-. auto. }
  set (keeps := fun (f : nat -> table * table -> outcome (table * table)) => forall n s s', f n s = Ok s' ->
     t_rows (fst s') = t_rows (fst s) /\ t_cols (fst s') = t_cols (fst s) /\ t_rows (snd s') = t_rows (snd s) /\ t_cols (snd s') = t_cols (snd s)).
  assert (IT : forall f, keeps f -> forall count lo s s', iterate lo count f s = Ok s' ->
     t_rows (fst s') = t_rows (fst s) /\ t_cols (fst s') = t_cols (fst s) /\ t_rows (snd s') = t_rows (snd s) /\ t_cols (snd s') = t_cols (snd s)).
  { intros f K. induction count as [|n IH]; intros lo s s' E; cbn [iterate] in E; [injection E as <-; auto|].
    destruct (f lo s) as [s1|] eqn:F; [|discriminate]. cbn [obind] in E. apply K in F. apply IH in E. intuition congruence. }
  assert (KZ : forall z0 rho, keeps (zonal_step z0 rho)).
  { intros z0 rho n [A B] s' E. unfold zonal_step in E. destruct (get A (n - 1) 0); [|discriminate]. cbn [obind] in E.
    destruct (get A (n - 2) 0); [|discriminate]. cbn [obind] in E. destruct (put A n 0 _) as [A'|] eqn:P1; [|discriminate]. cbn [obind] in E.
    destruct (put B n 0 0) as [B'|] eqn:P2; [|discriminate]. injection E as <-. apply PS in P1. apply PS in P2. cbn [fst snd]. tauto. }
  assert (KT : forall z0 rho m, keeps (tesseral_step z0 rho m)).
  { intros z0 rho m n [A B] s' E. unfold tesseral_step in E. destruct (get A (n - 1) m); [|discriminate]. cbn [obind] in E.
    destruct (get A (n - 2) m); [|discriminate]. cbn [obind] in E. destruct (put A n m _) as [A'|] eqn:P1; [|discriminate]. cbn [obind] in E.
    destruct (get B (n - 1) m); [|discriminate]. cbn [obind] in E. destruct (get B (n - 2) m); [|discriminate]. cbn [obind] in E.
    destruct (put B n m _) as [B'|] eqn:P2; [|discriminate]. injection E as <-. apply PS in P1. apply PS in P2. cbn [fst snd]. tauto. }
  assert (KO : forall x0 y0 z0 rho, keeps (order_step x0 y0 z0 rho l)).
  { intros x0 y0 z0 rho m [A B] s' E. unfold order_step in E. destruct (get A (m - 1) (m - 1)); [|discriminate]. cbn [obind] in E.
    destruct (get B (m - 1) (m - 1)); [|discriminate]. cbn [obind] in E. destruct (put A m m _) as [A1|] eqn:P1; [|discriminate]. cbn [obind] in E.
    destruct (put B m m _) as [B1|] eqn:P2; [|discriminate]. cbn [obind] in E. apply PS in P1. apply PS in P2. cbn [fst snd].
    destruct (Nat.ltb m l).
    - destruct (get A1 m m); [|discriminate]. cbn [obind] in E. destruct (put A1 (m + 1) m _) as [A2|] eqn:P3; [|discriminate]. cbn [obind] in E.
      destruct (get B1 m m); [|discriminate]. cbn [obind] in E. destruct (put B1 (m + 1) m _) as [B2|] eqn:P4; [|discriminate]. cbn [obind] in E.
      apply PS in P3. apply PS in P4. unfold loop in E. apply (IT _ (KT z0 rho m)) in E. cbn [fst snd] in E. intuition congruence.
    - cbn [obind] in E. unfold loop in E. apply (IT _ (KT z0 rho m)) in E. cbn [fst snd] in E. intuition congruence. }
  unfold lagrange_polynomials. destruct (Nat.ltb l k); [intros E; injection E as _ <- <-; auto|]. destruct p as [x y z].
  intros E. destruct (put V 0 0 _) as [V0|] eqn:P1; [|discriminate]. cbn [obind] in E.
  destruct (put W 0 0 0) as [W0|] eqn:P2; [|discriminate]. cbn [obind] in E. destruct (get V0 0 0); [|discriminate]. cbn [obind] in E.
  destruct (put V0 1 0 _) as [V1|] eqn:P3; [|discriminate]. cbn [obind] in E. destruct (put W0 1 0 0) as [W1|] eqn:P4; [|discriminate]. cbn [obind] in E.
  destruct (loop 2 l _ (V1, W1)) as [s|] eqn:L1; [|discriminate]. cbn [obind] in E.
  destruct (loop 1 k _ s) as [s2|] eqn:L2; [|discriminate]. cbn [obind] in E. injection E as _ ->.
  apply PS in P1, P2, P3, P4. unfold loop in L1, L2. apply (IT _ (KZ _ _)) in L1. apply (IT _ (KO _ _ _ _)) in L2. cbn [fst snd] in L1, L2. intuition congruence.
Qed.
Lemma partials_size p d o Re GM V W h junk aP V' W' : accel_partials_at p d o Re GM V W h junk = Ok (Some (aP, (V', W'))) ->
  exact_size V d o -> exact_size W d o -> exact_size V' d o /\ exact_size W' d o.
Proof.
  unfold accel_partials_at. destruct (_ && _); [|discriminate]. destruct (lagrange_polynomials _ _ _ _ _ _) as [[c [V1 W1]]|] eqn:L; [|discriminate].
  cbn [obind]. destruct (Z.eqb c 0); [|discriminate]. destruct (grav_accel_partials _ _ _ _ _ _ _ _) as [a|]; [|discriminate]. cbn [obind].
  intros E [A1 A2] [B1 B2]. injection E as _ <- <-. apply lagrange_size in L. unfold exact_size. intuition congruence.
Qed.

Lemma tied_free w l i g : tied w l -> nth_error l i = Some (Some g) ->
  exists w', step true w (Destroy i) = Ok (w', Done) /\ tied w' (set_at l i None).
Proof.
  intros (T1 & T2 & T3) E. assert (L : (i < length l)%nat) by (apply nth_error_Some; congruence).
  pose proof (T3 i L) as X. rewrite E in X. destruct X as (V & W & O & HV & HW & _).
  eexists. split.
  - cbn [step]. rewrite (the_ok _ _ _ O). cbn [obind p_V p_W]. unfold free. rewrite (the_ok _ _ _ HV). cbn [obind].
    rewrite (the_ok _ (2 * i + 1) W) by (rewrite set_at_other by lia; exact HW). cbn [obind]. reflexivity.
  - split; [|split]; cbn [w_objs w_heap]; rewrite ?set_at_length; try assumption.
    intros j Lj. destruct (Nat.eq_dec i j) as [<-|N].
    + rewrite set_at_same by exact L. rewrite set_at_same by lia. split; [reflexivity|].
      rewrite set_at_other by lia. rewrite set_at_same by lia. split; [reflexivity|]. rewrite set_at_same by (rewrite set_at_length; lia). reflexivity.
    + rewrite set_at_other by exact N. specialize (T3 j Lj). rewrite !set_at_other by lia. exact T3.
Qed.
Lemma tied_make w l d o h Re GM gm junk : tied w l -> (1 <= o <= d)%nat -> h_degree h = Z.of_nat d -> (exists C S, coefficients h d C S) ->
  exists w', step true w (Make d o h Re GM gm junk) = Ok (w', Done) /\ tied w' (l ++ [Some (Thing d o h Re GM gm)]).
Proof.
  intros (T1 & T2 & T3) OD HD CO. eexists. split.
  - cbn [step]. rewrite HD, Z.eqb_refl. cbn [negb andb]. reflexivity.
  - split; [|split]; cbn [w_objs w_heap]; rewrite ?app_length; cbn [length]; try lia.
    intros j Lj. destruct (Nat.eq_dec j (length l)) as [->|N].
    + rewrite nth_error_app2 by lia. rewrite Nat.sub_diag. cbn [nth_error]. rewrite T2.
      exists (Table (d + 3) (o + 3) junk), (Table (d + 3) (o + 3) junk). rewrite !nth_error_app2 by lia. rewrite T1, T2, !Nat.sub_diag.
      replace (2 * length l + 1 - 2 * length l)%nat with 1%nat by lia. cbn [nth_error g_degree g_order g_gm g_h g_Re g_GM].
      refine (conj eq_refl (conj eq_refl (conj eq_refl (conj _ (conj _ (conj OD CO)))))); split; reflexivity.
    + rewrite !nth_error_app1 by lia. apply T3. lia.
Qed.
Lemma value_inj (a b : vec) (P Q : mat) (t u : table * table) : Ok (Some ((a, P), t)) = Ok (Some ((b, Q), u)) -> a = b /\ P = Q.
Proof. intros H. assert (K : Some ((a, P), t) = Some ((b, Q), u)) by (injection H; congruence). split; congruence. Qed.
Lemma tied_evaluate w l i g p junk : tied w l -> nth_error l i = Some (Some g) -> p <> vzero ->
  exists w' a P, step true w (Evaluate i p junk) = Ok (w', Value a P) /\ tied w' l /\
    forall C S, coefficients (g_h g) (g_degree g) C S -> a = field (g_Re g) (g_GM g) C S (g_degree g) (g_order g) p /\
      vx (row0 P) = vx (row0 (tensor (g_Re g) (g_GM g) C S (g_degree g) (g_order g) p)).
Proof.
  intros (T1 & T2 & T3) E N. assert (L : (i < length l)%nat) by (apply nth_error_Some; congruence).
  pose proof (T3 i L) as X. rewrite E in X. destruct X as (V & W & O & HV & HW & SV & SW & OD & C & S & CO).
  destruct (partials_at_ok (g_Re g) (g_GM g) C S (g_degree g) (g_order g) V W (g_h g) p junk OD CO N SV SW) as (P & [V' W'] & EA & _).
  destruct (partials_size _ _ _ _ _ _ _ _ _ _ _ _ EA SV SW) as [SV' SW'].
  eexists _, _, P. split; [|split].
  - cbn [step]. rewrite (the_ok _ _ _ O). cbn [obind p_V p_W p_degree p_order p_Re p_GM p_h]. rewrite (the_ok _ _ _ HV). cbn [obind].
    rewrite (the_ok _ _ _ HW). cbn [obind]. rewrite EA. cbn [obind]. reflexivity.
  - split; [|split]; cbn [w_objs w_heap]; rewrite ?set_at_length; try assumption.
    intros j Lj. specialize (T3 j Lj). destruct (Nat.eq_dec i j) as [<-|Nj].
    + rewrite E in *. exists V', W'. split; [exact O|]. rewrite set_at_other by lia. rewrite set_at_same by lia. split; [reflexivity|].
      rewrite set_at_same by (rewrite set_at_length; lia). split; [reflexivity|]. refine (conj SV' (conj SW' (conj OD _))). eauto.
    + rewrite !set_at_other by lia. exact T3.
  - intros C2 S2 CO2. destruct (partials_at_ok (g_Re g) (g_GM g) C2 S2 (g_degree g) (g_order g) V W (g_h g) p junk OD CO2 N SV SW) as (P2 & tabs & E2 & X & _).
    rewrite EA in E2. apply value_inj in E2 as [E2 EP]. rewrite EP. split; [exact E2|exact X].
Qed.
Lemma history_tied : forall os l w, proper l os -> tied w l ->
  exists w' rs, history true w os = Ok (w', rs) /\ seen l os rs /\ tied w' (after l os).
Proof.
  induction os as [|o os IH]; intros l w P T; inversion P; subst; cbn [history after].
  - exists w, []. split; [reflexivity|]. split; [constructor|exact T].
  - edestruct (tied_make w l) as (w1 & E & T1); [exact T|eassumption|eassumption|eassumption|]. rewrite E. cbn [obind fst snd].
    destruct (IH _ _ ltac:(eassumption) T1) as (w2 & rs & -> & S & T2). cbn [obind fst snd]. exists w2, (Done :: rs).
    split; [reflexivity|]. split; [now constructor|exact T2].
  - edestruct (tied_free w l) as (w1 & E & T1); [exact T|eassumption|]. rewrite E. cbn [obind fst snd].
    destruct (IH _ _ ltac:(eassumption) T1) as (w2 & rs & -> & S & T2). cbn [obind fst snd]. exists w2, (Done :: rs).
    split; [reflexivity|]. split; [now constructor|exact T2].
  - edestruct (tied_evaluate w l) as (w1 & a & PP & E & T1 & X); [exact T|eassumption|eassumption|]. rewrite E. cbn [obind fst snd].
    destruct (IH _ _ ltac:(eassumption) T1) as (w2 & rs & -> & S & T2). cbn [obind fst snd]. exists w2, (Value a PP :: rs).
    split; [reflexivity|]. split; [econstructor; eassumption|exact T2].
Qed.
Lemma tied_empty : tied empty [].
Proof. split; [reflexivity|]. split; [reflexivity|]. intros i L. cbn in L. lia. Qed.
(* memory in use: two tables for every object that is alive, none for the others *)
Definition in_use (l : list (option table)) : nat := length (filter (fun x => match x with Some _ => true | None => false end) l).
Definition alive (l : list (option thing)) : nat := length (filter (fun x => match x with Some _ => true | None => false end) l).
Lemma pairs_use : forall (l : list (option thing)) heap, length heap = (2 * length l)%nat ->
  (forall i, (i < length l)%nat -> match nth_error l i with
     | Some (Some _) => exists V W, nth_error heap (2 * i) = Some (Some V) /\ nth_error heap (2 * i + 1) = Some (Some W)
     | _ => nth_error heap (2 * i) = Some None /\ nth_error heap (2 * i + 1) = Some None end) ->
  in_use heap = (2 * alive l)%nat.
Proof.
  induction l as [|g l IH]; intros heap L H.
  - destruct heap; [reflexivity|discriminate].
  - destruct heap as [|a [|b heap]]; cbn [length] in L; try lia.
    assert (R : in_use heap = (2 * alive l)%nat).
    { apply IH; [lia|]. intros i Li. specialize (H (S i) ltac:(cbn; lia)). cbn [nth_error] in H.
      replace (2 * S i)%nat with (S (S (2 * i)))%nat in H by lia. replace (S (S (2 * i)) + 1)%nat with (S (S (2 * i + 1)))%nat in H by lia. cbn [nth_error] in H. exact H. }
    specialize (H 0%nat ltac:(cbn; lia)). cbn [nth_error Nat.mul Nat.add] in H. unfold in_use, alive in *. destruct g as [g|].
    + destruct H as (V & W & A & B). injection A as ->. injection B as ->. cbn [filter length]. lia.
    + destruct H as (A & B). injection A as ->. injection B as ->. cbn [filter length]. exact R.
Qed.
Lemma tied_use w l : tied w l -> in_use (w_heap w) = (2 * alive l)%nat.
Proof.
  intros (_ & T2 & T3). apply pairs_use; [exact T2|]. intros i L. specialize (T3 i L).
  destruct (nth_error l i) as [[g|]|]; [|tauto|tauto]. destruct T3 as (V & W & _ & A & B & _). eauto.
Qed.
Lemma history_safe os : proper [] os ->
  exists w rs, history true empty os = Ok (w, rs) /\ seen [] os rs /\ in_use (w_heap w) = (2 * alive (after [] os))%nat /\
    forall i g, nth_error (after [] os) i = Some (Some g) -> exists p, nth_error (w_objs w) i = Some (Some p) /\ p_gm p = Some (g_gm g).
Proof.
  intros P. destruct (history_tied os [] empty P tied_empty) as (w & rs & E & S & T). exists w, rs. split; [exact E|]. split; [exact S|].
  split; [exact (tied_use _ _ T)|]. destruct T as (_ & _ & T). intros i g N. assert (L : (i < length (after [] os))%nat) by (apply nth_error_Some; congruence).
  specialize (T i L). rewrite N in T. destruct T as (V & W & O & _). eexists. split; [exact O|reflexivity].
Qed.

(* ---- examples ---- *)
Definition zeros : nat -> nat -> R := fun _ _ => 0.
Definition ones : nat -> nat -> R := fun _ _ => 1.
Definition no_mat : mat := mat9 0 0 0 0 0 0 0 0 0.
Definition up : vec := Vec_model.V 0 0 1.
Definition make (junk : nat -> nat -> R) : op := Make 1 1 ex_coeff 1 1 (1, 1) junk.
Lemma make_proper l junk r : proper (l ++ [Some (Thing 1 1 ex_coeff 1 1 (1, 1))]) r -> proper l (make junk :: r).
Proof. intros H. apply proper_make; [lia|reflexivity| |exact H]. exists ex_C, ex_S. exact ex_coefficients. Qed.
(* without assertions the table is used as it was found *)
Lemma accel_of junk : exists P w, history false empty [make junk; Evaluate 0 up no_mat] = Ok (w, [Done; Value (vscale (1 / (1 * 1)) (vadd
    (vsub (vsub vzero (vscale 1 (Vec_model.V (junk 1%nat 1%nat) (junk 1%nat 1%nat) ((INR 0 + 1) * junk 1%nat 0%nat)))) (vscale 2 (Vec_model.V (junk 2%nat 1%nat) (junk 2%nat 1%nat) ((INR 1 + 1) * junk 2%nat 0%nat))))
    (vadd vzero (Vec_model.V (/ 2 * (- 3 * junk 2%nat 2%nat - 4 * junk 2%nat 2%nat) + (INR 1 - INR 1 + 1) * (INR 1 - INR 1 + 2) / 2 * (3 * junk 2%nat 0%nat + 4 * junk 2%nat 0%nat))
       (/ 2 * (- 3 * junk 2%nat 2%nat + 4 * junk 2%nat 2%nat) + (INR 1 - INR 1 + 1) * (INR 1 - INR 1 + 2) / 2 * (- 3 * junk 2%nat 0%nat + 4 * junk 2%nat 0%nat))
       ((INR 1 - INR 1 + 1) * (- 3 * junk 2%nat 1%nat - 4 * junk 2%nat 1%nat)))))) P]) /\ nth_error (w_objs w) 0 = Some (Some (Params 0 1 1 1 None ex_coeff 1 1)).
Proof. do 2 eexists. split; reflexivity. Qed.

Lemma ndebug_junk : exists os1 os2 a P1 b P2 w1 w2 p, history false empty os1 = Ok (w1, [Done; Value a P1]) /\ history false empty os2 = Ok (w2, [Done; Value b P2]) /\
  os1 = [make zeros; Evaluate 0 up no_mat] /\ os2 = [make ones; Evaluate 0 up no_mat] /\ a <> b /\ nth_error (w_objs w1) 0 = Some (Some p) /\ p_gm p = None.
Proof.
  destruct (accel_of zeros) as (P1 & w1 & E1 & O1). destruct (accel_of ones) as (P2 & w2 & E2 & _).
  do 9 eexists. split; [exact E1|]. split; [exact E2|]. split; [reflexivity|]. split; [reflexivity|]. split; [|split; [exact O1|reflexivity]].
  intros H. apply (f_equal vz) in H. unfold vscale, vadd, vsub, vzero, zeros, ones in H. cbn [vx vy vz INR] in H. Lra.lra.
Qed.
