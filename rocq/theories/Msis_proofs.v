(* Specification and proofs for the atmosphere model: what its results may depend on. *)
From Coq Require Import List ZArith Reals Arith Bool Lra Lia.
From Verif Require Import Base Gravity_model Spline_model Msis_model Msis_spline.
Import ListNotations.
Local Open Scope R_scope.

Ltac rdec := unfold rle, rlt, rgt in *; repeat match goal with |- context [Rlt_dec ?a ?b] => destruct (Rlt_dec a b) | H : context [Rlt_dec ?a ?b] |- _ => destruct (Rlt_dec a b) end; cbn [negb andb orb] in *; try discriminate.

(* ---- specification ---- *)
(* two numbers are the same or clearly different: no tolerance can confuse them *)
Definition apart (x y : R) : Prop := x = y \/ 0.000001 < Rabs (x - y).
(* the coefficient arrays handed to the two expansions *)
Definition rows_g (T : tables) (p : nat -> R) : Prop := p = pt T \/ p = ps T \/ exists k, (k <= 8)%nat /\ p = pd T k.
Definition rows_s (T : tables) (p : nat -> R) : Prop := (exists k, (k <= 3)%nat /\ p = ptl T k) \/ (exists k, (k <= 9)%nat /\ p = pma T k).
(* what the history results need of the coefficients; the coefficients of the code have it (Msis_props) *)
Record tables_ok (T : tables) : Prop := {
  ok_phases : forall p q, rows_g T p -> rows_g T q -> apart (p 13%nat) (q 13%nat) /\ apart (p 17%nat) (q 17%nat) /\ apart (p 31%nat) (q 31%nat) /\ apart (p 38%nat) (q 38%nat);
  ok_phases_s : forall p q, rows_s T p -> rows_s T q -> apart (p 13%nat) (q 13%nat) /\ apart (p 17%nat) (q 17%nat) /\ apart (p 31%nat) (q 31%nat);
  ok_semi : forall p q, rows_s T p -> rows_s T q -> p 37%nat <> 0 -> 0.000001 < Rabs (q 39%nat - p 38%nat);
  ok_ap : forall p, rows_g T p -> p 51%nat = 0 \/ 0.000001 < Rabs (p 51%nat);
  ok_ap_first : 0.000001 < Rabs (pt T 51%nat) /\ 0.000001 < Rabs (ps T 51%nat) /\ 0.000001 < Rabs (pd T 3%nat 51%nat);
  ok_za : 110 < pdl T 1%nat 15%nat
}.
(* a set of values none of which is confused with another, or with the initial 1000 *)
Definition grid (g : R -> Prop) : Prop := (forall x y, g x -> g y -> apart x y) /\ forall x, g x -> 0.000001 < Rabs (1000 - x).
(* inputs on such grids of latitudes and local times *)
Definition on_grid (lats locs : R -> Prop) (i : input) : Prop := lats (glat i) /\ locs (lst i) /\ doy i <> (-1)%Z.

(* ---- two runs side by side ---- *)
Definition ni {A} (P : state -> state -> Prop) (c c' : M A) (Q : A -> A -> Prop) (P' : state -> state -> Prop) : Prop :=
  forall s s', P s s' -> exists a s1 a' s1', c s = Ok (a, s1) /\ c' s' = Ok (a', s1') /\ Q a a' /\ P' s1 s1'.
Lemma ni_bind {A B} (P P1 P2 : state -> state -> Prop) (c c' : M A) (f f' : A -> M B) Q Q' : ni P c c' Q P1 -> (forall a a', Q a a' -> ni P1 (f a) (f' a') Q' P2) -> ni P (bind c f) (bind c' f') Q' P2.
Proof. intros H K s s' HP. destruct (H s s' HP) as (a & s1 & a' & s1' & E & E' & HQ & HP1). unfold bind. rewrite E, E'. exact (K a a' HQ s1 s1' HP1). Qed.
Lemma ni_ret {A} P (a a' : A) (Q : A -> A -> Prop) : Q a a' -> ni P (ret a) (ret a') Q P.
Proof. intros H s s' HP. unfold ret. do 4 eexists. repeat split; eauto. Qed.
Lemma ni_weak {A} (P P1 P2 : state -> state -> Prop) (c c' : M A) (Q Q' : A -> A -> Prop) : ni P c c' Q P1 -> (forall s s', P1 s s' -> P2 s s') -> (forall a a', Q a a' -> Q' a a') -> ni P c c' Q' P2.
Proof. intros H K L s s' HP. destruct (H s s' HP) as (a & s1 & a' & s1' & E & E' & HQ & HP1). exists a, s1, a', s1'. auto. Qed.
Lemma ni_pre {A} (P P0 P1 : state -> state -> Prop) (c c' : M A) Q : ni P c c' Q P1 -> (forall s s', P0 s s' -> P s s') -> ni P0 c c' Q P1.
Proof. intros H K s s' HP. apply H, K, HP. Qed.
Lemma ni_if {A} P P1 (b : bool) (c c' d d' : M A) Q : (b = true -> ni P c c' Q P1) -> (b = false -> ni P d d' Q P1) -> ni P (if b then c else d) (if b then c' else d') Q P1.
Proof. destruct b; auto. Qed.

(* ---- the caches ---- *)
Lemma moved_apart x y : apart x y -> moved x y = false -> x = y.
Proof. intros [H|H] M; [exact H|]. unfold moved, nearzero in M. rdec; lra. Qed.
Lemma moved_true x y : 0.000001 < Rabs (x - y) -> moved x y = true.
Proof. intros H. unfold moved, nearzero. rdec; [reflexivity|lra]. Qed.
Lemma apart_sym x y : apart x y -> apart y x.
Proof. intros [->|H]; [left; reflexivity|right; rewrite Rabs_minus_sym; exact H]. Qed.
(* the cosines belonging to an array on a day *)
Definition exact_g (p : nat -> R) (d : Z) : season := Season d p.[13] p.[17] p.[31] p.[38] (cos (dr * (IZR d - p.[13]))) (cos (2 * dr * (IZR d - p.[17]))) (cos (dr * (IZR d - p.[31]))) (cos (2 * dr * (IZR d - p.[38]))).
Definition exact_s (p : nat -> R) (d : Z) (q : season) : Prop := l_doy q = d /\ p14 q = p.[13] /\ p18 q = p.[17] /\ p32 q = p.[31] /\ p39 q = p.[39] /\
  cd14 q = cos (dr * (IZR d - p.[13])) /\ cd18 q = cos (2 * dr * (IZR d - p.[17])) /\ cd32 q = cos (dr * (IZR d - p.[31])).
Definition gsea_ok (T : tables) (q : season) : Prop := l_doy q = (-1)%Z \/ exists p, rows_g T p /\ q = exact_g p (l_doy q).
Definition ssea_ok (T : tables) (q : season) : Prop := (l_doy q = (-1)%Z /\ p39 q = -1000) \/ exists p, rows_s T p /\ exact_s p (l_doy q) q.
Lemma season_globe_exact T p d q : tables_ok T -> gsea_ok T q -> rows_g T p -> d <> (-1)%Z -> season_globe p d q = exact_g p d.
Proof.
  intros TO Q P D. unfold season_globe, exact_g. destruct (Z.eqb_spec (l_doy q - d) 0) as [E|E]; cbn [negb orb]; [|reflexivity].
  assert (l_doy q = d) by lia. destruct Q as [Q|(p' & P' & Q)]; [congruence|]. rewrite H in Q. subst q. cbn [p14 p18 p32 p39 cd14 cd18 cd32 cd39 l_doy exact_g] in *.
  destruct (ok_phases T TO p p' P P') as (A & B & C & F).
  assert (G : forall (f : R -> R) x y, apart x y -> (if moved x y then f x else f y) = f x) by (intros f x y Hxy; destruct (moved x y) eqn:M; [reflexivity|rewrite (moved_apart x y Hxy M); reflexivity]).
  rewrite (G (fun v => cos (dr * (IZR d - v))) _ _ A), (G (fun v => cos (2 * dr * (IZR d - v))) _ _ B), (G (fun v => cos (dr * (IZR d - v))) _ _ C), (G (fun v => cos (2 * dr * (IZR d - v))) _ _ F). reflexivity.
Qed.
Lemma exact_g_ok T p d : rows_g T p -> gsea_ok T (exact_g p d).
Proof. intros P. right. exists p. split; [exact P|reflexivity]. Qed.
Lemma season_glob_exact T p d q : tables_ok T -> ssea_ok T q -> rows_s T p -> d <> (-1)%Z -> exact_s p d (season_glob p d q) /\ (p.[37] <> 0 -> cd39 (season_glob p d q) = cos (2 * dr * (IZR d - p.[38]))).
Proof.
  intros TO Q P D. unfold season_glob, exact_s. cbn [p14 p18 p32 p39 cd14 cd18 cd32 cd39 l_doy].
  destruct (Z.eqb_spec (d - l_doy q) 0) as [E|E]; cbn [negb orb]; [|repeat split; intros; reflexivity].
  assert (H : l_doy q = d) by lia. destruct Q as [[Q _]|(p' & P' & (_ & Q14 & Q18 & Q32 & Q39 & C14 & C18 & C32))]; [congruence|]. rewrite H in *.
  destruct (ok_phases_s T TO p' p P' P) as (A & B & C).
  assert (G : forall (f : R -> R) x y, apart x y -> (if moved x y then f y else f x) = f y) by (intros f x y Hxy; destruct (moved x y) eqn:M; [reflexivity|rewrite (moved_apart x y Hxy M); reflexivity]).
  rewrite Q14, Q18, Q32, Q39, C14, C18, C32.
  rewrite (G (fun v => cos (dr * (IZR d - v))) _ _ A), (G (fun v => cos (2 * dr * (IZR d - v))) _ _ B), (G (fun v => cos (dr * (IZR d - v))) _ _ C). repeat split.
  intros N. rewrite (moved_true _ _ (ok_semi T TO p p' P P' N)). reflexivity.
Qed.

(* the entries of plg that globe7 fills *)
Definition stored (i j : nat) : bool := match i with 0 | 1 => Nat.leb 1 j && Nat.leb j 6 | 2 => Nat.leb 2 j && Nat.leb j 7 | 3 => Nat.leb 3 j && Nat.leb j 6 | _ => false end%nat.
Lemma legendre_stored g o o' i j : stored i j = true -> legendre g o i j = legendre g o' i j.
Proof. intros H. do 4 (destruct i as [|i]; [do 8 (destruct j as [|j]; [cbn in H |- *; first [discriminate|reflexivity]|]); cbn in H; discriminate|]). cbn in H. discriminate. Qed.
Definition timed (i : input) : bool := on (sw i 6) || on (sw i 7) || on (sw i 13).

Ltac entries H := rewrite ?(H 0 1 eq_refl)%nat, ?(H 0 2 eq_refl)%nat, ?(H 0 3 eq_refl)%nat, ?(H 0 4 eq_refl)%nat, ?(H 0 5 eq_refl)%nat, ?(H 0 6 eq_refl)%nat, ?(H 1 1 eq_refl)%nat, ?(H 1 2 eq_refl)%nat, ?(H 1 3 eq_refl)%nat, ?(H 1 4 eq_refl)%nat, ?(H 1 5 eq_refl)%nat, ?(H 1 6 eq_refl)%nat, ?(H 2 2 eq_refl)%nat, ?(H 2 3 eq_refl)%nat, ?(H 2 4 eq_refl)%nat, ?(H 2 5 eq_refl)%nat, ?(H 2 7 eq_refl)%nat, ?(H 3 3 eq_refl)%nat, ?(H 3 4 eq_refl)%nat, ?(H 3 6 eq_refl)%nat.
Lemma globe_term_agree i p g g' l l' q dfa a a' b b' : (forall u v, stored u v = true -> g u v = g' u v) -> (timed i = true -> l = l') -> (daily i = true -> a = a') -> (daily i = false -> p 51%nat <> 0 -> b = b') ->
  forall k, globe_term i p g l q dfa a b k = globe_term i p g' l' q dfa a' b' k.
Proof.
  intros G L A B k. unfold timed in L. destruct k as [|[|[|[|[|[|[|[|[|[|[|[|[|[|k]]]]]]]]]]]]]]; unfold globe_term; entries G; try reflexivity.
  - destruct (on (sw i 6)); [rewrite L by reflexivity|]; reflexivity.
  - destruct (on (sw i 7)); [rewrite L by (rewrite orb_true_r; reflexivity)|]; reflexivity.
  - destruct (daily i); [rewrite A by reflexivity; reflexivity|]. destruct (rgt (Rabs p.[51]) nearzero) eqn:Z; [|reflexivity]. rewrite B; [reflexivity|reflexivity|]. intros Z0. rewrite Z0, Rabs_R0 in Z. unfold nearzero in Z. rdec; lra.
  - match goal with |- (if ?c then _ else _) = _ => destruct c end; [|reflexivity]. destruct (daily i); [rewrite A by reflexivity; reflexivity|]. destruct (Req_EM_T p.[51] 0); [reflexivity|]. rewrite B by (reflexivity || assumption). reflexivity.
  - destruct (on (sw i 13)); [rewrite L by (rewrite !orb_true_r; reflexivity)|]; reflexivity.
Qed.
Lemma switched_ext s t t' : (forall k, t k = t' k) -> forall n a, switched s t n a = switched s t' n a.
Proof. intros H. induction n as [|n IH]; intros a; cbn [switched]; [reflexivity|]. rewrite IH, H. reflexivity. Qed.
Lemma glob_term_agree i p g g' l l' q q' dfa a a' b b' : (forall u v, stored u v = true -> g u v = g' u v) -> (timed i = true -> l = l') -> (daily i = true -> a = a') -> (daily i = false -> b = b') ->
  cd14 q = cd14 q' -> cd18 q = cd18 q' -> cd32 q = cd32 q' -> (p 37%nat <> 0 -> cd39 q = cd39 q') ->
  forall k, glob_term i p g l q dfa a b k = glob_term i p g' l' q' dfa a' b' k.
Proof.
  intros G L A B C14 C18 C32 C39 k. unfold timed in L. destruct k as [|[|[|[|[|[|[|[|[|[|[|[|[|[|k]]]]]]]]]]]]]]; unfold glob_term; entries G; rewrite ?C14, ?C18, ?C32; try reflexivity.
  - destruct (Req_EM_T (p 37%nat) 0) as [Z|Z]; [rewrite Z; ring|rewrite (C39 Z); reflexivity].
  - destruct (on (sw i 6)); [rewrite L by reflexivity|]; reflexivity.
  - destruct (on (sw i 7)); [rewrite L by (rewrite orb_true_r; reflexivity)|]; reflexivity.
  - destruct (on (sw i 8)); [|reflexivity]. unfold daily, nearzero in A, B. destruct (rlt (sw i 8) 0).
    + rewrite B; [reflexivity|]. replace (-1 + 1) with 0 by lra. rewrite Rabs_R0. rdec; first [reflexivity|exfalso; lra].
    + destruct (rgt (sw i 8) 0); [|reflexivity]. rewrite A; [reflexivity|]. rewrite Rplus_0_l, Rabs_R1. rdec; first [reflexivity|exfalso; lra].
  - destruct (on (sw i 13)); [rewrite L by (rewrite !orb_true_r; reflexivity)|]; reflexivity.
Qed.

(* ---- the relation between two runs on the same input ---- *)
Section Runs.
Context (T : tables) (TO : tables_ok T) (lats locs : R -> Prop) (GL : grid lats) (GT : grid locs).
(* what the caches of one run hold, whatever was computed before *)
Definition base (s : state) : Prop :=
  gsea_ok T (gsea (fst s)) /\ ssea_ok T (ssea (fst s)) /\
  (xl (fst s) = 1000 \/ (lats (xl (fst s)) /\ forall u v, stored u v = true -> plg (snd s) u v = legendre (xl (fst s)) (fun _ _ => 0) u v)) /\
  (tll (fst s) = 1000 \/ (locs (tll (fst s)) /\ loc (snd s) = trig_of (tll (fst s)))).
Context (i : input) (IO : on_grid lats locs i) (G Re K K' : R) (RP : 0 < Re).
(* ... and after an expansion for input i *)
Definition ready (s : state) : Prop := base s /\ xl (fst s) = glat i /\ (timed i = true -> tll (fst s) = lst i) /\ dfa (snd s) = f107A i - 150.
Definition held (s s' : state) : Prop := gsurf (snd s) = G /\ re (snd s) = Re /\ gsurf (snd s') = G /\ re (snd s') = Re /\ tn3 (snd s) 0%nat = K /\ tn3 (snd s') 0%nat = K'.
Definition R0 (E : inst -> inst -> Prop) (s s' : state) : Prop := base s /\ base s' /\ held s s' /\ E (snd s) (snd s').
Definition W (E : inst -> inst -> Prop) (s s' : state) : Prop := ready s /\ ready s' /\ held s s' /\ (daily i = true -> apdf (snd s) = apdf (snd s')) /\ (daily i = false -> apt (snd s) = apt (snd s')) /\ E (snd s) (snd s').
(* E does not look at what the expansions write *)
Definition polyfree (E : inst -> inst -> Prop) : Prop := forall m m' a b c d e a' b' c' d' e', E m m' -> E (set_poly m a b c d e) (set_poly m' a' b' c' d' e').
Lemma ready_plg s u v : ready s -> stored u v = true -> plg (snd s) u v = legendre (glat i) (fun _ _ => 0) u v.
Proof. intros ((_ & _ & [H|(_ & H)] & _) & X & _) S; rewrite X in H; [|exact (H u v S)]. destruct GL as [_ GL2]. destruct IO as (I1 & _). specialize (GL2 _ I1). rewrite H in GL2. replace (1000 - 1000) with 0 in GL2 by lra. rewrite Rabs_R0 in GL2. lra. Qed.
Lemma ready_loc s : ready s -> timed i = true -> loc (snd s) = trig_of (lst i).
Proof. intros ((_ & _ & _ & [H|(_ & H)]) & _ & X & _) S; specialize (X S); rewrite X in H; [|exact H]. destruct GT as [_ GT2]. destruct IO as (_ & I1 & _). specialize (GT2 _ I1). rewrite H in GT2. replace (1000 - 1000) with 0 in GT2 by lra. rewrite Rabs_R0 in GT2. lra. Qed.

(* one run of globe7 *)
Definition pure_globe (p : nat -> R) (ad at_ : R) : R := switched (sw i) (globe_term i p (legendre (glat i) (fun _ _ => 0)) (trig_of (lst i)) (exact_g p (doy i)) (f107A i - 150) ad at_) 14 (p 30%nat).
Definition apdf_of (p : nat -> R) (m : inst) : R := if daily i then apdfv i p else apdf m.
Definition apt_of (p : nat -> R) (m : inst) : R := if daily i then apt m else if rgt (Rabs (p 51%nat)) nearzero then aptv i p else apt m.
Lemma globe7_run p s : base s -> rows_g T p -> exists g l s1, globe7 i p s = Ok (pure_globe p (apdf_of p (snd s)) (apt_of p (snd s)), s1) /\ ready s1 /\ snd s1 = set_poly (snd s) g l (f107A i - 150) (apdf_of p (snd s)) (apt_of p (snd s)).
Proof.
  destruct s as [c m]. intros (BG & BS & BL & BT) P. cbn [fst snd] in *. destruct IO as (IL & IT & ID). destruct GL as [GL1 GL2]. destruct GT as [GT1 GT2].
  unfold globe7. rewrite (season_globe_exact T p (doy i) (gsea c) TO BG P ID).
  set (g := if moved (xl c) (glat i) then legendre (glat i) (plg m) else plg m).
  set (b := moved (tll c) (lst i) && (on (sw i 6) || on (sw i 7) || on (sw i 13))). set (l := if b then trig_of (lst i) else loc m).
  assert (X : (if moved (xl c) (glat i) then glat i else xl c) = glat i /\ forall u v, stored u v = true -> g u v = legendre (glat i) (fun _ _ => 0) u v).
  { unfold g. destruct (moved (xl c) (glat i)) eqn:M; [split; [reflexivity|intros; apply legendre_stored; assumption]|]. destruct BL as [B|[B1 B2]].
    - rewrite B in M. rewrite (moved_true _ _ (GL2 _ IL)) in M. discriminate.
    - assert (E : xl c = glat i) by (apply moved_apart; [apply GL1; assumption|exact M]). rewrite <- E. split; [reflexivity|exact B2]. }
  destruct X as [X1 X2].
  assert (Y : (timed i = true -> (if b then lst i else tll c) = lst i /\ l = trig_of (lst i)) /\ ((if b then lst i else tll c) = 1000 \/ (locs (if b then lst i else tll c) /\ l = trig_of (if b then lst i else tll c)))).
  { unfold l, b, timed. destruct (on (sw i 6) || on (sw i 7) || on (sw i 13)); [rewrite andb_true_r|rewrite andb_false_r; split; [discriminate|exact BT]].
    destruct (moved (tll c) (lst i)) eqn:M; [split; [auto|right; split; [assumption|reflexivity]]|]. destruct BT as [B|[B1 B2]].
    - rewrite B in M. rewrite (moved_true _ _ (GT2 _ IT)) in M. discriminate.
    - assert (E : tll c = lst i) by (apply moved_apart; [apply GT1; assumption|exact M]). rewrite <- E. split; [auto|right; split; [rewrite E; exact IT|exact B2]]. }
  destruct Y as [Y1 Y2]. exists g, l. eexists. split; [|split].
  - apply f_equal. apply f_equal2; [|reflexivity]. unfold pure_globe, apdf_of, apt_of. cbn [snd]. apply switched_ext. apply globe_term_agree; [exact X2|intros Q; apply (Y1 Q)|intros _; reflexivity|intros _ _; reflexivity].
  - unfold ready, base. cbn [fst snd xl tll gsea ssea plg loc set_poly dfa]. rewrite X1. split; [|split; [reflexivity|split; [intros Q; apply (Y1 Q)|reflexivity]]].
    split; [apply exact_g_ok; exact P|]. split; [exact BS|]. split; [right; split; [exact IL|exact X2]|exact Y2].
  - reflexivity.
Qed.
Lemma pure_globe_agree p ad ad' at1 at2 : (daily i = true -> ad = ad') -> (daily i = false -> p 51%nat <> 0 -> at1 = at2) -> pure_globe p ad at1 = pure_globe p ad' at2.
Proof. intros A B. unfold pure_globe. apply switched_ext. apply globe_term_agree; auto. Qed.
Lemma near_true p : 0.000001 < Rabs (p 51%nat) -> rgt (Rabs (p 51%nat)) nearzero = true.
Proof. intros H. unfold nearzero. rdec; [reflexivity|lra]. Qed.
Lemma globe7_first E p : rows_g T p -> 0.000001 < Rabs (p 51%nat) -> polyfree E -> ni (R0 E) (globe7 i p) (globe7 i p) eq (W E).
Proof.
  intros P P51 F s s' (B & B' & H & HE). destruct (globe7_run p s B P) as (g & l & s1 & E1 & R1 & S1). destruct (globe7_run p s' B' P) as (g' & l' & s1' & E1' & R1' & S1').
  exists (pure_globe p (apdf_of p (snd s)) (apt_of p (snd s))), s1, (pure_globe p (apdf_of p (snd s')) (apt_of p (snd s'))), s1'. split; [exact E1|]. split; [exact E1'|].
  assert (A : daily i = true -> apdf_of p (snd s) = apdf_of p (snd s')) by (unfold apdf_of; intros ->; reflexivity).
  assert (A' : daily i = false -> apt_of p (snd s) = apt_of p (snd s')) by (unfold apt_of; intros ->; rewrite (near_true p P51); reflexivity).
  split; [apply pure_globe_agree; auto|]. split; [exact R1|]. split; [exact R1'|]. unfold held in *. rewrite S1, S1'. cbn [gsurf re tn3 set_poly apdf apt]. split; [exact H|]. split; [exact A|]. split; [exact A'|]. apply F, HE.
Qed.
Lemma W_R0 E s s' : W E s s' -> R0 E s s'.
Proof. intros ((B & _) & (B' & _) & H & _ & _ & HE). repeat split; try assumption; apply B || apply B' || apply H. Qed.
Lemma globe7_next E p : rows_g T p -> polyfree E -> ni (W E) (globe7 i p) (globe7 i p) eq (W E).
Proof.
  intros P F s s' (B & B' & H & HA & HA' & HE). destruct (globe7_run p s (proj1 B) P) as (g & l & s1 & E1 & R1 & S1). destruct (globe7_run p s' (proj1 B') P) as (g' & l' & s1' & E1' & R1' & S1').
  exists (pure_globe p (apdf_of p (snd s)) (apt_of p (snd s))), s1, (pure_globe p (apdf_of p (snd s')) (apt_of p (snd s'))), s1'. split; [exact E1|]. split; [exact E1'|].
  assert (A : daily i = true -> apdf_of p (snd s) = apdf_of p (snd s')) by (unfold apdf_of; intros ->; reflexivity).
  assert (A' : daily i = false -> apt_of p (snd s) = apt_of p (snd s')) by (unfold apt_of; intros D; rewrite D; destruct (rgt _ _); [reflexivity|exact (HA' D)]).
  split; [apply pure_globe_agree; auto|]. split; [exact R1|]. split; [exact R1'|]. unfold held in *. rewrite S1, S1'. cbn [gsurf re tn3 set_poly apdf apt]. split; [exact H|]. split; [exact A|]. split; [exact A'|]. apply F, HE.
Qed.
Lemma glob7s_next E p : rows_s T p -> ni (W E) (glob7s i p) (glob7s i p) eq (W E).
Proof.
  intros P [c m] [c' m'] (B & B' & H & HA & HA' & HE). unfold glob7s. do 4 eexists. split; [reflexivity|]. split; [reflexivity|].
  destruct (season_glob_exact T p (doy i) (ssea c) TO (proj1 (proj2 (proj1 B))) P (proj2 (proj2 IO))) as [Q Q39]. destruct (season_glob_exact T p (doy i) (ssea c') TO (proj1 (proj2 (proj1 B'))) P (proj2 (proj2 IO))) as [Q' Q39'].
  assert (BB : forall c m, ready (c, m) -> exact_s p (doy i) (season_glob p (doy i) (ssea c)) -> ready (Statics (xl c) (tll c) (gsea c) (season_glob p (doy i) (ssea c)), m)).
  { clear - P. intros c m ((X1 & X2 & X3 & X4) & Y) Q. split; [|exact Y]. split; [exact X1|]. split; [right; exists p; split; [exact P|exact Q]|]. split; [exact X3|exact X4]. }
  split.
  - destruct B as (BB1 & BX & BY & BD), B' as (BB1' & BX' & BY' & BD'). cbn [fst snd] in *. rewrite BD, BD'. destruct Q as (_ & _ & _ & _ & _ & Q1 & Q2 & Q3), Q' as (_ & _ & _ & _ & _ & Q1' & Q2' & Q3').
    apply switched_ext. apply glob_term_agree; try congruence; try assumption.
    + intros u v S. transitivity (legendre (glat i) (fun _ _ => 0) u v); [|symmetry]; [apply (ready_plg (c, m))|apply (ready_plg (c', m'))]; try exact S; (split; [assumption|]; split; [assumption|]; split; assumption).
    + intros S. transitivity (trig_of (lst i)); [|symmetry]; [apply (ready_loc (c, m))|apply (ready_loc (c', m'))]; try exact S; (split; [assumption|]; split; [assumption|]; split; assumption).
    + intros N. rewrite (Q39 N), (Q39' N). reflexivity.
  - split; [apply BB; assumption|]. split; [apply BB; assumption|]. split; [exact H|]. split; [exact HA|]. split; [exact HA'|exact HE].
Qed.

(* writes that leave alone what W looks at *)
Definition keeps (f : inst -> inst) : Prop := forall m, plg (f m) = plg m /\ loc (f m) = loc m /\ dfa (f m) = dfa m /\ apdf (f m) = apdf m /\ apt (f m) = apt m /\ gsurf (f m) = gsurf m /\ re (f m) = re m /\ tn3 (f m) 0%nat = tn3 m 0%nat.
Lemma keeps_base f c m : keeps f -> base (c, m) -> base (c, f m).
Proof. intros KF (A & B & C & D). destruct (KF m) as (K1 & K2 & _). unfold base in *. cbn [fst snd] in *. rewrite K1, K2. auto. Qed.
Lemma keeps_ready f c m : keeps f -> ready (c, m) -> ready (c, f m).
Proof. intros KF (A & B & C & D). split; [apply keeps_base; assumption|]. destruct (KF m) as (_ & _ & K3 & _). cbn [fst snd] in *. rewrite K3. auto. Qed.
Lemma keeps_held f f' c m c' m' : keeps f -> keeps f' -> held (c, m) (c', m') -> held (c, f m) (c', f' m').
Proof. intros KF KF' H. destruct (KF m) as (_ & _ & _ & _ & _ & K1 & K2 & K3), (KF' m') as (_ & _ & _ & _ & _ & K1' & K2' & K3'). unfold held in *. cbn [snd] in *. rewrite K1, K2, K3, K1', K2', K3'. exact H. Qed.
Lemma writes_W (E E' : inst -> inst -> Prop) f f' : keeps f -> keeps f' -> (forall m m', E m m' -> E' (f m) (f' m')) -> ni (W E) (writes f) (writes f') eq (W E').
Proof.
  intros KF KF' H [c m] [c' m'] (R1 & R1' & Hh & A & A' & HE). unfold writes. do 4 eexists. split; [reflexivity|]. split; [reflexivity|]. split; [reflexivity|]. cbn [fst snd].
  split; [apply keeps_ready; assumption|]. split; [apply keeps_ready; assumption|]. split; [apply keeps_held; assumption|]. cbn [fst snd] in *. destruct (KF m) as (_ & _ & _ & K1 & K2 & _), (KF' m') as (_ & _ & _ & K1' & K2' & _). rewrite K1, K2, K1', K2'. auto.
Qed.
Lemma writes_R0 (E E' : inst -> inst -> Prop) f f' : keeps f -> keeps f' -> (forall m m', E m m' -> E' (f m) (f' m')) -> ni (R0 E) (writes f) (writes f') eq (R0 E').
Proof.
  intros KF KF' H [c m] [c' m'] (B & B' & Hh & HE). unfold writes. do 4 eexists. split; [reflexivity|]. split; [reflexivity|]. split; [reflexivity|]. cbn [fst snd].
  split; [apply keeps_base; assumption|]. split; [apply keeps_base; assumption|]. split; [apply keeps_held; assumption|]. cbn [fst snd] in *. auto.
Qed.
Lemma ni_reads {B} (P : state -> state -> Prop) (f f' : inst -> M B) Q P' : (forall m m', (exists c c', P (c, m) (c', m')) -> ni P (f m) (f' m') Q P') -> ni P (bind (reads (fun m => m)) f) (bind (reads (fun m => m)) f') Q P'.
Proof. intros H [c m] [c' m'] HP. unfold bind, reads. cbn [snd]. apply (H m m'); [exists c, c'; exact HP|exact HP]. Qed.
Lemma ni_weaken_W {A} (E E' E2 : inst -> inst -> Prop) (c c' : M A) Q : (forall m m', E m m' -> E' m m') -> ni (W E') c c' Q (W E2) -> ni (W E) c c' Q (W E2).
Proof. intros H N. eapply ni_pre; [exact N|]. intros s s' (A1 & A2 & A3 & A4 & A5 & A6). repeat (split; [assumption|]). apply H, A6. Qed.

(* the profiles *)
Lemma zn1_down k : (S k < 5)%nat -> zn1 T (S k) < zn1 T k.
Proof. intros H. pose proof (ok_za T TO). destruct k as [|[|[|[|k]]]]; cbn [zn1]; try lra. lia. Qed.
Lemma zn1_pos k : 0 <= zn1 T k. Proof. pose proof (ok_za T TO). destruct k as [|[|[|[|k]]]]; cbn [zn1]; lra. Qed.
Lemma zn2_down k : (S k < 4)%nat -> zn2 (S k) < zn2 k.
Proof. intros H. destruct k as [|[|[|k]]]; cbn [zn2]; try lra. lia. Qed.
Lemma zn2_pos k : 0 <= zn2 k. Proof. destruct k as [|[|[|k]]]; cbn [zn2]; lra. Qed.
Lemma zn3_down k : (S k < 5)%nat -> zn3 (S k) < zn3 k.
Proof. intros H. destruct k as [|[|[|[|k]]]]; cbn [zn3]; try lra. lia. Qed.
Lemma zn3_pos k : 0 <= zn3 k. Proof. destruct k as [|[|[|[|k]]]]; cbn [zn3]; lra. Qed.
Lemma profile_same m m' dim mn zn tn tn' tgn tgn' z : (3 <= mn <= dim)%nat -> re m = Re -> re m' = Re -> (forall k, 0 <= zn k) -> (forall k, (S k < mn)%nat -> zn (S k) < zn k) -> (forall k, (k < mn)%nat -> tn k = tn' k) -> tgn 0%nat = tgn' 0%nat -> tgn 1%nat = tgn' 1%nat ->
  exists r, profile m dim mn zn tn tgn z = Ok r /\ profile m' dim mn zn tn' tgn' z = Ok r.
Proof.
  intros N E E' Z D T0 G0 G1. destruct (profile_total m dim mn zn tn tgn z N) as [r Hr]; [intros k _; specialize (Z k); rewrite E; lra|exact D|].
  exists r. split; [exact Hr|]. pose proof (profile_agree m m' dim mn zn tn tn' tgn tgn' z ltac:(lia) ltac:(congruence) T0 G0 G1) as H. rewrite Hr in H. destruct (profile m' dim mn zn tn' tgn' z); cbn in H; [subst; reflexivity|contradiction].
Qed.
Definition known (m m' : inst) : Prop := (forall k, (1 <= k <= 4)%nat -> tn1 m k = tn1 m' k) /\ tgn1 m 1%nat = tgn1 m' 1%nat.
Definition topfree (E : inst -> inst -> Prop) : Prop := forall m m' v w v' w', E m m' -> E (set_meso1 m (set1 (tn1 m) 0 v) (set1 (tgn1 m) 0 w)) (set_meso1 m' (set1 (tn1 m') 0 v') (set1 (tgn1 m') 0 w')).
Lemma densu_ni (E : inst -> inst -> Prop) z dlb ta tb xm xalph zlb s2 : (forall m m', E m m' -> known m m') -> topfree E -> ni (W E) (densu T z dlb ta tb xm xalph zlb s2) (densu T z dlb ta tb xm xalph zlb s2) eq (W E).
Proof.
  intros KN TF. unfold densu. apply ni_reads. intros m m' (c & c' & HW). destruct HW as (_ & _ & (HG & HR & HG' & HR' & _) & _). cbn [snd] in *. rewrite HR, HR'. clear HG HR HG' HR' c c' m m'.
  match goal with |- context [Rmax z (zn1 T 0)] => set (za := zn1 T 0) end. set (tbv := ta - (ta - tb) * exp (- s2 * zeta Re (Rmax z za) zlb)). set (dta := (ta - tbv) * s2 * _).
  apply (ni_bind _ (fun s s' => W E s s' /\ (rlt z za = true -> tn1 (snd s) 0%nat = tbv /\ tn1 (snd s') 0%nat = tbv /\ tgn1 (snd s) 0%nat = dta /\ tgn1 (snd s') 0%nat = dta)) _ _ _ _ _ eq).
  - destruct (rlt z za) eqn:Bl.
    + assert (N : ni (W E) (writes (fun m => set_meso1 m (set1 (tn1 m) 0 tbv) (set1 (tgn1 m) 0 dta))) (writes (fun m => set_meso1 m (set1 (tn1 m) 0 tbv) (set1 (tgn1 m) 0 dta))) eq (W E)).
      { apply writes_W; [repeat split; reflexivity..|]. intros. apply TF. assumption. }
      intros s s' H. destruct (N s s' H) as (a & s1 & a' & s1' & E1 & E1' & _ & N'). exists a, s1, a', s1'. split; [exact E1|]. split; [exact E1'|]. split; [destruct a, a'; reflexivity|]. split; [exact N'|].
      intros _. unfold writes in E1, E1'. injection E1 as _ <-. injection E1' as _ <-. repeat split.
    + intros s s' H. exists tt, s, tt, s'. split; [reflexivity|]. split; [reflexivity|]. split; [reflexivity|]. split; [exact H|discriminate].
  - intros _ _ _. intros [c m] [c' m'] [HW HT]. unfold bind, reads, fails, ret. cbn [snd] in *. destruct HW as (W1 & W2 & W3 & W4 & W5 & W6). pose proof W3 as (HG & HR & HG' & HR' & _). cbn [snd] in *.
    assert (HW : W E (c, m) (c', m')) by (repeat (split; [assumption|]); assumption). rewrite HG, HR, HG', HR'.
    destruct (rlt z za) eqn:Bl.
    + destruct (HT eq_refl) as (T1 & T1' & T2 & T2'). destruct (KN _ _ W6) as [K1 K2].
      destruct (profile_same m m' 5 mn1 (zn1 T) (tn1 m) (tn1 m') (tgn1 m) (tgn1 m') (Rmax z (zn1 T (mn1 - 1)))) as (r & P & P'); [unfold mn1; lia|exact HR|exact HR'|apply zn1_pos|apply zn1_down|..|congruence|exact K2|].
      { intros k Hk. unfold mn1 in Hk. destruct k; [congruence|apply K1; lia]. }
      rewrite P, P'. rewrite T1, T1'. destruct (rgt (Rabs xm) nearzero); do 4 eexists; (split; [reflexivity|]; split; [reflexivity|]; split; [reflexivity|exact HW]).
    + destruct (rgt (Rabs xm) nearzero); do 4 eexists; (split; [reflexivity|]; split; [reflexivity|]; split; [reflexivity|exact HW]).
Qed.

(* what the two runs are known to share: D says dm28, D0 the nodes of the troposphere, DM dm28m *)
Context (D0 DM : Prop).
Definition E0 (D : Prop) (m m' : inst) : Prop := (D -> dm28 m = dm28 m') /\ (D0 -> forall k, tn3 m k = tn3 m' k /\ tgn3 m k = tgn3 m' k) /\ (DM -> dm28m m = dm28m m').
Definition E1 D m m' : Prop := E0 D m m' /\ xg0 m = xg0 m'.
Definition E2 D m m' : Prop := E1 D m m' /\ tlb m = tlb m'.
Definition E3 D (n : nat) m m' : Prop := E2 D m m' /\ forall k, (1 <= k <= n)%nat -> tn1 m k = tn1 m' k.
Definition E4 D m m' : Prop := E3 D 4 m m' /\ tgn1 m 1%nat = tgn1 m' 1%nat.
Lemma E0_poly D : polyfree (E0 D). Proof. intros ? ? ? ? ? ? ? ? ? ? ? ? H. exact H. Qed.
Lemma E1_poly D : polyfree (E1 D). Proof. intros ? ? ? ? ? ? ? ? ? ? ? ? H. exact H. Qed.
Lemma E2_poly D : polyfree (E2 D). Proof. intros ? ? ? ? ? ? ? ? ? ? ? ? H. exact H. Qed.
Lemma E4_poly D : polyfree (E4 D). Proof. intros ? ? ? ? ? ? ? ? ? ? ? ? H. exact H. Qed.
Lemma E4_top D : topfree (E4 D).
Proof. intros m m' v w v' w' [[H H1] H2]. split; [split; [exact H|]|exact H2]. intros k Hk. specialize (H1 k Hk). destruct k; [lia|exact H1]. Qed.
Lemma E4_known D m m' : E4 D m m' -> known m m'.
Proof. intros [[_ H] H1]. split; [exact H|exact H1]. Qed.
Hint Resolve E0_poly E1_poly E2_poly E4_poly E4_top E4_known : msis.
Ltac kept := intro; repeat split; reflexivity.
Lemma rg_pd k : (k <= 8)%nat -> rows_g T (pd T k). Proof. intros H. right. right. exists k. split; [exact H|reflexivity]. Qed.
Lemma rs_ptl k : (k <= 3)%nat -> rows_s T (ptl T k). Proof. intros H. left. exists k. split; [exact H|reflexivity]. Qed.
Lemma rs_pma k : (k <= 9)%nat -> rows_s T (pma T k). Proof. intros H. right. exists k. split; [exact H|reflexivity]. Qed.
Lemma tn1_set D n v : (n < 4)%nat -> ni (W (E3 D n)) (writes (fun m => set_meso1 m (set1 (tn1 m) (S n) v) (tgn1 m))) (writes (fun m => set_meso1 m (set1 (tn1 m) (S n) v) (tgn1 m))) eq (W (E3 D (S n))).
Proof.
  intros N. apply writes_W; [kept..|]. intros m m' [H H1]. split; [exact H|]. intros k Hk. cbn [tn1 set_meso1]. unfold set1. destruct (Nat.eqb_spec k (S n)); [reflexivity|]. apply H1. lia.
Qed.
Lemma temperatures_ni D : ni (R0 (E0 D)) (temperatures T i) (temperatures T i) eq (W (E4 D)).
Proof.
  destruct (ok_ap_first T TO) as (F1 & F2 & F3). unfold temperatures.
  eapply (ni_bind _ (R0 (E0 D)) _ _ _ _ _ eq).
  { apply ni_if; intros _; [|apply ni_ret; reflexivity]. eapply (ni_bind _ (W (E0 D)) _ _ _ _ _ eq); [apply globe7_first; [left; reflexivity|exact F1|auto with msis]|]. intros g _ <-. eapply ni_weak; [apply (ni_ret _ _ _ eq); reflexivity|intros s s'; apply W_R0|auto]. }
  intros tinf _ <-. eapply (ni_bind _ (R0 (E0 D)) _ _ _ _ _ eq).
  { apply ni_if; intros _; [|apply ni_ret; reflexivity]. eapply (ni_bind _ (W (E0 D)) _ _ _ _ _ eq); [apply globe7_first; [right; left; reflexivity|exact F2|auto with msis]|]. intros g _ <-. eapply ni_weak; [apply (ni_ret _ _ _ eq); reflexivity|intros s s'; apply W_R0|auto]. }
  intros x _ <-. eapply (ni_bind _ (R0 (E1 D)) _ _ _ _ _ eq); [apply writes_R0; [kept..|intros m m' H; split; [exact H|reflexivity]]|]. intros _ _ _.
  eapply (ni_bind _ (W (E1 D)) _ _ _ _ _ eq); [apply globe7_first; [apply rg_pd; lia|exact F3|auto with msis]|]. intros g _ <-.
  eapply (ni_bind _ (W (E3 D 0)) _ _ _ _ _ eq); [apply writes_W; [kept..|]; intros m m' H; split; [split; [exact H|reflexivity]|intros; lia]|]. intros _ _ _.
  eapply (ni_bind _ (W (E4 D)) _ _ _ _ _ eq); [|intros _ _ _; apply ni_ret; reflexivity].
  apply ni_if; intros _.
  - apply writes_W; [kept..|]. intros m m' [H _]. split; [split; [exact H|]|reflexivity]. intros k Hk. destruct k as [|[|[|[|[|k]]]]]; try lia; reflexivity.
  - eapply (ni_bind _ (W (E3 D 0)) _ _ _ _ _ eq); [apply glob7s_next, rs_ptl; lia|]. intros a _ <-. eapply (ni_bind _ (W (E3 D 1)) _ _ _ _ _ eq); [apply tn1_set; lia|]. intros _ _ _.
    eapply (ni_bind _ (W (E3 D 1)) _ _ _ _ _ eq); [apply glob7s_next, rs_ptl; lia|]. intros b _ <-. eapply (ni_bind _ (W (E3 D 2)) _ _ _ _ _ eq); [apply tn1_set; lia|]. intros _ _ _.
    eapply (ni_bind _ (W (E3 D 2)) _ _ _ _ _ eq); [apply glob7s_next, rs_ptl; lia|]. intros c _ <-. eapply (ni_bind _ (W (E3 D 3)) _ _ _ _ _ eq); [apply tn1_set; lia|]. intros _ _ _.
    eapply (ni_bind _ (W (E3 D 3)) _ _ _ _ _ eq); [apply glob7s_next, rs_ptl; lia|]. intros d _ <-. eapply (ni_bind _ (W (E3 D 4)) _ _ _ _ _ eq); [apply tn1_set; lia|]. intros _ _ _.
    eapply (ni_bind _ (W (E3 D 4)) _ _ _ _ _ eq); [apply glob7s_next, rs_pma; lia|]. intros e _ <-.
    apply writes_W; [kept..|]. intros m m' [H H1]. split; [split; [exact H|exact H1]|]. cbn [tgn1 set_meso1]. unfold set1. cbn [Nat.eqb]. rewrite (H1 4%nat) by lia. reflexivity.
Qed.

(* outputs that agree except for the temperature at altitude *)
Definition upto (o o' : output) : Prop := exists v, o' = set_t1 o v.
Lemma upto_refl o : upto o o. Proof. exists (t1 o). destruct o. reflexivity. Qed.
Ltac dens := apply densu_ni; [intros ? ?; apply E4_known|apply E4_top].
Ltac go := first
  [ apply ni_ret; first [apply upto_refl|reflexivity]
  | eapply (ni_bind _ (W (E4 _)) _ _ _ _ _ eq); [first [dens|apply globe7_next; [apply rg_pd; lia|apply E4_poly]|apply writes_W; [kept..|]; intros ? ? HE; exact HE]|intros ? ? <-]
  | apply ni_if; intros _ ].
Section Blocks.
Context (D : Prop) (tinf tlbv s xmm zhm28 b28 : R).
Lemma mixed_ni zh db w al d : ni (W (E4 D)) (mixed T i tinf tlbv s xmm zhm28 zh db w al d) (mixed T i tinf tlbv s xmm zhm28 zh db w al d) eq (W (E4 D)).
Proof. unfold mixed. repeat go. Qed.
Ltac mix := eapply (ni_bind _ (W (E4 _)) _ _ _ _ _ eq); [apply mixed_ni|intros ? ? <-; repeat go].
Lemma helium_ni o o' : upto o o' -> ni (W (E4 D)) (helium T i tinf tlbv s xmm zhm28 b28 o) (helium T i tinf tlbv s xmm zhm28 b28 o') upto (W (E4 D)).
Proof. unfold helium, diffusive. intros [v ->]. repeat go. mix. Qed.
Lemma oxygen_ni o o' : upto o o' -> ni (W (E4 D)) (oxygen T i tinf tlbv s xmm zhm28 o) (oxygen T i tinf tlbv s xmm zhm28 o') upto (W (E4 D)).
Proof. unfold oxygen, diffusive. intros [v ->]. repeat go. mix. Qed.
Lemma oxygen2_ni mass o o' : upto o o' -> ni (W (E4 D)) (oxygen2 T i tinf tlbv s xmm zhm28 b28 mass o) (oxygen2 T i tinf tlbv s xmm zhm28 b28 mass o') upto (W (E4 D)).
Proof.
  unfold oxygen2, diffusive. intros [v ->]. repeat go. eapply (ni_bind _ (W (E4 _)) _ _ _ _ _ upto); [apply ni_if; intros _; [mix|go]|]. intros ? ? [u ->]. apply ni_ret. exists u. reflexivity.
Qed.
Lemma argon_ni o o' : upto o o' -> ni (W (E4 D)) (argon T i tinf tlbv s xmm zhm28 b28 o) (argon T i tinf tlbv s xmm zhm28 b28 o') upto (W (E4 D)).
Proof. unfold argon, diffusive. intros [v ->]. repeat go. mix. Qed.
Lemma hydrogen_ni o o' : upto o o' -> ni (W (E4 D)) (hydrogen T i tinf tlbv s xmm zhm28 b28 o) (hydrogen T i tinf tlbv s xmm zhm28 b28 o') upto (W (E4 D)).
Proof. unfold hydrogen, diffusive. intros [v ->]. repeat go. mix. Qed.
Lemma nitrogen_ni o o' : upto o o' -> ni (W (E4 D)) (nitrogen T i tinf tlbv s xmm zhm28 b28 o) (nitrogen T i tinf tlbv s xmm zhm28 b28 o') upto (W (E4 D)).
Proof. unfold nitrogen, diffusive. intros [v ->]. repeat go. mix. Qed.
Lemma anomalous_ni mass o o' : upto o o' -> ni (W (E4 D)) (anomalous T i s mass o) (anomalous T i s mass o') upto (W (E4 D)).
Proof.
  unfold anomalous. intros [v ->]. do 3 go. apply ni_reads. intros m m' (c & c' & (_ & _ & (HG & HR & HG' & HR' & _) & _)). cbn [snd] in *. apply ni_ret.
  unfold scalh. rewrite HG, HR, HG', HR'. destruct (Z.eqb mass 48); apply upto_refl.
Qed.
End Blocks.
(* the nitrogen block makes the outputs equal whenever it runs, and so dm28 *)
Definition mixes : Prop := rle (alt i) (altl 2) && on (sw i 14) = true.
Definition E4_weak (D D' : Prop) m m' : (D' -> D) -> E4 D m m' -> E4 D' m m'.
Proof. intros H [[[[[A B] C] F] G1] G2]. split; [split; [split; [split; [split|]|]|]|]; auto. Qed.
Lemma molecular_ni D mass tinf tlbv s g28 zhf xmm o o' : upto o o' ->
  ni (W (E4 D)) (molecular T i mass tinf tlbv s g28 zhf xmm o) (molecular T i mass tinf tlbv s g28 zhf xmm o') (fun r r' => fst r = fst r' /\ upto (snd r) (snd r') /\ (mass = 28%Z -> r = r')) (W (E4 (D \/ mixes))).
Proof.
  intros [v ->]. unfold molecular. destruct (rlt (alt i) (altl 5) || Z.eqb mass 28 || Z.eqb mass 48) eqn:B.
  - do 3 go. destruct (rle (alt i) (altl 2) && on (sw i 14)) eqn:C.
    + go. eapply (ni_bind _ (W (E4 (D \/ mixes))) _ _ _ _ _ eq); [apply writes_W; [kept..|]|].
      { intros m m' [[[[[A F] F1] F2] F3] F4]. split; [split; [split; [split; [split; [reflexivity|exact F]|exact F1]|exact F2]|exact F3]|exact F4]. }
      intros _ _ _. apply ni_ret. split; [reflexivity|]. split; [apply upto_refl|reflexivity].
    + eapply ni_weak; [apply ni_ret|..]; [|intros t t' (W1 & W2 & W3 & W4 & W5 & W6); repeat (split; [assumption|]); eapply E4_weak; [|exact W6]; intros [H|H]; [exact H|unfold mixes in H; congruence]|].
      2: intros ? ? H; exact H. split; [reflexivity|]. split; [apply upto_refl|reflexivity].
  - eapply ni_weak; [apply ni_ret|..]; [|intros t t' (W1 & W2 & W3 & W4 & W5 & W6); repeat (split; [assumption|]); eapply E4_weak; [|exact W6]|].
    3: intros ? ? H; exact H.
    + split; [reflexivity|]. split; [exists v; reflexivity|]. intros ->. rewrite orb_true_r in B. discriminate.
    + intros [H|H]; [exact H|]. unfold mixes in H. exfalso. apply orb_false_iff in B. destruct B as [B _]. apply orb_false_iff in B. destruct B as [B _]. apply andb_prop in H. destruct H as [H _]. clear - B H. change (altl 5) with 450 in B. change (altl 2) with 160 in H. rdec; lra.
Qed.
Lemma mass_28 mass : mass_index mass = 5%nat -> mass = 28%Z.
Proof. unfold mass_index. intros H. repeat match type of H with context [match ?x with _ => _ end] => destruct x end; try discriminate; reflexivity. Qed.
Lemma species_ni D mass tinf tlbv s o o' : upto o o' -> ni (W (E4 D)) (species T i mass tinf tlbv s o) (species T i mass tinf tlbv s o') (fun r r' => upto r r' /\ (mass_index mass = 5%nat -> r = r')) (W (E4 (D \/ (mass_index mass <> 0%nat /\ mixes)))).
Proof.
  intros [v ->]. unfold species. go. set (D1 := D \/ (mass_index mass <> 0%nat /\ mixes)). set (j := mass_index mass).
  eapply (ni_bind _ (W (E4 D1)) _ _ _ _ _ (fun r r' => fst r = fst r' /\ upto (snd r) (snd r') /\ (mass = 28%Z -> r = r'))).
  { destruct (Nat.eqb_spec j 0) as [J|J].
    - eapply ni_weak; [apply ni_ret|..]; [|intros t t' (W1 & W2 & W3 & W4 & W5 & W6); repeat (split; [assumption|]); eapply E4_weak; [|exact W6]|]; [| |intros ? ? H; exact H].
      + split; [reflexivity|]. split; [exists v; reflexivity|]. intros H. subst mass. discriminate.
      + intros [H|[H _]]; [exact H|contradiction].
    - eapply ni_weak; [apply molecular_ni; exists v; reflexivity|intros t t' (W1 & W2 & W3 & W4 & W5 & W6); repeat (split; [assumption|]); eapply E4_weak; [|exact W6]; unfold D1; tauto|auto]. }
  intros [[zh b] o1] [[zh' b'] o1'] (F & U & M28). cbn [fst snd] in F, U. injection F as <- <-.
  destruct (Nat.eqb_spec j 5) as [J|J].
  { rewrite J. cbn [among existsb Nat.eqb orb]. specialize (M28 (mass_28 mass J)). injection M28 as ->.
    repeat (eapply (ni_bind _ (W (E4 D1)) _ _ _ _ _ eq); [apply ni_ret; reflexivity|intros ? ? <-]). apply ni_ret. split; [apply upto_refl|reflexivity]. }
  eapply (ni_weak _ (W (E4 D1)) _ _ _ upto); [|auto|intros ? ? H; split; [exact H|contradiction]].
  eapply (ni_bind _ (W (E4 D1)) _ _ _ _ _ upto). { apply ni_if; intros _; [|apply ni_ret; exact U]. eapply (ni_bind _ (W (E4 D1)) _ _ _ _ _ upto); [apply helium_ni, U|]. intros. apply oxygen_ni. assumption. }
  intros o2 o2' U2. eapply (ni_bind _ (W (E4 D1)) _ _ _ _ _ upto). { apply ni_if; intros _; [|apply ni_ret; exact U2]. apply oxygen2_ni, U2. }
  intros o3 o3' U3. eapply (ni_bind _ (W (E4 D1)) _ _ _ _ _ upto). { apply ni_if; intros _; [|apply ni_ret; exact U3]. apply argon_ni, U3. }
  intros o4 o4' U4. eapply (ni_bind _ (W (E4 D1)) _ _ _ _ _ upto). { apply ni_if; intros _; [|apply ni_ret; exact U4]. eapply (ni_bind _ (W (E4 D1)) _ _ _ _ _ upto); [apply hydrogen_ni, U4|]. intros. apply nitrogen_ni. assumption. }
  intros o5 o5' U5. apply ni_if; intros _; [|apply ni_ret; exact U5]. apply anomalous_ni, U5.
Qed.
Lemma gts7_ni D mass o o' : ni (R0 (E0 D)) (gts7 T i mass o) (gts7 T i mass o') eq (W (E4 (D \/ (mass <> 0%Z /\ mass_index mass <> 0%nat /\ mixes)))).
Proof.
  unfold gts7. set (D1 := D \/ (mass <> 0%Z /\ mass_index mass <> 0%nat /\ mixes)).
  eapply (ni_bind _ (W (E4 D)) _ _ _ _ _ eq); [apply temperatures_ni|]. intros tinf _ <-. apply ni_reads. intros m m' (c & c' & (_ & _ & _ & _ & _ & [[[[_ X] L] _] _])). cbn [snd] in X, L. rewrite <- X, <- L.
  eapply (ni_bind _ (W (E4 D1)) _ _ _ _ _ (fun r r' => upto r r' /\ (mass <> 0%Z -> mass_index mass = 5%nat -> r = r'))).
  { destruct (Z.eqb_spec mass 0) as [Z|Z].
    - eapply ni_weak; [apply ni_ret|..]; [|intros t t' (W1 & W2 & W3 & W4 & W5 & W6); repeat (split; [assumption|]); eapply E4_weak; [|exact W6]; unfold D1; tauto|intros ? ? H; exact H]. split; [|contradiction]. exists (t1 o'). reflexivity.
    - eapply ni_weak; [apply species_ni|intros t t' (W1 & W2 & W3 & W4 & W5 & W6); repeat (split; [assumption|]); eapply E4_weak; [|exact W6]; unfold D1; tauto|]; [exists (t1 o'); reflexivity|]. intros ? ? [H1 H2]. split; auto. }
  intros a a' [U H5]. eapply (ni_bind _ (W (E4 D1)) _ _ _ _ _ eq).
  - destruct (Z.eqb_spec mass 0) as [Z|Z]; [|destruct (Nat.eqb_spec (mass_index mass) 5) as [J|J]]; cbn [Nat.eqb].
    + destruct U as [v ->]. go. apply ni_ret. reflexivity.
    + rewrite (H5 Z J). apply ni_ret. reflexivity.
    + destruct U as [v ->]. go. apply ni_ret. reflexivity.
  - intros b _ <-. apply ni_ret. reflexivity.
Qed.

(* the middle atmosphere *)
Definition E5 D (n g : nat) m m' : Prop := E4 D m m' /\ (forall k, (k < n)%nat -> tn2 m k = tn2 m' k) /\ (forall k, (k < g)%nat -> tgn2 m k = tgn2 m' k).
Lemma tn2_set D n v : ni (W (E5 D n 1)) (writes (fun m => set_meso2 m (set1 (tn2 m) n v) (tgn2 m))) (writes (fun m => set_meso2 m (set1 (tn2 m) n v) (tgn2 m))) eq (W (E5 D (S n) 1)).
Proof. apply writes_W; [kept..|]. intros m m' (H & H1 & H2). split; [exact H|]. split; [|exact H2]. intros k Hk. cbn [tn2 set_meso2]. unfold set1. destruct (Nat.eqb_spec k n); [reflexivity|]. apply H1. lia. Qed.
Lemma mesosphere_ni D : ni (W (E4 D)) (mesosphere T i) (mesosphere T i) eq (W (E5 D 4 2)).
Proof.
  unfold mesosphere. eapply (ni_bind _ (W (E5 D 1 1)) _ _ _ _ _ eq).
  { apply writes_W; [kept..|]. intros m m' [[H H1] H2]. split; [split; [split; [exact H|exact H1]|exact H2]|]. split; (intros [|k] Hk; [|lia]); cbn [tn2 tgn2 set_meso2]; unfold set1; cbn [Nat.eqb]; [apply H1; lia|exact H2]. }
  intros _ _ _. eapply (ni_bind _ (W (E5 D 1 1)) _ _ _ _ _ eq); [apply glob7s_next, rs_pma; lia|]. intros a _ <-. eapply (ni_bind _ (W (E5 D 2 1)) _ _ _ _ _ eq); [apply tn2_set|].
  intros _ _ _. eapply (ni_bind _ (W (E5 D 2 1)) _ _ _ _ _ eq); [apply glob7s_next, rs_pma; lia|]. intros b _ <-. eapply (ni_bind _ (W (E5 D 3 1)) _ _ _ _ _ eq); [apply tn2_set|].
  intros _ _ _. eapply (ni_bind _ (W (E5 D 3 1)) _ _ _ _ _ eq); [apply glob7s_next, rs_pma; lia|]. intros c _ <-. eapply (ni_bind _ (W (E5 D 4 1)) _ _ _ _ _ eq); [apply tn2_set|].
  intros _ _ _. eapply (ni_bind _ (W (E5 D 4 1)) _ _ _ _ _ eq); [apply glob7s_next, rs_pma; lia|]. intros d _ <-.
  apply writes_W; [kept..|]. intros m m' (H & H1 & H2). split; [exact H|]. split; [exact H1|]. intros [|[|k]] Hk; [apply (H2 0%nat); lia| |lia]. cbn [tgn2 set_meso2]. unfold set1. cbn [Nat.eqb]. rewrite (H1 3%nat) by lia. reflexivity.
Qed.
(* ... and the troposphere *)
Definition E6 D (n g : nat) m m' : Prop := E5 D 4 2 m m' /\ (forall k, (1 <= k < n)%nat -> tn3 m k = tn3 m' k) /\ (forall k, (k < g)%nat -> tgn3 m k = tgn3 m' k).
Lemma E6_tn3 D n g m m' f f' h h' : E6 D n g m m' -> (D0 -> forall k, f k = f' k /\ h k = h' k) -> E5 D 4 2 (set_meso3 m f h) (set_meso3 m' f' h').
Proof. intros ((H & H1) & _) F. split; [|exact H1]. destruct H as [[[[[A [_ A']] B] C] G1] G2]. split; [split; [split; [split; [split; [|split]|]|]|]|]; assumption. Qed.
Lemma E6_D0 D n g m m' : E6 D n g m m' -> D0 -> forall k, tn3 m k = tn3 m' k /\ tgn3 m k = tgn3 m' k.
Proof. intros ((H & H1) & _). destruct H as [[[[[A [F _]] B] C] G1] G2]. exact F. Qed.
Lemma tn3_set D n v : (1 <= n)%nat -> ni (W (E6 D n 1)) (writes (fun m => set_meso3 m (set1 (tn3 m) n v) (tgn3 m))) (writes (fun m => set_meso3 m (set1 (tn3 m) n v) (tgn3 m))) eq (W (E6 D (S n) 1)).
Proof.
  intros N. assert (KP : keeps (fun m => set_meso3 m (set1 (tn3 m) n v) (tgn3 m))). { intro m. repeat split. cbn [tn3 set_meso3]. unfold set1. destruct n; [lia|reflexivity]. }
  apply writes_W; [exact KP..|]. intros m m' H. split; [apply (E6_tn3 D n 1); [exact H|]; intros d k; destruct (E6_D0 _ _ _ _ _ H d k) as [A B]; split; [unfold set1; rewrite A; reflexivity|exact B]|]. destruct H as (_ & H1 & H2).
  split; [|exact H2]. intros k Hk. cbn [tn3 set_meso3]. unfold set1. destruct (Nat.eqb_spec k n); [reflexivity|]. apply H1. lia.
Qed.
Lemma troposphere_ni D : ni (W (E5 D 4 2)) (troposphere T i) (troposphere T i) eq (W (E6 D 5 2)).
Proof.
  unfold troposphere. eapply (ni_bind _ (W (E6 D 1 1)) _ _ _ _ _ eq).
  { apply writes_W; [kept..|]. intros m m' H. assert (H6 : E6 D 1 0 m m') by (split; [exact H|split; intros; lia]). assert (G2 : tgn2 m 1%nat = tgn2 m' 1%nat) by (apply H; lia).
    split; [apply (E6_tn3 D 1 0); [exact H6|]; intros d k; destruct (E6_D0 _ _ _ _ _ H6 d k) as [A B]; split; [exact A|unfold set1; rewrite B, G2; reflexivity]|].
    split; [intros; lia|]. intros [|k] Hk; [|lia]. exact G2. }
  intros _ _ _. eapply (ni_bind _ (W (E6 D 1 1)) _ _ _ _ _ eq); [apply glob7s_next, rs_pma; lia|]. intros a _ <-. eapply (ni_bind _ (W (E6 D 2 1)) _ _ _ _ _ eq); [apply tn3_set; lia|].
  intros _ _ _. eapply (ni_bind _ (W (E6 D 2 1)) _ _ _ _ _ eq); [apply glob7s_next, rs_pma; lia|]. intros b _ <-. eapply (ni_bind _ (W (E6 D 3 1)) _ _ _ _ _ eq); [apply tn3_set; lia|].
  intros _ _ _. eapply (ni_bind _ (W (E6 D 3 1)) _ _ _ _ _ eq); [apply glob7s_next, rs_pma; lia|]. intros c _ <-. eapply (ni_bind _ (W (E6 D 4 1)) _ _ _ _ _ eq); [apply tn3_set; lia|].
  intros _ _ _. eapply (ni_bind _ (W (E6 D 4 1)) _ _ _ _ _ eq); [apply glob7s_next, rs_pma; lia|]. intros d _ <-. eapply (ni_bind _ (W (E6 D 5 1)) _ _ _ _ _ eq); [apply tn3_set; lia|].
  intros _ _ _. eapply (ni_bind _ (W (E6 D 5 1)) _ _ _ _ _ eq); [apply glob7s_next, rs_pma; lia|]. intros e _ <-.
  apply writes_W; [kept..|]. intros m m' H. assert (T4 : tn3 m 4%nat = tn3 m' 4%nat) by (apply H; lia).
  split; [apply (E6_tn3 D 5 1); [exact H|]; intros dd0 k; destruct (E6_D0 _ _ _ _ _ H dd0 k) as [A B]; split; [exact A|unfold set1; rewrite B, T4; reflexivity]|]. destruct H as (_ & H1 & H2).
  split; [exact H1|]. intros [|[|k]] Hk; [apply (H2 0%nat); lia| |lia]. cbn [tgn3 set_meso3]. unfold set1. cbn [Nat.eqb]. rewrite T4. reflexivity.
Qed.
(* densm is defined, and depends on the nodes of the layers it passes *)
Lemma layer_same m m' mn zn tn tn' tgn tgn' z xm d : (3 <= mn <= 10)%nat -> re m = Re -> re m' = Re -> gsurf m = G -> gsurf m' = G -> (forall k, 0 <= zn k) -> (forall k, (S k < mn)%nat -> zn (S k) < zn k) -> (forall k, (k < mn)%nat -> tn k = tn' k) -> tgn 0%nat = tgn' 0%nat -> tgn 1%nat = tgn' 1%nat ->
  exists r, layer m mn zn tn tgn z xm d = Ok r /\ layer m' mn zn tn' tgn' z xm d = Ok r.
Proof.
  intros N E E' EG EG' Z DN T0 G0 G1. destruct (profile_same m m' 10 mn zn tn tn' tgn tgn' z N E E' Z DN T0 G0 G1) as (r & P & P'). unfold layer. rewrite P, P'. cbn [obind]. rewrite E, E', EG, EG', (T0 0%nat) by lia.
  eexists. split; reflexivity.
Qed.
Lemma layer_total m mn zn tn tgn z xm d : (3 <= mn <= 10)%nat -> re m = Re -> (forall k, 0 <= zn k) -> (forall k, (S k < mn)%nat -> zn (S k) < zn k) -> exists r, layer m mn zn tn tgn z xm d = Ok r.
Proof. intros N E Z DN. destruct (profile_same m m 10 mn zn tn tn tgn tgn z N E E Z DN ltac:(reflexivity) eq_refl eq_refl) as (r & P & _). unfold layer. rewrite P. cbn [obind]. eexists. reflexivity. Qed.
Lemma densm_total m z d xm tz : re m = Re -> exists r, densm m z d xm tz = Ok r.
Proof.
  intros E. unfold densm. destruct (rle z (zn2 0)); [|cbn [obind]; eexists; reflexivity].
  destruct (layer_total m mn2 zn2 (tn2 m) (tgn2 m) (Rmax z (zn2 (mn2 - 1))) xm d ltac:(unfold mn2; lia) E zn2_pos zn2_down) as [r R1]. rewrite R1. cbn [obind]. destruct (rle z (zn3 0)); [|cbn [obind]; eexists; reflexivity].
  destruct (layer_total m mn3 zn3 (tn3 m) (tgn3 m) z xm (fst r) ltac:(unfold mn3; lia) E zn3_pos zn3_down) as [r' R2]. rewrite R2. cbn [obind]. eexists. reflexivity.
Qed.
Lemma densm_same m m' z d xm tz tz' : re m = Re -> re m' = Re -> gsurf m = G -> gsurf m' = G -> z <= 72.5 -> (forall k, (k < 4)%nat -> tn2 m k = tn2 m' k) -> (forall k, (k < 2)%nat -> tgn2 m k = tgn2 m' k) ->
  (z <= 32.5 -> (forall k, (k < 5)%nat -> tn3 m k = tn3 m' k) /\ (forall k, (k < 2)%nat -> tgn3 m k = tgn3 m' k)) -> densm m z d xm tz = densm m' z d xm tz'.
Proof.
  intros E E' EG EG' Z N2 G2 N3. unfold densm. replace (rle z (zn2 0)) with true by (cbn [zn2]; rdec; [lra|reflexivity]).
  destruct (layer_same m m' mn2 zn2 (tn2 m) (tn2 m') (tgn2 m) (tgn2 m') (Rmax z (zn2 (mn2 - 1))) xm d ltac:(unfold mn2; lia) E E' EG EG' zn2_pos zn2_down N2 (G2 0%nat ltac:(lia)) (G2 1%nat ltac:(lia))) as (r & R1 & R1'). rewrite R1, R1'. cbn [obind].
  destruct (rle z (zn3 0)) eqn:L; [|reflexivity]. assert (L3 : z <= 32.5) by (clear - L; cbn [zn3] in L; rdec; lra). destruct (N3 L3) as [N G3].
  destruct (layer_same m m' mn3 zn3 (tn3 m) (tn3 m') (tgn3 m) (tgn3 m') z xm (fst r) ltac:(unfold mn3; lia) E E' EG EG' zn3_pos zn3_down N (G3 0%nat ltac:(lia)) (G3 1%nat ltac:(lia))) as (r' & R2 & R2'). rewrite R2, R2'. reflexivity.
Qed.
(* what mixing needs for the two results to agree *)
Definition nodes_same (m m' : inst) : Prop := alt i <= 32.5 -> (forall k, (k < 5)%nat -> tn3 m k = tn3 m' k) /\ (forall k, (k < 2)%nat -> tgn3 m k = tgn3 m' k).
Lemma mixing_ni D mass ds o o' tz tz' : alt i < 72.5 -> t0 o = t0 o' ->
  ni (W (E5 D 4 2)) (mixing T i mass ds o tz) (mixing T i mass ds o' tz') (fun _ _ => True) (W (E5 D 4 2)) /\
  forall s s' r r' s1 s1', W (E5 D 4 2) s s' -> nodes_same (snd s) (snd s') -> (mass <> 0%Z -> dm28m (snd s) = dm28m (snd s')) -> (mass = 48%Z \/ o = o') -> mixing T i mass ds o tz s = Ok (r, s1) -> mixing T i mass ds o' tz' s' = Ok (r', s1') -> r = r'.
Proof.
  intros A TT. split.
  - unfold mixing. apply ni_reads. intros m m' (c & c' & (_ & _ & (_ & HR & _ & HR' & _) & _)). cbn [snd] in *. destruct (Z.eqb mass 0).
    + destruct (densm_total m (alt i) 1 0 tz HR) as [r Hr], (densm_total m' (alt i) 1 0 tz' HR') as [r' Hr']. rewrite Hr, Hr'. unfold fails.
      eapply (ni_bind _ (W (E5 D 4 2)) _ _ _ _ _ (fun _ _ => True)); [intros s s' H; do 4 eexists; split; [reflexivity|]; split; [reflexivity|]; split; [exact I|exact H]|]. intros a a' _.
      eapply (ni_bind _ (W (E5 D 4 2)) _ _ _ _ _ eq); [apply writes_W; [kept..|]; intros ? ? HE; exact HE|]. intros _ _ _. apply ni_ret. exact I.
    + destruct (densm_total m (alt i) (dm28m m) (pdm T 2 4) tz HR) as [r Hr], (densm_total m' (alt i) (dm28m m') (pdm T 2 4) tz' HR') as [r' Hr']. rewrite Hr, Hr'. unfold fails.
      eapply (ni_bind _ (W (E5 D 4 2)) _ _ _ _ _ (fun _ _ => True)); [intros s s' H; do 4 eexists; split; [reflexivity|]; split; [reflexivity|]; split; [exact I|exact H]|]. intros a a' _. apply ni_ret. exact I.
  - intros [c m] [c' m'] r r' s1 s1' HW NS DME OO. destruct HW as (_ & _ & (HG & HR & HG' & HR' & _) & _ & _ & (_ & N2 & G2)). cbn [snd] in *.
    unfold mixing, bind, reads, fails, writes, ret. cbn [fst snd]. destruct (Z.eqb_spec mass 0) as [Z|Z].
    + rewrite (densm_same m m' (alt i) 1 0 tz tz' HR HR' HG HG' ltac:(lra) N2 G2 NS). destruct OO as [OO|OO]; [lia|]. subst o'. destruct (densm m' (alt i) 1 0 tz') as [q|]; [|discriminate]. intros Q Q'. injection Q as <- _. injection Q' as <- _. reflexivity.
    + rewrite (DME Z). rewrite (densm_same m m' (alt i) (dm28m m') (pdm T 2 4) tz tz' HR HR' HG HG' ltac:(lra) N2 G2 NS). destruct (densm m' (alt i) (dm28m m') (pdm T 2 4) tz') as [q|]; [|discriminate]. intros Q Q'. injection Q as <- _. injection Q' as <- _.
      destruct OO as [->| <-]; [|reflexivity]. rewrite TT. reflexivity.
Qed.
End Runs.
