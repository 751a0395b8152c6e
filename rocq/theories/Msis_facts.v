(* More about the atmosphere model: total mass density, units, signs, Legendre functions, and the
   places where a result is not computed from the input. *)
From Coq Require Import List ZArith Reals Arith Bool Lra Lia.
From Verif Require Import Base Gravity_model Spline_model Spline_proofs Msis_model Msis_spline Msis_proofs Msis_history Legendre.
Import ListNotations.
Local Open Scope R_scope.

(* ---- specification ---- *)
(* the mass of the species but anomalous oxygen, in atomic mass units per volume *)
Definition amu (o : output) : R := 4 * d0 o + 16 * d1 o + 28 * d2 o + 32 * d3 o + 40 * d4 o + d6 o + 14 * d7 o.
(* the atomic mass unit of the code in g, or in kg *)
Definition unit_mass (i : input) : R := if meters i then 0.00166 / 10 ^ 24 else 1.66 / 10 ^ 24.
(* the same amounts per cubic metre instead of per cubic centimetre, kg instead of g *)
Definition in_si (o o' : output) : Prop :=
  d0 o' = 1000000 * d0 o /\ d1 o' = 1000000 * d1 o /\ d2 o' = 1000000 * d2 o /\ d3 o' = 1000000 * d3 o /\ d4 o' = 1000000 * d4 o /\
  d5 o' = 1000 * d5 o /\ d6 o' = 1000000 * d6 o /\ d7 o' = 1000000 * d7 o /\ d8 o' = 1000000 * d8 o /\ t0 o' = t0 o /\ t1 o' = t1 o.
Definition with_meters (i : input) : input := Input (sw i) (swc i) (doy i) (sec i) (alt i) (glat i) (glon i) (lst i) (f107A i) (f107 i) (ap i) (aparr i) true.

(* ---- one run ---- *)
Definition hoare {A} (I : state -> Prop) (c : M A) (Q : A -> state -> Prop) : Prop := forall s a s1, I s -> c s = Ok (a, s1) -> Q a s1.
Lemma h_bind {A B} (I : state -> Prop) (c : M A) (f : A -> M B) (Q : A -> state -> Prop) (Q' : B -> state -> Prop) : hoare I c Q -> (forall a, hoare (Q a) (f a) Q') -> hoare I (bind c f) Q'.
Proof. intros H K s b s2 Hs. unfold bind. destruct (c s) as [[a s1]|] eqn:E; [|discriminate]. apply (K a). exact (H s a s1 Hs E). Qed.
Lemma h_ret {A} (I : state -> Prop) (a : A) (Q : A -> state -> Prop) : (forall s, I s -> Q a s) -> hoare I (ret a) Q.
Proof. intros H s b s1 Hs E. injection E as <- <-. apply H, Hs. Qed.
Lemma h_any {A} (I : state -> Prop) (c : M A) : hoare I c (fun _ _ => True). Proof. intros ? ? ? ? ?. exact Logic.I. Qed.
Lemma h_if {A} (I : state -> Prop) (b : bool) (c d : M A) Q : (b = true -> hoare I c Q) -> (b = false -> hoare I d Q) -> hoare I (if b then c else d) Q.
Proof. destruct b; auto. Qed.
Lemma h_weak {A} (I I' : state -> Prop) (c : M A) (Q Q' : A -> state -> Prop) : hoare I' c Q' -> (forall s, I s -> I' s) -> (forall a s, Q' a s -> Q a s) -> hoare I c Q.
Proof. intros H K L s a s1 Hs E. apply L. exact (H s a s1 (K s Hs) E). Qed.
Ltac skip := eapply (h_bind _ _ _ (fun _ _ => True)); [apply h_any|intro].

(* ---- total mass density ---- *)
Lemma to_kg x : 1.66 / 10 ^ 24 * x / 1000 = 0.00166 / 10 ^ 24 * x.
Proof. unfold Q2R. cbn [QArith_base.Qnum QArith_base.Qden]. field. Qed.
Definition massed (i : input) (o : output) : Prop := d5 o = 1.66 / 10 ^ 24 * amu o.
Lemma species_mass T i tinf tlbv s o : hoare (fun _ => True) (species T i 48 tinf tlbv s o) (fun r _ => massed i r).
Proof.
  unfold species. change (mass_index 48) with 1%nat. cbn [among existsb Nat.eqb orb]. do 2 skip. destruct a0 as [[zh b] o1]. do 4 skip. unfold anomalous. do 4 skip. apply h_ret. intros _ _. reflexivity.
Qed.
Lemma gts7_mass T i o : hoare (fun _ => True) (gts7 T i 48 o) (fun r _ => d5 r = unit_mass i * amu r).
Proof.
  unfold gts7. cbn [Z.eqb]. change (mass_index 48) with 1%nat. cbn [Nat.eqb]. do 2 skip. eapply (h_bind _ _ _ (fun r _ => massed i r)); [eapply h_weak; [apply species_mass|auto|auto]|]. intros o1.
  eapply (h_bind _ _ _ (fun r _ => massed i r)).
  - intros s r s1 HM. unfold bind, ret. destruct (densu _ _ _ _ _ _ _ _ _ s) as [[v s2]|]; [|discriminate]. intros E. injection E as <- _. exact HM.
  - intros r. apply h_ret. intros _ HM. unfold massed, amu in HM. unfold unit_mass, amu. destruct (meters i); [|exact HM]. unfold scale_units. cbn [d0 d1 d2 d3 d4 d5 d6 d7 d8]. rewrite HM. unfold Q2R. cbn [QArith_base.Qnum QArith_base.Qden]. field.
Qed.
Lemma gtd7_mass T i o oc tz s r s1 : gtd7 T i 48 o oc tz s = Ok (r, s1) -> d5 r = unit_mass i * amu r.
Proof.
  enough (H : hoare (fun _ => True) (gtd7 T i 48 o oc tz) (fun r _ => d5 r = unit_mass i * amu r)) by (apply H; exact I).
  unfold gtd7. destruct (glatf _) as [g re]. skip. eapply (h_bind _ _ _ (fun r _ => rlt (alt i) zmix = false -> d5 r = unit_mass i * amu r)).
  { destruct (rlt (alt i) zmix) eqn:Z; cbn [andb Z.gtb Z.compare]; [intros ? ? ? ? ? ?; discriminate|]. eapply h_weak; [apply gts7_mass|auto|auto]. }
  intros ds. eapply (h_bind _ _ _ (fun _ _ => rlt (alt i) zmix = false -> d5 ds = unit_mass i * amu ds)); [intros ? ? ? H _; exact H|]. intros _. destruct (rle (zn2 0) (alt i)) eqn:Z.
  - apply h_ret. intros _ H. apply H. clear - Z. unfold zmix. cbn [zn2] in Z. rdec; first [reflexivity|exfalso; lra].
  - eapply (h_bind _ _ _ (fun _ _ => True)); [intros ? ? ? ? ?; exact I|]. intros _. skip. unfold mixing. skip. cbn [Z.eqb Pos.eqb orb]. skip. apply h_ret. intros _ _. cbn [d0 d1 d2 d3 d4 d5 d6 d7 d8]. unfold unit_mass, amu. cbn [d0 d1 d2 d3 d4 d5 d6 d7 d8]. destruct (meters i); [apply to_kg|reflexivity].
Qed.
Lemma gtd7d_mass T i o oc tz s r s1 : gtd7d T i 48 o oc tz s = Ok (r, s1) -> d5 r = unit_mass i * (amu r + 16 * d8 r).
Proof.
  unfold gtd7d, bind, ret. destruct (gtd7 T i 48 o oc tz s) as [[q s2]|]; [|discriminate]. intros E. injection E as <- _. cbn [Z.eqb Pos.eqb]. unfold set_d5, amu, unit_mass. cbn [d0 d1 d2 d3 d4 d5 d6 d7 d8]. destruct (meters i); [apply to_kg|reflexivity].
Qed.

(* ---- the polynomials ---- *)
Lemma legendre_functions x old n m : stored m n = true -> legendre x old m n = cos (deg2rad x) ^ m * Ld n m (sin (deg2rad x)).
Proof.
  set (c := sin (deg2rad x)). assert (L00 := Ld_00 c). assert (L10 := Ld_10 c).
  assert (L20 := Ld_rec 0 0 c). assert (L30 := Ld_rec 1 0 c). assert (L40 := Ld_rec 2 0 c). assert (L50 := Ld_rec 3 0 c). assert (L60 := Ld_rec 4 0 c).
  assert (L11 := Ld_sect 0 c). assert (L21 := Ld_next 1 c). assert (L31 := Ld_rec 1 1 c). assert (L41 := Ld_rec 2 1 c). assert (L51 := Ld_rec 3 1 c). assert (L61 := Ld_rec 4 1 c).
  assert (L22 := Ld_sect 1 c). assert (L32 := Ld_next 2 c). assert (L42 := Ld_rec 2 2 c). assert (L52 := Ld_rec 3 2 c). assert (L62 := Ld_rec 4 2 c). assert (L72 := Ld_rec 5 2 c).
  assert (L33 := Ld_sect 2 c). assert (L43 := Ld_next 3 c). assert (L53 := Ld_rec 3 3 c). assert (L63 := Ld_rec 4 3 c).
  cbn [INR] in *. rewrite L00 in *. rewrite L10 in *.
  assert (E20 : Ld 2 0 c = (3 * c * c - 1) / 2) by lra. rewrite E20 in *. assert (E30 : Ld 3 0 c = (5 * c * ((3 * c * c - 1) / 2) - 2 * c) / 3) by lra. rewrite E30 in *.
  assert (E40 : Ld 4 0 c = (7 * c * ((5 * c * ((3 * c * c - 1) / 2) - 2 * c) / 3) - 3 * ((3 * c * c - 1) / 2)) / 4) by lra. rewrite E40 in *.
  assert (E11 : Ld 1 1 c = 1) by lra. rewrite E11 in *. assert (E21 : Ld 2 1 c = 3 * c) by lra. rewrite E21 in *.
  assert (E31 : Ld 3 1 c = (5 * c * (3 * c) - 3) / 2) by lra. rewrite E31 in *. assert (E41 : Ld 4 1 c = (7 * c * ((5 * c * (3 * c) - 3) / 2) - 4 * (3 * c)) / 3) by lra. rewrite E41 in *.
  assert (E22 : Ld 2 2 c = 3) by lra. rewrite E22 in *. assert (E32 : Ld 3 2 c = 15 * c) by lra. rewrite E32 in *. assert (E42 : Ld 4 2 c = (7 * c * (15 * c) - 15) / 2) by lra. rewrite E42 in *.
  assert (E33 : Ld 3 3 c = 15) by lra. rewrite E33 in *. assert (E43 : Ld 4 3 c = 105 * c) by lra. rewrite E43 in *.
  set (e30 := (5 * c * ((3 * c * c - 1) / 2) - 2 * c) / 3) in *. set (e40 := (7 * c * e30 - 3 * ((3 * c * c - 1) / 2)) / 4) in *. set (e31 := (5 * c * (3 * c) - 3) / 2) in *. set (e41 := (7 * c * e31 - 4 * (3 * c)) / 3) in *. set (e42 := (7 * c * (15 * c) - 15) / 2) in *.
  assert (E50 : Ld 5 0 c = (9 * c * e40 - 4 * e30) / 5) by lra. rewrite E50 in *. assert (E60 : Ld 6 0 c = (11 * c * ((9 * c * e40 - 4 * e30) / 5) - 5 * e40) / 6) by lra.
  assert (E51 : Ld 5 1 c = (9 * c * e41 - 5 * e31) / 4) by lra. rewrite E51 in *. assert (E61 : Ld 6 1 c = (11 * c * ((9 * c * e41 - 5 * e31) / 4) - 6 * e41) / 5) by lra.
  assert (E52 : Ld 5 2 c = (9 * c * e42 - 6 * (15 * c)) / 3) by lra. rewrite E52 in *. assert (E62 : Ld 6 2 c = (11 * c * ((9 * c * e42 - 6 * (15 * c)) / 3) - 7 * e42) / 4) by lra. rewrite E62 in *.
  assert (E72 : Ld 7 2 c = (13 * c * ((11 * c * ((9 * c * e42 - 6 * (15 * c)) / 3) - 7 * e42) / 4) - 8 * ((9 * c * e42 - 6 * (15 * c)) / 3)) / 5) by lra.
  assert (E53 : Ld 5 3 c = (9 * c * (105 * c) - 7 * 15) / 2) by lra. rewrite E53 in *. assert (E63 : Ld 6 3 c = (11 * c * ((9 * c * (105 * c) - 7 * 15) / 2) - 8 * (105 * c)) / 3) by lra.
  intros H. unfold legendre. fold c. set (s := cos (deg2rad x)). clearbody c s.
  destruct m as [|[|[|[|m]]]]; [..|cbn in H; discriminate]; destruct n as [|[|[|[|[|[|[|[|n]]]]]]]]; cbn in H; try discriminate;
    rewrite ?L10, ?E20, ?E30, ?E40, ?E50, ?E60, ?E11, ?E21, ?E31, ?E41, ?E51, ?E61, ?E22, ?E32, ?E42, ?E52, ?E62, ?E72, ?E33, ?E43, ?E53, ?E63; unfold e40, e30, e41, e31, e42; clear; cbn [pow];
    unfold Q2R; cbn [QArith_base.Qnum QArith_base.Qden]; field.
Qed.

(* ---- signs ---- *)
Record coefs_pos (T : tables) : Prop := {
  pos_pdm : forall k, (k <= 7)%nat -> 0 < pdm T k 0;
  pos_pd : forall k, (k <= 8)%nat -> k <> 3%nat -> 0 < pd T k 0;
  mean_mass : 28.9 < pdm T 2 4 < 29;
  pos_ratio : 0 < pdm T 0 1 /\ 0 < pdm T 3 1 /\ 0 < pdm T 4 1
}.
(* a run that leaves dm28 alone, and its result *)
Definition quiet {A} (c : M A) (Q : A -> Prop) : Prop := forall s a s1, c s = Ok (a, s1) -> Q a /\ dm28 (snd s1) = dm28 (snd s).
Lemma q_bind {A B} (c : M A) (f : A -> M B) (Q : A -> Prop) (Q' : B -> Prop) : quiet c Q -> (forall a, Q a -> quiet (f a) Q') -> quiet (bind c f) Q'.
Proof. intros H K s b s2. unfold bind. destruct (c s) as [[a s1]|] eqn:E; [|discriminate]. intros E2. destruct (H s a s1 E) as [Qa D]. destruct (K a Qa s1 b s2 E2) as [Qb D']. split; [exact Qb|congruence]. Qed.
Lemma q_ret {A} (a : A) (Q : A -> Prop) : Q a -> quiet (ret a) Q.
Proof. intros H s b s1 E. injection E as <- <-. split; [exact H|reflexivity]. Qed.
Lemma q_if {A} (b : bool) (c d : M A) Q : (b = true -> quiet c Q) -> (b = false -> quiet d Q) -> quiet (if b then c else d) Q. Proof. destruct b; auto. Qed.
Lemma q_reads {A} (f : inst -> A) : quiet (reads f) (fun _ => True).
Proof. intros s a s1 E. injection E as <- <-. split; [exact I|reflexivity]. Qed.
Lemma q_writes f : (forall m, dm28 (f m) = dm28 m) -> quiet (writes f) (fun _ => True).
Proof. intros H s a s1 E. injection E as <- <-. split; [exact I|apply H]. Qed.
Lemma q_fails {A} (o : outcome A) : quiet (fails o) (fun _ => True).
Proof. intros s a s1. unfold fails. destruct o; [|discriminate]. intros E. injection E as <- <-. split; [exact I|reflexivity]. Qed.
Lemma q_globe7 i p : quiet (globe7 i p) (fun _ => True).
Proof. intros [c m] a s1 E. unfold globe7 in E. injection E as <- <-. split; [exact I|reflexivity]. Qed.
Lemma q_glob7s i p : quiet (glob7s i p) (fun _ => True).
Proof. intros [c m] a s1 E. unfold glob7s in E. injection E as <- <-. split; [exact I|reflexivity]. Qed.
Lemma Rpower_pos x y : 0 < Rpower x y. Proof. unfold Rpower. apply exp_pos. Qed.
Lemma densu_pos T z dlb ta tb xm al zlb s2 : quiet (densu T z dlb ta tb xm al zlb s2) (fun r => 0 < dlb -> 0.01 < Rabs xm -> 0 < fst r).
Proof.
  unfold densu. eapply q_bind; [apply q_reads|]. intros m _. eapply q_bind; [apply q_if; intros _; [apply q_writes; reflexivity|apply q_ret; exact I]|]. intros _ _.
  eapply q_bind; [apply q_reads|]. intros m' _. eapply (q_bind _ _ (fun _ => True)); [apply q_if; intros _; [eapply q_bind; [apply q_fails|]; intros y _; apply q_ret; exact I|apply q_ret; exact I]|]. intros [tz yi] _.
  destruct (rgt (Rabs xm) nearzero) eqn:X.
  - assert (E : forall e c, 0 < (if c : bool then 50 else exp e)) by (intros e [|]; [lra|apply exp_pos]). apply q_if; intros _; apply q_ret; cbn [fst]; intros D _; repeat (apply Rmult_lt_0_compat; [|try apply Rpower_pos; try apply exp_pos; try apply E]); exact D.
  - apply q_ret. intros _ Y. exfalso. clear - X Y. unfold nearzero in X. rdec; lra.
Qed.
Ltac du := eapply q_bind; [apply densu_pos|cbv beta; intros].
Lemma dnet_pos a b zh xmm w : 0 < a -> 0 < b -> 0 < dnet a b zh xmm w.
Proof.
  intros A B. unfold dnet. replace (rle b 0) with false by (rdec; first [reflexivity|exfalso; lra]). replace (rle a 0) with false by (rdec; first [reflexivity|exfalso; lra]). cbn [orb].
  destruct (rlt _ _); [exact A|]. destruct (rgt _ _); [exact B|]. apply Rmult_lt_0_compat; [exact A|apply Rpower_pos].
Qed.
Lemma ccor_pos z r h zh : 0 < ccor z r h zh. Proof. apply exp_pos. Qed.
Lemma ccor2_pos z r h zh h2 : 0 < ccor2 z r h zh h2. Proof. apply exp_pos. Qed.
Section Signs.
Context (T : tables) (CP : coefs_pos T) (i : input).
Lemma xm_far w : (w = 4 \/ w = 16 \/ w = 28 \/ w = 32 \/ w = 40 \/ w = 1 \/ w = 14) -> 0.01 < Rabs w /\ 0.01 < Rabs (w - pdm T 2 4) /\ 0.01 < Rabs (pdm T 2 4).
Proof. intros H. pose proof (mean_mass T CP) as X. repeat destruct H as [H|H]; subst w; repeat split; unfold Rabs; repeat destruct (Rcase_abs _); lra. Qed.
Lemma db_pos k j e : (k <= 7)%nat -> (j <= 8)%nat -> j <> 3%nat -> 0 < pdm T k 0 * exp e * pd T j 0.
Proof. intros K J N. apply Rmult_lt_0_compat; [apply Rmult_lt_0_compat; [apply (pos_pdm T CP), K|apply exp_pos]|apply (pos_pd T CP); assumption]. Qed.
Section Blocks.
Context (tinf tlbv s zhm28 b28 : R).
Let xmm := pdm T 2 4.
Lemma mixed_pos zh db w al d : 0 < db -> 0 < d -> 0.01 < Rabs (w - xmm) -> quiet (mixed T i tinf tlbv s xmm zhm28 zh db w al d) (fun r => 0 < fst (fst r)).
Proof.
  intros DB D X. unfold mixed. du. du. apply q_ret. cbn [fst]. apply dnet_pos; [exact D|]. apply H0; [apply H; assumption|]. apply (xm_far 4). auto.
Qed.
(* the densities that are positive, in the order in which they are computed *)
Definition posn (n : nat) (o : output) : Prop := ((1 <= n)%nat -> 0 < d2 o) /\ ((2 <= n)%nat -> 0 < d0 o) /\ ((3 <= n)%nat -> 0 < d1 o) /\ ((4 <= n)%nat -> 0 < d3 o) /\ ((5 <= n)%nat -> 0 < d4 o) /\ ((6 <= n)%nat -> 0 < d6 o) /\ ((7 <= n)%nat -> 0 < d7 o) /\ ((8 <= n)%nat -> 0 < d8 o).
Ltac pn := match goal with H : posn _ _ |- posn _ _ => destruct H as (P2 & P0 & P1 & P3 & P4 & P6 & P7 & P8); unfold posn, set_t1, set_d0, set_d1, set_d2, set_d3, set_d4, set_d6, set_d7, set_d8; cbn [d0 d1 d2 d3 d4 d5 d6 d7 d8]; repeat split; intros; try (apply P2; lia); try (apply P0; lia); try (apply P1; lia); try (apply P3; lia); try (apply P4; lia); try (apply P6; lia); try (apply P7; lia); try (apply P8; lia); try lia end.
Ltac start w := intros P; destruct (xm_far w) as (X1 & X2 & X3); [tauto|]; eapply q_bind; [apply q_globe7|]; intros g _; du; eapply q_bind; [apply q_writes; reflexivity|]; intros _ _; match goal with H : 0 < ?d -> _ -> 0 < fst ?a |- _ => specialize (H ltac:(apply db_pos; lia) X1) end.
Lemma helium_pos o : posn 1 o -> quiet (helium T i tinf tlbv s xmm zhm28 b28 o) (posn 2).
Proof.
  unfold helium, diffusive. start 4. apply q_if; intros _; [|apply q_ret; pn; assumption].
  eapply q_bind; [apply mixed_pos; [apply db_pos; lia|assumption|exact X2]|]. intros b B. cbv beta in B. apply q_ret. pn. apply Rmult_lt_0_compat; [exact B|apply ccor_pos].
Qed.
Lemma oxygen_pos o : posn 2 o -> quiet (oxygen T i tinf tlbv s xmm zhm28 o) (posn 3).
Proof.
  unfold oxygen, diffusive. start 16. apply q_if; intros _; [|apply q_ret; pn; assumption].
  eapply q_bind; [apply mixed_pos; [apply db_pos; lia|assumption|exact X2]|]. intros b B. cbv beta in B. apply q_ret. pn. repeat apply Rmult_lt_0_compat; [exact B|apply ccor2_pos|apply ccor_pos].
Qed.
Lemma oxygen2_pos mass o : posn 3 o -> quiet (oxygen2 T i tinf tlbv s xmm zhm28 b28 mass o) (posn 4).
Proof.
  unfold oxygen2, diffusive. start 32. apply q_if; intros _; [|apply q_ret; pn; assumption].
  eapply (q_bind _ _ (posn 4)).
  - apply q_if; intros _; [|apply q_ret; pn; assumption]. eapply q_bind; [apply mixed_pos; [apply db_pos; lia|assumption|exact X2]|]. intros b B. cbv beta in B. apply q_ret. pn. apply Rmult_lt_0_compat; [exact B|apply ccor_pos].
  - clear P. intros r P. apply q_ret. pn. apply Rmult_lt_0_compat; [apply P3; lia|apply ccor2_pos].
Qed.
Lemma argon_pos o : posn 4 o -> quiet (argon T i tinf tlbv s xmm zhm28 b28 o) (posn 5).
Proof.
  unfold argon, diffusive. start 40. apply q_if; intros _; [|apply q_ret; pn; assumption].
  eapply q_bind; [apply mixed_pos; [apply db_pos; lia|assumption|exact X2]|]. intros b B. cbv beta in B. apply q_ret. pn. apply Rmult_lt_0_compat; [exact B|apply ccor_pos].
Qed.
Lemma hydrogen_pos o : posn 5 o -> quiet (hydrogen T i tinf tlbv s xmm zhm28 b28 o) (posn 6).
Proof.
  unfold hydrogen, diffusive. start 1. apply q_if; intros _; [|apply q_ret; pn; assumption].
  eapply q_bind; [apply mixed_pos; [apply db_pos; lia|assumption|exact X2]|]. intros b B. cbv beta in B. apply q_ret. pn. repeat apply Rmult_lt_0_compat; [exact B|apply ccor_pos|apply ccor_pos].
Qed.
Lemma nitrogen_pos o : posn 6 o -> quiet (nitrogen T i tinf tlbv s xmm zhm28 b28 o) (posn 7).
Proof.
  unfold nitrogen, diffusive. start 14. apply q_if; intros _; [|apply q_ret; pn; assumption].
  eapply q_bind; [apply mixed_pos; [apply db_pos; lia|assumption|exact X2]|]. intros b B. cbv beta in B. apply q_ret. pn. repeat apply Rmult_lt_0_compat; [exact B|apply ccor_pos|apply ccor_pos].
Qed.
Lemma anomalous_pos mass o : posn 7 o -> quiet (anomalous T i s mass o) (posn 8).
Proof.
  unfold anomalous. start 16. eapply q_bind; [apply q_reads|]. intros m _. apply q_ret. assert (E : posn 8 (set_t1 (set_d8 o (fst a * exp (- pdm T 7 5 / scalh m (pdm T 7 4) 16 (pdm T 7 9 * pdl T 0 6) * (exp (- (alt i - pdm T 7 4) / pdm T 7 5) - 1)))) (snd a))) by (pn; apply Rmult_lt_0_compat; [assumption|apply exp_pos]).
  destruct (Z.eqb mass 48); exact E.
Qed.
End Blocks.
(* nitrogen, and dm28 below 160 km *)
Lemma molecular_pos mass tinf tlbv s g28 zhf o : mass = 28%Z \/ mass = 48%Z -> hoare (fun _ => True) (molecular T i mass tinf tlbv s g28 zhf (pdm T 2 4) o) (fun r s1 => posn 1 (snd r) /\ (rle (alt i) (altl 2) && on (sw i 14) = true -> 0 < dm28 (snd s1))).
Proof.
  intros HM. unfold molecular. replace (rlt (alt i) (altl 5) || Z.eqb mass 28 || Z.eqb mass 48) with true by (destruct HM; subst mass; destruct (rlt _ _); reflexivity).
  destruct (xm_far 28) as (X1 & X2 & X3); [tauto|]. assert (DB : 0 < pdm T 2 0 * exp g28 * pd T 2 0) by (apply db_pos; lia).
  eapply (h_bind _ _ _ (fun r _ => 0 < fst r)); [intros a b c _ E; apply (densu_pos T _ _ _ _ _ _ _ _ a b c E); assumption|]. intros r.
  eapply (h_bind _ _ _ (fun _ _ => 0 < fst r)); [intros a b c H _; exact H|]. intros _. cbv zeta.
  eapply (h_bind _ _ _ (fun b _ => 0 < fst r /\ 0 < fst b)); [intros a b c H E; split; [exact H|]; apply (densu_pos T _ _ _ _ _ _ _ _ a b c E); assumption|]. intros b.
  destruct (rle (alt i) (altl 2) && on (sw i 14)).
  - eapply (h_bind _ _ _ (fun dm _ => 0 < fst r /\ 0 < fst dm)); [intros a q c [H1 H2] E; split; [exact H1|]; apply (densu_pos T _ _ _ _ _ _ _ _ a q c E); assumption|]. intros dm.
    eapply (h_bind _ _ _ (fun _ s1 => 0 < fst r /\ 0 < fst dm /\ 0 < dm28 (snd s1))); [intros a q c [H1 H2] E; injection E as _ <-; split; [exact H1|split; exact H2]|]. intros _. apply h_ret. intros s1 (H1 & H2 & H3). split; [|intros _; exact H3].
    cbn [snd]. unfold posn, set_d2, set_t1. cbn [d0 d1 d2 d3 d4 d6 d7 d8]. repeat split; intros; try lia. apply dnet_pos; assumption.
  - apply h_ret. intros s1 [H1 H2]. split; [|discriminate]. cbn [snd]. unfold posn, set_d2, set_t1. cbn [d0 d1 d2 d3 d4 d6 d7 d8]. repeat split; intros; try lia. exact H1.
Qed.
Lemma h_quiet {A} (P : state -> Prop) (c : M A) Q : quiet c Q -> hoare P c (fun a s1 => Q a /\ exists s, P s /\ dm28 (snd s1) = dm28 (snd s)).
Proof. intros H s a s1 Hs E. destruct (H s a s1 E) as [H1 H2]. split; [exact H1|]. exists s. auto. Qed.
Lemma h_quietD {A} (X : Prop) (c : M A) Q : quiet c Q -> hoare (fun s => X -> 0 < dm28 (snd s)) c (fun a s1 => Q a /\ (X -> 0 < dm28 (snd s1))).
Proof. intros H s a s1 Hs E. destruct (H s a s1 E) as [H1 H2]. split; [exact H1|]. rewrite H2. exact Hs. Qed.
Lemma species_pos mass tinf tlbv s o : mass = 28%Z \/ mass = 48%Z -> hoare (fun _ => True) (species T i mass tinf tlbv s o) (fun r s1 => posn (if Z.eqb mass 48 then 8 else 1) r /\ (rle (alt i) (altl 2) && on (sw i 14) = true -> 0 < dm28 (snd s1))).
Proof.
  intros HM. unfold species. skip. eapply (h_bind _ _ _ (fun r s1 => posn 1 (snd r) /\ (rle (alt i) (altl 2) && on (sw i 14) = true -> 0 < dm28 (snd s1)))).
  { destruct HM; subst mass; apply molecular_pos; auto. }
  intros [[zh b] o1]. cbn [snd]. set (X := rle (alt i) (altl 2) && on (sw i 14) = true).
  intros s0 r s1 [P D]. revert s0 r s1 D. change (hoare (fun s => X -> 0 < dm28 (snd s)) (bind (if among (mass_index mass) [1; 3; 4; 9]%nat then bind (helium T i tinf tlbv s (pdm T 2 4) zh b o1) (fun o => oxygen T i tinf tlbv s (pdm T 2 4) zh o) else ret o1) (fun o => bind (if among (mass_index mass) [1; 3; 4; 6; 9]%nat then oxygen2 T i tinf tlbv s (pdm T 2 4) zh b mass o else ret o) (fun o => bind (if among (mass_index mass) [1; 3; 4; 6; 9; 7]%nat then argon T i tinf tlbv s (pdm T 2 4) zh b o else ret o) (fun o => bind (if among (mass_index mass) [1; 3; 4; 6; 9; 7; 8]%nat then bind (hydrogen T i tinf tlbv s (pdm T 2 4) zh b o) (fun o => nitrogen T i tinf tlbv s (pdm T 2 4) zh b o) else ret o) (fun o => if among (mass_index mass) [1; 3; 4; 6; 9; 7; 8; 10; 11]%nat then anomalous T i s mass o else ret o))))) (fun r s1 => posn (if Z.eqb mass 48 then 8 else 1) r /\ (X -> 0 < dm28 (snd s1)))).
  apply h_quietD. destruct HM; subst mass.
  - repeat (eapply (q_bind _ _ (posn 1)); [apply q_ret; assumption|clear P; intros ? P]). apply q_ret. exact P.
  - change (mass_index 48) with 1%nat. cbn [among existsb Nat.eqb orb Z.eqb Pos.eqb]. eapply (q_bind _ _ (posn 3)); [eapply (q_bind _ _ (posn 2)); [apply helium_pos, P|intros; apply oxygen_pos; assumption]|]. intros q1 Q1.
    eapply (q_bind _ _ (posn 4)); [apply oxygen2_pos, Q1|]. intros q2 Q2. eapply (q_bind _ _ (posn 5)); [apply argon_pos, Q2|]. intros q3 Q3. eapply (q_bind _ _ (posn 7)); [eapply (q_bind _ _ (posn 6)); [apply hydrogen_pos, Q3|intros; apply nitrogen_pos; assumption]|]. intros q4 Q4. apply anomalous_pos, Q4.
Qed.
Lemma gts7_pos mass o : mass = 28%Z \/ mass = 48%Z -> hoare (fun _ => True) (gts7 T i mass o) (fun r s1 => posn (if Z.eqb mass 48 then 8 else 1) r /\ (rle (alt i) (altl 2) && on (sw i 14) = true -> 0 < dm28 (snd s1))).
Proof.
  intros HM. unfold gts7. do 2 skip. rewrite (proj2 (Z.eqb_neq mass 0)) by lia. eapply h_bind; [apply species_pos, HM|]. intros o1. cbv beta. set (X := rle (alt i) (altl 2) && on (sw i 14) = true).
  intros s0 r s1 [P D]. revert s0 r s1 D. apply (h_quietD X). apply (q_bind _ _ (posn (if Z.eqb mass 48 then 8 else 1))).
  - apply q_if; intros _; [apply q_ret; exact P|]. du. apply q_ret. exact P.
  - clear P. intros q P. apply q_ret. destruct (meters i); [|exact P]. unfold posn, scale_units in *. cbn [d0 d1 d2 d3 d4 d6 d7 d8]. destruct P as (P2 & P0 & P1 & P3 & P4 & P6 & P7 & P8).
    repeat split; intros N; (apply Rmult_lt_0_compat; [|lra]); auto.
Qed.
End Signs.

Lemma gtd7_pos T i o oc tz s r s1 : coefs_pos T -> 72.5 <= alt i -> gtd7 T i 48 o oc tz s = Ok (r, s1) -> posn 8 r.
Proof.
  intros CP A. enough (H : hoare (fun _ => True) (gtd7 T i 48 o oc tz) (fun r _ => posn 8 r)) by (apply H; exact I).
  unfold gtd7. destruct (glatf _) as [g re]. skip. replace (rlt (alt i) zmix) with false by (unfold zmix; rdec; first [reflexivity|exfalso; lra]). cbn [andb].
  eapply h_bind; [apply (gts7_pos T CP (with_alt i (Rmax (alt i) (zn2 0))) 48 oc); auto|]. intros ds. cbv beta. eapply (h_bind _ _ _ (fun _ _ => posn 8 ds)); [intros ? ? ? H _; apply H|]. intros _.
  replace (rle (zn2 0) (alt i)) with true by (cbn [zn2]; rdec; first [reflexivity|exfalso; lra]). apply h_ret. intros _ H. exact H.
Qed.

(* ---- units ---- *)
Lemma gts7_units T i mass o s r s1 : meters i = false -> gts7 T i mass o s = Ok (r, s1) -> gts7 T (with_meters i) mass o s = Ok (scale_units r, s1).
Proof.
  intros MI. unfold gts7. change (temperatures T (with_meters i)) with (temperatures T i). change (meters (with_meters i)) with true. change (alt (with_meters i)) with (alt i). rewrite MI.
  unfold bind, ret, reads. destruct (temperatures T i s) as [[tinf s2]|]; [|discriminate].
  match goal with |- context [species T (with_meters i) ?a ?b ?c ?d ?e] => change (species T (with_meters i) a b c d e) with (species T i a b c d e) end.
  match goal with |- match ?X with _ => _ end = _ -> _ => destruct X as [[q s3]|] end; [|discriminate].
  match goal with |- match ?X with _ => _ end = _ -> _ => destruct X as [[q' s4]|] end; [|discriminate]. intros E. injection E as <- <-. reflexivity.
Qed.
(* runs that neither read nor write dm28m *)
Definition framed {A} (c : M A) : Prop := forall st m v, c (st, set_dm28m m v) = match c (st, m) with Ok (a, (st', m')) => Ok (a, (st', set_dm28m m' v)) | UB => UB end.
Lemma f_bind {A B} (c : M A) (f : A -> M B) : framed c -> (forall a, framed (f a)) -> framed (bind c f).
Proof. intros H K st m v. unfold bind. rewrite H. destruct (c (st, m)) as [[a [st' m']]|]; [|reflexivity]. apply K. Qed.
Lemma f_ret {A} (a : A) : framed (ret a). Proof. intros st m v. reflexivity. Qed.
Lemma f_glob7s i p : framed (glob7s i p). Proof. intros st m v. reflexivity. Qed.
Lemma f_writes f : (forall m v, f (set_dm28m m v) = set_dm28m (f m) v) -> framed (writes f). Proof. intros H st m v. unfold writes. cbn [fst snd]. rewrite H. reflexivity. Qed.
Ltac fr := repeat first [apply f_bind; [|intro]|apply f_glob7s|apply f_writes; reflexivity|apply f_ret].
Lemma mesosphere_framed T i : framed (mesosphere T i). Proof. unfold mesosphere. fr. Qed.
Lemma troposphere_framed T i : framed (troposphere T i). Proof. unfold troposphere. fr. Qed.
Lemma densm_linear m z d xm tz k r : 0.01 < Rabs xm -> densm m z d xm tz = Ok r -> densm m z (k * d) xm tz = Ok (k * fst r, snd r).
Proof.
  intros X. unfold densm. replace (rlt (Rabs xm) nearzero) with false by (unfold nearzero; rdec; first [reflexivity|exfalso; lra]).
  assert (L : forall mn zn tn tgn z d r, layer m mn zn tn tgn z xm d = Ok r -> layer m mn zn tn tgn z xm (k * d) = Ok (k * fst r, snd r)).
  { clear r z d. intros mn zn tn tgn z d r. unfold layer. destruct (profile m 10 mn zn tn tgn z) as [y|]; [|discriminate]. cbn [obind]. intros E. injection E as <-. cbn [fst snd]. replace (rgt (Rabs xm) nearzero) with true by (unfold nearzero; rdec; first [reflexivity|exfalso; lra]). do 2 f_equal. ring. }
  destruct (rle z (zn2 0)); [|cbn [obind]; intros E; injection E as <-; reflexivity].
  destruct (layer m mn2 zn2 (tn2 m) (tgn2 m) (Rmax z (zn2 (mn2 - 1))) xm d) as [q|] eqn:Q; [|discriminate]. rewrite (L _ _ _ _ _ _ _ Q). cbn [obind fst]. destruct (rle z (zn3 0)); [|cbn [obind]; intros E; injection E as <-; reflexivity].
  destruct (layer m mn3 zn3 (tn3 m) (tgn3 m) z xm (fst q)) as [q2|] eqn:Q2; [|discriminate]. rewrite (L _ _ _ _ _ _ _ Q2). cbn [obind]. intros E. injection E as <-. reflexivity.
Qed.
Lemma bind_inv {A B} (c : M A) (f : A -> M B) s b s2 : bind c f s = Ok (b, s2) -> exists a s1, c s = Ok (a, s1) /\ f a s1 = Ok (b, s2).
Proof. unfold bind. destruct (c s) as [[a s1]|]; [|discriminate]. intros H. exists a, s1. auto. Qed.
Lemma glob7s_m i p : glob7s (with_meters i) p = glob7s i p. Proof. reflexivity. Qed.
Lemma mesosphere_m T i : mesosphere T (with_meters i) = mesosphere T i. Proof. unfold mesosphere. rewrite !glob7s_m. reflexivity. Qed.
Lemma troposphere_m T i : troposphere T (with_meters i) = troposphere T i. Proof. unfold troposphere. rewrite !glob7s_m. reflexivity. Qed.
Lemma ratio a b : b <> 0 -> a * 10 ^ 6 / (b * 10 ^ 6) = a / b.
Proof. intros H. field. exact H. Qed.
Lemma ratio2 a b c : b <> 0 -> c <> 0 -> a * 10 ^ 6 / (b * 10 ^ 6 * c) = a / (b * c).
Proof. intros H K. field. split; assumption. Qed.
Lemma to_kg' x : 1.66 / 10 ^ 24 * x / 1000 = 1000 * (1.66 / 10 ^ 24 * (x / 10 ^ 6)).
Proof. field. Qed.
Lemma gtd7_units T i mass o oc tz s r s1 : coefs_pos T -> meters i = false -> 72.5 <= alt i \/ (mass = 48%Z /\ on (sw i 14) = true) -> gtd7 T i mass o oc tz s = Ok (r, s1) ->
  exists r' s1', gtd7 T (with_meters i) mass o oc tz s = Ok (r', s1') /\ in_si r r'.
Proof.
  intros CP MI C. unfold gtd7. change (sw (with_meters i)) with (sw i). change (glat (with_meters i)) with (glat i). change (alt (with_meters i)) with (alt i). change (meters (with_meters i)) with true. rewrite MI.
  destruct (glatf _) as [g re]. set (s0 := (fst s, set_grav (snd s) g re)).
  set (mss := if rlt (alt i) zmix && Z.gtb mass 0 then 28%Z else mass). set (j := with_alt i (Rmax (alt i) (zn2 0))). change (with_alt (with_meters i) (Rmax (alt i) (zn2 0))) with (with_meters j).
  intros R1. rewrite (bind_ok (writes _) _ s tt s0 eq_refl) in R1. rewrite (bind_ok (writes _) _ s tt s0 eq_refl). apply bind_inv in R1. destruct R1 as (ds & [st m] & EG & R1).
  rewrite (bind_ok _ _ _ _ _ (gts7_units T j mss oc s0 ds (st, m) MI EG)).
  rewrite (bind_ok (writes _) _ (st, m) tt (st, set_dm28m m (dm28 m)) eq_refl) in R1. rewrite (bind_ok (writes _) _ (st, m) tt (st, set_dm28m m (dm28 m * 10 ^ 6)) eq_refl). cbv zeta in R1. cbv zeta.
  destruct (rle (zn2 0) (alt i)) eqn:Z.
  { injection R1 as <- _. do 2 eexists. split; [reflexivity|]. unfold in_si, scale_units. cbn [d0 d1 d2 d3 d4 d5 d6 d7 d8 t0 t1 set_t0 set_t1]. repeat split; try ring. field. }
  assert (Z' : alt i < 72.5) by (clear - Z; cbn [zn2] in Z; rdec; lra). destruct C as [C|[-> S14]]; [lra|].
  assert (ZJ : alt j = 72.5) by (unfold j; cbn [alt with_alt zn2]; apply Rmax_right; lra).
  assert (MS : mss = 28%Z \/ mss = 48%Z) by (unfold mss; destruct (rlt (alt i) zmix && Z.gtb 48 0); auto).
  destruct (gts7_pos T CP j mss oc MS s0 ds (st, m) I EG) as [PD P28]. assert (D28 : 0 < dm28 m).
  { apply P28. rewrite ZJ. change (sw j 14%nat) with (sw i 14%nat). rewrite S14, andb_true_r. cbn [altl]. clear. rdec; first [reflexivity|exfalso; lra]. }
  assert (D2 : 0 < d2 ds) by (destruct PD as (P2 & _); apply P2; destruct (Z.eqb mss 48); lia).
  destruct (pos_ratio T CP) as (R0' & R3' & R4'). pose proof (mean_mass T CP) as XM.
  set (u := set_t1 (set_t0 o (t0 ds)) (t1 ds)) in *. change (set_t1 (set_t0 o (t0 (scale_units ds))) (t1 (scale_units ds))) with u.
  rewrite mesosphere_m, troposphere_m.
  apply bind_inv in R1. destruct R1 as ([] & [st2 m2] & E2 & R1). rewrite mesosphere_framed in E2.
  apply bind_inv in R1. destruct R1 as ([] & [st3 m3] & E3 & R1). unfold bind at 1. rewrite mesosphere_framed. destruct (mesosphere T i (st, m)) as [[[] [st2' m2']]|]; [|discriminate]. injection E2 as -> <-.
  assert (FT : framed (if rlt (alt i) (zn3 0) then troposphere T i else ret tt)) by (destruct (rlt (alt i) (zn3 0)); [apply troposphere_framed|apply f_ret]).
  rewrite FT in E3. unfold bind at 1. rewrite FT. destruct ((if rlt (alt i) (zn3 0) then troposphere T i else ret tt) (st2, m2')) as [[[] [st3' m3']]|]; [|discriminate]. injection E3 as -> <-.
  unfold mixing in *. cbn [Z.eqb Pos.eqb orb] in *. apply bind_inv in R1. destruct R1 as (q & sq & Eq & R1). injection Eq as <- <-. cbn [snd] in R1. apply bind_inv in R1. destruct R1 as (r2 & sq & Eq & R1).
  unfold fails in Eq. destruct (densm (set_dm28m m3' (dm28 m)) (alt i) (dm28m (set_dm28m m3' (dm28 m))) (pdm T 2 4) tz) as [rr|] eqn:DN; [|discriminate]. injection Eq as <- <-.
  assert (DN' : densm (set_dm28m m3' (dm28 m * 10 ^ 6)) (alt i) (dm28m (set_dm28m m3' (dm28 m * 10 ^ 6))) (pdm T 2 4) tz = Ok (10 ^ 6 * fst rr, snd rr)).
  { change (densm (set_dm28m m3' (dm28 m * 10 ^ 6)) (alt i) (dm28m (set_dm28m m3' (dm28 m * 10 ^ 6))) (pdm T 2 4) tz) with (densm (set_dm28m m3' (dm28 m)) (alt i) (dm28 m * 10 ^ 6) (pdm T 2 4) tz).
    rewrite (Rmult_comm (dm28 m)). apply densm_linear; [unfold Rabs; destruct (Rcase_abs _); lra|exact DN]. }
  unfold bind, reads, fails, ret in *. cbn [snd]. change (alt (with_meters i)) with (alt i). rewrite DN'. injection R1 as <- _. do 2 eexists. split; [reflexivity|]. clear DN DN' FT.
  unfold in_si, scale_units. cbn [d0 d1 d2 d3 d4 d5 d6 d7 d8 t0 t1 fst snd dm28m set_dm28m]. change (meters (with_meters i)) with true. rewrite MI. set (dmc := if rgt (alt i) zmix then _ else _). clearbody dmc.
  rewrite (ratio (d2 ds) (dm28 m)) by lra. rewrite (ratio2 (d0 ds) (d2 ds) (pdm T 0 1)), (ratio2 (d3 ds) (d2 ds) (pdm T 3 1)), (ratio2 (d4 ds) (d2 ds) (pdm T 4 1)) by lra.
  set (q2 := d2 ds / dm28 m). set (q0 := d0 ds / _). set (q3 := d3 ds / _). set (q4 := d4 ds / _). clearbody q2 q0 q3 q4.
  repeat split; try ring. rewrite to_kg'. apply f_equal, f_equal. unfold Rdiv. ring_simplify. field.
Qed.
