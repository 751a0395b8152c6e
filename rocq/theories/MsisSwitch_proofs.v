From Coq Require Import List ZArith QArith Qreals Reals Arith Bool Lra Lia FunctionalExtensionality.
From Verif Require Import Base Gravity_model Spline_model Msis_model Msis_proofs Msis_history Msis_data Msis_code Msis_facts Msis_refute MsisSwitch_model.
Local Open Scope R_scope.

(* ---- specification ---- *)
(* the same request but for the magnetic indices *)
Definition with_indices (i : input) (a : R) (r : nat -> R) : input :=
  Input (sw i) (swc i) (doy i) (sec i) (alt i) (glat i) (glon i) (lst i) (f107A i) (f107 i) a r (meters i).
(* what a call returns, or nothing *)
Definition value {A S} (o : outcome (A * S)) : option A := match o with Ok (a, _) => Some a | UB => None end.

(* ---- the two kinds of magnetic indices ---- *)
Lemma globe7_daily i a r p : daily i = false -> globe7 (with_indices i a r) p = globe7 (with_indices i (ap i) r) p.
Proof.
  intros D. apply functional_extensionality. intros [c m]. unfold globe7. change (daily (with_indices i a r)) with (daily i). change (daily (with_indices i (ap i) r)) with (daily i). rewrite D. reflexivity.
Qed.
Lemma globe7_array i a r p : daily i = true -> globe7 (with_indices i a r) p = globe7 (with_indices i a (aparr i)) p.
Proof.
  intros D. apply functional_extensionality. intros [c m]. unfold globe7. change (daily (with_indices i a r)) with (daily i). change (daily (with_indices i a (aparr i))) with (daily i). rewrite D. reflexivity.
Qed.
Lemma glob7s_idx i a r p : glob7s (with_indices i a r) p = glob7s i p.
Proof. reflexivity. Qed.
Ltac projs := cbn [with_indices with_alt sw swc doy sec alt glat glon lst f107A f107 ap aparr meters].
Section Indices.
Context (T : tables) (i : input) (a : R) (r : nat -> R).
Notation j := (with_indices i a r).
Hypothesis G : forall p, globe7 j p = globe7 i p.
Lemma temperatures_idx : temperatures T j = temperatures T i.
Proof. unfold temperatures. rewrite !G, !glob7s_idx. projs. reflexivity. Qed.
Lemma helium_idx : helium T j = helium T i.
Proof. unfold helium, mixed. rewrite !G. projs. reflexivity. Qed.
Lemma oxygen_idx : oxygen T j = oxygen T i.
Proof. unfold oxygen, mixed. rewrite !G. projs. reflexivity. Qed.
Lemma oxygen2_idx : oxygen2 T j = oxygen2 T i.
Proof. unfold oxygen2, mixed. rewrite !G. projs. reflexivity. Qed.
Lemma argon_idx : argon T j = argon T i.
Proof. unfold argon, mixed. rewrite !G. projs. reflexivity. Qed.
Lemma hydrogen_idx : hydrogen T j = hydrogen T i.
Proof. unfold hydrogen, mixed. rewrite !G. projs. reflexivity. Qed.
Lemma nitrogen_idx : nitrogen T j = nitrogen T i.
Proof. unfold nitrogen, mixed. rewrite !G. projs. reflexivity. Qed.
Lemma anomalous_idx : anomalous T j = anomalous T i.
Proof. unfold anomalous. rewrite !G. projs. reflexivity. Qed.
Lemma molecular_idx : molecular T j = molecular T i.
Proof. unfold molecular. projs. reflexivity. Qed.
Lemma species_idx : species T j = species T i.
Proof. unfold species. rewrite !G, helium_idx, oxygen_idx, oxygen2_idx, argon_idx, hydrogen_idx, nitrogen_idx, anomalous_idx, molecular_idx. projs. reflexivity. Qed.
Lemma gts7_idx : gts7 T j = gts7 T i.
Proof. unfold gts7. rewrite temperatures_idx, species_idx. projs. reflexivity. Qed.
Lemma mesosphere_idx : mesosphere T j = mesosphere T i.
Proof. unfold mesosphere. rewrite !glob7s_idx. projs. reflexivity. Qed.
Lemma troposphere_idx : troposphere T j = troposphere T i.
Proof. unfold troposphere. rewrite !glob7s_idx. projs. reflexivity. Qed.
Lemma mixing_idx : mixing T j = mixing T i.
Proof. unfold mixing. projs. reflexivity. Qed.
End Indices.
Lemma gtd7_idx T i a r : (forall z p, globe7 (with_indices (with_alt i z) a r) p = globe7 (with_alt i z) p) -> gtd7 T (with_indices i a r) = gtd7 T i.
Proof.
  intros G. unfold gtd7. rewrite mesosphere_idx, troposphere_idx, mixing_idx.
  do 4 (apply functional_extensionality; intro). cbn [alt with_indices]. change (with_alt (with_indices i a r) (Rmax (alt i) (zn2 0))) with (with_indices (with_alt i (Rmax (alt i) (zn2 0))) a r).
  rewrite (gts7_idx T (with_alt i (Rmax (alt i) (zn2 0))) a r (G _)). projs. reflexivity.
Qed.
Lemma gtd7d_idx T i a r : gtd7 T (with_indices i a r) = gtd7 T i -> gtd7d T (with_indices i a r) = gtd7d T i.
Proof. intros E. unfold gtd7d. rewrite E. projs. reflexivity. Qed.
Lemma daily_neg i : sw i 8 < 0 -> daily i = false.
Proof. intros H. unfold daily. replace (rlt (sw i 8) 0) with true by (rdec; first [reflexivity|exfalso; lra]). replace (-1 + 1) with 0 by lra. rewrite Rabs_R0. unfold nearzero. rdec; first [reflexivity|exfalso; lra]. Qed.
Lemma daily_pos i : 0 <= sw i 8 -> daily i = true.
Proof. intros H. unfold daily. replace (rlt (sw i 8) 0) with false by (rdec; first [reflexivity|exfalso; lra]). replace (0 + 1) with 1 by lra. rewrite Rabs_R1. unfold nearzero. rdec; first [reflexivity|exfalso; lra]. Qed.
Lemma gtd7_no_daily T i a : sw i 8 < 0 -> gtd7 T (with_indices i a (aparr i)) = gtd7 T i.
Proof. intros H. apply gtd7_idx. intros z p. exact (globe7_daily (with_alt i z) a (aparr i) p (daily_neg (with_alt i z) H)). Qed.
Lemma gtd7_no_array T i r : 0 <= sw i 8 -> gtd7 T (with_indices i (ap i) r) = gtd7 T i.
Proof. intros H. apply gtd7_idx. intros z p. exact (globe7_array (with_alt i z) (ap i) r p (daily_pos (with_alt i z) H)). Qed.

(* ---- switches off ---- *)
Definition off (i : input) : Prop := forall k, Nat.ltb k 25 = true -> sw i k = 0.
Ltac offs H := repeat first [rewrite (H 0%nat eq_refl)|rewrite (H 1%nat eq_refl)|rewrite (H 2%nat eq_refl)|rewrite (H 3%nat eq_refl)|rewrite (H 4%nat eq_refl)|rewrite (H 5%nat eq_refl)|rewrite (H 6%nat eq_refl)|rewrite (H 7%nat eq_refl)|rewrite (H 8%nat eq_refl)|rewrite (H 9%nat eq_refl)|rewrite (H 10%nat eq_refl)|rewrite (H 11%nat eq_refl)|rewrite (H 12%nat eq_refl)|rewrite (H 13%nat eq_refl)|rewrite (H 14%nat eq_refl)|rewrite (H 15%nat eq_refl)|rewrite (H 16%nat eq_refl)|rewrite (H 17%nat eq_refl)|rewrite (H 18%nat eq_refl)|rewrite (H 19%nat eq_refl)|rewrite (H 20%nat eq_refl)|rewrite (H 21%nat eq_refl)].
Lemma switched_off s t a : (forall k, Nat.ltb k 25 = true -> s k = 0) -> switched s t 14 a = a.
Proof. intros H. cbn [switched]. offs H. rewrite Rabs_R0. ring. Qed.
Lemma globe7_off i p c m : off i -> exists c' g l x y z, globe7 i p (c, m) = Ok (p 30%nat, (c', set_poly m g l x y z)).
Proof. intros O. unfold globe7. rewrite switched_off by exact O. do 6 eexists. reflexivity. Qed.
Lemma glob7s_off i p c m : off i -> exists c', glob7s i p (c, m) = Ok (0, (c', m)).
Proof. intros O. unfold glob7s. rewrite switched_off by exact O. eexists. reflexivity. Qed.
(* the same but for the caches *)
Definition like (s s' : state) : Prop := exists g l x y z, snd s' = set_poly (snd s) g l x y z.
Definition sim {A} (c c' : M A) : Prop := forall s s', like s s' -> match c s, c' s' with Ok (a, s1), Ok (a', s1') => a = a' /\ like s1 s1' | UB, UB => True | _, _ => False end.
Lemma sim_bind {A B} (c c' : M A) (f f' : A -> M B) : sim c c' -> (forall a, sim (f a) (f' a)) -> sim (bind c f) (bind c' f').
Proof. intros H K s s' L. unfold bind. specialize (H s s' L). destruct (c s) as [[a s1]|], (c' s') as [[a' s1']|]; try contradiction; [|exact I]. destruct H as [<- L1]. exact (K a s1 s1' L1). Qed.
Lemma sim_ret {A} (a : A) : sim (ret a) (ret a).
Proof. intros s s' L. split; [reflexivity|exact L]. Qed.
Lemma sim_fails {A} (o : outcome A) : sim (fails o) (fails o).
Proof. intros s s' L. unfold fails. destruct o; [split; [reflexivity|exact L]|exact I]. Qed.
Lemma sim_reads {B} (f f' : inst -> M B) : (forall m g l x y z, sim (f m) (f' (set_poly m g l x y z))) -> sim (bind (reads (fun m => m)) f) (bind (reads (fun m => m)) f').
Proof. intros H s s' L. unfold bind, reads. destruct L as (g & l & x & y & z & L). rewrite L. apply H. exists g, l, x, y, z. exact L. Qed.
Lemma sim_writes f f' : (forall m g l x y z, f' (set_poly m g l x y z) = set_poly (f m) g l x y z) -> sim (writes f) (writes f').
Proof. intros H s s' (g & l & x & y & z & L). unfold writes. split; [reflexivity|]. exists g, l, x, y, z. cbn [snd]. rewrite L. apply H. Qed.
Lemma sim_if {A} (b : bool) (c c' d d' : M A) : sim c c' -> sim d d' -> sim (if b then c else d) (if b then c' else d').
Proof. destruct b; auto. Qed.
Lemma sim_globe7 i j p : off i -> off j -> sim (globe7 i p) (globe7 j p).
Proof.
  intros OI OJ [c m] [c' m'] (g & l & x & y & z & L). cbn [snd] in L. subst m'. destruct (globe7_off i p c m OI) as (c1 & g1 & l1 & x1 & y1 & z1 & ->), (globe7_off j p c' (set_poly m g l x y z) OJ) as (c2 & g2 & l2 & x2 & y2 & z2 & ->).
  split; [reflexivity|]. exists g2, l2, x2, y2, z2. reflexivity.
Qed.
Lemma sim_glob7s i j p : off i -> off j -> sim (glob7s i p) (glob7s j p).
Proof.
  intros OI OJ [c m] [c' m'] L. destruct (glob7s_off i p c m OI) as (c1 & ->), (glob7s_off j p c' m' OJ) as (c2 & ->). split; [reflexivity|exact L].
Qed.
Ltac sims := repeat first [apply sim_reads; intros|apply sim_bind; [|intro]|apply sim_ret|apply sim_fails|apply sim_writes; intros; reflexivity|apply sim_if].
Lemma sim_densu T z dlb ta tb xm al zlb s2 : sim (densu T z dlb ta tb xm al zlb s2) (densu T z dlb ta tb xm al zlb s2).
Proof.
  unfold densu. apply sim_reads. intros m0 g0 l0 x0 y0 w0. change (re (set_poly m0 g0 l0 x0 y0 w0)) with (re m0). apply sim_bind; [sims|]. intros []. apply sim_reads. intros m g l x y w.
  change (re (set_poly m g l x y w)) with (re m). change (gsurf (set_poly m g l x y w)) with (gsurf m). change (tn1 (set_poly m g l x y w)) with (tn1 m). change (tgn1 (set_poly m g l x y w)) with (tgn1 m).
  change (profile (set_poly m g l x y w)) with (profile m). apply sim_bind; [sims|]. intros [t u]. sims.
Qed.
Section Off.
Context (T : tables) (i j : input).
Hypotheses (OI : off i) (OJ : off j) (EA : alt j = alt i) (EM : meters j = meters i).
Ltac go := rewrite ?EA, ?EM; offs OI; offs OJ; rewrite ?Rmult_0_l; repeat first [apply sim_densu|apply (sim_globe7 i j _ OI OJ)|apply (sim_glob7s i j _ OI OJ)|apply sim_reads; intros|apply sim_bind; [|intro]|apply sim_ret|apply sim_fails|apply sim_writes; intros; reflexivity|apply sim_if].
Lemma sim_temperatures : sim (temperatures T i) (temperatures T j).
Proof. unfold temperatures. go. Qed.
Lemma sim_mixed ti tl s x zh zz db we al d : sim (mixed T i ti tl s x zh zz db we al d) (mixed T j ti tl s x zh zz db we al d).
Proof. unfold mixed. go. Qed.
Ltac gm := rewrite ?EA, ?EM; offs OI; offs OJ; rewrite ?Rmult_0_l; repeat first [apply sim_densu|apply sim_mixed|apply (sim_globe7 i j _ OI OJ)|apply sim_bind; [|intro]|rewrite !Rmult_0_l|apply sim_ret|apply sim_writes; intros; reflexivity|apply sim_if].
Lemma sim_helium ti tl s x zh b o : sim (helium T i ti tl s x zh b o) (helium T j ti tl s x zh b o).
Proof. unfold helium, diffusive. gm. Qed.
Lemma sim_oxygen ti tl s x zh o : sim (oxygen T i ti tl s x zh o) (oxygen T j ti tl s x zh o).
Proof. unfold oxygen, diffusive. gm. Qed.
Lemma sim_oxygen2 ti tl s x zh b ms o : sim (oxygen2 T i ti tl s x zh b ms o) (oxygen2 T j ti tl s x zh b ms o).
Proof. unfold oxygen2, diffusive. gm. Qed.
Lemma sim_argon ti tl s x zh b o : sim (argon T i ti tl s x zh b o) (argon T j ti tl s x zh b o).
Proof. unfold argon, diffusive. gm. Qed.
Lemma sim_hydrogen ti tl s x zh b o : sim (hydrogen T i ti tl s x zh b o) (hydrogen T j ti tl s x zh b o).
Proof. unfold hydrogen, diffusive. gm. Qed.
Lemma sim_nitrogen ti tl s x zh b o : sim (nitrogen T i ti tl s x zh b o) (nitrogen T j ti tl s x zh b o).
Proof. unfold nitrogen, diffusive. gm. Qed.
Lemma sim_anomalous s ms o : sim (anomalous T i s ms o) (anomalous T j s ms o).
Proof. unfold anomalous. go. Qed.
Lemma sim_molecular ms ti tl s g z x o : sim (molecular T i ms ti tl s g z x o) (molecular T j ms ti tl s g z x o).
Proof. unfold molecular. go. Qed.
Lemma sim_species ms ti tl s o : sim (species T i ms ti tl s o) (species T j ms ti tl s o).
Proof.
  unfold species. offs OI; offs OJ. rewrite !Rmult_0_l. apply sim_bind; [apply (sim_globe7 i j _ OI OJ)|]. intros g. rewrite !Rmult_0_l.
  apply sim_bind; [apply sim_if; [apply sim_ret|apply sim_molecular]|]. intros [[zh b] o1].
  apply sim_bind; [apply sim_if; [apply sim_bind; [apply sim_helium|intro; apply sim_oxygen]|apply sim_ret]|]. intros o2.
  apply sim_bind; [apply sim_if; [apply sim_oxygen2|apply sim_ret]|]. intros o3.
  apply sim_bind; [apply sim_if; [apply sim_argon|apply sim_ret]|]. intros o4.
  apply sim_bind; [apply sim_if; [apply sim_bind; [apply sim_hydrogen|intro; apply sim_nitrogen]|apply sim_ret]|]. intros o5.
  apply sim_if; [apply sim_anomalous|apply sim_ret].
Qed.
Lemma sim_gts7 ms o : sim (gts7 T i ms o) (gts7 T j ms o).
Proof.
  unfold gts7. apply sim_bind; [apply sim_temperatures|]. intros ti. apply sim_reads. intros m g l x y z. 
  change (xg0 (set_poly m g l x y z)) with (xg0 m). change (tlb (set_poly m g l x y z)) with (tlb m).
  apply sim_bind; [apply sim_if; [apply sim_ret|apply sim_species]|]. intros o1. rewrite EA, EM.
  apply sim_bind; [|intro; apply sim_ret]. apply sim_if; [apply sim_ret|]. apply sim_bind; [apply sim_densu|intro; apply sim_ret].
Qed.
Lemma sim_mesosphere : sim (mesosphere T i) (mesosphere T j).
Proof. unfold mesosphere. go. Qed.
Lemma sim_troposphere : sim (troposphere T i) (troposphere T j).
Proof. unfold troposphere. go. Qed.
Lemma sim_mixing ms ds o tz : sim (mixing T i ms ds o tz) (mixing T j ms ds o tz).
Proof.
  unfold mixing. apply sim_reads. intros m g l x y z. change (densm (set_poly m g l x y z)) with (densm m). change (dm28m (set_poly m g l x y z)) with (dm28m m). rewrite EA, EM. sims.
Qed.
End Off.
Lemma sim_gtd7 T i j ms o oc tz : off i -> off j -> alt j = alt i -> glat j = glat i -> meters j = meters i -> sim (gtd7 T i ms o oc tz) (gtd7 T j ms o oc tz).
Proof.
  intros OI OJ EA EG EM. unfold gtd7. offs OI; offs OJ. rewrite EA, EG, EM. destruct (glatf _) as [g r].
  apply sim_bind; [apply sim_writes; intros; reflexivity|]. intros []. apply sim_bind; [apply sim_gts7; [exact OI|exact OJ|reflexivity|exact EM]|]. intros ds.
  apply sim_bind; [apply sim_writes; intros; destruct (meters i); reflexivity|]. intros []. apply sim_if; [apply sim_ret|].
  apply sim_bind; [apply sim_mesosphere; assumption|]. intros [].
  apply sim_bind; [apply sim_if; [apply sim_troposphere; assumption|apply sim_ret]|]. intros []. apply sim_mixing; assumption.
Qed.
Lemma gtd7_off T i j ms o oc tz c c' m : off i -> off j -> alt j = alt i -> glat j = glat i -> meters j = meters i ->
  value (gtd7 T i ms o oc tz (c, m)) = value (gtd7 T j ms o oc tz (c', m)).
Proof.
  intros OI OJ EA EG EM. assert (L : like (c, m) (c', m)) by (exists (plg m), (loc m), (dfa m), (apdf m), (apt m); destruct m; reflexivity).
  pose proof (sim_gtd7 T i j ms o oc tz OI OJ EA EG EM (c, m) (c', m) L) as H. destruct (gtd7 T i ms o oc tz (c, m)) as [[a s1]|], (gtd7 T j ms o oc tz (c', m)) as [[a' s1']|]; try contradiction; [|reflexivity].
  destruct H as [<- _]. reflexivity.
Qed.

(* ---- the interface ---- *)
Lemma use_aparray_ok i : exists i1, use_aparray i = Ok i1 /\ sw i1 8 = -1 /\ (forall k, k <> 8%nat -> sw i1 k = sw i k /\ swc i1 k = swc i k) /\ swc i1 8 = 0 /\ i1 = with_switches i (Switches (sw i1) (swc i1)).
Proof.
  eexists. split; [reflexivity|]. split; [reflexivity|]. split; [|split; reflexivity].
  intros k K. cbn [sw swc with_switches s_sw s_swc switches_of]. unfold set1. change (Z.to_nat 8) with 8%nat. destruct (Nat.eqb k 8) eqn:E; [apply Nat.eqb_eq in E; contradiction|]. split; reflexivity.
Qed.
Lemma aparray_api T i a i1 i2 ms o oc tz : use_aparray i = Ok i1 -> use_aparray (with_indices i a (aparr i)) = Ok i2 ->
  gtd7 T i2 ms o oc tz = gtd7 T i1 ms o oc tz /\ gtd7d T i2 ms o oc tz = gtd7d T i1 ms o oc tz.
Proof.
  intros E1 E2. assert (X : i2 = with_indices i1 a (aparr i1)) by (cbv [use_aparray switching obind set_switch put] in E1, E2; cbn in E1, E2; injection E1 as <-; injection E2 as <-; reflexivity).
  assert (N : sw i1 8 < 0) by (destruct (use_aparray_ok i) as (i' & E & S & _); rewrite E in E1; injection E1 as <-; rewrite S; lra).
  assert (H : gtd7 T i2 = gtd7 T i1) by (rewrite X; apply gtd7_no_daily; exact N). split; [rewrite H; reflexivity|].
  rewrite X in *. rewrite (gtd7d_idx T i1 a (aparr i1) H). reflexivity.
Qed.
Lemma daily_api T i r ms o oc tz : 0 <= sw i 8 ->
  gtd7 T (with_indices i (ap i) r) ms o oc tz = gtd7 T i ms o oc tz /\ gtd7d T (with_indices i (ap i) r) ms o oc tz = gtd7d T i ms o oc tz.
Proof.
  intros H. pose proof (gtd7_no_array T i r H) as E. split; [rewrite E; reflexivity|]. rewrite (gtd7d_idx T i (ap i) r E). reflexivity.
Qed.
Lemma off_ok i : exists i1, set_switches_off i = Ok i1 /\ off i1 /\ i1 = with_switches i (Switches (sw i1) (swc i1)).
Proof. eexists. split; [reflexivity|]. split; [|reflexivity]. intros k K. cbn [sw with_switches s_sw switches_of]. unfold fill. change dim with 25%nat. rewrite K. reflexivity. Qed.
Lemma off_api T i j i1 j1 ms o oc tz c c' m : set_switches_off i = Ok i1 -> set_switches_off j = Ok j1 -> alt j = alt i -> glat j = glat i -> meters j = meters i ->
  value (gtd7 T i1 ms o oc tz (c, m)) = value (gtd7 T j1 ms o oc tz (c', m)).
Proof.
  intros E1 E2 A G M. destruct (off_ok i) as (i' & Ei & Oi & Xi), (off_ok j) as (j' & Ej & Oj & Xj). rewrite Ei in E1. rewrite Ej in E2. injection E1 as <-. injection E2 as <-.
  apply gtd7_off; [exact Oi|exact Oj|rewrite Xi, Xj; exact A|rewrite Xi, Xj; exact G|rewrite Xi, Xj; exact M].
Qed.
Lemma set_switch_ok s (n : nat) val : (n < 25)%nat -> exists s1, set_switch s (Z.of_nat n) val = Ok s1 /\ s_sw s1 n = IZR (Z.rem val 2) /\ (s_swc s1 n = 1 <-> val = 1%Z \/ val = 2%Z) /\
  (s_swc s1 n = 1 \/ s_swc s1 n = 0) /\ (forall k, k <> n -> s_sw s1 k = s_sw s k /\ s_swc s1 k = s_swc s k).
Proof.
  intros L. unfold set_switch, put. replace (Z.leb 0 (Z.of_nat n)) with true by (symmetry; apply Z.leb_le; lia). replace (Z.ltb (Z.of_nat n) (Z.of_nat dim)) with true by (symmetry; apply Z.ltb_lt; unfold dim; lia).
  cbn [andb]. rewrite Nat2Z.id. eexists. split; [reflexivity|]. cbn [s_sw s_swc]. unfold set1. rewrite Nat.eqb_refl. split; [reflexivity|]. split; [|split].
  - destruct (Z.eqb_spec val 1), (Z.eqb_spec val 2); cbn [orb]; split; intros; try tauto; try lra; lia.
  - destruct (_ || _); auto.
  - intros k K. destruct (Nat.eqb_spec k n); [contradiction|]. split; reflexivity.
Qed.
Lemma set_switch_outside s index val : (index < 0 \/ 25 <= index)%Z -> set_switch s index val = UB.
Proof. intros H. unfold set_switch, put. destruct (Z.leb_spec 0 index), (Z.ltb_spec index (Z.of_nat dim)); cbn [andb]; try reflexivity. unfold dim in *. lia. Qed.

(* ---- the latitude of gravity ---- *)
Definition polar (lat : R) : input := Input (fun _ => 0) (fun _ => 0) 80 0 200 lat 0 0 150 150 4 (fun _ => 4) false.
Definition set_ups (v w : R) (s : state) : Prop := xg0 (snd s) = v /\ tlb (snd s) = w.
Lemma u_globe7 v w i p : hoare (set_ups v w) (globe7 i p) (fun _ => set_ups v w). Proof. intros [c m] a s1 H E. injection E as _ <-. exact H. Qed.
Lemma u_glob7s v w i p : hoare (set_ups v w) (glob7s i p) (fun _ => set_ups v w). Proof. intros [c m] a s1 H E. injection E as _ <-. exact H. Qed.
Lemma u_meso v w f g : hoare (set_ups v w) (writes (fun m => set_meso1 m (f m) (g m))) (fun _ => set_ups v w). Proof. intros [c m] a s1 H E. injection E as _ <-. exact H. Qed.
Lemma u_ret {A} v w (a : A) : hoare (set_ups v w) (ret a) (fun _ => set_ups v w). Proof. intros s b s1 H E. injection E as _ <-. exact H. Qed.
Ltac us := repeat first [apply u_globe7|apply u_glob7s|apply u_ret|apply u_meso|eapply h_bind; [|intro]|match goal with |- hoare _ (if ?b then _ else _) _ => destruct b end].
Lemma temperatures_polar T lat s tinf s2 : 110 < zn1 T 0 < 150 -> temperatures T (polar lat) s = Ok (tinf, s2) ->
  tinf = ptm T 0 * pt T 0%nat /\ xg0 (snd s2) = ptm T 3 * ps T 0%nat /\ tlb (snd s2) = ptm T 1 * pd T 3 0.
Proof.
  intros ZA E. unfold temperatures in E. apply bind_inv in E. destruct E as (ti & s3 & E1 & E).
  assert (TI : ti = ptm T 0 * pt T 0%nat) by (destruct (rgt (alt (polar lat)) (zn1 T 0)); [apply bind_inv in E1; destruct E1 as (gg & s4 & _ & E1)|]; injection E1 as <- _; cbn [sw polar]; ring).
  apply bind_inv in E. destruct E as (x & s4 & E2 & E).
  assert (XI : x = ptm T 3 * ps T 0%nat) by (destruct (rgt (alt (polar lat)) (zn1 T 4)); [apply bind_inv in E2; destruct E2 as (gg & s5 & _ & E2)|]; injection E2 as <- _; cbn [sw polar]; ring).
  apply bind_inv in E. destruct E as ([] & s5 & E3 & E). injection E3 as <-.
  apply bind_inv in E. destruct E as (gg & s6 & E4 & E).
  apply bind_inv in E. destruct E as ([] & s7 & E5 & E). injection E5 as <-.
  assert (U : set_ups (ptm T 3 * ps T 0%nat) (ptm T 1 * pd T 3 0) (fst s6, set_tlb (snd s6) (ptm T 1 * (1 + sw (polar lat) 16 * gg) * pd T 3 0))).
  { split; cbn [snd xg0 tlb set_tlb sw polar]; [|ring]. destruct s4 as [c4 m4]. injection E4 as _ <-. cbn [snd xg0 set_poly set_xg0]. exact XI. }
  apply bind_inv in E. destruct E as ([] & s8 & E6 & E). injection E as <- <-. split; [exact TI|].
  match type of E6 with ?cc _ = _ => assert (HH : hoare (set_ups (ptm T 3 * ps T 0%nat) (ptm T 1 * pd T 3 0)) cc (fun _ => set_ups (ptm T 3 * ps T 0%nat) (ptm T 1 * pd T 3 0))) end.
  { us. }
  exact (HH _ _ _ U E6).
Qed.
Definition at200 (T : tables) (r : R) : R :=
  let ta := ptm T 0 * pt T 0%nat in let tb := ptm T 1 * pd T 3 0 in
  ta - (ta - tb) * exp (- (ptm T 3 * ps T 0%nat / (ta - tb)) * zeta r 200 (ptm T 5)).
Lemma polar_value T lat o oc tz s : 110 < zn1 T 0 < 150 -> exists r s1, gtd7 T (polar lat) 0 o oc tz s = Ok (r, s1) /\ t1 r = at200 T (snd (glatf lat)).
Proof.
  intros ZA. destruct s as [c m]. unfold gtd7. change (sw (polar lat) 1) with 0. replace (rlt (Rabs 0) 0) with false by (rewrite Rabs_R0; clear; rdec; first [reflexivity|exfalso; lra]).
  change (glat (polar lat)) with lat. destruct (glatf lat) as [g rr] eqn:EG. set (s0 := (c, set_grav m g rr)). cbn [snd].
  cbn [Z.gtb Z.compare]. rewrite Bool.andb_false_r. rewrite (bind_ok (writes _) _ (c, m) tt s0 eq_refl). change (alt (polar lat)) with 200. rewrite (Rmax_left 200) by (cbn [zn2]; lra).
  change (with_alt (polar lat) 200) with (polar lat). replace (rle (zn2 0) 200) with true by (cbn [zn2]; clear; rdec; first [reflexivity|exfalso; lra]).
  destruct (total_temperatures T (polar lat) s0) as (tinf & s2 & E). destruct (temperatures_polar T lat s0 tinf s2 ZA E) as (TI & X & B). destruct (k_temperatures T (polar lat) s0 tinf s2 E) as [_ RE]. change (re (snd s0)) with rr in RE.
  assert (G : exists ds s5, gts7 T (polar lat) 0 oc s0 = Ok (ds, s5) /\ t1 ds = at200 T rr).
  { unfold gts7. rewrite (bind_ok _ _ _ _ _ E). unfold densu. cbn [Z.eqb]. change (alt (polar lat)) with 200. rewrite (Rabs_right 200) by lra.
    replace (rlt 200 (zn1 T 0)) with false by (clear - ZA; rdec; first [reflexivity|exfalso; lra]). replace (rgt (Rabs 0) nearzero) with false by (rewrite Rabs_R0; unfold nearzero; clear; rdec; first [reflexivity|exfalso; lra]).
    unfold bind, ret, reads, writes. cbn [fst snd Nat.eqb]. do 2 eexists. split; [reflexivity|]. cbn [meters polar t1 set_t1]. rewrite RE, X, B, TI. rewrite Rmax_left by lra. reflexivity. }
  destruct G as (ds & s5 & EG5 & T5). rewrite (bind_ok _ _ _ _ _ EG5). unfold bind, writes, ret. do 2 eexists. split; [reflexivity|]. cbn [t0 t1 set_t0 set_t1 fst snd]. exact T5.
Qed.
Lemma code_more : ptm code_tables 1 = 386 /\ ptm code_tables 3 = 16.6728 /\ ptm code_tables 5 = 120 /\ ps code_tables 0 = 0.956827 /\ pd code_tables 3 0 = 0.944846.
Proof. cbn [ptm ps pd code_tables]. unfold real1, real2. cbn [nth q_ps q_ptm q_pd]. unfold Q2R. cbn [Qnum Qden]. repeat split; lra. Qed.
Lemma at200_grows r r' : 0 < r < r' -> at200 code_tables r < at200 code_tables r'.
Proof.
  intros R. unfold at200. destruct code_more as (-> & -> & -> & -> & ->), code_pt as (-> & -> & _).
  set (ta := 1041.3 * 0.986573). set (tb := 386 * 0.944846). assert (D : 0 < ta - tb) by (unfold ta, tb; lra). set (s := 16.6728 * 0.956827 / (ta - tb)).
  assert (S : 0 < s) by (unfold s; apply Rdiv_lt_0_compat; lra). clearbody s ta tb.
  assert (Z : zeta r 200 120 < zeta r' 200 120).
  { unfold zeta. replace ((200 - 120) * (r + 120) / (r + 200)) with (80 - 6400 / (r + 200)) by (field; lra). replace ((200 - 120) * (r' + 120) / (r' + 200)) with (80 - 6400 / (r' + 200)) by (field; lra).
    assert (/ (r' + 200) < / (r + 200)) by (apply Rinv_lt_contravar; [apply Rmult_lt_0_compat|]; lra). unfold Rdiv. lra. }
  assert (X : exp (- s * zeta r' 200 120) < exp (- s * zeta r 200 120)) by (apply exp_increasing; nra).
  apply Rplus_lt_compat_l, Ropp_lt_contravar, Rmult_lt_compat_l; assumption.
Qed.
Lemma radii : 0 < snd (glatf 0) < snd (glatf 90).
Proof.
  unfold glatf, deg2rad, egrav. cbn [snd]. replace (2 * (0 * PI / 180)) with 0 by field. replace (2 * (90 * PI / 180)) with PI by field. rewrite cos_0, cos_PI. split.
  - apply Rmult_lt_0_compat; [apply Rdiv_lt_0_compat|]; lra.
  - apply Rmult_lt_compat_r; [lra|]. apply Rmult_lt_reg_r with ((0.000003085462 + 0.00000000227 * 1) * (0.000003085462 + 0.00000000227 * -1)); [apply Rmult_lt_0_compat; lra|].
    unfold Rdiv. field_simplify; lra.
Qed.
Lemma gravity_latitude : exists r s1 r' s1', gtd7 code_tables (polar 0) 0 zero_out zero_out 0 (statics0, zero_inst) = Ok (r, s1) /\ gtd7 code_tables (polar 90) 0 zero_out zero_out 0 (statics0, zero_inst) = Ok (r', s1') /\ t1 r < t1 r'.
Proof.
  destruct (polar_value code_tables 0 zero_out zero_out 0 (statics0, zero_inst) code_za) as (r & s1 & E & V), (polar_value code_tables 90 zero_out zero_out 0 (statics0, zero_inst) code_za) as (r' & s1' & E' & V').
  exists r, s1, r', s1'. split; [exact E|]. split; [exact E'|]. rewrite V, V'. apply at200_grows, radii.
Qed.
(* ---- a daily index that counts ---- *)
Definition stormy (a : R) : input := Input (fun k => match k with 8%nat | 15%nat => 1 | _ => 0 end) (fun _ => 0) 80 0 200 0 0 0 150 150 a (fun _ => 4) false.
Lemma stormy_expansion T a m : expansion T (stormy a) (statics0, m) = pt T 30%nat + apdfv (stormy a) (pt T) * (pt T 32%nat - pt T 45%nat / 2 + 3 / 8 * pt T 34%nat).
Proof.
  unfold expansion, globe7. rewrite (daily_pos (stormy a)) by (cbn [sw stormy]; lra). change (moved (xl statics0) (glat (stormy a))) with (moved 1000 0).
  replace (moved 1000 0) with true by (unfold moved, nearzero; rewrite Rabs_right by lra; clear; rdec; first [reflexivity|exfalso; lra]).
  match goal with |- context [globe_term ?a ?b ?c ?d ?e ?f ?h ?k] => set (t := globe_term a b c d e f h k) end.
  assert (T8 : t 8%nat = apdfv (stormy a) (pt T) * (pt T 32%nat - pt T 45%nat / 2 + 3 / 8 * pt T 34%nat)).
  { unfold t, globe_term. rewrite (daily_pos (stormy a)) by (cbn [sw stormy]; lra). change (sw (stormy a) 8) with 1. replace (rgt (Rabs 1) nearzero) with true by (rewrite Rabs_R1; unfold nearzero; clear; rdec; first [reflexivity|exfalso; lra]).
    change (glat (stormy a)) with 0. destruct (legendre_0 (plg m)) as [-> ->]. change (swc (stormy a) 4) with 0. change (swc (stormy a) 6) with 0. field. }
  rewrite <- T8. clearbody t. unfold switched, stormy. cbn [sw]. rewrite Rabs_R0, Rabs_R1. ring.
Qed.
Lemma code_storm : pt code_tables 30 = 0 /\ pt code_tables 32 = 0.00493933 /\ pt code_tables 34 = 0.00250802 /\ pt code_tables 43 = 0.0847001 /\ pt code_tables 44 = 0.170147 /\ pt code_tables 45 = 0.00572562.
Proof. cbn [pt code_tables]. unfold real1. cbn [nth q_pt]. unfold Q2R. cbn [Qnum Qden]. repeat split; lra. Qed.
Lemma daily_counts : exists r s1 r' s1', gtd7 code_tables (stormy 4) 0 zero_out zero_out 0 (statics0, zero_inst) = Ok (r, s1) /\ gtd7 code_tables (stormy 104) 0 zero_out zero_out 0 (statics0, zero_inst) = Ok (r', s1') /\ t0 r < t0 r'.
Proof.
  destruct (thermosphere code_tables (stormy 4) zero_out zero_out 0 statics0 zero_inst code_za eq_refl) as (r & s1 & E & V & _), (thermosphere code_tables (stormy 104) zero_out zero_out 0 statics0 zero_inst code_za eq_refl) as (r' & s1' & E' & V' & _).
  exists r, s1, r', s1'. split; [exact E|]. split; [exact E'|]. rewrite V, V', !stormy_expansion. change (sw (stormy 4) 15) with 1. change (sw (stormy 104) 15) with 1.
  destruct code_pt as (-> & -> & _). unfold apdfv. cbn [ap stormy]. cbn zeta. destruct code_storm as (-> & -> & -> & -> & -> & ->).
  replace (rlt 0.0847001 0) with false by (clear; rdec; first [reflexivity|exfalso; lra]). replace (4 - 4) with 0 by lra. rewrite Rmult_0_r, exp_0.
  pose proof (exp_pos (Ropp 0.0847001 * (104 - 4))) as P. pose proof (exp_increasing (Ropp 0.0847001 * (104 - 4)) 0 ltac:(lra)) as Q. rewrite exp_0 in Q.
  set (x := exp (Ropp 0.0847001 * (104 - 4))) in *. clearbody x. replace ((1 - 1) / 0.0847001) with 0 by (unfold Rdiv; rewrite Rminus_diag_eq by reflexivity; rewrite Rmult_0_l; reflexivity).
  assert (K : (x - 1) / 0.0847001 <= 0) by (unfold Rdiv; lra). set (y := (x - 1) / 0.0847001) in *. clearbody y. assert (A : 0 < 104 - 4 + (0.170147 - 1) * (104 - 4 + y)) by lra. set (z := 104 - 4 + (0.170147 - 1) * (104 - 4 + y)) in *. clearbody z. lra.
Qed.
(* ---- single switches and the constructor ---- *)
Definition holds (s s1 : switches) (which : nat -> Prop) (v : R) : Prop :=
  (forall k, which k -> s_sw s1 k = v /\ s_swc s1 k = v) /\ (forall k, ~ which k -> s_sw s1 k = s_sw s k /\ s_swc s1 k = s_swc s k).
Lemma put_ok s (n : nat) v : (n < 25)%nat -> exists s1, put s (Z.of_nat n) v v = Ok s1 /\ holds s s1 (fun k => k = n) v.
Proof.
  intros L. unfold put. replace (Z.leb 0 (Z.of_nat n)) with true by (symmetry; apply Z.leb_le; lia). replace (Z.ltb (Z.of_nat n) (Z.of_nat dim)) with true by (symmetry; apply Z.ltb_lt; unfold dim; lia).
  cbn [andb]. rewrite Nat2Z.id. eexists. split; [reflexivity|]. unfold holds. cbn [s_sw s_swc]. unfold set1. split; intros k K; destruct (Nat.eqb_spec k n); try contradiction; split; reflexivity.
Qed.
Lemma fill_ok s v : holds s (Switches (fill (s_sw s) v) (fill (s_swc s) v)) (fun k => (k < 25)%nat) v.
Proof. unfold holds, fill, dim. cbn [s_sw s_swc]. split; intros k K; destruct (Nat.ltb_spec k 25); try lia; split; reflexivity. Qed.
Lemma on_off s : (forall n, (n < 25)%nat -> (exists s1, set_on s (Z.of_nat n) = Ok s1 /\ holds s s1 (fun k => k = n) 1) /\ exists s1, set_null s (Z.of_nat n) = Ok s1 /\ holds s s1 (fun k => k = n) 0) /\
  (forall index, (index < 0)%Z -> (exists s1, set_on s index = Ok s1 /\ holds s s1 (fun k => (k < 25)%nat) 1) /\ exists s1, set_null s index = Ok s1 /\ holds s s1 (fun k => (k < 25)%nat) 0).
Proof.
  split.
  - intros n L. unfold set_on, set_null. replace (Z.ltb (Z.of_nat n) 0) with false by (symmetry; apply Z.ltb_ge; lia). split; apply put_ok; exact L.
  - intros x L. unfold set_on, set_null. replace (Z.ltb x 0) with true by (symmetry; apply Z.ltb_lt; lia). split; eexists; (split; [reflexivity|apply fill_ok]).
Qed.
Lemma constructed_ok i : exists i1, constructed i = Ok i1 /\ (forall k, (k < 25)%nat -> sw i1 k = 1 /\ swc i1 k = 1) /\ meters i1 = false.
Proof.
  eexists. split; [reflexivity|]. split; [|reflexivity]. intros k K. cbn [sw swc with_switches switches_of s_sw s_swc]. unfold fill, dim. destruct (Nat.ltb_spec k 25); [split; reflexivity|lia].
Qed.
Lemma constructed_daily T i i1 r ms o oc tz : constructed i = Ok i1 -> gtd7 T (with_indices i1 (ap i1) r) ms o oc tz = gtd7 T i1 ms o oc tz /\ gtd7d T (with_indices i1 (ap i1) r) ms o oc tz = gtd7d T i1 ms o oc tz.
Proof. intros E. destruct (constructed_ok i) as (i' & E' & S & _). rewrite E' in E. injection E as <-. apply daily_api. rewrite (proj1 (S 8%nat ltac:(lia))). lra. Qed.
