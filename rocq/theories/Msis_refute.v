(* Where the atmosphere model does depend on what it should not: other instances, latitudes too close
   together, the caller's output structure and a member that is never assigned. *)
From Coq Require Import List ZArith QArith Qreals Reals Arith Bool Lra Lia.
From Verif Require Import Base Gravity_model Spline_model Spline_proofs Msis_model Msis_spline Msis_proofs Msis_history Msis_data Msis_code Msis_facts.
Import ListNotations.
Local Open Scope R_scope.

(* ---- the coefficients of the code ---- *)
Lemma Q2R_pos (q : Q) : (0 < q)%Q -> 0 < Q2R q.
Proof. intros H. apply Qlt_Rlt in H. unfold Q2R at 1 in H. cbn in H. lra. Qed.
Lemma code_pos : coefs_pos code_tables.
Proof.
  constructor; cbn [pdm pd code_tables]; unfold real2.
  - intros k K. apply Q2R_pos. do 8 (destruct k as [|k]; [reflexivity|]). lia.
  - intros k K N. apply Q2R_pos. do 9 (destruct k as [|k]; [solve [reflexivity|congruence]|]). lia.
  - cbn [nth q_pdm]. unfold Q2R. cbn [Qnum Qden]. lra.
  - split; [|split]; apply Q2R_pos; reflexivity.
Qed.

(* ---- what a run leaves alone ---- *)
Definition keeps {A} (c : M A) : Prop := forall s a s1, c s = Ok (a, s1) -> tn3 (snd s1) = tn3 (snd s) /\ re (snd s1) = re (snd s).
Lemma k_bind {A B} (c : M A) (f : A -> M B) : keeps c -> (forall a, keeps (f a)) -> keeps (bind c f).
Proof. intros H K s b s2 E. apply bind_inv in E. destruct E as (a & s1 & E1 & E2). destruct (H _ _ _ E1) as [<- <-]. exact (K a _ _ _ E2). Qed.
Lemma k_ret {A} (a : A) : keeps (ret a). Proof. intros s b s1 E. injection E as _ <-. split; reflexivity. Qed.
Lemma k_reads {A} (f : inst -> A) : keeps (reads f). Proof. intros s b s1 E. injection E as _ <-. split; reflexivity. Qed.
Lemma k_fails {A} (o : outcome A) : keeps (fails o). Proof. intros s b s1 E. unfold fails in E. destruct o; [|discriminate]. injection E as _ <-. split; reflexivity. Qed.
Lemma k_writes f : (forall m, tn3 (f m) = tn3 m /\ re (f m) = re m) -> keeps (writes f). Proof. intros H s b s1 E. injection E as _ <-. apply H. Qed.
Lemma k_globe7 i p : keeps (globe7 i p). Proof. intros [c m] b s1 E. injection E as _ <-. split; reflexivity. Qed.
Lemma k_glob7s i p : keeps (glob7s i p). Proof. intros [c m] b s1 E. injection E as _ <-. split; reflexivity. Qed.
Ltac kp := repeat first [apply k_bind; [|intro]|apply k_globe7|apply k_glob7s|apply k_writes; intro; split; reflexivity|apply k_ret|apply k_reads|apply k_fails|match goal with |- keeps (if ?b then _ else _) => destruct b end].
Lemma k_temperatures T i : keeps (temperatures T i). Proof. unfold temperatures. kp. Qed.
Lemma k_densu T z dlb ta tb xm al zlb s2 : keeps (densu T z dlb ta tb xm al zlb s2).
Proof. unfold densu. cbv zeta. apply k_bind; [kp|intro m]. apply k_bind; [kp|intro]. apply k_bind; [kp|intro]. apply k_bind; [kp|intros [tz yi]]. kp. Qed.
Lemma k_mesosphere T i : keeps (mesosphere T i). Proof. unfold mesosphere. kp. Qed.
Lemma k_gts7 T i o : keeps (gts7 T i 0 o).
Proof. unfold gts7. apply k_bind; [apply k_temperatures|intro]. apply k_bind; [apply k_reads|intro]. apply k_bind; [kp|intro]. apply k_bind; [destruct (Nat.eqb _ 5); [apply k_ret|]; apply k_bind; [apply k_densu|intro; apply k_ret]|intro; apply k_ret]. Qed.

(* ---- the unset node ---- *)
Lemma zn3_facts r : 0 < r -> (forall k, (k < 5)%nat -> 0 < r + zn3 k) /\ (forall k, (S k < 5)%nat -> zn3 (S k) < zn3 k).
Proof. intros R. split; intros k K; do 5 (destruct k as [|k]; [first [lia|cbn [zn3]; lra]|]); lia. Qed.
Lemma profile_first m tn tgn : 0 < re m -> exists yi, profile m 10 5 zn3 tn tgn (zn3 0) = Ok (1 / tn 0%nat, yi).
Proof.
  intros R. destruct (zn3_facts _ R) as [P D]. destruct (profile_total m 10 5 zn3 tn tgn (zn3 0) ltac:(lia) P D) as [r E]. exists (snd r). rewrite E. f_equal. rewrite (surjective_pairing r) at 1. f_equal. revert E.
  unfold profile. match goal with |- context [spline ?a ?b _ ?c ?d _ _] => set (xs := a); set (ys := b); set (yd1 := c); set (yd2 := d) end.
  assert (Z : zeta (re m) (zn3 4) (zn3 0) < 0) by (rewrite <- (zeta_self (re m) (zn3 0)); apply zeta_mono; cbn [zn3]; lra).
  assert (NX : nodes xs 5).
  { split; [cbn; lia|]. intros k K. unfold xs. cbn [a_val]. assert (H : zeta (re m) (zn3 (S k)) (zn3 0%nat) < zeta (re m) (zn3 k) (zn3 0%nat)) by (apply zeta_mono; [apply P; lia|apply P; lia|apply D; exact K]).
    unfold Rdiv. apply Ropp_lt_cancel. rewrite !Ropp_mult_distr_r. apply Rmult_lt_compat_r; [|exact H]. apply Ropp_0_gt_lt_contravar. apply Rinv_lt_0_compat. exact Z. }
  assert (RY : room ys 5) by (unfold room; cbn; lia). assert (RJ : room (Arr 10 (junk m)) 5) by (unfold room; cbn; lia).
  destruct (spline_defined xs ys 5 yd1 yd2 _ _ NX RY ltac:(lia) RJ RJ) as (y2 & u & E & R2). rewrite E. cbn [obind fst].
  pose proof (splint_node xs ys y2 5 0 NX RY R2 ltac:(lia) ltac:(lia)) as SN. change (a_val xs 0) with (zeta (re m) (zn3 0) (zn3 0) / zeta (re m) (zn3 (5 - 1)) (zn3 0)) in SN. rewrite SN. cbn [solid obind].
  destruct (solid _) as [yi|]; [|discriminate]. cbn [obind]. intros H. injection H as <-. reflexivity.
Qed.
Lemma densm_node m tz r : 0 < re m -> tn3 m 0%nat <> 0 -> densm m 32.5 1 0 tz = Ok r -> snd r = tn3 m 0%nat.
Proof.
  intros R N. unfold densm. replace (rle 32.5 (zn2 0)) with true by (cbn [zn2]; rdec; first [reflexivity|exfalso; lra]). replace (rle 32.5 (zn3 0)) with true by (cbn [zn3]; rdec; first [reflexivity|exfalso; lra]).
  replace (rlt (Rabs 0) nearzero) with true by (rewrite Rabs_R0; unfold nearzero; rdec; first [reflexivity|exfalso; lra]).
  destruct (layer _ mn2 _ _ _ _ _ _) as [q|]; [|discriminate]. cbn [obind]. unfold layer. destruct (profile_first m (tn3 m) (tgn3 m) R) as [yi E]. change mn3 with 5%nat. change 32.5 with (zn3 0) at 1. rewrite E. cbn [obind fst snd].
  intros H. injection H as <-. cbn [snd]. field. exact N.
Qed.
Lemma unset_node T i o oc tz s r s1 : alt i = 32.5 -> tn3 (snd s) 0%nat <> 0 -> gtd7 T i 0 o oc tz s = Ok (r, s1) -> t1 r = tn3 (snd s) 0%nat.
Proof.
  intros A N. unfold gtd7. set (xlat := if rlt (Rabs (sw i 1)) 0 then 45 else glat i). pose proof (glatf_pos xlat) as RP. destruct (glatf xlat) as [g rr]. cbn [snd] in RP.
  cbn [Z.gtb Z.compare]. rewrite Bool.andb_false_r. intros H. rewrite (bind_ok (writes _) _ s tt (fst s, set_grav (snd s) g rr) eq_refl) in H. apply bind_inv in H. destruct H as (ds & s2 & E & H).
  destruct (k_gts7 _ _ _ _ _ _ E) as [K2 R2]. cbn [snd tn3 re set_grav] in K2, R2.
  rewrite (bind_ok (writes _) _ s2 tt (fst s2, set_dm28m (snd s2) (if meters i then dm28 (snd s2) * 10 ^ 6 else dm28 (snd s2))) eq_refl) in H. cbv zeta in H.
  replace (rle (zn2 0) (alt i)) with false in H by (rewrite A; cbn [zn2]; clear; rdec; first [reflexivity|exfalso; lra]). replace (rlt (alt i) (zn3 0)) with false in H by (rewrite A; cbn [zn3]; clear; rdec; first [reflexivity|exfalso; lra]).
  apply bind_inv in H. destruct H as ([] & s3 & E3 & H). destruct (k_mesosphere _ _ _ _ _ E3) as [K3 R3]. cbn [snd tn3 re set_dm28m] in K3, R3. rewrite (bind_ok (ret tt) _ s3 tt s3 eq_refl) in H.
  unfold mixing in H. rewrite (bind_ok (reads _) _ s3 (snd s3) s3 eq_refl) in H. cbn [Z.eqb] in H. apply bind_inv in H. destruct H as (q & s4 & E4 & H). unfold fails in E4. destruct (densm (snd s3) (alt i) 1 0 tz) as [q'|] eqn:DN; [|discriminate]. injection E4 as <- <-.
  rewrite (bind_ok (writes _) _ s3 tt (fst s3, set_dd (snd s3) (fst q')) eq_refl) in H. injection H as <- _. cbn [t1 set_t1].
  rewrite A in DN. rewrite (densm_node (snd s3) tz q'); [congruence|rewrite R3, R2; exact RP|rewrite K3, K2; exact N|exact DN].
Qed.

(* ---- the caller's values ---- *)
Lemma caller_value T i mass o oc tz s r s1 : alt i < 72.5 -> (mass <> 4)%Z -> (mass <> 48)%Z -> gtd7 T i mass o oc tz s = Ok (r, s1) -> d0 r = d0 o /\ d5 r = d5 o.
Proof.
  intros A M4 M48. unfold gtd7. destruct (glatf _) as [g rr]. intros H. apply bind_inv in H. destruct H as ([] & s2 & _ & H). apply bind_inv in H. destruct H as (ds & s3 & _ & H). apply bind_inv in H. destruct H as ([] & s4 & _ & H). cbv zeta in H.
  replace (rle (zn2 0) (alt i)) with false in H by (clear - A; cbn [zn2]; rdec; first [reflexivity|exfalso; lra]).
  apply bind_inv in H. destruct H as ([] & s5 & _ & H). apply bind_inv in H. destruct H as ([] & s6 & _ & H).
  unfold mixing in H. apply bind_inv in H. destruct H as (m & s7 & _ & H). destruct (Z.eqb mass 0).
  - apply bind_inv in H. destruct H as (q & s8 & _ & H). apply bind_inv in H. destruct H as ([] & s9 & _ & H). injection H as <- _. split; reflexivity.
  - apply bind_inv in H. destruct H as (q & s8 & _ & H). injection H as <- _. cbn [d0 d5]. apply Z.eqb_neq in M4, M48. rewrite M4, M48. split; reflexivity.
Qed.

(* ---- the shared caches ---- *)
(* the temperature of the thermosphere in terms of the polynomials *)
Definition expansion (T : tables) (i : input) (s : state) : R := match globe7 i (pt T) s with Ok (g, _) => g | UB => 0 end.
Definition stays (g : R) (s : state) : Prop := xl (fst s) = g.
Lemma s_globe7 i p s a s1 : globe7 i p s = Ok (a, s1) -> moved (xl (fst s)) (glat i) = true \/ xl (fst s) = glat i -> xl (fst s1) = glat i.
Proof. destruct s as [c m]. intros E H. injection E as _ <-. cbn [fst xl]. cbn [fst] in H. destruct (moved (xl c) (glat i)); [reflexivity|]. destruct H as [H|H]; [discriminate|exact H]. Qed.
Lemma h_globe7 i p : hoare (stays (glat i)) (globe7 i p) (fun _ => stays (glat i)). Proof. intros s a s1 H E. apply (s_globe7 _ _ _ _ _ E). right. exact H. Qed.
Lemma h_glob7s i p g : hoare (stays g) (glob7s i p) (fun _ => stays g). Proof. intros [c m] a s1 H E. injection E as _ <-. exact H. Qed.
Lemma h_writes g f : hoare (stays g) (writes f) (fun _ => stays g). Proof. intros s a s1 H E. injection E as _ <-. exact H. Qed.
Lemma h_reads {A} g (f : inst -> A) : hoare (stays g) (reads f) (fun _ => stays g). Proof. intros s a s1 H E. injection E as _ <-. exact H. Qed.
Lemma h_ret' {A} g (a : A) : hoare (stays g) (ret a) (fun _ => stays g). Proof. intros s b s1 H E. injection E as _ <-. exact H. Qed.
Lemma h_fails {A} g (o : outcome A) : hoare (stays g) (fails o) (fun _ => stays g). Proof. intros s b s1 H E. unfold fails in E. destruct o; [|discriminate]. injection E as _ <-. exact H. Qed.
Ltac st := repeat first [eapply h_bind; [|intro]|apply h_globe7|apply h_glob7s|apply h_writes|apply h_reads|apply h_ret'|apply h_fails|match goal with |- hoare _ (if ?b then _ else _) _ => destruct b end].
Definition total {A} (c : M A) : Prop := forall s, exists a s1, c s = Ok (a, s1).
Lemma t_bind {A B} (c : M A) (f : A -> M B) : total c -> (forall a, total (f a)) -> total (bind c f).
Proof. intros H K s. destruct (H s) as (a & s1 & E). rewrite (bind_ok _ _ _ _ _ E). apply K. Qed.
Lemma t_ret {A} (a : A) : total (ret a). Proof. intros s. do 2 eexists. reflexivity. Qed.
Lemma t_writes f : total (writes f). Proof. intros s. do 2 eexists. reflexivity. Qed.
Lemma t_globe7 i p : total (globe7 i p). Proof. intros [c m]. do 2 eexists. reflexivity. Qed.
Lemma t_glob7s i p : total (glob7s i p). Proof. intros [c m]. do 2 eexists. reflexivity. Qed.
Lemma total_temperatures T i : total (temperatures T i).
Proof. unfold temperatures. repeat first [apply t_bind; [|intro]|apply t_globe7|apply t_glob7s|apply t_writes|apply t_ret|match goal with |- total (if ?b then _ else _) => destruct b end]. Qed.
Lemma thermosphere T i o oc tz c m : 110 < zn1 T 0 < 150 -> alt i = 200 ->
  exists r s1, gtd7 T i 0 o oc tz (c, m) = Ok (r, s1) /\ t0 r = ptm T 0 * pt T 0%nat * (1 + sw i 15 * expansion T i (c, m)) /\ (moved (xl c) (glat i) = true \/ xl c = glat i -> xl (fst s1) = glat i).
Proof.
  intros ZA A. unfold gtd7. destruct (glatf _) as [g rr]. set (s0 := (c, set_grav m g rr)).
  cbn [Z.gtb Z.compare]. rewrite Bool.andb_false_r. rewrite (bind_ok (writes _) _ (c, m) tt s0 eq_refl). rewrite A. rewrite (Rmax_left 200) by (cbn [zn2]; lra). 
  set (j := with_alt i 200). replace (rle (zn2 0) 200) with true by (cbn [zn2]; clear; rdec; first [reflexivity|exfalso; lra]).
  assert (G7 : exists tinf s2, temperatures T j s0 = Ok (tinf, s2) /\ tinf = ptm T 0 * pt T 0%nat * (1 + sw i 15 * expansion T i (c, m)) /\ (moved (xl c) (glat i) = true \/ xl c = glat i -> xl (fst s2) = glat i)).
  { assert (B1 : rgt (alt j) (zn1 T 0) = true) by (cbn [alt j with_alt]; clear - ZA; rdec; first [reflexivity|exfalso; lra]).
    assert (TT : exists tinf s2, temperatures T j s0 = Ok (tinf, s2)).
    { apply total_temperatures. }
    destruct TT as (tinf & s2 & E). exists tinf, s2. split; [exact E|]. unfold temperatures in E. rewrite B1 in E. apply bind_inv in E. destruct E as (ti & s3 & E1 & E2).
    apply bind_inv in E1. destruct E1 as (gg & s4 & E1 & E3). injection E3 as <- <-.
    split.
    - assert (TI : tinf = ptm T 0 * pt T 0%nat * (1 + sw j 15 * gg)) by (repeat (apply bind_inv in E2; destruct E2 as (? & ? & _ & E2)); injection E2 as <- _; reflexivity).
      assert (EQ : expansion T i (c, m) = gg) by (unfold expansion; injection E1 as <- _; reflexivity). rewrite TI, EQ. reflexivity.
    - intros C. assert (X4 : stays (glat j) s4) by (apply (s_globe7 _ _ _ _ _ E1); exact C). change (stays (glat j) s2). match type of E2 with ?cc _ = _ => assert (HH : hoare (stays (glat j)) cc (fun _ => stays (glat j))) by st; exact (HH _ _ _ X4 E2) end. }
  destruct G7 as (tinf & s2 & E & TI & X).
  assert (G : exists ds s5, gts7 T j 0 oc s0 = Ok (ds, s5) /\ t0 ds = tinf /\ fst s5 = fst s2).
  { unfold gts7. rewrite (bind_ok _ _ _ _ _ E). unfold densu. cbn [Z.eqb]. change (alt j) with 200. rewrite (Rabs_right 200) by lra.
    replace (rlt 200 (zn1 T 0)) with false by (clear - ZA; rdec; first [reflexivity|exfalso; lra]). replace (rgt (Rabs 0) nearzero) with false by (rewrite Rabs_R0; unfold nearzero; clear; rdec; first [reflexivity|exfalso; lra]).
    unfold bind, ret, reads, writes. cbn [fst snd Nat.eqb]. do 2 eexists. split; [reflexivity|]. split; [|reflexivity]. destruct (meters j); reflexivity. }
  destruct G as (ds & s5 & EG & T5 & X5). rewrite (bind_ok _ _ _ _ _ EG). unfold bind, writes, ret. do 2 eexists. split; [reflexivity|]. cbn [t0 t1 set_t0 set_t1 fst snd]. split; [congruence|]. rewrite X5. exact X.
Qed.
(* a night at the March equinox over the equator, mean fluxes, only the latitude terms switched on *)
Definition wit (lat : R) : input := Input (fun k => match k with 1%nat | 15%nat => 1 | _ => 0 end) (fun _ => 0) 80 0 200 lat 0 0 150 150 4 (fun _ => 4) false.
Definition zero_inst : inst := Inst (fun _ _ => 0) (Trig 0 0 0 0 0 0) 0 0 0 (fun _ => 0) (fun _ => 0) (fun _ => 0) (fun _ => 0) (fun _ => 0) (fun _ => 0) 0 0 0 0 0 0 0 (fun _ => 0).
Definition zero_out : output := Output 0 0 0 0 0 0 0 0 0 0 0.
Lemma wit_expansion T lat c m : let g := if moved (xl c) lat then legendre lat (plg m) else plg m in
  expansion T (wit lat) (c, m) = pt T 30%nat + (pt T 1%nat * g 0%nat 2%nat + pt T 2%nat * g 0%nat 4%nat + pt T 22%nat * g 0%nat 6%nat + pt T 26%nat * g 0%nat 1%nat).
Proof.
  intros g. unfold expansion, globe7. change (glat (wit lat)) with lat. fold g.
  match goal with |- context [globe_term ?a ?b ?c ?d ?e ?f ?h ?k] => set (t := globe_term a b c d e f h k) end.
  assert (T1 : t 1%nat = pt T 1%nat * g 0%nat 2%nat + pt T 2%nat * g 0%nat 4%nat + pt T 22%nat * g 0%nat 6%nat + pt T 26%nat * g 0%nat 1%nat).
  { unfold t, globe_term. change (swc (wit lat) 0) with 0. ring. }
  rewrite <- T1. clearbody t. unfold switched. unfold wit. cbn [sw]. rewrite Rabs_R0, Rabs_R1. ring.
Qed.
Lemma code_pt : ptm code_tables 0 = 1041.3 /\ pt code_tables 0 = 0.986573 /\ pt code_tables 1 = 0.0162228 /\ pt code_tables 2 = 0.015527 /\ pt code_tables 22 = 0 /\ pt code_tables 26 = 0.
Proof. cbn [ptm pt code_tables]. unfold real1. cbn [nth q_pt q_ptm]. unfold Q2R. cbn [Qnum Qden]. repeat split; lra. Qed.
Lemma code_za : 110 < zn1 code_tables 0 < 150.
Proof. cbn [zn1 pdl code_tables]. unfold real2. cbn [nth q_pdl]. unfold Q2R. cbn [Qnum Qden]. lra. Qed.
Lemma moved_self x : moved x x = false.
Proof. unfold moved. rewrite Rminus_diag_eq, Rabs_R0 by reflexivity. unfold nearzero. rdec; [exfalso; lra|reflexivity]. Qed.
Lemma legendre_0 old : legendre 0 old 0 2 = - (1 / 2) /\ legendre 0 old 0 4 = 3 / 8.
Proof. unfold legendre, deg2rad. replace (0 * PI / 180) with 0 by (field). rewrite sin_0. split; [unfold Q2R; cbn [Qnum Qden]|]; field. Qed.
(* the same input, first on one instance, then on another just like it *)
Lemma two_instances : exists r s1 r' s1', gtd7 code_tables (wit 0) 0 zero_out zero_out 0 (statics0, zero_inst) = Ok (r, s1) /\ gtd7 code_tables (wit 0) 0 zero_out zero_out 0 (fst s1, zero_inst) = Ok (r', s1') /\ t0 r <> t0 r'.
Proof.
  assert (M1 : moved (xl statics0) 0 = true) by (apply moved_true; cbn [xl statics0]; rewrite Rminus_0_r, Rabs_right; lra).
  destruct (thermosphere code_tables (wit 0) zero_out zero_out 0 statics0 zero_inst code_za eq_refl) as (r & s1 & E & T0 & X). specialize (X (or_introl M1)).
  destruct (thermosphere code_tables (wit 0) zero_out zero_out 0 (fst s1) zero_inst code_za eq_refl) as (r' & s1' & E' & T0' & _).
  exists r, s1, r', s1'. split; [exact E|]. split; [exact E'|]. rewrite T0, T0', !wit_expansion. cbn zeta. rewrite M1. cbn [glat wit] in X. rewrite X, moved_self. destruct (legendre_0 (plg zero_inst)) as [-> ->]. cbn [plg zero_inst sw wit].
  destruct code_pt as (-> & -> & -> & -> & -> & ->). set (z := pt code_tables 30%nat). clearbody z. rewrite !Rmult_0_l. lra.
Qed.
(* two latitudes closer than the tolerance of the cache *)
Lemma close_latitudes : exists r0 r s1 r' s1' s2, gtd7 code_tables (wit 0) 0 zero_out zero_out 0 (statics0, zero_inst) = Ok (r0, s1) /\
  gtd7 code_tables (wit 0.0000005) 0 zero_out zero_out 0 s1 = Ok (r, s1') /\ gtd7 code_tables (wit 0.0000005) 0 zero_out zero_out 0 (statics0, zero_inst) = Ok (r', s2) /\ t0 r <> t0 r'.
Proof.
  assert (M1 : forall x, 0 <= x <= 1 -> moved (xl statics0) x = true) by (intros x Hx; apply moved_true; cbn [xl statics0]; rewrite Rabs_right; lra).
  destruct (thermosphere code_tables (wit 0) zero_out zero_out 0 statics0 zero_inst code_za eq_refl) as (r0 & [c1 m1] & E & _ & X). specialize (X (or_introl (M1 0 ltac:(lra)))). cbn [fst glat wit] in X.
  assert (GL : grid (fun x => x = 0)) by (split; [intros x y -> ->; left; reflexivity|intros x ->; rewrite Rminus_0_r, Rabs_right; lra]).
  destruct (calls_base code_tables code_ok (fun x => x = 0) (fun x => x = 0) GL GL [Call (wit 0) 0 zero_out zero_out 0] (statics0, zero_inst)) as (s & ES & B & _).
  { constructor; [|constructor]. split; [reflexivity|]. split; [reflexivity|]. discriminate. }
  { apply base_start. }
  cbn [calls c_in c_mass c_out c_oc c_tz] in ES. rewrite E in ES. injection ES as <-. destruct B as (_ & _ & BL & _). cbn [fst snd] in BL. rewrite X in BL. destruct BL as [BL|[_ BL]]; [exfalso; lra|].
  destruct (thermosphere code_tables (wit 0.0000005) zero_out zero_out 0 c1 m1 code_za eq_refl) as (r & s1' & E1 & T1 & _).
  destruct (thermosphere code_tables (wit 0.0000005) zero_out zero_out 0 statics0 zero_inst code_za eq_refl) as (r' & s2 & E2 & T2 & _).
  exists r0, r, (c1, m1), r', s1', s2. split; [exact E|]. split; [exact E1|]. split; [exact E2|]. rewrite T1, T2, !wit_expansion. cbn zeta. rewrite X, (M1 0.0000005) by lra.
  replace (moved 0 0.0000005) with false by (unfold moved, nearzero; rewrite Rabs_left by lra; clear; rdec; first [reflexivity|exfalso; lra]).
  rewrite (BL 0%nat 2%nat), (BL 0%nat 4%nat) by reflexivity. destruct (legendre_0 (fun _ _ => 0)) as [-> ->]. cbn [sw wit]. destruct code_pt as (-> & -> & -> & -> & -> & ->). set (z := pt code_tables 30%nat). clearbody z. rewrite !Rmult_0_l, !Rplus_0_r.
  set (c := sin (deg2rad 0.0000005)). assert (C : 0 < c < 0.5).
  { unfold c, deg2rad. pose proof PI_RGT_0. pose proof PI_4. split; [apply sin_gt_0; lra|]. apply Rlt_trans with (0.0000005 * PI / 180); [apply sin_lt_x|]; lra. }
  cbn [legendre]. fold c. replace (0.5 * (3 * (c * c) - 1)) with (- (1 / 2) + 3 / 2 * (c * c)) by lra. replace ((35 * (c * c * (c * c)) - 30 * (c * c) + 3) / 8) with (3 / 8 + (35 / 8 * (c * c) - 30 / 8) * (c * c)) by field.
  assert (Q : 0 < c * c < 0.25) by (split; nra). set (q := c * c) in *. clearbody q. intros H. assert (K : (0.0162228 * (3 / 2) + 0.015527 * (35 / 8 * q - 30 / 8)) * q = 0) by lra. apply Rmult_integral in K. destruct K as [K|K]; lra.
Qed.
(* runs from the start are defined *)
Definition only (x : R) : R -> Prop := fun y => y = x.
Lemma only_grid x : -1 <= x <= 1 -> grid (only x).
Proof. intros H. split; [intros a b -> ->; left; reflexivity|intros a ->; rewrite Rabs_right; lra]. Qed.
Lemma start_defined i m mass o oc tz : -1 <= glat i <= 1 -> -1 <= lst i <= 1 -> doy i <> (-1)%Z -> exists r s1, gtd7 code_tables i mass o oc tz (statics0, m) = Ok (r, s1).
Proof.
  intros G L D. destruct (calls_base code_tables code_ok (only (glat i)) (only (lst i)) (only_grid _ G) (only_grid _ L) [Call i mass o oc tz] (statics0, m)) as (s & E & _).
  { constructor; [|constructor]. split; [reflexivity|]. split; [reflexivity|exact D]. }
  { apply base_start. }
  cbn [calls c_in c_mass c_out c_oc c_tz] in E. destruct (gtd7 code_tables i mass o oc tz (statics0, m)) as [[r s1]|]; [|discriminate]. exists r, s1. reflexivity.
Qed.
Definition with_node (v : R) : inst := set_meso3 zero_inst (set1 (fun _ => 0) 0 v) (fun _ => 0).
Lemma wit_range z : -1 <= glat (with_alt (wit 0) z) <= 1 /\ -1 <= lst (with_alt (wit 0) z) <= 1 /\ doy (with_alt (wit 0) z) <> (-1)%Z.
Proof. cbn [glat lst doy with_alt wit]. split; [lra|]. split; [lra|discriminate]. Qed.
Lemma node_differs : exists r s1 r' s1', gtd7 code_tables (with_alt (wit 0) 32.5) 0 zero_out zero_out 0 (statics0, with_node 1) = Ok (r, s1) /\ gtd7 code_tables (with_alt (wit 0) 32.5) 0 zero_out zero_out 0 (statics0, with_node 2) = Ok (r', s1') /\ t1 r = 1 /\ t1 r' = 2.
Proof.
  destruct (wit_range 32.5) as (A & B & C).
  destruct (start_defined _ (with_node 1) 0 zero_out zero_out 0 A B C) as (r & s1 & E), (start_defined _ (with_node 2) 0 zero_out zero_out 0 A B C) as (r' & s1' & E').
  exists r, s1, r', s1'. split; [exact E|]. split; [exact E'|]. split.
  - rewrite (unset_node code_tables (with_alt (wit 0) 32.5) _ _ _ _ _ _ eq_refl (R1_neq_R0 : tn3 (snd (statics0, with_node 1)) 0%nat <> 0) E). reflexivity.
  - assert (N : tn3 (snd (statics0, with_node 2)) 0%nat <> 0) by (change (2 <> 0); lra). rewrite (unset_node code_tables (with_alt (wit 0) 32.5) _ _ _ _ _ _ eq_refl N E'). reflexivity.
Qed.
Definition ones : output := Output 1 1 1 1 1 1 1 1 1 1 1.
Lemma caller_differs : exists r s1 r' s1', gtd7 code_tables (with_alt (wit 0) 70) 28 zero_out zero_out 0 (statics0, zero_inst) = Ok (r, s1) /\ gtd7 code_tables (with_alt (wit 0) 70) 28 ones zero_out 0 (statics0, zero_inst) = Ok (r', s1') /\ d0 r <> d0 r' /\ d5 r <> d5 r'.
Proof.
  destruct (wit_range 70) as (A & B & C).
  destruct (start_defined _ zero_inst 28 zero_out zero_out 0 A B C) as (r & s1 & E), (start_defined _ zero_inst 28 ones zero_out 0 A B C) as (r' & s1' & E').
  exists r, s1, r', s1'. split; [exact E|]. split; [exact E'|]. assert (L : alt (with_alt (wit 0) 70) < 72.5) by (cbn [alt with_alt]; lra).
  destruct (caller_value _ _ 28%Z _ _ _ _ _ _ L ltac:(lia) ltac:(lia) E) as [-> ->], (caller_value _ _ 28%Z _ _ _ _ _ _ L ltac:(lia) ltac:(lia) E') as [-> ->]. cbn [d0 d5 zero_out ones]. split; lra.
Qed.
(* the polynomials after any calls *)
Lemma polynomials T lats locs l m s : tables_ok T -> grid lats -> grid locs -> Forall (fun c => on_grid lats locs (c_in c)) l -> calls T l (statics0, m) = Ok s ->
  xl (fst s) = 1000 \/ (lats (xl (fst s)) /\ forall a n, stored a n = true -> plg (snd s) a n = cos (deg2rad (xl (fst s))) ^ a * Legendre.Ld n a (sin (deg2rad (xl (fst s))))).
Proof.
  intros TO GL GT F E. destruct (calls_base T TO lats locs GL GT l (statics0, m) F (base_start T lats locs m)) as (s' & E' & B & _). rewrite E in E'. injection E' as <-. destruct B as (_ & _ & [B|[B1 B2]] & _); [left; exact B|right].
  split; [exact B1|]. intros a n S0. rewrite (B2 a n S0). apply legendre_functions. exact S0.
Qed.
