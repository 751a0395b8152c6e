(* The atmosphere model does not remember: one call of gtd7, seen from any state the calls before it
   can leave behind. *)
From Coq Require Import List ZArith Reals Arith Bool Lra Lia.
From Verif Require Import Base Gravity_model Spline_model Msis_model Msis_spline Msis_proofs.
Import ListNotations.
Local Open Scope R_scope.

Section History.
Context (T : tables) (TO : tables_ok T) (lats locs : R -> Prop) (GL : grid lats) (GT : grid locs).
Notation base := (base T lats locs).
Lemma glatf_pos x : 0 < snd (glatf x).
Proof.
  unfold glatf. cbn [snd]. set (c := cos _). assert (C : -1 <= c <= 1) by apply COS_bound. unfold egrav.
  apply Rmult_lt_0_compat; [|lra]. apply Rdiv_lt_0_compat; [|lra]. apply Rmult_lt_0_compat; [lra|]. apply Rmult_lt_0_compat; lra.
Qed.
Lemma bind_ok {A B} (c : M A) (f : A -> M B) s a s1 : c s = Ok (a, s1) -> bind c f s = f a s1.
Proof. intros H. unfold bind. rewrite H. reflexivity. Qed.
(* what makes two runs on the same input agree *)
Definition same_cond (i : input) (mass : Z) (o o' : output) (D : Prop) (K K' : R) : Prop :=
  72.5 <= alt i \/
  ((mass = 48%Z \/ o = o') /\ (mass = 0%Z \/ D \/ ((mass > 0)%Z /\ mass_index mass <> 0%nat /\ on (sw i 14) = true)) /\ (32.5 < alt i \/ (alt i < 32.5 /\ K = K') \/ D)).
Definition E00 (D : Prop) (s s' : state) : Prop := base s /\ base s' /\ E0 D D D (snd s) (snd s').
Lemma gtd7_ni i mass o o' oc oc' tz tz' D : on_grid lats locs i ->
  forall s s', E00 D s s' -> exists r s1 r' s1', gtd7 T i mass o oc tz s = Ok (r, s1) /\ gtd7 T i mass o' oc' tz' s' = Ok (r', s1') /\ base s1 /\ base s1' /\ (tn3 (snd s1) 0%nat = tn3 (snd s) 0%nat /\ tn3 (snd s1') 0%nat = tn3 (snd s') 0%nat) /\ (same_cond i mass o o' D (tn3 (snd s) 0%nat) (tn3 (snd s') 0%nat) -> r = r').
Proof.
  intros IO s s' (B & B' & HE). unfold gtd7. replace (rlt (Rabs (sw i 1)) 0) with false by (pose proof (Rabs_pos (sw i 1)); rdec; [lra|reflexivity]).
  pose proof (glatf_pos (glat i)) as RP. destruct (glatf (glat i)) as [G Re]. cbn [snd] in RP.
  set (K := tn3 (snd s) 0%nat). set (K' := tn3 (snd s') 0%nat). set (mss := if rlt (alt i) zmix && Z.gtb mass 0 then 28%Z else mass). set (j := with_alt i (Rmax (alt i) (zn2 0))).
  assert (IJ : on_grid lats locs j) by exact IO.
  set (D1 := D \/ (mss <> 0%Z /\ mass_index mss <> 0%nat /\ mixes j)).
  set (WW := W T lats locs i G Re K K').
  (* the first write *)
  set (s0 := (fst s, set_grav (snd s) G Re)). set (s0' := (fst s', set_grav (snd s') G Re)).
  assert (H0 : R0 T lats locs G Re K K' (E0 D D D) s0 s0') by (split; [exact B|split; [exact B'|split; [repeat split|exact HE]]]).
  rewrite (bind_ok (writes _) _ s tt s0 eq_refl), (bind_ok (writes _) _ s' tt s0' eq_refl). cbv iota beta.
  (* gts7 *)
  destruct (gts7_ni T TO lats locs GL GT j IJ G Re K K' RP D D D mss oc oc' s0 s0' H0) as (ds & sg & ds' & sg' & EG & EG' & <- & HW). fold D1 in HW.
  rewrite (bind_ok _ _ _ _ _ EG), (bind_ok _ _ _ _ _ EG'). cbv iota beta.
  (* dm28m *)
  set (f := fun m => set_dm28m m (if meters i then dm28 m * 10 ^ 6 else dm28 m)).
  assert (N : ni (WW (E4 D D D1)) (writes f) (writes f) eq (WW (E4 D D1 D1))).
  { apply writes_W; [intro; repeat split; reflexivity..|]. intros m m' [[[[[A [F1 F2]] C] F] G1] G2]. split; [split; [split; [split; [split; [exact A|split; [exact F1|]]|exact C]|exact F]|exact G1]|exact G2].
    intros d. cbn [f dm28m set_dm28m]. rewrite (A d). reflexivity. }
  destruct (N sg sg' HW) as ([] & sd & [] & sd' & ED & ED' & _ & HD). rewrite (bind_ok _ _ _ _ _ ED), (bind_ok _ _ _ _ _ ED'). cbv iota beta. cbv zeta.
  destruct (rle (zn2 0) (alt i)) eqn:Z.
  { do 4 eexists. split; [reflexivity|]. split; [reflexivity|]. destruct HD as ((BD & _) & (BD' & _) & (_ & _ & _ & _ & KK & KK') & _). split; [exact BD|]. split; [exact BD'|]. split; [split; assumption|]. reflexivity. }
  assert (Z' : alt i < 72.5) by (clear - Z; cbn [zn2] in Z; rdec; lra).
  destruct (mesosphere_ni T TO lats locs GL GT i IO G Re K K' D D1 D1 sd sd' HD) as ([] & sm & [] & sm' & EM & EM' & _ & HM). rewrite (bind_ok _ _ _ _ _ EM), (bind_ok _ _ _ _ _ EM'). cbv iota beta.
  assert (NT : exists st st', (if rlt (alt i) (zn3 0) then troposphere T i else ret tt) sm = Ok (tt, st) /\ (if rlt (alt i) (zn3 0) then troposphere T i else ret tt) sm' = Ok (tt, st') /\ WW (E5 D D1 D1 4 2) st st' /\
    (alt i < 32.5 -> (forall k, (1 <= k < 5)%nat -> tn3 (snd st) k = tn3 (snd st') k) /\ (forall k, (k < 2)%nat -> tgn3 (snd st) k = tgn3 (snd st') k))).
  { destruct (rlt (alt i) (zn3 0)) eqn:L.
    - destruct (troposphere_ni T TO lats locs GL GT i IO G Re K K' D D1 D1 sm sm' HM) as ([] & st & [] & st' & ET & ET' & _ & HT). exists st, st'. split; [exact ET|]. split; [exact ET'|]. destruct HT as (W1 & W2 & W3 & W4 & W5 & (W6 & W7 & W8)).
      split; [repeat (split; [assumption|]); assumption|]. intros _. split; assumption.
    - exists sm, sm'. split; [reflexivity|]. split; [reflexivity|]. split; [exact HM|]. intros A. exfalso. clear - L A. cbn [zn3] in L. rdec; lra. }
  destruct NT as (st & st' & ET & ET' & HT & HN). rewrite (bind_ok _ _ _ _ _ ET), (bind_ok _ _ _ _ _ ET'). cbv iota beta.
  set (u := set_t1 (set_t0 o (t0 ds)) (t1 ds)). set (u' := set_t1 (set_t0 o' (t0 ds)) (t1 ds)).
  destruct (mixing_ni T lats locs i G Re K K' RP D D1 D1 mass ds u u' tz tz' Z' eq_refl) as [M1 M2].
  destruct (M1 st st' HT) as (r & s1 & r' & s1' & R1 & R1' & _ & HX). exists r, s1, r', s1'. split; [exact R1|]. split; [exact R1'|]. destruct HX as ((BX & _) & (BX' & _) & (_ & _ & _ & _ & KK & KK') & _). split; [exact BX|]. split; [exact BX'|]. split; [split; assumption|].
  intros [C|(CO & CM & CK)]; [lra|]. refine (M2 st st' r r' s1 s1' HT _ _ _ R1 R1').
  - intros L. destruct HT as (_ & _ & (_ & _ & _ & _ & KS & KS') & _ & _ & ((((((A1 & (A2 & A3)) & _) & _) & _) & _) & _)). fold K in KS. destruct CK as [CK|[[CK CE]|CK]]; [lra| |].
    + destruct (HN CK) as [H1 H2]. split; [|exact H2]. intros [|k] Hk; [congruence|apply H1; lia].
    + split; intros k _; apply (A2 CK).
  - intros M0. destruct HT as (_ & _ & _ & _ & _ & ((((((A1 & (A2 & A3)) & _) & _) & _) & _) & _)). apply A3. unfold D1. destruct CM as [CM|[CM|(CM & CI & CS)]]; [contradiction|left; exact CM|right].
    assert (MM : mss = 28%Z \/ mss = mass) by (unfold mss; destruct (rlt (alt i) zmix && Z.gtb mass 0); auto).
    split; [destruct MM as [->| ->]; lia|]. split; [destruct MM as [->| ->]; [discriminate|exact CI]|]. unfold mixes. replace (sw j 14) with (sw i 14) by reflexivity. rewrite CS, andb_true_r. replace (alt j) with (Rmax (alt i) (zn2 0)) by reflexivity.
    rewrite Rmax_right by (cbn [zn2]; lra). cbn [zn2 altl]. clear. rdec; first [reflexivity|exfalso; lra].
  - destruct CO as [CO| ->]; [left; exact CO|right; reflexivity].
Qed.
(* any number of calls on inputs from the grid: all defined, and the caches stay consistent *)
Record call := Call { c_in : input; c_mass : Z; c_out : output; c_oc : output; c_tz : R }.
Fixpoint calls (l : list call) (s : state) : outcome state := match l with [] => Ok s | c :: r => match gtd7 T (c_in c) (c_mass c) (c_out c) (c_oc c) (c_tz c) s with Ok (_, s1) => calls r s1 | UB => UB end end.
Lemma base_start m : base (statics0, m).
Proof. split; [left; reflexivity|]. split; [left; split; reflexivity|]. split; left; reflexivity. Qed.
Lemma calls_base l : forall s, Forall (fun c => on_grid lats locs (c_in c)) l -> base s -> exists s1, calls l s = Ok s1 /\ base s1 /\ tn3 (snd s1) 0%nat = tn3 (snd s) 0%nat.
Proof.
  induction l as [|c l IH]; intros s F B; [exists s; auto|]. inversion F as [|? ? F1 F2]; subst.
  destruct (gtd7_ni (c_in c) (c_mass c) (c_out c) (c_out c) (c_oc c) (c_oc c) (c_tz c) (c_tz c) True F1 s s) as (r & s1 & r' & s1' & E & _ & B1 & _ & (KK & _) & _); [split; [exact B|split; [exact B|]]; split; [reflexivity|split; [split; reflexivity|reflexivity]]|].
  cbn [calls]. rewrite E. rewrite <- KK. apply IH; assumption.
Qed.
(* the result on an input does not depend on the calls before it, nor on what the uninitialised members and locals held *)
Lemma history_free l l' m m' i mass o o' oc oc' tz tz' : Forall (fun c => on_grid lats locs (c_in c)) l -> Forall (fun c => on_grid lats locs (c_in c)) l' -> on_grid lats locs i ->
  72.5 <= alt i \/ (32.5 < alt i /\ (mass = 48%Z \/ o = o') /\ (mass = 0%Z \/ ((mass > 0)%Z /\ mass_index mass <> 0%nat /\ on (sw i 14) = true))) \/
  (alt i < 32.5 /\ tn3 m 0%nat = tn3 m' 0%nat /\ (mass = 48%Z \/ o = o') /\ (mass = 0%Z \/ ((mass > 0)%Z /\ mass_index mass <> 0%nat /\ on (sw i 14) = true))) ->
  exists s s' r s1 s1', calls l (statics0, m) = Ok s /\ calls l' (statics0, m') = Ok s' /\ gtd7 T i mass o oc tz s = Ok (r, s1) /\ gtd7 T i mass o' oc' tz' s' = Ok (r, s1').
Proof.
  intros F F' IO C. destruct (calls_base l (statics0, m) F (base_start m)) as (s & E & B & KS). destruct (calls_base l' (statics0, m') F' (base_start m')) as (s' & E' & B' & KS').
  destruct (gtd7_ni i mass o o' oc oc' tz tz' False IO s s') as (r & s1 & r' & s1' & R1 & R1' & _ & _ & _ & H); [split; [exact B|split; [exact B'|]]; split; [contradiction|split; contradiction]|].
  exists s, s', r, s1, s1'. split; [exact E|]. split; [exact E'|]. split; [exact R1|]. rewrite H; [exact R1'|].
  destruct C as [C|[(C1 & C2 & C3)|(C1 & C0 & C2 & C3)]]; [left; exact C|right..]; (split; [exact C2|]; split; [destruct C3 as [C3|C3]; [left; exact C3|right; right; exact C3]|]); [left; exact C1|right; left].
  cbn [snd] in KS, KS'. split; [exact C1|congruence].
Qed.
End History.
