From Coq Require Import String List ZArith QArith Qround Reals Qreals Lra Lqa Lia Bool Ascii.
From Verif Require Import Base Gravity_model Spline_model CLib_model Stream_model Lines_proofs SpaceWeather_model SpaceWeather_proofs Msis_model Msis_proofs Msis_history Msis_data Msis_code Msis_facts Msis_refute MsisSwitch_model MsisSwitch_proofs AirParams_model.
Import ListNotations.
Local Open Scope nat_scope.
Ltac qlra := Lqa.lra.

(* ---- the date ---- *)
Lemma ms_bounds q : (0 <= q)%Q -> (inject_Z (ms_of q) <= q * 1000)%Q /\ (q * 1000 < inject_Z (ms_of q) + 1)%Q /\ (0 <= ms_of q)%Z.
Proof.
  intros H. unfold ms_of. pose proof H as H'. apply Qle_bool_iff in H'. rewrite H'. split; [apply Qfloor_le|]. pose proof (Qlt_floor (q * 1000)) as F. rewrite inject_Z_plus in F.
  split; [exact F|]. assert (G : (Qfloor 0 <= Qfloor (q * 1000))%Z) by (apply Qfloor_resp_le; qlra). exact G.
Qed.
Lemma date_of mjd q : (0 <= q < 86400)%Q -> day_of mjd q = mjd /\ (0 <= q - sec_of q)%Q /\ (q - sec_of q < 1 # 1000)%Q /\ (0 <= sec_of q < 86400)%Q.
Proof.
  intros [A B]. destruct (ms_bounds q A) as (L & U & N). assert (M : (ms_of q < 86400000)%Z).
  { rewrite Zlt_Qlt. change (inject_Z 86400000) with (86400000 # 1)%Q. qlra. }
  unfold day_of, sec_of. rewrite Z.div_small, Z.mod_small, Z.add_0_r by lia. split; [reflexivity|].
  assert (X : (inject_Z (ms_of q) / 1000 == inject_Z (ms_of q) * (1 # 1000))%Q) by reflexivity. rewrite X.
  assert (Y : (0 <= inject_Z (ms_of q))%Q) by (change 0%Q with (inject_Z 0); rewrite <- Zle_Qle; lia).
  assert (Z : (inject_Z (ms_of q) < 86400000)%Q) by (change 86400000%Q with (inject_Z 86400000); rewrite <- Zlt_Qlt; lia).
  split; [qlra|]. split; [qlra|]. split; qlra.
Qed.

(* ---- the indices of a day do not depend on how the feed came to it ---- *)
Lemma real_at_eq cols k u v : real_at cols k u -> real_at cols k v -> u = v.
Proof. intros (c & A & B) (c' & A' & B'). rewrite A in A'. injection A' as <-. unfold real_col in *. rewrite B in B'. injection B' as ->. reflexivity. Qed.
Lemma int_at_eq cols k u v : int_at cols k u -> int_at cols k v -> u = v.
Proof. intros (c & A & B) (c' & A' & B'). rewrite A in A'. injection A' as <-. unfold int_col in *. rewrite B in B'. injection B' as ->. reflexivity. Qed.
Lemma aps_at_eq cols l l' : aps_at cols l -> aps_at cols l' -> l = l'.
Proof.
  intros [A B] [A' B']. apply nth_ext with (d := 0%Z) (d' := 0%Z); [congruence|]. intros n N.
  destruct (nth_error l n) as [v|] eqn:E; [|apply nth_error_None in E; lia]. destruct (nth_error l' n) as [v'|] eqn:E'; [|apply nth_error_None in E'; lia].
  rewrite (nth_error_nth l n 0%Z E), (nth_error_nth l' n 0%Z E'). apply (int_at_eq cols (12 + n)); [apply B, E|apply B', E'].
Qed.
Lemma dated_eq l y m d y' m' d' : dated l y m d -> dated l y' m' d' -> y = y' /\ m = m' /\ d = d'.
Proof. intros (a & b & c & A & B & C) (a' & b' & c' & A' & B' & C'). rewrite A in A'. rewrite B in B'. rewrite C in C'. injection A' as -> _. injection B' as -> _. injection C' as -> _. auto. Qed.
Definition same_indices (f g : flux) : Prop := fx_ap f = fx_ap g /\ fx_apd f = fx_apd g /\ fx_obs f = fx_obs g /\ fx_obsc f = fx_obsc g.
Section Feed.
Context (ymd_mjd : Z -> Z -> Z -> Z) (ls : list chars) (last : chars) (d0 dn : Z).
Notation file := (seen ls last).
Hypothesis TB : table ymd_mjd ls last d0 dn.
Lemma header_undated h y m d : header_line h -> ~ dated (cstr h) y m d.
Proof. intros (tail & E) (a & b & c & A & _). rewrite E in A. vm_compute in A. discriminate. Qed.
Lemma table_line l fl : In l file -> row_of ymd_mjd (cstr l) fl -> exists j, nth_error file (S j) = Some l /\ fx_mjd fl = (d0 + Z.of_nat j)%Z /\ documented (columns (cstr l)).
Proof.
  intros I (R & _). destruct TB as ((h & H0 & HH) & _ & _ & TL). destruct (In_nth_error _ _ I) as [n N]. destruct n as [|j].
  - rewrite H0 in N. injection N as ->. destruct R as (y & m & d & D & _). destruct (header_undated _ _ _ _ HH D).
  - exists j. split; [exact N|]. destruct (TL j l N) as ((F1 & F2 & _) & y & m & d & D & <-). destruct R as (y' & m' & d' & D' & ->). destruct (dated_eq _ _ _ _ _ _ _ D D') as (-> & -> & ->). split; [reflexivity|exact F2].
Qed.
Lemma row_same l l' f g : In l file -> In l' file -> row_of ymd_mjd (cstr l) f -> row_of ymd_mjd (cstr l') g -> fx_mjd f = fx_mjd g -> same_indices f g.
Proof.
  intros I I' R R' M. destruct (table_line _ _ I R) as (j & N & E & D), (table_line _ _ I' R') as (j' & N' & E' & D'). assert (j = j') by lia. subst j'. rewrite N in N'. injection N' as <-.
  destruct R as (_ & A & B & C), R' as (_ & A' & B' & C'). specialize (C D). specialize (C' D). destruct C as (C1 & _ & _ & C2 & _), C' as (C1' & _ & _ & C2' & _).
  split; [exact (aps_at_eq _ _ _ A A')|]. split; [exact (real_at_eq _ _ _ _ B B')|]. split; [exact (real_at_eq _ _ _ _ C1 C1')|exact (real_at_eq _ _ _ _ C2 C2')].
Qed.
Lemma windows_same day w w' : days_ending ymd_mjd ls last day w -> days_ending ymd_mjd ls last day w' ->
  forall j, j < 4 -> exists f g, nth_error w j = Some f /\ nth_error w' j = Some g /\ same_indices f g.
Proof.
  intros (_ & A) (_ & A') j J. destruct (A j J) as (l & f & I & N & R & M), (A' j J) as (l' & g & I' & N' & R' & M'). exists f, g. split; [exact N|]. split; [exact N'|]. apply (row_same l l'); [exact I|exact I'|exact R|exact R'|congruence].
Qed.
Lemma windows_flat day w w' : days_ending ymd_mjd ls last day w -> days_ending ymd_mjd ls last day w' -> flat_map fx_ap w = flat_map fx_ap w'.
Proof.
  intros D D'. pose proof (windows_same _ _ _ D D') as W. destruct D as ((L & _) & _), D' as ((L' & _) & _).
  destruct w as [|a [|b [|c [|e [|]]]]]; try discriminate L. destruct w' as [|a' [|b' [|c' [|e' [|]]]]]; try discriminate L'.
  pose proof (W 0 ltac:(lia)) as (f0 & g0 & F0 & G0 & S0 & _). pose proof (W 1 ltac:(lia)) as (f1 & g1 & F1 & G1 & S1 & _).
  pose proof (W 2 ltac:(lia)) as (f2 & g2 & F2 & G2 & S2 & _). pose proof (W 3 ltac:(lia)) as (f3 & g3 & F3 & G3 & S3 & _).
  cbn [nth_error] in *. injection F0 as <-. injection G0 as <-. injection F1 as <-. injection G1 as <-. injection F2 as <-. injection G2 as <-. injection F3 as <-. injection G3 as <-.
  cbn [flat_map]. congruence.
Qed.
Lemma value_at_eq w w' t u v : flat_map fx_ap w = flat_map fx_ap w' -> value_at w t u -> value_at w' t v -> u = v.
Proof.
  intros E (j & N & A & B) (j' & N' & A' & B'). assert (j = j').
  { assert (X : (inject_Z (10800 * Z.of_nat j) < inject_Z (10800 * Z.of_nat (S j')))%Q) by (apply Qle_lt_trans with t; assumption).
    assert (Y : (inject_Z (10800 * Z.of_nat j') < inject_Z (10800 * Z.of_nat (S j)))%Q) by (apply Qle_lt_trans with t; assumption).
    rewrite <- Zlt_Qlt in X, Y. lia. }
  subst j'. rewrite E, N' in N. injection N as ->. reflexivity.
Qed.
Lemma total_eq u v a n : (forall k, a <= k < a + n -> u k = v k) -> SpaceWeather_proofs.total u a n = SpaceWeather_proofs.total v a n.
Proof. revert a. induction n as [|n IH]; intros a H; cbn [SpaceWeather_proofs.total]; [reflexivity|]. rewrite (H a), (IH (S a)); [reflexivity| |lia]. intros k K. apply H. lia. Qed.
Lemma now_same day sec fd p fd' p' : in_sync ymd_mjd ls last fd p -> in_sync ymd_mjd ls last fd' p' -> now_at day sec fd p -> now_at day sec fd' p' ->
  p_f107A p = p_f107A p' /\ p_f107 p = p_f107 p' /\ p_ap p = p_ap p' /\ map Q2R (p_arr p) = map Q2R (p_arr p').
Proof.
  intros (_ & D & _) (_ & D' & _) (M & _ & H) (M' & _ & H'). rewrite M in D. rewrite M' in D'.
  pose proof (windows_flat _ _ _ D D') as FL. pose proof (windows_same _ _ _ D D') as W.
  destruct H as (x3 & x2 & v & N3 & N2 & V & A1 & A2 & A3 & m1 & m2 & AR & E1 & E2), H' as (y3 & y2 & u & N3' & N2' & V' & A1' & A2' & A3' & m1' & m2' & AR' & E1' & E2').
  destruct (W 3 ltac:(lia)) as (f & g & F & G & S1 & S2 & S3 & S4). rewrite N3 in F. rewrite N3' in G. injection F as <-. injection G as <-.
  destruct (W 2 ltac:(lia)) as (f & g & F & G & _ & _ & R3 & _). rewrite N2 in F. rewrite N2' in G. injection F as <-. injection G as <-.
  assert (VE : forall n, n < 20 -> v n = u n) by (intros n Hn; exact (value_at_eq _ _ _ _ _ FL (V n Hn) (V' n Hn))).
  split; [congruence|]. split; [congruence|]. split; [congruence|]. rewrite AR, AR'. cbn [map]. rewrite S2, (VE 0), (VE 1), (VE 2), (VE 3) by lia.
  rewrite (total_eq v u 4 8) in E1 by (intros; apply VE; lia). rewrite (total_eq v u 12 8) in E2 by (intros; apply VE; lia).
  rewrite (Qeq_eqR m1 m1'), (Qeq_eqR m2 m2') by qlra. reflexivity.
Qed.
End Feed.

(* ---- updates ---- *)
(* the feed is in step with its file *)
Definition in_step (ymd_mjd : Z -> Z -> Z -> Z) (ls : list chars) (last : chars) (a : air) : Prop := in_sync ymd_mjd ls last (a_feed a) (a_par a).
Lemma update_params_inv ymd doy_of file j j2 fr a mjd q code a' : update_params ymd doy_of file j j2 fr a mjd q = Some (Ok (code, a')) ->
  exists fd p, update ymd file j j2 fr (day_of mjd q) (sec_of q) (a_feed a) (a_par a) = Some (Ok (code, fd, p)) /\ a' = Air (with_date doy_of (a_mem a) (day_of mjd q) (sec_of q)) fd p.
Proof. unfold update_params. destruct (update _ _ _ _ _ _ _ _ _) as [[[[c fd] p]|]|]; intros E; try discriminate. injection E as <- <-. exists fd, p. auto. Qed.
Definition same_settings (a b : air) : Prop := sw (a_mem a) = sw (a_mem b) /\ swc (a_mem a) = swc (a_mem b) /\ meters (a_mem a) = meters (a_mem b).
(* whatever was asked for before, the request for a date and a place is the same but for the local time *)
Lemma request_same ymd doy_of ls last d0 dn mjd q a b j1 j1' j2 j2' fr fr' a' b' lfh :
  Forall (line_ok 512) ls -> line_ok 512 last -> table ymd ls last d0 dn -> in_step ymd ls last a -> in_step ymd ls last b -> (0 <= q < 86400)%Q ->
  length (fx_ap fr) = 8 -> length (fx_ap fr') = 8 -> 10 <= length j1 -> 10 <= length j1' -> 10 <= length j2 -> 10 <= length j2' -> (mjd <= dn \/ dn < mjd - 3)%Z ->
  same_settings a b -> lst (a_mem a) = lst (a_mem b) ->
  update_params ymd doy_of (Some (file_text ls last)) j1 j1' fr a mjd q = Some (Ok (0%Z, a')) ->
  update_params ymd doy_of (Some (file_text ls last)) j2 j2' fr' b mjd q = Some (Ok (0%Z, b')) ->
  core (set_spatial lfh a') = core (set_spatial lfh b').
Proof.
  intros LO LL TB SA SB Q F F' J1 J1' J2 J2' RG (S1 & S2 & S3) LS EA EB. destruct (update_params_inv _ _ _ _ _ _ _ _ _ _ _ EA) as (fa & pa & UA & ->), (update_params_inv _ _ _ _ _ _ _ _ _ _ _ EB) as (fb & pb & UB & ->).
  destruct (date_of mjd q Q) as (D & _ & _ & SQ). rewrite D in UA, UB.
  assert (JA : may_jump ymd ls last (a_feed a) mjd) by (exists d0, dn; split; [exact TB|exact RG]). assert (JB : may_jump ymd ls last (a_feed b) mjd) by (exists d0, dn; split; [exact TB|exact RG]).
  destruct (update_step ymd ls last LO LL j1 j1' fr mjd (sec_of q) (a_feed a) (a_par a) 0 fa pa SA F SQ J1 J1' (or_intror (or_intror JA)) UA) as (YA & NA & _).
  destruct (update_step ymd ls last LO LL j2 j2' fr' mjd (sec_of q) (a_feed b) (a_par b) 0 fb pb SB F' SQ J2 J2' (or_intror (or_intror JB)) UB) as (YB & NB & _).
  destruct (now_same ymd ls last d0 dn TB mjd (sec_of q) fa pa fb pb YA YB (NA eq_refl) (NB eq_refl)) as (P1 & P2 & P3 & P4).
  destruct lfh as [[l f] h]. unfold core, set_spatial, with_date. cbn [a_mem a_feed a_par sw swc doy sec alt glat glon lst f107A f107 ap aparr meters].
  rewrite P1, P2, P3, P4, S1, S2, S3, LS. reflexivity.
Qed.

(* ---- the temperature of the thermosphere for any mass ---- *)
Local Open Scope R_scope.
Ltac rlra := Lra.lra.
Definition same_t0 (x : R) (c : M output) : Prop := hoare (fun _ => True) c (fun o _ => t0 o = x).
Lemma st_bind {B} x (c : M B) (f : B -> M output) : (forall b, same_t0 x (f b)) -> same_t0 x (bind c f).
Proof. intros H. unfold same_t0. eapply h_bind; [apply h_any|exact H]. Qed.
Lemma st_after x (c : M output) (f : output -> M output) : same_t0 x c -> (forall o, t0 o = x -> same_t0 x (f o)) -> same_t0 x (bind c f).
Proof. intros H K. unfold same_t0. eapply h_bind; [exact H|]. cbn beta. intros o s a s1 E R. exact (K o E s a s1 Logic.I R). Qed.
Lemma st_ret x o : t0 o = x -> same_t0 x (ret o).
Proof. intros H s a s1 _ E. injection E as <- _. exact H. Qed.
Lemma st_if x (b : bool) c d : same_t0 x c -> same_t0 x d -> same_t0 x (if b then c else d).
Proof. intros H K. destruct b; assumption. Qed.
Ltac stt := repeat first [apply st_if|apply st_ret; assumption|apply st_ret; match goal with |- t0 (if ?b then _ else _) = _ => destruct b end; assumption|apply st_bind; intro; cbn zeta].
Section T0.
Context (T : tables) (i : input) (tinf tlbv s xmm zhm28 b28 x : R).
Lemma st_helium o : t0 o = x -> same_t0 x (helium T i tinf tlbv s xmm zhm28 b28 o). Proof. intros H. unfold helium. stt. Qed.
Lemma st_oxygen o : t0 o = x -> same_t0 x (oxygen T i tinf tlbv s xmm zhm28 o). Proof. intros H. unfold oxygen. stt. Qed.
Lemma st_argon o : t0 o = x -> same_t0 x (argon T i tinf tlbv s xmm zhm28 b28 o). Proof. intros H. unfold argon. stt. Qed.
Lemma st_hydrogen o : t0 o = x -> same_t0 x (hydrogen T i tinf tlbv s xmm zhm28 b28 o). Proof. intros H. unfold hydrogen. stt. Qed.
Lemma st_nitrogen o : t0 o = x -> same_t0 x (nitrogen T i tinf tlbv s xmm zhm28 b28 o). Proof. intros H. unfold nitrogen. stt. Qed.
Lemma st_anomalous mass o : t0 o = x -> same_t0 x (anomalous T i s mass o). Proof. intros H. unfold anomalous. stt. Qed.
Lemma st_oxygen2 mass o : t0 o = x -> same_t0 x (oxygen2 T i tinf tlbv s xmm zhm28 b28 mass o).
Proof.
  intros H. unfold oxygen2. do 2 (apply st_bind; intro; cbn zeta). apply st_bind; intro. apply st_if; [|apply st_ret; exact H]. apply st_after; [stt|]. intros o' H'. apply st_ret. exact H'.
Qed.
End T0.
Lemma st_molecular T i mass tinf tlbv s g28 zhf xmm o x : t0 o = x -> hoare (fun _ => True) (molecular T i mass tinf tlbv s g28 zhf xmm o) (fun r _ => t0 (snd r) = x).
Proof.
  intros H. unfold molecular. destruct (rlt _ _ || _ || _); [|intros st a st1 _ E; injection E as <- _; exact H].
  do 3 (eapply h_bind; [apply h_any|cbn beta; intro; cbn zeta]). destruct (rle _ _ && _).
  - do 2 (eapply h_bind; [apply h_any|cbn beta; intro; cbn zeta]). intros st r st1 _ E. injection E as <- _. exact H.
  - intros st r st1 _ E. injection E as <- _. exact H.
Qed.
Lemma st_species T i mass tinf tlbv s o : same_t0 tinf (species T i mass tinf tlbv s o).
Proof.
  unfold species. apply st_bind; intro g. cbn zeta. unfold same_t0. eapply h_bind with (Q := fun r _ => t0 (snd r) = tinf).
  - destruct (Nat.eqb _ 0); [intros st r st1 _ E; injection E as <- _; reflexivity|apply st_molecular; reflexivity].
  - intros [[zh b] o1]. cbn [snd]. intros st r st1 H E. revert E. generalize Logic.I. revert st r st1. change (same_t0 tinf
      (let* o := (if among (mass_index mass) (1 :: 3 :: 4 :: 9 :: nil)%nat then let* o := helium T i tinf tlbv s (pdm T 2 4) zh b o1 in oxygen T i tinf tlbv s (pdm T 2 4) zh o else ret o1) in
       let* o := (if among (mass_index mass) (1 :: 3 :: 4 :: 6 :: 9 :: nil)%nat then oxygen2 T i tinf tlbv s (pdm T 2 4) zh b mass o else ret o) in
       let* o := (if among (mass_index mass) (1 :: 3 :: 4 :: 6 :: 9 :: 7 :: nil)%nat then argon T i tinf tlbv s (pdm T 2 4) zh b o else ret o) in
       let* o := (if among (mass_index mass) (1 :: 3 :: 4 :: 6 :: 9 :: 7 :: 8 :: nil)%nat then let* o := hydrogen T i tinf tlbv s (pdm T 2 4) zh b o in nitrogen T i tinf tlbv s (pdm T 2 4) zh b o else ret o) in
       if among (mass_index mass) (1 :: 3 :: 4 :: 6 :: 9 :: 7 :: 8 :: 10 :: 11 :: nil)%nat then anomalous T i s mass o else ret o)).
    apply st_after; [apply st_if; [apply st_after; [apply st_helium; assumption|intros ? ?; apply st_oxygen; assumption]|apply st_ret; assumption]|intros o2 H2].
    apply st_after; [apply st_if; [apply st_oxygen2; assumption|apply st_ret; assumption]|intros o3 H3].
    apply st_after; [apply st_if; [apply st_argon; assumption|apply st_ret; assumption]|intros o4 H4].
    apply st_after; [apply st_if; [apply st_after; [apply st_hydrogen; assumption|intros ? ?; apply st_nitrogen; assumption]|apply st_ret; assumption]|intros o5 H5].
    apply st_if; [apply st_anomalous; assumption|apply st_ret; assumption].
Qed.
Lemma temperatures_tinf T i s tinf s2 : rgt (alt i) (zn1 T 0) = true -> temperatures T i s = Ok (tinf, s2) -> tinf = ptm T 0 * pt T 0%nat * (1 + sw i 15 * expansion T i s).
Proof.
  intros B1 E. unfold temperatures in E. rewrite B1 in E. apply bind_inv in E. destruct E as (ti & s3 & E1 & E2). apply bind_inv in E1. destruct E1 as (gg & s4 & E1 & E3). injection E3 as <- <-.
  assert (TI : tinf = ptm T 0 * pt T 0%nat * (1 + sw i 15 * gg)) by (repeat (apply bind_inv in E2; destruct E2 as (? & ? & _ & E2)); injection E2 as <- _; reflexivity).
  unfold expansion. rewrite E1. exact TI.
Qed.
Lemma gts7_t0 T i mass o s r s1 : rgt (alt i) (zn1 T 0) = true -> gts7 T i mass o s = Ok (r, s1) -> t0 r = ptm T 0 * pt T 0%nat * (1 + sw i 15 * expansion T i s).
Proof.
  intros B1 E. unfold gts7 in E. cbn zeta in E. apply bind_inv in E. destruct E as (tinf & s2 & E1 & E). rewrite <- (temperatures_tinf _ _ _ _ _ B1 E1).
  apply bind_inv in E. destruct E as (m & s3 & _ & E). apply bind_inv in E. destruct E as (o1 & s4 & E2 & E).
  assert (O1 : t0 o1 = tinf) by (destruct (Z.eqb mass 0); [injection E2 as <- _; reflexivity|exact (st_species _ _ _ _ _ _ _ _ _ _ Logic.I E2)]).
  apply bind_inv in E. destruct E as (o2 & s5 & E3 & E). assert (O2 : t0 o2 = tinf).
  { destruct (Nat.eqb _ 5); [injection E3 as <- _; exact O1|]. apply bind_inv in E3. destruct E3 as (u & s6 & _ & E3). injection E3 as <- _. exact O1. }
  injection E as <- _. destruct (meters i); exact O2.
Qed.
Lemma gtd7_t0 T i mass o oc tz c m r s1 : 110 < zn1 T 0 < 150 -> alt i = 200 -> gtd7 T i mass o oc tz (c, m) = Ok (r, s1) -> t0 r = ptm T 0 * pt T 0%nat * (1 + sw i 15 * expansion T i (c, m)).
Proof.
  intros ZA A E. unfold gtd7 in E. destruct (glatf _) as [g rr]. apply bind_inv in E. destruct E as (u & s2 & E1 & E). injection E1 as <- <-. cbn zeta in E. cbn [fst snd] in E.
  apply bind_inv in E. destruct E as (ds & s3 & E1 & E). apply bind_inv in E. destruct E as (u & s4 & _ & E). rewrite A in E1, E. rewrite Rmax_left in E1 by (cbn [zn2]; rlra).
  replace (rle (zn2 0) 200) with true in E by (cbn [zn2]; clear; rdec; first [reflexivity|exfalso; rlra]). injection E as <- _. cbn [t0 set_t0 set_t1].
  refine (gts7_t0 T (with_alt i 200) _ oc _ ds s3 _ E1). cbn [alt with_alt]. clear - ZA. rdec; first [reflexivity|exfalso; rlra].
Qed.
Lemma far_grid x : -500 <= x <= 500 -> grid (only x).
Proof. intros H. split; [intros a b -> ->; left; reflexivity|intros a ->; rewrite Rabs_right; rlra]. Qed.
Lemma run_defined i m mass o oc tz : -500 <= glat i <= 500 -> -500 <= lst i <= 500 -> doy i <> (-1)%Z -> exists r s1, gtd7 code_tables i mass o oc tz (statics0, m) = Ok (r, s1).
Proof.
  intros G L D. destruct (calls_base code_tables code_ok (only (glat i)) (only (lst i)) (far_grid _ G) (far_grid _ L) [Msis_history.Call i mass o oc tz] (statics0, m)) as (s & E & _).
  { constructor; [|constructor]. split; [reflexivity|]. split; [reflexivity|exact D]. }
  { apply base_start. }
  cbn [calls c_in c_mass c_out c_oc c_tz] in E. destruct (gtd7 code_tables i mass o oc tz (statics0, m)) as [[r s1]|]; [|discriminate]. exists r, s1. reflexivity.
Qed.

(* ---- the same request at noon and at midnight ---- *)
(* at 200 km over the equator, mean fluxes, quiet *)
Definition quiet (i : input) : Prop := alt i = 200 /\ glat i = 0 /\ f107A i = 150 /\ f107 i = 150 /\ (forall k, (k < 7)%nat -> aparr i k = 4) /\
  (forall k, (k < 25)%nat -> sw i k = if Nat.eqb k 8 then -1 else 1) /\ (forall k, (k < 25)%nat -> swc i k = if Nat.eqb k 8 then 0 else 1).
Lemma g0_quiet p24 p : g0 p24 4 p = 0.
Proof. unfold g0. replace (4 - 4) with 0 by rlra. rewrite Rmult_0_r, exp_0. unfold Rdiv. ring. Qed.
Lemma aptv_quiet i p : quiet i -> aptv i p = 0.
Proof. intros (_ & _ & _ & _ & A & _). unfold aptv, sg0. cbn zeta. rewrite !A by lia. rewrite !g0_quiet. unfold Rdiv. ring. Qed.
Definition with_lst (i : input) (x : R) : input := Input (sw i) (swc i) (doy i) (sec i) (alt i) (glat i) (glon i) x (f107A i) (f107 i) (ap i) (aparr i) (meters i).
Lemma trig_0 : trig_of 0 = Trig 0 1 0 1 0 1.
Proof. unfold trig_of. rewrite !Rmult_0_r, sin_0, cos_0. reflexivity. Qed.
Lemma trig_half : trig_of (PI / hr) = Trig 0 (-1) 0 1 0 (-1).
Proof.
  assert (H : hr <> 0) by (unfold hr; rlra).
  unfold trig_of. replace (hr * (PI / hr)) with PI by (field; exact H). replace (2 * hr * (PI / hr)) with (2 * PI) by (field; exact H). replace (3 * hr * (PI / hr)) with (2 * PI + PI) by (field; exact H).
  rewrite neg_sin, neg_cos, sin_PI, cos_PI, sin_2PI, cos_2PI, Ropp_0. reflexivity.
Qed.
Lemma on_1 x : x = 1 -> on x = true.
Proof. intros ->. unfold on. rewrite Rabs_R1. clear. rdec; first [reflexivity|exfalso; rlra]. Qed.
Lemma abs_sw i k : quiet i -> (k < 25)%nat -> Rabs (sw i k) = 1.
Proof. intros (_ & _ & _ & _ & _ & S & _) K. rewrite (S k K). destruct (Nat.eqb k 8); [rewrite Rabs_left by rlra; rlra|apply Rabs_R1]. Qed.
Definition steady (l : trig) : Prop := st1 l = 0 /\ st2 l = 0 /\ ct2 l = 1 /\ st3 l = 0.
Lemma terms_alike i x p g q dfa l l' k dp : quiet i -> dfa = 0 -> steady l -> steady l' -> k <> 6%nat -> k <> 13%nat ->
  globe_term (with_lst i x) p g l q dfa dp 0 k = globe_term i p g l' q dfa dp 0 k.
Proof.
  intros QI D (A1 & A2 & A3 & A4) (B1 & B2 & B3 & B4) K6 K13. destruct k as [|[|[|[|[|[|[|[|[|[|[|[|[|[|k]]]]]]]]]]]]]]; try reflexivity; try contradiction.
  - unfold globe_term. cbn [with_lst sw swc f107 f107A]. rewrite A2, A3, B2, B3. reflexivity.
  - unfold globe_term. cbn [with_lst sw swc f107 f107A lst]. change (daily (with_lst i x)) with (daily i).
    assert (DI : daily i = false). { destruct QI as (_ & _ & _ & _ & _ & S & _). apply daily_neg. rewrite (S 8%nat) by lia. cbn [Nat.eqb]. rlra. }
    rewrite DI. rewrite !Rmult_0_l. reflexivity.
Qed.
Lemma equator old : let g := legendre 0 old in g 1%nat 1%nat = 1 /\ g 1%nat 2%nat = 0 /\ g 1%nat 3%nat = - (3 / 2) /\ g 1%nat 5%nat = 15 / 8 /\ g 3%nat 3%nat = 15 /\ g 3%nat 4%nat = 0 /\ g 3%nat 6%nat = 0.
Proof.
  unfold legendre, deg2rad. replace (0 * PI / 180) with 0 by field. rewrite sin_0, cos_0. cbn zeta.
  refine (conj _ (conj _ (conj _ (conj _ (conj _ (conj _ _)))))); first [rlra|field].
Qed.
Lemma local_terms i x p q l old dp : quiet i -> lst i = x -> steady l -> let g := legendre 0 old in
  globe_term i p g l q 0 dp 0 6 = (p 3%nat - 3 / 2 * p 4%nat + 15 / 8 * p 27%nat) * ct1 l /\ globe_term i p g l q 0 dp 0 13 = 15 * p 40%nat * ct3 l.
Proof.
  intros QI _ (A1 & A2 & A3 & A4) g. destruct QI as (_ & _ & FA & F & _ & S & SC). destruct (equator old) as (G11 & G12 & G13 & G15 & G33 & G34 & G36).
  unfold globe_term. rewrite (on_1 (sw i 6)), (on_1 (sw i 13)) by (rewrite S by lia; reflexivity). fold g in G11, G12, G13, G15, G33, G34, G36. rewrite F, FA, G11, G12, G13, G15, G33, G34, G36, A1, A4. split; ring.
Qed.
Definition amplitude (p : nat -> R) : R := p 3%nat - 3 / 2 * p 4%nat + 15 / 8 * p 27%nat + 15 * p 40%nat.
Lemma expansion_local i m : quiet i -> apt m = 0 ->
  expansion code_tables (with_lst i 0) (statics0, m) - expansion code_tables (with_lst i (PI / hr)) (statics0, m) = 2 * amplitude (pt code_tables).
Proof.
  intros QI AM. assert (Q' : forall x, quiet (with_lst i x)) by (intros x; exact QI). pose proof QI as (_ & GL & FA & _ & _ & SW & _).
  assert (M0 : moved (xl statics0) 0 = true) by (apply moved_true; cbn [xl statics0]; rewrite Rminus_0_r, Rabs_right; rlra).
  assert (HP : 0 <= PI / hr <= 20) by (pose proof PI_RGT_0; pose proof PI_4; unfold hr; split; [apply Rle_mult_inv_pos|apply Rmult_le_reg_r with 0.2618; [|unfold Rdiv; rewrite Rmult_assoc, Rinv_l]]; rlra).
  assert (ML : forall x, 0 <= x <= 20 -> moved (tll statics0) x = true) by (intros x Hx; apply moved_true; cbn [tll statics0]; rewrite Rabs_right; rlra).
  set (p := pt code_tables). set (g := legendre 0 (plg m)). set (q := season_globe p (doy i) (gsea statics0)).
  assert (X : forall x, 0 <= x <= 20 -> expansion code_tables (with_lst i x) (statics0, m) = switched (sw i) (globe_term (with_lst i x) p g (trig_of x) q 0 (apdf m) 0) 14 (p 30%nat)).
  { intros x Hx. unfold expansion, globe7. change (glat (with_lst i x)) with (glat i). change (lst (with_lst i x)) with x. change (f107A (with_lst i x)) with (f107A i). change (sw (with_lst i x)) with (sw i). change (doy (with_lst i x)) with (doy i). change (daily (with_lst i x)) with (daily i).
    assert (DI : daily i = false) by (apply daily_neg; rewrite (SW 8%nat) by lia; cbn [Nat.eqb]; rlra).
    rewrite DI, GL, FA, M0, (ML x Hx), (on_1 (sw i 6)) by (rewrite SW by lia; reflexivity). cbn [andb orb]. replace (150 - 150) with 0 by rlra. rewrite (aptv_quiet _ _ (Q' x)), AM.
    fold p. fold g. fold q. destruct (rgt (Rabs (p 51%nat)) nearzero); reflexivity. }
  rewrite (X 0), (X (PI / hr)) by (exact HP || rlra). rewrite trig_0, trig_half.
  set (l := Trig 0 1 0 1 0 1). set (l' := Trig 0 (-1) 0 1 0 (-1)). assert (SL : steady l) by (repeat split). assert (SL' : steady l') by (repeat split).
  assert (TE : forall k, k <> 6%nat -> k <> 13%nat -> globe_term (with_lst i 0) p g l q 0 (apdf m) 0 k = globe_term (with_lst i (PI / hr)) p g l' q 0 (apdf m) 0 k).
  { intros k K6 K13. exact (terms_alike (with_lst i (PI / hr)) 0 p g q 0 l l' k (apdf m) (Q' _) eq_refl SL SL' K6 K13). }
  destruct (local_terms (with_lst i 0) 0 p q l (plg m) (apdf m) (Q' _) eq_refl SL) as [A6 A13], (local_terms (with_lst i (PI / hr)) (PI / hr) p q l' (plg m) (apdf m) (Q' _) eq_refl SL') as [B6 B13].
  fold g in A6, A13, B6, B13. set (t := globe_term (with_lst i 0) p g l q 0 (apdf m) 0) in *. set (t' := globe_term (with_lst i (PI / hr)) p g l' q 0 (apdf m) 0) in *.
  unfold switched. rewrite !(abs_sw i) by (exact QI || lia). rewrite A6, A13, B6, B13.
  rewrite (TE 0%nat), (TE 1%nat), (TE 2%nat), (TE 3%nat), (TE 4%nat), (TE 5%nat), (TE 7%nat), (TE 8%nat), (TE 9%nat), (TE 10%nat), (TE 11%nat), (TE 12%nat) by discriminate.
  unfold amplitude. cbn [ct1 ct3 l l']. ring.
Qed.
Lemma code_local : amplitude (pt code_tables) < 0.
Proof. unfold amplitude. cbn [pt code_tables]. unfold real1. cbn [nth q_pt]. unfold Q2R. cbn [Qnum Qden]. rlra. Qed.
(* two requests that differ only in the local time *)
Lemma local_time_matters i mass o oc tz m : quiet i -> apt m = 0 -> doy i <> (-1)%Z -> exists r s1 r' s1',
  gtd7 code_tables (with_lst i 0) mass o oc tz (statics0, m) = Ok (r, s1) /\ gtd7 code_tables (with_lst i (PI / hr)) mass o oc tz (statics0, m) = Ok (r', s1') /\ t0 r < t0 r'.
Proof.
  intros QI AM D. pose proof QI as (A & GL & _ & _ & _ & SW & _).
  assert (HP : 0 <= PI / hr <= 20) by (pose proof PI_RGT_0; pose proof PI_4; unfold hr; split; [apply Rle_mult_inv_pos|apply Rmult_le_reg_r with 0.2618; [|unfold Rdiv; rewrite Rmult_assoc, Rinv_l]]; rlra).
  destruct (run_defined (with_lst i 0) m mass o oc tz) as (r & s1 & E); [cbn [glat with_lst]; rewrite GL; rlra|cbn [lst with_lst]; rlra|exact D|].
  destruct (run_defined (with_lst i (PI / hr)) m mass o oc tz) as (r' & s1' & E'); [cbn [glat with_lst]; rewrite GL; rlra|cbn [lst with_lst]; rlra|exact D|].
  exists r, s1, r', s1'. split; [exact E|]. split; [exact E'|].
  rewrite (gtd7_t0 _ (with_lst i 0) _ _ _ _ _ _ _ _ code_za A E), (gtd7_t0 _ (with_lst i (PI / hr)) _ _ _ _ _ _ _ _ code_za A E'). cbn [sw with_lst]. rewrite (SW 15%nat) by lia. cbn [Nat.eqb].
  pose proof (expansion_local i m QI AM) as X. pose proof code_local as C. destruct code_pt as (-> & -> & _).
  set (a := expansion _ _ _) in *. set (b := expansion _ _ _) in *. clearbody a b. rlra.
Qed.

(* ---- what the object does to the local time ---- *)
Inductive op := Update (j j2 : chars) (fr : flux) (mjd : Z) (q : Q) | Place (lfh : R * R * R) | Settings.
Definition step (ymd : Z -> Z -> Z -> Z) (doy_of : Z -> Z) (file : option chars) (a : air) (x : op) : option (outcome air) :=
  match x with
  | Update j j2 fr mjd q => match update_params ymd doy_of file j j2 fr a mjd q with Some (Ok (_, a')) => Some (Ok a') | Some UB => Some UB | None => None end
  | Place lfh => Some (Ok (set_spatial lfh a))
  | Settings => Some (pod_settings a)
  end.
Fixpoint steps (ymd : Z -> Z -> Z -> Z) (doy_of : Z -> Z) (file : option chars) (a : air) (l : list op) : option (outcome air) :=
  match l with
  | [] => Some (Ok a)
  | x :: l => match step ymd doy_of file a x with Some (Ok a') => steps ymd doy_of file a' l | r => r end
  end.
Lemma step_lst ymd doy_of file a x a' : step ymd doy_of file a x = Some (Ok a') -> lst (a_mem a') = lst (a_mem a).
Proof.
  destruct x as [j j2 fr mjd q|[[l f] h]|]; cbn [step].
  - destruct (update_params _ _ _ _ _ _ _ _ _) as [[[c b]|]|] eqn:E; intros H; try discriminate. injection H as <-. destruct (update_params_inv _ _ _ _ _ _ _ _ _ _ _ E) as (fd & p & _ & ->). reflexivity.
  - intros H. injection H as <-. reflexivity.
  - unfold pod_settings. intros H. injection H as <-. reflexivity.
Qed.
Lemma steps_lst ymd doy_of file l : forall a a', steps ymd doy_of file a l = Some (Ok a') -> lst (a_mem a') = lst (a_mem a).
Proof.
  induction l as [|x l IH]; intros a a' H; cbn [steps] in H; [injection H as <-; reflexivity|].
  destruct (step ymd doy_of file a x) as [[b|]|] eqn:E; try discriminate. rewrite (IH b a' H). exact (step_lst _ _ _ _ _ _ E).
Qed.
Lemma make_air_ok ymd doy_of file j j2 win mem mjd q : make_air ymd doy_of file j j2 win mem mjd q =
  match construct ymd file j j2 win (day_of mjd q) (sec_of q) with
  | Some (Ok (Some (fd, p))) => Some (Ok (Some (Air (with_date doy_of (Input (fill (fill (sw mem) 0) 1) (fill (fill (swc mem) 0) 1) (doy mem) (sec mem) (alt mem) (glat mem) (glon mem) (lst mem) (f107A mem) (f107 mem) (ap mem) (aparr mem) false) (day_of mjd q) (sec_of q)) fd p)))
  | Some (Ok None) => Some (Ok None) | Some UB => Some UB | None => None end.
Proof. unfold make_air. cbn [constructed set_switches_on switching switches_of set_on Z.ltb Z.compare obind with_switches s_sw s_swc]. destruct (construct _ _ _ _ _ _ _) as [[[[fd p]|]|]|]; reflexivity. Qed.
Lemma make_air_lst ymd doy_of file j j2 win mem mjd q a : make_air ymd doy_of file j j2 win mem mjd q = Some (Ok (Some a)) -> lst (a_mem a) = lst mem.
Proof. rewrite make_air_ok. destruct (construct _ _ _ _ _ _ _) as [[[[fd p]|]|]|]; intros E; try discriminate. injection E as <-. reflexivity. Qed.

(* a quiet week *)
Definition calm_row (date : string) : chars :=
  (text date ++ text ",2583,7,13,17,20,23,27,30,23,20,173,4,4,4,4,4,4,4,4,4,0.5,2,93,150.0,142.1,OBS,150.0,147.2,146.9,143.7")%list.
Definition calm_lines : list chars := [names_line; calm_row "2023-01-01"; calm_row "2023-01-02"; calm_row "2023-01-03"; calm_row "2023-01-04"; calm_row "2023-01-05"; calm_row "2023-01-06"; calm_row "2023-01-07"].
Definition calm_file : chars := file_text calm_lines [].
Definition calm (p : params) : Prop := (p_f107A p == 150)%Q /\ (p_f107 p == 150)%Q /\ length (p_arr p) = 7%nat /\ Forall (fun x => x == 4)%Q (p_arr p).
Lemma calm_run : exists fd p fd' p', construct calendar (Some calm_file) ex_junk ex_junk ex_win (day_of 59949 4000) (sec_of 4000) = Some (Ok (Some (fd, p))) /\
  update calendar (Some calm_file) ex_junk ex_junk blank (day_of 59950 40000) (sec_of 40000) fd p = Some (Ok (0%Z, fd', p')) /\ calm p'.
Proof.
  do 4 eexists. split; [vm_compute; reflexivity|]. split; [vm_compute; reflexivity|]. unfold calm. cbn [p_f107A p_f107 p_arr]. split; [reflexivity|]. split; [reflexivity|]. split; [reflexivity|]. repeat constructor.
Qed.
Lemma calm_quiet m fd p : calm p -> (forall k, (k < 25)%nat -> sw m k = if Nat.eqb k 8 then -1 else 1) -> (forall k, (k < 25)%nat -> swc m k = if Nat.eqb k 8 then 0 else 1) ->
  quiet (core (set_spatial (0, 0, 200000) (Air m fd p))).
Proof.
  intros (A & B & L & F) S SC. unfold quiet, core, set_spatial. cbn [a_mem a_feed a_par sw swc doy sec alt glat glon lst f107A f107 ap aparr meters].
  split; [rlra|]. split; [unfold Rdiv; ring|]. split; [rewrite (Qeq_eqR _ _ A); unfold Q2R; cbn [Qnum Qden]; rlra|]. split; [rewrite (Qeq_eqR _ _ B); unfold Q2R; cbn [Qnum Qden]; rlra|].
  split; [|split; [exact S|exact SC]]. intros k K. rewrite (nth_indep _ 0%R (Q2R 4)) by (rewrite map_length; lia). rewrite map_nth.
  rewrite Forall_forall in F. rewrite (Qeq_eqR _ 4); [unfold Q2R; cbn [Qnum Qden]; rlra|]. apply F, nth_In. lia.
Qed.
Lemma local_time_counts doy_of mem : doy_of 59950%Z <> (-1)%Z -> exists a b c a' b' c' r s r' s',
  make_air calendar doy_of (Some calm_file) ex_junk ex_junk ex_win (with_lst mem 0) 59949 4000 = Some (Ok (Some a)) /\
  make_air calendar doy_of (Some calm_file) ex_junk ex_junk ex_win (with_lst mem (PI / hr)) 59949 4000 = Some (Ok (Some a')) /\
  pod_settings a = Ok b /\ pod_settings a' = Ok b' /\
  update_params calendar doy_of (Some calm_file) ex_junk ex_junk blank b 59950 40000 = Some (Ok (0%Z, c)) /\
  update_params calendar doy_of (Some calm_file) ex_junk ex_junk blank b' 59950 40000 = Some (Ok (0%Z, c')) /\
  air_density code_tables (set_spatial (0, 0, 200000) c) zero_out zero_out 0 (statics0, zero_inst) = Ok (r, s) /\
  air_density code_tables (set_spatial (0, 0, 200000) c') zero_out zero_out 0 (statics0, zero_inst) = Ok (r', s') /\ t0 r < t0 r'.
Proof.
  intros D. destruct calm_run as (fd & p & fd' & p' & E1 & E2 & C).
  set (M x := Input (set1 (fill (fill (fill (sw mem) 0) 1) 1) 8 (-1)) (set1 (fill (fill (fill (swc mem) 0) 1) 1) 8 0) (doy_of 59950%Z) (Q2R (sec_of 40000)) (alt mem) (glat mem) (glon mem) x (f107A mem) (f107 mem) (ap mem) (aparr mem) true).
  assert (Q : quiet (core (set_spatial (0, 0, 200000) (Air (M 0) fd' p')))).
  { apply calm_quiet; [exact C| |]; intros k K; cbn [M sw swc]; unfold set1, fill; do 25 (destruct k as [|k]; [cbn; reflexivity|]); lia. }
  destruct (local_time_matters (core (set_spatial (0, 0, 200000) (Air (M 0) fd' p'))) 48 zero_out zero_out 0 zero_inst Q eq_refl D) as (r & s & r' & s' & ER & ER' & LT).
  do 6 eexists. exists (set_d5 r ((if Z.eqb 48 48 then 1.66 / 10 ^ 24 * (4 * d0 r + 16 * d1 r + 28 * d2 r + 32 * d3 r + 40 * d4 r + d6 r + 14 * d7 r + 16 * d8 r) else d5 r) / 1000)), s.
  exists (set_d5 r' ((if Z.eqb 48 48 then 1.66 / 10 ^ 24 * (4 * d0 r' + 16 * d1 r' + 28 * d2 r' + 32 * d3 r' + 40 * d4 r' + d6 r' + 14 * d7 r' + 16 * d8 r') else d5 r') / 1000)), s'.
  split; [rewrite make_air_ok, E1; reflexivity|]. split; [rewrite make_air_ok, E1; reflexivity|]. split; [reflexivity|]. split; [reflexivity|].
  split; [unfold update_params; cbn [a_feed a_par]; rewrite E2; reflexivity|]. split; [unfold update_params; cbn [a_feed a_par]; rewrite E2; reflexivity|].
  split; [|split; [|exact LT]].
  - unfold air_density, gtd7d. refine (bind_ok _ _ _ _ _ _ ). exact ER.
  - unfold air_density, gtd7d. refine (bind_ok _ _ _ _ _ _ ). exact ER'.
Qed.
