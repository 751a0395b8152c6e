(* Specification and lemmas behind DopFile_props.v. *)
From Coq Require Import List ZArith QArith Ascii Bool Lia.
From Verif Require Import Base CLib_model CLib_proofs Stream_model Lines_proofs SysInfo_model SysInfo_proofs Rinex_model Rinex_proofs
  RnxHead_model RnxHead_proofs RnxFile_model RnxFile_proofs RnxFileText_proofs RnxWhole_model RnxWhole_proofs Doppler_model Doppler_proofs BlockRead_model DopFile_model.
Import ListNotations.
Local Open Scope nat_scope.

Lemma Forall2_imp {A B} (P Q : A -> B -> Prop) : (forall a b, P a b -> Q a b) -> forall l m, Forall2 P l m -> Forall2 Q l m.
Proof. induction 2; constructor; auto. Qed.

(* ---- every file ---- *)
Section Every.
Variable strptime : chars -> option Z.
Lemma fetch_budget x : s_ok (r_st (rd_state (fetch x))) = true -> budget (r_st (rd_state (fetch x))) < budget (r_st (rd_state x)).
Proof.
  unfold fetch. destruct (getline MAX_RECORD_CHARS (r_st (rd_state x))) as [t s] eqn:G. cbn [rd_state r_st]. intros O.
  destruct (getline_consumes _ _ _ _ G) as (E1 & _ & L); [unfold MAX_RECORD_CHARS; lia|exact O|]. unfold budget. rewrite E1. lia.
Qed.
Lemma read_block_budget nobs scales x g y : read_block strptime nobs scales x = Ok (g, y) -> budget (r_st (rd_state y)) <= budget (r_st (rd_state x)).
Proof.
  unfold read_block. destruct (resolve_data_epoch _ _ _) as [[e hdr]|]; cbn [obind]; [|discriminate].
  destruct (negb (Z.eqb e 0)); [intros E; injection E as _ <-; cbn [rd_state]; lia|].
  destruct (read_data_block _ _ _ _) as [[[k b] r]|] eqn:B; cbn [obind]; [|discriminate].
  intros E. injection E as _ <-. cbn [rd_state]. unfold read_data_block in B. exact (read_beacons_budget _ _ _ _ _ _ _ _ B).
Qed.
Lemma next_attempt_budget nobs scales x t obs y : next_attempt strptime nobs scales x = Ok (GotBlock t obs, y) ->
  budget (r_st (rd_state y)) < budget (r_st (rd_state x)).
Proof.
  unfold next_attempt. destruct (s_ok (r_st (rd_state (fetch x)))) eqn:O; cbn [negb]; [|discriminate].
  intros E. apply read_block_budget in E. apply fetch_budget in O. lia.
Qed.
Lemma attempt_shape nobs scales x t obs y : length (r_line (rd_state x)) = 124 -> next_attempt strptime nobs scales x = Ok (GotBlock t obs, y) ->
  Forall (shaped nobs) obs /\ Z.of_nat (length obs) = Z.max 0 (h_num (rd_hdr y)) /\ t = h_epoch (rd_hdr y) /\ length (r_line (rd_state y)) = 124.
Proof.
  unfold next_attempt. intros L. destruct (negb _); [discriminate|]. unfold read_block.
  assert (LF : length (r_line (rd_state (fetch x))) = 124) by (unfold fetch; destruct (getline _ _); exact L).
  destruct (resolve_data_epoch _ _ _) as [[e hdr]|]; cbn [obind]; [|discriminate]. destruct (negb (Z.eqb e 0)); [discriminate|].
  destruct (read_data_block _ _ _ _) as [[[k b] r]|] eqn:B; cbn [obind]; [|discriminate]. intros E.
  destruct (Z.eqb_spec k 0) as [->|]; [|discriminate]. injection E as <- <- <-. cbn [rd_hdr rd_state].
  unfold read_data_block in B. apply (read_beacons_shape strptime) in B; [|exact LF|constructor]. destruct B as (B1 & B2 & B3).
  refine (conj B1 (conj _ (conj eq_refl B3))). rewrite B2. cbn [length]. lia.
Qed.
(* the flags of a stream say whether bytes are left *)
Definition sound (s : stream) : Prop := (s_eof s = true -> s_rest s = []) /\ (s_fail s = true -> s_eof s = false -> s_rest s <> []).
Lemma take_line_end : forall room l a b e, take_line room l = (a, b, e) -> (e = AtEof -> b = []) /\ (e = Full -> b <> []).
Proof.
  induction room as [|room IH]; intros [|c l] a b e; cbn [take_line]; try (intros E; injection E as _ <- <-; split; congruence).
  - destruct (Ascii.eqb c nl); intros E; injection E as _ <- <-; split; discriminate.
  - destruct (Ascii.eqb c nl); [intros E; injection E as _ <- <-; split; discriminate|].
    destruct (take_line room l) as [[u v] z] eqn:T. intros E. injection E as _ <- <-. exact (IH _ _ _ _ T).
Qed.
Lemma getline_sound n s t s' : sound s -> getline n s = (t, s') -> sound s'.
Proof.
  intros [S1 S2]. unfold getline. destruct (s_good s) eqn:G.
  - destruct (take_line _ _) as [[a b] e] eqn:T. destruct (take_line_end _ _ _ _ _ T) as [T1 T2]. intros E. injection E as _ <-. unfold sound.
    destruct e; cbn [s_eof s_fail s_rest]; split; try discriminate; auto.
  - intros E. injection E as _ <-. unfold sound. cbn [s_eof s_fail s_rest]. split; [exact S1|]. intros _ Z. apply S2; [|exact Z].
    unfold s_good in G. rewrite Z in G. cbn [negb andb] in G. now destruct (s_fail s).
Qed.
Lemma next_line_sound r : sound (r_st r) -> sound (r_st (next_line r)).
Proof. intros S. unfold next_line. destruct (getline _ (r_st r)) as [t s] eqn:G. exact (getline_sound _ _ _ _ S G). Qed.
Lemma read_obs_sound scales : forall todo curobs id vals r c o r',
  read_obs scales todo curobs id vals r = Ok (c, o, r') -> sound (r_st r) -> sound (r_st r').
Proof.
  induction todo as [|todo IH]; intros curobs id vals r c o r' E S; cbn [read_obs] in E; [injection E as _ _ <-; exact S|].
  set (r1 := if Nat.eqb (curobs mod 5) 0 then next_line r else r) in *.
  assert (B : sound (r_st r1)) by (unfold r1; destruct (Nat.eqb _ _); [now apply next_line_sound|exact S]).
  destruct (load (r_line r1) 0) as [c0|]; [|discriminate]. cbn [obind] in E.
  destruct (_ && _); [injection E as _ _ <-; exact B|].
  destruct (load scales curobs) as [sc|]; [|discriminate]. cbn [obind] in E.
  destruct (read_field _ _ sc) as [[v|]|]; [| |discriminate]; cbn [obind] in E; [exact (IH _ _ _ _ _ _ _ E B)|injection E as _ _ <-; exact B].
Qed.
Lemma read_beacons_sound nobs scales : forall n acc r c l r',
  read_beacons nobs scales n acc r = Ok (c, l, r') -> sound (r_st r) -> sound (r_st r').
Proof.
  induction n as [|n IH]; intros acc r c l r' E S; cbn [read_beacons] in E; [injection E as _ _ <-; exact S|].
  destruct (read_obs scales nobs 0 None [] r) as [[[k o] r1]|] eqn:R; [|discriminate]. cbn [obind] in E.
  pose proof (read_obs_sound _ _ _ _ _ _ _ _ _ R S). destruct (Z.eqb k 0); [exact (IH _ _ _ _ _ E H)|injection E as _ _ <-; exact H].
Qed.
Lemma attempt_sound nobs scales x g y : sound (r_st (rd_state x)) -> next_attempt strptime nobs scales x = Ok (g, y) ->
  sound (r_st (rd_state y)) /\ forall eof, g = Ended eof -> (eof = true <-> s_rest (r_st (rd_state y)) = []).
Proof.
  intros S. assert (SF : sound (r_st (rd_state (fetch x)))).
  { unfold fetch. destruct (getline _ _) as [t s] eqn:G. exact (getline_sound _ _ _ _ S G). }
  unfold next_attempt. destruct (negb (s_ok _)) eqn:O.
  - intros E. injection E as <- <-. split; [exact SF|]. intros eof Z. injection Z as <-. destruct SF as [S1 S2].
    unfold s_ok in O. rewrite negb_involutive in O. split; [exact S1|]. intros R. destruct (s_eof _) eqn:EE; [reflexivity|]. now destruct (S2 O eq_refl).
  - unfold read_block. destruct (resolve_data_epoch _ _ _) as [[e hdr]|]; cbn [obind]; [|discriminate].
    destruct (negb (Z.eqb e 0)); [intros E; injection E as <- <-; split; [exact SF|discriminate]|].
    destruct (read_data_block _ _ _ _) as [[[k b] r]|] eqn:B; cbn [obind]; [|discriminate]. intros E.
    pose proof (read_beacons_sound _ _ _ _ _ _ _ _ B SF). destruct (Z.eqb k 0); injection E as <- <-; (split; [exact H|discriminate]).
Qed.
Lemma all_reads_end nobs scales : forall fuel x, budget (r_st (rd_state x)) <= fuel -> exists r, all_reads strptime fuel nobs scales x = Some r.
Proof.
  induction fuel as [|fuel IH]; intros x F; [unfold budget in F; destruct (s_eof _); lia|].
  cbn [all_reads]. destruct (next_attempt strptime nobs scales x) as [[[eof| | |t obs] y]|] eqn:N; eauto.
  apply next_attempt_budget in N. destruct (all_bobs obs); eauto. destruct (IH y) as (r & ->); [lia|]. destruct r as [[l e]|]; eauto.
Qed.
Lemma file_ends pad junk errno line0 hdr0 file : exists r, doppler_file strptime pad junk errno line0 hdr0 file = Some r.
Proof.
  unfold doppler_file. destruct (header_ends Z strptime junk errno file) as (r & ->). destruct r as [[c|[[h lpb] s]]|]; eauto.
  edestruct (all_reads_end (length (h_codes _ h)) (h_factors _ h) (S (S (length (s_rest s)))) (Reader [] hdr0 (RState s line0))) as (r & ->).
  { unfold budget. cbn [rd_state r_st]. destruct (s_eof s); lia. }
  destruct r as [[l e]|]; eauto.
Qed.
(* a code of 0 is given only when all lines up to the end of the file were blocks *)
Lemma reads_shape nobs scales : forall fuel x l eof, all_reads strptime fuel nobs scales x = Some (Ok (l, eof)) ->
  (exists bs, l = blocks bs) \/ (exists bs, l = blocks bs ++ [RdHdrErr] /\ eof = false) \/ (exists bs, l = blocks bs ++ [RdDataErr] /\ eof = false).
Proof.
  induction fuel as [|fuel IH]; intros x l eof; cbn [all_reads]; [discriminate|].
  destruct (next_attempt strptime nobs scales x) as [[[e| | |t obs] y]|]; try discriminate.
  - intros E. injection E as <- <-. left. now exists [].
  - intros E. injection E as <- <-. right. left. now exists [].
  - intros E. injection E as <- <-. right. right. now exists [].
  - destruct (all_bobs obs) as [bs|]; [|discriminate].
    destruct (all_reads strptime fuel nobs scales y) as [[[l2 e2]|]|] eqn:A; try discriminate. intros E. injection E as <- <-.
    destruct (IH _ _ _ A) as [(b & ->)|[(b & -> & ->)|(b & -> & ->)]]; [left|right; left|right; right]; exists ((t, bs) :: b); auto.
Qed.
Lemma loop_code pad : forall rs eof data out c o d, count_loop pad rs eof data out = Ok (c, o, d) ->
  (c = 0%Z -> eof = true /\ ~ In RdHdrErr rs /\ ~ In RdDataErr rs) /\ (0 <= c <= 3)%Z.
Proof.
  induction rs as [|[t obs| |] rs IH]; intros eof data out c o d; cbn [count_loop].
  - intros E. injection E as <- _ _. destruct eof; (split; [intros H; try discriminate; cbn; tauto|lia]).
  - destruct (compute_ndop pad obs t data) as [p|]; cbn [obind]; [|discriminate].
    destruct (update pad obs t data) as [d1|]; cbn [obind]; [|discriminate]. intros E. apply IH in E. destruct E as [A B]. split; [|exact B].
    intros Z. destruct (A Z) as (A1 & A2 & A3). split; [exact A1|]. split; intros [K|K]; try discriminate; contradiction.
  - intros E. injection E as <- _ _. split; lia.
  - intros E. injection E as <- _ _. split; lia.
Qed.
Lemma counts_code pad rs eof c o d : get_doppler_counts pad rs eof = Ok (c, o, d) ->
  (c = 0%Z -> eof = true /\ rs <> [] /\ ~ In RdHdrErr rs /\ ~ In RdDataErr rs) /\ (0 <= c <= 3)%Z.
Proof.
  unfold get_doppler_counts. destruct rs as [|[t obs| |] rs]; try (intros E; injection E as <- _ _; split; lia).
  destruct (update pad obs t []) as [d1|]; cbn [obind]; [|discriminate]. intros E. apply loop_code in E. destruct E as [A B]. split; [|exact B].
  intros Z. destruct (A Z) as (A1 & A2 & A3). split; [exact A1|]. split; [discriminate|]. split; intros [K|K]; try discriminate; contradiction.
Qed.
End Every.

(* ---- files as the format says ---- *)
(* bytes behind the terminator make no difference to a line that is long enough *)
Lemma cstr_tail : forall t a b, cstr (t ++ nul :: a) = cstr (t ++ nul :: b).
Proof. induction t as [|c t IH]; intros a b; cbn [app cstr]; [reflexivity|]. destruct (Ascii.eqb c nul); [reflexivity|]. now rewrite (IH a b). Qed.
Lemma string_at_tail t a k : k <= length t -> string_at (t ++ nul :: a) k = string_at (t ++ [nul]) k.
Proof.
  intros L. unfold string_at. rewrite !skipn_app. replace (k - length t) with 0 by lia. cbn [skipn].
  rewrite !existsb_app. cbn [existsb]. rewrite Ascii.eqb_refl. cbn [orb]. rewrite !orb_true_r. now rewrite (cstr_tail _ a []).
Qed.
Lemma range_tail t a k n : k + n <= length t -> range (t ++ nul :: a) k n = range (t ++ [nul]) k n.
Proof.
  intros L. unfold range. rewrite !app_length. cbn [length].
  destruct (Nat.leb_spec (k + n) (length t + S (length a))); [|lia]. destruct (Nat.leb_spec (k + n) (length t + 1)); [|lia].
  unfold columns. rewrite !skipn_app. replace (k - length t) with 0 by lia. cbn [skipn]. rewrite !firstn_app.
  rewrite skipn_length. replace (n - (length t - k)) with 0 by lia. reflexivity.
Qed.
Lemma resolve_tail strptime t a h : 56 <= length t -> resolve_data_epoch strptime (t ++ nul :: a) h = resolve_data_epoch strptime (t ++ [nul]) h.
Proof.
  intros L. unfold resolve_data_epoch. rewrite !(string_at_tail t a) by lia. rewrite !(range_tail t a) by lia.
  destruct t as [|c t]; [cbn in L; lia|]. reflexivity.
Qed.
Lemma epoch_long e : epoch_ok e -> 56 <= length (epoch_text e).
Proof.
  intros (Ld & _ & _ & Hn & Ln & Hc & _). unfold epoch_text, after_date. cbn [length]. repeat rewrite app_length.
  rewrite Ld, !repeat_length, (clock_length _ Hc), rjust_length by (unfold dstr; rewrite map_length; exact Ln). cbn [length]. lia.
Qed.

(* the number of a field of the file: what is printed over the factor of its observable *)
Definition stands (m : mfield) (f : Z) (q : Q) : Prop := (q == content (mf_v m) / inject_Z f)%Q.
(* a block of the file and its epoch and observations as the counting sees them *)
Definition taken (strptime : chars -> option Z) (ms : list mrec) (b : mblock) (x : block) : Prop :=
  date_of strptime b (fst x) /\
  Forall2 (fun y o => bo_id o = mb_id y /\ forall k c m, nth_error (codes_given ms) k = Some c -> nth_error (mb_fields y) k = Some m ->
     exists f q, factor_of ms c f /\ nth_error (bo_vals o) k = Some q /\ stands m f q) (bl_beacons b) (snd x).

Section Printed.
Variable strptime : chars -> option Z.
Definition seen_as (scales : list Z) (b : mblock) (x : block) : Prop :=
  date_of strptime b (fst x) /\ exists obs, Forall2 (reported scales) (bl_beacons b) obs /\ all_bobs obs = Ok (snd x).
Lemma all_bobs_ok scales : forall ys obs, Forall2 (reported scales) ys obs -> exists bs, all_bobs obs = Ok bs /\
  Forall2 (fun y o => bo_id o = mb_id y /\ exists vs, bo_vals o = map rv vs /\ expects scales 0 (mb_fields y) vs) ys bs.
Proof.
  induction 1 as [|y o ys obs [R1 R2] F IH]; [exists []; split; [reflexivity|constructor]|].
  destruct IH as (bs & E & G). cbn [all_bobs]. unfold to_bobs. rewrite R1. cbn [of_option obind]. rewrite E. cbn [obind].
  eexists. split; [reflexivity|]. constructor; [|exact G]. cbn [bo_id bo_vals]. split; [reflexivity|]. exists (b_vals o). auto.
Qed.
Lemma attempt_ok nobs scales b rest x t : 1 <= nobs -> scales_ok nobs scales -> mblock_ok nobs b -> date_of strptime b t ->
  r_st (rd_state x) = s_open (mblock_text b ++ rest) ->
  exists obs y, next_attempt strptime nobs scales x = Ok (GotBlock t obs, y) /\ Forall2 (reported scales) (bl_beacons b) obs /\ r_st (rd_state y) = s_open rest.
Proof.
  intros Hn Hsc (HE & NE & LE & DN & HB) HT ES. unfold next_attempt, fetch. rewrite ES. unfold mblock_text. rewrite <- app_assoc. cbn [app].
  rewrite getline_nl by assumption. cbn [rd_state r_st s_open s_ok s_fail negb]. unfold read_block. cbn [rd_line rd_hdr rd_state].
  unfold into_buffer. rewrite resolve_tail by (apply epoch_long; exact HE).
  destruct (epoch_roundtrip strptime (bl_epoch b) t (rd_hdr x) HE HT) as (h & EH & HH). rewrite EH. cbn [obind].
  change (negb (0 =? 0)%Z) with false. cbv iota. destruct HH as (H1 & H2 & H3 & H4 & H5). rewrite H3, DN.
  destruct (block_roundtrip nobs scales (bl_beacons b) rest (r_line (rd_state x)) Hn Hsc HB) as (obs & r' & ER & RP & RS).
  change (Stream (block_text (bl_beacons b) ++ rest) false false) with (s_open (block_text (bl_beacons b) ++ rest)).
  rewrite ER. cbn [obind]. change (0 =? 0)%Z with true. cbv iota. rewrite H1. eexists _, _. split; [reflexivity|]. split; [exact RP|exact RS].
Qed.
Lemma all_reads_ok nobs scales : 1 <= nobs -> scales_ok nobs scales -> forall bls x fuel, Forall (mblock_ok nobs) bls ->
  Forall (fun b => exists t, date_of strptime b t) bls -> r_st (rd_state x) = s_open (flat_map mblock_text bls) -> length bls < fuel ->
  exists bs, all_reads strptime fuel nobs scales x = Some (Ok (blocks bs, true)) /\ Forall2 (seen_as scales) bls bs.
Proof.
  intros Hn Hsc. induction bls as [|b bls IH]; intros x fuel FB FD ES F; (destruct fuel as [|fuel]; [cbn in F; lia|]); cbn [all_reads].
  - unfold next_attempt, fetch. rewrite ES. cbn. exists []. split; [reflexivity|constructor].
  - inversion FB as [|? ? HB FB']; subst. inversion FD as [|? ? (t & HT) FD']; subst.
    destruct (attempt_ok nobs scales b (flat_map mblock_text bls) x t Hn Hsc HB HT ES) as (obs & y & -> & RP & RS).
    destruct (all_bobs_ok _ _ _ RP) as (os & EO & _). rewrite EO.
    destruct (IH y fuel FB' FD' RS) as (bs & -> & G); [cbn in F; lia|]. exists ((t, os) :: bs). split; [reflexivity|].
    constructor; [|exact G]. split; [exact HT|]. exists obs. auto.
Qed.
End Printed.

(* the factors of the header, as in RnxWhole_proofs.v *)
Lemma header_scales strptime v ms p h : header_ok Z strptime v p ms -> codes_given ms <> [] -> reflects Z strptime v ms h ->
  h_codes _ h = codes_given ms /\ scales_ok (length (codes_given ms)) (h_factors _ h) /\
  forall i c, nth_error (codes_given ms) i = Some c -> exists f, nth_error (h_factors _ h) i = Some f /\ factor_of ms c f.
Proof.
  intros HO NE R. pose proof R as (_ & _ & _ & RC & RF & RS & _ & _). fold (codes_given ms) in RC.
  destruct HO as (_ & _ & (OK & _) & _ & _ & SC).
  assert (FAC : length (h_factors _ h) = length (codes_given ms) /\
     forall i c, nth_error (codes_given ms) i = Some c -> exists f, nth_error (h_factors _ h) i = Some f /\ factor_of ms c f /\ f <> 0%Z).
  { unfold factor_of. destruct (last_given gives_scale ms) as [[cs g]|] eqn:LS.
    - rewrite RC in RF. destruct RF as [LF NF]. split; [exact LF|]. intros i c N. destruct (NF i c N) as [A B].
      assert (GN : g <> 0%Z).
      { apply last_given_in in LS as (m & I & X). destruct m as [ | | | | | | | | | |neg f u c1| | | | | | | | ]; try discriminate. injection X as <- <-.
        rewrite Forall_forall in OK. specialize (OK _ I). cbn [rec_ok] in OK. tauto. }
      destruct (in_dec (fun a b : obs_code => match bool_dec (code_eqb a b) true with
         | left e => left (proj1 (code_eqb_iff a b) e) | right n => right (fun x => n (proj2 (code_eqb_iff a b) x)) end) c cs) as [I|I].
      + exists g. split; [exact (A I)|]. split; [split; [auto|intros; contradiction]|exact GN].
      + exists 1%Z. split; [exact (B I)|]. split; [split; [intros; contradiction|auto]|lia].
    - exfalso. apply SC; [|reflexivity]. intros L. apply NE. unfold codes_given. now rewrite L. }
  destruct FAC as [FL FN]. split; [exact RC|]. split.
  - split; [exact FL|]. apply Forall_forall. intros f I. apply In_nth_error in I as (i & Ni).
    destruct (nth_error (codes_given ms) i) as [c|] eqn:Nc.
    + destruct (FN i c Nc) as (f' & A & _ & B). rewrite A in Ni. now injection Ni as <-.
    + exfalso. apply nth_error_None in Nc. assert (i < length (h_factors _ h)) by (apply nth_error_Some; congruence). lia.
  - intros i c N. destruct (FN i c N) as (f & A & B & _). eauto.
Qed.
Lemma seen_taken strptime ms scales b x : (forall i c, nth_error (codes_given ms) i = Some c -> exists f, nth_error scales i = Some f /\ factor_of ms c f) ->
  seen_as strptime scales b x -> taken strptime ms b x.
Proof.
  intros FN (D & obs & F & A). split; [exact D|]. destruct (all_bobs_ok _ _ _ F) as (bs & E & G). rewrite E in A. injection A as <-.
  eapply Forall2_imp; [|exact G]. intros y o (I & vs & V & X). split; [exact I|]. intros k c m Nc Nm.
  destruct (expects_nth _ _ _ _ _ _ X Nm) as (w & sc & W1 & W2 & W3). cbn [Nat.add] in W2. destruct (FN k c Nc) as (f & A1 & A2).
  rewrite A1 in W2. injection W2 as <-. exists f, (rv w). split; [exact A2|]. rewrite V, nth_error_map, W1. split; [reflexivity|exact (proj1 W3)].
Qed.
Lemma seen_good strptime scales nobs b x : 2 <= nobs -> mblock_ok nobs b -> (forall y, In y (bl_beacons b) -> ~ In nul (mb_id y)) ->
  seen_as strptime scales b x -> good_block x.
Proof.
  intros N2 (_ & _ & _ & _ & HB) NN (_ & obs & F & A). destruct (all_bobs_ok _ _ _ F) as (bs & E & G). rewrite E in A. injection A as A.
  intros o I. rewrite <- A in I. clear - N2 HB NN G I. revert I. induction G as [|y o' ys os (J & vs & V & X) G IH]; intros I; [contradiction|].
  inversion HB as [|? ? ((L3 & _) & LF & _) HB']; subst. destruct I as [<-|I].
  - split; [split; [rewrite J; exact L3|rewrite J; apply NN; now left]|]. rewrite V, map_length.
    assert (LL : forall ms' i vs', expects scales i ms' vs' -> length vs' = length ms').
    { induction ms' as [|m ms' IHm]; intros i [|w vs'] H; cbn in *; try contradiction; [reflexivity|]. f_equal. exact (IHm _ _ (proj2 H)). }
    rewrite (LL _ _ _ X). lia.
  - apply IH; [exact HB'|intros z Iz; apply NN; now right|exact I].
Qed.
Lemma file_counts strptime v p ms bls junk line0 hdr0 rest : header_ok Z strptime v p ms -> 2 <= length (codes_given ms) -> bls <> [] ->
  Forall (mblock_ok (length (codes_given ms))) bls -> Forall (fun b => exists t, date_of strptime b t) bls ->
  Forall (fun b => forall y, In y (bl_beacons b) -> ~ In nul (mb_id y)) bls ->
  exists out data bs, doppler_file strptime (nul :: rest) junk false line0 hdr0 (Some (header_file v p ms (flat_map mblock_text bls))) = Some (Ok (inr (0%Z, out, data))) /\
    Forall2 (taken strptime ms) bls bs /\ table_of (history bs) data /\ output_of bs out.
Proof.
  intros HO N2 NB FB FD FN. assert (NE : codes_given ms <> []) by (destruct (codes_given ms); [cbn in N2; lia|discriminate]).
  destruct (header_round_trip Z strptime v p ms (flat_map mblock_text bls) junk HO) as (h & E & R).
  destruct (header_scales strptime v ms p h HO NE R) as (RC & SO & FA).
  destruct (all_reads_ok strptime (length (codes_given ms)) (h_factors _ h) ltac:(lia) SO bls (Reader [] hdr0 (RState (s_open (flat_map mblock_text bls)) line0))
    (S (S (length (flat_map mblock_text bls)))) FB FD eq_refl) as (bs & EA & F2); [pose proof (blocks_length bls); lia|].
  assert (GB : forall x, In x bs -> good_block x).
  { clear - F2 FB FN N2. intros x I. induction F2 as [|b y bls bs S F2 IH]; [contradiction|]. inversion FB; subst. inversion FN; subst.
    destruct I as [<-|I]; [|apply IH; assumption]. eapply seen_good; eassumption. }
  destruct bs as [|b0 bs]; [inversion F2; subst; contradiction|].
  destruct (doppler_ok rest b0 bs true GB) as (out & data & EC & T & O). exists out, data, (b0 :: bs).
  split; [|split; [|split; [exact T|exact O]]].
  - unfold doppler_file. rewrite E. cbn [s_open s_rest]. rewrite RC. rewrite EA. rewrite EC. reflexivity.
  - eapply Forall2_imp; [|exact F2]. intros b x. apply seen_taken. exact FA.
Qed.
