(* Specification and lemmas behind RfoFile_props.v. *)
From Coq Require Import List Reals ZArith QArith Qreals Ascii Bool Lia.
From Verif Require Import Base CLib_model CLib_proofs Stream_model Lines_proofs SysInfo_model SysInfo_proofs Rinex_model Rinex_proofs
  RnxHead_model RnxHead_proofs RnxFile_model RnxFile_proofs RnxFileText_proofs RnxWhole_model RnxWhole_proofs
  Kalman2_model Kalman2_proofs RfoKalman_model RfoKalman_proofs BlockRead_model DopFile_proofs RfoFile_model.
Import ListNotations.
Local Open Scope nat_scope.

(* ---- specification ---- *)
(* the blocks that follow one another from here to the end of the file *)
Inductive to_the_end (strptime : chars -> option Z) (nobs : nat) (scales : list Z) : reader -> list (Z * list beacon_obs) -> Prop :=
| at_end x y : next_attempt strptime nobs scales x = Ok (Ended true, y) -> to_the_end strptime nobs scales x []
| a_block x y t obs l : next_attempt strptime nobs scales x = Ok (GotBlock t obs, y) -> to_the_end strptime nobs scales y l ->
    to_the_end strptime nobs scales x ((t, obs) :: l).
(* all beacons of a block, at least one, have the value z in place i; t is the epoch *)
Definition one_value (i : nat) (b : Z * list beacon_obs) (o : R * Z) : Prop :=
  snd o = fst b /\ snd b <> [] /\ Forall (fun y => exists w, nth_error (b_vals y) i = Some w /\ Q2R (rv w) = fst o) (snd b).
(* the place of F: the first of its type *)
Definition place_of_f (codes : list obs_code) (i : nat) : Prop :=
  (exists c, nth_error codes i = Some c /\ oc_type c = frequency_offset) /\
  forall j c, (j < i) -> nth_error codes j = Some c -> oc_type c <> frequency_offset.
(* a file gives these values of F and epochs, with [line] in the static array at first *)
Definition file_gives (strptime : chars -> option Z) (junk : chars) (errno : bool) (hdr0 : rhdr) (line : chars) (file : option chars) (obs : list (R * Z)) : Prop :=
  exists h lpb s i l, open_rinex Z strptime junk errno file = Some (Ok (inr (h, lpb, s))) /\ place_of_f (h_codes _ h) i /\
    to_the_end strptime (length (h_codes _ h)) (h_factors _ h) (Reader [] hdr0 (RState s line)) l /\ Forall2 (one_value i) l obs.

(* ---- every file ---- *)
Lemma find_f_place : forall codes i, find_f codes = Some i <-> place_of_f codes i.
Proof.
  induction codes as [|c codes IH]; intros i; cbn [find_f].
  - split; [discriminate|]. intros [(c & N & _) _]. destruct i; discriminate.
  - destruct (type_eqb (oc_type c) frequency_offset) eqn:T.
    + assert (TC : oc_type c = frequency_offset) by (destruct (oc_type c); (discriminate || reflexivity)).
      split; [intros E; injection E as <-; split; [exists c; auto|intros; lia]|].
      intros [_ F]. destruct i as [|i]; [reflexivity|]. exfalso. exact (F 0 c ltac:(lia) eq_refl TC).
    + assert (TC : oc_type c <> frequency_offset) by (intros E; rewrite E in T; discriminate).
      destruct (find_f codes) as [j|] eqn:F; cbn [option_map].
      * destruct (proj1 (IH j) eq_refl) as [(d & N & D) FF]. split.
        -- intros E. injection E as <-. split; [exists d; auto|]. intros [|k] e L Ne; [injection Ne as <-; exact TC|apply (FF k e); [lia|exact Ne]].
        -- intros [(e & Ne & De) G]. destruct i as [|i]; [injection Ne as <-; contradiction|]. f_equal. f_equal.
           assert (P : place_of_f codes i). { split; [exists e; auto|]. intros k g L Ng. apply (G (S k) g); [lia|exact Ng]. }
           apply IH in P. congruence.
      * split; [discriminate|]. intros [(e & Ne & De) G]. destruct i as [|i]; [injection Ne as <-; contradiction|]. exfalso.
        assert (P : place_of_f codes i). { split; [exists e; auto|]. intros k g L Ng. apply (G (S k) g); [lia|exact Ng]. }
        apply IH in P. discriminate.
Qed.
Lemma block_value i obs t v : first_value (numbers obs) i = Ok v -> all_equal i v (numbers obs) = Ok true -> one_value i (t, obs) (Q2R v, t).
Proof.
  intros F A. split; [reflexivity|]. cbn [fst snd]. split; [intros ->; discriminate|]. clear F t. induction obs as [|o obs IH]; [constructor|].
  cbn [numbers map all_equal] in A. unfold load in A. rewrite nth_error_map in A. destruct (nth_error (b_vals o) i) as [w|] eqn:N; cbn [option_map of_option obind] in A; [|discriminate].
  destruct (Qeq_bool (rv w) v) eqn:Q; [|discriminate A]. constructor; [|exact (IH A)]. exists w. split; [exact N|]. apply Qeq_eqR. now apply Qeq_bool_iff.
Qed.
Lemma value_block i obs t o : one_value i (t, obs) o -> exists v, first_value (numbers obs) i = Ok v /\ all_equal i v (numbers obs) = Ok true /\ o = (Q2R v, t).
Proof.
  destruct o as [z t0]. intros (E & N & F). cbn [fst snd] in *. subst t0. destruct obs as [|b obs]; [contradiction|].
  inversion F as [|? ? (w & W & Z) F']; subst. exists (rv w). cbn [numbers map first_value all_equal]. unfold load. rewrite nth_error_map, W. cbn [option_map of_option obind].
  split; [reflexivity|]. split; [|first [reflexivity|now rewrite Z]]. rewrite (proj2 (Qeq_bool_iff _ _) (Qeq_refl _)).
  assert (R : forall q, Q2R q = Q2R (rv w) -> Qeq_bool q (rv w) = true) by (intros q H; apply Qeq_bool_iff; now apply eqR_Qeq).
  clear - F' R. induction F' as [|c obs (u & U & Z) F IH]; [reflexivity|]. cbn [map all_equal]. unfold load. rewrite nth_error_map, U. cbn [option_map of_option obind].
  rewrite (R _ Z). exact IH.
Qed.

Section Every.
Variable strptime : chars -> option Z.
Variables (junk : chars) (errno : bool) (hdr0 : rhdr).
Lemma loop_end nobs scales i : forall fuel k x, budget (r_st (rd_state x)) <= fuel -> exists r, rfo_loop strptime fuel nobs scales i k x = Some r.
Proof.
  induction fuel as [|fuel IH]; intros k x F; [unfold budget in F; destruct (s_eof _); lia|].
  cbn [rfo_loop]. destruct (next_attempt strptime nobs scales x) as [[[eof| | |t obs] y]|] eqn:N; eauto.
  apply next_attempt_budget in N. destruct (obind _ _) as [[v [|]]|]; eauto. apply IH. lia.
Qed.
Lemma rinex_end line0 k file : exists r, rinex_rfo strptime junk errno hdr0 line0 k file = Some r.
Proof.
  unfold rinex_rfo. destruct (header_ends Z strptime junk errno file) as (r & ->). destruct r as [[c|[[h lpb] s]]|]; eauto.
  destruct (find_f (h_codes _ h)) as [i|]; eauto.
  edestruct (loop_end (length (h_codes _ h)) (h_factors _ h) i (S (S (length (s_rest s)))) k (Reader [] hdr0 (RState s line0))) as (r & ->).
  { unfold budget. cbn [rd_state r_st]. destruct (s_eof s); lia. }
  destruct r as [[[c k'] y]|]; eauto.
Qed.
Lemma every_end : forall files line0 k, exists r, every_file strptime junk errno hdr0 line0 k files = Some r.
Proof.
  induction files as [|f files IH]; intros line0 k; cbn [every_file]; eauto. destruct (rinex_end line0 k f) as (r & ->).
  destruct r as [[[c k'| |] line]|]; eauto. destruct (Z.eqb c 0); eauto.
Qed.
Lemma fit_end line0 files sx sv sz : exists r, fit_files strptime junk errno hdr0 line0 files sx sv sz = Some r.
Proof.
  unfold fit_files. destruct files as [|f0 files]; eauto. unfold starting_rfo at 1. destruct (header_ends Z strptime junk errno f0) as (r & ->).
  destruct r as [[c|[[h lpb] s]]|]; eauto. destruct (find_f (h_codes _ h)) as [i|]; eauto.
  destruct (read_block _ _ _ _) as [[g y]|]; cbn [obind]; eauto.
  destruct g as [e| | |t obs]; eauto. destruct (first_value (numbers obs) i) as [v|]; cbn [obind]; eauto. cbn [Z.eqb negb].
  destruct (every_end (f0 :: files) (r_line (rd_state y)) (lk_init (Q2R v) 3 sx sv sz t)) as (r & ->). destruct r as [[c k| |]|]; eauto.
Qed.

Lemma loop_inv nobs scales i : forall fuel k x k' y, rfo_loop strptime fuel nobs scales i k x = Some (Ok (0%Z, k', y)) ->
  exists l obs, to_the_end strptime nobs scales x l /\ Forall2 (one_value i) l obs /\ k' = lk_run k obs.
Proof.
  induction fuel as [|fuel IH]; intros k x k' y; cbn [rfo_loop]; [discriminate|].
  destruct (next_attempt strptime nobs scales x) as [[[eof| | |t obs] x']|] eqn:N; try discriminate.
  - destruct eof; [|discriminate]. intros E. injection E as <- _. exists [], []. split; [econstructor; exact N|]. split; [constructor|reflexivity].
  - destruct (first_value (numbers obs) i) as [v|] eqn:F; cbn [obind]; [|discriminate].
    destruct (all_equal i v (numbers obs)) as [[|]|] eqn:A; cbn [obind]; try discriminate.
    intros E. destruct (IH _ _ _ _ E) as (l & os & T & G & ->). exists ((t, obs) :: l), ((Q2R v, t) :: os).
    split; [econstructor; eassumption|]. split; [constructor; [now apply block_value|exact G]|reflexivity].
Qed.
Lemma loop_code nobs scales i : forall fuel k x c k' y, rfo_loop strptime fuel nobs scales i k x = Some (Ok (c, k', y)) -> c = 0%Z \/ c = 1%Z.
Proof.
  induction fuel as [|fuel IH]; intros k x c k' y; cbn [rfo_loop]; [discriminate|].
  destruct (next_attempt strptime nobs scales x) as [[[eof| | |t obs] x']|] eqn:N; try discriminate;
    try (intros E; injection E as <- _ _; destruct eof; auto); try (intros E; injection E as <- _ _; auto).
  destruct (obind _ _) as [[v [|]]|]; try discriminate; [apply IH|]. intros E. injection E as <- _ _. auto.
Qed.
Lemma rinex_inv line0 k file c k' line : rinex_rfo strptime junk errno hdr0 line0 k file = Some (Ok (Done c k', line)) ->
  (c = 0%Z \/ c = 1%Z) /\ (c = 0%Z -> exists obs, file_gives strptime junk errno hdr0 line0 file obs /\ k' = lk_run k obs).
Proof.
  unfold rinex_rfo. destruct (open_rinex Z strptime junk errno file) as [[[e|[[h lpb] s]]|]|] eqn:O; try discriminate.
  destruct (find_f (h_codes _ h)) as [i|] eqn:F; [|intros E; injection E as <- _ _; split; [auto|discriminate]].
  destruct (rfo_loop _ _ _ _ _ _ _) as [[[[c1 k1] y]|]|] eqn:L; try discriminate. intros E. injection E as <- <- _.
  split; [exact (loop_code _ _ _ _ _ _ _ _ _ L)|]. intros ->. apply loop_inv in L as (l & obs & T & G & ->). exists obs. split; [|reflexivity].
  exists h, lpb, s, i, l. split; [exact O|]. split; [now apply find_f_place|]. split; assumption.
Qed.
Lemma rinex_not_terminated line0 k file line : rinex_rfo strptime junk errno hdr0 line0 k file <> Some (Ok (Terminated, line)).
Proof.
  unfold rinex_rfo. destruct (open_rinex Z strptime junk errno file) as [[[e|[[h lpb] s]]|]|]; try discriminate.
  destruct (find_f (h_codes _ h)) as [i|]; [|discriminate]. destruct (rfo_loop _ _ _ _ _ _ _) as [[[[c1 k1] y]|]|]; discriminate.
Qed.
Lemma every_inv : forall files line0 k r, every_file strptime junk errno hdr0 line0 k files = Some (Ok r) ->
  exists c k', r = Done c k' /\ (c = 0%Z \/ c = 1%Z) /\
    (c = 0%Z -> exists obss, Forall2 (fun f obs => exists line, file_gives strptime junk errno hdr0 line f obs) files obss /\ k' = lk_run k (concat obss)).
Proof.
  induction files as [|f files IH]; intros line0 k r; cbn [every_file].
  - intros E. injection E as <-. exists 0%Z, k. split; [reflexivity|]. split; [auto|]. intros _. exists []. split; [constructor|reflexivity].
  - destruct (rinex_rfo strptime junk errno hdr0 line0 k f) as [[[[c k1| |] line]|]|] eqn:R; try discriminate.
    + destruct (rinex_inv _ _ _ _ _ _ R) as [C G]. destruct (Z.eqb_spec c 0) as [->|NZ].
      * intros E. destruct (IH _ _ _ E) as (c' & k' & -> & C' & G'). exists c', k'. split; [reflexivity|]. split; [exact C'|]. intros Z.
        destruct (G eq_refl) as (obs & FG & ->). destruct (G' Z) as (obss & FF & ->). exists (obs :: obss). split; [constructor; [eauto|exact FF]|].
        cbn [concat]. unfold lk_run. now rewrite fold_left_app.
      * intros E. injection E as <-. exists c, k1. split; [reflexivity|]. split; [exact C|]. intros; contradiction.
    + intros E. injection E as <-. exists 1%Z, k. split; [reflexivity|]. split; [auto|]. discriminate.
    + exfalso. exact (rinex_not_terminated _ _ _ _ R).
Qed.
(* the value the filter starts with: from the first block behind the header of the first file *)
Definition starts_with (line : chars) (file : option chars) (z : R) (t : Z) : Prop :=
  exists h lpb s i y obs o w, open_rinex Z strptime junk errno file = Some (Ok (inr (h, lpb, s))) /\ place_of_f (h_codes _ h) i /\
    read_block strptime (length (h_codes _ h)) (h_factors _ h) (fetch (Reader [] hdr0 (RState s line))) = Ok (GotBlock t (o :: obs), y) /\
    nth_error (b_vals o) i = Some w /\ z = Q2R (rv w).
Lemma fit_files_inv line0 files sx sv sz r : fit_files strptime junk errno hdr0 line0 files sx sv sz = Some (Ok r) ->
  (exists k f0 rest z0 t0 obss, r = Done 0%Z (Some k) /\ files = f0 :: rest /\ starts_with line0 f0 z0 t0 /\
     Forall2 (fun f obs => exists line, file_gives strptime junk errno hdr0 line f obs) files obss /\ k = lk_run (lk_init z0 3 sx sv sz t0) (concat obss)) \/
  r = Done 1%Z None \/
  (r = Terminated /\ exists f0 rest c, files = f0 :: rest /\ open_rinex Z strptime junk errno f0 = Some (Ok (inl c))).
Proof.
  unfold fit_files. destruct files as [|f0 files]; [discriminate|].
  destruct (starting_rfo strptime junk errno hdr0 line0 f0) as [[[d line]|]|] eqn:S; try discriminate.
  unfold starting_rfo in S. destruct (open_rinex Z strptime junk errno f0) as [[[e|[[h lpb] s]]|]|] eqn:O; try discriminate.
  { injection S as <- _. intros E. injection E as <-. right. right. split; [reflexivity|]. eauto. }
  destruct (find_f (h_codes _ h)) as [i|] eqn:F; [|injection S as <- _; intros E; injection E as <-; auto].
  destruct (read_block _ _ _ _) as [[g y]|] eqn:B; cbn [obind] in S; [|discriminate].
  destruct g as [e| | |t obs]; try (injection S as <- _; intros E; injection E as <-; auto).
  destruct obs as [|o obs]; [discriminate|]. cbn [numbers map first_value] in S. unfold load in S. rewrite nth_error_map in S.
  destruct (nth_error (b_vals o) i) as [w|] eqn:W; cbn [option_map of_option obind] in S; [|discriminate]. injection S as <- <-.
  cbn [Z.eqb negb]. destruct (every_file _ _ _ _ _ _ _) as [[d|]|] eqn:A; try discriminate; try (destruct d; discriminate).
  destruct (every_inv _ _ _ _ A) as (c & k & -> & C & G). intros E. injection E as <-. destruct C as [-> | ->]; [left|auto].
  destruct (G eq_refl) as (obss & FF & ->). eexists _, f0, files, (Q2R (rv w)), t, obss. split; [reflexivity|]. split; [reflexivity|].
  split; [|split; [exact FF|reflexivity]]. exists h, lpb, s, i, y, obs, o, w. split; [exact O|]. split; [now apply find_f_place|]. auto.
Qed.
End Every.

(* ---- files as the format says ---- *)
Record pfile := PFile { pf_v : fnum; pf_p : chars; pf_ms : list mrec; pf_bls : list mblock }.
Definition pfile_bytes (f : pfile) : chars := header_file (pf_v f) (pf_p f) (pf_ms f) (flat_map mblock_text (pf_bls f)).
(* a block with at least one beacon, all with the number z of F: what is printed over the factor of F *)
Definition f_value (strptime : chars -> option Z) (ms : list mrec) (b : mblock) (o : R * Z) : Prop :=
  date_of strptime b (snd o) /\ bl_beacons b <> [] /\
  exists i c, place_of_f (codes_given ms) i /\ nth_error (codes_given ms) i = Some c /\
    Forall (fun y => forall m f, nth_error (mb_fields y) i = Some m -> factor_of ms c f -> fst o = Q2R (content (mf_v m) / inject_Z f)) (bl_beacons b).
Definition pfile_ok (strptime : chars -> option Z) (f : pfile) (obs : list (R * Z)) : Prop :=
  header_ok Z strptime (pf_v f) (pf_p f) (pf_ms f) /\ (exists i, place_of_f (codes_given (pf_ms f)) i) /\
  Forall (mblock_ok (length (codes_given (pf_ms f)))) (pf_bls f) /\ Forall2 (f_value strptime (pf_ms f)) (pf_bls f) obs.

Section Printed.
Variable strptime : chars -> option Z.
Lemma place_unique codes i j : place_of_f codes i -> place_of_f codes j -> i = j.
Proof. intros A B. apply find_f_place in A, B. congruence. Qed.
Lemma reported_value ms scales i b o obs : length scales = length (codes_given ms) ->
  (forall i c, nth_error (codes_given ms) i = Some c -> exists f, nth_error scales i = Some f /\ factor_of ms c f) ->
  mblock_ok (length (codes_given ms)) b -> place_of_f (codes_given ms) i -> f_value strptime ms b o -> Forall2 (reported scales) (bl_beacons b) obs ->
  one_value i (snd o, obs) o.
Proof.
  intros LS FA (_ & _ & _ & _ & HB) P (D & NE & j & c & Pj & Nc & FV) F. rewrite <- (place_unique _ _ _ P Pj) in *. clear Pj. split; [reflexivity|]. cbn [fst snd].
  split; [intros ->; inversion F; subst; now apply NE|]. clear NE D. destruct (FA i c Nc) as (f & Nf & Ff).
  assert (IL : i < length (codes_given ms)) by (apply nth_error_Some; congruence).
  induction F as [|y x ys obs [_ R] F IH]; [constructor|]. inversion HB as [|? ? (_ & LF & _) HB']; subst. inversion FV as [|? ? V FV']; subst.
  constructor; [|exact (IH HB' FV')]. destruct (nth_error (mb_fields y) i) as [m|] eqn:Nm; [|apply nth_error_None in Nm; lia].
  destruct (expects_nth _ _ _ _ _ _ R Nm) as (w & sc & W1 & W2 & W3). cbn [Nat.add] in W2. exists w. split; [exact W1|].
  rewrite (V m f eq_refl Ff). apply Qeq_eqR. rewrite Nf in W2. injection W2 as <-. exact (proj1 W3).
Qed.
Lemma loop_ok ms nobs scales i : nobs = length (codes_given ms) -> 1 <= nobs -> scales_ok nobs scales ->
  (forall i c, nth_error (codes_given ms) i = Some c -> exists f, nth_error scales i = Some f /\ factor_of ms c f) -> place_of_f (codes_given ms) i ->
  forall bls os, Forall2 (f_value strptime ms) bls os -> forall x fuel k, Forall (mblock_ok nobs) bls ->
  r_st (rd_state x) = s_open (flat_map mblock_text bls) -> length bls < fuel ->
  exists y, rfo_loop strptime fuel nobs scales i k x = Some (Ok (0%Z, lk_run k os, y)).
Proof.
  intros EN Hn Hsc FA P. induction 1 as [|b o bls os V F2 IH]; intros x fuel k FB ES F; (destruct fuel as [|fuel]; [cbn in F; lia|]); cbn [rfo_loop].
  - unfold next_attempt, fetch. rewrite ES. cbn. eexists. reflexivity.
  - inversion FB as [|? ? HB FB']; subst.
    destruct (attempt_ok strptime _ scales b (flat_map mblock_text bls) x (snd o) Hn Hsc HB (proj1 V) ES) as (obs & y & -> & RP & RS).
    pose proof (reported_value ms scales i b o obs (proj1 Hsc) FA HB P V RP) as OV. destruct (value_block _ _ _ _ OV) as (v & -> & A & E). cbn [obind]. rewrite A. cbn [obind].
    destruct (IH y fuel (lk_update k (Q2R v) (snd o)) FB' RS) as (z & EZ); [cbn in F; lia|]. exists z. rewrite EZ.
    unfold lk_run. cbn [fold_left]. rewrite E at 2 3. reflexivity.
Qed.
Variables (junk : chars) (hdr0 : rhdr).
Lemma pfile_open f obs : pfile_ok strptime f obs -> exists h lpb, open_rinex Z strptime junk false (Some (pfile_bytes f)) = Some (Ok (inr (h, lpb, s_open (flat_map mblock_text (pf_bls f))))) /\
  h_codes _ h = codes_given (pf_ms f) /\ scales_ok (length (codes_given (pf_ms f))) (h_factors _ h) /\ 1 <= length (codes_given (pf_ms f)) /\
  forall i c, nth_error (codes_given (pf_ms f)) i = Some c -> exists g, nth_error (h_factors _ h) i = Some g /\ factor_of (pf_ms f) c g.
Proof.
  intros (HO & (i & P) & _ & _). assert (NE : codes_given (pf_ms f) <> []) by (destruct P as [(c & N & _) _]; intros E; rewrite E in N; destruct i; discriminate).
  destruct (header_round_trip Z strptime _ _ _ (flat_map mblock_text (pf_bls f)) junk HO) as (h & E & R).
  destruct (header_scales strptime _ _ _ h HO NE R) as (RC & SO & FA). eexists h, _. split; [exact E|]. split; [exact RC|]. split; [exact SO|].
  split; [destruct (codes_given (pf_ms f)); [contradiction|cbn; lia]|exact FA].
Qed.
Lemma rinex_ok line0 k f obs : pfile_ok strptime f obs -> exists line, rinex_rfo strptime junk false hdr0 line0 k (Some (pfile_bytes f)) = Some (Ok (Done 0%Z (lk_run k obs), line)).
Proof.
  intros H. destruct (pfile_open f obs H) as (h & lpb & EO & RC & SO & L1 & FA). destruct H as (_ & (i & P) & FB & F2).
  unfold rinex_rfo. rewrite EO, RC, (proj2 (find_f_place _ _) P). cbn [s_open s_rest].
  destruct (loop_ok (pf_ms f) _ _ i eq_refl L1 SO FA P _ _ F2 (Reader [] hdr0 (RState (s_open (flat_map mblock_text (pf_bls f))) line0)) (S (S (length (flat_map mblock_text (pf_bls f))))) k FB eq_refl) as (y & ->);
    [pose proof (blocks_length (pf_bls f)); lia|]. eexists. reflexivity.
Qed.
Lemma every_ok files obss : Forall2 (pfile_ok strptime) files obss -> forall line0 k,
  every_file strptime junk false hdr0 line0 k (map (fun f => Some (pfile_bytes f)) files) = Some (Ok (Done 0%Z (lk_run k (concat obss)))).
Proof.
  induction 1 as [|f obs files obss H _ IH]; intros line0 k; cbn [map every_file]; [reflexivity|].
  destruct (rinex_ok line0 k f obs H) as (line & ->). cbn [Z.eqb]. rewrite IH. cbn [concat]. unfold lk_run. now rewrite fold_left_app.
Qed.
Lemma starting_ok line0 f z t obs : pfile_ok strptime f ((z, t) :: obs) ->
  exists v line, starting_rfo strptime junk false hdr0 line0 (Some (pfile_bytes f)) = Some (Ok (Done 0%Z (Some (v, t)), line)) /\ Q2R v = z.
Proof.
  intros H. destruct (pfile_open f _ H) as (h & lpb & EO & RC & SO & L1 & FA). destruct H as (_ & (i & P) & FB & F2).
  unfold starting_rfo. rewrite EO, RC, (proj2 (find_f_place _ _) P). inversion F2 as [|b ? bls ? V F2' EB]; subst. rewrite <- EB in *. inversion FB as [|? ? HB FB']; subst.
  destruct (attempt_ok strptime _ (h_factors _ h) b (flat_map mblock_text bls) (Reader [] hdr0 (RState (s_open (flat_map mblock_text (b :: bls))) line0)) t L1 SO HB (proj1 V) eq_refl) as (os & y & A & RP & RS).
  assert (R : read_block strptime (length (codes_given (pf_ms f))) (h_factors _ h) (fetch (Reader [] hdr0 (RState (s_open (flat_map mblock_text (b :: bls))) line0))) = Ok (GotBlock t os, y)).
  { unfold next_attempt in A. destruct (negb _) in A; [discriminate|exact A]. }
  rewrite R. cbn [obind]. pose proof (reported_value (pf_ms f) _ i b (z, t) os (proj1 SO) FA HB P V RP) as OV. destruct (value_block _ _ _ _ OV) as (v & -> & _ & E). cbn [obind].
  eexists v, _. split; [reflexivity|]. now injection E.
Qed.
Lemma fit_files_ok line0 files obss z0 t0 obs0 rest sx sv sz : Forall2 (pfile_ok strptime) files obss -> obss = ((z0, t0) :: obs0) :: rest ->
  fit_files strptime junk false hdr0 line0 (map (fun f => Some (pfile_bytes f)) files) sx sv sz =
  Some (Ok (Done 0%Z (Some (lk_run (filter_of (Setup z0 3 sx sv sz t0)) (concat obss))))).
Proof.
  intros F E. pose proof F as F0. rewrite E in F0. inversion F0 as [|f ? files' ? H _]; subst. cbn [map fit_files].
  destruct (starting_ok line0 f z0 t0 obs0 H) as (v & line & -> & <-). cbn [Z.eqb negb].
  change (Some (pfile_bytes f) :: map (fun f => Some (pfile_bytes f)) files') with (map (fun f => Some (pfile_bytes f)) (f :: files')).
  rewrite (every_ok _ _ F line). reflexivity.
Qed.
End Printed.
