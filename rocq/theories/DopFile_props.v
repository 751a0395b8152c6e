(* C104: Doppler counts of a DORIS RINEX file, from its bytes to the lines printed. *)
From Coq Require Import String List ZArith QArith Ascii Bool Lia.
From Verif Require Import Base CLib_model CLib_proofs Stream_model SysInfo_model SysInfo_proofs Rinex_model Rinex_proofs
  RnxHead_model RnxHead_proofs RnxFile_model RnxFile_proofs RnxFileText_proofs RnxFile_props RnxWhole_model RnxWhole_proofs RnxWhole_props
  Doppler_model Doppler_proofs BlockRead_model DopFile_model DopFile_proofs.
Import ListNotations.
Local Open Scope nat_scope.

(* C104: the counting ends for every file *)
Theorem doppler_file_ends : forall strptime pad junk errno line0 hdr0 file,
  exists r, doppler_file strptime pad junk errno line0 hdr0 file = Some r.
Proof. exact file_ends. Qed.
Print Assumptions doppler_file_ends.

(* C104: 0 is returned only if there is an object, at least one block was read and every line up to the end of the
   file belongs to a block; other codes are 1, 2 and 3, and no object means a code that is not zero *)
Theorem doppler_file_codes : forall strptime pad junk errno line0 hdr0 file r,
  doppler_file strptime pad junk errno line0 hdr0 file = Some (Ok r) ->
  match r with
  | inl c => c <> 0%Z
  | inr (c, out, data) => (0 <= c <= 3)%Z /\ (c = 0%Z -> exists h lpb s bs, open_rinex Z strptime junk errno file = Some (Ok (inr (h, lpb, s))) /\ bs <> [] /\
      all_reads strptime (S (S (length (s_rest s)))) (length (h_codes _ h)) (h_factors _ h) (Reader [] hdr0 (RState s line0)) = Some (Ok (blocks bs, true)))
  end.
Proof.
  intros strptime pad junk errno line0 hdr0 file r. unfold doppler_file.
  destruct (open_rinex Z strptime junk errno file) as [[[c|[[h lpb] s]]|]|] eqn:O; try discriminate.
  - intros E. injection E as <-. destruct (header_failure Z strptime junk errno file _ O) as [_ F]. exact (F c eq_refl).
  - destruct (all_reads _ _ _ _ _) as [[[rs eof]|]|] eqn:A; try discriminate.
    destruct (get_doppler_counts pad rs eof) as [[[c out] data]|] eqn:G; cbn [obind]; [|discriminate].
    intros E. injection E as <-. apply (counts_code strptime) in G. destruct G as [G1 G2]. split; [exact G2|]. intros Z.
    destruct (G1 Z) as (-> & NE & N1 & N2). destruct (reads_shape _ _ _ _ _ _ _ A) as [(bs & ->)|[(bs & -> & K)|(bs & -> & K)]]; try discriminate.
    exists h, lpb, s, bs. split; [reflexivity|]. split; [intros ->; now contradiction NE|exact A].
Qed.
Print Assumptions doppler_file_codes.

(* C104, C105: what is taken for a block: as many beacons as its epoch line announces, each with an identifier and a
   value for every observable *)
Theorem doppler_file_blocks : forall strptime nobs scales x t obs y, length (r_line (rd_state x)) = 124 ->
  next_attempt strptime nobs scales x = Ok (GotBlock t obs, y) ->
  Z.of_nat (length obs) = Z.max 0 (h_num (rd_hdr y)) /\ t = h_epoch (rd_hdr y) /\ length (r_line (rd_state y)) = 124 /\
  Forall (fun o => length (b_vals o) = nobs /\ (1 <= nobs -> exists a b, b_id o = Some ["D"%char; a; b])) obs.
Proof.
  intros strptime nobs scales x t obs y L E. destruct (attempt_shape _ _ _ _ _ _ _ L E) as (A & B & C & D). refine (conj B (conj C (conj D _))).
  eapply Forall_impl; [|exact A]. intros o [H1 H2]. split; assumption.
Qed.
Print Assumptions doppler_file_blocks.

(* C104, C105: the reading of blocks stops at the end of the file exactly when no byte is left; a line that does not fit
   is another end *)
Theorem doppler_file_last_byte : forall strptime nobs scales x g y,
  (exists file, r_st (rd_state x) = s_open file) \/ sound (r_st (rd_state x)) -> next_attempt strptime nobs scales x = Ok (g, y) ->
  sound (r_st (rd_state y)) /\ forall eof, g = Ended eof -> (eof = true <-> s_rest (r_st (rd_state y)) = []).
Proof.
  intros strptime nobs scales x g y H. apply attempt_sound. destruct H as [[f ->]|H]; [split; discriminate|exact H].
Qed.
Print Assumptions doppler_file_last_byte.
Example doppler_file_last_byte_case : exists y, next_attempt (fun _ => None) 3 [1; 1; 1]%Z (Reader [] (RHdr 0 0 0 0 0) (RState (s_open (repeat "x"%char 200)) (repeat "?"%char 124))) = Ok (Ended false, y).
Proof. eexists. vm_compute. reflexivity. Qed.

(* C104: on a file printed as the format says, with at least two observables and one block, and NUL behind the
   identifiers in memory: code 0, every line printed is the difference between the first two observables of a beacon
   and those of its last sighting in an earlier block, with the time between the two; the observables are the printed
   numbers over their factors.  Missing: that the first two observables are the phases L1 and L2, that missing values
   are left out, that the identifiers are terminated (refuted below), headers as in C95. *)
Theorem doppler_file_counts_partial : forall strptime v p ms bls junk line0 hdr0 rest, header_ok Z strptime v p ms -> 2 <= length (codes_given ms) -> bls <> [] ->
  Forall (mblock_ok (length (codes_given ms))) bls -> Forall (fun b => exists t, date_of strptime b t) bls ->
  Forall (fun b => forall y, In y (bl_beacons b) -> ~ In nul (mb_id y)) bls ->
  exists out data bs, doppler_file strptime (nul :: rest) junk false line0 hdr0 (Some (header_file v p ms (flat_map mblock_text bls))) = Some (Ok (inr (0%Z, out, data))) /\
    Forall2 (taken strptime ms) bls bs /\ table_of (history bs) data /\ output_of bs out.
Proof. exact file_counts. Qed.
Print Assumptions doppler_file_counts_partial.

(* ---------- cases ---------- *)
Definition one_beacon (a b c : fld) : list mbeacon := [MB (str "D02") [MF a " "%char " "%char; MF b " "%char " "%char; MF c " "%char " "%char]].
Definition at_epoch (bs : list mbeacon) : mblock := MBlk (ex_epoch [1%Z] None) bs.
Definition whole (n : list Z) : fld := Rinex_proofs.FNum false n [0%Z].
Definition pass (a b c a' b' c' : fld) : list mblock := [at_epoch (one_beacon a b c); at_epoch (one_beacon a' b' c')].
Lemma at_epoch_ok a b c : fld_ok a -> fld_ok b -> fld_ok c -> mblock_ok 3 (at_epoch (one_beacon a b c)).
Proof.
  intros A B C. split; [apply ex_epoch_ok; [split; [discriminate|digitly]|cbn; lia|exact Logic.I]|].
  split; [apply no_nl_check; reflexivity|]. split; [vm_compute; lia|]. split; [reflexivity|]. constructor; [|constructor].
  split; [split; [reflexivity|split; [eexists; reflexivity|apply no_nl_check; reflexivity]]|]. split; [reflexivity|].
  repeat constructor; cbn; try assumption; discriminate.
Qed.
Lemma whole_ok n : n <> [] -> digits_ok n -> length (fixed false n [0%Z]) <= 14 -> fld_ok (whole n).
Proof. intros N D L. refine (conj _ (conj D (conj _ L))); [destruct n; discriminate|digitly]. Qed.
Definition counted (pad : chars) (ms : list mrec) (bls : list mblock) : option (outcome (Z + Z * list ndop * list bdata)) :=
  doppler_file day pad array false (repeat "?"%char 124) (RHdr 0 0 0 0 0) (Some (header_file three_oh (str "prog") ms (flat_map mblock_text bls))).
Definition lines (r : option (outcome (Z + Z * list ndop * list bdata))) : list (chars * Q * Q) :=
  match r with Some (Ok (inr (0%Z, out, _))) => map (fun d => (nd_id d, Qred (nd_dl1 d), Qred (nd_dl2 d))) out | _ => [] end.
Definition phases : list mblock := pass (whole [1; 0]%Z) (whole [3; 0; 0]%Z) (whole [1]%Z) (whole [1; 7]%Z) (whole [5; 0; 0]%Z) (whole [1]%Z).
Example doppler_file_case : header_ok Z day three_oh (str "prog") full /\ 2 <= length (codes_given full) /\ phases <> [] /\
  Forall (mblock_ok (length (codes_given full))) phases /\ Forall (fun b => exists t, date_of day b t) phases /\
  Forall (fun b => forall y, In y (bl_beacons b) -> ~ In nul (mb_id y)) phases /\
  lines (counted [nul] full phases) = [(str "D02", 7#1, 2#1)%Q].
Proof.
  assert (W : forall n, n <> [] -> digits_ok n -> length (fixed false n [0%Z]) <= 14 -> fld_ok (whole n)) by exact whole_ok.
  refine (conj full_ok (conj _ (conj _ (conj _ (conj _ (conj _ _)))))).
  - cbn. lia.
  - discriminate.
  - change (length (codes_given full)) with 3. constructor; [|constructor; [|constructor]]; apply at_epoch_ok; apply W; try discriminate; try digitly; cbn; lia.
  - constructor; [|constructor; [|constructor]]; exists 7%Z; reflexivity.
  - constructor; [|constructor; [|constructor]]; intros y [<-|[]]; cbn; intuition discriminate.
  - vm_compute. reflexivity.
Qed.

Example doppler_file_blocks_case : exists t obs y, next_attempt day 3 [1; 1; 1]%Z (Reader [] (RHdr 0 0 0 0 0) (RState (s_open (flat_map mblock_text phases)) (repeat "?"%char 124))) = Ok (GotBlock t obs, y).
Proof. do 3 eexists. vm_compute. reflexivity. Qed.

(* C104: the identifiers are not terminated: without a NUL behind them the same file is undefined behaviour *)
Theorem doppler_file_terminator_refuted : counted [] full phases = Some UB.
Proof. vm_compute. reflexivity. Qed.
Print Assumptions doppler_file_terminator_refuted.

(* C104: with L2 before L1 in the header the column of L1 (the first) holds L2 *)
Definition swapped : list mrec :=
  [MSat (str "JASON-3"); MCospar (str "2016-002A"); MMarker; MObserver (str "SPA_BN1_4.7P1"); MReceiver (str "CHAIN1") (str "DGXX") (str "1.00"); MAntenna;
   MPosition (RnxFile_props.num [1]%Z [5]%Z) (RnxFile_props.num [0]%Z [2; 5]%Z) (RnxFile_props.num [2]%Z []); MMass (RnxFile_props.num [9]%Z [7]%Z) (RnxFile_props.num [0]%Z [0]%Z) (RnxFile_props.num [1]%Z [1]%Z);
   MObs [3]%Z [L2; L1; ObsCode frequency_offset 0]; MFirst (str "2024 01 01"); MScale false [1; 0; 0]%Z [1]%Z [L2]; MOffset (RnxFile_props.num [2]%Z [5]%Z);
   MOther (str "a remark") (str "COMMENT"); MCount [2]%Z; RnxFile_props.beacon 1 "TLSB"; RnxFile_props.beacon 2 "TLHB"; MRefCount [1]%Z; MRef (str "D02") (RnxFile_props.num [1]%Z [0]%Z) (RnxFile_props.num [0]%Z [5]%Z);
   MRefDate (str "2024 01 01"); MClock true].
Lemma swapped_codes : Forall code_ok [L2; L1; ObsCode frequency_offset 0].
Proof. constructor; [right; reflexivity|]. constructor; [left; reflexivity|]. constructor; [reflexivity|constructor]. Qed.
Lemma swapped_ok : header_ok Z day three_oh (str "prog") swapped.
Proof.
  refine (conj _ (conj _ (conj (conj _ _) (conj _ (conj _ _))))).
  - fnumly.
  - plainly.
  - unfold swapped. constructor; [named|]. constructor; [named|]. constructor; [exact I|]. constructor; [plainly|].
    constructor; [refine (conj _ (conj _ _)); named|]. constructor; [exact I|].
    constructor; [refine (conj _ (conj _ _)); fnumly|]. constructor; [refine (conj _ (conj _ _)); fnumly|].
    constructor.
    { refine (conj swapped_codes (conj _ (conj _ (conj _ (conj _ _))))); [|numeral_here|cbn; lia|reflexivity|cbn; lia].
      repeat constructor; cbn; intuition discriminate. }
    constructor; [split; [plainly|discriminate]|].
    constructor.
    { refine (conj _ (conj _ (conj _ (conj _ (conj _ (conj _ (conj _ (conj _ _)))))))); [|repeat constructor; cbn; tauto|numeral_here|cbn; lia|cbv; discriminate|numeral_here|cbn; lia|reflexivity|cbn; lia].
      constructor; [right; reflexivity|constructor]. }
    constructor; [fnumly|].
    constructor.
    { refine (conj _ (conj _ _)); [plainly|plainly|]. apply Forall_forall. intros t HI. cbn in HI. repeat (destruct HI as [<-|HI]; [discriminate|]). contradiction. }
    constructor; [refine (conj _ (conj _ _)); [numeral_here|cbn; lia|cbv; discriminate]|].
    constructor; [station_here|]. constructor; [station_here|].
    constructor; [refine (conj _ (conj _ _)); [numeral_here|cbn; lia|cbv; discriminate]|].
    constructor; [refine (conj _ (conj _ (conj _ _))); [plainly|reflexivity|fnumly|fnumly]|].
    constructor; [split; [plainly|discriminate]|]. constructor; [exact I|]. constructor.
  - assert (P : forall ms pre, (forall l1 m l2, ms = l1 ++ m :: l2 -> rec_after (pre ++ l1) m) <->
       match ms with [] => True | m :: r => rec_after pre m /\ forall l1 x l2, r = l1 ++ x :: l2 -> rec_after ((pre ++ [m]) ++ l1) x end).
    { intros [|m r] pre; split.
      - auto.
      - intros _ l1 m l2 E. destruct l1; discriminate.
      - intros H. split; [specialize (H [] m r eq_refl); now rewrite app_nil_r in H|]. intros l1 x l2 ->. rewrite <- app_assoc. apply (H (m :: l1) x l2 eq_refl).
      - intros [A B] [|y l1] x l2 E; injection E as -> E; [now rewrite app_nil_r|]. specialize (B l1 x l2 E). now rewrite <- app_assoc in B. }
    change (forall l1 m l2, swapped = l1 ++ m :: l2 -> rec_after ([] ++ l1) m). unfold swapped.
    do 8 (apply P; split; [exact I|]).
    apply P; split; [intros ? ? ? ?; apply no_scales; reflexivity|]. apply P; split; [exact I|].
    apply P; split.
    { exists [3%Z], [L2; L1; ObsCode frequency_offset 0]. cbn [app]. 
      exists (firstn 8 swapped), [MFirst (str "2024 01 01")]. refine (conj eq_refl (conj _ _)); [intros ? ?; apply no_obs; reflexivity|].
      intros x [<-|[]]. now left. }
    do 6 (apply P; split; [exact I|]).
    apply P; split.
    { do 7 eexists. cbn [app]. do 15 right. left. reflexivity. }
    do 2 (apply P; split; [exact I|]). intros l1 m l2 E. destruct l1; discriminate.
  - reflexivity.
  - cbn. lia.
  - intros _. discriminate.
Qed.
Theorem doppler_file_phases_refuted : exists ms bls d, header_ok Z day three_oh (str "prog") ms /\ Forall (mblock_ok (length (codes_given ms))) bls /\
  codes_given ms = [L2; L1; ObsCode frequency_offset 0] /\ bls = pass (whole [3; 0; 0]%Z) (whole [1; 0]%Z) (whole [1]%Z) (whole [5; 0; 0]%Z) (whole [1; 7]%Z) (whole [1]%Z) /\
  (* L1 grew by 7 *) lines (counted [nul] ms bls) = [d] /\ d = (str "D02", 2#1, 7#1)%Q.
Proof.
  exists swapped. eexists. eexists. split; [exact swapped_ok|]. split; [|split; [reflexivity|split; [reflexivity|split; [vm_compute; reflexivity|reflexivity]]]].
  change (length (codes_given swapped)) with 3. constructor; [|constructor; [|constructor]]; apply at_epoch_ok; apply whole_ok; try discriminate; try digitly; cbn; lia.
Qed.
Print Assumptions doppler_file_phases_refuted.

(* C104: a blank L1 is printed as if it had been measured *)
Theorem doppler_file_missing_refuted : exists bls d, Forall (mblock_ok 3) bls /\
  bls = pass (whole [1; 0]%Z) (whole [3; 0; 0]%Z) (whole [1]%Z) FBlank (whole [5; 0; 0]%Z) (whole [1]%Z) /\
  lines (counted [nul] full bls) = [d] /\ d = (str "D02", Qred (MISSING - 10), 2#1)%Q.
Proof.
  eexists. eexists. split; [|split; [reflexivity|split; [vm_compute; reflexivity|vm_compute; reflexivity]]].
  constructor; [|constructor; [|constructor]]; apply at_epoch_ok; try exact Logic.I; apply whole_ok; try discriminate; try digitly; cbn; lia.
Qed.
Print Assumptions doppler_file_missing_refuted.
