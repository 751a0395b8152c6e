(* Property theorems C95. *)
From Coq Require Import String List ZArith QArith Ascii Bool Lia.
From Verif Require Import Base CLib_model CLib_proofs Stream_model Lines_proofs SysInfo_model SysInfo_proofs Rinex_model Rinex_proofs
  RnxHead_model RnxHead_proofs RnxFile_model RnxFile_proofs RnxFileText_proofs RnxFileSafe_proofs.
Import ListNotations.
Local Open Scope nat_scope.

(* C95: whatever the file holds, reading its header ends *)
Theorem rinex_header_ends : forall date (read_date : chars -> option date) junk errno file,
  exists r, open_rinex date read_date junk errno file = Some r.
Proof. exact header_ends. Qed.
Print Assumptions rinex_header_ends.

(* C95: whatever the file holds, an object made from it has a factor, not zero, for every code, codes the
   format knows, the number of stations announced, reference beacons that are stations and fewer of them;
   the data starts behind whole lines of 80 characters at most *)
Theorem rinex_header_sound : forall date (read_date : chars -> option date) junk errno file h lpb s,
  length junk = 81 ->
  open_rinex date read_date junk errno file = Some (Ok (inr (h, lpb, s))) ->
  sound date h /\ exists content ls rest, file = Some content /\ header_lines content ls rest /\ 3 <= length ls /\ s = s_open rest
    /\ (Z.of_nat (length (h_codes _ h)) <= 5 * lpb)%Z /\ (forall j, Z.of_nat (length (h_codes _ h)) <= 5 * j -> lpb <= j)%Z.
Proof. exact open_sound. Qed.
Print Assumptions rinex_header_sound.

(* C95: a header printed as the format says is accepted, every member holds the value of the last record
   that gives it, stations and reference beacons are in the order of the file, the data starts behind the
   last line.  Missing: error number set on entry, factors given by several records, none of them, observation types
   after the factors, blank count (refuted below and in C24). *)
Theorem rinex_header_round_trip_partial : forall date (read_date : chars -> option date) v p ms rest junk,
  header_ok date read_date v p ms ->
  exists h, open_rinex date read_date junk false (Some (header_file v p ms rest)) =
      Some (Ok (inr (h, Z.of_nat ((length (h_codes _ h) + 4) / 5), s_open rest)))
    /\ reflects date read_date v ms h.
Proof.
  intros date read_date v p ms rest junk H. destruct (header_round_trip date read_date v p ms rest junk H) as (h & E & R).
  exists h. split; [|exact R]. rewrite E. do 5 f_equal. rewrite <- lines_nat.
  destruct (lines_least (Z.of_nat (length (h_codes _ h))) ltac:(lia)) as [A _]. rewrite Z2Nat.id; [reflexivity|lia].
Qed.
Print Assumptions rinex_header_round_trip_partial.

(* C95: no undefined behaviour on lines of 60 to 80 characters, with something in the columns of a name and
   fewer than 13 observation types, up to the end mark.  Missing: shorter lines, blank names, more types
   (refuted below). *)
Theorem rinex_header_defined_partial : forall date (read_date : chars -> option date) a b ls t rest junk errno,
  Forall safe (a :: b :: ls ++ [t]) -> marked t "END OF HEADER" -> length junk = 81 ->
  exists r, open_rinex date read_date junk errno (Some (file_text (a :: b :: ls ++ [t]) rest)) = Some (Ok r).
Proof. exact header_defined. Qed.
Print Assumptions rinex_header_defined_partial.

(* C95: a file that cannot be opened, or whose header is not accepted, gives no object and a code that is
   not zero *)
Theorem rinex_header_failure : forall date (read_date : chars -> option date) junk errno file r,
  open_rinex date read_date junk errno file = Some (Ok r) ->
  (file = None -> exists c, r = inl c) /\ forall c, r = inl c -> c <> 0%Z.
Proof. exact header_failure. Qed.
Print Assumptions rinex_header_failure.

(* ---------- cases ---------- *)
Definition day (_ : chars) : option Z := Some 7%Z.
Definition array : chars := repeat "?"%char 81.
Definition num (i f : list Z) : fnum := FNum false i f.
Definition three_oh : fnum := num [3]%Z [0; 0]%Z.
Definition beacon (k : Z) (id : string) : mrec := MStation ("D"%char :: dstr [0; k]%Z) (str id) (str "TOULOUSE") (str "10003S005") 3 false [1; 2]%Z 1.
Definition L1 := ObsCode phase 1.
Definition L2 := ObsCode phase 2.
Definition full : list mrec :=
  [MSat (str "JASON-3"); MCospar (str "2016-002A"); MMarker; MObserver (str "SPA_BN1_4.7P1"); MReceiver (str "CHAIN1") (str "DGXX") (str "1.00"); MAntenna;
   MPosition (num [1]%Z [5]%Z) (num [0]%Z [2; 5]%Z) (num [2]%Z []); MMass (num [9]%Z [7]%Z) (num [0]%Z [0]%Z) (num [1]%Z [1]%Z);
   MObs [3]%Z [L1; L2; ObsCode frequency_offset 0]; MFirst (str "2024 01 01"); MScale false [1; 0; 0]%Z [1]%Z [L2]; MOffset (num [2]%Z [5]%Z);
   MOther (str "a remark") (str "COMMENT"); MCount [2]%Z; beacon 1 "TLSB"; beacon 2 "TLHB"; MRefCount [1]%Z; MRef (str "D02") (num [1]%Z [0]%Z) (num [0]%Z [5]%Z);
   MRefDate (str "2024 01 01"); MClock true].
Ltac plainly := split; [cbn; lia|apply clean_check; reflexivity].
Ltac digitly := apply digits_check; reflexivity.
Ltac numeral_here := split; [discriminate|digitly].
Ltac fnumly := refine (conj _ (conj _ (conj _ _))); [discriminate|digitly|digitly|cbn; lia].
Ltac named := split; [split; discriminate|plainly].
Ltac station_here := split; [refine (conj _ (conj _ (conj _ (conj _ (conj _ (conj _ (conj _ (conj _ (conj _ (conj _ _))))))))));
  [reflexivity|reflexivity|cbn; lia|split; discriminate|cbn; lia|split; discriminate|lia|numeral_here|cbv; split; discriminate|reflexivity|cbn; lia]|plainly].
Definition only_last_obs (b : list mrec) : bool := forallb (fun m => match m with MObs _ _ => false | _ => true end) b.
Lemma no_obs l : only_last_obs l = true -> forall n c, ~ In (MObs n c) l.
Proof. intros H n c I. unfold only_last_obs in H. rewrite forallb_forall in H. now specialize (H _ I). Qed.
Definition no_scale_b (b : list mrec) : bool := forallb (fun m => match m with MScale _ _ _ _ => false | _ => true end) b.
Lemma no_scales l : no_scale_b l = true -> forall n f u c, ~ In (MScale n f u c) l.
Proof. intros H n f u c I. unfold no_scale_b in H. rewrite forallb_forall in H. now specialize (H _ I). Qed.
Lemma full_codes : Forall code_ok [L1; L2; ObsCode frequency_offset 0].
Proof. constructor; [left; reflexivity|]. constructor; [right; reflexivity|]. constructor; [reflexivity|constructor]. Qed.
Lemma full_ok : header_ok Z day three_oh (str "prog") full.
Proof.
  refine (conj _ (conj _ (conj (conj _ _) (conj _ (conj _ _))))).
  - fnumly.
  - plainly.
  - unfold full. constructor; [named|]. constructor; [named|]. constructor; [exact I|]. constructor; [plainly|].
    constructor; [refine (conj _ (conj _ _)); named|]. constructor; [exact I|].
    constructor; [refine (conj _ (conj _ _)); fnumly|]. constructor; [refine (conj _ (conj _ _)); fnumly|].
    constructor.
    { refine (conj full_codes (conj _ (conj _ (conj _ (conj _ _))))); [|numeral_here|cbn; lia|reflexivity|cbn; lia].
      repeat constructor; cbn; intuition discriminate. }
    constructor; [split; [plainly|discriminate]|].
    constructor.
    { refine (conj _ (conj _ (conj _ (conj _ (conj _ (conj _ (conj _ (conj _ _)))))))); [|repeat constructor; cbn; tauto|numeral_here|cbn; lia|cbv; discriminate|numeral_here|cbn; lia|reflexivity|cbn; lia].
      constructor; [right; reflexivity|constructor]. }
    constructor; [fnumly|].
    constructor.
    { refine (conj _ (conj _ _)); [plainly|plainly|]. apply Forall_forall. intros t HI. cbn in HI. repeat (destruct HI as [<-|HI]; [discriminate|]). contradiction. }
    constructor; [refine (conj _ (conj _ _)); [numeral_here|cbn; lia|cbv; discriminate]|].
    constructor; [station_here|]. constructor; [station_here|].
    constructor; [refine (conj _ (conj _ _)); [numeral_here|cbn; lia|cbv; discriminate]|].
    constructor; [refine (conj _ (conj _ (conj _ _))); [plainly|reflexivity|fnumly|fnumly]|].
    constructor; [split; [plainly|discriminate]|]. constructor; [exact I|]. constructor.
  - assert (P : forall ms pre, (forall l1 m l2, ms = l1 ++ m :: l2 -> rec_after (pre ++ l1) m) <->
       match ms with [] => True | m :: r => rec_after pre m /\ forall l1 x l2, r = l1 ++ x :: l2 -> rec_after ((pre ++ [m]) ++ l1) x end).
    { intros [|m r] pre; split.
      - auto.
      - intros _ l1 m l2 E. destruct l1; discriminate.
      - intros H. split; [specialize (H [] m r eq_refl); now rewrite app_nil_r in H|]. intros l1 x l2 ->. rewrite <- app_assoc. apply (H (m :: l1) x l2 eq_refl).
      - intros [A B] [|y l1] x l2 E; injection E as -> E; [now rewrite app_nil_r|]. specialize (B l1 x l2 E). now rewrite <- app_assoc in B. }
    change (forall l1 m l2, full = l1 ++ m :: l2 -> rec_after ([] ++ l1) m). unfold full.
    do 8 (apply P; split; [exact I|]).
    apply P; split; [intros ? ? ? ?; apply no_scales; reflexivity|]. apply P; split; [exact I|].
    apply P; split.
    { exists [3%Z], [L1; L2; ObsCode frequency_offset 0]. cbn [app]. 
      exists (firstn 8 full), [MFirst (str "2024 01 01")]. refine (conj eq_refl (conj _ _)); [intros ? ?; apply no_obs; reflexivity|].
      intros x [<-|[]]. right. now left. }
    do 6 (apply P; split; [exact I|]).
    apply P; split.
    { do 7 eexists. cbn [app]. do 15 right. left. reflexivity. }
    do 2 (apply P; split; [exact I|]). intros l1 m l2 E. destruct l1; discriminate.
  - reflexivity.
  - cbn. lia.
  - intros _. discriminate.
Qed.
Example rinex_header_case : header_ok Z day three_oh (str "prog") full /\
  exists h, open_rinex Z day array false (Some (header_file three_oh (str "prog") full (str "> data"))) = Some (Ok (inr (h, 1%Z, s_open (str "> data")))) /\
  h_factors _ h = [1; 100; 1]%Z /\ h_text _ h SatelliteName = Some (str "JASON-3") /\ map (fun r => rs_code r) (h_refs _ h) = [str "D02"] /\ h_applied _ h = true.
Proof.
  split; [exact full_ok|]. destruct (header_round_trip Z day three_oh (str "prog") full (str "> data") array full_ok) as (h & E & R).
  vm_compute in E. injection E as <-. eexists. split; [vm_compute; reflexivity|]. vm_compute. auto.
Qed.
Example rinex_header_defined_case : Forall safe (version_line three_oh :: program_line (str "prog") :: map text_of full ++ [end_line]) /\ marked end_line "END OF HEADER".
Proof.
  split; [|reflexivity].
  assert (NB : forall n t, existsb (fun c => negb (Ascii.eqb c blank)) (firstn n t) = true -> not_blank n t).
  { induction n as [|n IH]; intros [|c t] H; try discriminate. cbn [firstn existsb] in H. destruct (Ascii.eqb_spec c blank) as [->|NE].
    - destruct (IH t H) as (i & d & A & B & C). exists (S i), d. split; [lia|auto].
    - exists 0, c. split; [lia|auto]. }
  apply Forall_forall. intros t HI.
  assert (H : forallb (fun t => (60 <=? length t) && (length t <=? 80) && forallb (fun c => negb (Ascii.eqb c nl) && negb (Ascii.eqb c nul)) t &&
     existsb (fun c => negb (Ascii.eqb c blank)) (firstn 20 t) &&
     (if list_eq_dec ascii_dec (firstn 19 (skipn 60 t)) (str "SYS / # / OBS TYPES") then (wrap 32 (l_val (strtol (skipn 1 t))) <? 13)%Z else true))
     (version_line three_oh :: program_line (str "prog") :: map text_of full) = true) by (vm_compute; reflexivity).
  change (version_line three_oh :: program_line (str "prog") :: map text_of full ++ [end_line]) with ((version_line three_oh :: program_line (str "prog") :: map text_of full) ++ [end_line]) in HI.
  apply in_app_or in HI as [HI|[<-|[]]].
  - rewrite forallb_forall in H. specialize (H t HI). apply andb_prop in H as [H E]. apply andb_prop in H as [H D]. apply andb_prop in H as [H C]. apply andb_prop in H as [A B].
    refine (conj (conj _ _) (conj _ (conj _ (conj _ _)))); [now apply Nat.leb_le|now apply Nat.leb_le|now apply clean_check| |intros _; now apply NB|].
    + intros _. destruct (NB 20 t D) as (i & c & X & Y). exists i, c. split; [lia|exact Y].
    + intros M. destruct (list_eq_dec _ _ _) as [_|NE]; [now apply Z.ltb_lt|now destruct NE].
  - refine (conj (conj _ _) (conj _ (conj _ (conj _ _)))); [cbn; lia|cbn; lia|now apply clean_check| | |]; [intros [M|M]|intros [M|M]|intros M]; vm_compute in M; discriminate.
Qed.

(* ---------- what does not hold ---------- *)
Definition file_of (ls : list chars) : option chars := Some (file_text (version_line three_oh :: program_line [] :: ls ++ [end_line]) [nl]).
(* C95: a satellite record with nothing in its columns makes the program read before the line *)
Theorem rinex_header_blank_name_refuted : open_rinex Z day array false (file_of [hline [] (str "SATELLITE NAME")]) = Some UB.
Proof. vm_compute. reflexivity. Qed.
Print Assumptions rinex_header_blank_name_refuted.
(* C95: thirteen observation types stop the program *)
Theorem rinex_header_many_types_refuted : exists t, line_ok 81 t /\ marked t "SYS / # / OBS TYPES" /\ open_rinex Z day array false (file_of [t]) = Some UB.
Proof.
  exists (hline (obs_types_text [1; 3]%Z (repeat L1 12) []) (str "SYS / # / OBS TYPES")).
  refine (conj (conj _ _) (conj _ _)); [apply clean_nl; now apply clean_check|cbn; lia|reflexivity|vm_compute; reflexivity].
Qed.
Print Assumptions rinex_header_many_types_refuted.
(* C95: no satellite, no date, no observation types, no offset of the frequencies: accepted *)
Theorem rinex_header_mandatory_refuted : exists h,
  open_rinex Z day array false (file_of (map text_of [MCount [1]%Z; beacon 1 "TLSB"])) = Some (Ok (inr (h, 0%Z, s_open [nl]))) /\
  h_codes _ h = [] /\ h_text _ h SatelliteName = None /\ h_date _ h FirstObs = None /\ h_number _ h DateOffset = None.
Proof. eexists. split; [vm_compute; reflexivity|]. repeat split. Qed.
Print Assumptions rinex_header_mandatory_refuted.
(* C95: the observation types without a scale factor (which then are all one): rejected *)
Theorem rinex_header_no_factor_refuted :
  open_rinex Z day array false (file_of (map text_of [MObs [1]%Z [L1]; MCount [1]%Z; beacon 1 "TLSB"])) = Some (Ok (inl (-3)%Z)).
Proof. vm_compute. reflexivity. Qed.
Print Assumptions rinex_header_no_factor_refuted.
(* C95: a short line is read under the label of the line before *)
Theorem rinex_header_stale_label_refuted : exists h,
  open_rinex Z day array false (file_of ([text_of (MCount [2]%Z); str "1"] ++ [text_of (beacon 1 "TLSB")])) = Some (Ok (inr (h, 0%Z, s_open [nl]))) /\
  length (h_stations _ h) = 1.
Proof. eexists. split; [vm_compute; reflexivity|]. reflexivity. Qed.
Print Assumptions rinex_header_stale_label_refuted.
(* C95: the factors stay where they are when the observation types are given again *)
Theorem rinex_header_factor_order_refuted : exists h,
  open_rinex Z day array false (file_of (map text_of [MObs [2]%Z [L1; L2]; MScale false [1; 0]%Z [1]%Z [L2]; MObs [2]%Z [L2; L1]; MCount [1]%Z; beacon 1 "TLSB"]))
    = Some (Ok (inr (h, 1%Z, s_open [nl]))) /\ h_codes _ h = [L2; L1] /\ h_factors _ h = [1; 10]%Z.
Proof. eexists. split; [vm_compute; reflexivity|]. split; reflexivity. Qed.
Print Assumptions rinex_header_factor_order_refuted.
(* C95: an error number left by an earlier call rejects a good header *)
Theorem rinex_header_errno_refuted :
  (exists r, open_rinex Z day array false (file_of (map text_of [MClock true; MCount [1]%Z; beacon 1 "TLSB"])) = Some (Ok (inr r))) /\
  open_rinex Z day array true (file_of (map text_of [MClock true; MCount [1]%Z; beacon 1 "TLSB"])) = Some (Ok (inl 210%Z)).
Proof. split; [eexists|]; vm_compute; reflexivity. Qed.
Print Assumptions rinex_header_errno_refuted.
