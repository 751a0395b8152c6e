(* C106: the polynomial through the relative frequency offsets of DORIS RINEX files, from their bytes. *)
From Coq Require Import String List ZArith QArith Ascii Bool Lia.
From Verif Require Import Base CLib_model CLib_proofs Stream_model SysInfo_model SysInfo_proofs Rinex_model Rinex_proofs
  RnxHead_model RnxHead_proofs RnxFile_model RnxFile_proofs RnxFileText_proofs RnxFile_props RnxWhole_model RnxWhole_proofs
  RfoFit_model RfoFit_proofs DopFile_props PolyFile_model PolyFile_proofs.
Import ListNotations.
Local Open Scope nat_scope.

(* C106: the fit ends for all files *)
Theorem offset_files_end : forall strptime junk errno hdr0 none solve use_tai every order start fin num_days line0 files,
  exists r, fit_poly_files strptime junk errno hdr0 none solve use_tai every order start fin num_days line0 files = Some r.
Proof. exact poly_files_end. Qed.
Print Assumptions offset_files_end.

(* C106: what can come out, for all files: 0, only if every file was opened and read to its end or to a block at or
   behind the end of the range; 1 and no polynomial; the end of the program, only if some file could not be opened or
   its header not be read *)
Theorem offset_files_codes : forall strptime junk errno hdr0 none solve use_tai every order start fin num_days line0 files r,
  fit_poly_files strptime junk errno hdr0 none solve use_tai every order start fin num_days line0 files = Some (Ok r) ->
  match r with
  | PCode c fit => (c = 0%Z /\ Forall (file_covered strptime junk errno hdr0 fin) files) \/ (c = 1%Z /\ fit = None)
  | PTerminated => exists f c, In f files /\ open_rinex Z strptime junk errno f = Some (Ok (inl c))
  end.
Proof. exact poly_files_codes. Qed.
Print Assumptions offset_files_codes.

(* C106: files printed as the format says, F among the observables, a beacon in each block, the blocks of the range in
   complete groups of two or more: code 0 and a polynomial with the least sum of squares against the averages of the
   printed offsets of the groups, at the middle of their dates, counted in seconds from the reference epoch of the
   first file.  Missing: incomplete groups, missing values (refuted below and in C83), headers as in C95. *)
Theorem offset_files_fit_partial : forall strptime junk hdr0 none solve use_tai every order start fin num_days line f fs gss, solver solve -> 2 <= every -> 1 <= order ->
  Forall2 (pfile_ok strptime every start fin) (f :: fs) gss -> RfoFit_proofs.fits (groups gss) every num_days ->
  exists pts, printed_points use_tai (or_else none (last_given (gives_date Z strptime RefStatDate) (pf_ms f))) (f :: fs) gss pts /\
  (enough_dates (order + 1) pts -> exists cf,
    fit_poly_files strptime junk false hdr0 none solve use_tai every order start fin num_days line (map (fun f => Some (pfile_bytes f)) (f :: fs)) =
      Some (Ok (PCode 0 (Some (Some (or_else none (last_given (gives_date Z strptime RefStatDate) (pf_ms f))), cf)))) /\
    length cf = (order + 1)%nat /\ forall z, length z = (order + 1)%nat -> (cost pts cf <= cost pts z)%Q).
Proof. intros strptime junk hdr0 none. exact (poly_files_ok strptime junk hdr0 none). Qed.
Print Assumptions offset_files_fit_partial.

(* ---------- cases ---------- *)
(* the last digit of the date, in tens of seconds *)
Definition hand (s : chars) : option Z := Some (Z.of_nat (nat_of_ascii (nth 28 s "0"%char) - 48) * 10000000000)%Z.
Definition on (d : ascii) (f : fld) : sight :=
  Sight (MBlk (ME (repeat "1"%char 28 ++ [d]) 0 [1]%Z None 1 []) (one_beacon (whole [1]%Z) (whole [2]%Z) f))
    (Z.of_nat (nat_of_ascii d - 48) * 10000000000) (Z.of_nat (nat_of_ascii d - 48) * 10000000000).
Definition file_of (ss : list sight) : pfile := PFile three_oh (str "prog") full ss.
Lemma full_hand : header_ok Z hand three_oh (str "prog") full.
Proof.
  destruct full_ok as (A & B & (C1 & C2) & D & E & G). refine (conj A (conj B (conj (conj _ C2) (conj D (conj E G))))).
  eapply Forall_impl; [|exact C1]. intros m H. destruct m; cbn [rec_ok] in *; try exact H; (split; [apply H|discriminate]).
Qed.
Lemma on_ok d f : In d ["0"; "1"; "2"; "3"]%char -> fld_ok f -> mblock_ok 3 (sg_block (on d f)) /\ bl_beacons (sg_block (on d f)) <> [] /\ sight_ok hand true (on d f).
Proof.
  intros I Hf. split; [|split; [discriminate|split; [|exists 0%Z; split; [reflexivity|cbn [on sg_l1 sg_epoch]; lia]]]].
  - unfold on. cbn [sg_block]. split.
    + split; [reflexivity|]. split; [intros J; cbn [me_date] in J; apply in_app_iff in J as [J|[J|[]]]; [apply repeat_spec in J; discriminate|subst d; cbn in I; intuition discriminate]|].
      split; [unfold digit; cbn; lia|]. split; [split; [discriminate|digitly]|]. split; [cbn; lia|]. split; [exact Logic.I|]. split; [unfold digit; cbn; lia|]. split; [intros []|exact Logic.I].
    + cbn in I. destruct I as [<-|[<-|[<-|[<-|[]]]]]; (split; [apply no_nl_check; reflexivity|]; split; [vm_compute; lia|]; split; [reflexivity|]; constructor; [|constructor];
        (split; [split; [reflexivity|split; [eexists; reflexivity|apply no_nl_check; reflexivity]]|]); (split; [reflexivity|]);
        constructor; [split; [apply whole_ok; [discriminate|digitly|cbn; lia]|split; discriminate]|constructor; [split; [apply whole_ok; [discriminate|digitly|cbn; lia]|split; discriminate]|constructor; [split; [exact Hf|split; discriminate]|constructor]]]).
  - cbn in I. destruct I as [<-|[<-|[<-|[<-|[]]]]]; reflexivity.
Qed.
Definition four : list sight := [on "0" (whole [5]%Z); on "1" (whole [6]%Z); on "2" (whole [7]%Z); on "3" (whole [8]%Z)].
Definition fitted (every : nat) (files : list (option chars)) : option (outcome poly_end) :=
  fit_poly_files hand array false (RHdr 0 0 0 0 0) (-1) elimination true every 1 0 1000000000000 1 (repeat "?"%char 124) files.
Example offset_files_case : Forall2 (pfile_ok hand 2 0 1000000000000) [file_of four] [[firstn 2 four; skipn 2 four]] /\ RfoFit_proofs.fits 2 2 1 /\ solver elimination /\
  exists cf, fitted 2 [Some (pfile_bytes (file_of four))] = Some (Ok (PCode 0 (Some (Some 0%Z, cf)))) /\ Forall2 Qeq cf [5; 1 # 10]%Q.
Proof.
  split; [|split; [vm_compute; discriminate|split; [exact elimination_solver|]]].
  - constructor; [|constructor]. refine (conj full_hand (conj _ (conj _ (conj _ (conj _ _))))).
    + cbn. auto.
    + cbn [file_of pf_ms pf_ss]. change (length (codes_given full)) with 3. change (or_else false (last_given gives_clock full)) with true.
      unfold four. repeat (constructor; [apply on_ok; [cbn; tauto|apply whole_ok; [discriminate|digitly|cbn; lia]]|]). constructor.
    + reflexivity.
    + discriminate.
    + repeat constructor.
  - eexists. split; [vm_compute; reflexivity|]. repeat (apply Forall2_cons; [vm_compute; reflexivity|]). apply Forall2_nil.
Qed.

(* C106: a file that is not there ends the program, first or not *)
Theorem offset_files_unreadable_refuted : fitted 2 [None] = Some (Ok PTerminated) /\ fitted 2 [Some (pfile_bytes (file_of four)); None] = Some (Ok PTerminated).
Proof. split; vm_compute; reflexivity. Qed.
Print Assumptions offset_files_unreadable_refuted.
(* C106: one block left over: 0 is returned and there is no finite polynomial *)
Theorem offset_files_remainder_refuted : fitted 2 [Some (pfile_bytes (file_of (firstn 3 four)))] = Some (Ok (PCode 0 None)).
Proof. vm_compute. reflexivity. Qed.
Print Assumptions offset_files_remainder_refuted.
(* C106: a blank offset is averaged as if the marker had been measured: at the middle of the second group, where 7 and a
   missing value were printed, the line has the half of the sum of 7 and the marker *)
Theorem offset_files_missing_refuted : exists ss a b, ss = firstn 3 four ++ [on "3" FBlank] /\
  fitted 2 [Some (pfile_bytes (file_of ss))] = Some (Ok (PCode 0 (Some (Some 0%Z, [a; b])))) /\ (a + b * 25 == (7 + MISSING) / 2)%Q.
Proof. do 3 eexists. split; [reflexivity|]. split; [vm_compute; reflexivity|vm_compute; reflexivity]. Qed.
Print Assumptions offset_files_missing_refuted.
(* C106: a file without F is undefined behaviour *)
Definition without_f : chars := header_file three_oh (str "prog")
  [MSat (str "JASON-3"); MCospar (str "2016-002A"); MMarker; MObserver (str "SPA_BN1_4.7P1"); MReceiver (str "CHAIN1") (str "DGXX") (str "1.00"); MAntenna;
   MPosition (RnxFile_props.num [1]%Z [5]%Z) (RnxFile_props.num [0]%Z [2; 5]%Z) (RnxFile_props.num [2]%Z []); MMass (RnxFile_props.num [9]%Z [7]%Z) (RnxFile_props.num [0]%Z [0]%Z) (RnxFile_props.num [1]%Z [1]%Z);
   MObs [3]%Z [L1; L2; ObsCode power_level 1]; MFirst (str "2024 01 01"); MScale false [1; 0; 0]%Z [1]%Z [L2]; MOffset (RnxFile_props.num [2]%Z [5]%Z);
   MCount [2]%Z; RnxFile_props.beacon 1 "TLSB"; RnxFile_props.beacon 2 "TLHB"; MRefCount [1]%Z; MRef (str "D02") (RnxFile_props.num [1]%Z [0]%Z) (RnxFile_props.num [0]%Z [5]%Z);
   MRefDate (str "2024 01 01"); MClock true] (flat_map mblock_text (map sg_block four)).
Theorem offset_files_no_f_refuted : (exists h lpb s, open_rinex Z hand array false (Some without_f) = Some (Ok (inr (h, lpb, s))) /\ h_codes _ h = [L1; L2; ObsCode power_level 1]) /\
  fitted 2 [Some without_f] = Some UB.
Proof. split; [|vm_compute; reflexivity]. do 3 eexists. split; [vm_compute; reflexivity|reflexivity]. Qed.
Print Assumptions offset_files_no_f_refuted.
