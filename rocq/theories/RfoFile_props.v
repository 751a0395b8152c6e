(* C105: the line through the relative frequency offsets of DORIS RINEX files, from their bytes. *)
From Coq Require Import String List Reals ZArith QArith Qreals Ascii Bool Lia Lra.
From Verif Require Import Base CLib_model CLib_proofs Stream_model SysInfo_model SysInfo_proofs Rinex_model Rinex_proofs
  RnxHead_model RnxHead_proofs RnxFile_model RnxFile_proofs RnxFileText_proofs RnxFile_props RnxWhole_model RnxWhole_proofs RnxWhole_props
  Kalman2_model Kalman2_proofs RfoKalman_model RfoKalman_proofs BlockRead_model DopFile_model DopFile_proofs DopFile_props RfoFile_model RfoFile_proofs.
Import ListNotations.
Local Open Scope nat_scope.

(* C105: the fit ends for all files *)
Theorem frequency_files_end : forall strptime junk errno hdr0 line0 files sx sv sz,
  exists r, fit_files strptime junk errno hdr0 line0 files sx sv sz = Some r.
Proof. exact fit_end. Qed.
Print Assumptions frequency_files_end.

(* C105: what can come out, for all files: 0 and a line, 1, or the end of the program when the first file cannot be
   opened or its header not be read.  0 is returned only if every file has F among its observables and consists, behind
   its header and up to its end, of blocks of at least one beacon whose values of F are all the same; the line is
   then the only one of least cost for all these values, with the first value of the first file and a slope of 3 as prior *)
Theorem frequency_files_codes : forall strptime junk errno hdr0 line0 files sx sv sz r, (0 < sx)%R -> (0 < sv)%R -> (0 < sz)%R ->
  fit_files strptime junk errno hdr0 line0 files sx sv sz = Some (Ok r) ->
  (exists k f0 rest z0 t0 obss, r = Done 0%Z (Some k) /\ files = f0 :: rest /\ starts_with strptime junk errno hdr0 line0 f0 z0 t0 /\
     Forall2 (fun f obs => exists line, file_gives strptime junk errno hdr0 line f obs) files obss /\
     forall a b, (cost (Setup z0 3 sx sv sz t0) (concat obss) (lk_x0 k) (lk_x1 k) <= cost (Setup z0 3 sx sv sz t0) (concat obss) a b)%R /\
       (cost (Setup z0 3 sx sv sz t0) (concat obss) a b = cost (Setup z0 3 sx sv sz t0) (concat obss) (lk_x0 k) (lk_x1 k) -> a = lk_x0 k /\ b = lk_x1 k)) \/
  r = Done 1%Z None \/
  (r = Terminated /\ exists f0 rest c, files = f0 :: rest /\ open_rinex Z strptime junk errno f0 = Some (Ok (inl c))).
Proof.
  intros strptime junk errno hdr0 line0 files sx sv sz r X V Z E. apply fit_files_inv in E as [(k & f0 & rest & z0 & t0 & obss & -> & -> & S & F & ->)|[->|E]]; [left|right; left; reflexivity|right; right; exact E].
  eexists _, f0, rest, z0, t0, obss. split; [reflexivity|]. split; [reflexivity|]. split; [exact S|]. split; [exact F|].
  assert (SO : setup_ok (Setup z0 3 sx sv sz t0)) by (split; [exact X|split; [exact V|exact Z]]). exact (lk_optimal _ (concat obss) SO).
Qed.
Print Assumptions frequency_files_codes.

(* C105: files printed as the format says, F among the observables, in each block at least one beacon and one number of
   F for all: code 0 and the line is the only one of least cost for the printed numbers over the factor of F.
   Missing: that missing values are left out (refuted below), headers as in C95, numbers are rationals. *)
Theorem frequency_files_line_partial : forall strptime junk hdr0 line0 files obss z0 t0 obs0 rest sx sv sz,
  Forall2 (pfile_ok strptime) files obss -> obss = ((z0, t0) :: obs0) :: rest -> (0 < sx)%R -> (0 < sv)%R -> (0 < sz)%R ->
  exists k, fit_files strptime junk false hdr0 line0 (map (fun f => Some (pfile_bytes f)) files) sx sv sz = Some (Ok (Done 0%Z (Some k))) /\
    forall a b, (cost (Setup z0 3 sx sv sz t0) (concat obss) (lk_x0 k) (lk_x1 k) <= cost (Setup z0 3 sx sv sz t0) (concat obss) a b)%R /\
      (cost (Setup z0 3 sx sv sz t0) (concat obss) a b = cost (Setup z0 3 sx sv sz t0) (concat obss) (lk_x0 k) (lk_x1 k) -> a = lk_x0 k /\ b = lk_x1 k).
Proof.
  intros strptime junk hdr0 line0 files obss z0 t0 obs0 rest sx sv sz F E X V Z. eexists. split; [exact (fit_files_ok strptime junk hdr0 line0 files obss z0 t0 obs0 rest sx sv sz F E)|].
  assert (S : setup_ok (Setup z0 3 sx sv sz t0)) by (split; [exact X|split; [exact V|exact Z]]). exact (lk_optimal _ (concat obss) S).
Qed.
Print Assumptions frequency_files_line_partial.

(* ---------- cases ---------- *)
Definition with_f (f : fld) : mblock := at_epoch (one_beacon (whole [1]%Z) (whole [2]%Z) f).
Definition a_file (fs : list fld) : pfile := PFile three_oh (str "prog") full (map with_f fs).
Lemma full_place : place_of_f (codes_given full) 2.
Proof. apply find_f_place. reflexivity. Qed.
Lemma full_factor f : factor_of full (ObsCode frequency_offset 0) f -> f = 1%Z.
Proof.
  unfold factor_of. change (last_given gives_scale full) with (Some ([L2], 100%Z)). cbn. intros [_ H]. apply H. intuition discriminate.
Qed.
Lemma a_file_ok fs : Forall fld_ok fs -> pfile_ok day (a_file fs) (map (fun f => (Q2R (content f / inject_Z 1), 7%Z)) fs).
Proof.
  intros F. refine (conj full_ok (conj (ex_intro _ 2 full_place) (conj _ _))); cbn [a_file pf_ms pf_bls].
  - change (length (codes_given full)) with 3. induction F as [|f fs H F IH]; cbn [map]; constructor; [|exact IH].
    apply at_epoch_ok; [apply whole_ok; [discriminate|digitly|cbn; lia]..|exact H].
  - clear F. induction fs as [|f fs IH]; cbn [map]; constructor; [|exact IH]. split; [reflexivity|]. split; [discriminate|].
    exists 2, (ObsCode frequency_offset 0). split; [exact full_place|]. split; [reflexivity|]. constructor; [|constructor].
    intros m g E G. injection E as <-. apply full_factor in G. subst g. reflexivity.
Qed.
Lemma five_ok : fld_ok (whole [5]%Z). Proof. apply whole_ok; [discriminate|digitly|cbn; lia]. Qed.
Lemma six_ok : fld_ok (whole [6]%Z). Proof. apply whole_ok; [discriminate|digitly|cbn; lia]. Qed.
Example frequency_files_case : Forall2 (pfile_ok day) [a_file [whole [5]%Z; whole [6]%Z]; a_file [whole [6]%Z]]
  [[(Q2R (content (whole [5]%Z) / inject_Z 1), 7%Z); (Q2R (content (whole [6]%Z) / inject_Z 1), 7%Z)]; [(Q2R (content (whole [6]%Z) / inject_Z 1), 7%Z)]].
Proof.
  constructor; [|constructor; [|constructor]]; [apply (a_file_ok [whole [5]%Z; whole [6]%Z])|apply (a_file_ok [whole [6]%Z])]; repeat (constructor; [first [exact five_ok|exact six_ok]|]); constructor.
Qed.

Definition fitted (files : list (option chars)) : option (outcome (done (option lk))) :=
  fit_files day array false (RHdr 0 0 0 0 0) (repeat "?"%char 124) files 1 1 1.
(* C105: a first file that is not there ends the program though the caller catches the exception; in the second place
   it gives 1 *)
Theorem frequency_files_unreadable_refuted : fitted [None] = Some (Ok Terminated) /\ fitted [Some (pfile_bytes (a_file [whole [5]%Z])); None] = Some (Ok (Done 1%Z None)).
Proof. split; [reflexivity|]. cbv -[lk_update lk_init Q2R Rdefinitions.IZR]. reflexivity. Qed.
Print Assumptions frequency_files_unreadable_refuted.

(* C105: a file whose only F is blank: the line goes through the marker of missing values *)
Theorem frequency_files_missing_refuted : exists k, fitted [Some (pfile_bytes (a_file [FBlank]))] = Some (Ok (Done 0%Z (Some k))) /\ lk_x0 k = Q2R MISSING.
Proof.
  eexists. split.
  - unfold fitted. apply (fit_files_ok day array (RHdr 0 0 0 0 0) (repeat "?"%char 124) [a_file [FBlank]] [[(Q2R (content FBlank / inject_Z 1), 7%Z)]] (Q2R (content FBlank / inject_Z 1)) 7%Z [] []); [|reflexivity].
    constructor; [|constructor]. apply (a_file_ok [FBlank]). constructor; [exact Logic.I|constructor].
  - assert (E : Q2R (content FBlank / inject_Z 1) = Q2R MISSING) by (apply Qeq_eqR; reflexivity). rewrite E. generalize (Q2R MISSING). intros z.
    cbn [concat app lk_run fold_left fst snd]. unfold filter_of. cbn [su_x0 su_x1 su_s0 su_s1 su_so su_t0]. unfold lk_update, lk_value_at, lk_t2d, lk_init.
    cbn [lk_x0 lk_x1 lk_P0 lk_P1 lk_P2 lk_R lk_tref]. rewrite Z.sub_diag. unfold Rdiv. rewrite Rmult_0_l. generalize (86400000000000)%R. intros d. cbn [lk_x0]. Lra.lra.
Qed.
Print Assumptions frequency_files_missing_refuted.

(* C105: a second file whose line of data ends behind the identifier is read as if it held the numbers of the last line
   of the first file: the same line comes out *)
Definition cut_short : chars := header_file three_oh (str "prog") full (epoch_text (ex_epoch [1]%Z None) ++ nl :: str "D02 " ++ [nl]).
Theorem frequency_files_left_over_refuted : exists k,
  fitted [Some (pfile_bytes (a_file [whole [5]%Z])); Some cut_short] = Some (Ok (Done 0%Z (Some k))) /\
  fitted [Some (pfile_bytes (a_file [whole [5]%Z])); Some (pfile_bytes (a_file [whole [5]%Z]))] = Some (Ok (Done 0%Z (Some k))).
Proof. eexists. split; cbv -[lk_update lk_init Q2R Rdefinitions.IZR]; reflexivity. Qed.
Print Assumptions frequency_files_left_over_refuted.
