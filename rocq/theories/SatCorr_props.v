(* Property theorem C33. *)
From Coq Require Import String List ZArith QArith Ascii Sorted.
From Verif Require Import Base CLib_model CLib_proofs Stream_model Lines_proofs Icgem_model SatCorr_model SatCorr_proofs.
Import ListNotations.

(* C33: files whose fields carry one character in front of the number and in which
   no record of a later day has fewer seconds of day than the epoch: the last record
   strictly before the epoch.  Missing: all other files and records exactly at the
   epoch, refuted below. *)
Theorem latest_correction_partial : forall buf0 dm0 jd sec items ls last, Forall citem_ok items -> seen ls last = map citem_text items ->
  StronglySorted rec_before (crecs items) -> (forall r, In r (crecs items) -> jd < fval (r_day r) -> sec <= fval (r_sec r)) ->
  exists dm, sat_corrections buf0 (Some (file_text ls last)) jd sec dm0 = Some (Ok (O, dm)) /\
    (forall r, In r (crecs items) -> epoch_before r jd sec ->
       (forall r', In r' (crecs items) -> epoch_before r' jd sec -> r' = r \/ rec_before r' r) -> same4 dm (corr r)) /\
    ((forall r, In r (crecs items) -> ~ epoch_before r jd sec) -> same4 dm [0; 0; 0; 0]).
Proof. exact latest_correction. Qed.
Print Assumptions latest_correction_partial.

(* C33: any such file: the record in front of the first one with day and second both
   not less than those of the epoch *)
Theorem correction_scan_partial : forall buf0 dm0 jd sec items ls last, Forall citem_ok items -> seen ls last = map citem_text items ->
  exists dm, sat_corrections buf0 (Some (file_text ls last)) jd sec dm0 = Some (Ok (O, dm)) /\
    same4 dm (final [0; 0; 0; 0] (taken jd sec (crecs items))).
Proof. exact scan_result. Qed.
Print Assumptions correction_scan_partial.

(* C33: mass and centre of gravity *)
Theorem mass_cog_adds_corrections : forall s buf0 content jd sec u out0 dm,
  sat_corrections buf0 content jd sec u = Some (Ok (O, dm)) -> length dm = 4%nat ->
  exists out, mass_cog s buf0 content jd sec u out0 = Some (Ok (O, out)) /\
    forall k a c, nth_error (at_launch s) k = Some a -> nth_error dm k = Some c -> exists v, nth_error out k = Some v /\ v == a + c.
Proof. exact mass_is_sum. Qed.
Print Assumptions mass_cog_adds_corrections.

(* C33: an unreadable correction in a record before the epoch, or a missing file, is an error *)
Theorem correction_unreadable_fails : forall buf0 dm0 jd sec items d more ls last, Forall citem_ok items -> draft_ok d -> existsb is_bad (d_cor d) = true ->
  (forall r, In r (crecs items) -> ~ (jd <= fval (r_day r) /\ sec <= fval (r_sec r))) -> ~ reached jd sec d ->
  Forall (line_ok 256) more -> seen ls last = map citem_text items ++ draft_text d :: more ->
  exists code dm, sat_corrections buf0 (Some (file_text ls last)) jd sec dm0 = Some (Ok (code, dm)) /\ code <> O.
Proof. exact unreadable_fails. Qed.
Print Assumptions correction_unreadable_fails.
Theorem correction_file_missing_fails : forall buf0 jd sec dm0, sat_corrections buf0 None jd sec dm0 = Some (Ok (1%nat, dm0)).
Proof. exact no_file. Qed.
Print Assumptions correction_file_missing_fails.
Theorem mass_cog_fails_with_corrections : forall s buf0 content jd sec u out0 code dm,
  sat_corrections buf0 content jd sec u = Some (Ok (code, dm)) -> code <> O ->
  mass_cog s buf0 content jd sec u out0 = Some (Ok (1%nat, out0)).
Proof. exact mass_fails. Qed.
Print Assumptions mass_cog_fails_with_corrections.

(* C33: the scan ends on every file *)
Theorem correction_scan_ends : forall buf0 content jd sec dm0, exists r, sat_corrections buf0 content jd sec dm0 = Some r.
Proof. exact corrections_end. Qed.
Print Assumptions correction_scan_ends.

(* C33: lines 2457000.5 0.0 -1.5 ... and 2457010.5 0.0 -3.5 ...; for 2457001.5 the second
   line is delivered and its sign is lost *)
Theorem correction_first_character_lost_refuted : exists dm, sat_corrections zero256 (Some two_days) (24570015 # 10) 0 [] = Some (Ok (O, dm)) /\
  same4 dm [35 # 10; 6 # 10; 7 # 10; 8 # 10].
Proof. exact first_character_lost. Qed.
Print Assumptions correction_first_character_lost_refuted.

(* C33: a record of the following day is delivered *)
Theorem correction_of_next_day_refuted : Forall citem_ok tomorrow /\ StronglySorted rec_before (crecs tomorrow) /\
  ~ epoch_before (rec_at 2 [0%Z] 2) 10 5 /\
  exists dm, sat_corrections zero256 (Some (text_of tomorrow)) 10 5 [] = Some (Ok (O, dm)) /\ same4 dm (corr (rec_at 2 [0%Z] 2)).
Proof. exact tomorrow_used. Qed.
Print Assumptions correction_of_next_day_refuted.

(* C33: the record at exactly the epoch is not delivered *)
Theorem correction_at_epoch_refuted : exists dm, sat_corrections zero256 (Some (text_of tomorrow)) 10 0 [] = Some (Ok (O, dm)) /\ same4 dm [0; 0; 0; 0].
Proof. exact exact_epoch_not_used. Qed.
Print Assumptions correction_at_epoch_refuted.

(* C33: an empty line behind a comment makes the call fail *)
Theorem correction_empty_line_refuted : exists dm,
  sat_corrections zero256 (Some (lit "C comment" ++ [nl; nl] ++ text_of tomorrow)) 30 0 [] = Some (Ok (2%nat, dm)).
Proof. exact empty_line_error. Qed.
Print Assumptions correction_empty_line_refuted.

Example correction_case : Forall citem_ok tomorrow /\ StronglySorted rec_before (crecs tomorrow) /\
  (forall r, In r (crecs tomorrow) -> 15 < fval (r_day r) -> 0 <= fval (r_sec r)) /\
  exists dm, sat_corrections zero256 (Some (text_of tomorrow)) 15 0 [] = Some (Ok (O, dm)) /\ same4 dm (corr (rec_at 1 [0%Z] 1)).
Proof.
  destruct tomorrow_used as (A & B & _). split; [exact A|]. split; [exact B|]. split.
  - intros r [<-|[<-|[]]] _; discriminate.
  - eexists. split; [vm_compute; reflexivity|]. repeat constructor.
Qed.
Definition no_mass := Draft (day_field 1) (sec_field [0%Z]) [inr (BadField 2 "0" "x"); inl (fl 1); inl (fl 2); inl (fl 3)] [].
Example unreadable_case : draft_ok no_mass /\ existsb is_bad (d_cor no_mass) = true /\ ~ reached 30 0 no_mass.
Proof.
  assert (F : forall d, (0 <= d <= 9)%Z -> field_ok (fl d)) by (intros d D; repeat split; try discriminate; repeat constructor; cbn; apply D || discriminate).
  split; [|split; [reflexivity|intros [C _]; vm_compute in C; apply C; reflexivity]].
  split; [repeat split; try discriminate; repeat constructor; discriminate|].
  split; [repeat split; try discriminate; repeat constructor; discriminate|].
  split; [reflexivity|]. split; [|split; [exact I|split; [|split; [vm_compute; intuition discriminate|vm_compute; repeat constructor]]]].
  - apply Forall_cons; [repeat split; discriminate|]. repeat (apply Forall_cons; [apply F; split; discriminate|]). apply Forall_nil.
  - intros C. apply comments_yes in C. discriminate.
Qed.
