(* Property theorem C14. *)
From Coq Require Import List ZArith QArith Ascii.
From Verif Require Import Base CLib_model CLib_proofs Stream_model Lines_model Lines_proofs Eop_model Eop_proofs C04_model C04_proofs.
Import ListNotations.
Local Open Scope Z_scope.

(* C14: files whose records are in strictly chronological order.  Missing: files
   listing a day twice, for which the claim is refuted below. *)
Theorem c04_reader_stores_requested_days_partial : forall tt start fin t0 items ls last,
  start <= fin -> built t0 -> Forall item_ok items ->
  Forall (fun t => ~ In nl t /\ (length t < C04_LINE)%nat) (map item_text items) ->
  seen ls last = map item_text items -> chronological (records items) ->
  exists code t, parse_c04 tt (Some (file_text ls last)) start fin t0 = Some (Ok (code, t)) /\
    (code = 0 <-> forall d, start <= d < fin -> exists r, In r (records items) /\ day r = d) /\
    (code = 0 -> Z.of_nat (t_sz t) = fin - start /\
       forall r, In r (records items) -> start <= day r < fin -> row_is tt t (Z.to_nat (day r - start)) r).
Proof. exact c04_chronological. Qed.
Print Assumptions c04_reader_stores_requested_days_partial.

(* C14: any order of records, as long as no more of them fall into the interval
   (before the first later day) than there are days *)
Theorem c04_reader_stores_records_in_file_order_partial : forall tt start fin t0 items ls last,
  start <= fin -> built t0 -> Forall item_ok items ->
  Forall (fun t => ~ In nl t /\ (length t < C04_LINE)%nat) (map item_text items) ->
  seen ls last = map item_text items ->
  Z.of_nat (length (taken start fin (records items))) <= fin - start ->
  exists t, parse_c04 tt (Some (file_text ls last)) start fin t0 =
      Some (Ok (if fin - start =? Z.of_nat (length (taken start fin (records items))) then 0 else 1, t)) /\
    Z.of_nat (t_sz t) = fin - start /\
    forall k r, nth_error (taken start fin (records items)) k = Some r -> row_is tt t k r.
Proof. exact c04_reads. Qed.
Print Assumptions c04_reader_stores_records_in_file_order_partial.

(* C14: the reader ends on every file *)
Theorem c04_reader_ends : forall tt content start fin t0, exists r, parse_c04 tt content start fin t0 = Some r.
Proof. exact c04_ends. Qed.
Print Assumptions c04_reader_ends.

(* C14: never beyond the capacity - refuted by a repeated day *)
Theorem c04_repeated_day_overflow_refuted : Forall item_ok [Rec day0; Rec day0; Rec day0] /\
  parse_c04 inject_Z (Some (file_text (map item_text [Rec day0; Rec day0; Rec day0]) [])) 59000 59001 (t_new Q 0) = Some UB.
Proof. exact duplicate_overflow. Qed.
Print Assumptions c04_repeated_day_overflow_refuted.

(* C14: one per day - refuted: success although day 59001 is absent *)
Theorem c04_missing_day_accepted_refuted : Forall item_ok [Rec day0; Rec day0] /\
  (exists t, parse_c04 inject_Z (Some (file_text (map item_text [Rec day0; Rec day0]) [])) 59000 59002 (t_new Q 0) = Some (Ok (0, t)) /\
     t_get t Mjd 1 = Ok (Some (inject_Z 59000))) /\
  ~ exists r, In r (records [Rec day0; Rec day0]) /\ day r = 59001.
Proof. exact duplicate_accepted. Qed.
Print Assumptions c04_missing_day_accepted_refuted.

(* a file with a comment, two days and no final newline *)
Example c04_case : Forall item_ok [Comment ["#"%char]; Rec day0; Rec day1] /\
  seen [["#"%char]; rec_text day0] (rec_text day1) = map item_text [Comment ["#"%char]; Rec day0; Rec day1] /\
  chronological (records [Comment ["#"%char]; Rec day0; Rec day1]) /\ built (t_new Q 4) /\
  exists t, parse_c04 inject_Z (Some (file_text [["#"%char]; rec_text day0] (rec_text day1))) 59000 59002 (t_new Q 4) = Some (Ok (0, t)) /\
            t_get t Mjd 1 = Ok (Some (inject_Z 59001)).
Proof.
  split; [apply Forall_cons; [right; reflexivity|]; apply Forall_cons; [exact day0_ok|]; apply Forall_cons; [exact day1_ok|apply Forall_nil]|].
  split; [reflexivity|]. split; [repeat constructor|]. split; [exists 4%nat, []; reflexivity|].
  eexists. split; vm_compute; reflexivity.
Qed.
