From Coq Require Import String List ZArith Ascii Bool Lia.
From Verif Require Import CLib_model HttpGet_model HttpGet_proofs.
Import ListNotations.
Local Open Scope Z_scope.

(* C57: without force an existing file is left alone, the network is not used and the result is negative *)
Theorem download_skipped : forall p t c, p_node p = File c -> http_get false p t = (-1, File c, false).
Proof. exact get_skip. Qed.
Print Assumptions download_skipped.
Example download_skipped_case : http_get false (Place (File (list_ascii_of_string "old")) true true) (Transfer 0 [] []) = (-1, File (list_ascii_of_string "old"), false).
Proof. reflexivity. Qed.
(* C57: the result is negative exactly then; zero means that the transfer succeeded and the file holds what it wrote *)
Theorem download_codes : forall force p t r n u, http_get force p t = (r, n, u) ->
  (r < 0 <-> force = false /\ exists c, p_node p = File c) /\ (r < 0 -> r = -1) /\ (r = 0 -> u = true /\ t_status t = 0 /\ n = File (t_kept t)).
Proof. exact get_codes. Qed.
Print Assumptions download_codes.
(* C57: a failed download leaves nothing behind where nothing was.  Missing: where something was, refuted below *)
Theorem download_failure_partial : forall force p t r n u, http_get force p t = (r, n, u) -> 0 < r -> p_node p = Missing -> p_remove p = true -> n = Missing.
Proof. exact get_failure. Qed.
Print Assumptions download_failure_partial.
Example download_failure_case : http_get true (Place Missing true true) (Transfer 22 [] []) = (22, Missing, true).
Proof. reflexivity. Qed.
(* C57: a forced download that fails removes the file that was there, even if it was never opened *)
Theorem download_failure_refuted : exists p t c r, p_node p = File c /\ c <> [] /\ p_open p = false /\ http_get true p t = (r, Missing, false) /\ 0 < r.
Proof. exists (Place (File (list_ascii_of_string "old")) false true), (Transfer 0 [] []), (list_ascii_of_string "old"), 1. repeat split; discriminate. Qed.
Print Assumptions download_failure_refuted.
(* C57: and so does every failed transfer *)
Theorem failed_transfer_destroys : forall p t c, p_node p = File c -> p_remove p = true -> t_status t <> 0 -> snd (fst (http_get true p t)) = Missing.
Proof. exact get_destroys. Qed.
Print Assumptions failed_transfer_destroys.
(* C57: a directory is removed, without force too *)
Theorem download_directory_refuted : exists t r, http_get false (Place (Dir true) true true) t = (r, Missing, false) /\ 0 < r.
Proof. exists (Transfer 0 [] []), 1. split; reflexivity. Qed.
Print Assumptions download_directory_refuted.
(* C57: success is reported although the last bytes did not reach the disk *)
Theorem download_content_refuted : exists t n, http_get true (Place Missing true true) t = (0, n, true) /\ n <> File (t_body t).
Proof. exists (Transfer 0 (list_ascii_of_string "ab") (list_ascii_of_string "a")), (File (list_ascii_of_string "a")). split; [reflexivity|]. discriminate. Qed.
Print Assumptions download_content_refuted.
