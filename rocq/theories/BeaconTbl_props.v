From Coq Require Import String List ZArith QArith Ascii Bool Lia.
From Verif Require Import Base CLib_model Stream_model Lines_model Lines_proofs BeaconTbl_model BeaconTbl_proofs.
Import ListNotations.
Local Open Scope Z_scope.

(* C55: a table of complete rows, read with a clear error number, gives exactly the rows whose
   span [from, to) holds the epoch, in file order, whatever the stack held.
   Missing: short or overlong rows and a leftover error number, refuted below. *)
Theorem table_rows_partial : forall strptime header rs last es array t,
  line_ok 256 header -> Forall row_text rs -> (last = [] \/ row_text last) -> Forall2 (row_entry strptime) (seen rs last) es ->
  load_to_memory strptime (Some (file_text (header :: rs) last)) array 0 t = Some (Ok (Rows (filter (in_span t) es))).
Proof. exact table_good. Qed.
Print Assumptions table_rows_partial.
Lemma ex_row_text a b : clean (ex_row a b) && Nat.leb 46 (length (ex_row a b)) && Nat.ltb (length (ex_row a b)) 256 = true -> row_text (ex_row a b).
Proof. rewrite !andb_true_iff, Nat.leb_le, Nat.ltb_lt. intros [[H ?] ?]. apply clean_ok in H. repeat split; tauto. Qed.
Example table_rows_case :
  load_to_memory ex_date (Some (file_text [ex_header; ex_row "1" "3"; ex_row "3" "5"; ex_row "2" "3"] [])) [] 0 2 =
    Some (Ok (Rows [Entry (list_ascii_of_string "ADEA") (513 # 1000) 1 3; Entry (list_ascii_of_string "ADEA") (513 # 1000) 2 3])).
Proof.
  rewrite (table_good ex_date ex_header [ex_row "1" "3"; ex_row "3" "5"; ex_row "2" "3"] []
    [Entry (list_ascii_of_string "ADEA") (513 # 1000) 1 3; Entry (list_ascii_of_string "ADEA") (513 # 1000) 3 5; Entry (list_ascii_of_string "ADEA") (513 # 1000) 2 3]);
    [reflexivity| | |left; reflexivity|].
  - split; [apply clean_ok; reflexivity|vm_compute; lia].
  - repeat (constructor; [apply ex_row_text; reflexivity|]). constructor.
  - unfold seen. cbn [app]. repeat (apply Forall2_cons; [split; [reflexivity|]; split; [reflexivity|]; split; [reflexivity|]; exists 8%nat; split; [vm_compute; reflexivity|discriminate]|]). apply Forall2_nil.
Qed.

(* C55: a table that cannot be opened, or with a row whose dates or height do not parse, is never
   read short: the call throws *)
Theorem table_errors : forall strptime header pre r post last es array errno t,
  load_to_memory strptime None array errno t = Some (Ok Throw) /\
  (line_ok 256 header -> Forall row_text (pre ++ r :: post) -> (last = [] \/ row_text last) -> Forall2 (row_entry strptime) pre es -> (forall e, ~ row_entry strptime r e) ->
   load_to_memory strptime (Some (file_text (header :: pre ++ r :: post) last)) array 0 t = Some (Ok Throw)).
Proof. intros. split; [reflexivity|]. intros. eapply table_bad; eassumption. Qed.
Print Assumptions table_errors.
Example table_errors_case : row_text (ex_row "x" "3") /\ forall e, ~ row_entry ex_date (ex_row "x" "3") e.
Proof. split; [apply ex_row_text; reflexivity|]. intros e (_ & H & _). discriminate H. Qed.

(* C55: every call ends, on every file *)
Theorem table_total_calls : forall strptime content array errno t, exists r, load_to_memory strptime content array errno t = Some r.
Proof. exact table_total. Qed.
Print Assumptions table_total_calls.

(* C55: the result depends on the error number left by earlier calls: any leftover makes every
   table with a complete first row throw *)
Theorem table_stale_errno : forall strptime header r rs last e array errno t,
  line_ok 256 header -> row_text r -> Forall row_text rs -> (last = [] \/ row_text last) -> row_entry strptime r e -> errno <> 0 ->
  load_to_memory strptime (Some (file_text (header :: r :: rs) last)) array errno t = Some (Ok Throw).
Proof. exact table_errno. Qed.
Print Assumptions table_stale_errno.
Theorem table_errno_refuted : exists strptime content array errno t l,
  load_to_memory strptime (Some content) array 0 t = Some (Ok (Rows l)) /\ l <> [] /\ load_to_memory strptime (Some content) array errno t = Some (Ok Throw).
Proof. exists ex_date, (file_text [ex_header; ex_row "1" "3"] []), [], 34, 2. eexists. split; [vm_compute; reflexivity|]. split; [discriminate|vm_compute; reflexivity]. Qed.
Print Assumptions table_errno_refuted.

(* C55: a line of 256 characters or more ends the reading: the rows behind it are lost, and the
   call reports no error *)
Theorem table_overlong_refuted : exists strptime header r comment array t l,
  load_to_memory strptime (Some (file_text [header; r] [])) array 0 t = Some (Ok (Rows l)) /\ l <> [] /\
  load_to_memory strptime (Some (file_text [header ++ comment; r] [])) array 0 t = Some (Ok (Rows [])) /\ ~ In nl comment.
Proof.
  exists ex_date, ex_header, (ex_row "1" "3"), (repeat " "%char 256), [], 2. eexists. split; [vm_compute; reflexivity|]. split; [discriminate|]. split; [vm_compute; reflexivity|]. intros H. apply repeat_spec in H. discriminate H.
Qed.
Print Assumptions table_overlong_refuted.

(* C55: a row that ends before its height is completed with the tail of the row before it *)
Theorem table_short_refuted : exists strptime header r short array t e,
  (length short < 45)%nat /\ ~ In nl short /\ ~ In nul short /\
  load_to_memory strptime (Some (file_text [header; r; short] [])) array 0 t = Some (Ok (Rows [e])) /\ b_id e = firstn 4 short /\
  load_to_memory strptime (Some (file_text [header; r] [])) array 0 t = Some (Ok (Rows [])).
Proof.
  exists ex_date, ex_header, (ex_row "1" "2"), (firstn 43 (ex_row "2" "3")), [], 2. eexists. split; [vm_compute; lia|]. split; [apply clean_ok; reflexivity|]. split; [apply clean_ok; reflexivity|]. split; [vm_compute; reflexivity|]. split; vm_compute; reflexivity.
Qed.
Print Assumptions table_short_refuted.
