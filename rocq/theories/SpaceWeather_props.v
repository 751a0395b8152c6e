(* Property theorems C36, C37, C38, C39.  [ymd_mjd] stands for the external calendar. *)
From Coq Require Import String List ZArith QArith Ascii.
From Verif Require Import Base CLib_model Stream_model Lines_proofs SpaceWeather_model SpaceWeather_proofs.
Import ListNotations.
Local Open Scope nat_scope.

(* C36: whatever the line array held before, a line that is accepted delivers the date, the eight
   three-hourly values, the daily average, and - when column CP is not empty and the data type has
   three letters - the flux values of its columns *)
Theorem csv_line_sound : forall ymd_mjd buf line fl fl', no_nul line -> length (fx_ap fl) = 8 ->
  resolve_records ymd_mjd (into_buffer buf line) fl = Ok (0%Z, fl') ->
  row_of ymd_mjd line fl' /\ length (fx_ap fl') = 8 /\ 20 < length (columns line).
Proof. exact resolve_sound. Qed.
Print Assumptions csv_line_sound.

(* C36: a line with all columns is accepted.  Missing: a line that lacks columns, refuted below. *)
Theorem csv_line_complete_partial : forall ymd_mjd buf line fl, no_nul line -> length (fx_ap fl) = 8 -> full_line line ->
  exists fl', resolve_records ymd_mjd (into_buffer buf line) fl = Ok (0%Z, fl') /\ row_of ymd_mjd line fl' /\ length (fx_ap fl') = 8.
Proof. exact resolve_complete. Qed.
Print Assumptions csv_line_complete_partial.
Example full_lines_exist : full_line (cstr (ex_row "2023-01-05")).
Proof. apply (row_full _ 2023 1 5); [vm_compute; reflexivity|vm_compute; reflexivity|do 3 eexists; split; [|split]; vm_compute; reflexivity]. Qed.

(* C36: a line that ends before the columns makes the reader run past the end of the text *)
Theorem csv_short_line_refuted : exists line buf, no_nul line /\ length line < 512 /\ length buf = 512 /\
  (length (columns line) < 12) /\ resolve_records calendar (into_buffer buf line) blank = UB.
Proof. exists ex_short, ex_junk. split; [intros I; vm_compute in I; repeat (destruct I as [I|I]; [discriminate|]); exact I|]. split; [vm_compute; repeat constructor|]. split; [vm_compute; reflexivity|]. split; [vm_compute; repeat constructor|]. vm_compute. reflexivity. Qed.
Print Assumptions csv_short_line_refuted.

(* C36: an empty column CP shifts the flux columns by one and the line is refused *)
Theorem csv_empty_cp_refuted : exists line buf fl', no_nul line /\ length (columns line) = 31 /\
  real_at (columns line) 24 (1468 # 10) /\ resolve_records calendar (into_buffer buf line) blank = Ok (14%Z, fl') /\ (fx_obs fl' == 1421 # 10)%Q.
Proof.
  exists ex_no_cp, ex_junk. eexists. split; [intros I; vm_compute in I; repeat (destruct I as [I|I]; [discriminate|]); exact I|]. split; [vm_compute; reflexivity|].
  split; [eexists; split; vm_compute; reflexivity|]. split; [vm_compute; reflexivity|vm_compute; reflexivity].
Qed.
Print Assumptions csv_empty_cp_refuted.

(* C37: a call that returns 0 has filled the days it reports from consecutive lines of the file
   dated day by day; unless the file ended there they are all the days asked for *)
Theorem retrieval_days_partial : forall ymd_mjd ls last, Forall (line_ok 512) ls -> line_ok 512 last ->
  forall junk junk2 pos mjd before after win win' pos', aligned ls last pos -> Forall (fun x => length (fx_ap x) = 8) win ->
  parse ymd_mjd (Some (file_text ls last)) junk junk2 pos mjd before after win = Some (Ok (0%Z, win', pos')) ->
  aligned ls last pos' /\ length win' = length win /\ Forall (fun x => length (fx_ap x) = 8) win' /\
  exists a n, 0 < a /\ n <= before + 1 + after /\ 0 < n /\ (n = before + 1 + after \/ a + n = length (seen ls last)) /\
    days_from ymd_mjd ls last (mjd - Z.of_nat before) a n win win'.
Proof. exact parse_spec. Qed.
Print Assumptions retrieval_days_partial.

(* C37: every call ends, on every file *)
Theorem retrieval_ends : forall ymd_mjd ls last junk junk2 pos mjd before after win,
  exists r, parse ymd_mjd (Some (file_text ls last)) junk junk2 pos mjd before after win = Some r.
Proof. exact parse_ends. Qed.
Print Assumptions retrieval_ends.

(* C37: on a table of consecutive days, asked for days that do not run over its end, a call is
   defined, leaves the window alone when it fails, and fails from the top only when a day is missing *)
Theorem retrieval_table : forall ymd_mjd ls last, Forall (line_ok 512) ls -> line_ok 512 last ->
  forall d0 dn junk junk2 i0 pos mjd before after win, table ymd_mjd ls last d0 dn -> at_pos ls last i0 pos -> 10 <= length junk -> 10 <= length junk2 ->
  Forall (fun x => length (fx_ap x) = 8) win -> before + 1 + after <= length win ->
  (mjd + Z.of_nat after <= dn \/ dn < mjd - Z.of_nat before)%Z ->
  exists code win' pos', parse ymd_mjd (Some (file_text ls last)) junk junk2 pos mjd before after win = Some (Ok (code, win', pos')) /\ aligned ls last pos' /\ (code <> 0%Z -> win' = win) /\
    (code = 0%Z \/ (mjd - Z.of_nat before < d0)%Z \/ (dn < mjd - Z.of_nat before)%Z \/ length (seen ls last) <= i0).
Proof. exact table_parse. Qed.
Print Assumptions retrieval_table.
Example tables_exist : table calendar ex_lines [] 59945 59951 /\ Forall (line_ok 512) ex_lines /\ line_ok 512 [] /\ at_pos ex_lines [] 0 0.
Proof. split; [exact ex_table|]. split; [apply ex_lines_ok|]. split; [apply ex_lines_ok|]. apply at_pos_0. Qed.

(* C37: the file ends inside the span: 0 is returned although the last days have not been delivered *)
Theorem retrieval_end_of_file_refuted : exists win' pos', parse calendar (Some ex_file) ex_junk ex_junk 0 59952 3 0 ex_win = Some (Ok (0%Z, win', pos')) /\
  nth_error win' 3 = Some blank /\ option_map fx_mjd (nth_error win' 2) = Some 59951%Z.
Proof. do 2 eexists. split; [vm_compute; reflexivity|]. split; vm_compute; reflexivity. Qed.
Print Assumptions retrieval_end_of_file_refuted.

(* C38: at every second of the day, from every window of four days *)
Theorem ap_history : forall win sec, four_days win -> (0 <= sec < 86400)%Q ->
  exists p chi, init win sec = Ok (p, chi) /\ slot sec chi /\ (0 <= chi < 8)%Z /\ history win sec p.
Proof. exact (init_spec calendar). Qed.
Print Assumptions ap_history.
Example ap_history_instance : four_days ex_win /\ (0 <= 12345 # 10 < 86400)%Q.
Proof. split; [split; [reflexivity|repeat constructor]|split; [discriminate|reflexivity]]. Qed.

(* C39: a constructed feed holds the four days ending on the day asked for *)
Theorem feed_constructed : forall ymd_mjd ls last, Forall (line_ok 512) ls -> line_ok 512 last ->
  forall d0 dn junk junk2 win day sec, table ymd_mjd ls last d0 dn -> four_days win -> (0 <= sec < 86400)%Q -> 10 <= length junk -> 10 <= length junk2 ->
  (d0 + 3 <= day <= dn)%Z -> exists fd p, construct ymd_mjd (Some (file_text ls last)) junk junk2 win day sec = Some (Ok (Some (fd, p))) /\
    in_sync ymd_mjd ls last fd p /\ now_at day sec fd p.
Proof. exact construct_table. Qed.
Print Assumptions feed_constructed.

(* C39: an update to the same or the next day on any file, and to any day of a table or beyond reach of it:
   on success the window holds the four days ending there and the parameters are those of the second asked for,
   on failure day, window, slot and parameters are as before.  Missing: jumps on other files and
   to the three days after the end, refuted below. *)
Theorem feed_update_partial : forall ymd_mjd ls last, Forall (line_ok 512) ls -> line_ok 512 last ->
  forall junk junk2 fresh day sec fd p code fd' p', in_sync ymd_mjd ls last fd p -> length (fx_ap fresh) = 8 -> (0 <= sec < 86400)%Q ->
  10 <= length junk -> 10 <= length junk2 ->
  (day = fd_mjd fd \/ day = (fd_mjd fd + 1)%Z \/ may_jump ymd_mjd ls last fd day) ->
  update ymd_mjd (Some (file_text ls last)) junk junk2 fresh day sec fd p = Some (Ok (code, fd', p')) ->
  in_sync ymd_mjd ls last fd' p' /\ (code = 0%Z -> now_at day sec fd' p') /\
  (code <> 0%Z -> same_feed fd fd' /\ p' = p /\ fd_pos fd' = 0%Z).
Proof. exact update_step. Qed.
Print Assumptions feed_update_partial.

(* C39: such updates are defined on a table, and one after a failure succeeds on every day of it *)
Theorem feed_update_defined : forall ymd_mjd ls last, Forall (line_ok 512) ls -> line_ok 512 last ->
  forall d0 dn junk junk2 fresh day sec fd p, table ymd_mjd ls last d0 dn -> in_sync ymd_mjd ls last fd p -> length (fx_ap fresh) = 8 -> (0 <= sec < 86400)%Q ->
  10 <= length junk -> 10 <= length junk2 -> (day <= dn \/ dn < day - 3)%Z ->
  exists code fd' p', update ymd_mjd (Some (file_text ls last)) junk junk2 fresh day sec fd p = Some (Ok (code, fd', p')) /\
    (fd_pos fd = 0%Z -> (d0 + 3 <= day <= dn)%Z -> code = 0%Z).
Proof. exact update_defined. Qed.
Print Assumptions feed_update_defined.

(* C39: any history of such updates on a table, failing ones included, ends in step with the last one that succeeded *)
Theorem feed_history_partial : forall ymd_mjd ls last, Forall (line_ok 512) ls -> line_ok 512 last ->
  forall d0 dn, table ymd_mjd ls last d0 dn -> forall calls fd p day sec, in_sync ymd_mjd ls last fd p -> now_at day sec fd p -> Forall (good_call dn) calls ->
  exists codes fd' p', run ymd_mjd ls last calls fd p = Some (Ok (codes, fd', p')) /\ length codes = length calls /\ in_sync ymd_mjd ls last fd' p' /\
    now_at (fst (last_good (day, sec) calls codes)) (snd (last_good (day, sec) calls codes)) fd' p'.
Proof. exact run_table. Qed.
Print Assumptions feed_history_partial.
Example feed_exists : exists fd p, in_sync calendar ex_lines [] fd p /\ now_at 59949 4000 fd p /\ Forall (good_call 59951) [Call 59950 40000 ex_junk ex_junk blank; Call 59960 1 ex_junk ex_junk blank].
Proof.
  destruct (construct_table calendar ex_lines [] (proj1 ex_lines_ok) (proj2 ex_lines_ok) 59945 59951 ex_junk ex_junk ex_win 59949 4000 ex_table) as (fd & p & _ & A & B);
    [split; [reflexivity|repeat constructor]|split; [discriminate|reflexivity]|vm_compute; repeat constructor|vm_compute; repeat constructor|split; discriminate|].
  exists fd, p. split; [exact A|]. split; [exact B|].
  assert (LJ : 10 <= length ex_junk) by (vm_compute; repeat constructor).
  constructor; [|constructor; [|constructor]].
  - split; [split; [discriminate|reflexivity]|]. split; [left; discriminate|]. split; [exact LJ|split; [exact LJ|reflexivity]].
  - split; [split; [discriminate|reflexivity]|]. split; [right; reflexivity|]. split; [exact LJ|split; [exact LJ|reflexivity]].
Qed.

(* C39: the position kept is that after the line of the following day, so the update to the last day of the file fails at first *)
Theorem feed_last_day_refuted : exists fd p fd' p', construct calendar (Some ex_file) ex_junk ex_junk ex_win 59950 0 = Some (Ok (Some (fd, p))) /\
  update calendar (Some ex_file) ex_junk ex_junk blank 59951 0 fd p = Some (Ok (1%Z, fd', p')).
Proof. do 4 eexists. split; [vm_compute; reflexivity|]. vm_compute. reflexivity. Qed.
Print Assumptions feed_last_day_refuted.

(* C39: a failed jump leaves the window filled with other days than the one it claims to end on *)
Theorem feed_failed_jump_refuted : exists fd p code fd' p', construct calendar (Some ex_gap) ex_junk ex_junk ex_win 59948 0 = Some (Ok (Some (fd, p))) /\
  update calendar (Some ex_gap) ex_junk ex_junk blank 59951 0 fd p = Some (Ok (code, fd', p')) /\ code <> 0%Z /\
  fd_mjd fd' = 59948%Z /\ map fx_mjd (fd_win fd) = [59945; 59946; 59947; 59948]%Z /\ map fx_mjd (fd_win fd') = [59948; 59949; 59950; 59948]%Z.
Proof. do 5 eexists. split; [vm_compute; reflexivity|]. split; [vm_compute; reflexivity|]. split; [discriminate|]. split; [vm_compute; reflexivity|]. split; vm_compute; reflexivity. Qed.
Print Assumptions feed_failed_jump_refuted.

(* C39: a jump to a day after the end of the file is reported as done *)
Theorem feed_jump_past_end_refuted : exists fd p fd' p', construct calendar (Some ex_file) ex_junk ex_junk ex_win 59948 0 = Some (Ok (Some (fd, p))) /\
  update calendar (Some ex_file) ex_junk ex_junk blank 59953 0 fd p = Some (Ok (0%Z, fd', p')) /\
  fd_mjd fd' = 59953%Z /\ map fx_mjd (fd_win fd') = [59950; 59951; 59947; 59948]%Z.
Proof. do 4 eexists. split; [vm_compute; reflexivity|]. split; [vm_compute; reflexivity|]. split; vm_compute; reflexivity. Qed.
Print Assumptions feed_jump_past_end_refuted.
