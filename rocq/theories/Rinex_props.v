(* Property theorems C17-C23, C26, C63. *)
From Coq Require Import List ZArith QArith Ascii Bool.
From Verif Require Import Base CLib_model CLib_proofs Stream_model SysInfo_model Rinex_model Rinex_proofs.
Import ListNotations.
Local Open Scope nat_scope.

(* C17 *)
Theorem lines_per_beacon_least : forall obs, (0 <= obs)%Z ->
  (obs <= 5 * lines_per_beacon obs)%Z /\ (forall j, (obs <= 5 * j)%Z -> (lines_per_beacon obs <= j)%Z).
Proof. exact lines_least. Qed.
Print Assumptions lines_per_beacon_least.
Example lines_per_beacon_ex : map lines_per_beacon [1; 5; 6; 10; 12]%Z = [1; 1; 2; 2; 3]%Z.
Proof. reflexivity. Qed.

(* C18 *)
Theorem skip_equals_read : forall nobs scales num r obs r',
  read_data_block nobs scales num r = Ok (0%Z, obs, r') -> skip_data_block nobs num (r_st r) = r_st r'.
Proof. exact read_skip_ok. Qed.
Print Assumptions skip_equals_read.
Example skip_equals_read_ex : exists obs r',
  read_data_block 7 ex_scales 2 (RState (s_open (block_text ex_beacons)) []) = Ok (0%Z, obs, r').
Proof.
  destruct (block_roundtrip 7 ex_scales ex_beacons [] [] ltac:(auto with arith) ex_scales_ok ex_beacons_ok) as (o & r & E & _).
  rewrite app_nil_r in E. exists o, r. exact E.
Qed.

(* C19 *)
Theorem data_block_roundtrip : forall nobs scales bs rest line,
  1 <= nobs -> scales_ok nobs scales -> Forall (beacon_ok nobs) bs ->
  exists obs r', read_data_block nobs scales (Z.of_nat (length bs)) (RState (s_open (block_text bs ++ rest)) line)
     = Ok (0%Z, obs, r') /\ Forall2 (reported scales) bs obs /\ r_st r' = s_open rest.
Proof. exact block_roundtrip. Qed.
Print Assumptions data_block_roundtrip.
Example data_block_ex : scales_ok 7 ex_scales /\ Forall (beacon_ok 7) ex_beacons.
Proof. exact (conj ex_scales_ok ex_beacons_ok). Qed.

(* C20: holds for scale factor 1.  Missing: any other scale factor, where the
   marker itself is divided by the factor (refuted below). *)
Theorem missing_marker_partial : forall nobs scales bs rest line,
  1 <= nobs -> scales_ok nobs scales -> Forall (beacon_ok nobs) bs ->
  exists obs r', read_data_block nobs scales (Z.of_nat (length bs)) (RState (s_open (block_text bs ++ rest)) line)
     = Ok (0%Z, obs, r') /\
    forall i k b m, nth_error bs i = Some b -> nth_error (mb_fields b) k = Some m -> is_missing (mf_v m) ->
      nth_error scales k = Some 1%Z ->
      exists o v, nth_error obs i = Some o /\ nth_error (b_vals o) k = Some v /\ (rv v == MISSING)%Q.
Proof. exact missing_partial. Qed.
Print Assumptions missing_marker_partial.
Theorem missing_marker_refuted : exists obs r,
  read_data_block 1 [10%Z] 1 (RState (s_open (block_text [blank_beacon])) []) = Ok (0%Z, obs, r) /\
  exists v, map b_vals obs = [[v]] /\ ~ (rv v == MISSING)%Q.
Proof. exact missing_refuted. Qed.
Print Assumptions missing_marker_refuted.

(* C21: if every line holds at least its own columns, the previous content of the
   static line buffer is irrelevant.  Missing: shorter lines (refuted below). *)
Theorem own_lines_only_partial : forall nobs scales num s l1 l2,
  long_lines (concat (repeat (row_sizes nobs) (Z.to_nat num))) s ->
  same_result (read_data_block nobs scales num (RState s l1)) (read_data_block nobs scales num (RState s l2)).
Proof. exact no_stale_partial. Qed.
Print Assumptions own_lines_only_partial.
Example own_lines_ex : long_lines (concat (repeat (row_sizes 7) 2)) (s_open (block_text ex_beacons)).
Proof. exact ex_long_lines. Qed.
(* the second beacon's line is stripped behind its first value; its second value
   is the one of the first beacon *)
Theorem own_lines_only_refuted : exists a1 b1 r1 a2 b2 r2,
  read_data_block 3 [1; 1; 1]%Z 2 (RState (s_open (stale_head 7 ++ stale_tail)) []) = Ok (0%Z, [a1; b1], r1) /\
  read_data_block 3 [1; 1; 1]%Z 2 (RState (s_open (stale_head 8 ++ stale_tail)) []) = Ok (0%Z, [a2; b2], r2) /\
  b_id b1 = b_id b2 /\ map (fun v => Qred (rv v)) (b_vals b1) = [4; 7; 3]%Q /\
  map (fun v => Qred (rv v)) (b_vals b2) = [4; 8; 3]%Q.
Proof. exact no_stale_refuted. Qed.
Print Assumptions own_lines_only_refuted.

(* C22 *)
Theorem epoch_line_roundtrip : forall strptime e t hdr,
  epoch_ok e -> strptime (me_date e ++ after_date e) = Some t ->
  exists h, resolve_data_epoch strptime (epoch_text e ++ [nul]) hdr = Ok (0%Z, h) /\ header_of t e h.
Proof. exact epoch_roundtrip. Qed.
Print Assumptions epoch_line_roundtrip.
Example epoch_line_ex : epoch_ok (ex_epoch [1; 2]%Z (Some (true, [0%Z], [1; 2]%Z))) /\ epoch_ok (ex_epoch [7%Z] None).
Proof.
  assert (C : clock_ok (Some (true, [0%Z], [1; 2]%Z))).
  { repeat split; try discriminate; try (apply digits_check; reflexivity). cbn. auto 20 with arith. }
  split; apply ex_epoch_ok; try exact C; try exact Logic.I; try (cbn; auto with arith);
    (split; [discriminate|apply digits_check; reflexivity]).
Qed.
(* C22: an accepted line starts with '>' and every field in it was readable *)
Theorem epoch_line_accepted_is_readable : forall strptime line hdr h,
  resolve_data_epoch strptime line hdr = Ok (0%Z, h) ->
  nth_error line 0 = Some ">"%char /\
  (exists t, strptime (cstr (skipn 2 line)) = Some t /\ h_epoch h = t) /\
  holds_int (cstr (firstn 3 (skipn 31 line))) /\ holds_int (cstr (firstn 3 (skipn 34 line))) /\
  (forallb (Ascii.eqb blank) (firstn 13 (skipn 43 line)) = true /\ h_clock h = MISSING \/
   snd (strtod (cstr (skipn 43 line))) <> 0 /\ h_clock h = fst (strtod (cstr (skipn 43 line)))) /\
  holds_int (cstr (skipn 56 line)).
Proof. exact epoch_accepts. Qed.
Print Assumptions epoch_line_accepted_is_readable.

(* C23: well-formed files.  Missing: the claim about malformed blocks, see the
   last theorem. *)
Theorem block_iterator_partial : forall strptime nobs scales, 1 <= nobs -> scales_ok nobs scales ->
  forall blocks it,
  Forall (mblock_ok nobs) blocks -> Forall (fun b => exists t, date_of strptime b t) blocks ->
  r_st (it_r it) = s_open (flat_map mblock_text blocks) ->
  delivers strptime nobs scales it blocks.
Proof. exact iterator_delivers. Qed.
Print Assumptions block_iterator_partial.
Example block_iterator_ex : Forall (mblock_ok 7) ex_blocks.
Proof. exact ex_blocks_ok. Qed.
(* C23: return codes; zero means that an epoch line and its block were accepted *)
Theorem block_iterator_codes : forall strptime nobs scales it c it',
  it_next strptime nobs scales it = Ok (c, it') ->
  let text := fst (getline MAX_RECORD_CHARS (r_st (it_r it))) in
  let s := snd (getline MAX_RECORD_CHARS (r_st (it_r it))) in
  (c = (-1)%Z /\ s_eof s = true /\ s_fail s = true) \/
  (c = 0%Z /\ resolve_data_epoch strptime (text ++ [nul]) (it_hdr it) = Ok (0%Z, it_hdr it') /\
     nth_error text 0 = Some ">"%char /\
     read_data_block nobs scales (h_num (it_hdr it')) (RState s (r_line (it_r it))) = Ok (0%Z, it_block it', it_r it')) \/
  (0 < c)%Z.
Proof. exact iterator_codes. Qed.
Print Assumptions block_iterator_codes.
(* C23: a file cut before the second line of its only beacon is delivered with
   code 0, the missing values replaced by those of the first line *)
Theorem block_iterator_refuted : exists it' b,
  it_next (fun _ => Some 0%Z) 7 [1; 1; 1; 1; 1; 1; 1]%Z
    (Iter (RHdr 0 0 0 0 0) [] (RState (s_open cut_file) [])) = Ok (0%Z, it') /\
  it_block it' = [b] /\ map (fun v => Qred (rv v)) (b_vals b) = [1; 2; 3; 4; 5; 1; 2]%Q.
Proof. exact truncated_refuted. Qed.
Print Assumptions block_iterator_refuted.

(* C26 *)
Theorem observation_lookup : forall codes t i, get_observation_code_index codes t = i <->
  ((i = -1)%Z /\ ~ In t codes) \/ (exists a b, codes = a ++ t :: b /\ ~ In t a /\ i = Z.of_nat (length a)).
Proof. exact obs_index_ok. Qed.
Print Assumptions observation_lookup.
Theorem beacon_id_lookup : forall sts key, stations_ok sts -> 3 <= length key -> ~ In nul (firstn 3 key) ->
  exists o, beacon_internal_id2id sts key = Ok (option_map st_id o) /\
    first_match (fun s => st_code s = firstn 3 key) sts o.
Proof. exact internal_to_id_ok. Qed.
Print Assumptions beacon_id_lookup.
Theorem beacon_code_lookup : forall sts key, stations_ok sts -> 4 <= length key -> ~ In nul (firstn 4 key) ->
  exists o, beacon_id2internal_id sts key = Ok (option_map st_code o) /\
    first_match (fun s => st_id s = firstn 4 key) sts o.
Proof. exact id_to_internal_ok. Qed.
Print Assumptions beacon_code_lookup.
Theorem beacon_station_lookup : forall sts key, stations_ok sts -> 3 <= length key ->
  exists o, beacon_internal_id2BeaconStation sts key = Ok o /\
    first_match (fun s => st_code s = firstn 3 key) sts o.
Proof. exact station_of_ok. Qed.
Print Assumptions beacon_station_lookup.
Theorem beacon_shift_lookup : forall sts key k, stations_ok sts -> 3 <= length key ->
  exists o, beacon_shift_factor sts key k =
      Ok (match o with Some s => (0%Z, st_shift s) | None => (1%Z, k) end) /\
    first_match (fun s => st_code s = firstn 3 key) sts o.
Proof. exact shift_factor_ok. Qed.
Print Assumptions beacon_shift_lookup.
Definition ex_station : station :=
  Station ["D"; "0"; "1"]%char ["T"; "H"; "U"; "B"]%char (repeat "x"%char 30) (repeat "4"%char 10) 3 (-15).
Example lookup_ex : stations_ok [ex_station] /\
  beacon_internal_id2id [ex_station] ["D"; "0"; "1"]%char = Ok (Some ["T"; "H"; "U"; "B"]%char).
Proof. split; [|reflexivity]. intros s [<-|[]]. split; reflexivity. Qed.

(* C63 *)
Theorem l1_epoch_correction : forall applied epoch clock t,
  corrected_l1_epoch applied epoch clock = Ok t <-> exists n, clock_shift applied clock n /\ t = (epoch + n)%Z.
Proof. exact l1_epoch_ok. Qed.
Print Assumptions l1_epoch_correction.
Theorem l12_epoch_agrees : forall applied epoch clock off t1 t2,
  corrected_l12_epoch applied epoch clock off = Ok (t1, t2) <->
  corrected_l1_epoch applied epoch clock = Ok t1 /\
  exists n, toward_zero (off * inject_Z 1000) n /\ fits n /\ (t2 = t1 + n)%Z.
Proof. exact epochs_agree. Qed.
Print Assumptions l12_epoch_agrees.
Example l12_epoch_ex :
  corrected_l12_epoch false 1000 (-4 # 1000000)%Q (3 # 2)%Q = Ok ((-3000)%Z, (-1500)%Z) /\
  corrected_l12_epoch false 1000 MISSING (3 # 2)%Q = Ok (1000%Z, 2500%Z).
Proof. split; vm_compute; reflexivity. Qed.
