(* Property theorems C15, C16. *)
From Coq Require Import String List ZArith QArith Ascii.
From Verif Require Import Base CLib_model CLib_proofs Sci_proofs Stream_model Lines_proofs Harmonics_model Harmonics_proofs Icgem_model Icgem_proofs.
Import ListNotations.
Local Open Scope Z_scope.

(* C15: a section listing every required pair once, in any order and mixed with
   other lines.  Missing: repeated pairs, for which the claim is refuted below. *)
Theorem icgem_data_complete_partial : forall hd h l m items last, storage h -> (1 <= l)%nat -> (m <= l)%nat ->
  Z.of_nat l <= hd_degree hd -> Z.of_nat l <= h_degree h ->
  Forall ditem_ok items -> line_ok 512 last -> NoDup (map key (needed l m (drecs items))) -> complete l m items ->
  exists h', parse_data hd (Some (s_open (file_text (map ditem_text items) last))) (Z.of_nat l) (Z.of_nat m) h = Some (Val (0, h')) /\
    h_degree h' = h_degree h /\ h_normalized h' = is_normalized hd /\
    forall i j, (i <= l)%nat -> (j <= i)%nat -> (j <= m)%nat ->
      exists r, In r (drecs items) /\ key r = (i, j) /\ holds_rec h' r.
Proof. exact data_complete. Qed.
Print Assumptions icgem_data_complete_partial.

(* C15: success exactly when nothing but the two degree-1 terms is missing *)
Theorem icgem_data_success_partial : forall hd h l m items last, storage h -> (1 <= m)%nat -> (m <= l)%nat ->
  Z.of_nat l <= hd_degree hd -> Z.of_nat l <= h_degree h ->
  Forall ditem_ok items -> line_ok 512 last -> NoDup (map key (needed l m (drecs items))) -> no_sentinel items ->
  exists code h', parse_data hd (Some (s_open (file_text (map ditem_text items) last))) (Z.of_nat l) (Z.of_nat m) h = Some (Val (code, h')) /\
    (code = 0 \/ code = 2) /\
    (code = 0 <-> complete l m items \/
       (forall p, In p (pairs l m) -> (In p (map key (needed l m (drecs items))) <-> p <> (1, 0)%nat /\ p <> (1, 1)%nat))) /\
    (code = 0 -> (forall r, In r (needed l m (drecs items)) -> holds_rec h' r) /\
       forall i j, In (i, j) (pairs l m) -> ~ In (i, j) (map key (needed l m (drecs items))) ->
         exists q, C_get h' (Z.of_nat i) (Z.of_nat j) = Ok q /\ (q == 0)%Q).
Proof. exact data_codes. Qed.
Print Assumptions icgem_data_success_partial.

(* C15: unreadable degree, order, C or S *)
Theorem icgem_malformed_field_fails : forall hd h l m items t more last, storage h -> (1 <= l)%nat -> (m <= l)%nat ->
  Z.of_nat l <= hd_degree hd -> Z.of_nat l <= h_degree h ->
  Forall ditem_ok items -> NoDup (map key (needed l m (drecs items))) -> ~ complete l m items ->
  malformed l m t -> ~ In nul t -> line_ok 512 t -> Forall (line_ok 512) more -> line_ok 512 last ->
  exists h', parse_data hd (Some (s_open (file_text (map ditem_text items ++ t :: more) last))) (Z.of_nat l) (Z.of_nat m) h = Some (Val (1, h')).
Proof. exact data_malformed. Qed.
Print Assumptions icgem_malformed_field_fails.

(* C15: impossible requests leave the coefficients alone *)
Theorem icgem_bad_request_fails : forall hd content h l m, hd_degree hd < l \/ l < m \/ h_degree h < l \/ content = None ->
  parse_data hd content l m h = Some (Val (1, h)).
Proof. exact data_bad_request. Qed.
Print Assumptions icgem_bad_request_fails.

(* C15: the reader ends on every file *)
Theorem icgem_data_reader_ends : forall hd content l m h, exists r, parse_data hd content l m h = Some r.
Proof. exact data_ends. Qed.
Print Assumptions icgem_data_reader_ends.

(* C15, C16: a whole file *)
Theorem gravity_model_file_partial : forall junk h l m hitems endl items last, storage h -> (1 <= l)%nat -> (m <= l)%nat ->
  Forall hitem_ok hitems -> (length hitems <= 1000)%nat -> starts_with (lit "end_of_head") (cstr endl) = true -> line_ok 256 endl ->
  Z.of_nat l <= degree_value hitems 0 ->
  Forall ditem_ok items -> line_ok 512 last -> NoDup (map key (needed l m (drecs items))) -> complete l m items ->
  exists h', parse_gravity_model junk (Some (file_text ((map hitem_text hitems ++ [endl]) ++ map ditem_text items) last)) (Z.of_nat l) (Z.of_nat m) h = Some (Val (0, h')) /\
    h_degree h' = Z.of_nat l /\ (h_normalized h' = true <-> text_value FNorm hitems (lit "fully_normalized") = lit "fully_normalized") /\
    forall i j, (i <= l)%nat -> (j <= i)%nat -> (j <= m)%nat ->
      exists r, In r (drecs items) /\ key r = (i, j) /\ holds_rec h' r.
Proof. exact gravity_file. Qed.
Print Assumptions gravity_model_file_partial.

(* C15, C16: a whole file is accepted exactly when its coefficients are complete *)
Theorem gravity_model_codes_partial : forall junk h l m hitems endl items last, storage h -> (1 <= m)%nat -> (m <= l)%nat ->
  Forall hitem_ok hitems -> (length hitems <= 1000)%nat -> starts_with (lit "end_of_head") (cstr endl) = true -> line_ok 256 endl ->
  Z.of_nat l <= degree_value hitems 0 ->
  Forall ditem_ok items -> line_ok 512 last -> NoDup (map key (needed l m (drecs items))) -> no_sentinel items ->
  exists code h', parse_gravity_model junk (Some (file_text ((map hitem_text hitems ++ [endl]) ++ map ditem_text items) last)) (Z.of_nat l) (Z.of_nat m) h = Some (Val (code, h')) /\
    (code = 0 \/ code = 1) /\
    (code = 0 <-> complete l m items \/
       (forall p, In p (pairs l m) -> (In p (map key (needed l m (drecs items))) <-> p <> (1, 0)%nat /\ p <> (1, 1)%nat))).
Proof. exact gravity_codes. Qed.
Print Assumptions gravity_model_codes_partial.

(* C15: a malformed line makes the whole read fail *)
Theorem gravity_model_malformed_fails : forall junk h l m hitems endl items t more last, storage h -> (1 <= l)%nat -> (m <= l)%nat ->
  Forall hitem_ok hitems -> (length hitems <= 1000)%nat -> starts_with (lit "end_of_head") (cstr endl) = true -> line_ok 256 endl ->
  Z.of_nat l <= degree_value hitems 0 ->
  Forall ditem_ok items -> NoDup (map key (needed l m (drecs items))) -> ~ complete l m items ->
  malformed l m t -> ~ In nul t -> line_ok 512 t -> Forall (line_ok 512) more -> line_ok 512 last ->
  exists h', parse_gravity_model junk (Some (file_text ((map hitem_text hitems ++ [endl]) ++ map ditem_text items ++ t :: more) last)) (Z.of_nat l) (Z.of_nat m) h = Some (Val (1, h')).
Proof. exact gravity_malformed. Qed.
Print Assumptions gravity_model_malformed_fails.

(* C15: a repeated line replaces a missing one; C(1,1) is -999 *)
Theorem icgem_repeated_line_refuted : Forall ditem_ok dup_model /\ ~ In (1, 1)%nat (map key (drecs dup_model)) /\
  exists h', parse_data (Hdr [] [] [] [] [] 1 1 9) (Some (s_open (file_text (map ditem_text dup_model) []))) 1 1 (h_one 0) = Some (Val (0, h')) /\
    C_get h' 1 1 = Ok sentinel.
Proof. exact dup_accepted. Qed.
Print Assumptions icgem_repeated_line_refuted.

(* C15: S(1,1) of an absent degree-1 term is not set to 0 *)
Theorem icgem_absent_s11_refuted : Forall ditem_ok egm_model /\
  exists h', parse_data (Hdr [] [] [] [] [] 1 1 9) (Some (s_open (file_text (map ditem_text egm_model) []))) 1 1 (h_one 7) = Some (Val (0, h')) /\
    S_get h' 1 1 = Ok 7%Q.
Proof. exact stale_s11. Qed.
Print Assumptions icgem_absent_s11_refuted.

(* C15: order 0 with C(1,0) and C(2,0) absent is accepted, C(2,0) is never written *)
Theorem icgem_absent_zonal_refuted : Forall ditem_ok zonal_model /\ ~ In (2, 0)%nat (map key (drecs zonal_model)) /\
  exists h', parse_data (Hdr [] [] [] [] [] 1 1 9) (Some (s_open (file_text (map ditem_text zonal_model) []))) 2 0 (h_one 7) = Some (Val (0, h')) /\
    C_get h' 2 0 = Ok 7%Q.
Proof. exact zonal_accepted. Qed.
Print Assumptions icgem_absent_zonal_refuted.

(* C15: degree 0 is a legal request but writes outside the coefficient arrays *)
Theorem icgem_degree_zero_refuted :
  parse_data (Hdr [] [] [] [] [] 1 1 9) (Some (s_open (file_text (map ditem_text [gfc 0 0 1 0]) []))) 0 0 (hc_new (fun _ _ => 0%Q) 0) = Some Undef.
Proof. exact degree_zero_undefined. Qed.
Print Assumptions icgem_degree_zero_refuted.

(* C15: a final line without newline is not read *)
Theorem icgem_last_line_refuted : exists h',
  parse_data (Hdr [] [] [] [] [] 1 1 9) (Some (s_open (file_text (map ditem_text [gfc 0 0 1 0; gfc 1 0 3 0]) (ditem_text (gfc 1 1 4 5))))) 1 1 (h_one 0) = Some (Val (2, h')).
Proof. exact last_line_lost. Qed.
Print Assumptions icgem_last_line_refuted.

(* C16: any padding before the keyword and before the value.  Missing: blanks
   behind a text value, for which the claim is refuted below. *)
Theorem icgem_header_partial : forall items endl rest, Forall hitem_ok items -> (length items <= 1000)%nat ->
  starts_with (lit "end_of_head") (cstr endl) = true -> line_ok 256 endl ->
  exists h', parse_header (Some (file_text (map hitem_text items ++ [endl]) rest)) hdr0 = Val (0, h', s_open rest) /\
    (forall f, tget f h' = text_value f items (tdefault f)) /\ (hd_gm h' == gm_value items 0)%Q /\
    (hd_radius h' == radius_value items 0)%Q /\ hd_degree h' = degree_value items 0 /\
    (is_normalized h' = true <-> text_value FNorm items (lit "fully_normalized") = lit "fully_normalized").
Proof. exact header_ok. Qed.
Print Assumptions icgem_header_partial.

(* C16: unreadable numbers *)
Theorem icgem_header_bad_number_fails : forall items kw lead gap j more last, Forall hitem_ok items -> (length items <= 1000)%nat ->
  In kw number_keywords -> junk_field j -> List.hd nul j <> blank -> ~ In nul (kline lead kw gap j) -> line_ok 256 (kline lead kw gap j) ->
  exists h' s, parse_header (Some (file_text (map hitem_text items ++ kline lead kw gap j :: more) last)) hdr0 = Val (2, h', s).
Proof. exact header_bad_number. Qed.
Print Assumptions icgem_header_bad_number_fails.

(* C16: a file without the end mark is never accepted *)
Theorem icgem_header_needs_end_mark : forall f h code h' s, parse_header (Some f) h = Val (code, h', s) -> code = 0 ->
  exists a b, f = a ++ lit "end_of_head" ++ b.
Proof. exact header_needs_end. Qed.
Print Assumptions icgem_header_needs_end_mark.

(* C16: one blank behind fully_normalized changes the flag *)
Theorem icgem_trailing_blank_refuted :
  (exists h s, parse_header (Some (norm_header [])) hdr0 = Val (0, h, s) /\ is_normalized h = true) /\
  (exists h s, parse_header (Some (norm_header [blank])) hdr0 = Val (0, h, s) /\ is_normalized h = false).
Proof. exact trailing_blank. Qed.
Print Assumptions icgem_trailing_blank_refuted.

(* header with comment, GM, norm and degree lines; data out of order with a foreign and an unneeded line *)
Example icgem_case : Forall hitem_ok head1 /\ Forall ditem_ok model1 /\ NoDup (map key (needed 1 1 (drecs model1))) /\ complete 1 1 model1 /\
  storage (h_one 7) /\ Z.of_nat 1 <= degree_value head1 0 /\
  exists h', parse_gravity_model (fun _ _ => 7%Q) (Some (file_text ((map hitem_text head1 ++ [lit "end_of_head ==="]) ++ map ditem_text model1) [])) 1 1 (h_one 7) = Some (Val (0, h')) /\
    h_normalized h' = true /\ exists q, S_get h' 1 1 = Ok q /\ (q == -5)%Q.
Proof.
  split; [exact head1_ok|]. split; [exact model1_ok|]. split; [exact (proj1 model1_complete)|]. split; [exact (proj2 model1_complete)|].
  split; [exists 2; split; [discriminate|apply rect_allocate]|]. split; [discriminate|].
  eexists. split; [vm_compute; reflexivity|]. split; [reflexivity|]. eexists. split; reflexivity.
Qed.
Example icgem_malformed_case : malformed 2 2 (lit "gfc 1 0 abc") /\ malformed 2 2 (lit "gfc x") /\ ~ complete 2 2 model1.
Proof.
  split; [|split].
  - change (malformed 2 2 (lit "gfc " ++ repeat blank 0 ++ dstr [1] ++ repeat blank 1 ++ dstr [0] ++ repeat blank 1 ++ lit "abc")).
    apply BadC; try discriminate; try (split; [discriminate|apply Forall_cons; [split; discriminate|apply Forall_nil]]).
    + reflexivity.
    + cbn. intuition discriminate.
  - change (malformed 2 2 (lit "gfc " ++ repeat blank 0 ++ lit "x")). apply BadDegree. cbn. intuition discriminate.
  - intros C. specialize (C (2, 0)%nat). vm_compute in C. intuition discriminate.
Qed.
