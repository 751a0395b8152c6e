(* Property theorems C25, C42, C43, C61, C62. *)
From Coq Require Import List ZArith QArith Ascii.
From Verif Require Import Base CLib_model CLib_proofs SysInfo_model SysInfo_proofs.
Import ListNotations.
Local Open Scope Z_scope.

(* C25 *)
Theorem observation_letters_round_trip :
  (forall o, char_to_type (type_to_char o) = Some o) /\
  (forall o1 o2, type_to_char o1 = type_to_char o2 -> o1 = o2) /\
  (forall c, char_to_type c = None <-> ~ In c known_letters).
Proof. exact letters_ok. Qed.
Print Assumptions observation_letters_round_trip.

(* C25 *)
Theorem observation_code_construction : forall (t : obs_type) (f : Z),
  (carries_frequency t ->
     (f = 1 \/ f = 2 -> mk_code t f = Some (ObsCode t f)) /\
     (~ (f = 1 \/ f = 2) -> mk_code t f = None)) /\
  (~ carries_frequency t -> mk_code t f = Some (ObsCode t 0)).
Proof. exact code_ctor_ok. Qed.
Print Assumptions observation_code_construction.

(* C25 *)
Theorem observation_code_strings_are_unique : forall t1 f1 t2 f2 c1 c2,
  mk_code t1 f1 = Some c1 -> mk_code t2 f2 = Some c2 ->
  (exists s1, code_to_str c1 = Ok s1 /\ length s1 = 2%nat) /\
  (code_to_str c1 = code_to_str c2 <-> code_eqb c1 c2 = true) /\
  (code_eqb c1 c2 = true <-> c1 = c2).
Proof. exact code_strings_ok. Qed.
Print Assumptions observation_code_strings_are_unique.

(* C61: with a clear error number.  Missing: a non-zero error number left over
   from earlier calls (refuted below). *)
Theorem station_record_round_trip_partial :
  forall st code id name domes ty neg sh ngap rest,
  record_ok code id name domes ty neg sh ngap rest ->
  set_from_rinex_line false st
    (station_line code id name domes ty neg sh (repeat blank ngap) rest) =
  (0, Station code id (nul_padded 30 name) (nul_padded 10 domes) ty (nval neg sh), false).
Proof. exact station_roundtrip. Qed.
Print Assumptions station_record_round_trip_partial.

(* C61 *)
Theorem station_record_error_number_refuted :
  exists st code id name domes ty neg sh ngap rest,
  record_ok code id name domes ty neg sh ngap rest /\
  fst (fst (set_from_rinex_line true st
    (station_line code id name domes ty neg sh (repeat blank ngap) rest))) <> 0.
Proof. exact station_errno_refuted. Qed.
Print Assumptions station_record_error_number_refuted.

(* C61 *)
Theorem station_short_line_rejected : forall errno st line, (length line < 60)%nat ->
  set_from_rinex_line errno st line = (1, st, errno).
Proof. exact station_short_line. Qed.
Print Assumptions station_short_line_rejected.

(* C61 *)
Theorem antenna_type_is_last_id_letter : forall a b c d code name domes ty sh,
  antenna_of (Station code [a; b; c; d] name domes ty sh) =
  Ok (if ascii_dec d "A" then Some Alcatel else if ascii_dec d "B" then Some Starec_B
      else if ascii_dec d "C" then Some Starec_C else None).
Proof. exact antenna_ok. Qed.
Print Assumptions antenna_type_is_last_id_letter.

(* C62: names of at most 29 characters.  Missing: 30-character names (refuted below). *)
Theorem station_description_fits_partial : forall code id name domes ty neg sh ngap rest,
  record_ok code id name domes ty neg sh ngap rest -> no_nul name -> (length name <= 29)%nat ->
  exists s, station_to_str (Station code id (nul_padded 30 name) (nul_padded 10 domes) ty (nval neg sh)) = Ok s
   /\ (length s + 1 <= 52)%nat.
Proof. exact station_str_ok. Qed.
Print Assumptions station_description_fits_partial.

(* C62 *)
Theorem station_description_refuted : exists code id name domes ty neg sh ngap rest,
  record_ok code id name domes ty neg sh ngap rest /\ no_nul name /\
  station_to_str (snd (fst (set_from_rinex_line false (Station [] [] [] [] 0 0)
     (station_line code id name domes ty neg sh (repeat blank ngap) rest)))) = UB.
Proof. exact station_str_refuted. Qed.
Print Assumptions station_description_refuted.

Local Open Scope Q_scope.
(* C42 *)
Theorem nominal_frequencies_ratio_base_and_growth :
  (forall k, fst (beacon_nominal_frequency k) * 107 == snd (beacon_nominal_frequency k) * 543) /\
  fst (beacon_nominal_frequency 0) == FREQ1 * 1000000 /\
  snd (beacon_nominal_frequency 0) == FREQ2 * 1000000 /\
  (forall k1 k2, (k1 < k2)%Z ->
     fst (beacon_nominal_frequency k1) < fst (beacon_nominal_frequency k2) /\
     snd (beacon_nominal_frequency k1) < snd (beacon_nominal_frequency k2)).
Proof. exact freq_ok. Qed.
Print Assumptions nominal_frequencies_ratio_base_and_growth.

(* C42 *)
Theorem nominal_frequencies_value : forall k,
  fst (beacon_nominal_frequency k) == 543 * (5000000 * (3#4) + 5000000 * 87 * inject_Z k / (5 * inject_Z (2^26))) /\
  snd (beacon_nominal_frequency k) == 107 * (5000000 * (3#4) + 5000000 * 87 * inject_Z k / (5 * inject_Z (2^26))).
Proof. exact freq_value. Qed.
Print Assumptions nominal_frequencies_value.

(* C43 *)
Theorem iono_correction_removes_dispersive_delay : forall c rho a, ~ c == 0 ->
  let f1 := FREQ1 in let f2 := FREQ2 in
  let L1 := phase_count c f1 rho a in
  let L2 := phase_count c f2 rho a in
  L1 + carrier_iono_correction L1 L2 == phase_count c f1 rho 0.
Proof. exact iono_ok. Qed.
Print Assumptions iono_correction_removes_dispersive_delay.

(* C43 *)
Theorem iono_free_phase_centre_weights : forall r1 r2,
  iono_free_offset r1 r2 * 1000 == (GAMMA * r1 - r2) / (GAMMA - 1) /\
  iono_free_offset r1 r1 * 1000 == r1.
Proof. exact iono_free_offset_ok. Qed.
Print Assumptions iono_free_phase_centre_weights.
