(* Property theorems C24, C64. *)
From Coq Require Import List ZArith Ascii Bool.
From Verif Require Import Base CLib_model CLib_proofs Stream_model SysInfo_model Rinex_model Rinex_proofs
  RnxHead_model RnxHead_proofs.
Import ListNotations.
Local Open Scope nat_scope.

(* C24: whatever lines come before, the factors are those of the last line.
   Missing: the earlier lines' factors (refuted below). *)
Theorem scale_factors_partial : forall codes old ms m,
  NoDup codes -> Forall (mscale_ok codes) ms -> mscale_ok codes m ->
  exists fs, scale_lines codes old (map mscale_line (ms ++ [m])) = Ok (0%Z, fs) /\
             factors_for codes (ms_codes m) (nval (ms_neg m) (ms_factor m)) fs.
Proof. exact scale_lines_last. Qed.
Print Assumptions scale_factors_partial.
Theorem scale_factors_refuted :
  mscale_ok [L1c; L2c] scale10 /\ mscale_ok [L1c; L2c] scale100 /\
  exists fs, scale_lines [L1c; L2c] [] (map mscale_line [scale10; scale100]) = Ok (0%Z, fs) /\
             ~ accumulated [L1c; L2c] [scale10; scale100] fs.
Proof. exact scale_refuted. Qed.
Print Assumptions scale_factors_refuted.
(* C24: a blank count stands for all observables, but the line is rejected *)
Theorem scale_all_observables_refuted : scale_line [L1c; L2c] [] (all_scale ++ [nul]) = Ok (146%Z, [1; 1]%Z).
Proof. exact scale_all_refuted. Qed.
Print Assumptions scale_all_observables_refuted.
Example scale_ex : NoDup [L1c; L2c] /\ mscale_ok [L1c; L2c] scale10.
Proof. exact (conj codes_ex mscale_ex1). Qed.

(* C64 *)
Theorem observation_types_roundtrip : forall num cs rest stale old oldn,
  Forall code_ok cs -> numeral_ok num -> length num <= 3 ->
  dval num = Z.of_nat (length cs) -> 1 <= length cs <= 12 -> ~ In nul rest ->
  obs_types_line (obs_types_text num cs rest ++ nul :: stale) old oldn = Ok (0%Z, cs, Z.of_nat (length cs)).
Proof. exact obs_types_roundtrip. Qed.
Print Assumptions observation_types_roundtrip.
Example observation_types_ex :
  obs_types_line (obs_types_text [4%Z] [ObsCode phase 1; ObsCode frequency_offset 0; ObsCode pseudorange 2;
     ObsCode ground_humidity 0] (repeat blank 38) ++ [nul]) [] 0
  = Ok (0%Z, [ObsCode phase 1; ObsCode frequency_offset 0; ObsCode pseudorange 2; ObsCode ground_humidity 0], 4%Z).
Proof. vm_compute. reflexivity. Qed.
