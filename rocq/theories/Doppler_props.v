(* Property theorems C32. *)
From Coq Require Import List Ascii ZArith QArith.
From Verif Require Import Base CLib_model Doppler_model Doppler_proofs.
Import ListNotations.

(* C32: if the byte behind every three-character id is NUL, the table holds
   exactly the last sighting of every beacon and every printed count pairs an
   observation with the beacon's last sighting in the earlier blocks.
   Missing: the id array itself is not terminated (refuted below). *)
Theorem doppler_latest_record_partial : forall rest b bs eof, (forall x, In x (b :: bs) -> good_block x) ->
  exists out data, get_doppler_counts (nul :: rest) (blocks (b :: bs)) eof = Ok ((if eof then 0 else 1)%Z, out, data) /\
    table_of (history (b :: bs)) data /\ output_of (b :: bs) out.
Proof. exact doppler_ok. Qed.
Print Assumptions doppler_latest_record_partial.

(* C32: "the last sighting" is unique *)
Theorem doppler_latest_unique : forall id h s1 s2, last_of id h s1 -> last_of id h s2 -> s1 = s2.
Proof. exact last_of_fun. Qed.
Print Assumptions doppler_latest_unique.

(* C32: by the language rules any beacon seen in two blocks is undefined behaviour *)
Theorem doppler_latest_record_refuted : forall id v1 v2 t1 t2 eof, good_id id ->
  get_doppler_counts [] (blocks [(t1, [BObs id v1]); (t2, [BObs id v2])]) eof = UB.
Proof. exact doppler_ub. Qed.
Print Assumptions doppler_latest_record_refuted.
