From Coq Require Import String List ZArith QArith Ascii Bool.
From Verif Require Import Base CLib_model SinexCrd_model SinexCrd_proofs.
Import ListNotations.
Local Open Scope Z_scope.

(* C56: whenever a call succeeds, the result holds, in the order of the request, for every station asked for
   (or, where some have no site and this is tolerated, for every one that has), its first estimate moved by its
   velocity over the years between the epochs *)
Theorem coordinates_sound : forall sites ests ids t flag rs, extrapolate_core sites ests ids t flag = Ok (0, rs) ->
  exists sv l who, sites = Some sv /\ ests = Some l /\ Forall2 (delivered l t) who rs /\
    (length sv = length ids -> who = ids) /\ (length sv <> length ids -> flag = false /\ subseq who ids /\ forall id, In id who <-> In id ids /\ has_site sv id).
Proof. exact core_ok. Qed.
Print Assumptions coordinates_sound.
(* C56: a call succeeds if every station has a site and its six estimates *)
Theorem coordinates_complete_partial : forall sv l ids t flag, length sv = length ids -> (6 * length ids <= length l)%nat -> Forall (complete l) ids ->
  exists rs, extrapolate_core (Some sv) (Some l) ids t flag = Ok (0, rs) /\ Forall2 (delivered l t) ids rs.
Proof. exact core_all. Qed.
Print Assumptions coordinates_complete_partial.
Example coordinates_complete_case : Forall (complete (ex_site "DIOB" ++ ex_site "THUB")) [str "THUB"; str "DIOB"].
Proof. exact ex_complete. Qed.
(* C56: errors are told from success, and leave no results *)
Theorem coordinates_errors : forall sites ests ids t flag,
  (sites = None -> extrapolate_core sites ests ids t flag = Ok (1, [])) /\
  (forall sv, sites = Some sv -> length sv <> length ids -> flag = true -> extrapolate_core sites ests ids t flag = Ok (2, [])) /\
  (forall sv, sites = Some sv -> length sv <> length ids -> flag = false -> forall l, ests = Some l -> (length l < 6 * length ids)%nat -> extrapolate_core sites ests ids t flag = Ok (1, [])).
Proof. exact core_errors. Qed.
Print Assumptions coordinates_errors.
(* C56: a call tolerant of missing stations fails when one is missing and the file has the six estimates of each of the others *)
Theorem coordinates_tolerant_refuted : exists sv l ids t, (forall id, In id ids -> has_site sv id -> complete l id) /\ (exists id, In id ids /\ has_site sv id) /\
  extrapolate_core (Some sv) (Some l) ids t false = Ok (1, []).
Proof.
  exists [str "DIOB"], (ex_site "DIOB"), [str "DIOB"; str "THUB"], 0%Q. split; [|split].
  - intros id [<-|[<-|[]]] (s & [<-|[]] & E); [|discriminate E]. apply (station_some _ _ 0%Q). eexists. reflexivity.
  - exists (str "DIOB"). split; [left; reflexivity|]. exists (str "DIOB"). split; [left; reflexivity|reflexivity].
  - reflexivity.
Qed.
Print Assumptions coordinates_tolerant_refuted.
(* C56: a station with a site but without velocities is undefined behaviour, not an error *)
Theorem coordinates_no_velocity_refuted : exists sv l ids t, length sv = length ids /\ extrapolate_core (Some sv) (Some l) ids t false = UB.
Proof. exists [str "DIOB"], (repeat (ex_est "DIOB" "STAX  " "m   " 1) 6), [str "DIOB"], 0%Q. split; reflexivity. Qed.
Print Assumptions coordinates_no_velocity_refuted.
(* C56: a site listed twice hides a missing station *)
Theorem coordinates_duplicate_refuted : exists sv l ids t id, In id ids /\ ~ has_site sv id /\ extrapolate_core (Some sv) (Some l) ids t true = UB.
Proof.
  exists [str "DIOB"; str "DIOB"], (ex_site "DIOB" ++ ex_site "DIOB"), [str "DIOB"; str "THUB"], 0%Q, (str "THUB"). split; [right; left; reflexivity|]. split; [|reflexivity].
  intros (s & [<-|[<-|[]]] & E); discriminate E.
Qed.
Print Assumptions coordinates_duplicate_refuted.
(* C56: the overload with beacons asks for the codes of the beacons *)
Theorem beacon_codes : forall sites ests beacons t flag, Forall (fun id => length (firstn 4 (cstr id)) = 4%nat) beacons ->
  extrapolate_beacons sites ests beacons t flag = extrapolate_core sites ests (map site_buffer beacons) t flag /\
  Forall (fun id => firstn 4 (site_buffer id) = firstn 4 (cstr id) /\ firstn 4 (cstr (site_buffer id)) = firstn 4 (cstr id)) beacons.
Proof. intros sites ests beacons t flag F. split; [reflexivity|]. apply (Forall_impl _ wrapper_code F). Qed.
Print Assumptions beacon_codes.
Example beacon_codes_case : length (firstn 4 (cstr (str "DIOB"))) = 4%nat. Proof. reflexivity. Qed.
