(* Property theorems C98.  [ymd_mjd] and [doy_of] stand for the external calendar, [lfh] for the
   longitude, latitude (radians) and height (meters) of the position. *)
From Coq Require Import String List ZArith QArith Reals Qreals Lra.
From Verif Require Import Base CLib_model Lines_proofs SpaceWeather_model SpaceWeather_proofs Msis_model Msis_data Msis_code Msis_refute MsisSwitch_model AirParams_model AirParams_proofs.
Import ListNotations.
Local Open Scope nat_scope.

(* C98: an update hands the model the day asked for and its second, to the millisecond, whether or
   not the file has the day; switches, units and place stay as they are *)
Theorem air_date : forall ymd_mjd doy_of file j j2 fr a mjd secday code a', (0 <= secday < 86400)%Q ->
  update_params ymd_mjd doy_of file j j2 fr a mjd secday = Some (Ok (code, a')) ->
  doy (core a') = doy_of mjd /\ (exists s, sec (core a') = Q2R s /\ (s <= secday)%Q /\ (secday - s < 1 # 1000)%Q) /\
  sw (core a') = sw (core a) /\ swc (core a') = swc (core a) /\ meters (core a') = meters (core a) /\
  alt (core a') = alt (core a) /\ glat (core a') = glat (core a) /\ glon (core a') = glon (core a).
Proof.
  intros ymd doy_of file j j2 fr a mjd q code a' Q E. destruct (update_params_inv _ _ _ _ _ _ _ _ _ _ _ E) as (fd & p & _ & ->). destruct (date_of mjd q Q) as (D & A & B & _).
  unfold core, with_date. cbn [a_mem a_par sw swc doy sec alt glat glon meters]. rewrite D. split; [reflexivity|]. split; [exists (sec_of q); split; [reflexivity|split; [Lqa.lra|exact B]]|]. repeat split.
Qed.
Print Assumptions air_date.

(* C98: the place handed to the model is the position: degrees for radians, kilometers for meters *)
Theorem air_place : forall a l f h, let i := core (set_spatial (l, f, h) a) in
  (glon i * PI / 180 = l /\ glat i * PI / 180 = f /\ alt i * 1000 = h)%R /\
  doy i = doy (core a) /\ sec i = sec (core a) /\ lst i = lst (core a) /\ f107 i = f107 (core a) /\ f107A i = f107A (core a) /\ ap i = ap (core a) /\ aparr i = aparr (core a).
Proof.
  intros a l f h i. split; [|repeat split]. assert (P : (PI <> 0)%R) by (pose proof PI_RGT_0; Lra.lra). cbn [glon glat alt i core set_spatial a_mem]. split; [|split]; field; exact P.
Qed.
Print Assumptions air_place.

(* C98: whatever dates and places were asked for before, successfully or not, the request made for a
   date of a table and a place, and so the density, is the same.  Missing: the local time, which has
   to be the same, refuted below; other files *)
Theorem air_request_partial : forall ymd_mjd doy_of ls last d0 dn mjd secday a b j1 j1' j2 j2' fr fr' a' b' lfh,
  Forall (line_ok 512) ls -> line_ok 512 last -> table ymd_mjd ls last d0 dn -> in_step ymd_mjd ls last a -> in_step ymd_mjd ls last b -> (0 <= secday < 86400)%Q ->
  length (fx_ap fr) = 8 -> length (fx_ap fr') = 8 -> 10 <= length j1 -> 10 <= length j1' -> 10 <= length j2 -> 10 <= length j2' -> (mjd <= dn \/ dn < mjd - 3)%Z ->
  same_settings a b -> lst (a_mem a) = lst (a_mem b) ->
  update_params ymd_mjd doy_of (Some (file_text ls last)) j1 j1' fr a mjd secday = Some (Ok (0%Z, a')) ->
  update_params ymd_mjd doy_of (Some (file_text ls last)) j2 j2' fr' b mjd secday = Some (Ok (0%Z, b')) ->
  core (set_spatial lfh a') = core (set_spatial lfh b') /\
  forall T o oc tz s, air_density T (set_spatial lfh a') o oc tz s = air_density T (set_spatial lfh b') o oc tz s.
Proof.
  intros until lfh. intros H1 H2 H3 H4 H5 H6 H7 H8 H9 H10 H11 H12 H13 H14 H15 H16 H17.
  pose proof (request_same ymd_mjd doy_of ls last d0 dn mjd secday a b j1 j1' j2 j2' fr fr' a' b' lfh H1 H2 H3 H4 H5 H6 H7 H8 H9 H10 H11 H12 H13 H14 H15 H16 H17) as E. split; [exact E|]. intros. unfold air_density. rewrite E. reflexivity.
Qed.
Print Assumptions air_request_partial.
(* two objects that were made for different days and are then asked for the same one *)
Example air_request_case : forall m : input, exists a b a' b', a_mem a = m /\ a_mem b = m /\ in_step calendar ex_lines [] a /\ in_step calendar ex_lines [] b /\ same_settings a b /\ fd_mjd (a_feed a) <> fd_mjd (a_feed b) /\
  update_params calendar (fun d => d - 59944)%Z (Some ex_file) ex_junk ex_junk blank a 59950 40000 = Some (Ok (0%Z, a')) /\
  update_params calendar (fun d => d - 59944)%Z (Some ex_file) ex_junk ex_junk blank b 59950 40000 = Some (Ok (0%Z, b')).
Proof.
  intros m. assert (LJ : 10 <= length ex_junk) by (vm_compute; repeat constructor).
  destruct (construct_table calendar ex_lines [] (proj1 ex_lines_ok) (proj2 ex_lines_ok) 59945 59951 ex_junk ex_junk ex_win 59949 4000 ex_table) as (fd & p & E & A & B);
    [split; [reflexivity|repeat constructor]|split; [discriminate|reflexivity]|exact LJ|exact LJ|split; discriminate|].
  destruct (construct_table calendar ex_lines [] (proj1 ex_lines_ok) (proj2 ex_lines_ok) 59945 59951 ex_junk ex_junk ex_win 59948 50000 ex_table) as (fd' & p' & E' & A' & B');
    [split; [reflexivity|repeat constructor]|split; [discriminate|reflexivity]|exact LJ|exact LJ|split; discriminate|].
  exists (Air m fd p), (Air m fd' p').
  assert (U : exists f q, update calendar (Some ex_file) ex_junk ex_junk blank (day_of 59950 40000) (sec_of 40000) fd p = Some (Ok (0%Z, f, q))).
  { assert (V : exists f q, construct calendar (Some ex_file) ex_junk ex_junk ex_win 59949 4000 = Some (Ok (Some (f, q))) /\ exists f' q', update calendar (Some ex_file) ex_junk ex_junk blank (day_of 59950 40000) (sec_of 40000) f q = Some (Ok (0%Z, f', q'))) by (do 2 eexists; split; [vm_compute; reflexivity|do 2 eexists; vm_compute; reflexivity]).
    destruct V as (f & q & V1 & V2). unfold ex_file in V1. rewrite E in V1. injection V1 as <- <-. exact V2. }
  assert (U' : exists f q, update calendar (Some ex_file) ex_junk ex_junk blank (day_of 59950 40000) (sec_of 40000) fd' p' = Some (Ok (0%Z, f, q))).
  { assert (V : exists f q, construct calendar (Some ex_file) ex_junk ex_junk ex_win 59948 50000 = Some (Ok (Some (f, q))) /\ exists f' q', update calendar (Some ex_file) ex_junk ex_junk blank (day_of 59950 40000) (sec_of 40000) f q = Some (Ok (0%Z, f', q'))) by (do 2 eexists; split; [vm_compute; reflexivity|do 2 eexists; vm_compute; reflexivity]).
    destruct V as (f & q & V1 & V2). unfold ex_file in V1. rewrite E' in V1. injection V1 as <- <-. exact V2. }
  destruct U as (f & q & U), U' as (f' & q' & U'). do 2 eexists. split; [reflexivity|]. split; [reflexivity|]. split; [exact A|]. split; [exact A'|]. split; [repeat split|].
  split; [cbn [a_feed]; rewrite (proj1 B), (proj1 B'); discriminate|]. unfold update_params. cbn [a_feed a_par a_mem]. rewrite U, U'. split; reflexivity.
Qed.

(* C98: after an update that succeeded the indices are those of the days of the file around that second:
   the averaged flux and the daily index of the day, the flux of the day before, the three hourly indices
   of now and of 3, 6 and 9 hours before, their means from 12 to 33 and from 36 to 57 hours before.
   Missing: days before the one last asked for that the file would have to be searched for again *)
Theorem air_indices_partial : forall ymd_mjd doy_of ls last mjd secday a j j2 fr a',
  Forall (line_ok 512) ls -> line_ok 512 last -> in_step ymd_mjd ls last a -> (0 <= secday < 86400)%Q -> length (fx_ap fr) = 8 -> 10 <= length j -> 10 <= length j2 ->
  (mjd = fd_mjd (a_feed a) \/ mjd = (fd_mjd (a_feed a) + 1)%Z \/ may_jump ymd_mjd ls last (a_feed a) mjd) ->
  update_params ymd_mjd doy_of (Some (file_text ls last)) j j2 fr a mjd secday = Some (Ok (0%Z, a')) ->
  exists win v today yesterday s, days_ending ymd_mjd ls last mjd win /\ nth_error win 3 = Some today /\ nth_error win 2 = Some yesterday /\
    sec (core a') = Q2R s /\ (forall n, n < 20 -> value_at win (inject_Z (3 * 86400) + s - inject_Z (10800 * Z.of_nat n)) (v n)) /\
    f107A (core a') = Q2R (fx_obsc today) /\ f107 (core a') = Q2R (fx_obs yesterday) /\ ap (core a') = Q2R (fx_apd today) /\ aparr (core a') 0 = Q2R (fx_apd today) /\
    (forall n, n < 4 -> aparr (core a') (S n) = IZR (v n)) /\
    (aparr (core a') 5 * 8)%R = IZR (SpaceWeather_proofs.total v 4 8) /\ (aparr (core a') 6 * 8)%R = IZR (SpaceWeather_proofs.total v 12 8).
Proof.
  intros ymd doy_of ls last mjd q a j j2 fr a' LO LL SA Q F J J2 DAY E. destruct (update_params_inv _ _ _ _ _ _ _ _ _ _ _ E) as (fd & p & U & ->). destruct (date_of mjd q Q) as (D & _ & _ & SQ). rewrite D in U.
  destruct (update_step ymd ls last LO LL j j2 fr mjd (sec_of q) (a_feed a) (a_par a) 0%Z fd p SA F SQ J J2 DAY U) as ((_ & DE & _) & N & _). destruct (N eq_refl) as (DM & _ & d3 & d2 & v & W3 & W2 & V & A1 & A2 & A3 & m1 & m2 & AR & M1 & M2).
  exists (fd_win fd), v, d3, d2, (sec_of q). rewrite DM in DE. refine (conj DE (conj W3 (conj W2 (conj eq_refl (conj V _))))). unfold core. cbn [a_mem a_par f107A f107 ap aparr]. rewrite A1, A2, A3, AR. cbn [nth map].
  assert (IQ : forall z, Q2R (inject_Z z) = IZR z) by (intros z; unfold Q2R; cbn [Qnum Qden inject_Z]; field).
  apply Qeq_eqR in M1, M2. rewrite Q2R_mult, IQ in M1, M2. assert (E8 : Q2R 8 = 8%R) by (unfold Q2R; cbn [Qnum Qden]; field). rewrite E8 in M1, M2.
  refine (conj eq_refl (conj eq_refl (conj eq_refl (conj eq_refl (conj _ (conj M1 M2)))))). intros n L. destruct n as [|[|[|[|n]]]]; cbn [nth]; try apply IQ. exfalso. do 4 apply PeanoNat.Nat.succ_lt_mono in L. inversion L.
Qed.
Print Assumptions air_indices_partial.

(* C98: after an update that failed the date is the new one but the indices are those of before *)
Theorem air_failed_update_partial : forall ymd_mjd doy_of ls last mjd secday a j j2 fr code a',
  Forall (line_ok 512) ls -> line_ok 512 last -> in_step ymd_mjd ls last a -> (0 <= secday < 86400)%Q -> length (fx_ap fr) = 8 -> 10 <= length j -> 10 <= length j2 ->
  (mjd = fd_mjd (a_feed a) \/ mjd = (fd_mjd (a_feed a) + 1)%Z \/ may_jump ymd_mjd ls last (a_feed a) mjd) -> code <> 0%Z ->
  update_params ymd_mjd doy_of (Some (file_text ls last)) j j2 fr a mjd secday = Some (Ok (code, a')) ->
  f107A (core a') = f107A (core a) /\ f107 (core a') = f107 (core a) /\ ap (core a') = ap (core a) /\ aparr (core a') = aparr (core a) /\ in_step ymd_mjd ls last a'.
Proof.
  intros ymd doy_of ls last mjd q a j j2 fr code a' LO LL SA Q F J J2 DAY NZ E. destruct (update_params_inv _ _ _ _ _ _ _ _ _ _ _ E) as (fd & p & U & ->). destruct (date_of mjd q Q) as (D & _ & _ & SQ). rewrite D in U.
  destruct (update_step ymd ls last LO LL j j2 fr mjd (sec_of q) (a_feed a) (a_par a) code fd p SA F SQ J J2 DAY U) as (Y & _ & N). destruct (N NZ) as (_ & -> & _). refine (conj eq_refl (conj eq_refl (conj eq_refl (conj eq_refl Y)))).
Qed.
Print Assumptions air_failed_update_partial.

(* C98: the constructor leaves the local time what the memory held and no operation of the object
   sets it *)
Theorem air_local_time_unset : forall ymd_mjd doy_of file j j2 win mem mjd secday a l a',
  make_air ymd_mjd doy_of file j j2 win mem mjd secday = Some (Ok (Some a)) -> steps ymd_mjd doy_of file a l = Some (Ok a') -> lst (core a') = lst mem.
Proof. intros. cbn [core lst]. rewrite (steps_lst _ _ _ _ _ _ H0). exact (make_air_lst _ _ _ _ _ _ _ _ _ _ H). Qed.
Print Assumptions air_local_time_unset.

(* C98: so, with the settings of the orbit determination, one date and one place give different
   temperatures of the thermosphere depending on what the memory held before *)
Theorem air_local_time_refuted : exists doy_of x y, x <> y /\ forall mem, exists a b c a' b' c' r s r' s',
  make_air calendar doy_of (Some calm_file) ex_junk ex_junk ex_win (with_lst mem x) 59949 4000 = Some (Ok (Some a)) /\
  make_air calendar doy_of (Some calm_file) ex_junk ex_junk ex_win (with_lst mem y) 59949 4000 = Some (Ok (Some a')) /\
  pod_settings a = Ok b /\ pod_settings a' = Ok b' /\
  update_params calendar doy_of (Some calm_file) ex_junk ex_junk blank b 59950 40000 = Some (Ok (0%Z, c)) /\
  update_params calendar doy_of (Some calm_file) ex_junk ex_junk blank b' 59950 40000 = Some (Ok (0%Z, c')) /\
  air_density code_tables (set_spatial (0, 0, 200000)%R c) zero_out zero_out 0 (statics0, zero_inst) = Ok (r, s) /\
  air_density code_tables (set_spatial (0, 0, 200000)%R c') zero_out zero_out 0 (statics0, zero_inst) = Ok (r', s') /\ (t0 r < t0 r')%R.
Proof.
  exists (fun d => d - 59944)%Z, 0%R, (PI / hr)%R. split.
  - assert (H : (0 < PI / hr)%R) by (apply Rdiv_lt_0_compat; [exact PI_RGT_0|unfold hr; Lra.lra]). apply Rlt_not_eq. exact H.
  - intros mem. apply local_time_counts. discriminate.
Qed.
Print Assumptions air_local_time_refuted.
