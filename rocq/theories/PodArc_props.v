From Coq Require Import List ZArith QArith Qabs Ascii Bool Lia.
From Verif Require Import Base CLib_model SysInfo_model Rinex_model Rinex_proofs PodArc_model PodArc_proofs.
Import ListNotations.

(* C84: every observation is treated as expected from the observations before it, without undefined
   behaviour, up to an observation of a beacon the file header does not list *)
Theorem doppler_counts : forall sts l1i l2i w1i w2i cutoff k l, stations_ok sts -> Forall (complete l1i l2i w1i w2i) l ->
  exists evs fin, run sts l1i l2i w1i w2i cutoff k [] 0 l = Ok (evs, fin) /\
  (forall a o b e, l = a ++ o :: b -> nth_error evs (length a) = Some e -> expected l1i l2i w1i w2i cutoff a o e /\ exists s, In s sts /\ st_code s = beacon o) /\
  ((fin = Asserted /\ exists a o b, l = a ++ o :: b /\ length evs = length a /\ ~ exists s, In s sts /\ st_code s = beacon o) \/
   (exists ts n, fin = Finished ts n /\ length evs = length l)).
Proof. exact run_spec. Qed.
Print Assumptions doppler_counts.
Example doppler_counts_case : stations_ok [d01; d02] /\ Forall (complete 0 1 2 3) ex_day /\
  exists fin, run [d01; d02] 0 1 2 3 10 0 [] 0 ex_day = Ok ([First 0 1; First 1 2; Doppler 0 0 (140 - 100) 10000000000; Flagged; Doppler 1 0 (520 - 500) 20000000000;
    Again 0 None; Doppler 0 0 (290 - 250) 10000000000; Low; Again 0 (Some 9%Q); NoTropo; Doppler 0 1 (30 - 10) 20000000000], fin).
Proof. split; [apply ex_day_ok|]. split; [apply ex_day_ok|]. eexists. vm_compute. reflexivity. Qed.

(* C84: no Doppler count is missed *)
Theorem doppler_formed : forall sts l1i l2i w1i w2i cutoff k l evs fin, stations_ok sts -> Forall (complete l1i l2i w1i w2i) l ->
  run sts l1i l2i w1i w2i cutoff k [] 0 l = Ok (evs, fin) ->
  forall a o b p since, l = a ++ o :: b -> (length a < length evs)%nat -> usable l1i l2i w1i w2i cutoff o ->
  latest l1i l2i w1i w2i cutoff a (beacon o) p since -> ~ interrupted l1i l2i w1i w2i since (beacon o) -> ~ new_arc p o ->
  exists n arc x y vp vo, nth_error evs (length a) = Some (Doppler n arc (y - x) (gap p o)) /\
    nth_error (s_vals p) l1i = Some vp /\ rv vp = x /\ nth_error (s_vals o) l1i = Some vo /\ rv vo = y.
Proof. exact doppler_formed_ok. Qed.
Print Assumptions doppler_formed.
Example doppler_formed_case : exists a o b p since, ex_day = a ++ o :: b /\ length a = 4%nat /\ usable 0 1 2 3 10 o /\
  latest 0 1 2 3 10 a (beacon o) p since /\ ~ interrupted 0 1 2 3 since (beacon o) /\ ~ new_arc p o.
Proof.
  exists (firstn 4 ex_day), (nth 4 ex_day (broken 0 [])), (skipn 5 ex_day), (nth 1 ex_day (broken 0 [])), (firstn 2 (skipn 2 ex_day)).
  split; [reflexivity|]. split; [reflexivity|].
  assert (U : forall t id x e w, (10 <= e)%Q -> usable 0 1 2 3 10 (seen t id x e (Some w))) by (intros; split; [vm_compute; discriminate|split; [assumption|discriminate]]).
  split; [apply U; discriminate|]. split; [|split].
  - exists (firstn 1 ex_day). split; [reflexivity|]. split; [reflexivity|]. split; [apply U; discriminate|].
    intros q [<-|[<-|[]]]; discriminate.
  - intros (q & [<-|[<-|[]]] & B & _); discriminate.
  - unfold new_arc. vm_compute. discriminate.
Qed.

(* C84: beacons keep their numbers, different beacons have different ones, all within the filter *)
Theorem beacon_numbers : forall sts l1i l2i w1i w2i cutoff k l evs fin, stations_ok sts -> Forall (complete l1i l2i w1i w2i) l ->
  run sts l1i l2i w1i w2i cutoff k [] 0 l = Ok (evs, fin) ->
  forall a o b e n a' o' b' e' n', l = a ++ o :: b -> l = a' ++ o' :: b' ->
  nth_error evs (length a) = Some e -> nth_error evs (length a') = Some e' -> number_of e = Some n -> number_of e' = Some n' ->
  (n < length sts)%nat /\ (n = n' <-> beacon o = beacon o').
Proof. exact numbers_ok. Qed.
Print Assumptions beacon_numbers.
Example beacon_numbers_case : exists evs fin e e', run [d01; d02] 0 1 2 3 10 0 [] 0 ex_day = Ok (evs, fin) /\
  nth_error evs 4 = Some e /\ nth_error evs 6 = Some e' /\ number_of e = Some 1%nat /\ number_of e' = Some 0%nat.
Proof. do 4 eexists. split; [vm_compute; reflexivity|]. repeat split. Qed.

(* C84: the interval of a count is positive and at most five minutes when data blocks come in order
   and name a beacon once *)
Theorem doppler_interval : forall sts l1i l2i w1i w2i cutoff k l evs fin a o b n arc cyc dt, stations_ok sts -> Forall (complete l1i l2i w1i w2i) l ->
  in_order l -> run sts l1i l2i w1i w2i cutoff k [] 0 l = Ok (evs, fin) -> l = a ++ o :: b ->
  nth_error evs (length a) = Some (Doppler n arc cyc dt) -> (0 < dt <= 300000000000)%Z.
Proof. exact interval_ok. Qed.
Print Assumptions doppler_interval.
Example doppler_interval_case : in_order ex_day.
Proof. exact ex_day_order. Qed.
(* C84: without that the count is divided by zero: a beacon twice in a data block is not noticed *)
Theorem doppler_interval_refuted : exists l n arc cyc fin e, Forall (complete 0 1 2 3) l /\
  run [d01; d02] 0 1 2 3 10 0 [] 0 l = Ok ([e; Doppler n arc cyc 0], fin).
Proof. exists ex_twice. do 5 eexists. split; [repeat constructor|]. vm_compute. reflexivity. Qed.
Print Assumptions doppler_interval_refuted.

(* C84: the positions of the measurements are found, or a nonzero code is returned *)
Theorem measurement_indexes : forall codes code l1 l2 f w1 w2, get_rinex_indexes codes = (code, (l1, l2, f, w1, w2)) ->
  (code = 0%Z /\ first_at codes (ObsCode phase 1) l1 /\ first_at codes (ObsCode phase 2) l2 /\ first_at codes (ObsCode frequency_offset 0) f /\
     first_at codes (ObsCode power_level 1) w1 /\ first_at codes (ObsCode power_level 2) w2) \/
  (code = 1%Z /\ exists c, In c [ObsCode phase 1; ObsCode phase 2; ObsCode frequency_offset 0; ObsCode power_level 1; ObsCode power_level 2] /\ ~ In c codes).
Proof. exact indexes_ok. Qed.
Print Assumptions measurement_indexes.
Example measurement_indexes_case : get_rinex_indexes [ObsCode phase 1; ObsCode pseudorange 1; ObsCode power_level 1; ObsCode power_level 2; ObsCode phase 2; ObsCode frequency_offset 0] = (0, (0, 4, 5, 2, 3))%Z.
Proof. reflexivity. Qed.

(* C85: the running statistics: number, mean, and mean square deviation from the mean *)
Theorem running_statistics : forall x xs, let l := x :: xs in let r := fold_left stats_update l stats0 in
  stats_count r = length l /\ r_mean r == total l / nb l /\
  exists v, stats_variance r = Some v /\ v == spread (total l / nb l) l / nb l.
Proof. exact statistics_ok. Qed.
Print Assumptions running_statistics.
(* C85: it is not the sample variance of the method the program refers to *)
Theorem running_variance_refuted : exists l v, stats_variance (fold_left stats_update l stats0) = Some v /\ ~ v == sample_variance l.
Proof. exists [1; 3]. eexists. split; [vm_compute; reflexivity|]. vm_compute. discriminate. Qed.
Print Assumptions running_variance_refuted.
(* C85: up to five residuals are taken if they are below a kilometre per second, later ones if they
   are below thirty standard deviations over the sine of the elevation *)
Theorem residual_test_early : forall r sn oc, (stats_count r <= 5)%nat -> (accepted r sn oc = true <-> Qabs oc < 1000).
Proof. exact accepted_early. Qed.
Print Assumptions residual_test_early.
Theorem residual_test_late : forall r sn oc sd v, (5 < stats_count r)%nat -> stats_variance r = Some v -> 0 <= sd -> sd * sd == v -> 0 < sn ->
  (accepted r sn oc = true <-> Qabs oc < 30 * sd / sn).
Proof. exact accepted_late. Qed.
Print Assumptions residual_test_late.
Example residual_test_case : let r := fold_left stats_update [1; -(1); 1; -(1); 1; -(1)] stats0 in
  (5 < stats_count r)%nat /\ (exists v, stats_variance r = Some v /\ 1 * 1 == v) /\ accepted r (1 # 2) 59 = true /\ accepted r (1 # 2) 61 = false.
Proof. cbn zeta. split; [vm_compute; lia|]. split; [eexists; split; vm_compute; reflexivity|]. split; reflexivity. Qed.
(* C85: the statistics are those of the residuals taken *)
Theorem residual_statistics : forall l r r' bs, residuals r l = (r', bs) -> length bs = length l /\ r' = fold_left stats_update (chosen l bs) r.
Proof. exact residuals_ok. Qed.
Print Assumptions residual_statistics.
(* C85: a residual as large as the ones before may be refused: the test is around zero, not around the
   mean, and six equal residuals close the filter for good *)
Theorem residual_shut : forall r l v, (5 < stats_count r)%nat -> stats_variance r = Some v -> v == 0 -> residuals r l = (r, map (fun _ => false) l).
Proof. exact stuck. Qed.
Print Assumptions residual_shut.
Example residual_shut_case : let r := fold_left stats_update (repeat 5 6) stats0 in (5 < stats_count r)%nat /\ exists v, stats_variance r = Some v /\ v == 0.
Proof. cbn zeta. split; [vm_compute; lia|]. eexists. split; vm_compute; reflexivity. Qed.
Theorem residual_mean_refuted : exists l r bs, residuals stats0 l = (r, bs) /\ Forall (fun b => b = true) bs /\ (5 < stats_count r)%nat /\
  (exists v, stats_variance r = Some v /\ 0 < v) /\ accepted r 1 (r_mean r) = false.
Proof.
  exists (map (fun x => (1, x)) [100; 101; 100; 101; 100; 101]). do 2 eexists. split; [vm_compute; reflexivity|]. split; [repeat constructor|].
  split; [vm_compute; lia|]. split; [eexists; split; [vm_compute; reflexivity|reflexivity]|reflexivity].
Qed.
Print Assumptions residual_mean_refuted.
