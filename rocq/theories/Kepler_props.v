From Coq Require Import Reals ZArith Lra Lia Psatz.
From Verif Require Import Vec_model Vec_proofs Kepler_model Kepler_proofs.
Local Open Scope R_scope.

(* C44: the solver ends after at most 20 steps and never divides by zero; success means the result is
   one Newton step from an iterate of small residual, failure that no iterate had one *)
Theorem kepler_contract : forall e M tol, 0 <= e < 1 -> exists E st M', kepler e M tol = Some (E, st) /\ same_angle M' M /\ 0 <= M' < 2 * PI /\
  ((st = 0%Z /\ exists j, (j < 20)%nat /\ E = refine e M' (iterate e M' j (start e M')) /\ Rabs (residual e M' (iterate e M' j (start e M'))) <= tol) \/
   (st = 1%Z /\ E = iterate e M' 20 (start e M') /\ forall j, (j < 20)%nat -> tol < Rabs (residual e M' (iterate e M' j (start e M'))))).
Proof. exact kepler_spec. Qed.
Print Assumptions kepler_contract.

(* C44: how far a result reported as good can be from the solution of Kepler's equation *)
Theorem kepler_accuracy : forall e M tol, 0 <= e < 1 -> exists E st M', kepler e M tol = Some (E, st) /\ same_angle M' M /\ 0 <= M' < 2 * PI /\
  (st = 0%Z -> exists X, kepler_eq e M' X /\ (1 - e) ^ 3 * Rabs (E - X) <= e * tol ^ 2).
Proof. exact kepler_error. Qed.
Print Assumptions kepler_accuracy.
Theorem kepler_solution_unique : forall e M X Y, 0 <= e < 1 -> kepler_eq e M X -> kepler_eq e M Y -> X = Y.
Proof. exact kepler_unique. Qed.
Print Assumptions kepler_solution_unique.

(* C44: the variant kepler_vallado, which stops on small steps *)
Theorem kepler_vallado_contract : forall e M tol, 0 <= e < 1 -> exists E st M', kepler_vallado e M tol = Some (E, st) /\ same_angle M' M /\ 0 <= M' < 2 * PI /\
  (st = 0%Z \/ st = 1%Z) /\
  (st = 0%Z -> exists E0 X, E = refine e M' E0 /\ Rabs (residual e M' E0) <= (1 + e) * tol /\ kepler_eq e M' X /\ (1 - e) ^ 3 * Rabs (E - X) <= e * ((1 + e) * tol) ^ 2).
Proof. exact kepler_vallado_spec. Qed.
Print Assumptions kepler_vallado_contract.
(* the success case is met: a circular orbit is solved at once *)
Example kepler_success : exists E, kepler 0 1 (1 / 1000) = Some (E, 0%Z).
Proof.
  destruct (kepler_spec 0 1 (1 / 1000) ltac:(lra)) as (E & st & M' & EQ & _ & _ & [(-> & _)|(_ & _ & F)]); [exists E; exact EQ|].
  exfalso. specialize (F 0%nat ltac:(lia)). cbn [iterate] in F. unfold residual, start in F. destruct (Rlt_dec 0 (8 / 10)); [|lra].
  replace (M' - 0 * sin M' - M') with 0 in F by ring. rewrite Rabs_R0 in F. lra.
Qed.

(* C45 *)
Theorem state_on_conic : forall el dt GM, 0 < GM -> 0 < el_a el -> 0 <= el_e el < 1 ->
  exists s ok E, elements2state el dt GM = Some (s, ok) /\ on_conic GM el E s /\
    (ok = 0%Z -> exists M' X, same_angle M' (el_M el + sqrt (GM / el_a el ^ 3) * dt) /\ kepler_eq (el_e el) M' X /\
       (1 - el_e el) ^ 3 * Rabs (E - X) <= el_e el * (100 / 2 ^ 52) ^ 2).
Proof. exact elements2state_spec. Qed.
Print Assumptions state_on_conic.
(* the normal and the perigee of the conic, spelled out *)
Theorem conic_directions : forall Omega i omega, let w := normal_dir Omega i in let p := perigee_dir Omega i omega in let n := node_dir Omega in
  dot w w = 1 /\ dot p p = 1 /\ dot w p = 0 /\ vz w = cos i /\ dot w n = 0 /\ vz n = 0 /\ dot p n = cos omega /\ dot p (cross w n) = sin omega.
Proof.
  intros. destruct (frame_dirs Omega i omega) as (A & B & C & _ & D). destruct (dirs_of Omega i omega) as [E F]. repeat split; assumption.
Qed.
Print Assumptions conic_directions.
Example conic_case : let el := Ele 2 (1 / 2) 1 1 1 1 in 0 < 1 /\ 0 < el_a el /\ 0 <= el_e el < 1.
Proof. cbn. lra. Qed.

(* C46: the functions that agree.  Missing: the Eigen overload and the equatorial transformation, refuted below. *)
Theorem propagation_agrees_partial : forall GM el dt,
  propagate_state GM el dt = match elements2state el dt GM with None => None | Some (s, _) => Some s end.
Proof. exact propagate_agrees. Qed.
Print Assumptions propagation_agrees_partial.
(* C46: what the Eigen overload computes: node and perigee exchanged *)
Theorem eigen_overload_partial : forall GM dt el, elements2state_eigen GM dt el = elements2state (Ele (el_a el) (el_e el) (el_i el) (el_omega el) (el_Omega el) (el_M el)) dt GM.
Proof. exact eigen_swaps. Qed.
Print Assumptions eigen_overload_partial.
(* C46: node and perigee equal: the transformation to the equatorial frame is right *)
Theorem equatorial_agrees_partial : forall GM el dt p, cos (el_Omega el) = cos (el_omega el) -> sin (el_Omega el) = sin (el_omega el) -> elements2perifocal GM el dt = Some p ->
  propagate_state GM el dt = Some (perifocal2equatorial el p) /\ equatorial2perifocal el (perifocal2equatorial el p) = p.
Proof. exact equatorial_agrees. Qed.
Print Assumptions equatorial_agrees_partial.
Theorem eigen_overload_refuted : exists el dt GM, 0 < GM /\ 0 < el_a el /\ 0 <= el_e el < 1 /\ elements2state_eigen GM dt el <> elements2state el dt GM.
Proof. exact eigen_differs. Qed.
Print Assumptions eigen_overload_refuted.
Theorem perifocal2equatorial_refuted : exists el dt GM p s ok, 0 < GM /\ 0 < el_a el /\ 0 <= el_e el < 1 /\
  elements2perifocal GM el dt = Some p /\ elements2state el dt GM = Some (s, ok) /\ perifocal2equatorial el p <> s.
Proof. exact perifocal_differs. Qed.
Print Assumptions perifocal2equatorial_refuted.
Theorem equatorial2perifocal_refuted : exists el p, equatorial2perifocal el (perifocal2equatorial el p) <> p.
Proof. exact perifocal_not_inverse. Qed.
Print Assumptions equatorial2perifocal_refuted.

(* C65: the elements of a bound state that is neither radial nor equatorial give the state back *)
Theorem elements_of_state_partial : forall GM r v, regular GM r v -> forall E,
  let el := state2elements r v GM in kepler_eq (el_e el) (el_M el) E -> state_of GM E el = State r v.
Proof. exact orb_state. Qed.
Print Assumptions elements_of_state_partial.
(* C65: and elements in range come back from their state *)
Theorem elements_round_trip : forall GM el E, 0 < GM -> in_range el -> kepler_eq (el_e el) (el_M el) E ->
  let s := state_of GM E el in regular GM (st_r s) (st_v s) /\ state2elements (st_r s) (st_v s) GM = el.
Proof. exact elements_recovered. Qed.
Print Assumptions elements_round_trip.
Example round_trip_case : let el := Ele 2 (1 / 2) 1 1 1 1 in in_range el /\ exists E, kepler_eq (el_e el) (el_M el) E.
Proof.
  split; [|apply kepler_exists; cbn; lra]. pose proof PI2_3_2. unfold in_range. cbn. lra.
Qed.
(* C65: an equatorial orbit is not given back *)
Theorem equatorial_orbit_refuted : exists GM r v, 0 < GM /\ dot v v < 2 * GM / norm r /\ 0 < norm (cross r v) /\
  exists E, kepler_eq (el_e (state2elements r v GM)) (el_M (state2elements r v GM)) E /\ state_of GM E (state2elements r v GM) <> State r v.
Proof. exact equatorial_lost. Qed.
Print Assumptions equatorial_orbit_refuted.

(* C65: the functions that give h, i, Omega, e, omega and the true anomaly *)
Theorem vallado_elements : forall GM r v, oriented GM r v -> describes GM (state2kepler_vallado r v GM) r v.
Proof. exact vallado_spec. Qed.
Print Assumptions vallado_elements.
Theorem curtis_elements : forall GM r v, oriented GM r v -> describes GM (state2kepler r v GM) r v.
Proof. intros GM r v O. rewrite (curtis_same GM r v O). exact (vallado_spec GM r v O). Qed.
Print Assumptions curtis_elements.
Example oriented_case : oriented 1 (V 1 0 0) (V 0 0 (1 / 2)).
Proof.
  assert (N : norm (V 1 0 0) = 1) by (apply norm_unique; unfold dot; cbn; lra). split; [lra|]. split; [right; cbn; lra|]. intros Q. apply (f_equal vx) in Q. unfold ecc_vector in Q. cbn [st_r st_v] in Q. rewrite N in Q. cbn in Q. lra.
Qed.
(* C65: the variant after Montenbruck: plane and eccentricity are right.  Missing: the anomaly and the perigee, refuted below *)
Theorem montenbruck_elements_partial : forall GM r v, regular GM r v -> let k := state2kepler_montenbruck r v GM in
  cross r v = vscale (k_h k) (normal_dir (k_Omega k) (k_i k)) /\ k_e k = el_e (state2elements r v GM).
Proof. exact montenbruck_right. Qed.
Print Assumptions montenbruck_elements_partial.
(* C65: the variant after Montenbruck gives a true anomaly at which the conic does not pass the satellite *)
Theorem montenbruck_elements_refuted : exists GM r v, regular GM r v /\ let k := state2kepler_montenbruck r v GM in
  norm r * (1 + k_e k * cos (k_theta k)) <> dot (cross r v) (cross r v) / GM.
Proof. exact montenbruck_wrong. Qed.
Print Assumptions montenbruck_elements_refuted.

(* C66: right ascension and declination, away from the poles *)
Theorem ascension_declination : forall pos, vx pos <> 0 \/ vy pos <> 0 -> let (a, d) := pos2ad pos in
  pos = vscale (norm pos) (V (cos d * cos a) (cos d * sin a) (sin d)) /\ 0 <= a <= 2 * PI /\ - (PI / 2) < d < PI / 2.
Proof. exact pos2ad_spec. Qed.
Print Assumptions ascension_declination.
Example ascension_case : vx (V 1 2 3) <> 0 \/ vy (V 1 2 3) <> 0.
Proof. left. cbn. lra. Qed.
