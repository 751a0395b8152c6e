From Coq Require Import Reals ZArith Lra.
From Verif Require Import Vec_model Vec_proofs Calc Kepler_model Kepler_proofs Partials_model Partials_proofs.
Local Open Scope R_scope.

(* C67: along every differentiable change of the elements of an elliptic orbit out of the equator the
   state changes by the matrix of partials times the change of the elements *)
Theorem partials_exact : forall GM dt (a e i O o M E : R -> R) s a' e' i' O' o' M', 0 < GM ->
  derivable_pt_lim a s a' -> derivable_pt_lim e s e' -> derivable_pt_lim i s i' -> derivable_pt_lim O s O' -> derivable_pt_lim o s o' -> derivable_pt_lim M s M' ->
  0 < a s -> 0 <= e s < 1 -> 0 < sin (i s) ->
  (forall t, kepler_eq (e t) (M t + sqrt (GM / (a t * a t * a t)) * dt) (E t)) ->
  let el (t : R) := Ele (a t) (e t) (i t) (O t) (o t) (M t) in
  exists m, partials_at GM (el s) dt (perifocal GM (E s) (e s) (a s)) = Some m /\
    sderiv (fun t => state_of GM (E t) (el t)) s (mul6 m a' e' i' O' o' M').
Proof. exact partials_derivative. Qed.
Print Assumptions partials_exact.
Example partials_exact_case : 0 < 1 /\ derivable_pt_lim (fun _ => 1) 1 0 /\ derivable_pt_lim (fun t => t - 1 / 2 * sin t - 1) 1 (1 - 1 / 2 * cos 1) /\ 0 <= 1 / 2 < 1 /\ 0 < sin 1 /\
  (forall t, kepler_eq (1 / 2) ((t - 1 / 2 * sin t - 1) + sqrt (1 / (1 * 1 * 1)) * 1) t).
Proof. exact partials_case_ok. Qed.
(* C67: state_partials returns that matrix, and propagate_state that state, at one anomaly near the root of Kepler's equation *)
Theorem partials_returned : forall GM el dt, 0 < GM -> 0 < el_a el -> 0 <= el_e el < 1 -> 0 < sin (el_i el) ->
  exists E m, near_anomaly GM el dt E /\ partials_at GM el dt (perifocal GM E (el_e el) (el_a el)) = Some m /\ state_partials GM el dt = Some m /\ propagate_state GM el dt = Some (state_of GM E el).
Proof. exact state_partials_code. Qed.
Print Assumptions partials_returned.
(* C67: in the equator there is no matrix *)
Theorem partials_equator_refuted : exists GM el dt, 0 < GM /\ 0 < el_a el /\ 0 <= el_e el < 1 /\ state_partials GM el dt = None.
Proof. exists 1, (Ele 1 0 0 0 0 0), 0. split; [lra|]. split; [cbn; lra|]. split; [cbn; lra|]. apply equatorial_undefined. cbn. apply sin_0. Qed.
Print Assumptions partials_equator_refuted.
(* C67: the rows of the inverse give back the change of the elements *)
Theorem elements_by_state : forall GM el E c0 c1 c2 c3 c4 c5, 0 < GM -> 0 < el_a el -> 0 < el_e el < 1 -> 0 < sin (el_i el) -> cos (el_i el) <> 0 ->
  exists m, partials_at GM el 0 (perifocal GM E (el_e el) (el_a el)) = Some m /\
  let p := poisson GM el m in let y := mul6 m c0 c1 c2 c3 c4 c5 in
  sdot (m6_0 p) y = c0 /\ sdot (m6_1 p) y = c1 /\ sdot (m6_2 p) y = c2 /\ sdot (m6_3 p) y = c3 /\ sdot (m6_4 p) y = c4 /\ sdot (m6_5 p) y = c5.
Proof. exact elements_inverse. Qed.
Print Assumptions elements_by_state.
Example elements_by_state_case : 0 < sin 1 /\ cos 1 <> 0.
Proof. destruct transition_case_ok as (X & _ & _ & _ & A & B). exact (conj A B). Qed.
(* C67: the transition matrix takes the change of the initial state to the change of the propagated state,
   for orbits that are not circular, equatorial or exactly polar (missing: those three) *)
Theorem transition_matrix_partial : forall GM dt (a e i O o M E0 E : R -> R) s a' e' i' O' o' M', 0 < GM ->
  derivable_pt_lim a s a' -> derivable_pt_lim e s e' -> derivable_pt_lim i s i' -> derivable_pt_lim O s O' -> derivable_pt_lim o s o' -> derivable_pt_lim M s M' ->
  0 < a s -> 0 < e s < 1 -> 0 < sin (i s) -> cos (i s) <> 0 ->
  (forall t, kepler_eq (e t) (M t) (E0 t)) -> (forall t, kepler_eq (e t) (M t + sqrt (GM / (a t * a t * a t)) * dt) (E t)) ->
  let el (t : R) := Ele (a t) (e t) (i t) (O t) (o t) (M t) in
  exists m0 m y0, partials_at GM (el s) 0 (perifocal GM (E0 s) (e s) (a s)) = Some m0 /\ partials_at GM (el s) dt (perifocal GM (E s) (e s) (a s)) = Some m /\
    sderiv (fun t => state_of GM (E0 t) (el t)) s y0 /\ sderiv (fun t => state_of GM (E t) (el t)) s (apply6 (mulm6 m (poisson GM (el s) m0)) y0).
Proof. exact transition_derivative. Qed.
Print Assumptions transition_matrix_partial.
Example transition_matrix_case : exists X, kepler_eq (1 / 2) 0 0 /\ kepler_eq (1 / 2) (0 + sqrt (1 / (1 * 1 * 1)) * 1) X /\ derivable_pt_lim (fun t => t) 1 1 /\ 0 < sin 1 /\ cos 1 <> 0.
Proof. exact transition_case_ok. Qed.
(* C67: propagate_state returns that matrix *)
Theorem transition_returned : forall GM Y0 dt, let el := state2elements (st_r Y0) (st_v Y0) GM in 0 < GM -> 0 < el_a el -> 0 <= el_e el < 1 -> 0 < sin (el_i el) ->
  exists E0 E m0 m, near_anomaly GM el 0 E0 /\ near_anomaly GM el dt E /\
    partials_at GM el 0 (perifocal GM E0 (el_e el) (el_a el)) = Some m0 /\ partials_at GM el dt (perifocal GM E (el_e el) (el_a el)) = Some m /\
    propagate_state_partials GM Y0 dt = Some (state_of GM E el, mulm6 m (poisson GM el m0)).
Proof. exact propagate_code. Qed.
Print Assumptions transition_returned.
