(* Variational equations: C79 right-hand side, C80 transition and sensitivity matrices *)
From Coq Require Import List ZArith Reals Lra Lia Bool.
From Verif Require Import Base Vec_model Vec_proofs Calc Harmonics_model Gravity_model Legendre GravHarm Gravity_proofs Frames_model Frames_proofs Forces_model Forces_proofs Variational_model Variational_proofs.
Import ListNotations.
Local Open Scope R_scope.

(* C79: the first six numbers are velocity and acceleration: gravity turned back, Sun, Moon and drag.
   Missing: the Sun with its full strength, and the density at the right place and date, refuted below *)
Theorem equations_of_motion_partial : forall E tsec m y Phi g G, length Phi = 7%nat -> circumstances E tsec m -> gravity E (mulv (mo_cel m) (st_r y)) = Ok (Some (g, G)) ->
  exists out, variational E tsec (layout y Phi) = Ok (Some out) /\ length out = 48%nat /\ part out 0 (st_v y) /\
    part out 3 (vadd (vadd (vadd (mulv (transpose (mo_cel m)) g)
                                 (vscale (/ 10 ^ 6) (body (10 ^ 9 * GMSun E) (st_r y) (vscale 1000 (mo_sun m)))))
                           (body (10 ^ 9 * GMMon E) (st_r y) (vscale 1000 (mo_moon m))))
                     (drag_law (V 0 0 (omega0 E)) (st_r y) (st_v y) (facing E m (st_r y) (st_v y)) (drag_coef E) (sat_mass E) (mo_rho m (st_r y)))).
Proof. exact equations. Qed.
Print Assumptions equations_of_motion_partial.
Example equations_case : length unit_columns = 7%nat /\ circumstances (plain 1 (mulv G1) G1 1 one_plate vertical) 0 (plain_moment 1 vertical) /\
  forall x, gravity (plain 1 (mulv G1) G1 1 one_plate vertical) x = Ok (Some (mulv G1 x, G1)).
Proof. split; [reflexivity|]. split; [apply plain_circumstances|reflexivity]. Qed.

(* C79: with the gravity routine of the library the first term is the gradient, in inertial
   coordinates, of the potential of the gravity model at the Earth-fixed place *)
Theorem inertial_gravity_gradient : forall Re GM C S degree order TV TW h junk cel p lam s u, Re <> 0 -> (1 <= order <= degree)%nat -> coefficients h degree C S -> exact_size TV degree order -> exact_size TW degree order ->
  vderiv p s u -> mulv cel (p s) <> vzero -> (forall t, longitude (mulv cel (p t)) (lam t)) ->
  exists g G, grav_potential_accel degree order Re GM TV TW h junk (mulv cel (p s)) = Ok (Some (g, G)) /\
    derivable_pt_lim (fun t => potential GM Re C S degree order (mulv cel (p t)) (lam t)) s (dot (mulv (transpose cel) g) u).
Proof. exact inertial_gravity. Qed.
Print Assumptions inertial_gravity_gradient.

(* C79: the area facing the flow: every plate, turned back by the attitude, counts with the cosine
   of its angle to the flow, and not at all when it faces away *)
Theorem projected_area : forall plates q v, 0 < qw q * qw q + dot (qv q) (qv q) -> exists ns, Forall2 (fun p n => turned_back q (m_normal p) n) plates ns /\
  proj_area plates q v = total (map (fun pn => m_surf (fst pn) * Rmax 0 (dot (snd pn) v)) (combine plates ns)).
Proof. exact area_sum. Qed.
Print Assumptions projected_area.
Theorem projected_area_turning : forall q a b a' b', 0 < qw q * qw q + dot (qv q) (qv q) -> turned_back q a a' -> turned_back q b b' -> dot a' b' = dot a b.
Proof. exact turned_dot. Qed.
Print Assumptions projected_area_turning.
Example projected_area_case : 0 < qw (Quat 0 (V 0 0 2)) * qw (Quat 0 (V 0 0 2)) + dot (qv (Quat 0 (V 0 0 2))) (qv (Quat 0 (V 0 0 2))) /\ turned_back (Quat 0 (V 0 0 2)) (V 1 0 5) (V (-1) 0 5).
Proof. split; [cbn [qw qv]; vec_unfold; lra|]. unfold turned_back, qmul, qinv. cbn [qw qv]. f_equal; [vec_ring|vec_ring]. Qed.

(* C79: day and seconds handed to the density name the right instant; they are a proper UTC date
   only in the first seconds of a TAI day, at other times the day before with a day of seconds more *)
Theorem density_epoch_partial : forall cmjd leap d f day sec, 0 <= cmjd -> (0 <= leap < 86400)%Z -> clock_reading (cmjd - IZR leap / 86400) day sec -> utc_day cmjd leap 0 = (d, f) ->
  IZR d * 86400 + f * 86400 = 86400 * (cmjd - IZR leap / 86400) /\
  (whole cmjd <> day -> d = day /\ f * 86400 = sec) /\ (whole cmjd = day -> d = (day - 1)%Z /\ f * 86400 = sec + 86400).
Proof. intros cmjd leap d f day sec P L C H. exact (conj (epoch_instant cmjd leap d f H) (epoch_days cmjd leap d f day sec P L C H)). Qed.
Print Assumptions density_epoch_partial.
Theorem density_epoch_refuted : exists cmjd leap day sec d f, (0 <= leap < 86400)%Z /\ clock_reading (cmjd - IZR leap / 86400) day sec /\ utc_day cmjd leap 0 = (d, f) /\ d <> day /\ ~ f * 86400 < 86400.
Proof. exact epoch_wrong. Qed.
Print Assumptions density_epoch_refuted.
Example density_epoch_case : (0 <= 59000 + / 2)%R /\ (0 <= 37 < 86400)%Z /\ clock_reading (59000 + / 2 - IZR 37 / 86400) 59000 43163.
Proof. split; [lra|]. split; [lia|]. split; lra. Qed.

(* C79: the density is not taken at the Earth-fixed place *)
Theorem density_place_refuted : exists E m r v g G a, circumstances E 0 m /\ gravity E (mulv (mo_cel m) r) = Ok (Some (g, G)) /\ g = vzero /\ GMSun E = 0 /\ GMMon E = 0 /\
  accelerates E 0 r v a /\ a <> place_wanted E m r v.
Proof. exact place_wrong. Qed.
Print Assumptions density_place_refuted.

(* C79: no derivative is delivered when one of the external routines fails *)
Theorem failure_stops : forall E tsec y Phi, length Phi = 7%nat -> (forall x, gravity E x <> UB) -> fails E tsec (st_r y) -> variational E tsec (layout y Phi) = Ok None.
Proof. exact stops. Qed.
Print Assumptions failure_stops.
Definition blind : env := Env 59000 0 86400 0 (fun _ => Some (identity, 1, identity)) (fun x => Ok (Some (x, identity))) (fun _ => (vzero, vzero)) 1 1 (fun _ => None) [] (fun _ => (37, 0)%Z) (fun _ _ => Some vx) 1 1.
Example failure_stops_case : (forall x, gravity blind x <> UB) /\ fails blind 0 (V 1 2 3).
Proof. split; [intros x H; discriminate H|]. right. left. reflexivity. Qed.

(* C80: the columns of the result are the derivatives of velocity and acceleration along the columns
   given.  Missing, and refuted below: a rotated Earth, the Sun, a density that varies; for the Moon
   see third_body_partials_refuted; the area facing the flow is held constant *)
Theorem transition_partial : forall E tsec m y Phi j col fld jac p q c a s,
  length Phi = 7%nat -> nth_error Phi j = Some col -> circumstances E tsec m ->
  (forall x, x <> vzero -> gravity E x = Ok (Some (fld x, jac x))) -> mulv (mo_cel m) (st_r y) <> vzero -> is_jacobian fld (mulv (mo_cel m) (st_r y)) (jac (mulv (mo_cel m) (st_r y))) ->
  (let A := mo_cel m in let J := jac (mulv A (st_r y)) in mulm (mulm A J) (transpose A) = mulm (mulm (transpose A) J) A) ->
  GMSun E = 0 -> st_r y <> vscale 1000 (mo_moon m) -> dot (vsub (st_r y) (vscale 1000 (mo_moon m))) (st_r col) = 0 ->
  gradient (mo_rho m) (st_r y) (density_differences (mo_rho m) (st_r y)) -> flow E (st_r y) (st_v y) <> vzero ->
  p s = st_r y -> q s = st_v y -> c s = drag_coef E -> vderiv p s (st_r col) -> vderiv q s (st_v col) -> derivable_pt_lim c s (if Nat.eqb j 6 then 1 else 0) ->
  (forall t, facing E m (p t) (q t) = facing E m (st_r y) (st_v y)) ->
  (forall t, accelerates (with_drag E (c t)) tsec (p t) (q t) (a t)) ->
  exists out da, variational E tsec (layout y Phi) = Ok (Some out) /\ part out (6 * (j + 1)) (st_v col) /\ part out (6 * (j + 1) + 3) da /\ vderiv a s da.
Proof. exact transition. Qed.
Print Assumptions transition_partial.
Example transition_case : let E := plain 0 (mulv G1) G1 0 [] (fun _ => 0) in let m := plain_moment 0 (fun _ => 0) in let y := State (V 1000 1 0) (V 0 1 0) in
  let p := line (V 1000 1 0) (V 1 0 0) in
  length unit_columns = 7%nat /\ nth_error unit_columns 0 = Some (State (V 1 0 0) vzero) /\ circumstances E 0 m /\
  (forall x, x <> vzero -> gravity E x = Ok (Some (mulv G1 x, G1))) /\ mulv (mo_cel m) (st_r y) <> vzero /\ is_jacobian (mulv G1) (mulv (mo_cel m) (st_r y)) G1 /\
  mulm (mulm (mo_cel m) G1) (transpose (mo_cel m)) = mulm (mulm (transpose (mo_cel m)) G1) (mo_cel m) /\
  GMSun E = 0 /\ st_r y <> vscale 1000 (mo_moon m) /\ dot (vsub (st_r y) (vscale 1000 (mo_moon m))) (V 1 0 0) = 0 /\
  gradient (mo_rho m) (st_r y) (density_differences (mo_rho m) (st_r y)) /\ flow E (st_r y) (st_v y) <> vzero /\
  p 0 = st_r y /\ vderiv p 0 (V 1 0 0) /\ (forall t, facing E m (p t) (V 0 1 0) = facing E m (st_r y) (st_v y)) /\
  forall t, accelerates (with_drag E 1) 0 (p t) (V 0 1 0) (V (vx (p t)) 0 0).
Proof. exact transition_example. Qed.
(* C80: the gravity gradient is turned the wrong way into inertial coordinates *)
Theorem transition_rotation_refuted : exists E y j p q a, GMSun E = 0 /\ GMMon E = 0 /\ macromodel E = [] /\ wrong_column E y j p q a.
Proof. do 6 eexists. split; [|split; [|split; [|exact rotation_wrong]]]; reflexivity. Qed.
Print Assumptions transition_rotation_refuted.
(* C80: the density gradient has no z component, so drag is differentiated wrongly even for an Earth
   that does not turn and without gravity *)
Theorem transition_density_refuted : exists E y j p q a, GMSun E = 0 /\ GMMon E = 0 /\ omega0 E = 0 /\ wrong_column E y j p q a.
Proof. do 6 eexists. split; [|split; [|split; [|exact density_wrong]]]; reflexivity. Qed.
Print Assumptions transition_density_refuted.
(* C80: the partials of the Sun are left out *)
Theorem transition_sun_refuted : exists E y j p q a, GMSun E = 1 /\ GMMon E = 0 /\ macromodel E = [] /\ wrong_column E y j p q a.
Proof. do 6 eexists. split; [|split; [|split; [|exact sun_partials_wrong]]]; reflexivity. Qed.
Print Assumptions transition_sun_refuted.

(* C80: the differences of the density are its derivatives by x and y when it is of the second degree;
   missing, and refuted above: the derivative by z *)
Theorem density_differences_partial : forall c g h r, transpose h = h ->
  vx (density_differences (second_degree c g h) r) = vx (vadd g (vscale 2 (mulv h r))) /\
  vy (density_differences (second_degree c g h) r) = vy (vadd g (vscale 2 (mulv h r))).
Proof. exact differences_exact. Qed.
Print Assumptions density_differences_partial.
Example density_differences_case : let h := mat9 1 2 3 2 5 6 3 6 9 in transpose h = h /\ h <> transpose (mat9 1 2 3 2 5 6 3 7 9).
Proof. split; [reflexivity|]. unfold transpose. cbn. intros H. injection H as H. lra. Qed.
