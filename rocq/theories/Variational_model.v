(* Model of VariationalEquations, src/variational_equations.cpp (the branch without ABCD).  Doubles
   are real numbers.  A failed assertion is the result None.  External to it, and arguments here:
   the Earth rotation of the epoch (gcrs2itrs), the planetary positions (CSPICE, km), the attitude,
   the leap seconds (dso::dat), the density of the atmosphere as a function of day, seconds and the
   position handed to set_spatial_from_cartesian (the model of it is in Msis_model.v), and the
   gravity routine (its model is accel_partials_at of Gravity_model.v, put in at the end). *)
From Coq Require Import List ZArith Reals Bool.
From Verif Require Import Base Vec_model Harmonics_model Gravity_model Frames_model Forces_model.
Import ListNotations.
Local Open Scope R_scope.

(* Eigen::Quaternion<double> *)
Record quat := Quat { qw : R; qv : vec }.
Definition qconjugate (q : quat) : quat := Quat (qw q) (vscale (-1) (qv q)).
Definition qnorm2 (q : quat) : R := qw q * qw q + dot (qv q) (qv q).
(* a quaternion of length zero is left alone *)
Definition qnormalized (q : quat) : quat :=
  if Rlt_dec 0 (qnorm2 q) then Quat (/ sqrt (qnorm2 q) * qw q) (vscale (/ sqrt (qnorm2 q)) (qv q)) else q.
(* Eigen's quaternion times vector (_transformVector) *)
Definition qrotate (q : quat) (a : vec) : vec :=
  let uv := vscale 2 (cross (qv q) a) in
  vadd (vadd a (vscale (qw q) uv)) (cross (qv q) uv).

(* satellites.hpp:31-36; the optical properties are not used *)
Record plate := Plate { m_surf : R; m_normal : vec }.
(* variational_equations.cpp:117-127 *)
Definition proj_area (plates : list plate) (q : quat) (vr : vec) : R :=
  fold_left (fun area p =>
    let rv := qrotate (qnormalized (qconjugate q)) (m_normal p) in
    let ctheta := dot rv vr in
    if Rlt_dec 0 ctheta then area + m_surf p * ctheta else area) plates 0.

(* std::modf: whole part, towards zero *)
Definition whole (x : R) : Z := if Rlt_dec x 0 then (- Int_part (- x))%Z else Int_part x.
(* variational_equations.cpp:129-139: day and fraction of the day of the density; leap is what
   dso::dat returns, eid its second result *)
Definition utc_day (cmjd : R) (leap eid : Z) : Z * R :=
  let imjd := whole cmjd in
  let fday := cmjd - IZR imjd - IZR leap / (86400 + IZR eid) in
  if Rlt_dec 1 fday then ((imjd + 1)%Z, fday - 1)
  else if Rlt_dec fday 1 then ((imjd - 1)%Z, fday + 1)
  else (imjd, fday).

(* variational_equations.cpp:145-178: differences of the density over two metres; the last one takes
   both values on the same side *)
Definition density_differences (rho : vec -> R) (r : vec) : vec :=
  let at_ u := rho (vadd r u) in
  let diff p1 m1 := ((p1 - rho r) + (rho r - m1)) / 2 in
  V (diff (at_ (V 1 0 0)) (at_ (V (-1) 0 0))) (diff (at_ (V 0 1 0)) (at_ (V 0 (-1) 0))) (diff (at_ (V 0 0 1)) (at_ (V 0 0 1))).

(* orbit_integration.hpp:19-44 and the external routines *)
Record env := Env {
  mjd_tai : R;
  omega0 : R;                                        (* iers2010::OmegaEarth *)
  sec_per_day : R;
  mjd0_jd : R;
  earth : R -> option (mat * R * mat);               (* gcrs2itrs: rc2i, era, rpom *)
  gravity : vec -> outcome (option (vec * mat));     (* egravity.hpp:181-195 *)
  planets : R -> vec * vec;                          (* Sun and Moon for a TT Julian date *)
  GMSun : R; GMMon : R;
  attitude : R -> option quat;                       (* qhunt->get_at *)
  macromodel : list plate;
  leaps : R -> Z * Z;                                (* dso::dat *)
  air : Z -> R -> option (vec -> R);                 (* update_params and gtd7d *)
  sat_mass : R; drag_coef : R }.

(* acceleration and its partials by position, velocity and drag coefficient *)
Record forces := Frc { f_acc : vec; f_dr : mat; f_dv : mat; f_dC : vec }.
(* variational_equations.cpp:19-187, 222-223, 238 *)
Definition motion (E : env) (tsec : R) (r v : vec) : outcome (option forces) :=
  let cmjd := mjd_tai E + tsec / sec_per_day E in
  match earth E cmjd with
  | None => Ok None
  | Some (rc2i, era, rpom) =>
      do g <- gravity E (rcel2ter r rc2i era rpom);
      match g with
      | None => Ok None
      | Some (gacc, gpartials) =>
          let gacc := rter2cel gacc rc2i era rpom in
          let rc2ti := mulm (rot_era era) rc2i in
          let gpartials := mulm (mulm (mulm rpom rc2ti) gpartials) (transpose (mulm rpom rc2ti)) in
          let (rSun, rMon) := planets E (sunmoon_jd (mjd0_jd E) cmjd) in
          let sm := SunMoon rSun rMon r (GMSun E) (GMMon E) in
          match attitude E cmjd with
          | None => Ok None
          | Some q =>
              let vrel := vsub v (cross (earth_spin (omega0 E)) r) in
              let area := proj_area (macromodel E) q (normalized vrel) in
              let (leap, eid) := leaps E cmjd in
              let (day, fday) := utc_day cmjd leap eid in
              match air E day (fday * 86400) with
              | None => Ok None
              | Some rho =>
                  let d := drag_accel_partials (omega0 E) r v area (drag_coef E) (sat_mass E) (rho r) (density_differences rho r) in
                  Ok (Some (Frc (vadd (vadd (vadd gacc (sun_acc sm)) (moon_acc sm)) (dr_acc d))
                                (madd (madd gpartials (mon_partials sm)) (daccdr d)) (daccdv d) (daccdC d)))
              end
          end
      end
  end.

(* six consecutive elements, starting at 6 k: a column of the matrix stored column by column *)
Definition column (l : list R) (k : nat) : outcome state :=
  match firstn 6 (skipn (6 * k) l) with
  | [a; b; c; d; e; f] => Ok (State (V a b c) (V d e f))
  | _ => UB
  end.
Fixpoint columns (l : list R) (k n : nat) : outcome (list state) :=
  match n with
  | O => Ok []
  | S n => do c <- column l k; do cs <- columns l (S k) n; Ok (c :: cs)
  end.
Definition elements (s : state) : list R := [vx (st_r s); vy (st_r s); vz (st_r s); vx (st_v s); vy (st_v s); vz (st_v s)].
(* variational_equations.cpp:219-235: a column of dfdy * Phi *)
Definition dfdy_times (F : forces) (c : state) : state :=
  State (st_v c) (vadd (mulv (f_dr F) (st_r c)) (mulv (f_dv F) (st_v c))).
Definition splus (a b : state) : state := State (vadd (st_r a) (st_r b)) (vadd (st_v a) (st_v b)).
(* variational_equations.cpp:228-229: the columns of dfdS, Np = 1 *)
Definition dfdS (F : forces) (k : nat) : state := if Nat.eqb k 6 then State vzero (f_dC F) else State vzero vzero.
Fixpoint columns_rate (F : forces) (k : nat) (cs : list state) : list state :=
  match cs with
  | [] => []
  | c :: cs => splus (dfdy_times F c) (dfdS F k) :: columns_rate F (S k) cs
  end.
(* variational_equations.cpp:9-245: yPhiP *)
Definition variational (E : env) (tsec : R) (yPhi : list R) : outcome (option (list R)) :=
  do y <- column yPhi 0;
  do F <- motion E tsec (st_r y) (st_v y);
  match F with
  | None => Ok None
  | Some F =>
      do Phi <- columns yPhi 1 7;
      Ok (Some (concat (map elements (State (st_v y) (f_acc F) :: columns_rate F 0 Phi))))
  end.

(* variational_equations.cpp:51-53: the gravity routine of the library; the tables are working
   memory (their previous contents do not matter), junk what gpartials holds before *)
Definition grav_potential_accel (degree order : nat) (Re GM : R) (TV TW : table) (h : hc R) (junk : mat) (rgeo : vec) : outcome (option (vec * mat)) :=
  do a <- accel_partials_at rgeo degree order Re GM TV TW h junk;
  Ok (match a with None => None | Some (am, _) => Some am end).
