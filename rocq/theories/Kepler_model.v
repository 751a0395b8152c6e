(* Model of src/astrodynamics/kepler.cpp, perifocal.cpp, state2kepler.cpp, propagate_state.cpp
   (first function).  Doubles are real numbers, iers2010::DPI is pi.  A division by zero is
   an explicit outcome (None) where the divisor is not a model argument. *)
From Coq Require Import Reals ZArith.
From Verif Require Import Vec_model.
Local Open Scope R_scope.

Definition max_it : nat := 20.                                  (* kepler.cpp:5 *)
Definition two_pi : R := 2 * PI.                                (* kepler.cpp:7 *)
(* std::fmod: the remainder of the quotient rounded towards zero *)
Definition trunc (x : R) : Z := if Rle_dec 0 x then Int_part x else (- Int_part (- x))%Z.
Definition fmod (x y : R) : R := x - IZR (trunc (x / y)) * y.
(* kepler.cpp:10-13 *)
Definition arg02pi (angle : R) : R :=
  let t := fmod angle two_pi in if Rlt_dec t 0 then t + two_pi else t.
Definition divide (a b : R) : option R := if Req_EM_T b 0 then None else Some (a / b).
(* kepler.cpp:24-27 with [left] passes to go; it is max_it - left.  Result: E and it *)
Fixpoint newton (left : nat) (e M tol E : R) : option (R * nat) :=
  match left with
  | O => Some (E, max_it)
  | S left' =>
      let f := E - e * sin E - M in
      match divide f (1 - e * cos E) with
      | None => None
      | Some q =>
          let E' := E - q in
          if Rle_dec (Rabs f) tol then Some (E', max_it - left)%nat else newton left' e M tol E'
      end
  end.
(* kepler.cpp:15-35 (COUNT_KEPLER_ITERATIONS undefined): E and status *)
Definition kepler (e M tol : R) : option (R * Z) :=
  let M' := arg02pi M in
  let E0 := if Rlt_dec e (8 / 10) then M' else PI in
  match newton max_it e M' tol E0 with
  | None => None
  | Some (E, it) => Some (E, if Nat.leb max_it it then 1%Z else 0%Z)
  end.
(* kepler.cpp:46-49 *)
Fixpoint newton_v (left : nat) (e M tol En : R) : option (R * nat) :=
  match left with
  | O => Some (En, max_it)
  | S left' =>
      match divide (M - En + e * sin En) (1 - e * cos En) with
      | None => None
      | Some q =>
          let En' := En + q in
          if Rle_dec (Rabs (En - En')) tol then Some (En', max_it - left)%nat else newton_v left' e M tol En'
      end
  end.
(* kepler.cpp:37-58 *)
Definition kepler_vallado (e M tol : R) : option (R * Z) :=
  let M' := arg02pi M in
  let mr := if Rlt_dec PI M' then true else if Rlt_dec (- PI) M' then (if Rlt_dec M' 0 then true else false) else false in
  let E0 := M' + (if mr then - e else e) in
  match newton_v max_it e M' tol E0 with
  | None => None
  | Some (E, it) => Some (E, if Nat.leb max_it it then 1%Z else 0%Z)
  end.

(* astrodynamics.hpp:53-73 *)
Record elements := Ele { el_a : R; el_e : R; el_i : R; el_Omega : R; el_omega : R; el_M : R }.
(* position and velocity: two Vector3 or an Eigen 6-vector *)
Record state := State { st_r : vec; st_v : vec }.
(* astrodynamics.hpp:168-171: 1e2 * epsilon *)
Definition kepler_tol : R := 100 / 2 ^ 52.

(* state2kepler.cpp:28-34, perifocal.cpp:70-79, propagate_state.cpp:21-30 *)
Definition perifocal (GM E e a : R) : state :=
  let cE := cos E in
  let sE := sin E in
  let f := sqrt ((1 - e) * (1 + e)) in
  let rmag := a * (1 - e * cE) in
  let vmag := sqrt (GM * a) / rmag in
  State (V (a * (cE - e)) (a * f * sE) 0) (V (- vmag * sE) (vmag * f * cE) 0).
(* state2kepler.cpp:18-26: the anomaly for dt, and the status *)
Definition anomaly (GM : R) (el : elements) (dt : R) : option (R * Z) :=
  kepler (el_e el) (el_M el + sqrt (GM / (el_a el * el_a el * el_a el)) * dt) kepler_tol.
(* state2kepler.cpp:36-45 *)
Definition pqw (Omega i omega : R) : mat :=
  let sO := sin Omega in let cO := cos Omega in
  let so := sin omega in let co := cos omega in
  let si := sin i in let ci := cos i in
  mat9 (cO * co - sO * so * ci) (- cO * so - sO * co * ci) (sO * si)
       (sO * co + cO * so * ci) (- sO * so + cO * co * ci) (- cO * si)
       (so * si) (co * si) ci.
(* state2kepler.cpp:16-53: state and return value *)
Definition elements2state (el : elements) (dt GM : R) : option (state * Z) :=
  match anomaly GM el dt with
  | None => None
  | Some (E, ok) =>
      let p := perifocal GM E (el_e el) (el_a el) in
      let T := pqw (el_Omega el) (el_i el) (el_omega el) in
      Some (State (mulv T (st_r p)) (mulv T (st_v p)), ok)
  end.
(* state2kepler.cpp:55-96: the Eigen overload *)
Definition elements2state_eigen (GM dt : R) (el : elements) : option (state * Z) :=
  match anomaly GM el dt with
  | None => None
  | Some (E, ok) =>
      let p := perifocal GM E (el_e el) (el_a el) in
      let R := mulm (mulm (turn_z (- el_Omega el)) (turn_x (- el_i el))) (turn_z (- el_omega el)) in
      Some (State (mulv (transpose R) (st_r p)) (mulv (transpose R) (st_v p)), ok)
  end.
(* propagate_state.cpp:3-43: the status is dropped *)
Definition propagate_state (GM : R) (el : elements) (dt : R) : option state :=
  match anomaly GM el dt with
  | None => None
  | Some (E, _) =>
      let p := perifocal GM E (el_e el) (el_a el) in
      let PQW := mulm (mulm (turn_z (el_Omega el)) (turn_x (el_i el))) (turn_z (el_omega el)) in
      Some (State (mulv PQW (st_r p)) (mulv PQW (st_v p)))
  end.
(* perifocal.cpp:80-98 *)
Definition elements2perifocal (GM : R) (el : elements) (dt : R) : option state :=
  match anomaly GM el dt with None => None | Some (E, _) => Some (perifocal GM E (el_e el) (el_a el)) end.
(* perifocal.cpp:7-27 *)
Definition perifocal2equatorial_matrix (Omega omega i : R) : mat :=
  let cO := cos Omega in let sO := sin Omega in
  let co := cos omega in let so := sin omega in
  let ci := cos i in let si := sin i in
  mat9 (cO * co - sO * so * ci) (- cO * so - sO * co * ci) (sO * si)
       (sO * co + cO * so * ci) (- sO * so + cO * co * ci) (- cO * si)
       (sO * si) (cO * si) ci.
(* perifocal.cpp:100-109 (and 110-120, the same on six components) *)
Definition perifocal2equatorial (el : elements) (p : state) : state :=
  let T := perifocal2equatorial_matrix (el_Omega el) (el_omega el) (el_i el) in
  State (mulv T (st_r p)) (mulv T (st_v p)).
(* perifocal.cpp:122-132 (and 133-143) *)
Definition equatorial2perifocal (el : elements) (q : state) : state :=
  let T := transpose (perifocal2equatorial_matrix (el_Omega el) (el_omega el) (el_i el)) in
  State (mulv T (st_r q)) (mulv T (st_v q)).

(* ---- states to elements ---- *)
(* std::atan2 *)
Definition atan2 (y x : R) : R :=
  if Rlt_dec 0 x then atan (y / x)
  else if Rlt_dec x 0 then (if Rle_dec 0 y then atan (y / x) + PI else atan (y / x) - PI)
  else if Rlt_dec 0 y then PI / 2 else if Rlt_dec y 0 then - (PI / 2) else 0.
(* dso::norm_angle (external): the angle in [0, 2 pi) *)
Definition norm_angle (a : R) : R := a - IZR (Int_part (a / two_pi)) * two_pi.
(* state2kepler.cpp:98-134 (136-173 is the same on six components) *)
Definition state2elements (r v : vec) (GM : R) : elements :=
  let h := cross r v in
  let hmag := norm h in
  let u := atan2 (vz r * hmag) (- vx r * vy h + vy r * vx h) in
  let rmag := norm r in
  let a := 1 / (2 / rmag - dot v v / GM) in
  let eCosE := 1 - rmag / a in
  let eSinE := dot r v / sqrt (GM * a) in
  let e2 := eCosE * eCosE + eSinE * eSinE in
  let E := atan2 eSinE eCosE in
  let nu := atan2 (sqrt (1 - e2) * eSinE) (eCosE - e2) in
  Ele a (sqrt e2) (atan2 (sqrt (vx h * vx h + vy h * vy h)) (vz h)) (norm_angle (atan2 (vx h) (- vy h)))
      (norm_angle (u - nu)) (norm_angle (E - eSinE)).
(* keplerian[6] of state2kepler.cpp:175-207: h, i, Omega, e, omega, theta *)
Record six := Six { k_h : R; k_i : R; k_Omega : R; k_e : R; k_omega : R; k_theta : R }.
Definition state2kepler_montenbruck (r v : vec) (m : R) : six :=
  let rmag := norm r in
  let h := cross r v in
  let hmag := norm h in
  let W := V (vx h / hmag) (vy h / hmag) (vz h / hmag) in
  let p := dot h h / m in
  let a := 1 / (2 / rmag - dot v v / m) in
  let n := sqrt (m / (a * a * a)) in
  let e := sqrt (1 - p / a) in
  let E := atan2 (dot r v / a * a / n) (1 - rmag / a) in
  let u := atan2 (vz r) (- vx r * vy W + vy r * vx W) in
  let t := atan2 (sqrt (1 - e * e) * sin E) (cos E - e) in
  Six hmag (atan2 (sqrt (vx W * vx W + vy W * vy W)) (vz W)) (atan2 (vx W) (- vy W)) e (u - t) t.
(* state2kepler.cpp:264-354 *)
Definition state2kepler (pos vel : vec) (m : R) : six :=
  let r := norm pos in
  let v := norm vel in
  let vr := dot pos vel / r in
  let hv := cross pos vel in
  let h := norm hv in
  let Nv := V (- vy hv) (vx hv) 0 in
  let N := norm Nv in
  let Nf := acos (vx Nv / N) in
  let w := vsub (vscale (v * v - m / r) pos) (vscale (r * vr) vel) in
  let ev := V (vx w / m) (vy w / m) (vz w / m) in
  let e := norm ev in
  let Of := acos (dot Nv ev / N / e) in
  let Tf := acos (dot ev pos / e / r) in
  Six h (acos (vz hv / h)) (if Rlt_dec (vy Nv) 0 then two_pi - Nf else Nf) e
      (if Rlt_dec (vz ev) 0 then two_pi - Of else Of) (if Rlt_dec vr 0 then two_pi - Tf else Tf).
(* state2kepler.cpp:209-262 *)
Definition state2kepler_vallado (r v : vec) (m : R) : six :=
  let rnorm := norm r in
  let h := cross r v in
  let hnorm := norm h in
  let n := V (- vy h) (vx h) 0 in
  let nnorm := norm n in
  let w := vsub (vscale (dot v v - m / rnorm) r) (vscale (dot r v) v) in
  let e := V (vx w / m) (vy w / m) (vz w / m) in
  let enorm := norm e in
  let Omega := acos (vx n / nnorm) in
  let omega := acos (dot n e / (nnorm * enorm)) in
  let ni := acos (dot e r / (enorm * rnorm)) in
  Six hnorm (acos (vz h / hnorm)) (if Rlt_dec (vy n) 0 then two_pi - Omega else Omega) enorm
      (if Rlt_dec (vz e) 0 then two_pi - omega else omega) (if Rlt_dec (dot r v) 0 then two_pi - ni else ni).
(* pos2ra.cpp:7-32: right ascension and declination *)
Definition pos2ad (pos : vec) : R * R :=
  let r := norm pos in
  let l := vx pos / r in
  let m := vy pos / r in
  let n := vz pos / r in
  let d := asin n in
  let af := acos (l / cos d) in
  (if Rle_dec m 0 then two_pi - af else af, d).
