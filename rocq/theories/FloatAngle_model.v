(* Model, in binary64 (Flocq's, round to nearest even), of the functions that take an arc cosine, an arc sine or a root
   of something computed: orbital elements, declination and shadow.  Kepler_model.v and Shadow_model.v have the same
   functions over the real numbers.  Vector3 is external: its dot product is taken to be x x' + y y' + z z' from left to
   right, its norm the root of that, and scaling and dividing are by component; no fused operations. *)
From Coq Require Import ZArith Bool.
From Flocq Require Import IEEE754.BinarySingleNaN IEEE754.Binary IEEE754.Bits.
From Verif Require Import FloatTime_model.
Local Open Scope Z_scope.

Definition dadd (x y : double) : double := b64_plus mode_NE x y.
Definition dsub (x y : double) : double := b64_minus mode_NE x y.
Definition dmul (x y : double) : double := b64_mult mode_NE x y.
Definition ddiv (x y : double) : double := b64_div mode_NE x y.
Definition dsqrt (x : double) : double := b64_sqrt mode_NE x.
Definition dopp (x : double) : double := b64_opp x.
(* the comparisons; false with a NaN *)
Definition dlt (x y : double) : bool := match b64_compare x y with Some Lt => true | _ => false end.
Definition dle (x y : double) : bool := match b64_compare x y with Some Lt | Some Eq => true | _ => false end.
Definition zero : double := B754_zero 53 1024 false.
Definition one : double := of_int 1.
Definition two : double := of_int 2.
Definition half : double := ddiv one two.
(* iers2010::DPI and D2PI (external): 3.14159265358979323846 and twice that *)
Definition DPI : double := ddiv (of_int 7074237752028440) (of_int 2251799813685248).
Definition D2PI : double := dmul two DPI.

Record dvec := D { dx : double; dy : double; dz : double }.
Definition dot (a b : dvec) : double := dadd (dadd (dmul (dx a) (dx b)) (dmul (dy a) (dy b))) (dmul (dz a) (dz b)).
Definition norm (a : dvec) : double := dsqrt (dot a a).
Definition cross (a b : dvec) : dvec :=
  D (dsub (dmul (dy a) (dz b)) (dmul (dz a) (dy b))) (dsub (dmul (dz a) (dx b)) (dmul (dx a) (dz b))) (dsub (dmul (dx a) (dy b)) (dmul (dy a) (dx b))).
Definition scale (k : double) (a : dvec) : dvec := D (dmul (dx a) k) (dmul (dy a) k) (dmul (dz a) k).
Definition over (a : dvec) (k : double) : dvec := D (ddiv (dx a) k) (ddiv (dy a) k) (ddiv (dz a) k).
Definition vminus (a b : dvec) : dvec := D (dsub (dx a) (dx b)) (dsub (dy a) (dy b)) (dsub (dz a) (dz b)).

(* the functions of <cmath> that are used *)
Record libm := Libm { acos : double -> double; asin : double -> double; sin : double -> double; cos : double -> double }.

(* keplerian[6] of state2kepler.cpp:264-354 *)
Record six := Six { k_h : double; k_i : double; k_Omega : double; k_e : double; k_omega : double; k_theta : double }.
Definition state2kepler (L : libm) (pos vel : dvec) (m : double) : six :=
  let r := norm pos in
  let v := norm vel in
  let vr := ddiv (dot pos vel) r in
  let hv := cross pos vel in
  let h := norm hv in
  let Nv := D (dopp (dy hv)) (dx hv) zero in
  let N := norm Nv in
  let Nf := acos L (ddiv (dx Nv) N) in
  let ev := over (vminus (scale (dsub (dmul v v) (ddiv m r)) pos) (scale (dmul r vr) vel)) m in
  let e := norm ev in
  let Of := acos L (ddiv (ddiv (dot Nv ev) N) e) in
  let Tf := acos L (ddiv (ddiv (dot ev pos) e) r) in
  Six h (acos L (ddiv (dz hv) h)) (if dlt (dy Nv) zero then dsub D2PI Nf else Nf) e
      (if dlt (dz ev) zero then dsub D2PI Of else Of) (if dlt vr zero then dsub D2PI Tf else Tf).
(* state2kepler.cpp:190-195: semi-major axis and eccentricity of the montenbruck variant *)
Definition montenbruck_eccentricity (pos vel : dvec) (m : double) : double :=
  let h := cross pos vel in
  let p := ddiv (dot h h) m in
  let a := ddiv one (dsub (ddiv two (norm pos)) (ddiv (dot vel vel) m)) in
  dsqrt (dsub one (ddiv p a)).

(* pos2ra.cpp:7-32: whether the assertion of line 18 holds, and the declination *)
Definition pos2ad_sine (pos : dvec) : double := ddiv (dz pos) (norm pos).
Definition pos2ad_assertion (pos : dvec) : bool := dle (dopp one) (pos2ad_sine pos) && dle (pos2ad_sine pos) one.
Definition pos2ad_declination (L : libm) (pos : dvec) : double := asin L (pos2ad_sine pos).

(* occultation.cpp:17-44; the constants of lines 29-32 and 36-39 (computed by gcem while compiling) are arguments *)
Definition vallado_shadow (L : libm) (tanApen x tanAumb y : double) (r_sat r_sun : dvec) : double :=
  let product := dot r_sat r_sun in
  if dle zero product then one else
  let r := norm r_sat in
  let s := norm r_sun in
  let cosz := ddiv product (dmul r s) in
  let zeta := acos L cosz in
  let sinz := sin L zeta in
  let sath := dmul r cosz in
  let satv := dmul r sinz in
  let penv := dmul tanApen (dadd x sath) in
  if dle satv penv then
    let umbv := dmul tanAumb (dsub y sath) in
    if dle satv umbv then zero else half
  else one.
(* occultation.cpp:46-52 *)
Definition montenbruck_shadow (Re : double) (r_sat r_sun : dvec) : double :=
  let unitvec_sun := over r_sun (norm r_sun) in
  let s := dot r_sat unitvec_sun in
  if dlt zero s || dlt Re (norm (vminus r_sat (scale s unitvec_sun))) then one else zero.
(* occultation.cpp:62-73; fac is 1e0 + the flattening of GRS80 (external) *)
Definition bernese_shadow1 (Re fac : double) (r_sat r_sun : dvec) : double :=
  let zsat := D (dx r_sat) (dy r_sat) (dmul (dz r_sat) fac) in
  let zsun := D (dx r_sun) (dy r_sun) (dmul (dz r_sun) fac) in
  let rsun := norm zsun in
  let rsat2 := dot zsat zsat in
  let rcos := ddiv (dot zsat zsun) rsun in
  let rsin := dsqrt (dsub rsat2 (dmul rcos rcos)) in
  if dlt rcos zero && dlt (dsub rsin Re) zero then zero else one.
(* occultation.cpp:75-99 *)
Definition conical_shadow (L : libm) (Re Rs : double) (r_sat r_sun : dvec) : double :=
  let te := asin L (ddiv Re (norm r_sat)) in
  let nsunsat := norm (vminus r_sun r_sat) in
  let ts := asin L (ddiv Rs nsunsat) in
  let tes := acos L (ddiv (dopp (dot r_sat (vminus r_sun r_sat))) (dmul nsunsat (norm r_sat))) in
  if dle (dadd te ts) tes then one else
  if dle tes (dsub te ts) then zero else
  let ts2 := dmul ts ts in
  let te2 := dmul te te in
  let tes2 := dmul tes tes in
  let caf := acos L (ddiv (dsub (dadd ts2 tes2) te2) (dmul (dmul two ts) tes)) in
  let cbd := acos L (ddiv (dsub (dadd te2 tes2) ts2) (dmul (dmul two te) tes)) in
  let Safc := dmul (dmul half caf) ts2 in
  let Saec := dmul (dmul half (dmul ts (sin L caf))) (dmul ts (cos L caf)) in
  let Sbdc := dmul (dmul half cbd) te2 in
  let Sbec := dmul (dmul half (dmul te (sin L cbd))) (dmul te (cos L cbd)) in
  let S := dadd (dmul two (dsub Safc Saec)) (dmul two (dsub Sbdc Sbec)) in
  dsub one (ddiv S (dmul DPI ts2)).
