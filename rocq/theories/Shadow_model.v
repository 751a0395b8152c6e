(* Model of src/astrodynamics/occultation.cpp.  Doubles are real numbers; iers2010::Re, Rs and AU
   and the flattening of GRS80 are external constants and appear as arguments. *)
From Coq Require Import Reals.
From Verif Require Import Vec_model Forces_model.
Local Open Scope R_scope.

(* std::asin and std::acos: None is the NaN given outside [-1, 1] *)
Definition in_unit (x : R) : bool := if Rle_dec (-1) x then if Rle_dec x 1 then true else false else false.
Definition c_asin (x : R) : option R := if in_unit x then Some (asin x) else None.
Definition c_acos (x : R) : option R := if in_unit x then Some (acos x) else None.
Definition bind {A B : Type} (o : option A) (f : A -> option B) : option B := match o with Some a => f a | None => None end.

(* occultation.cpp:17-44 *)
Definition vallado_shadow (Re Rs AU : R) (r_sat r_sun : vec) : option R :=
  let product := dot r_sat r_sun in
  if Rle_dec 0 product then Some 1 else
  let r := norm r_sat in
  let s := norm r_sun in
  let cosz := product / (r * s) in
  bind (c_acos cosz) (fun zeta =>
  let sinz := sin zeta in
  let sath := r * cosz in
  let satv := r * sinz in
  let sinApen := (Rs + Re) / AU in
  bind (c_asin sinApen) (fun Apen =>
  let tanApen := tan Apen in
  let x := Re / sinApen in
  let penv := tanApen * (x + sath) in
  if Rle_dec satv penv then
    let sinAumb := (Rs - Re) / AU in
    let y := Re / sinAumb in
    bind (c_asin sinAumb) (fun Aumb =>
    let umbv := tan Aumb * (y - sath) in
    if Rle_dec satv umbv then Some 0 else Some (1 / 2))
  else Some 1)).

(* occultation.cpp:46-52 *)
Definition montenbruck_shadow (Re : R) (r_sat r_sun : vec) : R :=
  let unitvec_sun := vscale (/ norm r_sun) r_sun in
  let s := dot r_sat unitvec_sun in
  if Rlt_dec 0 s then 1 else if Rlt_dec Re (norm (vsub r_sat (vscale s unitvec_sun))) then 1 else 0.
(* occultation.cpp:54-60: the same on Eigen vectors *)
Definition montenbruck_shadow_eigen (Re : R) (r_sat r_sun : vec) : R :=
  let unitvec_sun := normalized r_sun in
  let s := dot r_sat unitvec_sun in
  if Rlt_dec 0 s then 1 else if Rlt_dec Re (norm (vsub r_sat (vscale s unitvec_sun))) then 1 else 0.

(* occultation.cpp:62-73 *)
Definition bernese_shadow1 (Re f : R) (r_sat r_sun : vec) : R :=
  let fac := 1 + f in
  let zsat := V (vx r_sat) (vy r_sat) (vz r_sat * fac) in
  let zsun := V (vx r_sun) (vy r_sun) (vz r_sun * fac) in
  let rsun := norm zsun in
  let rsat2 := dot zsat zsat in
  let rcos := dot zsat zsun / rsun in
  let rsin := sqrt (rsat2 - rcos * rcos) in
  if Rlt_dec rcos 0 then if Rlt_dec (rsin - Re) 0 then 0 else 1 else 1.

(* occultation.cpp:75-99 *)
Definition conical_shadow (Re Rs : R) (r_sat r_sun : vec) : option R :=
  bind (c_asin (Re / norm r_sat)) (fun te =>
  let nsunsat := norm (vsub r_sun r_sat) in
  bind (c_asin (Rs / nsunsat)) (fun ts =>
  bind (c_acos (- dot r_sat (vsub r_sun r_sat) / (nsunsat * norm r_sat))) (fun tes =>
  if Rle_dec (te + ts) tes then Some 1 else
  if Rle_dec tes (te - ts) then Some 0 else
  let ts2 := ts * ts in
  let te2 := te * te in
  let tes2 := tes * tes in
  bind (c_acos ((ts2 + tes2 - te2) / (2 * ts * tes))) (fun caf =>
  bind (c_acos ((te2 + tes2 - ts2) / (2 * te * tes))) (fun cbd =>
  let Safc := 1 / 2 * caf * ts2 in
  let Saec := 1 / 2 * (ts * sin caf) * (ts * cos caf) in
  let Sbdc := 1 / 2 * cbd * te2 in
  let Sbec := 1 / 2 * (te * sin cbd) * (te * cos cbd) in
  let S := 2 * (Safc - Saec) + 2 * (Sbdc - Sbec) in
  Some (1 - S / (PI * ts2))))))).
