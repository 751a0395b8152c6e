(* Model of src/planets/sunpos.cpp and src/planets/moonpos.cpp.  Doubles are real numbers.  The
   SOFA fundamental arguments fal03, falp03, faf03 and fad03 are external: their values l, lp, F and D
   at the epoch appear as arguments. *)
From Coq Require Import Reals.
From Verif Require Import Vec_model Kepler_model.
Local Open Scope R_scope.

Definition turn : R := 2 * PI.
(* dso::deg2rad *)
Definition rad (x : R) : R := x * PI / 180.
(* the value of std::modf: what is left after rounding towards zero *)
Definition frac (x : R) : R := x - IZR (trunc x).

(* sunpos.cpp:21-46 *)
Definition sun_vector_montenbruck (t : R) : vec :=
  let M := turn * frac (9931267 / 10 ^ 7 + 999973583 / 10 ^ 7 * t) in
  let L := turn * frac (7859444 / 10 ^ 7 + M / turn + (6892 * sin M + 72 * sin (2 * M)) / (12960 / 10 * 10 ^ 3)) in
  let r := 149619 / 10 ^ 3 * 10 ^ 9 - 2499 / 10 ^ 3 * 10 ^ 9 * cos M - 21 / 10 ^ 3 * 10 ^ 9 * cos (2 * M) in
  let x := r * cos L / 10 ^ 3 in
  let y := r * sin L / 10 ^ 3 in
  let eps := rad (2343929111 / 10 ^ 8) in
  let C := cos (- eps) in
  let S := sin (- eps) in
  V x (C * y) (- S * y).

(* sunpos.cpp:11: kilometres in one astronomical unit *)
Definition DAUKM : R := 1495978707 / 10.
(* sunpos.cpp:48-71 *)
Definition sun_vector_vallado (t : R) : vec :=
  let lambda := fmod (280460 / 10 ^ 3 + 36000771 / 10 ^ 3 * t) 360 in
  let M := fmod (3575291092 / 10 ^ 7 + 3599950534 / 10 ^ 5 * t) 360 in
  let Mrad := rad M in
  let l_ecliptic := fmod (lambda + 1914666471 / 10 ^ 9 * sin Mrad + 19994643 / 10 ^ 9 * sin (2 * Mrad)) 360 in
  let epsilon := 23439291 / 10 ^ 6 - 130042 / 10 ^ 7 * t in
  let r_au := 1000140612 / 10 ^ 9 - 16708617 / 10 ^ 9 * cos Mrad - 139589 / 10 ^ 9 * cos (2 * Mrad) in
  let S := sin (rad l_ecliptic) in
  vscale DAUKM (V (r_au * cos (rad l_ecliptic)) (r_au * cos (rad epsilon) * S) (r_au * sin (rad epsilon) * S)).

(* sunpos.cpp:107-131: n is in days *)
Definition sun_vector_curtis (n : R) : vec :=
  let M := fmod (357529 / 10 ^ 3 + 98560023 / 10 ^ 8 * n) 360 in
  let L := fmod (280459 / 10 ^ 3 + 98564736 / 10 ^ 8 * n) 360 in
  let lon := fmod (L + 1915 / 10 ^ 3 * sin (rad M) + 200 / 10 ^ 4 * sin (2 * rad M)) 360 in
  let e := 23439 / 10 ^ 3 - 365 / 10 ^ 9 * n in
  let ux := cos (rad lon) in
  let uy := cos (rad e) * sin (rad lon) in
  let uz := sin (rad e) * sin (rad lon) in
  let rs := 100014 / 10 ^ 5 - 1671 / 10 ^ 5 * cos (rad M) - 140 / 10 ^ 6 * cos (2 * rad M) in
  V (ux * rs * DAUKM) (uy * rs * DAUKM) (uz * rs * DAUKM).

(* iers2010::TURNAS, DR2AS, DAS2R: arcseconds in a turn, in a radian and back *)
Definition TURNAS : R := 1296000.
Definition DR2AS : R := 1296000 / (2 * PI).
Definition DAS2R : R := 2 * PI / 1296000.
(* moonpos.cpp:13-76 *)
Definition moon_vector_approx (l lp F D t : R) : vec :=
  let L0 := turn * frac (606433 / 10 ^ 6 + 1336851344 / 10 ^ 6 * t) in
  let dlambda :=
    22640 * sin l + 769 * sin (2 * l) - 4586 * sin (l - 2 * D) + 2370 * sin (2 * D) + - (668) * sin lp - 412 * sin (2 * F)
    + - (212) * sin (2 * l - 2 * D) - 206 * sin (l + lp - 2 * D) + 192 * sin (l + 2 * D) - 165 * sin (lp - 2 * D)
    + 148 * sin (l - lp) - 125 * sin D - 110 * sin (l + lp) - 55 * sin (2 * F - 2 * D) in
  let lambda := fmod (L0 * DR2AS + dlambda) TURNAS * DAS2R in
  let sinarg := fmod (F + (dlambda + 412 * sin (2 * F) + 541 * sin lp) * DAS2R) turn in
  let beta :=
    fmod (18520 * sin sinarg - 526 * sin (F - 2 * D) + 44 * sin (l + F - 2 * D) - 31 * sin (- l + F - 2 * D)
          - 25 * sin (- (2) * l + F) - 23 * sin (lp + F - 2 * D) + 21 * sin (- l + F) + 11 * sin (- lp + F - 2 * D)) TURNAS * DAS2R in
  let r := (385000 - 20905 * cos l - 3699 * cos (2 * D - l) - 2956 * cos (2 * D) - 570 * cos (2 * l) + 246 * cos (2 * l - 2 * D)
            - 205 * cos (lp - 2 * D) - 171 * cos (l + 2 * D) - 152 * cos (l + lp - 2 * D)) * 10 ^ 3 in
  let x := r * cos lambda * cos beta / 10 ^ 3 in
  let y := r * sin lambda * cos beta / 10 ^ 3 in
  let z := r * sin beta / 10 ^ 3 in
  let eps := rad (2343929111 / 10 ^ 8) in
  let C := cos (- eps) in
  let S := sin (- eps) in
  V x (C * y + S * z) (- S * y + C * z).

(* moonpos.cpp:78-126 *)
Definition moon_vector_vallado (t : R) : vec :=
  let lecliptic :=
    21832 / 10 ^ 2 + 4812678813 / 10 ^ 4 * t + 629 / 10 ^ 2 * sin (rad (1349 / 10 + 47719885 / 10 ^ 2 * t))
    - 127 / 10 ^ 2 * sin (rad (2592 / 10 - 41333538 / 10 ^ 2 * t)) + 66 / 10 ^ 2 * sin (rad (2357 / 10 + 89053423 / 10 ^ 2 * t))
    + 21 / 10 ^ 2 * sin (rad (2699 / 10 + 95439770 / 10 ^ 2 * t)) - 19 / 10 ^ 2 * sin (rad (3575 / 10 + 3599905 / 10 ^ 2 * t))
    - 11 / 10 ^ 2 * sin (rad (1866 / 10 + 96640405 / 10 ^ 2 * t)) in
  let fecliptic :=
    513 / 10 ^ 2 * sin (rad (933 / 10 + 48320203 / 10 ^ 2 * t)) + 28 / 10 ^ 2 * sin (rad (2282 / 10 + 96040087 / 10 ^ 2 * t))
    - 28 / 10 ^ 2 * sin (rad (3183 / 10 + 600318 / 10 ^ 2 * t)) - 17 / 10 ^ 2 * sin (rad (2176 / 10 - 40733220 / 10 ^ 2 * t)) in
  let rho :=
    9508 / 10 ^ 4 + 518 / 10 ^ 4 * cos (rad (1349 / 10 + 47719885 / 10 ^ 2 * t)) + 95 / 10 ^ 4 * cos (rad (2592 / 10 - 41333538 / 10 ^ 2 * t))
    + 78 / 10 ^ 4 * cos (rad (2357 / 10 + 89053423 / 10 ^ 2 * t)) + 28 / 10 ^ 4 * cos (rad (2699 / 10 + 95439770 / 10 ^ 2 * t)) in
  let obliquity := 23439291 / 10 ^ 6 + t * (- (130042 / 10 ^ 7) + t * (- (164 / 10 ^ 9) + 504 / 10 ^ 9 * t)) in
  let L := fmod (rad lecliptic) turn in
  let F := fmod (rad fecliptic) turn in
  let Rr := fmod (rad rho) turn in
  let E := fmod (rad obliquity) turn in
  let l := cos F * cos L in
  let m := cos E * cos F * sin L - sin E * sin F in
  let n := sin E * cos F * sin L + cos E * sin F in
  let Rm := 63781366 / 10 / 10 ^ 3 / sin Rr in
  V (Rm * l) (Rm * m) (Rm * n).
