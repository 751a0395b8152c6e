(* Model of Nrlmsise00::ghp7, src/atmosphere/nrlmsise00_ghp7.cpp (altitude of a pressure).  double is
   R, with the values that are not finite kept apart; gtd7 (Msis_model.v) is an argument: a function
   of the input parameters, which are const; so are gsurf and re, which it leaves in the object. *)
From Coq Require Import List Reals ZArith Bool.
Require Import Verif.Base.
Local Open Scope R_scope.

(* nrlmsise00.hpp, the members of InParamsCore that ghp7 reads itself, and the altitude, which gtd7
   reads *)
Record input := Input { i_doy : Z; i_alt : R; i_glat : R; i_meters : bool }.
(* nrlmsise00.hpp, OutParams: densities d[0..7], temperature t[1] *)
Record output := Output { d0 : R; d1 : R; d2 : R; d3 : R; d4 : R; d5 : R; d6 : R; d7 : R; t1 : R }.
(* what std::log10 returns: a number, minus infinity (of zero), a NaN (of a negative number) *)
Inductive lg := Num (x : R) | NegInf | Nan.
Definition log10 (x : R) : lg :=
  if Rlt_dec 0 x then Num (ln x / ln 10) else if Rlt_dec x 0 then Nan else NegInf.
(* the local z: never assigned, a number, or not finite *)
Inductive height := Unset | At (z : R) | NotFinite.

Section Ghp7.
Variable gtd7 : input -> output.
Variables gsurf re r100gas : R.
(* nrlmsise00_ghp7.cpp:14-48, the first altitude; no comparison with a NaN holds, so that z keeps
   no value then *)
Definition first_altitude (i : input) (l : lg) : height :=
  match l with
  | Nan => Unset
  | NegInf => NotFinite
  | Num pl =>
      if Rle_dec (-5) pl then
        let zi :=
          if Rlt_dec (25 / 10) pl then 1806 / 100 * (3 - pl)
          else if Rlt_dec (75 / 100) pl then 1498 / 100 * (308 / 100 - pl)
          else if Rlt_dec (-1) pl then 178 / 10 * (272 / 100 - pl)
          else if Rlt_dec (-2) pl then 1428 / 100 * (364 / 100 - pl)
          else if Rlt_dec (-4) pl then 1272 / 100 * (432 / 100 - pl)
          else 253 / 10 * (11 / 100 - pl) in
        let cl := i_glat i / 90 in
        let cd := if (182 <=? i_doy i)%Z then IZR (i_doy i) / (9125 / 100) - 3
                  else (1 - IZR (i_doy i)) / (9125 / 100) in
        let ca :=
          if Rlt_dec (-23 / 100) pl then (279 / 100 - pl) / (279 / 100 + 23 / 100)
          else if Rlt_dec (-111 / 100) pl then 1
          else if Rlt_dec (-3) pl then (- (293 / 100) - pl) / (- (293 / 100) + 111 / 100)
          else 0 in
        At (zi - 487 / 100 * cl * cd * ca - 164 / 100 * (cl * cl) * ca + 31 / 100 * ca * cl)
      else At (22 * ((pl + 4) * (pl + 4)) + 110)
  end.
(* nrlmsise00_ghp7.cpp:57-58 *)
Definition number (o : output) : R := d0 o + d1 o + d2 o + d3 o + d4 o + d6 o + d7 o.
(* nrlmsise00_ghp7.cpp:10, 59-61 *)
Definition pressure (i : input) (o : output) : R :=
  let p := 13806 / 10 ^ 23 * number o * t1 o in if i_meters i then p * (1 / 1000000) else p.
(* nrlmsise00_ghp7.cpp:62; None: not finite, and smaller than nothing *)
Definition difference (pl p : lg) : option R :=
  match pl, p with Num a, Num b => Some (a - b) | _, _ => None end.
(* nrlmsise00_ghp7.cpp:74-83: the next altitude (l is the number of the round); reading z unset is
   undefined.  The divisions are those of R: what is not finite because of a zero divisor is not
   told apart. *)
Definition next_altitude (l : nat) (i : input) (o : output) (diff : option R) (z : height) : outcome height :=
  match z with
  | Unset => UB
  | NotFinite => Ok NotFinite
  | At z =>
      let xm := d5 o / number o / (166 / 10 ^ 26) * (if i_meters i then 1000 else 1) in
      let g := gsurf / ((1 + z / re) * (1 + z / re)) in
      let sh := r100gas * t1 o / (xm * g) in
      match diff with
      | Some d => Ok (At (if Nat.ltb l 6 then z - sh * d * (2302 / 1000) else z - sh * d))
      | None => Ok NotFinite
      end
  end.
(* nrlmsise00_ghp7.cpp:54-84: round l, with [left] rounds to go after it; the code and *out *)
Fixpoint search (left l : nat) (i : input) (pl : lg) (z : height) : outcome (Z * output) :=
  let out := gtd7 i in
  let diff := difference pl (log10 (pressure i out)) in
  if match diff with Some d => if Rlt_dec (Rabs d) (43 / 100000) then true else false | None => false end
  then Ok (0%Z, out)
  else
    match left with
    | O => Ok (1%Z, out)
    | S left' => do z' <- next_altitude l i out diff z; search left' (S l) i pl z'
    end.
(* nrlmsise00_ghp7.cpp:6-87, ltest = 12 rounds *)
Definition ghp7 (i : input) (press : R) : outcome (Z * output) :=
  search 11 1 i (log10 press) (first_altitude i (log10 press)).
End Ghp7.
