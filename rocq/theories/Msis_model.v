(* Model of the NRLMSISE-00 atmosphere model: src/atmosphere/nrlmsise00.hpp and
   nrlmsise00_{globe7,glob7s,gts7,gtd7,gtd7d,densu,densm,dnet,ccor,ccor2,glatf}.cpp.
   Doubles are real numbers: a division by zero, a logarithm or a power outside its domain has some
   unspecified real value where the code would carry on with an infinity or a NaN.  The function
   statics are one part of the state, shared by all instances; the data members of an instance are
   the other part.  Members that the constructor leaves uninitialised hold arbitrary numbers at the
   start.  altlast of gtd7 and gts7 is left out: it is only read behind a constant
   input_changed = true (gtd7.cpp:18, gts7.cpp:20).  The coefficient arrays are constant: glob7s
   writes p[99], never read by anything else, and globe7 raises p[24] to 1e-4 before its only use,
   so the writes have no later effect; the raised value is used in place (aptv below). *)
From Coq Require Import List ZArith Reals Arith Bool.
From Verif Require Import Base Gravity_model Spline_model.
Local Open Scope R_scope.

Notation "p .[ k ]" := (p k%nat) (at level 1, k at level 200, only parsing).
Notation "g .[ k , l ]" := (g k%nat l%nat) (at level 1, k at level 200, l at level 200, only parsing).
Definition rlt (x y : R) : bool := rgt y x.
Definition rle (x y : R) : bool := negb (rgt x y).
Definition set1 (f : nat -> R) (i : nat) (v : R) : nat -> R := fun k => if Nat.eqb k i then v else f k.
(* std::abs(x) > 0 *)
Definition on (x : R) : bool := rgt (Rabs x) 0.
(* nrlmsise00_const.hpp:9-15, 72-76 *)
Definition r100gas : R := 1.380648813 * 6.0221407818 * 100.
Definition nearzero : R := 0.000001.
Definition egrav : R := 9.80665.
Definition dr : R := 0.0172142.
(* dso::deg2rad, an external function *)
Definition deg2rad (x : R) : R := x * PI / 180.
(* std::abs(x - y) > nearzero *)
Definition moved (x y : R) : bool := rgt (Rabs (x - y)) nearzero.

(* the coefficient arrays of nrlmsise00_data.cpp: nrlmsise00.hpp:355-364, 367-368 *)
Record tables := Tables { ptm : nat -> R; pdm : nat -> nat -> R; pavgm : nat -> R; pma : nat -> nat -> R; pd : nat -> nat -> R; ptl : nat -> nat -> R; pdl : nat -> nat -> R; pt : nat -> R; ps : nat -> R }.
(* InParamsCore, nrlmsise00.hpp:185-198 without the ignored year *)
Record input := Input { sw : nat -> R; swc : nat -> R; doy : Z; sec : R; alt : R; glat : R; glon : R; lst : R; f107A : R; f107 : R; ap : R; aparr : nat -> R; meters : bool }.
Definition with_alt (i : input) (z : R) : input := Input (sw i) (swc i) (doy i) (sec i) z (glat i) (glon i) (lst i) (f107A i) (f107 i) (ap i) (aparr i) (meters i).
(* OutParams, nrlmsise00.hpp:345-348 *)
Record output := Output { d0 : R; d1 : R; d2 : R; d3 : R; d4 : R; d5 : R; d6 : R; d7 : R; d8 : R; t0 : R; t1 : R }.
Definition set_d0 o v := Output v (d1 o) (d2 o) (d3 o) (d4 o) (d5 o) (d6 o) (d7 o) (d8 o) (t0 o) (t1 o).
Definition set_d1 o v := Output (d0 o) v (d2 o) (d3 o) (d4 o) (d5 o) (d6 o) (d7 o) (d8 o) (t0 o) (t1 o).
Definition set_d2 o v := Output (d0 o) (d1 o) v (d3 o) (d4 o) (d5 o) (d6 o) (d7 o) (d8 o) (t0 o) (t1 o).
Definition set_d3 o v := Output (d0 o) (d1 o) (d2 o) v (d4 o) (d5 o) (d6 o) (d7 o) (d8 o) (t0 o) (t1 o).
Definition set_d4 o v := Output (d0 o) (d1 o) (d2 o) (d3 o) v (d5 o) (d6 o) (d7 o) (d8 o) (t0 o) (t1 o).
Definition set_d5 o v := Output (d0 o) (d1 o) (d2 o) (d3 o) (d4 o) v (d6 o) (d7 o) (d8 o) (t0 o) (t1 o).
Definition set_d6 o v := Output (d0 o) (d1 o) (d2 o) (d3 o) (d4 o) (d5 o) v (d7 o) (d8 o) (t0 o) (t1 o).
Definition set_d7 o v := Output (d0 o) (d1 o) (d2 o) (d3 o) (d4 o) (d5 o) (d6 o) v (d8 o) (t0 o) (t1 o).
Definition set_d8 o v := Output (d0 o) (d1 o) (d2 o) (d3 o) (d4 o) (d5 o) (d6 o) (d7 o) v (t0 o) (t1 o).
Definition set_t0 o v := Output (d0 o) (d1 o) (d2 o) (d3 o) (d4 o) (d5 o) (d6 o) (d7 o) (d8 o) v (t1 o).
Definition set_t1 o v := Output (d0 o) (d1 o) (d2 o) (d3 o) (d4 o) (d5 o) (d6 o) (d7 o) (d8 o) (t0 o) v.

(* last_doy, p14, p18, p32, p39, cd14, cd18, cd32, cd39: the statics of globe7.cpp:27-32 and again
   those of glob7s.cpp:17-25 *)
Record season := Season { l_doy : Z; p14 : R; p18 : R; p32 : R; p39 : R; cd14 : R; cd18 : R; cd32 : R; cd39 : R }.
(* all function statics: globe7.cpp:22-24 and the two groups above.  sw9 is written by every call
   before it is read, so it is a local below *)
Record statics := Statics { xl : R; tll : R; gsea : season; ssea : season }.
(* stloc, ctloc, ... of nrlmsise00.hpp:386-388 *)
Record trig := Trig { st1 : R; ct1 : R; st2 : R; ct2 : R; st3 : R; ct3 : R }.
(* the other non-constant data members, nrlmsise00.hpp:362, 369-389; junk stands for the
   uninitialised stack arrays y2out and work of densm and densu *)
Record inst := Inst { plg : nat -> nat -> R; loc : trig; dfa : R; apdf : R; apt : R; tn1 : nat -> R; tn2 : nat -> R; tn3 : nat -> R; tgn1 : nat -> R; tgn2 : nat -> R; tgn3 : nat -> R; gsurf : R; re : R; dd : R; dm28 : R; dm28m : R; tlb : R; xg0 : R; junk : nat -> R }.
Definition set_poly (m : inst) plg' loc' dfa' apdf' apt' := Inst plg' loc' dfa' apdf' apt' (tn1 m) (tn2 m) (tn3 m) (tgn1 m) (tgn2 m) (tgn3 m) (gsurf m) (re m) (dd m) (dm28 m) (dm28m m) (tlb m) (xg0 m) (junk m).
Definition set_meso1 (m : inst) tn1' tgn1' := Inst (plg m) (loc m) (dfa m) (apdf m) (apt m) tn1' (tn2 m) (tn3 m) tgn1' (tgn2 m) (tgn3 m) (gsurf m) (re m) (dd m) (dm28 m) (dm28m m) (tlb m) (xg0 m) (junk m).
Definition set_meso2 (m : inst) tn2' tgn2' := Inst (plg m) (loc m) (dfa m) (apdf m) (apt m) (tn1 m) tn2' (tn3 m) (tgn1 m) tgn2' (tgn3 m) (gsurf m) (re m) (dd m) (dm28 m) (dm28m m) (tlb m) (xg0 m) (junk m).
Definition set_meso3 (m : inst) tn3' tgn3' := Inst (plg m) (loc m) (dfa m) (apdf m) (apt m) (tn1 m) (tn2 m) tn3' (tgn1 m) (tgn2 m) tgn3' (gsurf m) (re m) (dd m) (dm28 m) (dm28m m) (tlb m) (xg0 m) (junk m).
Definition set_grav (m : inst) gsurf' re' := Inst (plg m) (loc m) (dfa m) (apdf m) (apt m) (tn1 m) (tn2 m) (tn3 m) (tgn1 m) (tgn2 m) (tgn3 m) gsurf' re' (dd m) (dm28 m) (dm28m m) (tlb m) (xg0 m) (junk m).
Definition set_dd (m : inst) v := Inst (plg m) (loc m) (dfa m) (apdf m) (apt m) (tn1 m) (tn2 m) (tn3 m) (tgn1 m) (tgn2 m) (tgn3 m) (gsurf m) (re m) v (dm28 m) (dm28m m) (tlb m) (xg0 m) (junk m).
Definition set_dm28 (m : inst) v := Inst (plg m) (loc m) (dfa m) (apdf m) (apt m) (tn1 m) (tn2 m) (tn3 m) (tgn1 m) (tgn2 m) (tgn3 m) (gsurf m) (re m) (dd m) v (dm28m m) (tlb m) (xg0 m) (junk m).
Definition set_dm28m (m : inst) v := Inst (plg m) (loc m) (dfa m) (apdf m) (apt m) (tn1 m) (tn2 m) (tn3 m) (tgn1 m) (tgn2 m) (tgn3 m) (gsurf m) (re m) (dd m) (dm28 m) v (tlb m) (xg0 m) (junk m).
Definition set_tlb (m : inst) v := Inst (plg m) (loc m) (dfa m) (apdf m) (apt m) (tn1 m) (tn2 m) (tn3 m) (tgn1 m) (tgn2 m) (tgn3 m) (gsurf m) (re m) (dd m) (dm28 m) (dm28m m) v (xg0 m) (junk m).
Definition set_xg0 (m : inst) v := Inst (plg m) (loc m) (dfa m) (apdf m) (apt m) (tn1 m) (tn2 m) (tn3 m) (tgn1 m) (tgn2 m) (tgn3 m) (gsurf m) (re m) (dd m) (dm28 m) (dm28m m) (tlb m) v (junk m).

(* a member function: reads and writes the statics and the members of its instance *)
Definition state := (statics * inst)%type.
Definition M (A : Type) := state -> outcome (A * state).
Definition ret {A} (a : A) : M A := fun s => Ok (a, s).
Definition bind {A B} (c : M A) (f : A -> M B) : M B := fun s => match c s with Ok (a, s') => f a s' | UB => UB end.
Definition reads {A} (f : inst -> A) : M A := fun s => Ok (f (snd s), s).
Definition writes (f : inst -> inst) : M unit := fun s => Ok (tt, (fst s, f (snd s))).
Definition fails {A} (o : outcome A) : M A := fun s => match o with Ok a => Ok (a, s) | UB => UB end.
Notation "'let*' x := e 'in' f" := (bind e (fun x => f)) (at level 200, x name, e at level 200, f at level 200, right associativity).
Notation "'do*' e 'in' f" := (bind e (fun _ : unit => f)) (at level 200, e at level 200, f at level 200, right associativity).
(* a spline routine ran out of fuel: it does not, see splint_total and splini_total *)
Definition solid {A} (o : outcome (option A)) : outcome A := match o with Ok (Some v) => Ok v | _ => UB end.

(* nrlmsise00_globe7.cpp:37-70; the entries that are not assigned keep their value *)
Definition legendre (g : R) (old : nat -> nat -> R) : nat -> nat -> R :=
  let c := sin (deg2rad g) in
  let s := cos (deg2rad g) in
  let c2 := c * c in
  let c4 := c2 * c2 in
  let s2 := s * s in
  let p04 := (35 * c4 - 30 * c2 + 3) / 8 in
  let p05 := (63 * c2 * c2 * c - 70 * c2 * c + 15 * c) / 8 in
  let p14 := 2.5 * (7 * c2 * c - 3 * c) * s in
  let p15 := 1.875 * (21 * c4 - 14 * c2 + 1) * s in
  let p23 := 15 * s2 * c in
  let p24 := 7.5 * (7 * c2 - 1) * s2 in
  let p25 := 3 * c * p24 - 2 * p23 in
  let p26 := (11 * c * p25 - 7 * p24) / 4 in
  let p33 := 15 * s2 * s in
  let p34 := 105 * s2 * s * c in
  let p35 := (9 * c * p34 - 7 * p33) / 2 in
  fun i j => match i, j with
  | 0%nat, 1%nat => c
  | 0%nat, 2%nat => 0.5 * (3 * c2 - 1)
  | 0%nat, 3%nat => 0.5 * (5 * c * c2 - 3 * c)
  | 0%nat, 4%nat => p04
  | 0%nat, 5%nat => p05
  | 0%nat, 6%nat => (11 * c * p05 - 5 * p04) / 6
  | 1%nat, 1%nat => s
  | 1%nat, 2%nat => 3 * c * s
  | 1%nat, 3%nat => 1.5 * (5 * c2 - 1) * s
  | 1%nat, 4%nat => p14
  | 1%nat, 5%nat => p15
  | 1%nat, 6%nat => (11 * c * p15 - 6 * p14) / 5
  | 2%nat, 2%nat => 3 * s2
  | 2%nat, 3%nat => p23
  | 2%nat, 4%nat => p24
  | 2%nat, 5%nat => p25
  | 2%nat, 6%nat => p26
  | 2%nat, 7%nat => (13 * c * p26 - 8 * p25) / 5
  | 3%nat, 3%nat => p33
  | 3%nat, 4%nat => p34
  | 3%nat, 5%nat => p35
  | 3%nat, 6%nat => (11 * c * p35 - 8 * p34) / 3
  | _, _ => old i j
  end.
Definition hr : R := 0.2618.
Definition sr : R := 0.000072722.
(* nrlmsise00_globe7.cpp:79-84 *)
Definition trig_of (tloc : R) : trig := Trig (sin (hr * tloc)) (cos (hr * tloc)) (sin (2 * hr * tloc)) (cos (2 * hr * tloc)) (sin (3 * hr * tloc)) (cos (3 * hr * tloc)).
(* nrlmsise00_globe7.cpp:91-108 *)
Definition season_globe (p : nat -> R) (d : Z) (q : season) : season :=
  let changed := negb (Z.eqb (l_doy q - d) 0) in
  Season d (p.[13]) (p.[17]) (p.[31]) (p.[38])
    (if changed || moved (p.[13]) (p14 q) then cos (dr * (IZR d - p.[13])) else cd14 q)
    (if changed || moved (p.[17]) (p18 q) then cos (2 * dr * (IZR d - p.[17])) else cd18 q)
    (if changed || moved (p.[31]) (p32 q) then cos (dr * (IZR d - p.[31])) else cd32 q)
    (if changed || moved (p.[38]) (p39 q) then cos (2 * dr * (IZR d - p.[38])) else cd39 q).
(* nrlmsise00_glob7s.cpp:30-47; note p39 = p[39] *)
Definition season_glob (p : nat -> R) (d : Z) (q : season) : season :=
  let changed := negb (Z.eqb (d - l_doy q) 0) in
  Season d (p.[13]) (p.[17]) (p.[31]) (p.[39])
    (if changed || moved (p14 q) (p.[13]) then cos (dr * (IZR d - p.[13])) else cd14 q)
    (if changed || moved (p18 q) (p.[17]) then cos (2 * dr * (IZR d - p.[17])) else cd18 q)
    (if changed || moved (p32 q) (p.[31]) then cos (dr * (IZR d - p.[31])) else cd32 q)
    (if changed || moved (p39 q) (p.[38]) then cos (2 * dr * (IZR d - p.[38])) else cd39 q).

(* nrlmsise00.hpp:34-53 *)
Definition g0 (p24 a : R) (p : nat -> R) : R := a - 4 + (p 25%nat - 1) * (a - 4 + (exp (- Rabs p24 * (a - 4)) - 1) / Rabs p24).
Definition sumex (ex : R) : R := 1 + (1 - ex ^ 19) / (1 - ex) * sqrt ex.
Definition sg0 (ex p24 : R) (p a : nat -> R) : R :=
  (g0 p24 (a 1%nat) p + (g0 p24 (a 2%nat) p * ex + g0 p24 (a 3%nat) p * ex * ex + g0 p24 (a 4%nat) p * ex ^ 3 +
    (g0 p24 (a 5%nat) p * ex ^ 4 + g0 p24 (a 6%nat) p * ex ^ 12) * (1 - ex ^ 8) / (1 - ex))) / sumex ex.
(* the switch sw9 of globe7.cpp:35 compared with -1 (globe7.cpp:158, 217) *)
Definition daily (i : input) : bool := rgt (Rabs ((if rlt (sw i 8) 0 then -1 else 0) + 1)) nearzero.
(* nrlmsise00_globe7.cpp:159-164 *)
Definition apdfv (i : input) (p : nat -> R) : R :=
  let apd := ap i - 4 in
  let p44 := if rlt (p 43%nat) 0 then 0.00001 else p 43%nat in
  apd + (p 44%nat - 1) * (apd + (exp (- p44 * apd) - 1) / p44).
(* nrlmsise00_globe7.cpp:175-181 *)
Definition aptv (i : input) (p : nat -> R) : R :=
  let exp1 := exp (- 10800 * Rabs (p 51%nat) / (1 + p 138%nat * (45 - Rabs (glat i)))) in
  let exp1 := if rgt exp1 0.99999 then 0.99999 else exp1 in
  sg0 exp1 (if rlt (p 24%nat) 0.0001 then 0.0001 else p 24%nat) p (aparr i).
(* the terms t[0] .. t[13] of globe7.cpp:110-246 from the polynomials, the trigonometric numbers,
   the seasons, dfa, apdf and apt[0]; terms that are not assigned are zero (globe7.cpp:34) *)
Definition globe_term (i : input) (p : nat -> R) (g : nat -> nat -> R) (l : trig) (q : season) (dfa apdf apt : R) (k : nat) : R :=
  let df := f107 i - f107A i in
  let f1 := 1 + (p.[47] * dfa + p.[19] * df + p.[20] * df * df) * swc i 0 in
  let f2 := 1 + (p.[49] * dfa + p.[19] * df + p.[20] * df * df) * swc i 0 in
  let c4 := swc i 4 in
  let tloc := lst i in
  let lon := on (sw i 9) && rgt (glon i) (-1000) in
  match k with
  | 0%nat => p.[19] * df * (1 + p.[59] * dfa) + p.[20] * df * df + p.[21] * dfa + p.[29] * dfa * dfa
  | 1%nat => (p.[1] * g.[0,2] + p.[2] * g.[0,4] + p.[22] * g.[0,6]) + (p.[14] * g.[0,2]) * dfa * swc i 0 + p.[26] * g.[0,1]
  | 2%nat => p.[18] * cd32 q
  | 3%nat => (p.[15] + p.[16] * g.[0,2]) * cd18 q
  | 4%nat => f1 * (p.[9] * g.[0,1] + p.[10] * g.[0,3]) * cd14 q
  | 5%nat => p.[37] * g.[0,1] * cd39 q
  | 6%nat => if on (sw i 6) then
           let t71 := (p.[11] * g.[1,2]) * cd14 q * c4 in
           let t72 := (p.[12] * g.[1,2]) * cd14 q * c4 in
           f2 * ((p.[3] * g.[1,1] + p.[4] * g.[1,3] + p.[27] * g.[1,5] + t71) * ct1 l + (p.[6] * g.[1,1] + p.[7] * g.[1,3] + p.[28] * g.[1,5] + t72) * st1 l)
         else 0
  | 7%nat => if on (sw i 7) then
           let t81 := (p.[23] * g.[2,3] + p.[35] * g.[2,5]) * cd14 q * c4 in
           let t82 := (p.[33] * g.[2,3] + p.[36] * g.[2,5]) * cd14 q * c4 in
           f2 * ((p.[5] * g.[2,2] + p.[41] * g.[2,4] + t81) * ct2 l + (p.[8] * g.[2,2] + p.[42] * g.[2,4] + t82) * st2 l)
         else 0
  | 8%nat => if daily i then
           if rgt (Rabs (sw i 8)) nearzero then
             apdf * (p.[32] + p.[45] * g.[0,2] + p.[34] * g.[0,4] + (p.[100] * g.[0,1] + p.[101] * g.[0,3] + p.[102] * g.[0,5]) * cd14 q * c4 +
                     (p.[121] * g.[1,1] + p.[122] * g.[1,3] + p.[123] * g.[1,5]) * swc i 6 * cos (hr * (tloc - p.[124])))
           else 0
         else if rgt (Rabs (p.[51])) nearzero then
           if on (sw i 8) then
             apt * (p.[50] + p.[96] * g.[0,2] + p.[54] * g.[0,4] + (p.[125] * g.[0,1] + p.[126] * g.[0,3] + p.[127] * g.[0,5]) * cd14 q * c4 +
                    (p.[128] * g.[1,1] + p.[129] * g.[1,3] + p.[130] * g.[1,5]) * swc i 6 * cos (hr * (tloc - p.[131])))
           else 0
         else 0
  | 10%nat => if lon && on (sw i 10) then
           (1 + p.[80] * dfa * swc i 0) *
           ((p.[64] * g.[1,2] + p.[65] * g.[1,4] + p.[66] * g.[1,6] + p.[103] * g.[1,1] + p.[104] * g.[1,3] + p.[105] * g.[1,5] +
             c4 * (p.[109] * g.[1,1] + p.[110] * g.[1,3] + p.[111] * g.[1,5]) * cd14 q) * cos (deg2rad (glon i)) +
            (p.[90] * g.[1,2] + p.[91] * g.[1,4] + p.[92] * g.[1,6] + p.[106] * g.[1,1] + p.[107] * g.[1,3] + p.[108] * g.[1,5] +
             c4 * (p.[112] * g.[1,1] + p.[113] * g.[1,3] + p.[114] * g.[1,5]) * cd14 q) * sin (deg2rad (glon i)))
         else 0
  | 11%nat => if lon && rgt (Rabs (sw i 11)) nearzero then
           (1 + p.[95] * g.[0,1]) * (1 + p.[81] * dfa * swc i 0) * (1 + p.[119] * g.[0,1] * c4 * cd14 q) *
             ((p.[68] * g.[0,1] + p.[69] * g.[0,3] + p.[70] * g.[0,5]) * cos (sr * (sec i - p.[71]))) +
           swc i 10 * (p.[76] * g.[2,3] + p.[77] * g.[2,5] + p.[78] * g.[2,7]) * cos (sr * (sec i - p.[79]) + 2 * deg2rad (glon i)) * (1 + p.[137] * dfa * swc i 0)
         else 0
  | 12%nat => if lon && rgt (Rabs (sw i 12)) nearzero then
           if daily i then
             apdf * swc i 10 * (1 + p.[120] * g.[0,1]) * ((p.[60] * g.[1,2] + p.[61] * g.[1,4] + p.[62] * g.[1,6]) * cos (deg2rad (glon i - p.[63]))) +
             apdf * swc i 10 * c4 * (p.[115] * g.[1,1] + p.[116] * g.[1,3] + p.[117] * g.[1,5]) * cd14 q * cos (deg2rad (glon i - p.[118])) +
             apdf * swc i 11 * (p.[83] * g.[0,1] + p.[84] * g.[0,3] + p.[85] * g.[0,5]) * cos (sr * (sec i - p.[75]))
           else if Req_EM_T (p.[51]) 0 then 0
           else
             apt * swc i 10 * (1 + p.[132] * g.[0,1]) * ((p.[52] * g.[1,2] + p.[98] * g.[1,4] + p.[67] * g.[1,6]) * cos (deg2rad (glon i - p.[97]))) +
             apt * swc i 10 * c4 * (p.[133] * g.[1,1] + p.[134] * g.[1,3] + p.[135] * g.[1,5]) * cd14 q * cos (deg2rad (glon i - p.[136])) +
             apt * swc i 11 * (p.[55] * g.[0,1] + p.[56] * g.[0,3] + p.[57] * g.[0,5]) * cos (sr * (sec i - p.[58]))
         else 0
  | 13%nat => if on (sw i 13) then
           f2 * ((p.[39] * g.[3,3] + (p.[93] * g.[3,4] + p.[46] * g.[3,6]) * cd14 q * c4) * st3 l +
                 (p.[40] * g.[3,3] + (p.[94] * g.[3,4] + p.[48] * g.[3,6]) * cd14 q * c4) * ct3 l)
         else 0
  | _ => 0
  end.
(* the sum over the fourteen terms, globe7.cpp:250-252 and glob7s.cpp:116-119 *)
Fixpoint switched (s : nat -> R) (t : nat -> R) (n : nat) (acc : R) : R := match n with O => acc | S k => switched s t k acc + Rabs (s k) * t k end.
(* nrlmsise00_globe7.cpp *)
Definition globe7 (i : input) (p : nat -> R) : M R := fun s =>
  let (c, m) := s in
  let newlat := moved (xl c) (glat i) in
  let g := if newlat then legendre (glat i) (plg m) else plg m in
  let newloc := moved (tll c) (lst i) && (on (sw i 6) || on (sw i 7) || on (sw i 13)) in
  let l := if newloc then trig_of (lst i) else loc m in
  let q := season_globe p (doy i) (gsea c) in
  let dfa' := f107A i - 150 in
  let apdf' := if daily i then apdfv i p else apdf m in
  let apt' := if daily i then apt m else if rgt (Rabs (p 51%nat)) nearzero then aptv i p else apt m in
  Ok (switched (sw i) (globe_term i p g l q dfa' apdf' apt') 14 (p 30%nat),
      (Statics (if newlat then glat i else xl c) (if newloc then lst i else tll c) q (ssea c), set_poly m g l dfa' apdf' apt')).

(* the terms of nrlmsise00_glob7s.cpp:49-113 *)
Definition glob_term (i : input) (p : nat -> R) (g : nat -> nat -> R) (l : trig) (q : season) (dfa apdf apt : R) (k : nat) : R :=
  let d := IZR (doy i) in
  let c4 := swc i 4 in
  match k with
  | 0%nat => p.[21] * dfa
  | 1%nat => p.[1] * g.[0,2] + p.[2] * g.[0,4] + p.[22] * g.[0,6] + p.[26] * g.[0,1] + p.[14] * g.[0,3] + p.[59] * g.[0,5]
  | 2%nat => (p.[18] + p.[47] * g.[0,2] + p.[29] * g.[0,4]) * cd32 q
  | 3%nat => (p.[15] + p.[16] * g.[0,2] + p.[30] * g.[0,4]) * cd18 q
  | 4%nat => (p.[9] * g.[0,1] + p.[10] * g.[0,3] + p.[20] * g.[0,5]) * cd14 q
  | 5%nat => (p.[37] * g.[0,1]) * cd39 q
  | 6%nat => if on (sw i 6) then
           let t71 := p.[11] * g.[1,2] * cd14 q * c4 in
           let t72 := p.[12] * g.[1,2] * cd14 q * c4 in
           (p.[3] * g.[1,1] + p.[4] * g.[1,3] + t71) * ct1 l + (p.[6] * g.[1,1] + p.[7] * g.[1,3] + t72) * st1 l
         else 0
  | 7%nat => if on (sw i 7) then
           let t81 := (p.[23] * g.[2,3] + p.[35] * g.[2,5]) * cd14 q * c4 in
           let t82 := (p.[33] * g.[2,3] + p.[36] * g.[2,5]) * cd14 q * c4 in
           (p.[5] * g.[2,2] + p.[41] * g.[2,4] + t81) * ct2 l + (p.[8] * g.[2,2] + p.[42] * g.[2,4] + t82) * st2 l
         else 0
  | 8%nat => if on (sw i 8) then
           if rlt (sw i 8) 0 then p.[50] * apt + p.[96] * g.[0,2] * apt * swc i 1
           else if rgt (sw i 8) 0 then apdf * (p.[32] + p.[45] * g.[0,2] * swc i 1) else 0
         else 0
  | 10%nat => if on (sw i 9) && on (sw i 10) && rgt (glon i) (-1000) then
           (1 + g.[0,1] * (p.[80] * swc i 4 * cos (dr * (d - p.[81])) + p.[85] * swc i 5 * cos (2 * dr * (d - p.[86]))) +
            p.[83] * swc i 2 * cos (dr * (d - p.[84])) + p.[87] * swc i 3 * cos (2 * dr * (d - p.[88]))) *
           ((p.[64] * g.[1,2] + p.[65] * g.[1,4] + p.[66] * g.[1,6] + p.[74] * g.[1,1] + p.[75] * g.[1,3] + p.[76] * g.[1,5]) * cos (deg2rad (glon i)) +
            (p.[90] * g.[1,2] + p.[91] * g.[1,4] + p.[92] * g.[1,6] + p.[77] * g.[1,1] + p.[78] * g.[1,3] + p.[79] * g.[1,5]) * sin (deg2rad (glon i)))
         else 0
  | 13%nat => if on (sw i 13) then p.[39] * g.[3,3] * st3 l + p.[40] * g.[3,3] * ct3 l else 0
  | _ => 0
  end.
(* nrlmsise00_glob7s.cpp *)
Definition glob7s (i : input) (p : nat -> R) : M R := fun s =>
  let (c, m) := s in
  let q := season_glob p (doy i) (ssea c) in
  Ok (switched (sw i) (glob_term i p (plg m) (loc m) q (dfa m) (apdf m) (apt m)) 14 0, (Statics (xl c) (tll c) (gsea c) q, m)).

(* nrlmsise00.hpp:404-406 *)
Definition zeta (re zz zl : R) : R := (zz - zl) * (re + zl) / (re + zz).
(* nrlmsise00.hpp:407-410 *)
Definition scalh (m : inst) (z xm temp : R) : R :=
  let g := gsurf m / ((1 + z / re m) * (1 + z / re m)) in
  r100gas * temp / (g * xm).
(* nrlmsise00_glatf.cpp: the radius and, second, the gravity *)
Definition glatf (lat : R) : R * R :=
  let c2 := cos (2 * deg2rad lat) in
  let gv := egrav * 100 * (1 - 0.0026373 * c2) in
  (gv, 2 * gv / (0.000003085462 + 0.00000000227 * c2) * 0.00001).
(* nrlmsise00_dnet.cpp; the change of its reference argument dd is dropped, no caller looks at it
   again before overwriting it with the result *)
Definition dnet (dd dm zhm xmm xm : R) : R :=
  let a := zhm / (xmm - xm) in
  if rle dm 0 || rle dd 0 then
    let dd' := if rlt (Rabs dd) nearzero && rlt (Rabs dm) nearzero then 1 else dd in
    if rlt (Rabs dm) nearzero then dd'
    else if rlt (Rabs dd') nearzero then dm else 0
  else
    let ylog := a * ln (dm / dd) in
    if rlt ylog (-10) then dd
    else if rgt ylog 10 then dm
    else dd * Rpower (1 + exp ylog) (1 / a).
(* nrlmsise00_ccor.cpp *)
Definition ccor (z r h1 zh : R) : R :=
  let e := (z - zh) / h1 in
  exp (if rgt e 70 then 0 else if rlt e (-70) then r else r / (1 + exp e)).
(* nrlmsise00_ccor2.cpp *)
Definition ccor2 (z r h1 zh h2 : R) : R :=
  let e1 := (z - zh) / h1 in
  let e2 := (z - zh) / h2 in
  exp (if rgt e1 70 || rgt e2 70 then 0 else if rlt e1 (-70) && rlt e2 (-70) then r else r / (1 + 0.5 * (exp e1 + exp e2))).

Definition mn1 : nat := 5. Definition mn2 : nat := 4. Definition mn3 : nat := 5.
(* gts7.cpp:11, 24 with za = pdl[1][15] *)
Definition zn1 (T : tables) (k : nat) : R := match k with 0%nat => pdl T 1 15 | 1%nat => 110 | 2%nat => 100 | 3%nat => 90 | _ => 72.5 end.
(* nrlmsise00.hpp:378-379 *)
Definition zn2 (k : nat) : R := match k with 0%nat => 72.5 | 1%nat => 55 | 2%nat => 45 | _ => 32.5 end.
Definition zn3 (k : nat) : R := match k with 0%nat => 32.5 | 1%nat => 20 | 2%nat => 15 | 3%nat => 10 | _ => 0 end.

(* a temperature profile of densu and densm: the spline through 1/t over the scaled altitudes, its
   value and its integral at altitude z (densu.cpp:38-72, 94; densm.cpp:19-46, 55 and 64-86, 94) *)
Definition profile (m : inst) (dim mn : nat) (zn tn tgn : nat -> R) (z : R) : outcome (R * R) :=
  let z1 := zn 0%nat in
  let z2 := zn (mn - 1)%nat in
  let ta := tn 0%nat in
  let tb := tn (mn - 1)%nat in
  let zg := zeta (re m) z z1 in
  let zgdif := zeta (re m) z2 z1 in
  let xs := Arr dim (fun k => zeta (re m) (zn k) z1 / zgdif) in
  let ys := Arr dim (fun k => 1 / tn k) in
  let yd1 := - tgn 0%nat / (ta * ta) * zgdif in
  let yd2 := - tgn 1%nat / (tb * tb) * zgdif * (((re m + z2) / (re m + z1)) * ((re m + z2) / (re m + z1))) in
  do y2 <- spline xs ys mn yd1 yd2 (Arr dim (junk m)) (Arr dim (junk m));
  let x := zg / zgdif in
  do y <- solid (splint xs ys (fst y2) mn x);
  do yi <- solid (splini xs ys (fst y2) mn x);
  Ok (y, yi).

(* nrlmsise00_densu.cpp; the value and tz.  The spline is integrated also when xm is zero, which has
   no effect *)
Definition densu (T : tables) (z_ dlb ta_ tb_ xm xalph zlb s2 : R) : M (R * R) :=
  let* m := reads (fun m => m) in
  let za := zn1 T 0 in
  let z := Rmax z_ za in
  let zg2 := zeta (re m) z zlb in
  let tb := ta_ - (ta_ - tb_) * exp (- s2 * zg2) in
  let below := rlt z_ za in
  do* (if below then
         let dta := (ta_ - tb) * s2 * (((re m + zlb) / (re m + za)) * ((re m + zlb) / (re m + za))) in
         writes (fun m => set_meso1 m (set1 (tn1 m) 0 tb) (set1 (tgn1 m) 0 dta))
       else ret tt) in
  let* m := reads (fun m => m) in
  let* y := (if below then
              let* y := fails (profile m 5 mn1 (zn1 T) (tn1 m) (tgn1 m) (Rmax z_ (zn1 T (mn1 - 1)))) in
              ret (1 / fst y, snd y)
            else ret (tb, 0)) in
  let (tz, yi) := (y : R * R) in
  if rgt (Rabs xm) nearzero then
    let glb := gsurf m / ((1 + zlb / re m) * (1 + zlb / re m)) in
    let gammo := xm * glb / (s2 * r100gas * ta_) in
    let expl := exp (- s2 * gammo * zg2) in
    let expl := if rgt expl 50 || rle tb 0 then 50 else expl in
    let densa := dlb * Rpower (tb_ / tb) (1 + xalph + gammo) * expl in
    if below then
      let z1 := zn1 T 0 in
      let glb := gsurf m / ((1 + z1 / re m) * (1 + z1 / re m)) in
      let gamm := xm * glb * zeta (re m) (zn1 T (mn1 - 1)) z1 / r100gas in
      let expl := gamm * yi in
      let expl := if rgt expl 50 || rle tz 0 then 50 else expl in
      ret (densa * Rpower (tn1 m 0%nat / tz) (1 + xalph) * exp (- expl), tz)
    else ret (densa, tz)
  else ret (tz, tz).

(* one half of nrlmsise00_densm.cpp: 18-59 or 63-97 *)
Definition layer (m : inst) (mn : nat) (zn tn tgn : nat -> R) (z xm dens : R) : outcome (R * R) :=
  do y <- profile m 10 mn zn tn tgn z;
  let tz := 1 / fst y in
  let z1 := zn 0%nat in
  let dens' :=
    if rgt (Rabs xm) nearzero then
      let glb := gsurf m / ((1 + z1 / re m) * (1 + z1 / re m)) in
      let gamm := xm * glb * zeta (re m) (zn (mn - 1)%nat) z1 / r100gas in
      let expl := if rgt (gamm * snd y) 50 then 50 else gamm * snd y in
      dens * (tn 0%nat / tz) * exp (- expl)
    else dens in
  Ok (dens', tz).
(* nrlmsise00_densm.cpp; the value and tz, which is untouched above zn2[0] *)
Definition densm (m : inst) (z d0 xm tz : R) : outcome (R * R) :=
  do r <- (if rle z (zn2 0) then
             do r <- layer m mn2 zn2 (tn2 m) (tgn2 m) (Rmax z (zn2 (mn2 - 1))) xm d0;
             if rle z (zn3 0) then layer m mn3 zn3 (tn3 m) (tgn3 m) z xm (fst r) else Ok r
           else Ok (d0, tz));
  Ok (if rlt (Rabs xm) nearzero then (snd r, snd r) else r).

(* gts7.cpp:7-10 *)
Definition altl (k : nat) : R := match k with 0%nat => 200 | 1%nat => 300 | 2%nat => 160 | 3%nat => 250 | 4%nat => 240 | 5%nat => 450 | 6%nat => 320 | _ => 450 end.
Definition alpha (k : nat) : R := match k with 0%nat => -0.38 | 4%nat => 0.17 | 6%nat => -0.38 | _ => 0 end.
(* j of gts7.cpp:105-111 for mass <> 0: one more than the index in mt, 0 when absent *)
Definition mass_index (mass : Z) : nat := match mass with 48%Z => 1%nat | 4%Z => 3%nat | 16%Z => 4%nat | 28%Z => 5%nat | 32%Z => 6%nat | 40%Z => 7%nat | 1%Z => 8%nat | 49%Z => 9%nat | 14%Z => 10%nat | 17%Z => 11%nat | _ => 0%nat end.
Definition among (j : nat) (l : list nat) : bool := existsb (Nat.eqb j) l.

Section Thermosphere.
Variable T : tables.
Variable i : input.
(* the quantities every species block shares *)
Variable tinf tlbv s xmm zhm28 b28 : R.

(* the diffusive density of a species at altitude z, leaving the temperature in t[1] *)
Definition diffusive (z db weight al : R) : M (R * R) := densu T z db tinf tlbv weight al (ptm T 5) s.
(* gts7.cpp:158-179 (He), 250-272 (O2), 299-318 (Ar), 333-360 (H), 376-403 (N): the turbopause
   mixture and the correction to the mixing ratio at the ground, the first part shared with O
   (gts7.cpp:194-207).  The result is the density at altitude, b at Zlb and the temperature *)
Definition mixed (zh db weight al d : R) : M (R * R * R) :=
  let* b := densu T zh db tinf tlbv (weight - xmm) (al - 1) (ptm T 5) s in
  let* dm := densu T (alt i) (fst b) tinf tlbv xmm 0 (ptm T 5) s in
  ret (dnet d (fst dm) zhm28 xmm weight, fst b, snd dm).

(* gts7.cpp:141-180 *)
Definition helium (o : output) : M output :=
  let z := alt i in
  let* g := globe7 i (pd T 0) in
  let db04 := pdm T 0 0 * exp (sw i 20 * g) * pd T 0 0 in
  let* r := diffusive z db04 4 (alpha 0) in
  do* writes (fun m => set_dd m (fst r)) in
  let o := set_t1 (set_d0 o (fst r)) (snd r) in
  if rle z (altl 0) && on (sw i 14) then
    let* b := mixed (pdm T 0 2) db04 4 (alpha 0) (d0 o) in
    let rl := ln (b28 * pdm T 0 1 / snd (fst b)) in
    ret (set_t1 (set_d0 o (fst (fst b) * ccor z rl (pdm T 0 5 * pdl T 1 1) (pdm T 0 4 * pdl T 1 0))) (snd b))
  else ret o.
(* gts7.cpp:182-228 *)
Definition oxygen (o : output) : M output :=
  let z := alt i in
  let* g := globe7 i (pd T 1) in
  let db16 := pdm T 1 0 * exp (sw i 20 * g) * pd T 1 0 in
  let* r := diffusive z db16 16 (alpha 1) in
  do* writes (fun m => set_dd m (fst r)) in
  let o := set_t1 (set_d1 o (fst r)) (snd r) in
  if rle z (altl 1) && on (sw i 14) then
    let* b := mixed (pdm T 1 2) db16 16 (alpha 1) (d1 o) in
    let rl := pdm T 1 1 * pdl T 1 16 * (1 + sw i 0 * pdl T 0 23 * (f107A i - 150)) in
    let v := fst (fst b) * ccor2 z rl (pdm T 1 5 * pdl T 1 3) (pdm T 1 4 * pdl T 1 2) (pdm T 1 5 * pdl T 1 4) in
    ret (set_t1 (set_d1 o (v * ccor z (pdm T 1 3 * pdl T 1 14) (pdm T 1 7 * pdl T 1 13) (pdm T 1 6 * pdl T 1 12))) (snd b))
  else ret o.
(* gts7.cpp:231-286 *)
Definition oxygen2 (mass : Z) (o : output) : M output :=
  let z := alt i in
  let* g := globe7 i (pd T 4) in
  let db32 := pdm T 3 0 * exp (sw i 20 * g) * pd T 4 0 in
  let* r := diffusive z db32 32 (alpha 3) in
  do* writes (fun m => set_dd m (if Z.eqb mass 49 then dd m + 2 * fst r else fst r)) in
  let o := set_t1 (set_d3 o (fst r)) (snd r) in
  if on (sw i 14) then
    let* o := (if rle z (altl 3) then
                let* b := mixed (pdm T 3 2) db32 32 (alpha 3) (d3 o) in
                let rl := ln (b28 * pdm T 3 1 / snd (fst b)) in
                ret (set_t1 (set_d3 o (fst (fst b) * ccor z rl (pdm T 3 5 * pdl T 1 7) (pdm T 3 4 * pdl T 1 6))) (snd b))
              else ret o) in
    let rc32 := pdm T 3 3 * pdl T 1 23 * (1 + sw i 0 * pdl T 0 23 * (f107A i - 150)) in
    ret (set_d3 o (d3 o * ccor2 z rc32 (pdm T 3 7 * pdl T 1 22) (pdm T 3 6 * pdl T 1 21) (pdm T 3 7 * pdl T 0 22)))
  else ret o.
(* gts7.cpp:288-320 *)
Definition argon (o : output) : M output :=
  let z := alt i in
  let* g := globe7 i (pd T 5) in
  let db40 := pdm T 4 0 * exp (sw i 20 * g) * pd T 5 0 in
  let* r := diffusive z db40 40 (alpha 4) in
  do* writes (fun m => set_dd m (fst r)) in
  let o := set_t1 (set_d4 o (fst r)) (snd r) in
  if rle z (altl 4) && on (sw i 14) then
    let* b := mixed (pdm T 4 2) db40 40 (alpha 4) (d4 o) in
    let rl := ln (b28 * pdm T 4 1 / snd (fst b)) in
    ret (set_t1 (set_d4 o (fst (fst b) * ccor z rl (pdm T 4 5 * pdl T 1 9) (pdm T 4 4 * pdl T 1 8))) (snd b))
  else ret o.
(* gts7.cpp:322-362 *)
Definition hydrogen (o : output) : M output :=
  let z := alt i in
  let* g := globe7 i (pd T 6) in
  let db01 := pdm T 5 0 * exp (sw i 20 * g) * pd T 6 0 in
  let* r := diffusive z db01 1 (alpha 6) in
  do* writes (fun m => set_dd m (fst r)) in
  let o := set_t1 (set_d6 o (fst r)) (snd r) in
  if rle z (altl 6) && on (sw i 14) then
    let* b := mixed (pdm T 5 2) db01 1 (alpha 6) (d6 o) in
    let rl := ln (b28 * pdm T 5 1 * Rabs (pdl T 1 17) / snd (fst b)) in
    let v := fst (fst b) * ccor z rl (pdm T 5 5 * pdl T 1 11) (pdm T 5 4 * pdl T 1 10) in
    ret (set_t1 (set_d6 o (v * ccor z (pdm T 5 3 * pdl T 1 20) (pdm T 5 7 * pdl T 1 19) (pdm T 5 6 * pdl T 1 18))) (snd b))
  else ret o.
(* gts7.cpp:364-405 *)
Definition nitrogen (o : output) : M output :=
  let z := alt i in
  let* g := globe7 i (pd T 7) in
  let db14 := pdm T 6 0 * exp (sw i 20 * g) * pd T 7 0 in
  let* r := diffusive z db14 14 (alpha 7) in
  do* writes (fun m => set_dd m (fst r)) in
  let o := set_t1 (set_d7 o (fst r)) (snd r) in
  if rle z (altl 7) && on (sw i 14) then
    let* b := mixed (pdm T 6 2) db14 14 (alpha 7) (d7 o) in
    let rl := ln (b28 * pdm T 6 1 * Rabs (pdl T 0 2) / snd (fst b)) in
    let v := fst (fst b) * ccor z rl (pdm T 6 5 * pdl T 0 1) (pdm T 6 4 * pdl T 0 0) in
    ret (set_t1 (set_d7 o (v * ccor z (pdm T 6 3 * pdl T 0 5) (pdm T 6 7 * pdl T 0 4) (pdm T 6 6 * pdl T 0 3))) (snd b))
  else ret o.
(* gts7.cpp:407-433; db48 is not used *)
Definition anomalous (mass : Z) (o : output) : M output :=
  let z := alt i in
  let* g := globe7 i (pd T 8) in
  let db16h := pdm T 7 0 * exp (sw i 20 * g) * pd T 8 0 in
  let tho := pdm T 7 9 * pdl T 0 6 in
  let* r := densu T z db16h tho tho 16 (alpha 8) (ptm T 5) s in
  do* writes (fun m => set_dd m (fst r)) in
  let zsht := pdm T 7 5 in
  let zmho := pdm T 7 4 in
  let* m := reads (fun m => m) in
  let zsho := scalh m zmho 16 tho in
  let o := set_t1 (set_d8 o (fst r * exp (- zsht / zsho * (exp (- (z - zmho) / zsht) - 1)))) (snd r) in
  ret (if Z.eqb mass 48 then set_d5 o (1.66 / 10 ^ 24 * (4 * d0 o + 16 * d1 o + 28 * d2 o + 32 * d3 o + 40 * d4 o + d6 o + 14 * d7 o)) else o).
End Thermosphere.

(* gts7.cpp:113-139: the densities of N2; the result is zhm28, b28 and the output *)
Definition molecular (T : tables) (i : input) (mass : Z) (tinf tlbv s g28 zhf xmm : R) (o : output) : M (R * R * output) :=
  let z := alt i in
  if rlt z (altl 5) || Z.eqb mass 28 || Z.eqb mass 48 then
    let db28 := pdm T 2 0 * exp g28 * pd T 2 0 in
    let* r := densu T z db28 tinf tlbv 28 (alpha 2) (ptm T 5) s in
    do* writes (fun m => set_dd m (fst r)) in
    let o := set_t1 (set_d2 o (fst r)) (snd r) in
    let zh28 := pdm T 2 2 * zhf in
    let zhm28 := pdm T 2 3 * pdl T 1 5 in
    let xmd := 28 - xmm in
    let* b := densu T zh28 db28 tinf tlbv xmd (alpha 2 - 1) (ptm T 5) s in
    if rle z (altl 2) && on (sw i 14) then
      let* dm := densu T z (fst b) tinf tlbv xmm (alpha 2) (ptm T 5) s in
      do* writes (fun m => set_dm28 m (fst dm)) in
      ret (zhm28, fst b, set_d2 o (dnet (d2 o) (fst dm) zhm28 xmm 28))
    else ret (zhm28, fst b, o)
  else ret (0, 0, o).

(* gts7.cpp:28-76: the temperatures; the result is tinf *)
Definition temperatures (T : tables) (i : input) : M R :=
  let* tinf := (if rgt (alt i) (zn1 T 0) then let* g := globe7 i (pt T) in ret (ptm T 0 * pt T 0%nat * (1 + sw i 15 * g)) else ret (ptm T 0 * pt T 0%nat)) in
  let* x := (if rgt (alt i) (zn1 T 4) then let* g := globe7 i (ps T) in ret (ptm T 3 * ps T 0%nat * (1 + sw i 18 * g)) else ret (ptm T 3 * ps T 0%nat)) in
  do* writes (fun m => set_xg0 m x) in
  let* g := globe7 i (pd T 3) in
  do* writes (fun m => set_tlb m (ptm T 1 * (1 + sw i 16 * g) * pd T 3 0)) in
  do* (if rle 300 (alt i) then
         let tn1' m := set1 (set1 (set1 (set1 (tn1 m) 1 (ptm T 6 * ptl T 0 0)) 2 (ptm T 2 * ptl T 1 0)) 3 (ptm T 7 * ptl T 2 0)) 4 (ptm T 4 * ptl T 3 0) in
         writes (fun m => set_meso1 m (tn1' m) (set1 (tgn1 m) 1 (ptm T 8 * pma T 8 0 * tn1' m 4%nat * tn1' m 4%nat / ((ptm T 4 * ptl T 3 0) * (ptm T 4 * ptl T 3 0)))))
       else
         let* a := glob7s i (ptl T 0) in
         do* writes (fun m => set_meso1 m (set1 (tn1 m) 1 (ptm T 6 * ptl T 0 0 / (1 - sw i 17 * a))) (tgn1 m)) in
         let* a := glob7s i (ptl T 1) in
         do* writes (fun m => set_meso1 m (set1 (tn1 m) 2 (ptm T 2 * ptl T 1 0 / (1 - sw i 17 * a))) (tgn1 m)) in
         let* a := glob7s i (ptl T 2) in
         do* writes (fun m => set_meso1 m (set1 (tn1 m) 3 (ptm T 7 * ptl T 2 0 / (1 - sw i 17 * a))) (tgn1 m)) in
         let* a := glob7s i (ptl T 3) in
         do* writes (fun m => set_meso1 m (set1 (tn1 m) 4 (ptm T 4 * ptl T 3 0 / (1 - sw i 17 * sw i 19 * a))) (tgn1 m)) in
         let* a := glob7s i (pma T 8) in
         writes (fun m => set_meso1 m (tn1 m) (set1 (tgn1 m) 1 (ptm T 8 * pma T 8 0 * (1 + sw i 17 * sw i 19 * a) * tn1 m 4%nat * tn1 m 4%nat / ((ptm T 4 * ptl T 3 0) * (ptm T 4 * ptl T 3 0)))))) in
  ret tinf.

(* gts7.cpp:88-434: the species for a nonzero mass *)
Definition species (T : tables) (i : input) (mass : Z) (tinf tlbv s : R) (o : output) : M output :=
  let* g := globe7 i (pd T 2) in
  let g28 := sw i 20 * g in
  let zhf := pdl T 1 24 * (1 + sw i 4 * pdl T 0 24 * sin (deg2rad (glat i)) * cos (dr * (IZR (doy i) - pt T 13%nat))) in
  let o := set_t0 o tinf in
  let xmm := pdm T 2 4 in
  let j := mass_index mass in
  let* n := (if Nat.eqb j 0 then ret (0, 0, o) else molecular T i mass tinf tlbv s g28 zhf xmm o) in
  let '(zhm28, b28, o) := (n : R * R * output) in
  let* o := (if among j (1 :: 3 :: 4 :: 9 :: nil)%nat then
              let* o := helium T i tinf tlbv s xmm zhm28 b28 o in
              oxygen T i tinf tlbv s xmm zhm28 o
            else ret o) in
  let* o := (if among j (1 :: 3 :: 4 :: 6 :: 9 :: nil)%nat then oxygen2 T i tinf tlbv s xmm zhm28 b28 mass o else ret o) in
  let* o := (if among j (1 :: 3 :: 4 :: 6 :: 9 :: 7 :: nil)%nat then argon T i tinf tlbv s xmm zhm28 b28 o else ret o) in
  let* o := (if among j (1 :: 3 :: 4 :: 6 :: 9 :: 7 :: 8 :: nil)%nat then
              let* o := hydrogen T i tinf tlbv s xmm zhm28 b28 o in
              nitrogen T i tinf tlbv s xmm zhm28 b28 o
            else ret o) in
  if among j (1 :: 3 :: 4 :: 6 :: 9 :: 7 :: 8 :: 10 :: 11 :: nil)%nat then anomalous T i s mass o else ret o.

(* gts7.cpp:442-447 *)
Definition scale_units (o : output) : output :=
  Output (d0 o * 10 ^ 6) (d1 o * 10 ^ 6) (d2 o * 10 ^ 6) (d3 o * 10 ^ 6) (d4 o * 10 ^ 6) (d5 o * 10 ^ 6 / 1000) (d6 o * 10 ^ 6) (d7 o * 10 ^ 6) (d8 o * 10 ^ 6) (t0 o) (t1 o).
(* nrlmsise00_gts7.cpp; o is what the output structure holds on entry *)
Definition gts7 (T : tables) (i : input) (mass : Z) (o : output) : M output :=
  let o := Output 0 0 0 0 0 0 0 0 0 (t0 o) (t1 o) in
  let* tinf := temperatures T i in
  let o := set_t0 o tinf in
  let* m := reads (fun m => m) in
  let s := xg0 m / (tinf - tlb m) in
  let* o := (if Z.eqb mass 0 then ret o else species T i mass tinf (tlb m) s o) in
  let j := if Z.eqb mass 0 then 0%nat else mass_index mass in
  let* o := (if Nat.eqb j 5 then ret o
            else
              let* r := densu T (Rabs (alt i)) 1 tinf (tlb m) 0 0 (ptm T 5) s in
              ret (set_t1 o (snd r))) in
  ret (if meters i then scale_units o else o).

(* gtd7.cpp:60-72 *)
Definition mesosphere (T : tables) (i : input) : M unit :=
  do* writes (fun m => set_meso2 m (set1 (tn2 m) 0 (tn1 m 4%nat)) (set1 (tgn2 m) 0 (tgn1 m 1%nat))) in
  let* a := glob7s i (pma T 0) in
  do* writes (fun m => set_meso2 m (set1 (tn2 m) 1 (pma T 0 0 * pavgm T 0 / (1 - sw i 19 * a))) (tgn2 m)) in
  let* a := glob7s i (pma T 1) in
  do* writes (fun m => set_meso2 m (set1 (tn2 m) 2 (pma T 1 0 * pavgm T 1 / (1 - sw i 19 * a))) (tgn2 m)) in
  let* a := glob7s i (pma T 2) in
  do* writes (fun m => set_meso2 m (set1 (tn2 m) 3 (pma T 2 0 * pavgm T 2 / (1 - sw i 19 * sw i 21 * a))) (tgn2 m)) in
  let* a := glob7s i (pma T 9) in
  writes (fun m => set_meso2 m (tn2 m) (set1 (tgn2 m) 1 (pavgm T 8 * pma T 9 0 * (1 + sw i 19 * sw i 21 * a) * tn2 m 3%nat * tn2 m 3%nat / ((pma T 2 0 * pavgm T 2) * (pma T 2 0 * pavgm T 2))))).
(* gtd7.cpp:80-87; tn3[0] is not assigned *)
Definition troposphere (T : tables) (i : input) : M unit :=
  do* writes (fun m => set_meso3 m (tn3 m) (set1 (tgn3 m) 0 (tgn2 m 1%nat))) in
  let* a := glob7s i (pma T 3) in
  do* writes (fun m => set_meso3 m (set1 (tn3 m) 1 (pma T 3 0 * pavgm T 3 / (1 - sw i 21 * a))) (tgn3 m)) in
  let* a := glob7s i (pma T 4) in
  do* writes (fun m => set_meso3 m (set1 (tn3 m) 2 (pma T 4 0 * pavgm T 4 / (1 - sw i 21 * a))) (tgn3 m)) in
  let* a := glob7s i (pma T 5) in
  do* writes (fun m => set_meso3 m (set1 (tn3 m) 3 (pma T 5 0 * pavgm T 5 / (1 - sw i 21 * a))) (tgn3 m)) in
  let* a := glob7s i (pma T 6) in
  do* writes (fun m => set_meso3 m (set1 (tn3 m) 4 (pma T 6 0 * pavgm T 6 / (1 - sw i 21 * a))) (tgn3 m)) in
  let* a := glob7s i (pma T 7) in
  writes (fun m => set_meso3 m (tn3 m) (set1 (tgn3 m) 1 (pma T 7 0 * pavgm T 7 * (1 + sw i 21 * a) * tn3 m 4%nat * tn3 m 4%nat / ((pma T 6 0 * pavgm T 6) * (pma T 6 0 * pavgm T 6))))).
Definition zmix : R := 62.5.
(* gtd7.cpp:91-140: the densities below 72.5 km from ds, the densities gts7 returned, and the output o *)
Definition mixing (T : tables) (i : input) (mass : Z) (ds o : output) (tz : R) : M output :=
  let* m := reads (fun m => m) in
  if Z.eqb mass 0 then
    let* r := fails (densm m (alt i) 1 0 tz) in
    do* writes (fun m => set_dd m (fst r)) in
    ret (set_t1 o (snd r))
  else
    let xmm := pdm T 2 4 in
    let dmc := if rgt (alt i) zmix then 1 - (zn2 0 - alt i) / (zn2 0 - zmix) else 0 in
    let dz28 := d2 ds in
    let dmr := d2 ds / dm28m m - 1 in
    let* r := fails (densm m (alt i) (dm28m m) xmm tz) in
    let n2 := fst r * (1 + dmr * dmc) in
    let part k v := n2 * pdm T k 1 * (1 + (v / (dz28 * pdm T k 1) - 1) * dmc) in
    let he := if Z.eqb mass 4 || Z.eqb mass 48 then part 0%nat (d0 ds) else d0 o in
    let o2 := if Z.eqb mass 32 || Z.eqb mass 48 then part 3%nat (d3 ds) else 0 in
    let ar := if Z.eqb mass 40 || Z.eqb mass 48 then part 4%nat (d4 ds) else 0 in
    let v := 1.66 / 10 ^ 24 * (4 * he + 16 * 0 + 28 * n2 + 32 * o2 + 40 * ar + 0 + 14 * 0) in
    ret (Output he 0 n2 o2 ar (if Z.eqb mass 48 then if meters i then v / 1000 else v else d5 o) 0 0 0 (t0 o) (snd r)).
(* nrlmsise00_gtd7.cpp; o is what the caller's output structure holds on entry, oc and tz are the
   uninitialised locals *)
Definition gtd7 (T : tables) (i : input) (mass : Z) (o oc : output) (tz : R) : M output :=
  (* std::abs(in->sw.sw[1]) < 0 *)
  let xlat := if rlt (Rabs (sw i 1)) 0 then 45 else glat i in
  let (g, r) := glatf xlat in
  do* writes (fun m => set_grav m g r) in
  let mss := if rlt (alt i) zmix && Z.gtb mass 0 then 28%Z else mass in
  let* ds := gts7 T (with_alt i (Rmax (alt i) (zn2 0))) mss oc in
  do* writes (fun m => set_dm28m m (if meters i then dm28 m * 10 ^ 6 else dm28 m)) in
  let o := set_t1 (set_t0 o (t0 ds)) (t1 ds) in
  if rle (zn2 0) (alt i) then ret (Output (d0 ds) (d1 ds) (d2 ds) (d3 ds) (d4 ds) (d5 ds) (d6 ds) (d7 ds) (d8 ds) (t0 o) (t1 o))
  else
    do* mesosphere T i in
    do* (if rlt (alt i) (zn3 0) then troposphere T i else ret tt) in
    mixing T i mass ds o tz.
(* nrlmsise00_gtd7d.cpp *)
Definition gtd7d (T : tables) (i : input) (mass : Z) (o oc : output) (tz : R) : M output :=
  let* o := gtd7 T i mass o oc tz in
  let v := if Z.eqb mass 48 then 1.66 / 10 ^ 24 * (4 * d0 o + 16 * d1 o + 28 * d2 o + 32 * d3 o + 40 * d4 o + d6 o + 14 * d7 o + 16 * d8 o) else d5 o in
  ret (set_d5 o (if meters i then v / 1000 else v)).

(* the statics at program start: globe7.cpp:22-32 and glob7s.cpp:17-25; statics without an
   initialiser are zero *)
Definition season0 : season := Season (-1) (-1000) (-1000) (-1000) (-1000) 0 0 0 0.
Definition statics0 : statics := Statics 1000 1000 season0 season0.
