(* Model of the input switches of the NRLMSISE-00 atmosphere model: struct Switches and the switch
   functions of InParamsCore, src/atmosphere/nrlmsise00.hpp:71-130, 208-233.  The arrays are functions
   of the index, as in Msis_model.v; the double value of InParamsCore::set_switch is given as the
   integer it is converted to. *)
From Coq Require Import ZArith Reals Bool.
From Verif Require Import Base Msis_model.
Local Open Scope R_scope.

(* nrlmsise00.hpp:72 *)
Definition dim : nat := 25.
(* nrlmsise00.hpp:73-74 *)
Record switches := Switches { s_sw : nat -> R; s_swc : nat -> R }.
(* an element of both arrays, nrlmsise00.hpp:89-90, 106-107, 126-127; an index outside is undefined *)
Definition put (s : switches) (index : Z) (v vc : R) : outcome switches :=
  if Z.leb 0 index && Z.ltb index (Z.of_nat dim) then
    Ok (Switches (set1 (s_sw s) (Z.to_nat index) v) (set1 (s_swc s) (Z.to_nat index) vc))
  else UB.
(* every element of an array, nrlmsise00.hpp:99-100, 117-120 *)
Definition fill (f : nat -> R) (v : R) : nat -> R := fun k => if Nat.ltb k dim then v else f k.
(* nrlmsise00.hpp:85-91; % of C++ is Z.rem *)
Definition set_switch (s : switches) (index val : Z) : outcome switches :=
  put s index (IZR (Z.rem val 2)) (if Z.eqb val 1 || Z.eqb val 2 then 1 else 0).
(* nrlmsise00.hpp:96-109 *)
Definition set_null (s : switches) (index : Z) : outcome switches :=
  if Z.ltb index 0 then Ok (Switches (fill (s_sw s) 0) (fill (s_swc s) 0)) else put s index 0 0.
(* nrlmsise00.hpp:114-129 *)
Definition set_on (s : switches) (index : Z) : outcome switches :=
  if Z.ltb index 0 then Ok (Switches (fill (s_sw s) 1) (fill (s_swc s) 1)) else put s index 1 1.

(* the member sw of InParamsCore, nrlmsise00.hpp:183 *)
Definition switches_of (i : input) : switches := Switches (sw i) (swc i).
Definition with_switches (i : input) (s : switches) : input :=
  Input (s_sw s) (s_swc s) (doy i) (sec i) (alt i) (glat i) (glon i) (lst i) (f107A i) (f107 i) (ap i) (aparr i) (meters i).
Definition switching (i : input) (f : switches -> outcome switches) : outcome input := do s <- f (switches_of i); Ok (with_switches i s).
(* nrlmsise00.hpp:212 *)
Definition use_aparray (i : input) : outcome input := switching i (fun s => set_switch s 8 (-1)).
(* nrlmsise00.hpp:224, 227 *)
Definition set_switches_off (i : input) : outcome input := switching i (fun s => set_null s (-1)).
Definition set_switches_on (i : input) : outcome input := switching i (fun s => set_on s (-1)).
(* nrlmsise00.hpp:233 *)
Definition in_set_switch (i : input) (index val : Z) : outcome input := switching i (fun s => set_switch s index val).
(* nrlmsise00.hpp:77, 208: the default constructors; nothing but the switches and meters_ is written *)
Definition constructed (i : input) : outcome input :=
  set_switches_on (Input (fill (sw i) 0) (fill (swc i) 0) (doy i) (sec i) (alt i) (glat i) (glon i) (lst i) (f107A i) (f107 i) (ap i) (aparr i) false).
