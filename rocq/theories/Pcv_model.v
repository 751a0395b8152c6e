(* Model of src/antenna_pcv.hpp: AntennaOffsetTraits<T, Freq>::pcv.  Doubles are
   exact rationals; [pi] is the value of dso::DPI and dso::rad2deg (external)
   multiplies by 180/pi.  The DEBUG assertion is not modelled. *)
From Coq Require Import List ZArith QArith Qround Bool.
From Verif Require Import Base.
Import ListNotations.

(* antenna_pcv.hpp:18 *)
Inductive antenna := Alcatel | Starec_B | Starec_C.

Definition rad2deg (pi z : Q) : Q := z * 180 / pi.

(* antenna_pcv.hpp:36-39 *)
Definition alcatel_1 : list Q :=
  [0 # 100; 205 # 100; 724 # 100; 921 # 100; 671 # 100; 814 # 100; 1187 # 100;
   1248 # 100; 1228 # 100; 1367 # 100; 1391 # 100; 1301 # 100; 1301 # 100; 1187 # 100;
   970 # 100; 794 # 100; 499 # 100; 41 # 100; -393 # 100].
(* antenna_pcv.hpp:90-93 *)
Definition starec_b_1 : list Q :=
  [0 # 100; 6 # 100; -32 # 100; -112 # 100; -287 # 100; -402 # 100; -344 # 100;
   -215 # 100; -173 # 100; -173 # 100; -8 # 100; 137 # 100; 220 # 100; 537 # 100;
   702 # 100; 1070 # 100; 1386 # 100; 1727 # 100; 2237 # 100].
(* antenna_pcv.hpp:142-145 *)
Definition starec_c_1 : list Q :=
  [0 # 100; 6 # 100; -32 # 100; -112 # 100; -287 # 100; -402 # 100; -344 # 100;
   -215 # 100; -173 # 100; -173 # 100; -8 # 100; 137 # 100; 220 # 100; 537 # 100;
   702 # 100; 1070 # 100; 1386 # 100; 1727 # 100; 2237 # 100].
Definition plarray (a : antenna) : list Q :=
  match a with Alcatel => alcatel_1 | Starec_B => starec_b_1 | Starec_C => starec_c_1 end.

Definition outside (pi z : Q) : bool := negb (Qle_bool 0 z) || negb (Qle_bool z (pi / 2)).

(* antenna_pcv.hpp:56-60, 109-113, 161-165; a negative or too large index is UB *)
Definition table_value (t : list Q) (angle : Q) : outcome Q :=
  let index := Qfloor (angle / 5) in
  if Z.ltb index 0 then UB
  else
    do v <- load t (Z.to_nat index);
    do v1 <- load t (Z.to_nat (index + 1));
    Ok (v + (angle - 5 * inject_Z index) * ((v1 - v) / 5)).

(* value and out_of_bounds flag on frequency 1:
   Alcatel antenna_pcv.hpp:48-61 (the flag is set behind the return statement),
   Starec_B 101-114, Starec_C 153-166 *)
Definition pcv1 (a : antenna) (pi z : Q) : outcome (Q * Z) :=
  let angle := rad2deg pi z in
  if outside pi z then
    match a with Alcatel => Ok (0, 0%Z) | Starec_B | Starec_C => Ok (0, 1%Z) end
  else do v <- table_value (plarray a) angle; Ok (v, 0%Z).

(* frequency 2: antenna_pcv.hpp:73-76, 126-129, 178-181 *)
Definition pcv2 (a : antenna) (pi z : Q) : outcome (Q * Z) :=
  Ok (0, ((if Qle_bool 0 z then 0 else 1) + (if Qle_bool z (pi / 2) then 0 else 1))%Z).

(* antenna_pcv.hpp:221-223 *)
Definition pcv (a : antenna) (freq : nat) (pi z : Q) : outcome (Q * Z) :=
  match freq with 1%nat => pcv1 a pi z | _ => pcv2 a pi z end.
