(* Model of src/atmosphere/exponential_atmospheric_model.cpp.  Doubles are real numbers. *)
From Coq Require Import List ZArith Reals.
From Verif Require Import Base.
Import ListNotations.
Local Open Scope R_scope.

(* exponential_atmospheric_model.cpp:8-14 *)
Record layer := Layer { limit_low : Z; limit_high : Z; base_altitude : Z; nominal_density : R; scale_height : R }.
(* exponential_atmospheric_model.cpp:16-45 *)
Definition atm_table : list layer := [
  Layer 0 25 0 1.225 7.249;
  Layer 25 30 25 3.899e-2 6.349;
  Layer 30 40 30 1.774e-2 6.682;
  Layer 40 50 40 3.972e-3 7.554;
  Layer 50 60 50 1.057e-3 8.382;
  Layer 60 70 60 3.206e-4 7.714;
  Layer 70 80 70 8.770e-5 6.549;
  Layer 80 90 80 1.905e-5 5.799;
  Layer 90 100 90 3.396e-6 5.382;
  Layer 100 110 100 5.297e-7 5.877;
  Layer 110 120 110 9.661e-8 7.263;
  Layer 120 130 120 2.438e-8 9.473;
  Layer 130 140 130 8.484e-9 12.636;
  Layer 140 150 140 3.845e-9 16.149;
  Layer 150 180 150 2.070e-9 22.523;
  Layer 180 200 180 5.464e-10 29740;
  Layer 200 250 200 2.789e-10 37.105;
  Layer 250 300 250 7.248e-11 45.546;
  Layer 300 350 300 2.418e-11 53.628;
  Layer 350 400 350 9.518e-12 53.298;
  Layer 400 450 400 3.725e-12 58.515;
  Layer 450 500 450 1.585e-12 60.828;
  Layer 500 600 500 6.967e-13 63.822;
  Layer 600 700 600 1.454e-13 71.835;
  Layer 700 800 700 3.614e-14 88.667;
  Layer 800 900 800 1.170e-14 124.64;
  Layer 900 1000 900 5.245e-15 181.05;
  Layer 1000 (-1) 1000 3.019e-15 268.00 ].
Definition table_sz : nat := length atm_table.
(* exponential_atmospheric_model.cpp:57-62: the loop, from row i with [count] rows to go; [d] is
   layer_nr so far *)
Fixpoint find_layer (alt : Z) (rows : list layer) (i count d : nat) : nat :=
  match count, rows with
  | S c, r :: rs => if (Z.leb (limit_low r) alt && Z.ltb alt (limit_high r))%bool then i else find_layer alt rs (S i) c d
  | _, _ => d
  end.
(* exponential_atmospheric_model.cpp:49-67.  None: the assertion fails.  A truncated value beyond
   the int range is undefined.  For positive numbers truncation is the integral part *)
Definition density (h : R) : outcome (option R) :=
  if Rlt_dec 0 h then
    let alt := Int_part h in
    if Z.leb alt 2147483647 then
      let nr := find_layer alt atm_table 0 (table_sz - 1) (table_sz - 1) in
      do l <- load atm_table nr;
      Ok (Some (nominal_density l * exp (- (h - IZR (base_altitude l)) / scale_height l)))
    else UB
  else Ok None.
