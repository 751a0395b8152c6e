(* Model of EopLookUpTable::interpolate_lagrange, interpolate and regularize,
   src/iers/eop_interpolate.cpp, on the tables of Eop_model.v.  Doubles are exact rationals.  The
   routines of the iers2010 library are arguments: lagint is given the dates and values of a column,
   the date wanted, the index remembered from the call before and the order; it gives a status, the
   value when it writes one, and the index. *)
From Coq Require Import List ZArith QArith Bool.
From Verif Require Import Base Eop_model.
Import ListNotations.
Local Open Scope Q_scope.

Record iers := Iers {
  lagint : list (option Q) -> list (option Q) -> Q -> Z -> Z -> outcome (Z * option Q * Z);
  rg_zont2 : Q -> Q * Q * Q;               (* dut1, dlod, domega *)
  pmut1_oceans : Q -> Q * Q * Q * Q;       (* cx, cy, cdut, clod *)
  pm_gravi : Q -> Q * Q }.

(* eop.hpp:10-12; None is a member that was never written *)
Record eop_record := EopRec { r_mjd : option Q; r_xp : option Q; r_yp : option Q; r_dut : option Q; r_lod : option Q; r_dx : option Q; r_dy : option Q; r_omega : option Q }.

(* the sz cells of a column *)
Fixpoint read_cells (t : table Q) (c : column) (i n : nat) : outcome (list (option Q)) :=
  match n with
  | O => Ok []
  | S n => do v <- t_get t c i; do l <- read_cells t c (S i) n; Ok (v :: l)
  end.
Definition written (old new : option Q) : option Q := match new with Some v => Some v | None => old end.
Definition one_column (L : iers) (t : table Q) (x : Q) (order : Z) (c : column) (idx : Z) : outcome (Z * option Q * Z) :=
  do ms <- read_cells t Mjd 0 (t_sz t);
  do vs <- read_cells t c 0 (t_sz t);
  lagint L ms vs x idx order.

(* eop_interpolate.cpp:6-40 *)
Definition interpolate_lagrange (L : iers) (t : table Q) (x : Q) (r : eop_record) (order : Z) : outcome (Z * eop_record) :=
  do a1 <- one_column L t x order Xp (-1)%Z;
  do a2 <- one_column L t x order Yp (snd a1);
  do a3 <- one_column L t x order Ut1 (snd a2);
  do a4 <- one_column L t x order Dx (snd a3);
  do a5 <- one_column L t x order Dy (snd a4);
  do a6 <- one_column L t x order Lod (snd a5);
  do a7 <- one_column L t x order Dx (snd a6);
  do a8 <- one_column L t x order Dy (snd a7);
  let st a := fst (fst a) in
  let va a := snd (fst a) in
  let status := (st a1 + st a2 + st a3 + st a4 + st a5 + st a6 + st a7 + st a8)%Z in
  let r' := EopRec (r_mjd r) (written (r_xp r) (va a1)) (written (r_yp r) (va a2)) (written (r_dut r) (va a3)) (written (r_lod r) (va a6))
                (written (written (r_dx r) (va a4)) (va a7)) (written (written (r_dy r) (va a5)) (va a8)) (r_omega r) in
  if Z.eqb status 0 then Ok (0%Z, EopRec (Some x) (r_xp r') (r_yp r') (r_dut r') (r_lod r') (r_dx r') (r_dy r') (r_omega r'))
  else Ok (1%Z, r').

(* std::modf *)
Definition modf_int (x : Q) : Z := Z.quot (Qnum x) (Zpos (Qden x)).
(* eop_interpolate.cpp:48-52, 90-93; dso::mjd0_jd and dso::j2000_jd are 2400000.5 and 2451545 *)
Definition jc2000 (x : Q) : Q :=
  (inject_Z (modf_int x) + (24000005 # 10) - 2451545) / 36525 + (x - inject_Z (modf_int x)) / 36525.

(* += on a member *)
Definition plus_eq (a : option Q) (d : Q) : outcome (option Q) := match a with Some v => Ok (Some (v + d)) | None => UB end.
(* eop_interpolate.cpp:42-81 *)
Definition interpolate (L : iers) (t : table Q) (x : Q) (r : eop_record) (order : Z) : outcome (Z * eop_record) :=
  do sr <- interpolate_lagrange L t x r order;
  let r := snd sr in
  let '(dut1, dlod, domega) := rg_zont2 L (jc2000 x) in
  do dut <- plus_eq (r_dut r) dut1;
  do lod <- plus_eq (r_lod r) dlod;
  do omega <- plus_eq (r_omega r) domega;
  let '(cx, cy, cdut, clod) := pmut1_oceans L (jc2000 x) in
  do xp <- plus_eq (r_xp r) cx;
  do yp <- plus_eq (r_yp r) cy;
  do dut <- plus_eq dut cdut;
  do lod <- plus_eq lod clod;
  let '(gx, gy) := pm_gravi L (jc2000 x) in
  do xp <- plus_eq xp gx;
  do yp <- plus_eq yp gy;
  Ok (0%Z, EopRec (Some x) xp yp dut lod (r_dx r) (r_dy r) omega).

(* -= on a cell of the table *)
Definition minus_cell (t : table Q) (c : column) (i : nat) (d : Q) : outcome (table Q) :=
  do v <- t_get t c i;
  match v with Some v => t_set t c i (v - d) | None => UB end.
(* eop_interpolate.cpp:87-103 *)
Fixpoint regularize_from (L : iers) (t : table Q) (i n : nat) : outcome (table Q) :=
  match n with
  | O => Ok t
  | S n =>
      do m <- t_get t Mjd i;
      match m with
      | None => UB
      | Some m =>
          let '(dut1, dlod, domega) := rg_zont2 L (jc2000 m) in
          do t <- minus_cell t Ut1 i dut1;
          do t <- minus_cell t Lod i dlod;
          do t <- minus_cell t Omega i domega;
          regularize_from L t (S i) n
      end
  end.
(* eop_interpolate.cpp:83-105 *)
Definition regularize (L : iers) (t : table Q) : outcome (table Q) := regularize_from L t 0 (t_sz t).
