(* Model of src/filters/filters.hpp: parameter layout and a-priori setters of
   EkfFilter<Np, None> and EkfFilter<Np, Linear>.  double is an arbitrary type V;
   the Eigen vector/matrix are functions with an explicit dimension, an index
   outside which is UB (Eigen asserts in debug builds, otherwise undefined). *)
From Coq Require Import List Arith ZArith.
From Verif Require Import Base.
Import ListNotations.

Inductive clock_model := CNone | CLinear.   (* filters.hpp:15 *)

(* filters.hpp:23-31 *)
Definition num_params (Np : nat) (m : clock_model) (n : nat) : nat :=
  6 + Np + n + n * (match m with CNone => 1 | CLinear => 2 end).

(* filters.hpp:90-92, 245-247 *)
Definition tropo_index (Np : nat) (m : clock_model) (b : nat) : nat :=
  match m with CLinear => 6 + Np + b * 3 | CNone => 6 + Np + b * 2 end.
(* filters.hpp:94-96, 249-251 *)
Definition rfoff_index (Np : nat) (m : clock_model) (b : nat) : nat :=
  match m with CLinear => 6 + Np + b * 3 + 1 | CNone => 6 + Np + b * 2 + 1 end.
(* filters.hpp:126, 183: the drift is the entry after the offset (Linear only) *)
Definition drift_index (Np : nat) (b : nat) : nat := rfoff_index Np CLinear b + 1.
(* filters.hpp:97-100, 252-255 *)
Definition drag_coef_index : nat := 6.

Section V.
Variable V : Type.

Record filt := Filt {
  f_n : nat;                       (* _num_stations *)
  f_dim : nat;                     (* rows of x, rows/cols of P *)
  f_x : nat -> V;
  f_P : nat -> nat -> V }.

(* filters.hpp:45-48 with contents [x0], [P0] *)
Definition filt_new (Np : nat) (m : clock_model) (n : nat) (x0 : nat -> V) (P0 : nat -> nat -> V) : filt :=
  Filt n (num_params Np m n) x0 P0.

(* x(i) = v *)
Definition put_x (f : filt) (i : nat) (v : V) : outcome filt :=
  if i <? f_dim f
  then Ok (Filt (f_n f) (f_dim f) (fun j => if j =? i then v else f_x f j) (f_P f))
  else UB.
(* P(i,i) = v *)
Definition put_P (f : filt) (i : nat) (v : V) : outcome filt :=
  if i <? f_dim f
  then Ok (Filt (f_n f) (f_dim f) (f_x f)
             (fun j k => if (j =? i) && (k =? i) then v else f_P f j k)%bool)
  else UB.

(* the loops "idx = start; for (i < num_stations) { put(idx); idx += step; }" *)
Fixpoint all_beacons (body : filt -> nat -> outcome filt) (f : filt) (idx step : nat) (k : nat) : outcome filt :=
  match k with
  | O => Ok f
  | S k' => do f' <- body f idx; all_beacons body f' (idx + step) step k'
  end.

(* beacon argument: None is the default -1 (all beacons) *)
(* filters.hpp:143-158 (Linear, step 2) and 287-302 (None, step 2) *)
Definition set_tropo_apriori (Np : nat) (m : clock_model) (f : filt) (v : V) (b : option nat) : outcome filt :=
  match b with
  | Some b => put_x f (tropo_index Np m b) v
  | None => all_beacons (fun f i => put_x f i v) f (tropo_index Np m 0) 2 (f_n f)
  end.
(* filters.hpp:160-175 and 304-319 *)
Definition set_tropo_apriori_sigma (Np : nat) (m : clock_model) (f : filt) (v : V) (b : option nat) : outcome filt :=
  match b with
  | Some b => put_P f (tropo_index Np m b) v
  | None => all_beacons (fun f i => put_P f i v) f (tropo_index Np m 0) 2 (f_n f)
  end.

(* filters.hpp:177-195 *)
Definition set_rfoff_apriori_linear (Np : nat) (f : filt) (a d : V) (b : option nat) : outcome filt :=
  let body f i := do f' <- put_x f i a; put_x f' (i + 1) d in
  match b with
  | Some b => body f (rfoff_index Np CLinear b)
  | None => all_beacons body f (rfoff_index Np CLinear 0) 3 (f_n f)
  end.
(* filters.hpp:197-215 *)
Definition set_rfoff_apriori_sigma_linear (Np : nat) (f : filt) (a d : V) (b : option nat) : outcome filt :=
  let body f i := do f' <- put_P f i a; put_P f' (i + 1) d in
  match b with
  | Some b => body f (rfoff_index Np CLinear b)
  | None => all_beacons body f (rfoff_index Np CLinear 0) 3 (f_n f)
  end.
(* filters.hpp:321-336 *)
Definition set_rfoff_apriori_none (Np : nat) (f : filt) (a : V) (b : option nat) : outcome filt :=
  match b with
  | Some b => put_x f (rfoff_index Np CNone b) a
  | None => all_beacons (fun f i => put_x f i a) f (rfoff_index Np CNone 0) 2 (f_n f)
  end.
(* filters.hpp:338-353 *)
Definition set_rfoff_apriori_sigma_none (Np : nat) (f : filt) (a : V) (b : option nat) : outcome filt :=
  match b with
  | Some b => put_P f (rfoff_index Np CNone b) a
  | None => all_beacons (fun f i => put_P f i a) f (rfoff_index Np CNone 0) 2 (f_n f)
  end.
(* filters.hpp:217-222, 355-360 *)
Definition set_drag_coef_apriori (f : filt) (v : V) : outcome filt := put_x f drag_coef_index v.
Definition set_drag_coef_apriori_sigma (f : filt) (v : V) : outcome filt := put_P f drag_coef_index v.
End V.
Arguments Filt {V}. Arguments f_n {V}. Arguments f_dim {V}. Arguments f_x {V}. Arguments f_P {V}.
Arguments filt_new {V}. Arguments put_x {V}. Arguments put_P {V}. Arguments all_beacons {V}.
Arguments set_tropo_apriori {V}. Arguments set_tropo_apriori_sigma {V}.
Arguments set_rfoff_apriori_linear {V}. Arguments set_rfoff_apriori_sigma_linear {V}.
Arguments set_rfoff_apriori_none {V}. Arguments set_rfoff_apriori_sigma_none {V}.
Arguments set_drag_coef_apriori {V}. Arguments set_drag_coef_apriori_sigma {V}.

(* filters.hpp:117-127: estimate at dt seconds from the reference epoch *)
Definition rfoff_estimate_linear (Np : nat) (f : filt Z) (b : nat) (dt : Z) : outcome Z :=
  let idx := rfoff_index Np CLinear b in
  if (idx + 1 <? f_dim f) then Ok (f_x f idx + dt * f_x f (idx + 1))%Z else UB.
