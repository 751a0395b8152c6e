(* Model of IntegrationParameters, src/orbit_integration.hpp:18-64, with the memory it owns, and of the call
   of the gravity routine in src/variational_equations.cpp:51-53.  The members that point elsewhere (Earth
   orientation, attitude, air, macromodel) are left out; the harmonics outlive the object, as the reference
   member requires.  Doubles are real numbers; degrees and orders are natural numbers. *)
From Coq Require Import List ZArith Reals Bool Arith.
From Verif Require Import Base Vec_model Harmonics_model Gravity_model.
Import ListNotations.
Local Open Scope R_scope.

(* orbit_integration.hpp:20-41: the two tables by address, degree and order, GM of the Sun and the Moon (None:
   not assigned), the harmonics with their radius and gravitational parameter *)
Record params := Params { p_V : nat; p_W : nat; p_degree : nat; p_order : nat; p_gm : option (R * R); p_h : hc R; p_Re : R; p_GM : R }.
(* the heap (None: freed) and the objects (None: their life is over) *)
Record world := World { w_heap : list (option table); w_objs : list (option params) }.

Inductive op :=
  | Make (degree order : nat) (h : hc R) (Re GM : R) (gm : R * R) (junk : nat -> nat -> R)
  | Copy (i : nat)
  | Destroy (i : nat)
  | Evaluate (i : nat) (pos : vec) (junk : mat).
(* what an operation gives; Stopped: an assertion failed *)
Inductive result := Done | Value (a : vec) (P : mat) | Stopped.

Definition the {A} (l : list (option A)) (i : nat) : outcome A :=
  match nth_error l i with Some (Some x) => Ok x | _ => UB end.
Fixpoint set_at {A} (l : list A) (i : nat) (x : A) : list A :=
  match l, i with
  | [], _ => []
  | _ :: r, O => x :: r
  | y :: r, S j => y :: set_at r j x
  end.
(* delete p: UB when the address is not one of a live table (orbit_integration.hpp:58-63; the addresses are
   never null) *)
Definition free (heap : list (option table)) (a : nat) : outcome (list (option table)) :=
  do _ <- the heap a; Ok (set_at heap a None).

(* [asserts]: compiled with assertions; without them (NDEBUG) their arguments are not evaluated *)
Definition step (asserts : bool) (w : world) (o : op) : outcome (world * result) :=
  match o with
  | Make degree order h Re GM gm junk =>                    (* orbit_integration.hpp:43-56 *)
      let n := List.length (w_heap w) in
      let t := Table (degree + 3) (order + 3) junk in
      let p := Params n (n + 1) degree order (if asserts then Some gm else None) h Re GM in
      if asserts && negb (Z.of_nat degree =? h_degree h)%Z then Ok (w, Stopped)
      else Ok (World (w_heap w ++ [Some t; Some t]) (w_objs w ++ [Some p]), Done)
  | Copy i =>                                               (* the implicit copy constructor: the pointers are copied *)
      do p <- the (w_objs w) i; Ok (World (w_heap w) (w_objs w ++ [Some p]), Done)
  | Destroy i =>                                            (* orbit_integration.hpp:58-63 *)
      do p <- the (w_objs w) i;
      do h1 <- free (w_heap w) (p_V p);
      do h2 <- free h1 (p_W p);
      Ok (World h2 (set_at (w_objs w) i None), Done)
  | Evaluate i pos junk =>                                  (* variational_equations.cpp:51-53, egravity.hpp:181-195 *)
      do p <- the (w_objs w) i;
      do V <- the (w_heap w) (p_V p);
      do W <- the (w_heap w) (p_W p);
      if asserts then
        do a <- accel_partials_at pos (p_degree p) (p_order p) (p_Re p) (p_GM p) V W (p_h p) junk;
        match a with
        | None => Ok (w, Stopped)
        | Some ((acc, P), (V', W')) => Ok (World (set_at (set_at (w_heap w) (p_V p) (Some V')) (p_W p) (Some W')) (w_objs w), Value acc P)
        end
      else
        do a <- grav_accel_partials (p_degree p) (p_order p) (p_Re p) (p_GM p) V W (p_h p) junk;
        Ok (w, Value (fst a) (snd a))
  end.
(* a history: the results in order; nothing happens after a failed assertion *)
Fixpoint history (asserts : bool) (w : world) (os : list op) : outcome (world * list result) :=
  match os with
  | [] => Ok (w, [])
  | o :: r =>
      do x <- step asserts w o;
      match snd x with
      | Stopped => Ok (fst x, [Stopped])
      | y => do z <- history asserts (fst x) r; Ok (fst z, y :: snd z)
      end
  end.
Definition empty : world := World [] [].
