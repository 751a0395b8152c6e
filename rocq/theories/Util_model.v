(* Model of src/factorial.hpp and src/enum_bitset.hpp.
   The numeric type T is exact (Z): overflow of the chosen T is not modelled. *)
From Coq Require Import List ZArith.
From Verif Require Import Base.
Import ListNotations.
Local Open Scope Z_scope.

(* factorial.hpp:5-8: table[0]=table[1]=1, table[i]=table[i-1]*i for i=2..N.
   [fact_loop prev i k] appends entries i, i+1, ... (k of them). *)
Fixpoint fact_loop (prev i : Z) (k : nat) : list Z :=
  match k with
  | O => []
  | S k' => let t := prev * i in t :: fact_loop t (i + 1) k'
  end.
Definition fact_table (N : nat) : list Z :=
  [1; 1] ++ fact_loop 1 2 (N - 1).

(* factorial.hpp:10-12; the array has N+1 entries (N >= 1, otherwise the
   two-element initialiser does not compile) *)
Definition factorial_lookup (N i : nat) : outcome Z := load (fact_table N) i.

(* factorial.hpp:30-39 (and 17-27, the same code with template arguments).
   bool * int products select the larger/smaller argument. *)
Definition b2z (b : bool) : Z := if b then 1 else 0.
Definition ratio_max (num den : Z) : Z := num * b2z (num >=? den) + den * b2z (den >? num).
Definition ratio_min (num den : Z) : Z := num * b2z (num <=? den) + den * b2z (den <? num).
Fixpoint mul_range (acc i : Z) (k : nat) : Z :=
  match k with O => acc | S k' => mul_range (acc * i) (i + 1) k' end.
Definition factorialRatio (num den : Z) : Z :=
  let mx := ratio_max num den in
  let mn := ratio_min num den in
  mul_range 1 (mn + 1) (Z.to_nat (mx - mn)).

(* ---- enum_bitset.hpp ---- *)
(* The enum's underlying integer is Z with two's complement bit operations
   (no truncation: all enumerators fit the underlying type). *)
Definition bitset := Z.
(* enum_bitset.hpp:23 *)
Definition bs_empty : bitset := 0.
(* enum_bitset.hpp:28 *)
Definition bs_of (f : Z) : bitset := f.
(* enum_bitset.hpp:33-37 *)
Definition bs_of_list (fs : list Z) : bitset := fold_left (fun acc f => Z.lor acc f) fs 0.
(* enum_bitset.hpp:41-44 *)
Definition bs_set (s : bitset) (f : Z) : bitset := Z.lor s f.
(* enum_bitset.hpp:48-51 *)
Definition bs_clear (s : bitset) (f : Z) : bitset := Z.land s (Z.lnot f).
(* enum_bitset.hpp:54 *)
Definition bs_clear_all (s : bitset) : bitset := 0.
(* enum_bitset.hpp:58 *)
Definition bs_check (s : bitset) (f : Z) : bool := negb (Z.land s f =? 0).
(* enum_bitset.hpp:61 *)
Definition bs_is_clean (s : bitset) : bool := s =? 0.
(* enum_bitset.hpp:64 *)
Definition bs_eq (a b : bitset) : bool := a =? b.

Inductive bsop := BSet (f : Z) | BClear (f : Z) | BClearAll.
Definition bs_step (s : bitset) (o : bsop) : bitset :=
  match o with BSet f => bs_set s f | BClear f => bs_clear s f | BClearAll => bs_clear_all s end.
