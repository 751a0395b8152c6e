(* Model of src/harmonic_coeffs.hpp and src/gravity/harmonic_coeffs.cpp.
   [int] is Z without overflow; [double] values are of an arbitrary type V (R in
   the de-normalisation).  The array-of-rows m_data is a list of rows; the
   content of freshly allocated memory is an arbitrary function [junk]. *)
From Coq Require Import List ZArith Bool Reals.
From Verif Require Import Base.
Import ListNotations.
Local Open Scope Z_scope.

Section Values.
Variable V : Type.

(* harmonic_coeffs.hpp:55-59, without _GM/_Re *)
Record hc := HC {
  h_normalized : bool;
  h_degree : Z;
  h_rows : list (list V) }.

(* m_data[r][c] as an rvalue; index outside the allocation is UB *)
Definition load2 (rows : list (list V)) (r c : Z) : outcome V :=
  if (r <? 0) || (c <? 0) then UB
  else do row <- load rows (Z.to_nat r); load row (Z.to_nat c).

(* m_data[r][c] = f(m_data[r][c]) *)
Definition modify2 (rows : list (list V)) (r c : Z) (f : V -> V) : outcome (list (list V)) :=
  if (r <? 0) || (c <? 0) then UB
  else do row <- load rows (Z.to_nat r);
       do v <- load row (Z.to_nat c);
       do row' <- store row (Z.to_nat c) (f v);
       store rows (Z.to_nat r) row'.

(* gravity/harmonic_coeffs.cpp:7-12 *)
Definition allocate (junk : nat -> nat -> V) (n : Z) : list (list V) :=
  map (fun i => map (junk i) (seq 0 (Z.to_nat (n + 1)))) (seq 0 (Z.to_nat (n + 1))).

(* harmonic_coeffs.hpp:76-78 *)
Definition hc_new (junk : nat -> nat -> V) (n : Z) : hc := HC true n (allocate junk n).

(* harmonic_coeffs.hpp:129-134, 148-153: C(i,j) is m_data[i][j] *)
Definition C_cell (h : hc) (i j : Z) : Z * Z := (i, j).

(* harmonic_coeffs.hpp:171-177, 198-203: off = m_degree - i;
   S(i,j) is (m_data[off] + off + 1)[j-1] *)
Definition S_cell (h : hc) (i j : Z) : Z * Z :=
  let off := h_degree h - i in (off, off + 1 + (j - 1)).

(* harmonic_coeffs.hpp:156-161 *)
Definition C_get (h : hc) (i j : Z) : outcome V :=
  load2 (h_rows h) (fst (C_cell h i j)) (snd (C_cell h i j)).
(* harmonic_coeffs.hpp:208-213 *)
Definition S_get (h : hc) (i j : Z) : outcome V :=
  load2 (h_rows h) (fst (S_cell h i j)) (snd (S_cell h i j)).

(* C(i,j) = v, S(i,j) = v *)
Definition cell_put (h : hc) (rc : Z * Z) (v : V) : outcome hc :=
  do d <- modify2 (h_rows h) (fst rc) (snd rc) (fun _ => v);
  Ok (HC (h_normalized h) (h_degree h) d).
Definition C_put (h : hc) (i j : Z) (v : V) : outcome hc := cell_put h (C_cell h i j) v.
Definition S_put (h : hc) (i j : Z) (v : V) : outcome hc := cell_put h (S_cell h i j) v.

(* writes as data, for histories *)
Inductive hop := PutC (i j : Z) (v : V) | PutS (i j : Z) (v : V).
Definition h_step (h : hc) (o : hop) : outcome hc :=
  match o with PutC i j v => C_put h i j v | PutS i j v => S_put h i j v end.
Fixpoint h_run (h : hc) (ops : list hop) : outcome hc :=
  match ops with [] => Ok h | o :: r => do h' <- h_step h o; h_run h' r end.
End Values.
Arguments HC {V}. Arguments h_normalized {V}. Arguments h_degree {V}. Arguments h_rows {V}.
Arguments load2 {V}. Arguments modify2 {V}. Arguments allocate {V}. Arguments hc_new {V}.
Arguments C_cell {V}. Arguments S_cell {V}. Arguments C_get {V}. Arguments S_get {V}.
Arguments C_put {V}. Arguments S_put {V}. Arguments PutC {V}. Arguments PutS {V}.
Arguments h_step {V}. Arguments h_run {V}. Arguments cell_put {V}.

(* harmonic_coeffs.hpp:112-117: -m_data[2][0] *)
Definition J2 (h : hc R) : outcome R :=
  do v <- load2 (h_rows h) 2 0; Ok (- v)%R.

(* gravity/harmonic_coeffs.cpp:58-67: product of i for i = n-m+1 .. n+m.
   [double] products are exact reals. *)
Fixpoint prod_from (start : Z) (count : nat) : R :=
  match count with
  | O => 1%R
  | S k => (prod_from start k * IZR (start + Z.of_nat k))%R
  end.
Definition sum_ (n m : Z) : R :=
  if m =? 0 then 1%R
  else let start := n - m + 1 in
       let stop := n + m in
       prod_from start (Z.to_nat (stop - start + 1)).

(* gravity/harmonic_coeffs.cpp:69-73, entry i of facs.  (2*n+1) and (2-(i==0))
   are positive ints, hence never a division by zero. *)
Definition fac (n i : Z) : R :=
  sqrt (sum_ n i / IZR (2 * n + 1) / IZR (2 - (if i =? 0 then 1 else 0))).

(* for m in ms: cell(m) /= facs[m] *)
Fixpoint div_cells (rows : list (list R)) (l : list ((Z * Z) * R)) : outcome (list (list R)) :=
  match l with
  | [] => Ok rows
  | ((r, c), d) :: t =>
      do rows' <- modify2 rows r c (fun v => (v / d)%R);
      div_cells rows' t
  end.

Definition zseq (start : Z) (count : nat) : list Z :=
  map (fun k => start + Z.of_nat k) (seq 0 count).

(* gravity/harmonic_coeffs.cpp:90-103: body of the loop over n *)
Definition denorm_degree (h : hc R) (rows : list (list R)) (order n : Z) : outcome (list (list R)) :=
  let mm := Z.min order n in
  do rows' <- div_cells rows
       (map (fun m => (C_cell h n m, fac n m)) (zseq 0 (Z.to_nat (mm + 1))));
  div_cells rows' (map (fun m => (S_cell h n m, fac n m)) (zseq 1 (Z.to_nat mm))).

Fixpoint denorm_loop (h : hc R) (order : Z) (rows : list (list R)) (ns : list Z)
  : outcome (list (list R)) :=
  match ns with
  | [] => Ok rows
  | n :: t => do rows' <- denorm_degree h rows order n; denorm_loop h order rows' t
  end.

(* Result of denormalize: failed assertion, or return code and new object. *)
Inductive dres := DAssert | DRet (code : Z) (h : hc R).

(* gravity/harmonic_coeffs.cpp:75-108 *)
Definition denormalize (h : hc R) (order : Z) : outcome dres :=
  if negb (h_normalized h) then Ok (DRet 0 h)
  else
    let order := if order <? 0 then h_degree h else order in
    if order >? h_degree h then Ok (DRet 1 h)
    else if negb (h_degree h >? 0) then Ok DAssert
    else
      do rows' <- denorm_loop h order (h_rows h) (zseq 1 (Z.to_nat (h_degree h)));
      Ok (DRet 0 (HC false (h_degree h) rows')).

(* ---- ownership of the allocated arrays (C07) --------------------------- *)
(* Heap: identifiers of live arrays and the next fresh identifier.  An object
   owns one outer array and [length rows] row arrays, each of the same length
   as the outer one (allocate()). *)
Record heap := Heap { hp_next : nat; hp_live : list nat }.
Record robj := RObj { o_degree : Z; o_data : option (nat * list nat) }.

Definition h_alloc (hp : heap) : nat * heap :=
  (hp_next hp, Heap (S (hp_next hp)) (hp_next hp :: hp_live hp)).

Fixpoint h_alloc_n (hp : heap) (k : nat) : list nat * heap :=
  match k with
  | O => ([], hp)
  | S k' => let (a, hp1) := h_alloc hp in
            let (l, hp2) := h_alloc_n hp1 k' in (a :: l, hp2)
  end.

Fixpoint remove1 (x : nat) (l : list nat) : option (list nat) :=
  match l with
  | [] => None
  | y :: t => if Nat.eqb x y then Some t
              else match remove1 x t with Some t' => Some (y :: t') | None => None end
  end.

(* delete[]: deleting an array that is not live is UB *)
Definition h_free (hp : heap) (x : nat) : outcome heap :=
  match remove1 x (hp_live hp) with
  | Some l => Ok (Heap (hp_next hp) l)
  | None => UB
  end.

Fixpoint h_free_l (hp : heap) (l : list nat) : outcome heap :=
  match l with [] => Ok hp | x :: t => do hp' <- h_free hp x; h_free_l hp' t end.

(* gravity/harmonic_coeffs.cpp:7-12 *)
Definition o_allocate (hp : heap) (deg : Z) : heap * option (nat * list nat) :=
  let (a, hp1) := h_alloc hp in
  let (l, hp2) := h_alloc_n hp1 (Z.to_nat (deg + 1)) in
  (hp2, Some (a, l)).

(* gravity/harmonic_coeffs.cpp:14-21: rows 0..m_degree, then the outer array;
   reading a row pointer beyond the outer array is UB *)
Definition o_deallocate (hp : heap) (o : robj) : outcome heap :=
  match o_data o with
  | None => Ok hp
  | Some (a, l) =>
      let n := Z.to_nat (o_degree o + 1) in
      if Nat.leb n (length l) then
        do hp' <- h_free_l hp (firstn n l); h_free hp' a
      else UB
  end.

(* program variables holding a HarmonicCoeffs *)
Record world := World { w_heap : heap; w_objs : list (option robj) }.

Inductive wop :=
| WNewDefault (v : nat)            (* harmonic_coeffs.hpp:68-69 *)
| WNew (v : nat) (n : Z)           (* harmonic_coeffs.hpp:71-78 *)
| WResize (v : nat) (n : Z)        (* gravity/harmonic_coeffs.cpp:23-33 *)
| WMoveNew (dst src : nat)         (* gravity/harmonic_coeffs.cpp:35-44 *)
| WMoveAssign (dst src : nat)      (* gravity/harmonic_coeffs.cpp:46-56 *)
| WDestroy (v : nat).              (* harmonic_coeffs.hpp:88 *)

(* Variable slots: [None] = no object lives there. Using a dead slot as an
   object, or constructing over a live one, is not a C++ history: rejected. *)
Definition w_set (w : world) (v : nat) (o : option robj) (hp : heap) : option world :=
  match upd (w_objs w) v o with Some l => Some (World hp l) | None => None end.

(* None = not a legal history; Some UB = undefined behaviour *)
Definition w_step (w : world) (op : wop) : option (outcome world) :=
  match op with
  | WNewDefault v =>
      match nth_error (w_objs w) v with
      | Some None => option_map Ok (w_set w v (Some (RObj 0 None)) (w_heap w))
      | _ => None
      end
  | WNew v n =>
      if n <? 0 then None else
      match nth_error (w_objs w) v with
      | Some None =>
          let (hp, d) := o_allocate (w_heap w) n in
          option_map Ok (w_set w v (Some (RObj n d)) hp)
      | _ => None
      end
  | WResize v n =>
      if n <? 0 then None else
      match nth_error (w_objs w) v with
      | Some (Some o) =>
          if n <=? o_degree o then
            option_map Ok (w_set w v (Some (RObj n (o_data o))) (w_heap w))
          else
            match o_deallocate (w_heap w) o with
            | UB => Some UB
            | Ok hp =>
                let (hp', d) := o_allocate hp n in
                option_map Ok (w_set w v (Some (RObj n d)) hp')
            end
      | _ => None
      end
  | WMoveNew dst src =>
      match nth_error (w_objs w) dst, nth_error (w_objs w) src with
      | Some None, Some (Some o) =>
          (* this->deallocate() on default member values: m_data is null *)
          match w_set w dst (Some (RObj (o_degree o) (o_data o))) (w_heap w) with
          | Some w1 => option_map Ok (w_set w1 src (Some (RObj 0 None)) (w_heap w))
          | None => None
          end
      | _, _ => None
      end
  | WMoveAssign dst src =>
      match nth_error (w_objs w) dst, nth_error (w_objs w) src with
      | Some (Some _), Some (Some o) =>
          match w_set w dst (Some (RObj (o_degree o) (o_data o))) (w_heap w) with
          | Some w1 => option_map Ok (w_set w1 src (Some (RObj 0 None)) (w_heap w))
          | None => None
          end
      | _, _ => None
      end
  | WDestroy v =>
      match nth_error (w_objs w) v with
      | Some (Some o) =>
          match o_deallocate (w_heap w) o with
          | UB => Some UB
          | Ok hp => option_map Ok (w_set w v None hp)
          end
      | _ => None
      end
  end.

Fixpoint w_run (w : world) (ops : list wop) : option (outcome world) :=
  match ops with
  | [] => Some (Ok w)
  | o :: r => match w_step w o with
              | None => None
              | Some UB => Some UB
              | Some (Ok w') => w_run w' r
              end
  end.

Definition w_init (nvars : nat) : world := World (Heap 0 []) (repeat None nvars).

(* A C or S access: index pair inside the live allocation *)
Definition o_access (w : world) (o : robj) (r c : Z) : outcome nat :=
  match o_data o with
  | None => UB
  | Some (a, l) =>
      if (r <? 0) || (c <? 0) then UB else
      do row <- load l (Z.to_nat r);
      if Nat.ltb (Z.to_nat c) (length l) then
        if existsb (Nat.eqb row) (hp_live (w_heap w)) && existsb (Nat.eqb a) (hp_live (w_heap w))
        then Ok row else UB
      else UB
  end.
