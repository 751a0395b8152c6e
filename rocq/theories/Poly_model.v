(* Model of src/filters/models.hpp (LinearModel, PolynomialModel<double>).
   double is R.  Heap arrays hold [option R]: None is an indeterminate value,
   reading one is UB.  The class's copy assignment (models.hpp:51-58) uses
   members that do not exist (operator!=, xref()) and cannot be instantiated;
   it is not modelled.  Orders are >= 0 (a negative size makes new[] throw
   inside a noexcept constructor). *)
From Coq Require Import List Reals.
From Verif Require Import Base.
Import ListNotations.

(* models.hpp:11-17 *)
Definition linear_value (xref a b x : R) : R := (a + b * (x - xref))%R.

(* heap: array id -> content, None = released *)
Definition pheap := list (option (list (option R))).
Definition p_alloc (h : pheap) (n : nat) : nat * pheap := (length h, h ++ [Some (repeat None n)]).
(* delete[] of something not live is UB *)
Definition p_free (h : pheap) (i : nat) : outcome pheap :=
  match nth_error h i with
  | Some (Some _) => store h i None
  | _ => UB
  end.
Definition p_read (h : pheap) (i : nat) : outcome (list (option R)) :=
  match nth_error h i with Some (Some a) => Ok a | _ => UB end.

(* models.hpp:20-23 *)
Record pobj := PObj { p_order : nat; p_ref : option R; p_cf : nat }.
Record pworld := PWorld { pw_heap : pheap; pw_objs : list (option pobj) }.

Inductive pop :=
| PNew (v order : nat)             (* models.hpp:41-42 *)
| PSetCoef (v i : nat) (x : R)     (* cf[i] = x *)
| PSetRef (v : nat) (x : R)        (* xref = x *)
| PResize (v order : nat)          (* models.hpp:25-31 *)
| PCopyNew (dst src : nat)         (* models.hpp:46-49 *)
| PMoveNew (dst src : nat)         (* models.hpp:60-61 *)
| PMoveAssign (dst src : nat)      (* models.hpp:63-68 *)
| PDestroy (v : nat).              (* models.hpp:44 *)

Definition pw_set (w : pworld) (h : pheap) (v : nat) (o : option pobj) : option pworld :=
  match upd (pw_objs w) v o with Some l => Some (PWorld h l) | None => None end.

(* None = not a legal C++ history (object used outside its lifetime) *)
Definition p_step (w : pworld) (op : pop) : option (outcome pworld) :=
  match op with
  | PNew v n =>
      match nth_error (pw_objs w) v with
      | Some None => let (a, h) := p_alloc (pw_heap w) (n + 1) in
                     option_map Ok (pw_set w h v (Some (PObj n None a)))
      | _ => None
      end
  | PSetCoef v i x =>
      match nth_error (pw_objs w) v with
      | Some (Some o) =>
          match (do a <- p_read (pw_heap w) (p_cf o);
                 do a' <- store a i (Some x);
                 store (pw_heap w) (p_cf o) (Some a')) with
          | UB => Some UB
          | Ok h => Some (Ok (PWorld h (pw_objs w)))
          end
      | _ => None
      end
  | PSetRef v x =>
      match nth_error (pw_objs w) v with
      | Some (Some o) => option_map Ok (pw_set w (pw_heap w) v (Some (PObj (p_order o) (Some x) (p_cf o))))
      | _ => None
      end
  | PResize v n =>
      match nth_error (pw_objs w) v with
      | Some (Some o) =>
          if Nat.eqb n (p_order o) then Some (Ok w)
          else match p_free (pw_heap w) (p_cf o) with
               | UB => Some UB
               | Ok h => let (a, h') := p_alloc h (n + 1) in
                         option_map Ok (pw_set w h' v (Some (PObj n (p_ref o) a)))
               end
      | _ => None
      end
  | PCopyNew dst src =>
      match nth_error (pw_objs w) dst, nth_error (pw_objs w) src with
      | Some None, Some (Some o) =>
          let (a, h) := p_alloc (pw_heap w) (p_order o + 1) in
          match p_read h (p_cf o) with
          | UB => Some UB
          | Ok cs =>
              (* memcpy of order+1 doubles *)
              if Nat.ltb (length cs) (p_order o + 1) then Some UB
              else match store h a (Some (firstn (p_order o + 1) cs)) with
                   | UB => Some UB
                   | Ok h' => option_map Ok (pw_set w h' dst (Some (PObj (p_order o) (p_ref o) a)))
                   end
          end
      | _, _ => None
      end
  | PMoveNew dst src =>
      match nth_error (pw_objs w) dst, nth_error (pw_objs w) src with
      | Some None, Some (Some o) =>
          option_map Ok (pw_set w (pw_heap w) dst (Some (PObj (p_order o) (p_ref o) (p_cf o))))
      | _, _ => None
      end
  | PMoveAssign dst src =>
      match nth_error (pw_objs w) dst, nth_error (pw_objs w) src with
      | Some (Some _), Some (Some o) =>
          option_map Ok (pw_set w (pw_heap w) dst (Some (PObj (p_order o) (p_ref o) (p_cf o))))
      | _, _ => None
      end
  | PDestroy v =>
      match nth_error (pw_objs w) v with
      | Some (Some o) =>
          if Nat.eqb (p_order o) 0 then option_map Ok (pw_set w (pw_heap w) v None)
          else match p_free (pw_heap w) (p_cf o) with
               | UB => Some UB
               | Ok h => option_map Ok (pw_set w h v None)
               end
      | _ => None
      end
  end.

Fixpoint p_run (w : pworld) (ops : list pop) : option (outcome pworld) :=
  match ops with
  | [] => Some (Ok w)
  | o :: r => match p_step w o with
              | None => None
              | Some UB => Some UB
              | Some (Ok w') => p_run w' r
              end
  end.
Definition pw_init (n : nat) : pworld := PWorld [] (repeat None n).

(* models.hpp:72-81: y = cf[0]; tpower = t; for i = 1.._order: y += cf[i]*tpower, tpower *= t *)
Definition p_load (cs : list (option R)) (i : nat) : outcome R :=
  do c <- load cs i; of_option c.
Fixpoint p_loop (cs : list (option R)) (t y tpower : R) (i k : nat) : outcome R :=
  match k with
  | O => Ok y
  | S k' => do c <- p_load cs i; p_loop cs t (y + c * tpower)%R (tpower * t)%R (S i) k'
  end.
Definition p_value_at (w : pworld) (v : nat) (x : R) : option (outcome R) :=
  match nth_error (pw_objs w) v with
  | Some (Some o) =>
      Some (do xref <- of_option (p_ref o);
            do cs <- p_read (pw_heap w) (p_cf o);
            let t := (x - xref)%R in
            do y <- p_load cs 0;
            p_loop cs t y t 1 (p_order o))
  | _ => None
  end.
