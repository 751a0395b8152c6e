(* Model of get_starting_rfo, get_rinex_rfo and fit_relative_frequency_offset,
   src/doris/fit_rfo.cpp:87-280, around the filter of Kalman2_model.v.  A RINEX file is what its
   reading functions deliver (they are modelled in Rinex_model.v): the constructor throws, or there is
   a list of attempts to read a block, ended by the end of the file or by another failure of the
   stream.  Values of F are rationals. *)
From Coq Require Import List Reals ZArith QArith Qreals Bool.
From Verif Require Import Base Kalman2_model.
Import ListNotations.
Local Open Scope Z_scope.

(* a line was read and: its header is not one; the data are not ones; a block, with the values of each
   beacon *)
Inductive attempt := BadHeader | BadData | Block (epoch : Z) (obs : list (list Q)).
Inductive file := Throws | File (findex : option nat) (attempts : list attempt) (eof : bool).
(* a function returns code and value, throws, or the program is terminated *)
Inductive done (A : Type) := Done (code : Z) (v : A) | Raised | Terminated.
Arguments Done {A}. Arguments Raised {A}. Arguments Terminated {A}.

(* obsvec[0].m_values[findex].m_value *)
Definition first_value (obs : list (list Q)) (findex : nat) : outcome Q :=
  match obs with [] => UB | o :: _ => load o findex end.
(* fit_rfo.cpp:87-133; the function is noexcept.  Without a line the buffer is empty and not a header *)
Definition get_starting_rfo (f : file) : outcome (done (option (Q * Z))) :=
  match f with
  | Throws => Ok Terminated
  | File None _ _ => Ok (Done 1 None)
  | File (Some i) (Block t obs :: _) _ => do v <- first_value obs i; Ok (Done 0 (Some (v, t)))
  | File (Some i) _ _ => Ok (Done 1 None)
  end.
(* fit_rfo.cpp:182-189 *)
Fixpoint all_equal (i : nat) (v : Q) (obs : list (list Q)) : outcome bool :=
  match obs with
  | [] => Ok true
  | o :: r => do w <- load o i; if Qeq_bool w v then all_equal i v r else Ok false
  end.
(* fit_rfo.cpp:158-200: code and filter *)
Fixpoint read_all (i : nat) (k : lk) (l : list attempt) (eof : bool) : outcome (Z * lk) :=
  match l with
  | [] => Ok (if eof then 0 else 1, k)
  | BadHeader :: _ | BadData :: _ => Ok (1, k)
  | Block t obs :: r =>
      do v <- first_value obs i;
      do same <- all_equal i v obs;
      if same then read_all i (lk_update k (Q2R v) t) r eof else Ok (1, k)
  end.
(* fit_rfo.cpp:135-209 *)
Definition get_rinex_rfo (f : file) (k : lk) : outcome (done lk) :=
  match f with
  | Throws => Ok Raised
  | File None _ _ => Ok (Done 1 k)
  | File (Some i) l eof => do r <- read_all i k l eof; Ok (Done (fst r) (snd r))
  end.
(* fit_rfo.cpp:244-263 *)
Fixpoint all_files (k : lk) (l : list file) : outcome (done lk) :=
  match l with
  | [] => Ok (Done 0 k)
  | f :: r =>
      do d <- get_rinex_rfo f k;
      match d with
      | Done 0 k' => all_files k' r
      | Done c k' => Ok (Done c k')
      | Raised => Ok (Done 1 k)
      | Terminated => Ok Terminated
      end
  end.
(* fit_rfo.cpp:211-280: the code; with 0 the filter whose coefficients are printed.  The first name is
   used without looking at the number of names *)
Definition fit_relative_frequency_offset (files : list file) (sigma_x sigma_vx sigma_z : R) : outcome (done (option lk)) :=
  match files with
  | [] => UB
  | f0 :: _ =>
      do s <- get_starting_rfo f0;
      match s with
      | Done 0 (Some (v, t)) =>
          do d <- all_files (lk_init (Q2R v) 3 sigma_x sigma_vx sigma_z t) files;
          match d with
          | Done 0 k => Ok (Done 0 (Some k))
          | Done c _ => Ok (Done c None)
          | Raised => Ok Raised
          | Terminated => Ok Terminated
          end
      | Done _ _ => Ok (Done 1 None)
      | Raised => Ok (Done 1 None)
      | Terminated => Ok Terminated
      end
  end.
