(* Model of src/doris/extract_doppler_count.cpp.
   A beacon id is an array of exactly three chars with no terminator
   (doris_rinex.hpp:69-71); std::strcmp and printf %s run past it.  [pad] is
   what memory holds behind every such array: [] is the C++ rule (reading on is
   UB), a pad starting with NUL is the benign layout.  Reading the file is
   abstracted to the sequence of read results; values are exact rationals,
   epochs integer nanoseconds. *)
From Coq Require Import List Ascii ZArith QArith Bool.
From Verif Require Import Base CLib_model.
Import ListNotations.

(* doris_rinex.hpp:69-88, extract_doppler_count.cpp:10-13 *)
Record bobs := BObs { bo_id : chars; bo_vals : list Q }.
Record bdata := BData { bd_obs : bobs; bd_t : Z }.

(* std::strcmp(a,b) = 0 on raw memory; UB when either runs out *)
Fixpoint strcmp_eq (a b : chars) : outcome bool :=
  match a, b with
  | x :: a', y :: b' =>
      if Ascii.eqb x y then (if Ascii.eqb x nul then Ok true else strcmp_eq a' b') else Ok false
  | _, _ => UB
  end.
(* printf("%s") *)
Fixpoint print_str (a : chars) : outcome chars :=
  match a with
  | [] => UB
  | x :: a' => if Ascii.eqb x nul then Ok [] else do r <- print_str a'; Ok (x :: r)
  end.

Section Mem.
Variable pad : chars.
Definition mem (id : chars) : chars := id ++ pad.

(* the std::find_if of lines 22-25 and 48-51: index of the first entry *)
Fixpoint find_beacon (data : list bdata) (id : chars) (i : nat) : outcome (option nat) :=
  match data with
  | [] => Ok None
  | d :: r => do e <- strcmp_eq (mem (bo_id (bd_obs d))) (mem id);
              if e then Ok (Some i) else find_beacon r id (S i)
  end.

(* one printed line: id, epoch, dl1, dl2, elapsed nanoseconds *)
Record ndop := NDop { nd_id : chars; nd_t : Z; nd_dl1 : Q; nd_dl2 : Q; nd_dt : Z }.

(* lines 19-35 *)
Fixpoint compute_ndop (obs : list bobs) (t : Z) (data : list bdata) : outcome (list ndop) :=
  match obs with
  | [] => Ok []
  | o :: r =>
      do f <- find_beacon data (bo_id o) 0;
      do here <- match f with
                 | None => Ok []
                 | Some i =>
                     do d <- load data i;
                     do n1 <- load (bo_vals o) 0;
                     do o1 <- load (bo_vals (bd_obs d)) 0;
                     do n2 <- load (bo_vals o) 1;
                     do o2 <- load (bo_vals (bd_obs d)) 1;
                     do s <- print_str (mem (bo_id o));
                     Ok [NDop s t (n1 - o1) (n2 - o2) (t - bd_t d)]
                 end;
      do rest <- compute_ndop r t data;
      Ok (here ++ rest)
  end.

(* lines 45-60 *)
Fixpoint update (obs : list bobs) (t : Z) (data : list bdata) : outcome (list bdata) :=
  match obs with
  | [] => Ok data
  | o :: r =>
      do f <- find_beacon data (bo_id o) 0;
      do data' <- match f with
                  | None => Ok (data ++ [BData o t])
                  | Some i => store data i (BData o t)
                  end;
      update r t data'
  end.

(* what resolve_data_epoch / read_data_block report for successive blocks *)
Inductive rd := RdBlock (t : Z) (obs : list bobs) | RdHdrErr | RdDataErr.

(* lines 120-159: loop; result code, printed lines, final table *)
Fixpoint count_loop (rs : list rd) (eof : bool) (data : list bdata) (out : list ndop)
  : outcome (Z * list ndop * list bdata) :=
  match rs with
  | [] => Ok ((if eof then 0 else 1)%Z, out, data)
  | RdHdrErr :: _ => Ok (2%Z, out, data)
  | RdDataErr :: _ => Ok (3%Z, out, data)
  | RdBlock t obs :: r =>
      do p <- compute_ndop obs t data;
      do data' <- update obs t data;
      count_loop r eof data' (out ++ p)
  end.
(* lines 65-160 *)
Definition get_doppler_counts (rs : list rd) (eof : bool) : outcome (Z * list ndop * list bdata) :=
  match rs with
  | [] => Ok (1%Z, [], [])
  | RdHdrErr :: _ => Ok (2%Z, [], [])
  | RdDataErr :: _ => Ok (3%Z, [], [])
  | RdBlock t obs :: r =>
      do data <- update obs t [];
      count_loop r eof data []
  end.
End Mem.
