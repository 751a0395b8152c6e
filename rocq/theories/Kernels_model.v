(* Model of src/planets/cspice_utils.cpp.  The kernel pool of the CSPICE toolkit is external: it
   is the list of the loaded files in the order of loading.  ktotal_c and kdata_c see the files of
   one kind; furnsh_c appends the file (also when it is already there) with the kind found in the
   file itself, here the argument [kind_of].  File names have no NUL. *)
From Coq Require Import List Arith Ascii Bool.
From Verif Require Import CLib_model.
Import ListNotations.

(* the kinds of ktotal_c: text kernels of every content, binary SPK, binary PCK *)
Inductive kind := Text | Spk | Pck.
Definition kind_eqb (a b : kind) : bool :=
  match a, b with Text, Text | Spk, Spk | Pck, Pck => true | _, _ => false end.
Record kernel := Kernel { k_kind : kind; k_name : chars }.
Definition pool := list kernel.

(* cspice_utils.cpp:4 *)
Definition FILLEN : nat := 128.
(* ktotal_c, kdata_c: the names of the loaded files of a kind, as far as they fit the buffer *)
Definition names (k : kind) (p : pool) : list chars :=
  map (fun f => firstn (FILLEN - 1) (k_name f)) (filter (fun f => kind_eqb (k_kind f) k) p).
Fixpoint same_chars (a b : chars) : bool :=
  match a, b with
  | [], [] => true
  | x :: a', y :: b' => Ascii.eqb x y && same_chars a' b'
  | _, _ => false
  end.
(* !strncmp(file, name, strlen(name)) *)
Definition begins (file name : chars) : bool := same_chars (firstn (length name) file) name.

(* cspice_utils.cpp:8-73: the three functions differ in the kind asked for *)
Definition load_if_unloaded (kind_of : chars -> kind) (k : kind) (name : chars) (p : pool) : pool :=
  if existsb (fun file => begins file name) (names k p) then p
  else p ++ [Kernel (kind_of name) name].
Definition load_lsk (kind_of : chars -> kind) := load_if_unloaded kind_of Text.
Definition load_spk (kind_of : chars -> kind) := load_if_unloaded kind_of Spk.
Definition load_pck (kind_of : chars -> kind) := load_if_unloaded kind_of Pck.
