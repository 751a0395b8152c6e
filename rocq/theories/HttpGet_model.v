(* Model of src/web/http_get.cpp.  libcurl and the file system are external.  What is at the
   local path is a [node]; whether it can be opened for writing and removed is given with it, and
   a transfer is its libcurl status with the bytes that reached the disk by the time fclose
   returned (whose own result is not looked at, line 62). *)
From Coq Require Import List ZArith Ascii Bool.
From Verif Require Import CLib_model.
Import ListNotations.
Local Open Scope Z_scope.

Inductive node := Missing | File (content : chars) | Dir (empty : bool).
Record place := Place { p_node : node; p_open : bool; p_remove : bool }.
Record transfer := Transfer { t_status : Z; t_body : chars; t_kept : chars }.

(* http_get.cpp:18-22 *)
Definition file_exists (n : node) : bool := match n with File _ => true | _ => false end.
(* fopen(local, "wb"): not on a directory; truncates *)
Definition open_write (p : place) : option node :=
  match p_node p with Dir _ => None | _ => if p_open p then Some (File []) else None end.
(* remove(local): files, and directories that are empty *)
Definition remove (can : bool) (n : node) : node :=
  match n with
  | File _ => if can then Missing else n
  | Dir true => if can then Missing else n
  | _ => n
  end.
(* http_get.cpp:24-76: return value, what is at the path afterwards, whether the network was used *)
Definition http_get (force : bool) (p : place) (t : transfer) : Z * node * bool :=
  if negb force && file_exists (p_node p) then (-1, p_node p, false)
  else
    let '(status, n, used) :=
      match open_write p with
      | Some _ => (t_status t, File (t_kept t), true)
      | None => (1, p_node p, false)
      end in
    let n := if status =? 0 then n else remove (p_remove p) n in
    (if status <? 0 then status * (-1) else status, n, used).
