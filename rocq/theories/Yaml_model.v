(* Model of the configuration lookups, src/var_utils.hpp and src/var/yaml_utils.cpp.  yaml-cpp is an
   argument: indexing a node with a key and converting a node to a type yield a value or throw
   (None).  Copying a YAML::Node or a std::string is taken not to throw. *)
From Coq Require Import List Ascii ZArith.
Require Import Verif.Base Verif.CLib_model Verif.Stream_model.
Import ListNotations.
Local Open Scope Z_scope.

(* how a call ends: it returns a code, or an exception leaves it *)
Inductive ending := Returned (code : Z) | Thrown.

Section Yaml.
Variable node : Type.
(* YAML::Node::operator[](std::string) const *)
Variable index : node -> chars -> option node.

Section Value.
Variable T : Type.
(* YAML::Node::as<T>() *)
Variable as_ : node -> option T.
(* var_utils.hpp:16-18, 40-52: the code and the new val; the function is noexcept, everything thrown
   is caught *)
Definition value_depth2 (root : node) (key1 key2 : chars) (val : T) : ending * T :=
  match index root key1 with
  | None => (Returned 1, val)
  | Some n =>
      match index n key2 with
      | None => (Returned 1, val)
      | Some m => match as_ m with None => (Returned 1, val) | Some v => (Returned 0, v) end
      end
  end.
(* var_utils.hpp:102-107: the first lookup is outside of the try block *)
Definition value_depth3 (root : node) (key1 key2 key3 : chars) (val : T) : ending * T :=
  match index root key1 with
  | None => (Thrown, val)
  | Some n => value_depth2 n key2 key3 val
  end.
End Value.

Variable as_string : node -> option chars.
(* std::strcpy(buf, result.c_str()): up to the first NUL of the string, and the terminator; outside
   of the array it is undefined *)
Definition strcpy (buf text : chars) : outcome chars :=
  if Nat.ltb (length (cstr text)) (length buf) then Ok (into_buffer buf (cstr text)) else UB.
(* yaml_utils.cpp:3-15; buf is the array of the caller, whose size the function does not know *)
Definition text_depth2 (root : node) (key1 key2 buf : chars) : outcome (ending * chars) :=
  match index root key1 with
  | None => Ok (Returned 1, buf)
  | Some n =>
      match index n key2 with
      | None => Ok (Returned 1, buf)
      | Some m =>
          match as_string m with
          | None => Ok (Returned 1, buf)
          | Some text => do b <- strcpy buf text; Ok (Returned 0, b)
          end
      end
  end.
(* var_utils.hpp:111-116 *)
Definition text_depth3 (root : node) (key1 key2 key3 buf : chars) : outcome (ending * chars) :=
  match index root key1 with
  | None => Ok (Thrown, buf)
  | Some n => text_depth2 n key2 key3 buf
  end.
End Yaml.
