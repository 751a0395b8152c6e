From Coq Require Import String List Arith Ascii Bool.
From Verif Require Import CLib_model Kernels_model Kernels_proofs.
Import ListNotations.

(* C58: load_lsk, load_spk, load_pck: a file of the right kind, with a name of at most 127 characters that does not begin the longer name of a
   loaded file, is in the pool afterwards, exactly once if it was there at most once; nothing else changes and a
   second call does nothing.  Missing: the other names and kinds, refuted below *)
Theorem kernel_loaded_partial : forall kind_of k name p, kind_of name = k -> length name <= 127 ->
  (forall f, In f p -> k_kind f = k -> ~ proper_prefix name (k_name f)) ->
  let q := loader k kind_of name p in
  times (Kernel k name) q = max 1 (times (Kernel k name) p) /\ (forall f, f <> Kernel k name -> times f q = times f p) /\ loader k kind_of name q = q.
Proof. exact loader_good. Qed.
Print Assumptions kernel_loaded_partial.
Example kernel_loaded_case : let name := list_ascii_of_string "de421.bsp" in let p := [Kernel Text (list_ascii_of_string "naif0012.tls")] in
  (forall f, In f p -> k_kind f = Spk -> ~ proper_prefix name (k_name f)) /\ length name <= 127 /\ times (Kernel Spk name) (load_spk (fun _ => Spk) name p) = 1.
Proof. split; [|split; [apply Nat.leb_le; reflexivity|reflexivity]]. intros f [<-|[]]. discriminate. Qed.
(* C58: every call keeps what is loaded and adds at most the file asked for *)
Theorem kernels_kept : forall kind_of k name p, exists q, loader k kind_of name p = p ++ q /\ length q <= 1 /\ Forall (fun f => k_name f = name) q.
Proof. exact loader_grows. Qed.
Print Assumptions kernels_kept.
(* C58: a loaded file with a longer name hides the one asked for *)
Theorem kernel_prefix_refuted : exists kind_of name p, kind_of name = Spk /\ length name <= 127 /\ times (Kernel Spk name) (load_spk kind_of name p) = 0.
Proof. exists (fun _ => Spk), (list_ascii_of_string "de421.bsp"), [Kernel Spk (list_ascii_of_string "de421.bsp.old")]. split; [reflexivity|]. split; [apply Nat.leb_le; vm_compute; reflexivity|vm_compute; reflexivity]. Qed.
Print Assumptions kernel_prefix_refuted.
(* C58: a text PCK is not counted with the binary ones and is loaded again by every call *)
Theorem kernel_text_pck_refuted : exists kind_of name, times (Kernel Text name) (load_pck kind_of name (load_pck kind_of name [])) = 2.
Proof. exists (fun _ => Text), (list_ascii_of_string "gm_de431.tpc"). vm_compute. reflexivity. Qed.
Print Assumptions kernel_text_pck_refuted.
(* C58: a name of 128 characters does not fit the buffer and is loaded again by every call *)
Theorem kernel_long_name_refuted : exists name, length name = 128 /\ times (Kernel Spk name) (load_spk (fun _ => Spk) name (load_spk (fun _ => Spk) name [])) = 2.
Proof. exists (repeat "a"%char 128). split; vm_compute; reflexivity. Qed.
Print Assumptions kernel_long_name_refuted.
