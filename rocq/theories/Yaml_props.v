(* The properties of the configuration lookups. *)
From Coq Require Import String List Ascii ZArith.
Require Import Verif.Base Verif.CLib_model Verif.Yaml_model Verif.Yaml_proofs.
Import ListNotations.

(* C94: the lookup of a value under two keys returns 0 and the value the document holds there, or 1 and
   leaves val alone; it never throws *)
Theorem configured_value : forall node index T as_ root k1 k2 val,
  (forall v, holds index as_ root [k1; k2] v -> value_depth2 node index T as_ root k1 k2 val = (Returned 0, v))
  /\ (holds_none index as_ root [k1; k2] -> value_depth2 node index T as_ root k1 k2 val = (Returned 1, val)).
Proof. exact value2_ok. Qed.
Print Assumptions configured_value.

(* C94: the same under three keys, when the first lookup does not throw.  Missing: a code otherwise. *)
Theorem configured_value_deep_partial : forall node index T as_ root k1 k2 k3 val n, index root k1 = Some n ->
  (forall v, holds index as_ root [k1; k2; k3] v -> value_depth3 node index T as_ root k1 k2 k3 val = (Returned 0, v))
  /\ (holds_none index as_ root [k1; k2; k3] -> value_depth3 node index T as_ root k1 k2 k3 val = (Returned 1, val)).
Proof. exact value3_ok. Qed.
Print Assumptions configured_value_deep_partial.

(* C94: a document that is not a map: an exception leaves the lookup under three keys instead of a code *)
Theorem configured_value_deep_refuted : exists root k1 k2 k3 val buf,
  holds_none doc_index doc_text root [k1; k2; k3]
  /\ value_depth3 doc doc_index chars doc_text root k1 k2 k3 val = (Thrown, val)
  /\ text_depth3 doc doc_index doc_text root k1 k2 k3 buf = Ok (Thrown, buf).
Proof.
  exists (Scalar (ch "text")), (ch "a"), (ch "b"), (ch "c"), [], []. refine (conj _ (conj eq_refl eq_refl)).
  intros v (m & U & _). inversion U as [|? ? ? ? ? E]. discriminate E.
Qed.
Print Assumptions configured_value_deep_refuted.

(* C94: the lookup of a text that fits the array returns 0 with the array holding it as a C string, the
   bytes behind it untouched, or 1 with the array untouched.  Missing: texts that do not fit. *)
Theorem configured_text_partial : forall node index as_string root k1 k2 buf,
  (forall s, holds index as_string root [k1; k2] s -> ~ In nul s -> length s < length buf ->
     exists b, text_depth2 node index as_string root k1 k2 buf = Ok (Returned 0, b) /\ c_string buf b s)
  /\ (holds_none index as_string root [k1; k2] ->
     text_depth2 node index as_string root k1 k2 buf = Ok (Returned 1, buf)).
Proof. exact text2_ok. Qed.
Print Assumptions configured_text_partial.

(* C94: and under three keys, when the first lookup does not throw *)
Theorem configured_text_deep_partial : forall node index as_string root k1 k2 k3 buf n, index root k1 = Some n ->
  (forall s, holds index as_string root [k1; k2; k3] s -> ~ In nul s -> length s < length buf ->
     exists b, text_depth3 node index as_string root k1 k2 k3 buf = Ok (Returned 0, b) /\ c_string buf b s)
  /\ (holds_none index as_string root [k1; k2; k3] ->
     text_depth3 node index as_string root k1 k2 k3 buf = Ok (Returned 1, buf)).
Proof. exact text3_ok. Qed.
Print Assumptions configured_text_deep_partial.

(* C94: for every size of the array there is a document whose text is written past its end *)
Theorem configured_text_refuted : forall buf, exists root k1 k2,
  text_depth2 doc doc_index doc_text root k1 k2 buf = UB.
Proof.
  intros buf. exists (Map [(ch "data", Map [(ch "sp3", Scalar (repeat "a"%char (length buf)))])]), (ch "data"), (ch "sp3").
  apply (text2_long _ _ _ _ _ _ _ (repeat "a"%char (length buf))).
  - exists (Scalar (repeat "a"%char (length buf))). split; [|reflexivity].
    econstructor; [reflexivity|]. econstructor; [reflexivity|]. constructor.
  - intros I. apply repeat_spec in I. discriminate I.
  - now rewrite repeat_length.
Qed.
Print Assumptions configured_text_refuted.

(* the document of the comments in var_utils.hpp *)
Example documented_value : holds doc_index doc_text ex_doc [ch "data"; ch "b-coeff"] (ch "4")
  /\ text_depth2 doc doc_index doc_text ex_doc (ch "data") (ch "b-coeff") (repeat "x"%char 4)
     = Ok (Returned 0, ["4"; nul; "x"; "x"]%char).
Proof.
  split; [|reflexivity]. exists (Scalar (ch "4")). split; [|reflexivity].
  econstructor; [reflexivity|]. econstructor; [reflexivity|]. constructor.
Qed.
Example documented_deep_value : exists n, doc_index ex_doc (ch "model") = Some n
  /\ value_depth3 doc doc_index chars doc_text ex_doc (ch "model") (ch "bar") (ch "koko") [] = (Returned 0, ch "1")
  /\ value_depth3 doc doc_index chars doc_text ex_doc (ch "model") (ch "bar") (ch "none") [] = (Returned 1, []).
Proof. eexists. repeat split. Qed.
