(* C103: the parameters of the integration own their work tables. *)
From Coq Require Import List ZArith Reals Lra Lia.
From Verif Require Import Base Vec_model Harmonics_model Gravity_model Gravity_proofs IntParams_model IntParams_proofs.
Import ListNotations.
Local Open Scope R_scope.

(* C103: whatever a program that makes no copies does with the objects that are alive, memory is used correctly, every
   evaluation gives the field of its object whatever was evaluated before and whatever the new tables contained, each
   object that is alive holds two tables and the others none, and the GM of the Sun and the Moon are set.
   Missing: programs that copy (refuted below), builds without assertions (refuted below). *)
Theorem params_history_partial os : proper [] os ->
  exists w rs, history true empty os = Ok (w, rs) /\ seen [] os rs /\ in_use (w_heap w) = (2 * alive (after [] os))%nat /\
    forall i g, nth_error (after [] os) i = Some (Some g) -> exists p, nth_error (w_objs w) i = Some (Some p) /\ p_gm p = Some (g_gm g).
Proof. exact (history_safe os). Qed.
Print Assumptions params_history_partial.
(* two objects, evaluated in turn, one of them gone before the last evaluation *)
Example params_history_case : proper [] [make zeros; make ones; Evaluate 0 up no_mat; Evaluate 1 up no_mat; Destroy 0; Evaluate 1 up no_mat; Destroy 1].
Proof.
  apply make_proper, make_proper. cbn [app].
  assert (N : up <> vzero) by (intros H; apply (f_equal vz) in H; cbn in H; Lra.lra).
  repeat first [apply proper_end | eapply proper_evaluate; [reflexivity|exact N|] | eapply proper_destroy; [reflexivity|cbn [set_at]]].
Qed.

(* C103: a copy shares the tables of the original, and both delete them *)
Theorem params_copy_refuted : exists os, os = [make zeros; Copy 0; Destroy 0; Destroy 1] /\ history true empty os = UB.
Proof. eexists. split; reflexivity. Qed.
Print Assumptions params_copy_refuted.

(* C103: without assertions (NDEBUG) the polynomials are not computed and the GM are not set: two programs that differ
   in nothing but the contents of fresh memory give different accelerations *)
Theorem params_ndebug_refuted : exists os1 os2 a P1 b P2 w1 w2 p, history false empty os1 = Ok (w1, [Done; Value a P1]) /\ history false empty os2 = Ok (w2, [Done; Value b P2]) /\
  os1 = [make zeros; Evaluate 0 up no_mat] /\ os2 = [make ones; Evaluate 0 up no_mat] /\ a <> b /\ nth_error (w_objs w1) 0 = Some (Some p) /\ p_gm p = None.
Proof. exact ndebug_junk. Qed.
Print Assumptions params_ndebug_refuted.

(* C103: a degree that is not that of the harmonics is refused by an assertion: nothing changes, and nothing follows; without
   assertions the object is made all the same *)
Theorem params_degree_check : forall w degree order h Re GM gm junk os, Z.of_nat degree <> h_degree h ->
  history true w (Make degree order h Re GM gm junk :: os) = Ok (w, [Stopped]) /\
  exists w' p, history false w [Make degree order h Re GM gm junk] = Ok (w', [Done]) /\ w_objs w' = w_objs w ++ [Some p] /\ p_degree p = degree /\ p_h p = h.
Proof.
  intros w degree order h Re GM gm junk os N. apply Z.eqb_neq in N. split; [unfold history, step; rewrite N; reflexivity|].
  eexists _, _. split; [reflexivity|]. split; [reflexivity|]. split; reflexivity.
Qed.
Print Assumptions params_degree_check.
Example params_degree_case : Z.of_nat 3 <> h_degree ex_coeff.
Proof. discriminate. Qed.
