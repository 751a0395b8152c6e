From Coq Require Import List Reals ZArith QArith Qreals Bool Lia Lra.
From Verif Require Import Base Kalman2_model Kalman2_proofs RfoKalman_model RfoKalman_proofs.
Import ListNotations.
Local Open Scope Z_scope.

(* C92: files that are read to their ends: code 0 and the line printed is the only one of least cost for
   all values of F of all files, with the first value and a slope of 3 per day as prior *)
Theorem frequency_line : forall files obss z0 t0 obs0 rest sx sv sz, Forall2 good_file files obss -> obss = ((z0, t0) :: obs0) :: rest ->
  (0 < sx)%R -> (0 < sv)%R -> (0 < sz)%R ->
  exists k, fit_relative_frequency_offset files sx sv sz = Ok (Done 0 (Some k)) /\
    forall a b, (cost (Setup z0 3 sx sv sz t0) (concat obss) (lk_x0 k) (lk_x1 k) <= cost (Setup z0 3 sx sv sz t0) (concat obss) a b)%R /\
      (cost (Setup z0 3 sx sv sz t0) (concat obss) a b = cost (Setup z0 3 sx sv sz t0) (concat obss) (lk_x0 k) (lk_x1 k) -> a = lk_x0 k /\ b = lk_x1 k).
Proof.
  intros files obss z0 t0 obs0 rest sx sv sz F E X V Z. eexists. split; [exact (fit_ok files obss z0 t0 obs0 rest sx sv sz F E)|].
  assert (S : setup_ok (Setup z0 3 sx sv sz t0)) by (split; [exact X|split; [exact V|exact Z]]).
  exact (lk_optimal _ (concat obss) S).
Qed.
Print Assumptions frequency_line.
Definition two_beacons (t : Z) (f : Q) := Block t [[1%Q; f]; [2%Q; f]].
Definition day1 := File (Some 1%nat) [two_beacons 0 5; two_beacons 10000000000 6] true.
Definition day2 := File (Some 0%nat) [Block 86400000000000 [[7%Q]]] true.
Example frequency_line_case : Forall2 good_file [day1; day2] [[(Q2R 5, 0); (Q2R 6, 10000000000)]; [(Q2R 7, 86400000000000)]].
Proof.
  assert (G : forall i t bs v, bs <> [] -> Forall (fun b => exists w, nth_error b i = Some w /\ (w == v)%Q) bs -> gives i (Block t bs) (Q2R v, t)).
  { intros i t bs v N F. exists v, bs. repeat split; [exact N|exact F]. }
  repeat constructor.
  - eexists. eexists. split; [reflexivity|]. repeat constructor; apply G; try discriminate; repeat constructor; eexists; (split; [reflexivity|reflexivity]).
  - eexists. eexists. split; [reflexivity|]. repeat constructor; apply G; try discriminate; repeat constructor; eexists; (split; [reflexivity|reflexivity]).
Qed.
(* C92: 0 is returned only if every file was read to its end and has one value of F in each block *)
Theorem frequency_line_complete : forall files sx sv sz v, fit_relative_frequency_offset files sx sv sz = Ok (Done 0 v) ->
  files <> [] /\ v <> None /\ exists obss, Forall2 good_file files obss.
Proof. exact fit_inv. Qed.
Print Assumptions frequency_line_complete.
(* C92: what can happen: 0 with a line, 1, or the end of the program when the first file cannot be read *)
Theorem frequency_line_codes : forall files sx sv sz r, fit_relative_frequency_offset files sx sv sz = Ok r ->
  (exists k, r = Done 0 (Some k)) \/ r = Done 1 None \/ (r = Terminated /\ exists rest, files = Throws :: rest).
Proof. exact fit_code. Qed.
Print Assumptions frequency_line_codes.
(* C92: nothing undefined as long as there are files and no block is without beacons *)
Theorem frequency_line_defined : forall files sx sv sz, files <> [] -> Forall complete files -> fit_relative_frequency_offset files sx sv sz <> UB.
Proof. exact fit_defined. Qed.
Print Assumptions frequency_line_defined.
Example frequency_line_defined_case : Forall complete [day1; day2; Throws; File (Some 0%nat) [BadData] true].
Proof. repeat constructor; try discriminate; cbn; lia. Qed.
(* C92: a first file that cannot be read ends the program, though the caller catches the exception;
   the same file in the second place gives 1 *)
Theorem first_file_refuted : fit_relative_frequency_offset [Throws] 1 1 1 = Ok Terminated /\
  fit_relative_frequency_offset [day1; Throws] 1 1 1 = Ok (Done 1 None).
Proof. split; reflexivity. Qed.
Print Assumptions first_file_refuted.
(* C92: a block without beacons, or no file, is undefined behaviour *)
Theorem empty_block_refuted : fit_relative_frequency_offset [File (Some 0%nat) [Block 0 []] true] 1 1 1 = UB /\ fit_relative_frequency_offset [] 1 1 1 = UB.
Proof. split; reflexivity. Qed.
Print Assumptions empty_block_refuted.
(* C92: the first value is both prior and observation: from one observation of variance 1 comes a value
   of variance 1/2 *)
Theorem first_value_twice_refuted : exists f obs k, good_file f [obs] /\ fit_relative_frequency_offset [f] 1 1 1 = Ok (Done 0 (Some k)) /\ lk_P0 k = (/ 2)%R.
Proof.
  exists (File (Some 0%nat) [Block 0 [[7%Q]]] true), (Q2R 7, 0). eexists. split; [|split].
  - eexists. eexists. split; [reflexivity|]. repeat constructor. exists 7%Q, [[7%Q]]. repeat split; [discriminate|]. repeat constructor. eexists. split; reflexivity.
  - reflexivity.
  - cbn. unfold lk_t2d. cbn. field.
Qed.
Print Assumptions first_value_twice_refuted.
