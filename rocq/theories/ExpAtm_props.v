From Coq Require Import List ZArith Reals Lra Lia.
From Verif Require Import Base ExpAtm_model ExpAtm_proofs.
Local Open Scope R_scope.

(* C52: every altitude lies in exactly one layer of the model *)
Theorem one_layer : forall h, 0 <= h -> exists k, row_of h k /\ forall j, row_of h j -> j = k.
Proof. intros h H. destruct (row_exists h H) as [k R]. exists k. split; [exact R|]. intros j J. exact (row_unique h j k J R). Qed.
Print Assumptions one_layer.
(* C52 (partial): outside 180-200 km the density is the one of the published model, up to altitudes an int can hold.  Missing: the layer from 180 to 200 km, whose scale height is mistyped *)
Theorem density_published_partial : forall h, 0 < h < int_max -> ~ (180 <= h < 200) -> exists d, density h = Ok (Some d) /\ reference h d.
Proof. exact density_reference. Qed.
Print Assumptions density_published_partial.
Example density_published_example : 0 < 1336 < int_max /\ ~ (180 <= 1336 < 200) /\ row_of 1336 27.
Proof. unfold int_max. split; [lra|]. split; [lra|]. exists 1000%Z, 3.019e-15, 268.00. split; [reflexivity|]. split; [lra|]. intros ? ? ? E. cbn in E. discriminate. Qed.
(* C52: the published density is a single value *)
Theorem published_density_unique : forall h d d', reference h d -> reference h d' -> d = d'.
Proof. exact reference_unique. Qed.
Print Assumptions published_density_unique.
(* C52: at 199 km the density is more than 1.7 times the published one *)
Theorem density_published_refuted : exists h d d', density h = Ok (Some d) /\ reference h d' /\ 17 / 10 * d' < d.
Proof. exact between_180_200. Qed.
Print Assumptions density_published_refuted.
(* C52: there is a density for every positive altitude an int can hold, it is positive, and other altitudes stop the program *)
Theorem density_defined : forall h, 0 < h < int_max -> exists d, density h = Ok (Some d).
Proof. exact density_total. Qed.
Print Assumptions density_defined.
Theorem density_positive : forall h d, density h = Ok (Some d) -> 0 < d.
Proof. exact density_pos. Qed.
Print Assumptions density_positive.
Theorem density_below_ground : forall h, h <= 0 -> density h = Ok None.
Proof. exact density_assert. Qed.
Print Assumptions density_below_ground.
(* C52: within a layer the density strictly decreases with the altitude *)
Theorem density_falls : forall h h' k d d', 0 < h -> h < h' < int_max -> row_of h k -> row_of h' k -> density h = Ok (Some d) -> density h' = Ok (Some d') -> d' < d.
Proof. exact density_decreasing. Qed.
Print Assumptions density_falls.
Example density_falls_example : row_of 800 25 /\ row_of 899 25.
Proof. split; exists 800%Z, 1.170e-14, 124.64; (split; [reflexivity|]; split; [lra|]; intros ? ? ? E; cbn in E; injection E as <- _ _; lra). Qed.
