(* C82: Earth orientation parameters at a date *)
From Coq Require Import List ZArith QArith Lia Bool Arith Lqa Ascii.
From Verif Require Import Base CLib_model CLib_proofs Stream_model Lines_model Lines_proofs Eop_model Eop_proofs C04_model C04_proofs EopInterp_model EopInterp_proofs.
Import ListNotations.
Local Open Scope Q_scope.

(* C82: each parameter is the interpolated one with its tides added; what the record held before does
   not matter.  Missing: the rotation rate, and failures of the interpolation, refuted below *)
Theorem eop_at_date_partial : forall L t f x r order val om, respects L -> contents t f -> succeeds L t f x order val -> r_omega r = Some om ->
  exists r', interpolate L t x r order = Ok (0%Z, r') /\ r_mjd r' = Some x /\
    is (r_xp r') (val Xp + ocean_x L x + libration_x L x) /\ is (r_yp r') (val Yp + ocean_y L x + libration_y L x) /\
    is (r_dut r') (val Ut1 + zonal_dut L x + ocean_dut L x) /\ is (r_lod r') (val Lod + zonal_lod L x + ocean_lod L x) /\
    is (r_dx r') (val Dx) /\ is (r_dy r') (val Dy) /\ is (r_omega r') (om + zonal_omega L x).
Proof. exact interpolate_ok. Qed.
Print Assumptions eop_at_date_partial.
(* C82: interpolate_lagrange reports every failure, and gives the date only on success *)
Theorem eop_lagrange_reports : forall L t f x r order s r', sane L -> contents t f -> interpolate_lagrange L t x r order = Ok (s, r') ->
  ((exists c, In c interpolated /\ forall idx, (status_of (lagint L (cells_of t f Mjd) (cells_of t f c) x idx order) <> 0)%Z) -> s = 1%Z /\ r_mjd r' = r_mjd r) /\
  (s = 0%Z -> r_mjd r' = Some x) /\ (s = 0%Z \/ s = 1%Z).
Proof. exact lagrange_status. Qed.
Print Assumptions eop_lagrange_reports.
(* C82: interpolate never reports one *)
Theorem eop_never_reports : forall L t x r order s r', interpolate L t x r order = Ok (s, r') -> s = 0%Z.
Proof. exact interpolate_code. Qed.
Print Assumptions eop_never_reports.
Theorem eop_failure_refuted : exists L t x r, sane L /\ built t /\ (exists r1, interpolate_lagrange L t x r 5 = Ok (1%Z, r1)) /\
  exists r2, interpolate L t x r 5 = Ok (0%Z, r2) /\ r_mjd r2 = Some x /\ is (r_dx r2) 0.
Proof. exists nodes_only, two_table, 59010, zeros. exact (conj nodes_sane (conj (proj1 two_ok) outside)). Qed.
Print Assumptions eop_failure_refuted.
(* C82: the rotation rate is added to a member that nobody wrote *)
Theorem eop_omega_unwritten : forall L t f x r order val, contents t f -> succeeds L t f x order val -> r_omega r = None -> interpolate L t x r order = UB.
Proof. exact omega_unwritten. Qed.
Print Assumptions eop_omega_unwritten.

(* C82: regularize takes the zonal tides out of UT1-UTC, length of day and rate, and leaves the rest *)
Theorem eop_regularized_partial : forall L t f, respects L -> built t -> contents t f ->
  (forall i, (i < t_sz t)%nat -> f Mjd i <> None /\ f Ut1 i <> None /\ f Lod i <> None /\ f Omega i <> None) ->
  exists t' f', regularize L t = Ok t' /\ t_sz t' = t_sz t /\ contents t' f' /\
    forall c i v m, (i < t_sz t)%nat -> f c i = Some v -> f Mjd i = Some m -> is (f' c i) (v - zonal L c m).
Proof. exact regularize_ok. Qed.
Print Assumptions eop_regularized_partial.
(* C82: the tables that the C04 reader fills have no rates, regularize uses what is in the memory *)
Theorem eop_regularize_unwritten : forall L t f, respects L -> built t -> contents t f -> (0 < t_sz t)%nat -> f Omega 0%nat = None -> regularize L t = UB.
Proof. exact regularize_unwritten. Qed.
Print Assumptions eop_regularize_unwritten.
Theorem eop_regularize_refuted : exists text t, parse_c04 inject_Z (Some text) 59000 59002 (t_new Q 4) = Some (Ok (0%Z, t)) /\ t_sz t = 2%nat /\ regularize nodes_only t = UB.
Proof. exists (file_text [["#"%char]; rec_text day0] (rec_text day1)). eexists. split; [vm_compute; reflexivity|]. split; vm_compute; reflexivity. Qed.
Print Assumptions eop_regularize_refuted.

(* C82: regularizing a table and asking for one of its dates gives the values of the table, with the
   tides that it does not contain *)
Theorem eop_round_trip : forall L t f i order r om m xp yp dut lod dx dy, respects L -> exact_at_nodes L order -> built t -> contents t f ->
  (forall c k, (k < t_sz t)%nat -> f c k <> None) ->
  (forall j k a b, (j < k < t_sz t)%nat -> f Mjd j = Some a -> f Mjd k = Some b -> a < b) ->
  (i < t_sz t)%nat -> f Mjd i = Some m -> f Xp i = Some xp -> f Yp i = Some yp -> f Ut1 i = Some dut -> f Lod i = Some lod -> f Dx i = Some dx -> f Dy i = Some dy -> r_omega r = Some om ->
  exists t' r' m', regularize L t = Ok t' /\ t_get t' Mjd i = Ok (Some m') /\ m' == m /\ interpolate L t' m' r order = Ok (0%Z, r') /\
    is (r_xp r') (xp + ocean_x L m + libration_x L m) /\ is (r_yp r') (yp + ocean_y L m + libration_y L m) /\
    is (r_dut r') (dut + ocean_dut L m) /\ is (r_lod r') (lod + ocean_lod L m) /\ is (r_dx r') dx /\ is (r_dy r') dy.
Proof. exact round_trip. Qed.
Print Assumptions eop_round_trip.
Example eop_case : respects nodes_only /\ sane nodes_only /\ exact_at_nodes nodes_only 5 /\ built two_table /\ contents two_table two_map /\ t_sz two_table = 2%nat /\
  (forall c k, (k < 2)%nat -> two_map c k <> None) /\ (forall a b, two_map Mjd 0 = Some a -> two_map Mjd 1 = Some b -> a < b) /\
  exists val, succeeds nodes_only two_table two_map 59001 5 val.
Proof.
  destruct two_ok as (B & C & Z & D). split; [exact nodes_respects|]. split; [exact nodes_sane|]. split; [apply nodes_exact|]. split; [exact B|]. split; [exact C|]. split; [exact Z|]. split; [exact D|]. split.
  - intros a b EA EB. vm_compute in EA, EB. injection EA as <-. injection EB as <-. reflexivity.
  - exists (fun c => match two_map c 1 with Some v => v | None => 0 end). intros c idx IC. exists 0%Z. cbn in IC. destruct IC as [<-|[<-|[<-|[<-|[<-|[<-|[]]]]]]]; vm_compute; reflexivity.
Qed.
