From Coq Require Import List ZArith Reals Lra Lia Bool.
From Verif Require Import Base ExpAtm_model.
Import ListNotations.
Local Open Scope R_scope.

(* ---- specification ---- *)
(* Vallado, Fundamentals of Astrodynamics, table 8-4: base altitude, nominal density, scale height *)
Definition vallado : list (Z * R * R) := [
  (0%Z, 1.225, 7.249); (25%Z, 3.899e-2, 6.349); (30%Z, 1.774e-2, 6.682); (40%Z, 3.972e-3, 7.554); (50%Z, 1.057e-3, 8.382); (60%Z, 3.206e-4, 7.714); (70%Z, 8.770e-5, 6.549);
  (80%Z, 1.905e-5, 5.799); (90%Z, 3.396e-6, 5.382); (100%Z, 5.297e-7, 5.877); (110%Z, 9.661e-8, 7.263); (120%Z, 2.438e-8, 9.473); (130%Z, 8.484e-9, 12.636); (140%Z, 3.845e-9, 16.149);
  (150%Z, 2.070e-9, 22.523); (180%Z, 5.464e-10, 29.740); (200%Z, 2.789e-10, 37.105); (250%Z, 7.248e-11, 45.546); (300%Z, 2.418e-11, 53.628); (350%Z, 9.518e-12, 53.298); (400%Z, 3.725e-12, 58.515);
  (450%Z, 1.585e-12, 60.828); (500%Z, 6.967e-13, 63.822); (600%Z, 1.454e-13, 71.835); (700%Z, 3.614e-14, 88.667); (800%Z, 1.170e-14, 124.64); (900%Z, 5.245e-15, 181.05); (1000%Z, 3.019e-15, 268.00) ].
(* row k is the one of altitude h *)
Definition row_of (h : R) (k : nat) : Prop :=
  exists lo rho H, nth_error vallado k = Some (lo, rho, H) /\ IZR lo <= h /\ forall lo' rho' H', nth_error vallado (S k) = Some (lo', rho', H') -> h < IZR lo'.
Definition reference (h d : R) : Prop := exists k lo rho H, row_of h k /\ nth_error vallado k = Some (lo, rho, H) /\ d = rho * exp (- (h - IZR lo) / H).
Definition int_max : R := 2147483648.

(* ---- the search ---- *)
Definition matches (alt : Z) (r : layer) : Prop := (limit_low r <= alt < limit_high r)%Z.
Lemma find_spec alt : forall rows i c d, (c <= length rows)%nat ->
  (exists j r, (j < c)%nat /\ find_layer alt rows i c d = (i + j)%nat /\ nth_error rows j = Some r /\ matches alt r) \/
  (find_layer alt rows i c d = d /\ Forall (fun r => ~ matches alt r) (firstn c rows)).
Proof.
  induction rows as [|r rs IH]; intros i c d L.
  - right. destruct c; cbn; split; auto.
  - destruct c as [|c]; [right; cbn; split; auto|]. cbn [find_layer]. destruct (Z.leb_spec (limit_low r) alt) as [A|A]; cbn [andb].
    + destruct (Z.ltb_spec alt (limit_high r)) as [B|B].
      * left. exists O, r. repeat split; try lia.
      * destruct (IH (S i) c d) as [(j & r' & J & E & N & M)|[E F]]; [cbn in L; lia| |].
        -- left. exists (S j), r'. repeat split; try lia; try exact N; apply M.
        -- right. split; [exact E|]. cbn [firstn]. constructor; [unfold matches; lia|exact F].
    + destruct (IH (S i) c d) as [(j & r' & J & E & N & M)|[E F]]; [cbn in L; lia| |].
      * left. exists (S j), r'. repeat split; try lia; try exact N; apply M.
      * right. split; [exact E|]. cbn [firstn]. constructor; [unfold matches; lia|exact F].
Qed.
Lemma nth_load {A} (l : list A) i x : nth_error l i = Some x -> load l i = Ok x.
Proof. unfold load. intros ->. reflexivity. Qed.
(* the row used *)
Definition used (h : R) (r : layer) : Prop :=
  exists k, nth_error atm_table k = Some r /\ IZR (base_altitude r) <= h /\ ((k < 27)%nat -> h < IZR (limit_high r)) /\ limit_low r = base_altitude r.
Lemma layer_used h : 0 < h < int_max ->
  exists r k, used h r /\ nth_error atm_table k = Some r /\ ((k < 27)%nat -> h < IZR (limit_high r)) /\ density h = Ok (Some (nominal_density r * exp (- (h - IZR (base_altitude r)) / scale_height r))).
Proof.
  intros [H0 H1]. unfold density. destruct (Rlt_dec 0 h); [|lra]. destruct (base_Int_part h) as [B1 B2]. set (alt := Int_part h) in *.
  assert (A0 : (0 <= alt)%Z) by (assert (-1 < alt)%Z by (apply lt_IZR; lra); lia).
  assert (A1 : (alt <= 2147483647)%Z) by (assert (alt < 2147483648)%Z by (apply lt_IZR; unfold int_max in H1; lra); lia).
  destruct (Z.leb_spec alt 2147483647); [|lia]. change (table_sz - 1)%nat with 27%nat.
  destruct (find_spec alt atm_table 0 27 27) as [(j & r' & J & E & N & M)|[E F]]; [cbn; lia| |].
  - rewrite E. cbn [Nat.add]. rewrite (nth_load _ _ _ N). cbn [obind]. exists r', j.
    assert (U : IZR (limit_low r') <= h /\ h < IZR (limit_high r')).
    { destruct M as [M1 M2]. split; [apply Rle_trans with (IZR alt); [apply IZR_le, M1|exact B1]|]. apply Rlt_le_trans with (IZR (alt + 1)); [rewrite plus_IZR; lra|apply IZR_le; lia]. }
    assert (Q : limit_low r' = base_altitude r') by (clear - N J; do 27 (destruct j as [|j]; [cbn [nth_error atm_table] in N; injection N as <-; reflexivity|]); lia).
    split; [exists j; repeat split; [exact N|rewrite <- Q; apply U|intros _; apply U|exact Q]|]. split; [exact N|]. split; [intros _; apply U|reflexivity].
  - rewrite E. assert (alt >= 1000)%Z.
    { cbn [firstn atm_table] in F. clear - F A0. repeat match goal with H : Forall _ (_ :: _) |- _ => inversion H; subst; clear H end. unfold matches in *. cbn in *. lia. }
    eexists. exists 27%nat. cbn [load nth_error atm_table of_option obind]. split; [|split; [reflexivity|split; [lia|reflexivity]]]. exists 27%nat. split; [reflexivity|]. cbn. split; [|split; [lia|reflexivity]]. apply Rle_trans with (IZR alt); [apply IZR_le; lia|exact B1].
Qed.
Lemma all_rows (P : layer -> Prop) : Forall P atm_table -> forall k r, nth_error atm_table k = Some r -> P r.
Proof. intros F k r N. rewrite Forall_forall in F. apply F. eapply nth_error_In. exact N. Qed.
Lemma rows_positive : Forall (fun r => 0 < nominal_density r /\ 0 < scale_height r) atm_table.
Proof. unfold atm_table. repeat (constructor; [cbn [nominal_density scale_height]; split; lra|]). constructor. Qed.
Lemma density_pos h d : density h = Ok (Some d) -> 0 < d.
Proof.
  unfold density. destruct (Rlt_dec 0 h); [|discriminate]. destruct (Int_part h <=? 2147483647)%Z; [|discriminate].
  set (nr := find_layer _ _ _ _ _). unfold load. destruct (nth_error atm_table nr) as [r'|] eqn:N; cbn [of_option obind]; [|discriminate]. intros E. injection E as <-.
  destruct (all_rows _ rows_positive _ _ N) as [A _]. apply Rmult_lt_0_compat; [exact A|apply exp_pos].
Qed.
Lemma density_assert h : h <= 0 -> density h = Ok None.
Proof. intros H. unfold density. destruct (Rlt_dec 0 h); [lra|reflexivity]. Qed.
Lemma density_total h : 0 < h < int_max -> exists d, density h = Ok (Some d).
Proof. intros H. destruct (layer_used h H) as (r & k & _ & _ & _ & E). eexists. exact E. Qed.

Lemma row_bounds h k : row_of h k -> (k < 28)%nat.
Proof. intros (lo & rho & H & N & _). assert (k < length vallado)%nat; [apply nth_error_Some; congruence|exact H0]. Qed.
Lemma row_unique h j k : row_of h j -> row_of h k -> j = k.
Proof.
  assert (LT : forall j k, (j < k)%nat -> row_of h j -> row_of h k -> False).
  { clear. intros j k L Rj Rk. pose proof (row_bounds _ _ Rk) as B. destruct Rj as (lo & rho & H & N & A & U). destruct Rk as (lo2 & rho2 & H2 & N2 & A2 & _).
    destruct (nth_error vallado (S j)) as [[[lo3 rho3] H3]|] eqn:N3; [|apply nth_error_None in N3; cbn in N3; lia]. specialize (U lo3 rho3 H3 eq_refl).
    assert (M : (lo3 <= lo2)%Z).
    { clear - L N3 N2 B. 
      assert (MO : forall a b, (a <= b)%nat -> (b < 28)%nat -> (fst (fst (nth a vallado (0%Z, 0%R, 0%R))) <= fst (fst (nth b vallado (0%Z, 0%R, 0%R))))%Z).
      { intros a b. induction 1 as [|b L' IH]; intros B'; [lia|]. eapply Z.le_trans; [apply IH; lia|]. clear - B'. do 27 (destruct b as [|b]; [cbn; lia|]). lia. }
      specialize (MO (S j) k L B). rewrite (nth_error_nth _ _ _ N3), (nth_error_nth _ _ _ N2) in MO. exact MO. }
    apply IZR_le in M. lra. }
  intros A B. destruct (Nat.lt_trichotomy j k) as [L|[E|L]]; [exfalso; eauto|exact E|exfalso; eauto].
Qed.
Lemma row_exists h : 0 <= h -> exists k, row_of h k.
Proof.
  intros H0. assert (X : forall n, (n <= 27)%nat -> (exists k, row_of h k) \/ (forall lo rho H, nth_error vallado n = Some (lo, rho, H) -> IZR lo <= h)).
  { induction n as [|n IH]; intros L; [right; intros lo rho H E; injection E as <- _ _; exact H0|]. destruct (IH ltac:(lia)) as [|Q]; [tauto|].
    destruct (nth_error vallado (S n)) as [[[lo rho] H]|] eqn:E; [|apply nth_error_None in E; cbn in E; lia]. destruct (Rle_lt_dec (IZR lo) h) as [A|A]; [right; intros ? ? ? E'; injection E' as <- _ _; exact A|].
    left. destruct (nth_error vallado n) as [[[lo2 rho2] H2]|] eqn:E2; [|apply nth_error_None in E2; cbn in E2; lia]. exists n, lo2, rho2, H2. split; [exact E2|]. split; [apply (Q _ _ _ eq_refl)|]. intros ? ? ? E'. rewrite E in E'. injection E' as <- _ _. exact A. }
  destruct (X 27%nat (le_n _)) as [|Q]; [tauto|]. exists 27%nat, 1000%Z, 3.019e-15, 268.00. split; [reflexivity|]. split; [apply (Q _ _ _ eq_refl)|]. intros ? ? ? E. cbn in E. discriminate.
Qed.
(* row k of the table of the program, against row k of the reference *)
Lemma row_match k r h : nth_error atm_table k = Some r -> IZR (base_altitude r) <= h -> ((k < 27)%nat -> h < IZR (limit_high r)) -> row_of h k.
Proof.
  intros N A B. assert (K : (k < 28)%nat) by (apply (proj1 (nth_error_Some atm_table k)); congruence).
  do 27 (destruct k as [|k]; [cbn [nth_error atm_table] in N; injection N as <-; cbn [base_altitude limit_high] in A, B; specialize (B ltac:(lia)); eexists; eexists; eexists; split; [reflexivity|]; split; [exact A|]; intros ? ? ? E; cbn [nth_error vallado] in E; injection E as <- _ _; exact B|]).
  assert (k = 0)%nat by lia. subst k. cbn [nth_error atm_table] in N. injection N as <-. cbn [base_altitude] in A. eexists; eexists; eexists; split; [reflexivity|]; split; [exact A|]; intros ? ? ? E; cbn [nth_error vallado] in E; discriminate.
Qed.
Lemma row_same k r : nth_error atm_table k = Some r -> k <> 15%nat -> nth_error vallado k = Some (base_altitude r, nominal_density r, scale_height r).
Proof.
  intros N D. assert (K : (k < 28)%nat) by (apply (proj1 (nth_error_Some atm_table k)); congruence).
  do 28 (destruct k as [|k]; [cbn [nth_error atm_table] in N; injection N as <-; first [reflexivity|exfalso; apply D; reflexivity]|]). lia.
Qed.
Lemma density_reference h : 0 < h < int_max -> ~ (180 <= h < 200) -> exists d, density h = Ok (Some d) /\ reference h d.
Proof.
  intros H X. destruct (layer_used h H) as (r & k & (k2 & N2 & L & U2 & Q) & N & U & E). eexists. split; [exact E|].
  assert (D : k <> 15%nat) by (intros ->; cbn [nth_error atm_table] in N; injection N as <-; cbn [base_altitude limit_high] in U, L; specialize (U ltac:(lia)); lra).
  exists k, (base_altitude r), (nominal_density r), (scale_height r). split; [apply (row_match k r h N L U)|]. split; [apply row_same; assumption|reflexivity].
Qed.
Lemma reference_unique h d d' : reference h d -> reference h d' -> d = d'.
Proof. intros (k & lo & rho & H & A & N & ->) (k' & lo' & rho' & H' & A' & N' & ->). assert (k = k') by (eapply row_unique; eassumption). subst k'. rewrite N in N'. injection N' as <- <- <-. reflexivity. Qed.
Lemma density_decreasing h h' k d d' : 0 < h -> h < h' < int_max -> row_of h k -> row_of h' k -> density h = Ok (Some d) -> density h' = Ok (Some d') -> d' < d.
Proof.
  intros H0 H1 R1 R2 E E'. destruct (layer_used h ltac:(lra)) as (r & j & (j2 & N2 & L & U2 & Q) & N & U & D). destruct (layer_used h' ltac:(lra)) as (r' & j' & (j2' & N2' & L' & U2' & Q') & N' & U' & D').
  pose proof (row_unique _ _ _ R1 (row_match j r h N L U)) as K1. pose proof (row_unique _ _ _ R2 (row_match j' r' h' N' L' U')) as K2. subst j j'. rewrite N in N'. injection N' as <-. rewrite D in E. rewrite D' in E'. injection E as <-. injection E' as <-.
  destruct (all_rows _ rows_positive _ _ N) as [A B]. apply Rmult_lt_compat_l; [exact A|]. apply exp_increasing. unfold Rdiv. apply Rmult_lt_compat_r; [apply Rinv_0_lt_compat, B|lra].
Qed.
Lemma between_180_200 : exists h d d', density h = Ok (Some d) /\ reference h d' /\ 17 / 10 * d' < d.
Proof.
  exists 199. assert (R : row_of 199 15) by (exists 180%Z, 5.464e-10, 29.740; split; [reflexivity|]; split; [lra|]; intros ? ? ? E; cbn in E; injection E as <- _ _; lra).
  destruct (layer_used 199) as (r & k & (k2 & N2 & L & U2 & Q) & N & U & D); [unfold int_max; lra|]. pose proof (row_unique _ _ _ R (row_match k r 199 N L U)) as K. subst k. cbn in N. injection N as <-. rewrite D. cbn [nominal_density base_altitude scale_height].
  eexists. exists (5.464e-10 * exp (- (199 - 180) / 29.740)). split; [reflexivity|]. split; [exists 15%nat, 180%Z, 5.464e-10, 29.740; split; [exact R|]; split; reflexivity|].
  pose proof (exp_ineq1_le (- (199 - 180) / 29740)) as X. 
  assert (Y : exp (- (199 - 180) / 29.740) * ((1 + 19 / 59.48) * (1 + 19 / 59.48)) <= 1).
  { replace (- (199 - 180) / 29.740) with (- (19 / 59.48) + - (19 / 59.48)) by lra. rewrite exp_plus, !exp_Ropp. pose proof (exp_ineq1_le (19 / 59.48)) as Z. pose proof (exp_pos (19 / 59.48)) as P. set (e := exp (19 / 59.48)) in *. set (c := 1 + 19 / 59.48) in *. assert (0 < c) by (unfold c; lra).
    apply Rmult_le_reg_r with (e * e); [nra|]. replace (/ e * / e * (c * c) * (e * e)) with (c * c) by (field; lra). nra. }
  set (e := exp (- (199 - 180) / 29.740)) in *. set (f := exp (- (199 - 180) / 29740)) in *. clearbody e f. assert (1 - 19 / 29740 <= f) by lra. assert (e < 0.58) by nra. lra.
Qed.
