From Coq Require Import List ZArith QArith Qround Qabs Bool Lia Lqa.
From Verif Require Import Base Pcv_model.
Import ListNotations.

(* ---- specification: piecewise linear function through nodes every 5 degrees ---- *)
(* v is the interpolated value at angle a (degrees) of the table t *)
Definition interpolates (t : list Q) (a v : Q) : Prop :=
  exists i lo hi, nth_error t i = Some lo /\ nth_error t (S i) = Some hi /\
    inject_Z (5 * Z.of_nat i) <= a < inject_Z (5 * Z.of_nat i + 5) /\
    (* (1 - w) lo + w hi with w the fraction of the cell *)
    let w := (a - inject_Z (5 * Z.of_nat i)) / 5 in v == (1 - w) * lo + w * hi.
Definition between (lo hi v : Q) : Prop := (lo <= v <= hi) \/ (hi <= v <= lo).
Definition degrees (pi z a : Q) : Prop := z * 180 == a * pi.

(* the corrections as published, in hundredths of a millimetre, every 5 degrees from 0 *)
Definition published (a : antenna) : list Z :=
  match a with
  | Alcatel => [0; 205; 724; 921; 671; 814; 1187; 1248; 1228; 1367; 1391; 1301; 1301; 1187; 970; 794; 499; 41; -393]
  | Starec_B | Starec_C => [0; 6; -32; -112; -287; -402; -344; -215; -173; -173; -8; 137; 220; 537; 702; 1070; 1386; 1727; 2237]
  end%Z.
Definition millimetres (l : list Z) : list Q := map (fun z => z # 100) l.
Lemma plarray_published a : plarray a = millimetres (published a).
Proof. destruct a; reflexivity. Qed.

Lemma table_length a : length (plarray a) = 19%nat.
Proof. destruct a; reflexivity. Qed.

Lemma nth_in (t : list Q) i : (i < length t)%nat -> exists v, nth_error t i = Some v.
Proof. intros H. destruct (nth_error t i) eqn:E; [eauto|]. apply nth_error_None in E. lia. Qed.

Lemma floor_cell a : inject_Z (5 * Qfloor (a / 5)) <= a /\ a < inject_Z (5 * Qfloor (a / 5) + 5).
Proof.
  pose proof (Qfloor_le (a / 5)) as A. pose proof (Qlt_floor (a / 5)) as B.
  rewrite inject_Z_plus in *. rewrite inject_Z_mult in *. change (inject_Z 5) with 5. change (inject_Z 1) with 1 in B.
  set (f := inject_Z (Qfloor (a / 5))) in *.
  assert (E : a == 5 * (a / 5)) by field. set (b := a / 5) in *. split; lra.
Qed.

Lemma table_value_ok t a : length t = 19%nat -> 0 <= a -> a < 90 ->
  exists v, table_value t a = Ok v /\ interpolates t a v.
Proof.
  intros L H0 H1. unfold table_value. destruct (floor_cell a) as [F1 F2].
  set (f := Qfloor (a / 5)) in *.
  assert (B0 : (0 <= f)%Z).
  { assert (X : inject_Z 0 < inject_Z (5 * f + 5)) by (change (inject_Z 0) with 0; lra). rewrite <- Zlt_Qlt in X. lia. }
  assert (B1 : (f < 18)%Z).
  { assert (X : inject_Z (5 * f) < inject_Z 90) by (change (inject_Z 90) with 90; lra). rewrite <- Zlt_Qlt in X. lia. }
  destruct (Z.ltb_spec f 0); [lia|].
  destruct (nth_in t (Z.to_nat f)) as (lo & E1); [lia|]. destruct (nth_in t (Z.to_nat (f + 1))) as (hi & E2); [lia|].
  unfold load. rewrite E1, E2. cbn [obind of_option]. eexists. split; [reflexivity|].
  exists (Z.to_nat f), lo, hi. replace (S (Z.to_nat f)) with (Z.to_nat (f + 1)) by lia. rewrite Z2Nat.id by lia.
  split; [exact E1|]. split; [exact E2|]. split; [split; assumption|]. cbv zeta. rewrite inject_Z_mult. change (inject_Z 5) with 5. field.
Qed.

Lemma interpolates_between t a v : interpolates t a v ->
  exists i lo hi, nth_error t i = Some lo /\ nth_error t (S i) = Some hi /\
    inject_Z (5 * Z.of_nat i) <= a < inject_Z (5 * Z.of_nat i + 5) /\ between lo hi v.
Proof.
  intros (i & lo & hi & E1 & E2 & [A B] & V). exists i, lo, hi. split; [exact E1|]. split; [exact E2|]. split; [split; assumption|].
  rewrite inject_Z_plus in B. change (inject_Z 5) with 5 in B. cbv zeta in V. set (k := inject_Z (5 * Z.of_nat i)) in *.
  assert (W0 : 0 <= (a - k) / 5) by (apply Qle_shift_div_l; lra).
  assert (W1 : (a - k) / 5 <= 1) by (apply Qle_shift_div_r; lra).
  set (w := (a - k) / 5) in *. unfold between. destruct (Qlt_le_dec hi lo) as [D|D]; [right|left]; rewrite V; nra.
Qed.

Lemma interpolates_node t i v a : a == inject_Z (5 * Z.of_nat i) -> interpolates t a v -> exists x, nth_error t i = Some x /\ v == x.
Proof.
  intros E (j & lo & hi & E1 & E2 & [A B] & V). rewrite E in A, B. rewrite <- Zle_Qle in A. rewrite <- Zlt_Qlt in B.
  assert (i = j) by lia. subst j. exists lo. split; [exact E1|]. rewrite V. cbv zeta. rewrite E. field.
Qed.

(* the interpolant is determined by table and angle *)
Lemma interpolates_unique t a v w : interpolates t a v -> interpolates t a w -> v == w.
Proof.
  intros (i & lo & hi & E1 & E2 & [A B] & V) (j & lo' & hi' & E1' & E2' & [A' B'] & W).
  assert (i = j).
  { assert (X : inject_Z (5 * Z.of_nat i) < inject_Z (5 * Z.of_nat j + 5)) by lra. assert (Y : inject_Z (5 * Z.of_nat j) < inject_Z (5 * Z.of_nat i + 5)) by lra.
    rewrite <- Zlt_Qlt in X, Y. lia. }
  subst j. rewrite E1 in E1'. rewrite E2 in E2'. injection E1' as <-. injection E2' as <-. rewrite V, W. reflexivity.
Qed.

Lemma rad2deg_ok pi z : 0 < pi -> degrees pi z (rad2deg pi z).
Proof. intros H. unfold degrees, rad2deg. field. lra. Qed.
Lemma degrees_unique pi z a b : 0 < pi -> degrees pi z a -> degrees pi z b -> a == b.
Proof.
  unfold degrees. intros H A B. rewrite A in B. apply Qmult_inj_r in B; [exact B|lra].
Qed.

Lemma outside_spec pi z a : 0 < pi -> degrees pi z a -> (outside pi z = true <-> a < 0 \/ 90 < a).
Proof.
  intros H D. unfold outside, degrees in *.
  assert (E0 : 0 <= z <-> 0 <= a) by (split; intros; nra).
  assert (P : z <= pi / 2 <-> a <= 90).
  { assert (X : pi / 2 == pi * (1 # 2)) by field. rewrite X. split; intros; nra. }
  destruct (Qle_bool 0 z) eqn:B1, (Qle_bool z (pi / 2)) eqn:B2; cbn [negb orb].
  - apply Qle_bool_iff in B1, B2. split; [discriminate|]. rewrite E0 in B1. rewrite P in B2. lra.
  - split; [intros _|reflexivity]. right. apply Qnot_le_lt. intros C. rewrite <- P in C. apply Qle_bool_iff in C. congruence.
  - split; [intros _|reflexivity]. left. apply Qnot_le_lt. intros C. rewrite <- E0 in C. apply Qle_bool_iff in C. congruence.
  - split; [intros _|reflexivity]. left. apply Qnot_le_lt. intros C. rewrite <- E0 in C. apply Qle_bool_iff in C. congruence.
Qed.

Lemma interpolates_ext t a b v : a == b -> interpolates t a v -> interpolates t b v.
Proof.
  intros E (i & lo & hi & E1 & E2 & [A B] & V). exists i, lo, hi. split; [exact E1|]. split; [exact E2|]. split; [split; [rewrite <- E|rewrite <- E]; assumption|].
  cbv zeta in *. rewrite V, E. reflexivity.
Qed.

Lemma pcv1_interpolates ant pi z a : 0 < pi -> degrees pi z a -> 0 <= a -> a < 90 ->
  exists v, pcv1 ant pi z = Ok (v, 0%Z) /\ interpolates (plarray ant) a v.
Proof.
  intros H D A0 A1. unfold pcv1. destruct (outside pi z) eqn:O.
  { apply (outside_spec pi z a H D) in O. lra. }
  assert (E : rad2deg pi z == a) by (apply (degrees_unique pi z); [exact H|apply rad2deg_ok, H|exact D]).
  destruct (table_value_ok (plarray ant) (rad2deg pi z) (table_length ant)) as (v & E1 & E2); [rewrite E; exact A0|rewrite E; exact A1|].
  rewrite E1. cbn [obind]. exists v. split; [reflexivity|]. apply (interpolates_ext _ _ a _ E E2).
Qed.

Lemma pcv1_published ant pi z a : 0 < pi -> degrees pi z a -> 0 <= a -> a < 90 ->
  exists v, pcv1 ant pi z = Ok (v, 0%Z) /\ interpolates (millimetres (published ant)) a v.
Proof. rewrite <- plarray_published. apply pcv1_interpolates. Qed.

Lemma pcv1_at_90 ant pi z : 0 < pi -> degrees pi z 90 -> pcv1 ant pi z = UB.
Proof.
  intros H D. unfold pcv1. destruct (outside pi z) eqn:O.
  { apply (outside_spec pi z 90 H D) in O. lra. }
  assert (E : rad2deg pi z == 90) by (apply (degrees_unique pi z); [exact H|apply rad2deg_ok, H|exact D]).
  unfold table_value. replace (Qfloor (rad2deg pi z / 5)) with 18%Z.
  - destruct ant; reflexivity.
  - symmetry. transitivity (Qfloor 18); [|reflexivity]. apply Qfloor_comp. rewrite E. reflexivity.
Qed.

Lemma pcv_flag ant freq pi z a : 0 < pi -> degrees pi z a -> ~ a == 90 \/ freq <> 1%nat -> (ant <> Alcatel \/ freq <> 1%nat) ->
  exists v flag, pcv ant freq pi z = Ok (v, flag) /\ (flag <> 0%Z <-> a < 0 \/ 90 < a) /\ (flag <> 0%Z -> v == 0).
Proof.
  intros H D N9 NA. pose proof (outside_spec pi z a H D) as O. unfold pcv.
  assert (P2 : exists v flag, pcv2 ant pi z = Ok (v, flag) /\ (flag <> 0%Z <-> a < 0 \/ 90 < a) /\ (flag <> 0%Z -> v == 0)).
  { unfold pcv2. eexists _, _. split; [reflexivity|]. split; [|reflexivity]. rewrite <- O. unfold outside.
    destruct (Qle_bool 0 z), (Qle_bool z (pi / 2)); cbn; split; intros; congruence. }
  destruct freq as [|[|freq]]; [exact P2| |exact P2].
  destruct N9 as [N9|N9]; [|congruence]. destruct NA as [NA|NA]; [|congruence].
  destruct (outside pi z) eqn:B.
  - exists 0, 1%Z. split; [unfold pcv1; rewrite B; destruct ant; [congruence|reflexivity|reflexivity]|]. split; [|reflexivity].
    split; [intros _; apply O; reflexivity|discriminate].
  - assert (0 <= a /\ a < 90).
    { destruct (Qlt_le_dec a 0) as [L|L]; [exfalso; assert (false = true) by (apply O; auto); discriminate|].
      destruct (Qlt_le_dec 90 a) as [L2|L2]; [exfalso; assert (false = true) by (apply O; auto); discriminate|].
      split; [exact L|]. apply Qle_lteq in L2. destruct L2; [assumption|contradiction]. }
    destruct (pcv1_interpolates ant pi z a H D) as (v & E & _); try tauto.
    exists v, 0%Z. split; [exact E|]. split; [|congruence]. split; [congruence|]. intros C. lra.
Qed.

Lemma alcatel_never_flags pi z v flag : pcv1 Alcatel pi z = Ok (v, flag) -> flag = 0%Z.
Proof.
  unfold pcv1. destruct (outside pi z); [congruence|]. destruct (table_value (plarray Alcatel) (rad2deg pi z)); cbn [obind]; congruence.
Qed.
