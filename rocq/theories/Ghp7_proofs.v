(* Lemmas behind Ghp7_props.v. *)
From Coq Require Import List Reals ZArith Bool Lra Lia.
Require Import Verif.Base Verif.Ghp7_model.
Local Open Scope R_scope.

(* ---- specification: the ideal gas ---- *)
(* pressure in mbar (hPa) of n particles in a cubic metre at temperature T; k = 1.3806e-23 J/K *)
Definition ideal_gas (n T : R) : R := (13806 / 10 ^ 27 * n * T) / 100.
(* particles of all species but the mass density and the anomalous oxygen, in a cubic metre *)
Definition particles (i : input) (o : output) : R :=
  (d0 o + d1 o + d2 o + d3 o + d4 o + d6 o + d7 o) * (if i_meters i then 1 else 100 ^ 3).
Definition mbar (i : input) (o : output) : R := ideal_gas (particles i o) (t1 o).
(* two pressures within 0.00043 decades of each other *)
Definition within (a b : R) : Prop := 0 < a /\ 0 < b /\ Rabs (ln (a / b)) < 43 / 100000 * ln 10.
Definition raise (i : input) (z : R) : input := Input (i_doy i) z (i_glat i) (i_meters i).

Lemma pressure_mbar i o : pressure i o = mbar i o.
Proof. unfold pressure, mbar, ideal_gas, particles, number. destruct (i_meters i); field. Qed.

Lemma ln10_pos : 0 < ln 10. Proof. rewrite <- ln_1. apply ln_increasing; lra. Qed.

Lemma close_within a b :
  match difference (log10 a) (log10 b) with
  | Some d => if Rlt_dec (Rabs d) (43 / 100000) then true else false | None => false end = true <-> within a b.
Proof.
  pose proof ln10_pos as L. unfold within, log10, difference.
  destruct (Rlt_dec 0 a) as [A|A].
  2: { split; [destruct (Rlt_dec a 0); discriminate | lra]. }
  destruct (Rlt_dec 0 b) as [B|B].
  2: { split; [destruct (Rlt_dec b 0); discriminate | lra]. }
  assert (E : ln (a / b) = (ln a / ln 10 - ln b / ln 10) * ln 10).
  { unfold Rdiv at 1. rewrite ln_mult, ln_Rinv; [field; lra | lra | lra | now apply Rinv_0_lt_compat]. }
  rewrite E, Rabs_mult, (Rabs_pos_eq (ln 10)) by lra.
  set (d := Rabs (ln a / ln 10 - ln b / ln 10)).
  destruct (Rlt_dec d (43 / 100000)) as [D|D].
  - split; [|easy]. intros _. refine (conj A (conj B _)). now apply Rmult_lt_compat_r.
  - split; [discriminate|]. intros (_ & _ & H). apply Rmult_lt_reg_r in H; [contradiction | exact L].
Qed.

Section Any.
Variable gtd7 : input -> output.
Variables gsurf re r100gas : R.

Lemma next_defined l i o d z : z <> Unset -> exists z', next_altitude gsurf re r100gas l i o d z = Ok z' /\ z' <> Unset.
Proof. intros Z. destruct z as [|z|]; [easy| |]; cbn; [destruct d|]; eexists; (split; [reflexivity|discriminate]). Qed.

Lemma search_code left : forall l i press z,
  z <> Unset ->
  exists c, search gtd7 gsurf re r100gas left l i (log10 press) z = Ok (c, gtd7 i)
    /\ (c = 0%Z /\ within press (mbar i (gtd7 i)) \/ c = 1%Z /\ ~ within press (mbar i (gtd7 i))).
Proof.
  induction left as [|left IH]; intros l i press z Z; cbn [search]; cbv zeta;
    pose proof (close_within press (pressure i (gtd7 i))) as C; rewrite pressure_mbar in C;
    rewrite pressure_mbar.
  - destruct (match difference (log10 press) (log10 (mbar i (gtd7 i))) with Some d => _ | None => _ end).
    + exists 0%Z. split; [reflexivity|]. left. split; [reflexivity | now apply C].
    + exists 1%Z. split; [reflexivity|]. right. split; [reflexivity|]. intros W. apply C in W. discriminate.
  - destruct (match difference (log10 press) (log10 (mbar i (gtd7 i))) with Some d => _ | None => _ end).
    + exists 0%Z. split; [reflexivity|]. left. split; [reflexivity | now apply C].
    + destruct (next_defined l i (gtd7 i) (difference (log10 press) (log10 (mbar i (gtd7 i)))) z Z) as (z' & E & Z').
      rewrite E. cbn [obind]. now apply IH.
Qed.

Lemma first_set i press : 0 <= press -> first_altitude i (log10 press) <> Unset.
Proof.
  intros P. unfold log10. destruct (Rlt_dec 0 press) as [A|A].
  - cbn. destruct (Rle_dec _ _); discriminate.
  - destruct (Rlt_dec press 0); [lra | discriminate].
Qed.

Lemma ghp7_code_ok i press : 0 <= press ->
  exists c, ghp7 gtd7 gsurf re r100gas i press = Ok (c, gtd7 i)
    /\ (c = 0%Z /\ within press (mbar i (gtd7 i)) \/ c = 1%Z /\ ~ within press (mbar i (gtd7 i))).
Proof. intros P. apply search_code. now apply first_set. Qed.

Lemma ghp7_negative i press : press < 0 -> ghp7 gtd7 gsurf re r100gas i press = UB.
Proof.
  intros P. unfold ghp7, log10. destruct (Rlt_dec 0 press); [lra|]. destruct (Rlt_dec press 0); [|lra].
  reflexivity.
Qed.

Lemma ghp7_no_search i press z : 0 < press ->
  mbar (raise i z) (gtd7 (raise i z)) = press -> ~ within press (mbar i (gtd7 i)) ->
  ghp7 gtd7 gsurf re r100gas i press = Ok (1%Z, gtd7 i).
Proof.
  intros P _ W. destruct (ghp7_code_ok i press) as (c & E & [[_ V]|[-> _]]); [lra | contradiction | exact E].
Qed.
End Any.

(* nitrogen at 1 K, with 1 mbar up to altitude 0 and half of it above *)
Definition ex_atmosphere (i : input) : output :=
  Output 0 0 (10 ^ 27 / 13806 * (if Rle_dec (i_alt i) 0 then 100 else 50)) 0 0 1 0 0 1.
Definition ex_input : input := Input 1 0 0 true.

Lemma ex_pressure : mbar ex_input (ex_atmosphere ex_input) = 1.
Proof. unfold mbar, ideal_gas, particles, ex_atmosphere, ex_input; cbn. destruct (Rle_dec 0 0); [field | lra]. Qed.
Lemma ex_pressure_up : mbar (raise ex_input 5) (ex_atmosphere (raise ex_input 5)) = 1 / 2.
Proof. unfold mbar, ideal_gas, particles, ex_atmosphere, raise, ex_input; cbn. destruct (Rle_dec 5 0); [lra | field]. Qed.
Lemma ex_same : within 1 (mbar ex_input (ex_atmosphere ex_input)).
Proof.
  rewrite ex_pressure. refine (conj _ (conj _ _)); try lra. replace (1 / 1) with 1 by field.
  rewrite ln_1, Rabs_R0. pose proof ln10_pos. lra.
Qed.
Lemma ex_far : ~ within (1 / 2) (mbar ex_input (ex_atmosphere ex_input)).
Proof.
  rewrite ex_pressure. intros (_ & _ & H). replace (1 / 2 / 1) with (/ 2) in H by field.
  rewrite ln_Rinv, Rabs_Ropp in H by lra.
  assert (0 < ln 2) by (rewrite <- ln_1; apply ln_increasing; lra). rewrite Rabs_pos_eq in H by lra.
  assert (ln 10 < 4 * ln 2); [|lra].
  replace (4 * ln 2) with (ln (2 * 2 * (2 * 2))).
  - apply ln_increasing; lra.
  - rewrite !ln_mult by lra. ring.
Qed.
Lemma not_searched_ok : exists gtd7 i press z gsurf re r100gas,
  0 < press /\ mbar (raise i z) (gtd7 (raise i z)) = press
  /\ ghp7 gtd7 gsurf re r100gas i press = Ok (1%Z, gtd7 i).
Proof.
  exists ex_atmosphere, ex_input, (1 / 2), 5, 980, 6378, 83145.
  refine (conj _ (conj ex_pressure_up _)); [lra|].
  apply (ghp7_no_search _ _ _ _ _ _ 5); [lra | exact ex_pressure_up | exact ex_far].
Qed.
