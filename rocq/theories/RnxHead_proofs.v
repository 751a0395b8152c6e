From Coq Require Import List ZArith Ascii Bool Lia.
From Verif Require Import Base CLib_model CLib_proofs Stream_model SysInfo_model SysInfo_proofs Poly_proofs
  Rinex_model Rinex_proofs RnxHead_model.
Import ListNotations.
Local Open Scope nat_scope.

(* ---- format ---- *)
(* an observation code in 4 columns: 1X,A3 *)
Definition code_text (c : obs_code) : chars :=
  [blank; type_to_char (oc_type c); (if has_frequency (oc_type c) then dchar (oc_freq c) else blank); blank].
(* the codes the format knows: frequency 1 or 2 exactly where one is needed *)
Definition code_ok (c : obs_code) : Prop :=
  if has_frequency (oc_type c) then (oc_freq c = 1 \/ oc_freq c = 2)%Z else oc_freq c = 0%Z.
Definition obs_types_text (num : list Z) (cs : list obs_code) (rest : chars) : chars :=
  "D"%char :: repeat blank 2 ++ rjust 3 (dstr num) ++ flat_map code_text cs ++ rest.
Definition scale_text (neg : bool) (f num : list Z) (cs : list obs_code) (rest : chars) : chars :=
  "D"%char :: blank :: rjust 4 (numeral neg f) ++ repeat blank 2 ++ rjust 2 (dstr num) ++ flat_map code_text cs ++ rest.

Lemma code_text_no_nul c : code_ok c -> ~ In nul (code_text c).
Proof.
  intros H I. unfold code_text in I. destruct I as [I|[I|[I|[I|[]]]]]; try discriminate.
  - destruct (oc_type c); discriminate.
  - unfold code_ok in H. destruct (has_frequency (oc_type c)); [|discriminate].
    revert I. apply dchar_no_nul. unfold digit. lia.
Qed.
Lemma codes_no_nul cs : Forall code_ok cs -> ~ In nul (flat_map code_text cs).
Proof.
  intros F I. apply in_flat_map in I. destruct I as (c & Ic & I).
  exact (code_text_no_nul c (proj1 (Forall_forall _ _) F c Ic) I).
Qed.
Lemma codes_length cs : length (flat_map code_text cs) = 4 * length cs.
Proof. induction cs as [|c cs IH]; [reflexivity|]. cbn [flat_map]. rewrite app_length, IH. cbn [length code_text]. lia. Qed.

Lemma string_at_buf (a b : chars) stale k : length a = k -> ~ In nul b ->
  string_at (a ++ b ++ nul :: stale) k = Ok b.
Proof.
  intros L N. unfold string_at. rewrite skipn_app_exact by exact L.
  rewrite existsb_app. cbn [existsb]. rewrite orb_true_r, cstr_no_nul by exact N. reflexivity.
Qed.

Lemma strtol_freq d rest : (d = 1 \/ d = 2)%Z -> not_digit_next rest -> strtol (dchar d :: rest) = LRes d 1 false.
Proof. intros H R. apply (strtol_digit 0 d rest); [unfold digit; lia|exact R]. Qed.

Lemma drop_code c rest : code_ok c ->
  drop_blanks (code_text c ++ rest) = type_to_char (oc_type c) :: (if has_frequency (oc_type c) then dchar (oc_freq c) else blank) :: blank :: rest.
Proof. intros _. unfold code_text. cbn [app drop_blanks]. destruct (oc_type c); reflexivity. Qed.

(* ---- C64 ---- *)
Lemma obs_codes_ok head stale rest : ~ In nul rest -> forall cs pre acc,
  Forall code_ok pre -> Forall code_ok cs -> length head = 6 ->
  obs_codes (head ++ flat_map code_text pre ++ flat_map code_text cs ++ rest ++ nul :: stale) (length cs) (length pre) acc
  = Ok (0%Z, acc ++ cs).
Proof.
  intros NR. induction cs as [|c cs IH]; intros pre acc Fp Fc LH; cbn [length obs_codes].
  - now rewrite app_nil_r.
  - inversion Fc as [|x y Hc Fc']; subst x y.
    assert (EB : head ++ flat_map code_text pre ++ flat_map code_text (c :: cs) ++ rest ++ nul :: stale =
                 (head ++ flat_map code_text pre) ++ (code_text c ++ flat_map code_text cs ++ rest) ++ nul :: stale).
    { cbn [flat_map]. rewrite <- !app_assoc. reflexivity. }
    rewrite EB at 1. rewrite string_at_buf.
    2:{ rewrite app_length, codes_length. lia. }
    2:{ rewrite !in_app_iff. intros [I|[I|I]]; [exact (code_text_no_nul _ Hc I)|exact (codes_no_nul _ Fc' I)|exact (NR I)]. }
    cbn [obind]. rewrite drop_code by exact Hc. rewrite type_roundtrip.
    assert (MK : mk_code (oc_type c) (oc_freq c) = Some c /\ (has_frequency (oc_type c) = true -> (oc_freq c = 1 \/ oc_freq c = 2)%Z)
                 /\ (has_frequency (oc_type c) = false -> oc_freq c = 0%Z)).
    { unfold code_ok in Hc. unfold mk_code. destruct c as [t f]; cbn [oc_type oc_freq] in *.
      destruct (has_frequency t); repeat split; try discriminate; try tauto.
      - destruct Hc as [-> | ->]; reflexivity.
      - now rewrite Hc. }
    destruct MK as (MK & M1 & M0).
    assert (STEP : obs_codes (head ++ flat_map code_text pre ++ flat_map code_text (c :: cs) ++ rest ++ nul :: stale)
                     (length cs) (S (length pre)) (acc ++ [c]) = Ok (0%Z, acc ++ c :: cs)).
    { specialize (IH (pre ++ [c]) (acc ++ [c])). rewrite app_length in IH. cbn [length] in IH.
      rewrite Nat.add_1_r in IH. rewrite flat_map_app in IH. cbn [flat_map] in IH |- *. rewrite app_nil_r, <- !app_assoc in IH.
      rewrite <- !app_assoc. rewrite IH; [reflexivity| |exact Fc'|exact LH]. apply Forall_app. auto. }
    destruct (has_frequency (oc_type c)) eqn:HF.
    + rewrite strtol_freq by (try exact (M1 eq_refl); reflexivity). cbn [l_used l_range l_val Nat.eqb orb andb].
      replace (wrap 32 (oc_freq c)) with (oc_freq c) by (destruct (M1 eq_refl) as [-> | ->]; reflexivity).
      rewrite MK. exact STEP.
    + cbn [andb]. rewrite (M0 eq_refl) in MK. rewrite MK. exact STEP.
Qed.

Lemma obs_types_roundtrip num cs rest stale old oldn : Forall code_ok cs -> numeral_ok num -> length num <= 3 ->
  dval num = Z.of_nat (length cs) -> 1 <= length cs <= 12 -> ~ In nul rest ->
  obs_types_line (obs_types_text num cs rest ++ nul :: stale) old oldn = Ok (0%Z, cs, Z.of_nat (length cs)).
Proof.
  intros Fc Hn Ln Dn Lc NR. unfold obs_types_line.
  assert (LN : length (dstr num) <= 3) by (unfold dstr; rewrite map_length; exact Ln).
  replace (load (obs_types_text num cs rest ++ nul :: stale) 0) with (Ok "D"%char) by reflexivity.
  cbn [obind]. change (negb ("D" =? "D")%char) with false. cbv iota.
  assert (E1 : obs_types_text num cs rest ++ nul :: stale =
     ["D"%char] ++ (repeat blank 2 ++ rjust 3 (dstr num) ++ flat_map code_text cs ++ rest) ++ nul :: stale) by reflexivity.
  rewrite E1 at 1. rewrite string_at_buf; [|reflexivity|].
  2:{ rewrite !in_app_iff. intros [I|[I|[I|I]]]; [exact (blanks_no_nul _ I)| |exact (codes_no_nul _ Fc I)|exact (NR I)].
      unfold rjust in I. apply in_app_or in I. destruct I as [I|I]; [exact (blanks_no_nul _ I)|].
      exact (digits_no_nul _ (proj2 Hn) I). }
  cbn [obind].
  assert (ST : strtol (repeat blank 2 ++ rjust 3 (dstr num) ++ flat_map code_text cs ++ rest) =
               LRes (dval num) (2 + (3 - length num) + length num) false).
  { unfold rjust. rewrite <- app_assoc, app_assoc, <- repeat_app.
    assert (LD : length (dstr num) = length num) by (unfold dstr; apply map_length). rewrite LD.
    rewrite strtol_digits; [reflexivity|exact Hn| |exact Ln].
    destruct cs as [|c cs]; [simpl in Lc; lia|]. cbn. reflexivity. }
  rewrite ST. cbn [l_val l_used l_range].
  destruct (Nat.eqb_spec (2 + (3 - length num) + length num) 0); [lia|]. rewrite Dn.
  rewrite wrap_id by (try lia; cbn; lia). cbn [orb].
  destruct (Z.eqb_spec (Z.of_nat (length cs)) 0); [lia|].
  destruct (Z.ltb_spec (Z.of_nat (length cs)) 13); [|lia]. cbn [negb]. rewrite Nat2Z.id.
  pose proof (obs_codes_ok ("D"%char :: repeat blank 2 ++ rjust 3 (dstr num)) stale rest NR cs [] [] (Forall_nil _) Fc) as OC.
  cbn [flat_map app length] in OC.
  replace (obs_types_text num cs rest ++ nul :: stale) with
    ("D"%char :: (repeat blank 2 ++ rjust 3 (dstr num)) ++ flat_map code_text cs ++ rest ++ nul :: stale).
  2:{ unfold obs_types_text. cbn [app]. rewrite <- !app_assoc. reflexivity. }
  rewrite OC; [reflexivity|]. rewrite app_length, rjust_length by exact LN. reflexivity.
Qed.

(* ---- C24 ---- *)
Definition listed (cs : list obs_code) (c : obs_code) : Prop := In c cs.
(* the factor list a set of listed observables stands for *)
Definition factors_for (codes cs : list obs_code) (f : Z) (factors : list Z) : Prop :=
  length factors = length codes /\
  forall i c, nth_error codes i = Some c ->
    (In c cs -> nth_error factors i = Some f) /\ (~ In c cs -> nth_error factors i = Some 1%Z).

Lemma code_eqb_iff a b : code_eqb a b = true <-> a = b.
Proof.
  unfold code_eqb. destruct a as [t f], b as [t' f']. cbn [oc_type oc_freq].
  rewrite andb_true_iff, type_eqb_iff, Z.eqb_eq. split; [intros [-> ->]; reflexivity|intros E; injection E; auto].
Qed.

Lemma index_in codes c : NoDup codes -> In c codes ->
  exists i, get_observation_code_index codes c = Z.of_nat i /\ nth_error codes i = Some c.
Proof.
  intros ND IC. unfold get_observation_code_index.
  assert (G : forall l z, In c l -> exists i, index_of (fun x => code_eqb x c) l z = (z + Z.of_nat i)%Z /\ nth_error l i = Some c).
  { induction l as [|x l IH]; intros z I; [contradiction|]. cbn [index_of]. destruct (code_eqb x c) eqn:E.
    - exists 0. apply code_eqb_iff in E. subst x. split; [lia|reflexivity].
    - destruct I as [->|I]; [exfalso; apply not_true_iff_false in E; apply E, code_eqb_iff; reflexivity|].
      destruct (IH (z + 1)%Z I) as (i & E1 & E2). exists (S i). split; [rewrite E1; lia|exact E2]. }
  destruct (G codes 0%Z IC) as (i & E1 & E2). exists i. split; [rewrite E1; lia|exact E2].
Qed.

Lemma scale_codes_ok codes head stale rest f : NoDup codes -> ~ In nul rest -> forall cs pre factors,
  Forall code_ok pre -> Forall code_ok cs -> incl cs codes -> length head = 10 -> factors_for codes pre f factors ->
  exists fs, scale_codes codes (head ++ flat_map code_text pre ++ flat_map code_text cs ++ rest ++ nul :: stale) f
               (length cs) (length pre) factors = Ok (0%Z, fs) /\ factors_for codes (pre ++ cs) f fs.
Proof.
  intros ND NR. induction cs as [|c cs IH]; intros pre factors Fp Fc IN LH FF; cbn [length scale_codes].
  - exists factors. rewrite app_nil_r. auto.
  - inversion Fc as [|x y Hc Fc']; subst x y.
    assert (EB : head ++ flat_map code_text pre ++ flat_map code_text (c :: cs) ++ rest ++ nul :: stale =
                 (head ++ flat_map code_text pre) ++ (code_text c ++ flat_map code_text cs ++ rest) ++ nul :: stale).
    { cbn [flat_map]. rewrite <- !app_assoc. reflexivity. }
    assert (SA : string_at (head ++ flat_map code_text pre ++ flat_map code_text (c :: cs) ++ rest ++ nul :: stale)
                   (10 + length pre * 4) = Ok (code_text c ++ flat_map code_text cs ++ rest)).
    { rewrite EB. apply string_at_buf; [rewrite app_length, codes_length; lia|].
      rewrite !in_app_iff. intros [I|[I|I]]; [exact (code_text_no_nul _ Hc I)|exact (codes_no_nul _ Fc' I)|exact (NR I)]. }
    rewrite SA. cbn [obind]. rewrite drop_code by exact Hc. rewrite type_roundtrip.
    destruct (index_in codes c ND (IN c (or_introl eq_refl))) as (i & EI & NI).
    destruct FF as [FL FN].
    assert (LI : i < length factors) by (rewrite FL; apply nth_error_Some; congruence).
    set (fs1 := set_nth factors i f).
    assert (ST : store factors (Z.to_nat (Z.of_nat i)) f = Ok fs1) by (rewrite Nat2Z.id; apply store_set; exact LI).
    assert (FF1 : factors_for codes (pre ++ [c]) f fs1).
    { split; [unfold fs1; rewrite set_nth_length by exact LI; exact FL|].
      intros j d Nd. unfold fs1. rewrite nth_set_nth by exact LI. specialize (FN j d Nd). destruct FN as [FI FO].
      rewrite in_app_iff. cbn [In].
      assert (JI : j = i <-> d = c).
      { split; [intros ->; congruence|]. intros ->. eapply (proj1 (NoDup_nth_error codes) ND); [apply nth_error_Some; congruence|congruence]. }
      destruct (Nat.eqb_spec j i) as [->|NJ].
      - assert (d = c) by (apply JI; reflexivity). subst d.
        split; [reflexivity|]. intros X. exfalso. apply X. auto.
      - assert (d <> c) by (intros ->; apply NJ, JI; reflexivity). split.
        + intros [I|[I|[]]]; [apply FI, I|congruence].
        + intros X. apply FO. intros I. apply X. auto. }
    assert (MK : mk_code (oc_type c) (oc_freq c) = Some c /\ (has_frequency (oc_type c) = true -> (oc_freq c = 1 \/ oc_freq c = 2)%Z)
                 /\ (has_frequency (oc_type c) = false -> oc_freq c = 0%Z)).
    { unfold code_ok in Hc. unfold mk_code. destruct c as [t z]; cbn [oc_type oc_freq] in *.
      destruct (has_frequency t); repeat split; try discriminate; try tauto.
      - destruct Hc as [-> | ->]; reflexivity.
      - now rewrite Hc. }
    destruct MK as (MK & M1 & M0).
    specialize (IH (pre ++ [c]) fs1). rewrite app_length in IH. cbn [length] in IH. rewrite Nat.add_1_r in IH.
    rewrite flat_map_app in IH. cbn [flat_map] in IH. rewrite app_nil_r, <- !app_assoc in IH.
    destruct IH as (fs & EF & FF'); [apply Forall_app; auto|exact Fc'|intros x I; apply IN; right; exact I|exact LH|exact FF1|].
    exists fs. split; [|exact FF'].
    cbn [flat_map]. rewrite <- !app_assoc. cbn [app] in EF |- *.
    destruct (has_frequency (oc_type c)) eqn:HF.
    + rewrite strtol_freq by (try exact (M1 eq_refl); reflexivity). cbn [l_used l_range l_val Nat.eqb].
      replace (wrap 32 (oc_freq c)) with (oc_freq c) by (destruct (M1 eq_refl) as [-> | ->]; reflexivity).
      destruct (Z.eqb_spec (oc_freq c) 0) as [Z0|_]; [destruct (M1 eq_refl); lia|]. cbn [orb andb].
      rewrite MK, EI. destruct (Z.ltb_spec (Z.of_nat i) 0); [lia|]. rewrite ST. cbn [obind]. exact EF.
    + cbn [andb]. rewrite (M0 eq_refl) in MK. rewrite MK, EI. destruct (Z.ltb_spec (Z.of_nat i) 0); [lia|].
      rewrite ST. cbn [obind]. exact EF.
Qed.

Record mscale := MS { ms_neg : bool; ms_factor : list Z; ms_num : list Z; ms_codes : list obs_code; ms_rest : chars; ms_stale : chars }.
Definition mscale_line (m : mscale) : chars :=
  scale_text (ms_neg m) (ms_factor m) (ms_num m) (ms_codes m) (ms_rest m) ++ nul :: ms_stale m.
Definition mscale_ok (codes : list obs_code) (m : mscale) : Prop :=
  Forall code_ok (ms_codes m) /\ incl (ms_codes m) codes /\ NoDup (ms_codes m) /\
  numeral_ok (ms_factor m) /\ length (numeral (ms_neg m) (ms_factor m)) <= 4 /\ nval (ms_neg m) (ms_factor m) <> 0%Z /\
  numeral_ok (ms_num m) /\ length (ms_num m) <= 2 /\ dval (ms_num m) = Z.of_nat (length (ms_codes m)) /\
  1 <= length (ms_codes m) /\ ~ In nul (ms_rest m).

Lemma numeral_no_nul neg ds : digits_ok ds -> ~ In nul (numeral neg ds).
Proof.
  intros H I. unfold numeral in I. apply in_app_or in I. destruct I as [I|I].
  - destruct neg; [destruct I as [I|[]]; discriminate|exact I].
  - exact (digits_no_nul _ H I).
Qed.

Lemma dval4 ds : digits_ok ds -> length ds <= 4 -> (0 <= dval ds < 10000)%Z.
Proof.
  intros Hd L. split; [apply dval_nonneg, Hd|]. unfold digits_ok in Hd.
  destruct ds as [|a [|b [|c [|d [|]]]]]; cbn [length] in L; try lia; rewrite ?Forall_cons_iff in Hd; cbv beta in Hd;
    unfold dval; cbn [fold_left]; lia.
Qed.

Lemma dchar_not_blank d : (0 <= d <= 9)%Z -> dchar d <> blank.
Proof. intros H E. apply (f_equal code) in E. rewrite code_dchar in E by exact H. change (code blank) with 32%Z in E. lia. Qed.

Lemma scale_line_ok codes old m : NoDup codes -> mscale_ok codes m ->
  exists fs, scale_line codes old (mscale_line m) = Ok (0%Z, fs) /\
             factors_for codes (ms_codes m) (nval (ms_neg m) (ms_factor m)) fs.
Proof.
  destruct m as [neg f num cs rest stale]. unfold mscale_ok, mscale_line. cbn [ms_neg ms_factor ms_num ms_codes ms_rest ms_stale].
  intros ND (Fc & IN & NDc & Hf & Lf & Nf & Hn & Ln & Dn & L1 & NR).
  set (line := scale_text neg f num cs rest ++ nul :: stale). unfold scale_line.
  assert (Lnum : length (rjust 2 (dstr num)) = 2) by (apply rjust_length; unfold dstr; rewrite map_length; exact Ln).
  assert (Lfac : length (rjust 4 (numeral neg f)) = 4) by (apply rjust_length; exact Lf).
  replace (load line 0) with (Ok "D"%char) by reflexivity. cbn [obind]. change (negb ("D" =? "D")%char) with false. cbv iota.
  assert (NC : ~ In nul (flat_map code_text cs ++ rest)).
  { rewrite in_app_iff. intros [I|I]; [exact (codes_no_nul _ Fc I)|exact (NR I)]. }
  assert (Nnum : ~ In nul (rjust 2 (dstr num))).
  { unfold rjust. rewrite in_app_iff. intros [I|I]; [exact (blanks_no_nul _ I)|exact (digits_no_nul _ (proj2 Hn) I)]. }
  assert (Nfac : ~ In nul (rjust 4 (numeral neg f))).
  { unfold rjust. rewrite in_app_iff. intros [I|I]; [exact (blanks_no_nul _ I)|exact (numeral_no_nul _ _ (proj2 Hf) I)]. }
  assert (E2 : line = ["D"%char; blank] ++ (rjust 4 (numeral neg f) ++ repeat blank 2 ++ rjust 2 (dstr num) ++ flat_map code_text cs ++ rest) ++ nul :: stale)
    by reflexivity.
  assert (S2 : string_at line 2 = Ok (rjust 4 (numeral neg f) ++ repeat blank 2 ++ rjust 2 (dstr num) ++ flat_map code_text cs ++ rest)).
  { rewrite E2. apply string_at_buf; [reflexivity|]. rewrite in_app_iff. intros [I|I]; [exact (Nfac I)|].
    rewrite in_app_iff in I. destruct I as [I|I]; [exact (blanks_no_nul _ I)|]. rewrite in_app_iff in I.
    destruct I as [I|I]; [exact (Nnum I)|exact (NC I)]. }
  rewrite S2. cbn [obind].
  assert (BV : (- 10000 < nval neg f < 10000)%Z).
  { assert (length f <= 4) by (unfold numeral, dstr in Lf; rewrite app_length, map_length in Lf; lia).
    pose proof (dval4 f (proj2 Hf) H). unfold nval. destruct neg; lia. }
  assert (ST2 : strtol (rjust 4 (numeral neg f) ++ repeat blank 2 ++ rjust 2 (dstr num) ++ flat_map code_text cs ++ rest) =
     LRes (nval neg f) 4 false).
  { unfold rjust at 1. rewrite <- app_assoc. rewrite strtol_numeral; [f_equal; lia|exact Hf|reflexivity|unfold LONG_MIN, LONG_MAX; lia]. }
  rewrite ST2. cbn [l_val l_used l_range Nat.eqb]. rewrite wrap_id by (try lia; cbn; lia).
  destruct (Z.eqb_spec (nval neg f) 0); [contradiction|]. cbn [orb].
  assert (E8 : line = (["D"%char; blank] ++ rjust 4 (numeral neg f) ++ repeat blank 2) ++ (rjust 2 (dstr num) ++ flat_map code_text cs ++ rest) ++ nul :: stale).
  { rewrite E2. rewrite <- !app_assoc. reflexivity. }
  assert (L8 : length (["D"%char; blank] ++ rjust 4 (numeral neg f) ++ repeat blank 2) = 8).
  { rewrite !app_length, Lfac. reflexivity. }
  assert (S8 : string_at line 8 = Ok (rjust 2 (dstr num) ++ flat_map code_text cs ++ rest)).
  { rewrite E8. apply string_at_buf; [exact L8|]. rewrite in_app_iff. intros [I|I]; [exact (Nnum I)|exact (NC I)]. }
  assert (C89 : exists c8 c9, load line 8 = Ok c8 /\ load line 9 = Ok c9 /\ c9 <> blank).
  { pose proof Hn as [Hne Hd].
    assert (K8 : skipn 8 line = (rjust 2 (dstr num) ++ flat_map code_text cs ++ rest) ++ nul :: stale).
    { rewrite E8. apply skipn_app_exact, L8. }
    assert (K9 : skipn 9 line = tl (skipn 8 line)).
    { change 9 with (1 + 8). rewrite <- skipn_skipn'. destruct (skipn 8 line); reflexivity. }
    clearbody line. unfold rjust in K8. destruct num as [|a [|b [|]]]; [congruence| | |cbn [length] in Ln; lia].
    - exists blank, (dchar a). cbn [rjust dstr map length Nat.sub repeat app] in K8. rewrite K8 in K9. cbn [tl] in K9.
      rewrite (load_skip _ _ _ _ K8), (load_skip _ _ _ _ K9). repeat split; auto.
      apply dchar_not_blank, (Forall_inv Hd).
    - exists (dchar a), (dchar b). cbn [rjust dstr map length Nat.sub repeat app] in K8. rewrite K8 in K9. cbn [tl] in K9.
      rewrite (load_skip _ _ _ _ K8), (load_skip _ _ _ _ K9). repeat split; auto.
      apply dchar_not_blank, (Forall_inv (Forall_inv_tail Hd)). }
  destruct C89 as (c8 & c9 & -> & -> & N9). cbn [obind].
  assert (NB : Ascii.eqb c8 c9 && Ascii.eqb c8 blank = false).
  { destruct (Ascii.eqb_spec c8 c9) as [->|_]; [|reflexivity]. destruct (Ascii.eqb_spec c9 blank); [contradiction|reflexivity]. }
  rewrite NB, S8. cbn [obind].
  assert (ST8 : strtol (rjust 2 (dstr num) ++ flat_map code_text cs ++ rest) = LRes (dval num) (2 - length num + length num) false).
  { unfold rjust. rewrite <- app_assoc. assert (LD : length (dstr num) = length num) by (unfold dstr; apply map_length). rewrite LD.
    rewrite strtol_digits; [reflexivity|exact Hn| |lia]. destruct cs as [|c cs]; [simpl in L1; lia|]. cbn. reflexivity. }
  rewrite ST8. cbn [l_val l_used l_range]. rewrite Dn.
  assert (LC : length cs <= length codes) by (apply NoDup_incl_length; assumption).
  assert (B100 : (Z.of_nat (length cs) < 1000)%Z) by (rewrite <- Dn; apply dval3; [exact (proj2 Hn)|lia]).
  rewrite wrap_id by (try lia; cbn; lia).
  destruct (Z.eqb_spec (Z.of_nat (length cs)) 0); [lia|].
  destruct (Z.ltb_spec (Z.of_nat (length codes)) (Z.of_nat (length cs))); [lia|].
  destruct (Nat.eqb_spec (2 - length num + length num) 0); [lia|]. cbn [orb]. rewrite Nat2Z.id.
  destruct (scale_codes_ok codes (["D"%char; blank] ++ rjust 4 (numeral neg f) ++ repeat blank 2 ++ rjust 2 (dstr num)) stale rest
     (nval neg f) ND NR cs [] (repeat 1%Z (length codes)) (Forall_nil _) Fc IN) as (fs & EF & FF).
  - rewrite !app_length, Lfac, Lnum. reflexivity.
  - split; [apply repeat_length|]. intros i c Nc. split; [contradiction|]. intros _.
    rewrite nth_error_repeat; [reflexivity|]. apply nth_error_Some. congruence.
  - exists fs. split; [|exact FF]. rewrite <- EF. cbn [flat_map length]. f_equal. rewrite E2, <- !app_assoc. reflexivity.
Qed.

(* several lines: the factors of the last line only *)
Lemma scale_lines_last codes old ms m : NoDup codes -> Forall (mscale_ok codes) ms -> mscale_ok codes m ->
  exists fs, scale_lines codes old (map mscale_line (ms ++ [m])) = Ok (0%Z, fs) /\
             factors_for codes (ms_codes m) (nval (ms_neg m) (ms_factor m)) fs.
Proof.
  intros ND. revert old. induction ms as [|x ms IH]; intros old FM HM; cbn [app map scale_lines].
  - destruct (scale_line_ok codes old m ND HM) as (fs & -> & FF). cbn [obind fst snd Z.eqb]. eauto.
  - inversion FM as [|y z Hx FM']; subst y z.
    destruct (scale_line_ok codes old x ND Hx) as (fs & -> & _). cbn [obind fst snd Z.eqb]. apply IH; assumption.
Qed.

(* a header with several lines should give every listed observable its factor *)
Definition accumulated (codes : list obs_code) (ms : list mscale) (fs : list Z) : Prop :=
  length fs = length codes /\
  forall i c, nth_error codes i = Some c ->
    (forall m, In m ms -> In c (ms_codes m) -> nth_error fs i = Some (nval (ms_neg m) (ms_factor m))) /\
    ((forall m, In m ms -> ~ In c (ms_codes m)) -> nth_error fs i = Some 1%Z).
Definition L1c := ObsCode phase 1.
Definition L2c := ObsCode phase 2.
Definition scale10 := MS false [1; 0]%Z [1%Z] [L1c] [] [].
Definition scale100 := MS false [1; 0; 0]%Z [1%Z] [L2c] [] [].
Lemma mscale_ex1 : mscale_ok [L1c; L2c] scale10.
Proof.
  unfold mscale_ok. cbn [ms_codes ms_factor ms_neg ms_num ms_rest scale10].
  assert (D : forall l, forallb (fun d => (0 <=? d) && (d <=? 9))%Z l = true -> digits_ok l).
  { intros l H. apply Forall_forall. intros d I. rewrite forallb_forall in H. specialize (H d I).
    apply andb_true_iff in H. rewrite !Z.leb_le in H. exact H. }
  split; [constructor; [left; reflexivity|constructor]|].
  split; [intros x [<-|[]]; left; reflexivity|].
  split; [constructor; [intros []|constructor]|].
  split; [split; [discriminate|apply D; reflexivity]|]. split; [cbn; lia|]. split; [discriminate|].
  split; [split; [discriminate|apply D; reflexivity]|]. split; [cbn; lia|]. split; [reflexivity|].
  split; [cbn; lia|intros []].
Qed.
Lemma mscale_ex2 : mscale_ok [L1c; L2c] scale100.
Proof.
  unfold mscale_ok. cbn [ms_codes ms_factor ms_neg ms_num ms_rest scale100].
  assert (D : forall l, forallb (fun d => (0 <=? d) && (d <=? 9))%Z l = true -> digits_ok l).
  { intros l H. apply Forall_forall. intros d I. rewrite forallb_forall in H. specialize (H d I).
    apply andb_true_iff in H. rewrite !Z.leb_le in H. exact H. }
  split; [constructor; [right; reflexivity|constructor]|].
  split; [intros x [<-|[]]; right; left; reflexivity|].
  split; [constructor; [intros []|constructor]|].
  split; [split; [discriminate|apply D; reflexivity]|]. split; [cbn; lia|]. split; [discriminate|].
  split; [split; [discriminate|apply D; reflexivity]|]. split; [cbn; lia|]. split; [reflexivity|].
  split; [cbn; lia|intros []].
Qed.
Lemma codes_ex : NoDup [L1c; L2c].
Proof. repeat constructor; cbn; intuition discriminate. Qed.
Lemma scale_refuted :
  mscale_ok [L1c; L2c] scale10 /\ mscale_ok [L1c; L2c] scale100 /\
  exists fs, scale_lines [L1c; L2c] [] (map mscale_line [scale10; scale100]) = Ok (0%Z, fs) /\
             ~ accumulated [L1c; L2c] [scale10; scale100] fs.
Proof.
  split; [exact mscale_ex1|]. split; [exact mscale_ex2|]. eexists. split; [vm_compute; reflexivity|].
  intros [_ A]. destruct (A 0 L1c eq_refl) as [B _]. specialize (B scale10 (or_introl eq_refl) (or_introl eq_refl)). discriminate.
Qed.

(* a blank count means "all observables", but the line is then rejected *)
Definition all_scale : chars :=
  ["D"; " "; " "; " "; "1"; "0"; " "; " "; " "; " "]%char ++ repeat blank 50 ++
  ["S"; "Y"; "S"; " "; "/"; " "; "S"; "C"; "A"; "L"; "E"; " "; "F"; "A"; "C"; "T"; "O"; "R"]%char.
Lemma scale_all_refuted : scale_line [L1c; L2c] [] (all_scale ++ [nul]) = Ok (146%Z, [1; 1]%Z).
Proof. vm_compute. reflexivity. Qed.
