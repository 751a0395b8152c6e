From Coq Require Import List ZArith QArith Ascii Bool Lia Sorted.
From Verif Require Import Base CLib_model CLib_proofs Stream_model Lines_model Lines_proofs Eop_model Eop_proofs
  Poly_proofs Rinex_proofs C04_model.
Import ListNotations.
Local Open Scope Z_scope.

(* ---- specification: C04 files ---- *)
Record field := Field { fd_gap : nat; fd_neg : bool; fd_ip : list Z; fd_fp : list Z }.
Record crec := CRec { c_date : chars; c_gap : nat; c_neg : bool; c_day : list Z; c_fields : list field; c_tail : chars }.
Inductive item := Comment (t : chars) | Rec (r : crec).

Definition field_text (f : field) : chars := repeat blank (S (fd_gap f)) ++ fixed (fd_neg f) (fd_ip f) (fd_fp f).
Definition field_val (f : field) : Q := fixed_val (fd_neg f) (fd_ip f) (fd_fp f).
Definition day (r : crec) : Z := nval (c_neg r) (c_day r).
Definition rec_text (r : crec) : chars :=
  c_date r ++ repeat blank (c_gap r) ++ numeral (c_neg r) (c_day r) ++ flat_map field_text (c_fields r) ++ c_tail r.
Definition item_text (i : item) : chars := match i with Comment t => t | Rec r => rec_text r end.

Definition field_ok (f : field) : Prop := fd_ip f ++ fd_fp f <> [] /\ digits_ok (fd_ip f) /\ digits_ok (fd_fp f).
Definition rec_ok (r : crec) : Prop :=
  length (c_date r) = 12%nat /\ ~ In nul (c_date r) /\
  (exists c t, c_date r = c :: t /\ c <> blank /\ c <> "#"%char) /\
  numeral_ok (c_day r) /\ LONG_MIN <= day r <= LONG_MAX /\
  length (c_fields r) = 6%nat /\ Forall field_ok (c_fields r) /\
  no_extension (c_tail r).
Definition item_ok (i : item) : Prop :=
  match i with
  | Comment t => match t with [] => True | c :: _ => c = blank \/ c = "#"%char end
  | Rec r => rec_ok r
  end.
Fixpoint records (l : list item) : list crec :=
  match l with [] => [] | Comment _ :: t => records t | Rec r :: t => r :: records t end.
(* reading stops at the first day outside on the right *)
Fixpoint until (fin : Z) (l : list crec) : list crec :=
  match l with [] => [] | r :: t => if fin <=? day r then [] else r :: until fin t end.
Definition taken (start fin : Z) (l : list crec) : list crec := filter (fun r => start <=? day r) (until fin l).

(* row k of the table is the record r *)
Definition row_is (tt : Z -> Q) (t : table Q) (k : nat) (r : crec) : Prop :=
  t_get t Mjd k = Ok (Some (tt (day r))) /\
  forall j c f, nth_error [Xp; Yp; Ut1; Lod; Dx; Dy] j = Some c -> nth_error (c_fields r) j = Some f ->
    exists q, t_get t c k = Ok (Some q) /\ (q == field_val f)%Q.

(* ---- conversions ---- *)
Lemma from_chars_long_numeral neg ds rest :
  numeral_ok ds -> not_digit_next rest -> LONG_MIN <= nval neg ds <= LONG_MAX ->
  from_chars_long (numeral neg ds ++ rest) = Some (nval neg ds, length (numeral neg ds)).
Proof.
  intros [Hn Hd] Hr Hb. unfold from_chars_long.
  assert (E : match numeral neg ds ++ rest with
     | c :: t => if Ascii.eqb c "-" then (true, 1%nat, t) else (false, O, numeral neg ds ++ rest)
     | [] => (false, O, numeral neg ds ++ rest) end
     = (neg, if neg then 1%nat else O, dstr ds ++ rest)).
  { destruct neg; unfold numeral; cbn [app]; [reflexivity|].
    destruct ds as [|d ds]; [congruence|]. inversion Hd; subst. cbn [dstr map app].
    rewrite dchar_neq by (try assumption; reflexivity). reflexivity. }
  rewrite E, digits_run by assumption.
  destruct (Nat.eqb_spec (length ds) 0) as [E0|_]; [destruct ds; [congruence|discriminate]|].
  fold (dval ds). change (if neg then - dval ds else dval ds) with (nval neg ds).
  rewrite Z.gtb_ltb. destruct (Z.ltb_spec LONG_MAX (nval neg ds)); [lia|].
  destruct (Z.ltb_spec (nval neg ds) LONG_MIN); [lia|]. simpl.
  unfold numeral, dstr. rewrite app_length, map_length. destruct neg; simpl; reflexivity.
Qed.

Lemma from_chars_double_fixed neg ip fp rest :
  ip ++ fp <> [] -> digits_ok ip -> digits_ok fp -> no_extension rest ->
  exists q, from_chars_double (fixed neg ip fp ++ rest) = Some (q, length (fixed neg ip fp)) /\ (q == fixed_val neg ip fp)%Q.
Proof.
  intros Hne Hi Hf Hr. destruct (decimal_fixed ip fp rest Hne Hi Hf Hr) as (q & Eq & Hq).
  assert (LF : length (fixed neg ip fp) = ((if neg then 1 else 0) + (length ip + 1 + length fp))%nat).
  { unfold fixed, dstr. rewrite !app_length, !map_length. destruct neg; simpl; lia. }
  rewrite LF. unfold from_chars_double.
  assert (AS : fixed neg ip fp ++ rest = (if neg then ["-"%char] else []) ++ dstr ip ++ ["."%char] ++ dstr fp ++ rest).
  { unfold fixed. rewrite <- !app_assoc. reflexivity. }
  rewrite AS. clear AS. destruct neg; cbn [app].
  - rewrite Ascii.eqb_refl. cbn [app] in Eq. rewrite Eq. eexists. split; [reflexivity|]. unfold fixed_val in *. rewrite Hq. reflexivity.
  - cbn [app] in Eq. rewrite Eq. destruct ip as [|d ip].
    + cbn [dstr map app]. exists q. split; [reflexivity|exact Hq].
    + cbn [dstr map app]. inversion Hi; subst. rewrite dchar_neq by (try assumption; reflexivity).
      exists q. split; [reflexivity|exact Hq].
Qed.

Lemma next_num_blanks n s : match s with c :: _ => c <> blank | [] => True end -> next_num (repeat blank n ++ s) = s.
Proof.
  intros H. induction n as [|n IH]; cbn [repeat app next_num].
  - destruct s as [|c s]; [reflexivity|]. cbn [next_num]. destruct (Ascii.eqb_spec c blank); [contradiction|reflexivity].
  - rewrite Ascii.eqb_refl. exact IH.
Qed.

Lemma dchar_neq_blank d : 0 <= d <= 9 -> dchar d <> blank.
Proof. intros H E. pose proof (code_dchar d H). rewrite E in H0. change (code blank) with 32 in H0. lia. Qed.

Lemma numeral_head neg ds rest : numeral_ok ds -> match numeral neg ds ++ rest with c :: _ => c <> blank | [] => True end.
Proof.
  intros [N D]. destruct neg; [discriminate|]. destruct ds as [|d ds]; [congruence|]. inversion D; subst.
  cbn. apply dchar_neq_blank. assumption.
Qed.
Lemma fixed_head neg ip fp rest : digits_ok ip -> match fixed neg ip fp ++ rest with c :: _ => c <> blank | [] => True end.
Proof.
  intros D. destruct neg; [discriminate|]. destruct ip as [|d ip]; [discriminate|]. inversion D; subst.
  cbn. apply dchar_neq_blank. assumption.
Qed.
Lemma fields_not_digit fs tail : no_extension tail -> not_digit_next (flat_map field_text fs ++ tail).
Proof. intros H. destruct fs; [destruct tail; simpl in *; tauto|reflexivity]. Qed.
Lemma fields_no_extension fs tail : no_extension tail -> no_extension (flat_map field_text fs ++ tail).
Proof. intros H. destruct fs; [exact H|]. cbn. repeat split; discriminate. Qed.

Lemma skipn_len {A} (a b : list A) : skipn (length a) (a ++ b) = b.
Proof. induction a; [reflexivity|assumption]. Qed.

Lemma read_fields fs : forall tail, Forall field_ok fs -> no_extension tail ->
  exists vs, read_doubles (length fs) (flat_map field_text fs ++ tail) = Some vs /\
    Forall2 (fun v f => (v == field_val f)%Q) vs fs.
Proof.
  induction fs as [|f fs IH]; intros tail F T.
  - exists []. split; [reflexivity|constructor].
  - inversion F as [|x y (N & I & P) F']; subst. cbn [length read_doubles flat_map]. rewrite <- app_assoc.
    assert (X : next_num (field_text f ++ flat_map field_text fs ++ tail) = fixed (fd_neg f) (fd_ip f) (fd_fp f) ++ flat_map field_text fs ++ tail).
    { unfold field_text at 1. rewrite <- app_assoc. apply next_num_blanks, fixed_head, I. }
    rewrite X.
    destruct (from_chars_double_fixed (fd_neg f) (fd_ip f) (fd_fp f) (flat_map field_text fs ++ tail) N I P) as (q & E & Q);
      [apply fields_no_extension, T|]. rewrite E, skipn_len.
    destruct (IH tail F' T) as (vs & E' & F2). rewrite E'. exists (q :: vs). split; [reflexivity|]. constructor; [exact Q|exact F2].
Qed.

Lemma cstr_keeps_date d rest : ~ In nul d -> exists t, cstr (d ++ rest) = d ++ t.
Proof.
  intros N. induction d as [|c d IH]; [exists (cstr rest); reflexivity|]. cbn [app cstr].
  destruct (Ascii.eqb_spec c nul) as [->|_]; [exfalso; apply N; left; reflexivity|].
  destruct IH as (t & ->); [intros I; apply N; right; exact I|]. exists t. reflexivity.
Qed.
Lemma cstr_app_no_nul a b : ~ In nul a -> cstr (a ++ b) = a ++ cstr b.
Proof.
  intros N. induction a as [|c a IH]; [reflexivity|]. cbn [app cstr].
  destruct (Ascii.eqb_spec c nul) as [->|_]; [exfalso; apply N; left; reflexivity|].
  rewrite IH; [reflexivity|]. intros I. apply N. right. exact I.
Qed.

Lemma dstr_no_nul ds : digits_ok ds -> ~ In nul (dstr ds).
Proof.
  intros D I. unfold dstr in I. apply in_map_iff in I. destruct I as (d & E & I).
  pose proof (proj1 (Forall_forall _ _) D d I) as B. cbn beta in B. pose proof (code_dchar d B) as C. rewrite E in C.
  change (code nul) with 0 in C. lia.
Qed.
Lemma blanks_no_nul' n : ~ In nul (repeat blank n).
Proof. intros I. apply repeat_spec in I. discriminate. Qed.
Lemma rec_text_cstr r : rec_ok r -> cstr (rec_text r) =
  c_date r ++ repeat blank (c_gap r) ++ numeral (c_neg r) (c_day r) ++ flat_map field_text (c_fields r) ++ cstr (c_tail r).
Proof.
  intros (_ & ND & _ & (_ & NO) & _ & _ & F & _). unfold rec_text.
  rewrite (cstr_app_no_nul _ _ ND). f_equal. rewrite (cstr_app_no_nul _ _ (blanks_no_nul' _)). f_equal.
  rewrite cstr_app_no_nul. 2:{ unfold numeral. intros I. apply in_app_or in I. destruct I as [I|I];
    [destruct (c_neg r); simpl in I; [destruct I as [I|I]; [discriminate|contradiction]|contradiction]|exact (dstr_no_nul _ NO I)]. }
  f_equal. induction (c_fields r) as [|f fs IH]; [reflexivity|]. inversion F as [|x y (N & I1 & I2) F']; subst.
  cbn [flat_map]. rewrite <- !app_assoc. rewrite cstr_app_no_nul; [f_equal; apply IH, F'|].
  unfold field_text, fixed. rewrite !in_app_iff. intros [I|[I|[I|[I|I]]]].
  - exact (blanks_no_nul' _ I).
  - destruct (fd_neg f); simpl in I; [destruct I as [I|I]; [discriminate|contradiction]|contradiction].
  - exact (dstr_no_nul _ I1 I).
  - destruct I as [I|I]; [discriminate|contradiction].
  - exact (dstr_no_nul _ I2 I).
Qed.
Lemma no_extension_cstr t : no_extension t -> no_extension (cstr t).
Proof. destruct t as [|c t]; [exact (fun x => x)|]. intros H. cbn [cstr]. destruct (Ascii.eqb c nul); [exact I|exact H]. Qed.

(* ---- the seven writes of a record ---- *)
Definition row_map (tt : Z -> Q) (f : amap Q) (k : nat) (r : crec) : Prop :=
  f Mjd k = Some (tt (day r)) /\
  forall j c fd, nth_error [Xp; Yp; Ut1; Lod; Dx; Dy] j = Some c -> nth_error (c_fields r) j = Some fd ->
    exists q, f c k = Some q /\ (q == field_val fd)%Q.

Lemma assign_holds t cap (f : amap Q) i v0 v1 v2 v3 v4 v5 : holds Q t cap f -> (i < cap)%nat ->
  exists t', assign t i c04_columns [v0; v1; v2; v3; v4; v5] = Ok t' /\
    holds Q t' cap (a_put Q (a_put Q (a_put Q (a_put Q (a_put Q (a_put Q f Xp i v0) Yp i v1) Ut1 i v2) Lod i v3) Dx i v4) Dy i v5) /\
    t_sz t' = t_sz t.
Proof.
  intros H L. unfold c04_columns.
  assert (SZ : forall (u : table Q) c v u', t_set u c i v = Ok u' -> t_sz u' = t_sz u).
  { intros u c v u' E. unfold t_set in E. destruct (t_arena u); [|discriminate]. destruct (load (t_base u) (col_nr c)); cbn [obind] in E; [|discriminate].
    destruct (store _ _ _); cbn [obind] in E; [|discriminate]. injection E as <-. reflexivity. }
  do 6 (cbn [assign]; match goal with H : holds Q ?u cap _ |- context [t_set ?u ?c i ?v] =>
    let t' := fresh "t'" in let E := fresh "E" in let H' := fresh "H'" in
    destruct (set_holds Q u cap _ c i v H L) as (t' & E & H'); rewrite E; cbn [obind]; apply SZ in E; clear H end).
  cbn [assign]. eexists. split; [reflexivity|]. split; [eassumption|]. congruence.
Qed.

Lemma set_sz (u : table Q) c i v u' : t_set u c i v = Ok u' -> t_sz u' = t_sz u.
Proof.
  intros E. unfold t_set in E. destruct (t_arena u); [|discriminate]. destruct (load (t_base u) (col_nr c)); cbn [obind] in E; [|discriminate].
  destruct (store _ _ _); cbn [obind] in E; [|discriminate]. injection E as <-. reflexivity.
Qed.

(* one record line inside the interval *)
Lemma body_rec tt start fin days n t cap f r : rec_ok r -> start <= day r < fin -> holds Q t cap f -> (n < cap)%nat ->
  exists t' f', c04_body tt start fin days (n, t) (rec_text r) = inl (S n, t') /\ holds Q t' cap f' /\ t_sz t' = t_sz t /\
    row_map tt f' n r /\ (forall c k, k <> n -> f' c k = f c k).
Proof.
  intros OK B H L. pose proof (rec_text_cstr r OK) as CS. unfold c04_body. rewrite CS.
  destruct OK as (LD & ND & (c0 & d0 & ED & NB & NH) & NO & LB & LF & FF & NE).
  set (rest := repeat blank (c_gap r) ++ numeral (c_neg r) (c_day r) ++ flat_map field_text (c_fields r) ++ cstr (c_tail r)).
  assert (HD : exists u, c_date r ++ rest = c0 :: u) by (rewrite ED; eexists; reflexivity). destruct HD as (u & HD). rewrite HD.
  destruct (Ascii.eqb_spec c0 blank); [contradiction|]. destruct (Ascii.eqb_spec c0 "#"); [contradiction|]. cbn [orb].
  rewrite <- HD, app_length, LD. destruct (Nat.ltb_spec (12 + length rest) 12); [lia|].
  assert (SK : skipn 12 (c_date r ++ rest) = rest) by (rewrite <- LD; apply skipn_len). rewrite SK. unfold rest. rewrite next_num_blanks by (apply numeral_head, NO).
  pose proof (no_extension_cstr _ NE) as NE'.
  rewrite from_chars_long_numeral by (try assumption; apply fields_not_digit, NE').
  fold (day r). destruct (Z.leb_spec start (day r)); [|lia]. destruct (Z.ltb_spec (day r) fin); [|lia]. cbn [andb].
  destruct (set_holds Q t cap f Mjd n (tt (day r)) H L) as (t1 & E1 & HT1). rewrite E1. rewrite skipn_len.
  destruct (read_fields (c_fields r) (cstr (c_tail r)) FF NE') as (vs & EV & F2). rewrite LF in EV. rewrite EV.
  destruct (c_fields r) as [|f0 [|f1 [|f2 [|f3 [|f4 [|f5 [|? ?]]]]]]] eqn:EF; try discriminate LF.
  inversion F2 as [|v0 ? vs0 ? Q0 F20]; subst. inversion F20 as [|v1 ? vs1 ? Q1 F21]; subst.
  inversion F21 as [|v2 ? vs2 ? Q2 F22]; subst. inversion F22 as [|v3 ? vs3 ? Q3 F23]; subst.
  inversion F23 as [|v4 ? vs4 ? Q4 F24]; subst. inversion F24 as [|v5 ? vs5 ? Q5 F25]; subst. inversion F25; subst.
  destruct (assign_holds t1 cap _ n v0 v1 v2 v3 v4 v5 HT1 L) as (t2 & E2 & HT2 & S2). rewrite E2.
  exists t2. eexists. split; [reflexivity|]. split; [exact HT2|]. split; [rewrite S2; exact (set_sz _ _ _ _ _ E1)|]. split.
  - assert (P : forall g (c c' : column) v, a_put Q g c n v c' n = if col_eqb c c' then Some v else g c' n).
    { intros. unfold a_put. rewrite Nat.eqb_refl, andb_true_r. reflexivity. }
    split; [rewrite !P; reflexivity|].
    intros j c fd Hc Hf. rewrite EF in Hf.
    destruct j as [|[|[|[|[|[|j]]]]]]; cbn in Hc, Hf; try (injection Hc as <-; injection Hf as <-; rewrite !P; eexists; split; [reflexivity|assumption]).
    destruct j; discriminate.
  - intros c k NK. unfold a_put. destruct (Nat.eqb_spec n k); [congruence|]. rewrite !andb_false_r. reflexivity.
Qed.

Lemma body_skip tt start fin days st r : rec_ok r -> day r < start -> day r < fin ->
  c04_body tt start fin days st (rec_text r) = inl st.
Proof.
  intros OK B B'. pose proof (rec_text_cstr r OK) as CS. unfold c04_body. rewrite CS. destruct st as [n t].
  destruct OK as (LD & ND & (c0 & d0 & ED & NB & NH) & NO & LB & LF & FF & NE).
  set (rest := repeat blank (c_gap r) ++ numeral (c_neg r) (c_day r) ++ flat_map field_text (c_fields r) ++ cstr (c_tail r)).
  assert (HD : exists u, c_date r ++ rest = c0 :: u) by (rewrite ED; eexists; reflexivity). destruct HD as (u & HD). rewrite HD.
  destruct (Ascii.eqb_spec c0 blank); [contradiction|]. destruct (Ascii.eqb_spec c0 "#"); [contradiction|]. cbn [orb].
  rewrite <- HD, app_length, LD. destruct (Nat.ltb_spec (12 + length rest) 12); [lia|].
  assert (SK : skipn 12 (c_date r ++ rest) = rest) by (rewrite <- LD; apply skipn_len). rewrite SK. unfold rest. rewrite next_num_blanks by (apply numeral_head, NO).
  rewrite from_chars_long_numeral by (try assumption; apply fields_not_digit, no_extension_cstr, NE).
  fold (day r). destruct (Z.leb_spec start (day r)); [lia|]. cbn [andb]. destruct (Z.leb_spec fin (day r)); [lia|]. reflexivity.
Qed.

Lemma body_stop tt start fin days st r : rec_ok r -> fin <= day r ->
  c04_body tt start fin days st (rec_text r) = inr (c04_finish days st).
Proof.
  intros OK B. pose proof (rec_text_cstr r OK) as CS. unfold c04_body. rewrite CS. destruct st as [n t].
  destruct OK as (LD & ND & (c0 & d0 & ED & NB & NH) & NO & LB & LF & FF & NE).
  set (rest := repeat blank (c_gap r) ++ numeral (c_neg r) (c_day r) ++ flat_map field_text (c_fields r) ++ cstr (c_tail r)).
  assert (HD : exists u, c_date r ++ rest = c0 :: u) by (rewrite ED; eexists; reflexivity). destruct HD as (u & HD). rewrite HD.
  destruct (Ascii.eqb_spec c0 blank); [contradiction|]. destruct (Ascii.eqb_spec c0 "#"); [contradiction|]. cbn [orb].
  rewrite <- HD, app_length, LD. destruct (Nat.ltb_spec (12 + length rest) 12); [lia|].
  assert (SK : skipn 12 (c_date r ++ rest) = rest) by (rewrite <- LD; apply skipn_len). rewrite SK. unfold rest. rewrite next_num_blanks by (apply numeral_head, NO).
  rewrite from_chars_long_numeral by (try assumption; apply fields_not_digit, no_extension_cstr, NE).
  fold (day r). destruct (Z.ltb_spec (day r) fin); [lia|]. rewrite andb_false_r. destruct (Z.leb_spec fin (day r)); [|lia]. reflexivity.
Qed.

Lemma body_comment tt start fin days st t : item_ok (Comment t) -> c04_body tt start fin days st t = inl st.
Proof.
  intros H. unfold c04_body. destruct st as [n u]. destruct t as [|c t]; [reflexivity|]. cbn in H. cbn [cstr].
  destruct (Ascii.eqb_spec c nul); [reflexivity|]. destruct H as [-> | ->]; rewrite Ascii.eqb_refl, ?orb_true_r; reflexivity.
Qed.

(* ---- whole files ---- *)
Definition loop_result (days : Z) (x : c04_state + outcome (Z * table Q)) : outcome (Z * table Q) :=
  match x with inl st => c04_finish days st | inr r => r end.

Lemma run_items tt start fin days cap : start <= fin -> forall items n t f done,
  Forall item_ok items -> holds Q t cap f -> length done = n ->
  (n + length (taken start fin (records items)) <= cap)%nat ->
  (forall k r, nth_error done k = Some r -> row_map tt f k r) ->
  exists t' f', loop_result days (run_lines (c04_body tt start fin days) (n, t) (map item_text items)) =
      Ok (if days =? Z.of_nat (n + length (taken start fin (records items))) then 0 else 1, t') /\
    holds Q t' cap f' /\ t_sz t' = t_sz t /\
    forall k r, nth_error (done ++ taken start fin (records items)) k = Some r -> row_map tt f' k r.
Proof.
  intros HSF. induction items as [|it items IH]; intros n t f done F H LD LC HD.
  - exists t, f. cbn [map run_lines loop_result records]. unfold taken. cbn [until filter length]. rewrite Nat.add_0_r, app_nil_r.
    split; [reflexivity|]. auto.
  - inversion F as [|x y OK F']; subst. cbn [map run_lines]. destruct it as [c|r].
    + cbn [item_text records] in *. rewrite body_comment by exact OK. cbn [map run_lines]. apply (IH _ t f done F' H eq_refl LC HD).
    + cbn [item_text records] in *. unfold taken in *. cbn [until] in *.
      destruct (Z.leb_spec fin (day r)) as [GE|LT].
      * rewrite body_stop by assumption. cbn [loop_result]. exists t, f. cbn [filter length]. rewrite Nat.add_0_r, app_nil_r.
        split; [reflexivity|]. auto.
      * cbn [filter] in *. destruct (Z.leb_spec start (day r)) as [S0|S1].
        -- cbn [length] in LC. destruct (body_rec tt start fin days (length done) t cap f r OK ltac:(lia) H ltac:(lia)) as (t1 & f1 & E & H1 & SZ & RM & OT).
           rewrite E. destruct (IH (S (length done)) t1 f1 (done ++ [r]) F' H1) as (t2 & f2 & E2 & H2 & SZ2 & RM2).
           ++ rewrite app_length. cbn. lia.
           ++ lia.
           ++ intros k r' HK. destruct (Nat.lt_trichotomy k (length done)) as [Lk|[->|Gk]].
              ** rewrite nth_error_app1 in HK by exact Lk. destruct (HD k r' HK) as [A B]. split; [rewrite OT by lia; exact A|].
                 intros j c fd H3 H4. destruct (B j c fd H3 H4) as (q & Q1 & Q2). exists q. rewrite OT by lia. auto.
              ** rewrite nth_error_app2, Nat.sub_diag in HK by lia. injection HK as <-. exact RM.
              ** rewrite nth_error_app2 in HK by lia. destruct (k - length done)%nat as [|[|?]] eqn:?; [lia|discriminate|discriminate].
           ++ exists t2, f2. rewrite E2. split; [cbn [length]; rewrite Nat.add_succ_r; reflexivity|].
              split; [exact H2|]. split; [congruence|]. rewrite <- app_assoc in RM2. exact RM2.
        -- rewrite body_skip by (try assumption; lia). apply (IH _ t f done F' H eq_refl LC HD).
Qed.

Lemma seen_map_ok ls last items : Forall item_ok items -> Forall (fun t => ~ In nl t /\ (length t < C04_LINE)%nat) (map item_text items) ->
  seen ls last = map item_text items -> Forall (line_ok C04_LINE) ls /\ line_ok C04_LINE last.
Proof.
  intros _ F E. rewrite <- E in F. unfold seen in F. apply Forall_app in F. destruct F as [F1 F2]. split; [exact F1|].
  destruct last as [|c l]; [split; [intros []|cbn; unfold C04_LINE; lia]|]. inversion F2; subst. assumption.
Qed.

Lemma budget_lines ls last : (length ls + 2 <= line_budget (s_open (file_text ls last)))%nat.
Proof.
  unfold line_budget, file_text. cbn [s_rest s_open]. rewrite app_length.
  assert (X : (length ls <= length (flat_map (fun t => t ++ [nl]) ls))%nat).
  { induction ls as [|t ls IH]; [cbn; lia|]. cbn [flat_map]. rewrite !app_length. cbn [length]. lia. }
  lia.
Qed.

Lemma c04_reads tt start fin t0 items ls last : start <= fin -> built t0 -> Forall item_ok items ->
  Forall (fun t => ~ In nl t /\ (length t < C04_LINE)%nat) (map item_text items) ->
  seen ls last = map item_text items ->
  Z.of_nat (length (taken start fin (records items))) <= fin - start ->
  exists t, parse_c04 tt (Some (file_text ls last)) start fin t0 =
      Some (Ok (if fin - start =? Z.of_nat (length (taken start fin (records items))) then 0 else 1, t)) /\
    Z.of_nat (t_sz t) = fin - start /\
    forall k r, nth_error (taken start fin (records items)) k = Some r -> row_is tt t k r.
Proof.
  intros HSF HB F FL E LT. unfold parse_c04. destruct (seen_map_ok ls last items F FL E) as [OK1 OK2].
  rewrite loop_text by (try assumption; apply budget_lines). rewrite E.
  assert (HH : exists cap f, holds Q (t_resize t0 (Z.to_nat (fin - start))) cap f /\ (Z.to_nat (fin - start) <= cap)%nat).
  { destruct (built_inv Q t0 HB) as (B & (a & A & L) & S).
    unfold t_resize. destruct (Nat.ltb_spec (Z.to_nat (fin - start)) (t_cap t0)) as [Lt|Ge].
    - exists (t_cap t0), (fun c i => match nth_error a (col_nr c * t_cap t0 + i)%nat with Some x => x | None => None end).
      split; [|lia]. split; [reflexivity|]. split; [exact B|]. exists a. split; [exact A|]. split; [exact L|].
      intros c i Hi. destruct (nth_error a (col_nr c * t_cap t0 + i)%nat) eqn:N; [reflexivity|].
      apply nth_error_None in N. pose proof (addr_lt (t_cap t0) c i Hi). lia.
    - exists (Z.to_nat (fin - start)), a_empty. split; [exact (new_holds Q _)|lia]. }
  destruct HH as (cap & f & HH & LC).
  destruct (run_items tt start fin (fin - start) cap HSF items 0 _ f [] F HH eq_refl) as (t' & f' & R & H' & SZ & RM).
  - lia.
  - intros k r X. destruct k; discriminate.
  - exists t'. unfold loop_result in R. cbn [Nat.add] in R.
    split; [destruct (run_lines _ _ _); rewrite R; reflexivity|].
    split; [rewrite SZ; unfold t_resize; destruct (_ <? _)%nat; cbn [t_sz]; lia|].
    intros k r N. cbn [app] in RM. destruct (RM k r N) as [A B].
    assert (KC : (k < cap)%nat). { assert (k < length (taken start fin (records items)))%nat by (apply nth_error_Some; congruence). lia. }
    split; [rewrite (get_ok Q t' cap f' Mjd k H' KC), A; reflexivity|].
    intros j c fd H3 H4. destruct (B j c fd H3 H4) as (q & Q1 & Q2). exists q.
    rewrite (get_ok Q t' cap f' c k H' KC), Q1. auto.
Qed.

(* ---- chronological files ---- *)
Definition chronological (l : list crec) : Prop := StronglySorted Z.lt (map day l).

Lemma increasing_fill : forall l a b, StronglySorted Z.lt l -> Forall (fun x => a <= x < b) l -> a <= b ->
  Z.of_nat (length l) <= b - a /\
  (Z.of_nat (length l) = b - a -> forall k x, nth_error l k = Some x -> x = a + Z.of_nat k) /\
  (Z.of_nat (length l) = b - a <-> (forall d, a <= d < b -> In d l)).
Proof.
  induction l as [|x l IH]; intros a b S F AB.
  - split; [cbn; lia|]. split; [intros _ k x X; destruct k; discriminate|]. split.
    + cbn. intros E d D. lia.
    + intros H. cbn. destruct (Z.eq_dec a b); [lia|]. exfalso. apply (H a). lia.
  - inversion S as [|? ? S' FX]; subst. inversion F as [|? ? Bx F']; subst.
    assert (F1 : Forall (fun y => x + 1 <= y < b) l).
    { apply Forall_forall. intros y Hy. pose proof (proj1 (Forall_forall _ _) FX y Hy). pose proof (proj1 (Forall_forall _ _) F' y Hy). cbn beta in *. lia. }
    destruct (IH (x + 1) b S' F1 ltac:(lia)) as (L & N & C). cbn [length]. split; [lia|]. split.
    + intros E k y Hy. assert (x = a) by lia. subst x. destruct k as [|k]; cbn in Hy; [injection Hy as <-; lia|].
      rewrite (N ltac:(lia) k y Hy). lia.
    + split.
      * intros E d D. assert (x = a) by lia. subst x. destruct (Z.eq_dec d a); [left; congruence|]. right. apply C; lia.
      * intros H. assert (x = a).
        { destruct (H a ltac:(lia)) as [E|I]; [exact E|]. pose proof (proj1 (Forall_forall _ _) FX a I). cbn beta in *. lia. }
        subst x. assert (Z.of_nat (length l) = b - (a + 1)); [|lia]. apply C. intros d D.
        destruct (H d ltac:(lia)) as [E|I]; [lia|exact I].
Qed.

Lemma taken_sorted start fin l : chronological l ->
  StronglySorted Z.lt (map day (taken start fin l)) /\ Forall (fun x => start <= x < fin) (map day (taken start fin l)) /\
  (forall r, In r (taken start fin l) <-> In r l /\ start <= day r < fin).
Proof.
  unfold chronological, taken. induction l as [|r l IH]; intros S.
  - cbn. split; [constructor|]. split; [constructor|]. intros x. split; [intros []|intros [[] _]].
  - cbn [map] in S. inversion S as [|? ? S' FX]; subst. destruct (IH S') as (A & B & C). cbn [until].
    destruct (Z.leb_spec fin (day r)) as [GE|LT].
    + cbn. split; [constructor|]. split; [constructor|]. intros x. split; [intros []|]. intros [[->|I] D]; [lia|].
      pose proof (proj1 (Forall_forall _ _) FX (day x) (in_map day _ _ I)). cbn beta in *. lia.
    + cbn [filter]. destruct (Z.leb_spec start (day r)) as [S0|S1].
      * cbn [map]. split; [|split].
        -- constructor; [exact A|]. apply Forall_forall. intros y Hy. apply in_map_iff in Hy. destruct Hy as (z & <- & Hz).
           apply C in Hz. exact (proj1 (Forall_forall _ _) FX (day z) (in_map day _ _ (proj1 Hz))).
        -- constructor; [lia|exact B].
        -- intros x. cbn [In]. rewrite C. split; [intros [->|[I D]]; [split; [auto|lia]|auto]|intros [[->|I] D]; auto].
      * split; [exact A|]. split; [exact B|]. intros x. rewrite C. cbn [In]. split; [intros [I D]; auto|intros [[->|I] D]; [lia|auto]].
Qed.

Lemma c04_chronological tt start fin t0 items ls last : start <= fin -> built t0 -> Forall item_ok items ->
  Forall (fun t => ~ In nl t /\ (length t < C04_LINE)%nat) (map item_text items) ->
  seen ls last = map item_text items -> chronological (records items) ->
  exists code t, parse_c04 tt (Some (file_text ls last)) start fin t0 = Some (Ok (code, t)) /\
    (code = 0 <-> forall d, start <= d < fin -> exists r, In r (records items) /\ day r = d) /\
    (code = 0 -> Z.of_nat (t_sz t) = fin - start /\
       forall r, In r (records items) -> start <= day r < fin -> row_is tt t (Z.to_nat (day r - start)) r).
Proof.
  intros HSF HB F FL E CH. destruct (taken_sorted start fin (records items) CH) as (A & B & C).
  destruct (increasing_fill _ start fin A B HSF) as (L & N & V). rewrite map_length in *.
  destruct (c04_reads tt start fin t0 items ls last HSF HB F FL E L) as (t & P & SZ & RM).
  eexists _, t. split; [exact P|].
  assert (EQ : (if fin - start =? Z.of_nat (length (taken start fin (records items))) then 0 else 1) = 0 <->
               Z.of_nat (length (taken start fin (records items))) = fin - start).
  { destruct (Z.eqb_spec (fin - start) (Z.of_nat (length (taken start fin (records items))))); split; intros; try lia. }
  split.
  - rewrite EQ, V. split; intros H d D.
    + apply H in D. apply in_map_iff in D. destruct D as (r & Er & I). exists r. split; [apply C, I|exact Er].
    + destruct (H d D) as (r & I & Er). apply in_map_iff. exists r. split; [exact Er|]. apply C. rewrite Er. auto.
  - intros H0. apply EQ in H0. split; [exact SZ|]. intros r I D.
    assert (IT : In r (taken start fin (records items))) by (apply C; auto).
    apply In_nth_error in IT. destruct IT as (k & K).
    assert (KD : day r = start + Z.of_nat k) by (apply (N H0 k); rewrite nth_error_map, K; reflexivity).
    replace (Z.to_nat (day r - start)) with k by lia. apply RM, K.
Qed.

(* the reader ends on every file *)
Lemma c04_ends tt content start fin t0 : exists r, parse_c04 tt content start fin t0 = Some r.
Proof.
  unfold parse_c04. destruct content as [f|]; [|eauto].
  destruct (loop_total C04_LINE (c04_body tt start fin (fin - start)) ltac:(unfold C04_LINE; lia) (line_budget (s_open f))
    (O, t_resize t0 (Z.to_nat (fin - start))) (s_open f)) as (r & ->); [unfold line_budget; lia|].
  destruct r; eauto.
Qed.

(* witnesses *)
Definition zero_field : field := Field 2 false [0] [5].
Definition mk_rec (d : list Z) : crec :=
  CRec (repeat "2"%char 12) 2 false d [zero_field; zero_field; zero_field; zero_field; zero_field; zero_field] [].
Definition day0 : crec := mk_rec [5; 9; 0; 0; 0].
Definition day1 : crec := mk_rec [5; 9; 0; 0; 1].
Lemma mk_rec_ok d : numeral_ok d -> nval false d <= LONG_MAX -> rec_ok (mk_rec d).
Proof.
  intros N L. split; [reflexivity|]. split; [vm_compute; intuition discriminate|].
  split; [exists "2"%char, (repeat "2"%char 11); split; [reflexivity|split; discriminate]|].
  split; [exact N|]. split.
  - unfold day. cbn [mk_rec c_neg c_day]. split; [|exact L]. unfold nval. pose proof (dval_nonneg d (proj2 N)). unfold LONG_MIN. lia.
  - split; [reflexivity|]. split; [|exact I].
    cbn [mk_rec c_fields]. repeat constructor; try discriminate; cbn; lia.
Qed.
Lemma day0_ok : rec_ok day0.
Proof. apply mk_rec_ok; [split; [discriminate|repeat constructor; lia]|vm_compute; discriminate]. Qed.
Lemma day1_ok : rec_ok day1.
Proof. apply mk_rec_ok; [split; [discriminate|repeat constructor; lia]|vm_compute; discriminate]. Qed.

(* a day listed three times: the third record is written outside the arena *)
Lemma duplicate_overflow : Forall item_ok [Rec day0; Rec day0; Rec day0] /\
  parse_c04 inject_Z (Some (file_text (map item_text [Rec day0; Rec day0; Rec day0]) [])) 59000 59001 (t_new Q 0) = Some UB.
Proof.
  split; [repeat (apply Forall_cons; [exact day0_ok|]); apply Forall_nil|]. vm_compute. reflexivity.
Qed.
(* a day listed twice and the next one missing: accepted *)
Lemma duplicate_accepted : Forall item_ok [Rec day0; Rec day0] /\
  (exists t, parse_c04 inject_Z (Some (file_text (map item_text [Rec day0; Rec day0]) [])) 59000 59002 (t_new Q 0) = Some (Ok (0, t)) /\
     t_get t Mjd 1 = Ok (Some (inject_Z 59000))) /\
  ~ exists r, In r (records [Rec day0; Rec day0]) /\ day r = 59001.
Proof.
  split; [repeat (apply Forall_cons; [exact day0_ok|]); apply Forall_nil|]. split.
  - eexists. split; vm_compute; reflexivity.
  - intros (r & [<-|[<-|[]]] & E); discriminate E.
Qed.
