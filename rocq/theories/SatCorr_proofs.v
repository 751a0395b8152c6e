From Coq Require Import String List ZArith QArith Ascii Bool Lia Lqa Sorted.
From Verif Require Import Base CLib_model CLib_proofs Stream_model Lines_model Lines_proofs C04_proofs Icgem_model SatCorr_model.
Import ListNotations.

(* ---- specification: correction files ---- *)
(* a field: blanks, one character the reader passes over, a decimal number *)
Record cfield := CField { f_gap : nat; f_pad : ascii; f_neg : bool; f_ip : list Z; f_fp : list Z }.
Definition ftext (f : cfield) : chars := repeat blank (f_gap f) ++ [f_pad f] ++ fixed (f_neg f) (f_ip f) (f_fp f).
Definition fval (f : cfield) : Q := fixed_val (f_neg f) (f_ip f) (f_fp f).
Definition field_ok (f : cfield) : Prop :=
  f_pad f <> blank /\ f_pad f <> nul /\ f_pad f <> nl /\ f_ip f ++ f_fp f <> [] /\ digits_ok (f_ip f) /\ digits_ok (f_fp f).
Record crec := CRecord { r_day : cfield; r_sec : cfield; r_m : cfield; r_x : cfield; r_y : cfield; r_z : cfield; r_tail : chars }.
Definition rec_text (r : crec) : chars :=
  ftext (r_day r) ++ blank :: ftext (r_sec r) ++ blank :: ftext (r_m r) ++ blank :: ftext (r_x r) ++ blank ::
  ftext (r_y r) ++ blank :: ftext (r_z r) ++ r_tail r.
Definition corr (r : crec) : list Q := [fval (r_m r); fval (r_x r); fval (r_y r); fval (r_z r)].
Inductive citem := CComment (t : chars) | CData (r : crec).
Definition citem_text (i : citem) : chars := match i with CComment t => t | CData r => rec_text r end.
Definition comments (t : chars) : Prop := exists c t', t = c :: t' /\ (c = "C"%char \/ c = "/"%char).
Definition crec_ok (r : crec) : Prop :=
  field_ok (r_day r) /\ field_ok (r_sec r) /\ field_ok (r_m r) /\ field_ok (r_x r) /\ field_ok (r_y r) /\ field_ok (r_z r) /\
  no_extension (r_tail r) /\ ~ comments (rec_text r).
Definition citem_ok (i : citem) : Prop :=
  line_ok 256 (citem_text i) /\ match i with CComment t => comments t | CData r => crec_ok r end.
Fixpoint crecs (l : list citem) : list crec :=
  match l with [] => [] | CComment _ :: t => crecs t | CData r :: t => r :: crecs t end.
(* time order of (day, second) *)
Definition before (d s d' s' : Q) : Prop := d < d' \/ (d == d' /\ s < s').
Definition rec_before (r r' : crec) : Prop := before (fval (r_day r)) (fval (r_sec r)) (fval (r_day r')) (fval (r_sec r')).

Lemma comments_yes t : comments t <-> comment_line t = true.
Proof.
  unfold comments, comment_line. split.
  - intros (c & t' & -> & [-> | ->]); reflexivity.
  - destruct t as [|c t]; [discriminate|]. intros E. apply orb_true_iff in E. exists c, t. split; [reflexivity|].
    destruct E as [E|E]; apply Ascii.eqb_eq in E; auto.
Qed.
Lemma comments_no t : ~ comments t -> comment_line t = false.
Proof. rewrite comments_yes. destruct (comment_line t); [congruence|reflexivity]. Qed.

(* ---- fields ---- *)
Lemma skip_drop_pad n p rest : p <> blank -> skip_drop (repeat blank n ++ p :: rest) = Ok rest.
Proof.
  intros H. induction n as [|n IH]; cbn [repeat app skip_drop]; [|rewrite Ascii.eqb_refl; exact IH].
  destruct (Ascii.eqb_spec p blank); [contradiction|reflexivity].
Qed.
Lemma no_ext_removelast l : no_extension l -> no_extension (removelast l).
Proof. destruct l as [|c [|d l]]; intros H; [exact H|exact I|exact H]. Qed.

Lemma num_at_fixed neg ip fp tl : ip ++ fp <> [] -> digits_ok ip -> digits_ok fp -> no_extension tl -> tl <> [] ->
  exists q, num_at (fixed neg ip fp ++ tl) = Ok (Some q, length (fixed neg ip fp)) /\ q == fixed_val neg ip fp.
Proof.
  intros N I1 I2 NE NT. unfold num_at.
  assert (X : fixed neg ip fp ++ tl <> []).
  { intros C. apply app_eq_nil in C. destruct C; contradiction. }
  destruct (fixed neg ip fp ++ tl) eqn:E; [congruence|]. rewrite <- E. rewrite removelast_app by exact NT.
  destruct (from_chars_double_fixed neg ip fp (removelast tl) N I1 I2 (no_ext_removelast _ NE)) as (q & EQ & Q1). rewrite EQ. eauto.
Qed.
Lemma ftext_app f tl : ftext f ++ tl = repeat blank (f_gap f) ++ f_pad f :: (fixed (f_neg f) (f_ip f) (f_fp f) ++ tl).
Proof. unfold ftext. rewrite <- !app_assoc. reflexivity. Qed.

Lemma skipn_past (a : chars) c b : skipn (S (length a)) (a ++ c :: b) = b.
Proof. induction a as [|x a IH]; [reflexivity|exact IH]. Qed.

Lemma key_field_ok f tl : field_ok f -> exists q, key_field (ftext f ++ blank :: tl) = Ok (Some q, O, tl) /\ q == fval f.
Proof.
  intros (P1 & P2 & P3 & N & I1 & I2). unfold key_field. rewrite ftext_app, skip_drop_pad by exact P1. cbn [obind].
  destruct (num_at_fixed (f_neg f) (f_ip f) (f_fp f) (blank :: tl) N I1 I2) as (q & E & Q1); [repeat split; discriminate|discriminate|].
  rewrite E. cbn [obind]. unfold load. rewrite nth_error_app2, Nat.sub_diag by lia. cbn [nth_error of_option obind]. rewrite Ascii.eqb_refl.
  exists q. split; [|exact Q1]. f_equal. f_equal. apply skipn_past.
Qed.
Lemma cor_field_ok f tl old : field_ok f -> tl <> [] -> no_extension tl ->
  exists q, cor_field (ftext f ++ tl) old = Ok (q, O, skipn 1 tl) /\ q == fval f.
Proof.
  intros (P1 & P2 & P3 & N & I1 & I2) NT NE. unfold cor_field. rewrite ftext_app, skip_drop_pad by exact P1. cbn [obind].
  destruct (num_at_fixed (f_neg f) (f_ip f) (f_fp f) tl N I1 I2 NE NT) as (q & E & Q1). rewrite E. cbn [obind].
  exists q. split; [|exact Q1]. f_equal. f_equal. destruct tl as [|c tl]; [congruence|]. rewrite skipn_past. reflexivity.
Qed.

Definition same4 (a b : list Q) : Prop := Forall2 Qeq a b.
Lemma same4_length a b : same4 a b -> length a = length b.
Proof. induction 1; cbn [length]; congruence. Qed.

Lemma no_ext_tail t rest : no_extension t -> no_extension (t ++ nul :: rest).
Proof. destruct t as [|c t]; intros H; [repeat split; discriminate|exact H]. Qed.

(* what one record does *)
Definition stops (jd sec : Q) (r : crec) : bool := Qle_bool jd (fval (r_day r)) && Qle_bool sec (fval (r_sec r)).
Lemma Qle_bool_ext a b c d : a == b -> c == d -> Qle_bool a c = Qle_bool b d.
Proof.
  intros E F. destruct (Qle_bool a c) eqn:X, (Qle_bool b d) eqn:Y; try reflexivity.
  - apply Qle_bool_iff in X. rewrite E, F in X. apply Qle_bool_iff in X. congruence.
  - apply Qle_bool_iff in Y. rewrite <- E, <- F in Y. apply Qle_bool_iff in Y. congruence.
Qed.
Lemma comment_app t rest : comment_line (t ++ nul :: rest) = comment_line t.
Proof. destruct t as [|c t]; reflexivity. Qed.

Lemma body_rec jd sec st r : crec_ok r -> c_err st = O -> length (c_dm st) = 4%nat ->
  exists buf, (stops jd sec r = true /\ cor_body jd sec st (rec_text r) = inr (Stop (Cst buf (c_dm st) O))) \/
    (stops jd sec r = false /\ exists dm, cor_body jd sec st (rec_text r) = inl (Cst buf dm O) /\ same4 dm (corr r)).
Proof.
  intros (K1 & K2 & K3 & K4 & K5 & K6 & NE & NC) E0 L4. apply comments_no in NC. unfold cor_body. rewrite E0. cbn [Nat.eqb negb c_buf c_dm c_err].
  unfold into_buffer. set (stale := skipn _ _). rewrite comment_app, NC.
  exists (rec_text r ++ nul :: stale).
  unfold rec_text. rewrite <- app_assoc, <- app_comm_cons.
  destruct (key_field_ok (r_day r) ((ftext (r_sec r) ++ blank :: ftext (r_m r) ++ blank :: ftext (r_x r) ++ blank ::
     ftext (r_y r) ++ blank :: ftext (r_z r) ++ r_tail r) ++ nul :: stale) K1) as (q1 & -> & Q1). cbn [obind].
  rewrite <- app_assoc, <- app_comm_cons.
  destruct (key_field_ok (r_sec r) ((ftext (r_m r) ++ blank :: ftext (r_x r) ++ blank ::
     ftext (r_y r) ++ blank :: ftext (r_z r) ++ r_tail r) ++ nul :: stale) K2) as (q2 & -> & Q2). cbn [obind fst snd Nat.add].
  rewrite (Qle_bool_ext jd jd q1 (fval (r_day r)) ltac:(reflexivity) Q1), (Qle_bool_ext sec sec q2 (fval (r_sec r)) ltac:(reflexivity) Q2).
  fold (stops jd sec r). destruct (stops jd sec r) eqn:S; [left|right]; (split; [reflexivity|]).
  - reflexivity.
  - destruct (c_dm st) as [|o1 [|o2 [|o3 [|o4 [|o5 dm]]]]]; try discriminate L4. cbn [cor_fields].
    rewrite <- app_assoc, <- app_comm_cons.
    destruct (cor_field_ok (r_m r) (blank :: (ftext (r_x r) ++ blank :: ftext (r_y r) ++ blank :: ftext (r_z r) ++ r_tail r) ++ nul :: stale) o1 K3) as (v1 & -> & V1);
      [discriminate|repeat split; discriminate|]. cbn [obind skipn]. rewrite <- app_assoc, <- app_comm_cons.
    destruct (cor_field_ok (r_x r) (blank :: (ftext (r_y r) ++ blank :: ftext (r_z r) ++ r_tail r) ++ nul :: stale) o2 K4) as (v2 & -> & V2);
      [discriminate|repeat split; discriminate|]. cbn [obind skipn]. rewrite <- app_assoc, <- app_comm_cons.
    destruct (cor_field_ok (r_y r) (blank :: (ftext (r_z r) ++ r_tail r) ++ nul :: stale) o3 K5) as (v3 & -> & V3);
      [discriminate|repeat split; discriminate|]. cbn [obind skipn]. rewrite <- app_assoc.
    destruct (cor_field_ok (r_z r) (r_tail r ++ nul :: stale) o4 K6) as (v4 & -> & V4);
      [intros C; apply app_eq_nil in C; destruct C; discriminate|apply no_ext_tail, NE|]. cbn [obind fst snd Nat.add].
    eexists. split.
    + reflexivity.
    + unfold same4, corr. constructor; [exact V1|]. constructor; [exact V2|]. constructor; [exact V3|]. constructor; [exact V4|constructor].
Qed.

(* the records before the first one that stops the scan *)
Fixpoint taken (jd sec : Q) (l : list crec) : list crec :=
  match l with [] => [] | r :: t => if stops jd sec r then [] else r :: taken jd sec t end.
Definition final (dm0 : list Q) (l : list crec) : list Q := fold_left (fun _ r => corr r) l dm0.

Lemma run_items jd sec items : forall st, Forall citem_ok items -> c_err st = O -> length (c_dm st) = 4%nat ->
  exists st', (run_lines (cor_body jd sec) st (map citem_text items) = inl st' \/
               run_lines (cor_body jd sec) st (map citem_text items) = inr (Stop st')) /\
    c_err st' = O /\ exists dm0, same4 dm0 (c_dm st) /\ same4 (c_dm st') (final dm0 (taken jd sec (crecs items))).
Proof.
  induction items as [|i items IH]; intros st F E L.
  - exists st. split; [left; reflexivity|]. split; [exact E|]. exists (c_dm st).
    assert (R : forall l : list Q, same4 l l) by (induction l; constructor; [reflexivity|assumption]). split; apply R.
  - inversion F as [|x y [LO OK] F']; subst. destruct i as [t|r]; cbn [map run_lines citem_text crecs].
    + assert (B : cor_body jd sec st t = inl (Cst (into_buffer (c_buf st) t) (c_dm st) (c_err st))).
      { unfold cor_body. cbn [c_err]. rewrite E. cbn [Nat.eqb negb]. unfold into_buffer. apply comments_yes in OK. rewrite comment_app, OK. reflexivity. }
      rewrite B. exact (IH (Cst (into_buffer (c_buf st) t) (c_dm st) (c_err st)) F' E L).
    + destruct (body_rec jd sec st r OK E L) as (buf & [(S & B)|(S & dm & B & SD)]); rewrite B; cbn [taken]; rewrite S.
      * exists (Cst buf (c_dm st) O). split; [right; reflexivity|]. split; [reflexivity|]. exists (c_dm st).
        assert (R : forall l : list Q, same4 l l) by (induction l; constructor; [reflexivity|assumption]). split; apply R.
      * destruct (IH (Cst buf dm O) F' eq_refl) as (st' & R & E' & dm0 & S0 & S1).
        { cbn [c_dm]. rewrite (same4_length _ _ SD). reflexivity. }
        exists st'. split; [exact R|]. split; [exact E'|]. exists (c_dm st).
        assert (RR : forall l : list Q, same4 l l) by (induction l; constructor; [reflexivity|assumption]). split; [apply RR|].
        cbn [final fold_left] in *. unfold final in S1.
        assert (T : forall a b c : list Q, same4 a b -> same4 b c -> same4 a c).
        { induction a; intros b c H1 H2; inversion H1; subst; inversion H2; subst; constructor; [etransitivity; eassumption|eapply IHa; eassumption]. }
        assert (G : forall l d d', same4 d d' -> same4 (fold_left (fun (_ : list Q) r => corr r) l d) (fold_left (fun _ r => corr r) l d')).
        { induction l as [|z l IHl]; intros d d' H; [exact H|]. cbn [fold_left]. apply IHl, RR. }
        eapply T; [exact S1|]. apply G. eapply T; [exact S0|]. exact SD.
Qed.

Lemma scan_result buf0 dm0 jd sec items ls last : Forall citem_ok items -> seen ls last = map citem_text items ->
  exists dm, sat_corrections buf0 (Some (file_text ls last)) jd sec dm0 = Some (Ok (O, dm)) /\
    same4 dm (final [0; 0; 0; 0] (taken jd sec (crecs items))).
Proof.
  intros F SE. unfold sat_corrections.
  assert (FL : Forall (line_ok 256) (seen ls last)).
  { rewrite SE. apply Forall_map. eapply Forall_impl; [|exact F]. intros i [H _]. exact H. }
  unfold seen in FL. apply Forall_app in FL. destruct FL as [FL1 FL2].
  assert (LL : line_ok 256 last) by (destruct last; [split; [intros []|cbn; lia]|inversion FL2; assumption]).
  rewrite loop_text; [|exact FL1|exact LL|apply budget_lines]. rewrite SE.
  destruct (run_items jd sec items (Cst buf0 [0; 0; 0; 0] O) F eq_refl eq_refl) as (st' & [R|R] & E & d & S0 & S1); rewrite R, E.
  - exists (c_dm st'). split; [reflexivity|]. cbn [c_dm] in S0.
    destruct (taken jd sec (crecs items)) as [|r l]; [|exact S1]. cbn [final fold_left] in *.
    clear - S0 S1. revert S0 S1. generalize (c_dm st') as a. intros a S0 S1.
    assert (T : forall a b c : list Q, same4 a b -> same4 b c -> same4 a c).
    { clear. induction a; intros b c H1 H2; inversion H1; subst; inversion H2; subst; constructor; [etransitivity; eassumption|eapply IHa; eassumption]. }
    eapply T; eassumption.
  - exists (c_dm st'). split; [reflexivity|]. cbn [c_dm] in S0.
    destruct (taken jd sec (crecs items)) as [|r l]; [|exact S1]. cbn [final fold_left] in *.
    clear - S0 S1. revert S0 S1. generalize (c_dm st') as a. intros a S0 S1.
    assert (T : forall a b c : list Q, same4 a b -> same4 b c -> same4 a c).
    { clear. induction a; intros b c H1 H2; inversion H1; subst; inversion H2; subst; constructor; [etransitivity; eassumption|eapply IHa; eassumption]. }
    eapply T; eassumption.
Qed.

Definition epoch_before (r : crec) (jd sec : Q) : Prop := before (fval (r_day r)) (fval (r_sec r)) jd sec.
Lemma stops_before jd sec r : (jd < fval (r_day r) -> sec <= fval (r_sec r)) -> (stops jd sec r = false <-> epoch_before r jd sec).
Proof.
  intros H. unfold stops, epoch_before, before. destruct (Qle_bool jd (fval (r_day r))) eqn:A, (Qle_bool sec (fval (r_sec r))) eqn:B; cbn [andb].
  - apply Qle_bool_iff in A, B. split; [discriminate|]. intros [C|[C D]]; lra.
  - split; [intros _|reflexivity]. apply Qle_bool_iff in A. assert (B' : fval (r_sec r) < sec).
    { apply Qnot_le_lt. intros C. apply Qle_bool_iff in C. congruence. }
    right. split; [|exact B']. apply Qle_lteq in A. destruct A as [A|A]; [specialize (H A); lra|symmetry; exact A].
  - split; [intros _|reflexivity]. left. apply Qnot_le_lt. intros C. apply Qle_bool_iff in C. congruence.
  - split; [intros _|reflexivity]. left. apply Qnot_le_lt. intros C. apply Qle_bool_iff in C. congruence.
Qed.
Lemma before_trans r r' jd sec : rec_before r r' -> epoch_before r' jd sec -> epoch_before r jd sec.
Proof. unfold rec_before, epoch_before, before. intros [A|[A B]] [C|[C D]]; [left; lra|left; lra|left; lra|right; split; [rewrite A; exact C|lra]]. Qed.
Lemma rec_before_asym r r' : rec_before r r' -> rec_before r' r -> False.
Proof. unfold rec_before, before. intros [A|[A B]] [C|[C D]]; lra. Qed.

Lemma taken_split jd sec l : StronglySorted rec_before l -> (forall r, In r l -> jd < fval (r_day r) -> sec <= fval (r_sec r)) ->
  exists u, l = taken jd sec l ++ u /\ Forall (fun r => epoch_before r jd sec) (taken jd sec l) /\ Forall (fun r => ~ epoch_before r jd sec) u.
Proof.
  induction l as [|r l IH]; intros SS H.
  - exists []. split; [reflexivity|]. split; constructor.
  - inversion SS as [|x y SS' FA]; subst. pose proof (stops_before jd sec r (H r (or_introl eq_refl))) as SB.
    cbn [taken]. destruct (stops jd sec r) eqn:S.
    + exists (r :: l). split; [reflexivity|]. split; [constructor|]. assert (N : ~ epoch_before r jd sec) by (intros C; apply SB in C; discriminate).
      constructor; [exact N|]. eapply Forall_impl; [|exact FA]. intros r' B C. apply N. eapply before_trans; eassumption.
    + destruct IH as (u & E & F1 & F2); [exact SS'|intros r' I; apply H; right; exact I|].
      exists u. split; [cbn [app]; f_equal; exact E|]. split; [|exact F2]. constructor; [apply SB; reflexivity|exact F1].
Qed.

Lemma final_last dm0 l r : final dm0 (l ++ [r]) = corr r.
Proof. unfold final. rewrite fold_left_app. reflexivity. Qed.

Lemma sorted_last l r : StronglySorted rec_before (l ++ [r]) -> forall r', In r' (l ++ [r]) -> r' = r \/ rec_before r' r.
Proof.
  induction l as [|x l IH]; cbn [app]; intros SS r' I.
  - destruct I as [<-|[]]. left. reflexivity.
  - inversion SS as [|a b SS' FA]; subst. destruct I as [<-|I]; [|apply IH; assumption].
    right. rewrite Forall_forall in FA. apply FA. apply in_or_app. right. left. reflexivity.
Qed.
Lemma sorted_app_l (l u : list crec) : StronglySorted rec_before (l ++ u) -> StronglySorted rec_before l.
Proof.
  induction l as [|x l IH]; intros SS; [constructor|]. inversion SS as [|a b SS' FA]; subst. constructor; [apply IH, SS'|].
  apply Forall_app in FA. exact (proj1 FA).
Qed.

Lemma latest_correction buf0 dm0 jd sec items ls last : Forall citem_ok items -> seen ls last = map citem_text items ->
  StronglySorted rec_before (crecs items) -> (forall r, In r (crecs items) -> jd < fval (r_day r) -> sec <= fval (r_sec r)) ->
  exists dm, sat_corrections buf0 (Some (file_text ls last)) jd sec dm0 = Some (Ok (O, dm)) /\
    (forall r, In r (crecs items) -> epoch_before r jd sec ->
       (forall r', In r' (crecs items) -> epoch_before r' jd sec -> r' = r \/ rec_before r' r) -> same4 dm (corr r)) /\
    ((forall r, In r (crecs items) -> ~ epoch_before r jd sec) -> same4 dm [0; 0; 0; 0]).
Proof.
  intros F SE SS H. destruct (scan_result buf0 dm0 jd sec items ls last F SE) as (dm & E & S). exists dm. split; [exact E|].
  destruct (taken_split jd sec (crecs items) SS H) as (u & EQ & F1 & F2). set (T := taken jd sec (crecs items)) in *.
  split.
  - intros r I B M. assert (IT : In r T).
    { rewrite EQ in I. apply in_app_or in I. destruct I as [I|I]; [exact I|]. rewrite Forall_forall in F2. exfalso. apply (F2 r I B). }
    destruct (exists_last (l := T)) as (T' & r0 & ET); [intros C; rewrite C in IT; destruct IT|].
    rewrite ET, final_last in S.
    assert (R0 : In r0 T) by (rewrite ET; apply in_or_app; right; left; reflexivity).
    assert (I0 : In r0 (crecs items)) by (rewrite EQ; apply in_or_app; left; exact R0).
    assert (B0 : epoch_before r0 jd sec) by (rewrite Forall_forall in F1; apply F1, R0).
    assert (ST : StronglySorted rec_before (T' ++ [r0])) by (rewrite <- ET; apply (sorted_app_l T u); rewrite <- EQ; exact SS).
    assert (IT' : In r (T' ++ [r0])) by (rewrite <- ET; exact IT).
    destruct (sorted_last T' r0 ST r IT') as [->|C1]; [exact S|].
    destruct (M r0 I0 B0) as [->|C2]; [exact S|]. exfalso. eapply rec_before_asym; eassumption.
  - intros N. destruct T as [|r T'] eqn:ET; [exact S|]. exfalso. apply (N r); [rewrite EQ; left; reflexivity|]. inversion F1; assumption.
Qed.

(* ---- unreadable corrections ---- *)
(* a correction that cannot be read: in place of the number one character that starts none *)
Record bad_field := BadField { b_gap : nat; b_pad : ascii; b_char : ascii }.
Definition btext (b : bad_field) : chars := repeat blank (b_gap b) ++ [b_pad b; b_char b].
Definition bad_ok (b : bad_field) : Prop :=
  b_pad b <> blank /\ b_pad b <> nl /\ b_pad b <> nul /\ digit_of (b_char b) = None /\
  b_char b <> "-"%char /\ b_char b <> "."%char /\ b_char b <> nl /\ b_char b <> nul.
Definition any_field := (cfield + bad_field)%type.
Definition atext (a : any_field) : chars := match a with inl f => ftext f | inr b => btext b end.
Definition any_ok (a : any_field) : Prop := match a with inl f => field_ok f | inr b => bad_ok b end.
Definition is_bad (a : any_field) : bool := match a with inr _ => true | _ => false end.
Record draft := Draft { d_day : cfield; d_sec : cfield; d_cor : list any_field; d_tail : chars }.
Definition draft_text (d : draft) : chars :=
  ftext (d_day d) ++ blank :: ftext (d_sec d) ++ flat_map (fun a => blank :: atext a) (d_cor d) ++ d_tail d.
Definition draft_ok (d : draft) : Prop :=
  field_ok (d_day d) /\ field_ok (d_sec d) /\ length (d_cor d) = 4%nat /\ Forall any_ok (d_cor d) /\
  no_extension (d_tail d) /\ ~ comments (draft_text d) /\ line_ok 256 (draft_text d).

Lemma from_chars_bad b rest : bad_ok b -> from_chars_double (b_char b :: rest) = None.
Proof.
  intros (_ & _ & _ & D & M & P & _). unfold from_chars_double. destruct (Ascii.eqb_spec (b_char b) "-"); [contradiction|].
  unfold decimal. cbn [digits]. rewrite D. cbn. destruct (Ascii.eqb_spec (b_char b) "."); [contradiction|reflexivity].
Qed.
Lemma cor_field_bad b tl old : bad_ok b -> tl <> [] -> cor_field (btext b ++ tl) old = Ok (old, 1%nat, tl).
Proof.
  intros B NT. unfold cor_field, btext. rewrite <- app_assoc. cbn [app]. rewrite skip_drop_pad by apply B. cbn [obind]. unfold num_at.
  destruct tl as [|c tl]; [congruence|]. change (removelast (b_char b :: c :: tl)) with (b_char b :: removelast (c :: tl)).
  rewrite from_chars_bad by exact B. reflexivity.
Qed.

Definition bads (l : list any_field) : nat := length (filter is_bad l).
Lemma no_ext_blank (t : chars) : no_extension (blank :: t). Proof. repeat split; discriminate. Qed.

(* the fields are read one after the other; [s] starts behind the blank in front of the first *)
Lemma cor_fields_count l : forall olds tl, Forall any_ok l -> length olds = length l -> tl <> [] -> no_extension tl ->
  l <> [] -> exists dm, cor_fields (skipn 1 (flat_map (fun a => blank :: atext a) l ++ tl)) olds = Ok (dm, bads l) /\ length dm = length l.
Proof.
  induction l as [|a l IH]; intros olds tl F L NT NE NN; [congruence|].
  destruct olds as [|old olds]; [discriminate|]. inversion F as [|x y A F']; subst.
  cbn [flat_map app skipn]. rewrite <- app_assoc. cbn [cor_fields].
  set (rest := flat_map (fun a => blank :: atext a) l ++ tl).
  assert (NR : rest <> []) by (unfold rest; intros C; apply app_eq_nil in C; tauto).
  assert (NX : no_extension rest) by (unfold rest; destruct l; [exact NE|apply no_ext_blank]).
  destruct a as [f|b]; cbn [atext].
  - destruct (cor_field_ok f rest old A NR NX) as (q & E & _). rewrite E. cbn [obind].
    destruct l as [|a2 l].
    + cbn in L. destruct olds; [|discriminate]. cbn [cor_fields obind fst snd]. eexists. split; reflexivity.
    + destruct (IH olds tl F' ltac:(cbn in *; lia) NT NE ltac:(discriminate)) as (dm & E2 & L2). unfold rest. rewrite E2. cbn [obind fst snd].
      eexists. split; [reflexivity|]. cbn [length] in *. lia.
  - rewrite (cor_field_bad b rest old A NR). cbn [obind].
    destruct l as [|a2 l].
    + cbn in L. destruct olds; [|discriminate]. cbn [cor_fields obind fst snd]. eexists. split; reflexivity.
    + assert (X : cor_fields rest olds = cor_fields (blank :: skipn 1 rest) olds) by (unfold rest; reflexivity).
      rewrite X. destruct olds as [|o2 olds]; [discriminate|]. cbn [cor_fields].
      assert (Y : cor_field (blank :: skipn 1 rest) o2 = cor_field (skipn 1 rest) o2) by reflexivity. rewrite Y.
      change (obind (cor_field (skipn 1 rest) o2) _) with (cor_fields (skipn 1 rest) (o2 :: olds)).
      destruct (IH (o2 :: olds) tl F' ltac:(cbn in *; lia) NT NE ltac:(discriminate)) as (dm & E2 & L2). unfold rest. rewrite E2. cbn [obind fst snd].
      eexists. split; [reflexivity|]. cbn [length] in *. lia.
Qed.

Definition reached (jd sec : Q) (d : draft) : Prop := jd <= fval (d_day d) /\ sec <= fval (d_sec d).
Lemma body_draft jd sec st d : draft_ok d -> c_err st = O -> length (c_dm st) = 4%nat -> ~ reached jd sec d ->
  exists buf dm, cor_body jd sec st (draft_text d) = inl (Cst buf dm (bads (d_cor d))).
Proof.
  intros (K1 & K2 & L4 & FA & NE & NC & _) E0 LD NR. apply comments_no in NC. unfold cor_body. rewrite E0. cbn [Nat.eqb negb c_buf c_dm c_err].
  unfold into_buffer. set (stale := skipn _ _). rewrite comment_app, NC.
  exists (draft_text d ++ nul :: stale).
  assert (T : draft_text d ++ nul :: stale = ftext (d_day d) ++ blank :: (ftext (d_sec d) ++ flat_map (fun a => blank :: atext a) (d_cor d) ++ (d_tail d ++ nul :: stale))).
  { unfold draft_text. rewrite <- !app_assoc. cbn [app]. rewrite <- !app_assoc. reflexivity. }
  rewrite T.
  destruct (key_field_ok (d_day d) (ftext (d_sec d) ++ flat_map (fun a => blank :: atext a) (d_cor d) ++ (d_tail d ++ nul :: stale)) K1) as (q1 & -> & Q1). cbn [obind].
  destruct (d_cor d) as [|a l] eqn:EC; [discriminate|].
  set (fl := flat_map (fun a => blank :: atext a) (a :: l) ++ (d_tail d ++ nul :: stale)).
  assert (X : fl = blank :: skipn 1 fl) by reflexivity. rewrite X.
  destruct (key_field_ok (d_sec d) (skipn 1 fl) K2) as (q2 & -> & Q2). cbn [obind fst snd Nat.add].
  destruct (Qle_bool jd q1 && Qle_bool sec q2) eqn:B.
  { apply andb_true_iff in B. destruct B as [B1 B2]. apply Qle_bool_iff in B1, B2. exfalso. apply NR. split; [rewrite <- Q1|rewrite <- Q2]; assumption. }
  destruct (cor_fields_count (a :: l) (c_dm st) (d_tail d ++ nul :: stale) FA ltac:(congruence)) as (dm & E & _).
  - intros C. apply app_eq_nil in C. destruct C; discriminate.
  - apply no_ext_tail, NE.
  - discriminate.
  - unfold fl. rewrite E. exists dm. reflexivity.
Qed.

Lemma run_until jd sec items : forall st, Forall citem_ok items -> c_err st = O -> length (c_dm st) = 4%nat ->
  (forall r, In r (crecs items) -> stops jd sec r = false) ->
  exists st', run_lines (cor_body jd sec) st (map citem_text items) = inl st' /\ c_err st' = O /\ length (c_dm st') = 4%nat.
Proof.
  induction items as [|i items IH]; intros st F E L NS.
  - exists st. auto.
  - inversion F as [|x y [LO OK] F']; subst. destruct i as [t|r]; cbn [map run_lines citem_text crecs] in *.
    + assert (B : cor_body jd sec st t = inl (Cst (into_buffer (c_buf st) t) (c_dm st) (c_err st))).
      { unfold cor_body. cbn [c_err]. rewrite E. cbn [Nat.eqb negb]. unfold into_buffer. apply comments_yes in OK. rewrite comment_app, OK. reflexivity. }
      rewrite B. exact (IH (Cst (into_buffer (c_buf st) t) (c_dm st) (c_err st)) F' E L NS).
    + destruct (body_rec jd sec st r OK E L) as (buf & [(S & B)|(S & dm & B & SD)]).
      * rewrite (NS r) in S; [discriminate|left; reflexivity].
      * rewrite B. apply IH; [exact F'|reflexivity| |intros r' I; apply NS; right; exact I].
        cbn [c_dm]. rewrite (same4_length _ _ SD). reflexivity.
Qed.

Lemma unreadable_fails buf0 dm0 jd sec items d more ls last : Forall citem_ok items -> draft_ok d -> existsb is_bad (d_cor d) = true ->
  (forall r, In r (crecs items) -> ~ (jd <= fval (r_day r) /\ sec <= fval (r_sec r))) -> ~ reached jd sec d ->
  Forall (line_ok 256) more -> seen ls last = map citem_text items ++ draft_text d :: more ->
  exists code dm, sat_corrections buf0 (Some (file_text ls last)) jd sec dm0 = Some (Ok (code, dm)) /\ code <> O.
Proof.
  intros F DO EB NS NR FM SE. unfold sat_corrections.
  assert (FL : Forall (line_ok 256) (seen ls last)).
  { rewrite SE. apply Forall_app. split; [apply Forall_map; eapply Forall_impl; [|exact F]; intros i [H _]; exact H|].
    constructor; [apply DO|exact FM]. }
  unfold seen in FL. apply Forall_app in FL. destruct FL as [FL1 FL2].
  assert (LL : line_ok 256 last) by (destruct last; [split; [intros []|cbn; lia]|inversion FL2; assumption]).
  rewrite loop_text; [|exact FL1|exact LL|apply budget_lines]. rewrite SE, run_lines_app.
  destruct (run_until jd sec items (Cst buf0 [0; 0; 0; 0] O) F eq_refl eq_refl) as (st' & R & E & L).
  { intros r I. destruct (stops jd sec r) eqn:S; [|reflexivity]. exfalso. apply (NS r I). unfold stops in S. apply andb_true_iff in S.
    destruct S as [S1 S2]. apply Qle_bool_iff in S1, S2. split; assumption. }
  rewrite R. cbn [run_lines]. destruct (body_draft jd sec st' d DO E L NR) as (buf & dm & B). rewrite B.
  assert (NZ : bads (d_cor d) <> O).
  { unfold bads. apply existsb_exists in EB. destruct EB as (a & I & A). intros C. apply length_zero_iff_nil in C.
    assert (I2 : In a (filter is_bad (d_cor d))) by (apply filter_In; auto). rewrite C in I2. destruct I2. }
  destruct more as [|t more]; cbn [run_lines].
  - exists (bads (d_cor d)), dm. auto.
  - unfold cor_body. cbn [c_err c_dm c_buf]. destruct (Nat.eqb_spec (bads (d_cor d)) 0); [contradiction|]. cbn [negb].
    exists (bads (d_cor d)), dm. auto.
Qed.

Lemma no_file buf0 jd sec dm0 : sat_corrections buf0 None jd sec dm0 = Some (Ok (1%nat, dm0)).
Proof. reflexivity. Qed.
Lemma mass_fails s buf0 content jd sec u out0 code dm : sat_corrections buf0 content jd sec u = Some (Ok (code, dm)) -> code <> O ->
  mass_cog s buf0 content jd sec u out0 = Some (Ok (1%nat, out0)).
Proof. intros E N. unfold mass_cog. rewrite E. destruct code; [congruence|reflexivity]. Qed.

(* launch mass (kg) and centre of gravity (m) *)
Definition at_launch (s : satellite) : list Q :=
  match s with
  | Jason3 => [509.6; 1.0023; 0; -0.0021]
  | Cryosat2 => [724.6; 1.6312; 0.0112; 0.0137]
  end%Q.

(* mass and centre of gravity are the initial values plus the corrections *)
Lemma mass_is_sum s buf0 content jd sec u out0 dm : sat_corrections buf0 content jd sec u = Some (Ok (O, dm)) -> length dm = 4%nat ->
  exists out, mass_cog s buf0 content jd sec u out0 = Some (Ok (O, out)) /\
    forall k a c, nth_error (at_launch s) k = Some a -> nth_error dm k = Some c -> exists v, nth_error out k = Some v /\ v == a + c.
Proof.
  intros E L. unfold mass_cog. rewrite E. eexists. split; [reflexivity|].
  destruct dm as [|d1 [|d2 [|d3 [|d4 [|d5 dm]]]]]; try discriminate L.
  intros k a c. destruct s; do 4 (destruct k as [|k]; [intros A B; injection A as <-; injection B as <-; eexists; split; [reflexivity|cbn [fst snd]; ring]|]); destruct k; discriminate.
Qed.

Lemma cor_fields_length olds : forall s dm e, cor_fields s olds = Ok (dm, e) -> length dm = length olds.
Proof.
  induction olds as [|o olds IH]; intros s dm e E; cbn [cor_fields] in E; [injection E as <- _; reflexivity|].
  destruct (cor_field s o) as [[r s']|]; [|discriminate]. cbn [obind] in E. destruct (cor_fields s' olds) as [[l e']|] eqn:E'; [|discriminate].
  cbn [obind] in E. injection E as <- _. cbn [length]. f_equal. eapply IH, E'.
Qed.

(* the scan ends on every file *)
Lemma corrections_end buf0 content jd sec dm0 : exists r, sat_corrections buf0 content jd sec dm0 = Some r.
Proof.
  unfold sat_corrections. destruct content as [f|]; [|eauto].
  destruct (loop_total 256 (cor_body jd sec) ltac:(lia) (line_budget (s_open f)) (Cst buf0 [0; 0; 0; 0] O) (s_open f)) as (r & ->); [unfold line_budget; lia|].
  destruct r as [st|[st|]]; eauto.
Qed.

(* ---- concrete files ---- *)
Definition zero256 : chars := repeat nul 256.
Definition two_days : chars := lit "2457000.5 0.0 -1.5 0.2 0.3 0.4" ++ [nl] ++ lit "2457010.5 0.0 -3.5 0.6 0.7 0.8" ++ [nl].
(* a file as published: the first character of every field is lost *)
Lemma first_character_lost : exists dm, sat_corrections zero256 (Some two_days) (24570015 # 10) 0 [] = Some (Ok (O, dm)) /\
  same4 dm [35 # 10; 6 # 10; 7 # 10; 8 # 10].
Proof. eexists. split; [vm_compute; reflexivity|]. repeat constructor. Qed.

Definition fl (d : Z) : cfield := CField 0 "0"%char false [d] [5%Z].
Definition day_field (d : Z) : cfield := CField 0 "0"%char false [d; 0%Z] [0%Z].
Definition sec_field (s : list Z) : cfield := CField 0 "0"%char false s [0%Z].
Definition rec_at (d : Z) (s : list Z) (v : Z) : crec := CRecord (day_field d) (sec_field s) (fl v) (fl v) (fl v) (fl v) [].
Lemma rec_at_ok d s v : (0 <= d <= 9)%Z -> (0 <= v <= 9)%Z -> numeral_ok s -> line_ok 256 (rec_text (rec_at d s v)) -> citem_ok (CData (rec_at d s v)).
Proof.
  intros D V [NS DS] LS. 
  assert (FO : field_ok (fl v)) by (repeat split; try discriminate; repeat constructor; cbn; lia).
  assert (FD : field_ok (day_field d)) by (repeat split; try discriminate; repeat constructor; cbn; lia).
  assert (FS : field_ok (sec_field s)).
  { repeat split; try discriminate; [cbn; destruct s; [congruence|discriminate]|exact DS|repeat constructor; cbn; lia]. }
  split.
  - exact LS.
  - unfold crec_ok. cbn [rec_at r_day r_sec r_m r_x r_y r_z r_tail]. split; [exact FD|]. split; [exact FS|]. split; [exact FO|]. split; [exact FO|]. split; [exact FO|]. split; [exact FO|]. split; [exact I|]. rewrite comments_yes. discriminate.
Qed.

(* a record of the next day with fewer seconds is used *)
Definition tomorrow : list citem := [CData (rec_at 1 [0%Z] 1); CData (rec_at 2 [0%Z] 2)].
Definition text_of (l : list citem) : chars := file_text (map citem_text l) [].
Lemma tomorrow_used : Forall citem_ok tomorrow /\ StronglySorted rec_before (crecs tomorrow) /\
  ~ epoch_before (rec_at 2 [0%Z] 2) 10 5 /\
  exists dm, sat_corrections zero256 (Some (text_of tomorrow)) 10 5 [] = Some (Ok (O, dm)) /\ same4 dm (corr (rec_at 2 [0%Z] 2)).
Proof.
  split; [unfold tomorrow; apply Forall_cons; [|apply Forall_cons; [|apply Forall_nil]]; (apply rec_at_ok; [lia|lia|split; [discriminate|repeat constructor; lia]|split; [vm_compute; intuition discriminate|vm_compute; lia]])|].
  split; [repeat constructor; left; reflexivity|].
  split; [intros [C|[C D]]; [vm_compute in C; discriminate|vm_compute in C; discriminate]|].
  eexists. split; [vm_compute; reflexivity|]. repeat constructor.
Qed.
(* a record exactly at the epoch is not used *)
Lemma exact_epoch_not_used : exists dm, sat_corrections zero256 (Some (text_of tomorrow)) 10 0 [] = Some (Ok (O, dm)) /\ same4 dm [0; 0; 0; 0].
Proof. eexists. split; [vm_compute; reflexivity|]. repeat constructor. Qed.
(* an empty line is parsed from the bytes of the line before *)
Lemma empty_line_error : exists dm, sat_corrections zero256 (Some (lit "C comment" ++ [nl; nl] ++ text_of tomorrow)) 30 0 [] = Some (Ok (2%nat, dm)).
Proof. eexists. vm_compute. reflexivity. Qed.
