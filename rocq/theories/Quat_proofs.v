From Coq Require Import String List ZArith QArith Ascii Bool Lia Lqa.
From Verif Require Import Base CLib_model CLib_proofs Stream_model Lines_proofs C04_proofs Quat_model.
Import ListNotations.
Local Open Scope nat_scope.

(* ---- specification: quaternion files ---- *)
Record dnum := DNum { n_neg : bool; n_ip : list Z; n_fp : list Z }.
Definition ntext (n : dnum) : chars := fixed (n_neg n) (n_ip n) (n_fp n).
Definition nval (n : dnum) : Q := fixed_val (n_neg n) (n_ip n) (n_fp n).
Definition nok (n : dnum) : Prop := n_ip n ++ n_fp n <> [] /\ digits_ok (n_ip n) /\ digits_ok (n_fp n).
(* a record line: 35 columns (date and an unused column), then four numbers each
   followed by a tab, with 16 unused columns between them *)
Record qline := QLine { l_pre : chars; l_w : dnum; l_g1 : chars; l_x : dnum; l_g2 : chars; l_y : dnum; l_g3 : chars; l_z : dnum; l_tail : chars }.
Definition qtext (l : qline) : chars :=
  l_pre l ++ ntext (l_w l) ++ tab :: l_g1 l ++ ntext (l_x l) ++ tab :: l_g2 l ++ ntext (l_y l) ++ tab :: l_g3 l ++ ntext (l_z l) ++ tab :: l_tail l.
Definition comment (t : chars) : Prop := match t with c :: _ => c = "#"%char | [] => False end.

Section Dates.
Variable date : chars -> option Q.
Definition qline_ok (l : qline) : Prop :=
  length (l_pre l) = 35%nat /\ length (l_g1 l) = 16%nat /\ length (l_g2 l) = 16%nat /\ length (l_g3 l) = 16%nat /\
  nok (l_w l) /\ nok (l_x l) /\ nok (l_y l) /\ nok (l_z l) /\
  line_ok 256 (qtext l) /\ ~ comment (qtext l) /\ date (cstr (qtext l)) <> None.
(* the record a line stands for *)
Definition is_rec (l : qline) (r : qrec) : Prop :=
  date (cstr (qtext l)) = Some (q_t r) /\ q_w r == nval (l_w l) /\ q_x r == nval (l_x l) /\ q_y r == nval (l_y l) /\ q_z r == nval (l_z l).
Inductive qitem := QComment (t : chars) | QData (l : qline).
Definition qitem_text (i : qitem) : chars := match i with QComment t => t | QData l => qtext l end.
Definition qitem_ok (i : qitem) : Prop :=
  match i with QComment t => comment t /\ line_ok 256 t /\ date (cstr t) = None | QData l => qline_ok l end.
Fixpoint qlines (l : list qitem) : list qline :=
  match l with [] => [] | QComment _ :: t => qlines t | QData l :: t => l :: qlines t end.
(* the last line may lack its line end *)
Definition otext (o : option qitem) : chars := match o with Some i => qitem_text i | None => [] end.
Definition olist (o : option qitem) : list qitem := match o with Some i => [i] | None => [] end.
Definition qfile (items : list qitem) (last : option qitem) : chars := file_text (map qitem_text items) (otext last).

(* what a stream has still to deliver *)
Definition to_come (s : stream) (ls : list qline) : Prop :=
  (exists items last, Forall qitem_ok items /\ Forall qitem_ok (olist last) /\ s = s_open (qfile items last) /\ ls = qlines (items ++ olist last))
  \/ (s_good s = false /\ ls = []).

Definition consecutive (file : list qline) (a b : qrec) : Prop :=
  exists p l1 l2 s, file = p ++ l1 :: l2 :: s /\ is_rec l1 a /\ is_rec l2 b.

(* ---- reading one line ---- *)
Lemma q_field_ok pre n post : nok n -> length pre + length (ntext n) + 1 <= 255 ->
  exists q, q_field (pre ++ ntext n ++ tab :: post) (length pre) = Ok (Some q, length pre + length (ntext n) + 1)%nat /\ q == nval n.
Proof.
  intros (N & I & F) L. unfold q_field.
  destruct (Nat.ltb_spec 255 (length pre)); [lia|]. rewrite skipn_len.
  set (k := (255 - length pre)%nat).
  assert (X : firstn k (ntext n ++ tab :: post) = ntext n ++ tab :: firstn (k - length (ntext n) - 1) post).
  { rewrite firstn_app. rewrite firstn_all2 by lia. f_equal. destruct (k - length (ntext n))%nat eqn:E; [lia|].
    cbn [firstn]. f_equal. f_equal. lia. }
  rewrite X. unfold ntext in *.
  destruct (from_chars_double_fixed (n_neg n) (n_ip n) (n_fp n) (tab :: firstn (k - length (fixed (n_neg n) (n_ip n) (n_fp n)) - 1) post) N I F) as (q & E & V).
  { repeat split; discriminate. }
  rewrite E. unfold load.
  rewrite nth_error_app2 by lia. replace (length pre + _ - length pre)%nat with (length (fixed (n_neg n) (n_ip n) (n_fp n))) by lia.
  rewrite nth_error_app2, Nat.sub_diag by lia. cbn [nth_error of_option obind]. rewrite Ascii.eqb_refl. exists q. split; [reflexivity|exact V].
Qed.

Lemma cstr_nul t rest : cstr (t ++ nul :: rest) = cstr t.
Proof. induction t as [|c t IH]; [reflexivity|]. cbn [app cstr]. destruct (Ascii.eqb c nul); [reflexivity|f_equal; exact IH]. Qed.

Lemma resolve_good buf l r : qline_ok l -> exists r', resolve_line date (into_buffer buf (qtext l)) r = Ok (0%Z, r') /\ is_rec l r'.
Proof.
  intros (P0 & P1 & P2 & P3 & W & X & Y & Z & [_ L] & _ & D). unfold resolve_line, into_buffer. rewrite cstr_nul.
  destruct (date (cstr (qtext l))) as [t|] eqn:ED; [clear D|congruence].
  set (stale := skipn _ _).
  unfold qtext in L. repeat (rewrite app_length in L; cbn [length] in L).
  replace (23 + 1 + (10 + 1)) with (length (l_pre l)) by (rewrite P0; reflexivity).
  (* scalar *)
  set (b := qtext l ++ nul :: stale).
  assert (B1 : b = l_pre l ++ ntext (l_w l) ++ tab :: (l_g1 l ++ ntext (l_x l) ++ tab :: l_g2 l ++ ntext (l_y l) ++ tab :: l_g3 l ++ ntext (l_z l) ++ tab :: l_tail l ++ nul :: stale)).
  { unfold b, qtext. repeat (rewrite <- app_assoc || rewrite <- app_comm_cons). reflexivity. }
  destruct (q_field_ok (l_pre l) (l_w l) (l_g1 l ++ ntext (l_x l) ++ tab :: l_g2 l ++ ntext (l_y l) ++ tab :: l_g3 l ++ ntext (l_z l) ++ tab :: l_tail l ++ nul :: stale) W) as (w & Ew & Vw); [lia|].
  rewrite <- B1 in Ew. rewrite Ew. cbn [obind].
  set (pre2 := l_pre l ++ ntext (l_w l) ++ tab :: l_g1 l).
  assert (L2 : (length (l_pre l) + length (ntext (l_w l)) + 1 + (4 + 1) + (10 + 1))%nat = length pre2).
  { unfold pre2. repeat (rewrite app_length; cbn [length]). lia. }
  assert (B2 : b = pre2 ++ ntext (l_x l) ++ tab :: (l_g2 l ++ ntext (l_y l) ++ tab :: l_g3 l ++ ntext (l_z l) ++ tab :: l_tail l ++ nul :: stale)).
  { unfold b, pre2, qtext. repeat (rewrite <- app_assoc || rewrite <- app_comm_cons). reflexivity. }
  destruct (q_field_ok pre2 (l_x l) (l_g2 l ++ ntext (l_y l) ++ tab :: l_g3 l ++ ntext (l_z l) ++ tab :: l_tail l ++ nul :: stale) X) as (x & Ex & Vx); [lia|].
  rewrite <- B2 in Ex. rewrite L2, Ex. cbn [obind].
  set (pre3 := pre2 ++ ntext (l_x l) ++ tab :: l_g2 l).
  assert (L3 : (length pre2 + length (ntext (l_x l)) + 1 + (4 + 1) + (10 + 1))%nat = length pre3).
  { unfold pre3. repeat (rewrite app_length; cbn [length]). lia. }
  assert (B3 : b = pre3 ++ ntext (l_y l) ++ tab :: (l_g3 l ++ ntext (l_z l) ++ tab :: l_tail l ++ nul :: stale)).
  { unfold b, pre3, pre2, qtext. repeat (rewrite <- app_assoc || rewrite <- app_comm_cons). reflexivity. }
  destruct (q_field_ok pre3 (l_y l) (l_g3 l ++ ntext (l_z l) ++ tab :: l_tail l ++ nul :: stale) Y) as (y & Ey & Vy); [lia|].
  rewrite <- B3 in Ey. rewrite L3, Ey. cbn [obind].
  set (pre4 := pre3 ++ ntext (l_y l) ++ tab :: l_g3 l).
  assert (L4 : (length pre3 + length (ntext (l_y l)) + 1 + (4 + 1) + (10 + 1))%nat = length pre4).
  { unfold pre4. repeat (rewrite app_length; cbn [length]). lia. }
  assert (B4 : b = pre4 ++ ntext (l_z l) ++ tab :: (l_tail l ++ nul :: stale)).
  { unfold b, pre4, pre3, pre2, qtext. repeat (rewrite <- app_assoc || rewrite <- app_comm_cons). reflexivity. }
  destruct (q_field_ok pre4 (l_z l) (l_tail l ++ nul :: stale) Z) as (z & Ez & Vz); [lia|].
  rewrite <- B4 in Ez. rewrite L4, Ez. cbn [obind].
  exists (QRec t w x y z). split; [reflexivity|]. unfold is_rec. cbn [q_t q_w q_x q_y q_z]. auto.
Qed.

Lemma is_comment_buf buf t : is_comment (into_buffer buf t) = match t with c :: _ => Ascii.eqb c "#" | [] => false end.
Proof. destruct t; reflexivity. Qed.
Lemma is_comment_yes buf t : comment t -> is_comment (into_buffer buf t) = true.
Proof. rewrite is_comment_buf. destruct t; cbn; [tauto|]. intros ->. reflexivity. Qed.
Lemma is_comment_no buf t : ~ comment t -> is_comment (into_buffer buf t) = false.
Proof.
  rewrite is_comment_buf. destruct t as [|c t]; [reflexivity|]. cbn. destruct (Ascii.eqb_spec c "#"); [tauto|reflexivity].
Qed.
Lemma item_line i : qitem_ok i -> line_ok 256 (qitem_text i).
Proof. destruct i as [t|l]; cbn; [tauto|]. intros (_ & _ & _ & _ & _ & _ & _ & _ & L & _). exact L. Qed.
Lemma item_nonempty i : qitem_ok i -> qitem_text i <> [].
Proof.
  destruct i as [t|l]; cbn.
  - intros (C & _) ->. exact C.
  - intros (P & _) E. unfold qtext in E. apply app_eq_nil in E. destruct E as [E _]. rewrite E in P. discriminate.
Qed.

(* ---- one record: get_next ---- *)
Section OneRecord.
Hypothesis date_empty : date [] = None.

Lemma good_open t : s_good (s_open t) = true. Proof. reflexivity. Qed.
Lemma file_len items last : (length items <= length (qfile items last))%nat.
Proof.
  unfold qfile, file_text. induction items as [|i items IH]; [simpl; lia|].
  cbn [map flat_map length]. repeat (rewrite app_length in *; cbn [length] in *). lia.
Qed.
Lemma qlines_app a b : qlines (a ++ b) = qlines a ++ qlines b.
Proof. induction a as [|[t|l] a IH]; cbn; [reflexivity|exact IH|f_equal; exact IH]. Qed.

(* from inside the comment loop: the buffer holds item [i], the stream the rest *)
Definition fetch (r : qrec) (x : option (chars * stream)) : option (outcome (Z * qrec * stream)) :=
  match x with None => None | Some (buf2, s2) => Some (obind (resolve_line date buf2 r) (fun '(c, r') => Ok (c, r', s2))) end.

Definition fetched (i : qitem) (items : list qitem) (last : option qitem) (r : qrec) (x : option (outcome (Z * qrec * stream))) : Prop :=
  match qlines (i :: items ++ olist last) with
  | l :: ls => exists r' s', x = Some (Ok (0%Z, r', s')) /\ is_rec l r' /\ to_come s' ls
  | [] => exists c s', x = Some (Ok (c, r, s')) /\ c <> 0%Z /\ to_come s' []
  end.

Lemma resolve_fail buf t r : date (cstr t) = None -> resolve_line date (into_buffer buf t) r = Ok (1%Z, r).
Proof. intros D. unfold resolve_line, into_buffer. rewrite cstr_nul, D. reflexivity. Qed.

Lemma fetch_open items : forall i last buf r fuel, qitem_ok i -> Forall qitem_ok items -> Forall qitem_ok (olist last) -> (length items + 2 <= fuel)%nat ->
  fetched i items last r (fetch r (skip_comments fuel (into_buffer buf (qitem_text i)) (s_open (qfile items last)))).
Proof.
  induction items as [|j items IH]; intros i last buf r fuel OK F FL HF; destruct i as [t|l].
  - (* a comment, then the unterminated last line or the end *)
    destruct OK as (C & LO & D). destruct fuel as [|fuel]; [lia|]. cbn [skip_comments qitem_text].
    rewrite (is_comment_yes buf t C), good_open. cbn [andb].
    unfold qfile. cbn [map]. unfold file_text. cbn [flat_map app].
    assert (LL : line_ok 256 (otext last)).
    { destruct last as [i|]; cbn in *; [inversion FL; subst; apply item_line; assumption|]. split; [intros []|simpl; lia]. }
    rewrite (getline_end 256 (otext last) LL). destruct last as [[t'|l']|]; cbn [olist otext qitem_text] in *.
    + pose proof (Forall_inv FL) as OKc; cbn [qitem_ok] in OKc; destruct OKc as (C' & L' & D'). destruct t' as [|c t']; [destruct C'|].
      destruct fuel as [|fuel]; [lia|]. cbn [skip_comments]. rewrite (is_comment_yes _ (c :: t') C'). cbn [andb s_good negb s_eof s_fail].
      cbn [fetch]. rewrite (resolve_fail _ (c :: t')) by exact D'. cbn [obind]. unfold fetched. cbn [app qlines].
      eexists _, _. split; [reflexivity|]. split; [discriminate|]. right. split; reflexivity.
    + pose proof (Forall_inv FL) as OK'. pose proof OK' as (_ & _ & _ & _ & _ & _ & _ & _ & _ & NC & _).
      destruct fuel as [|fuel]; [lia|]. cbn [skip_comments]. rewrite (is_comment_no _ (qtext l') NC). cbn [andb].
      cbn [fetch]. destruct (resolve_good (into_buffer buf t) l' r OK') as (r' & E & R). rewrite E. cbn [obind]. unfold fetched. cbn [app qlines].
      eexists _, _. split; [reflexivity|]. split; [exact R|]. right. split; reflexivity.
    + destruct fuel as [|fuel]; [lia|]. cbn [skip_comments]. rewrite is_comment_buf. cbn [andb fetch].
      rewrite (resolve_fail _ []) by exact date_empty. cbn [obind]. unfold fetched. cbn [app qlines].
      eexists _, _. split; [reflexivity|]. split; [discriminate|]. right. split; reflexivity.
  - pose proof OK as (_ & _ & _ & _ & _ & _ & _ & _ & _ & NC & _).
    destruct fuel as [|fuel]; [lia|]. cbn [skip_comments qitem_text]. rewrite (is_comment_no buf (qtext l) NC). cbn [andb fetch].
    destruct (resolve_good buf l r OK) as (r' & E & R). rewrite E. cbn [obind]. unfold fetched. cbn [app qlines].
    eexists _, _. split; [reflexivity|]. split; [exact R|]. left. exists [], last. repeat split; assumption.
  - destruct OK as (C & LO & D). destruct fuel as [|fuel]; [lia|]. cbn [skip_comments qitem_text].
    rewrite (is_comment_yes buf t C), good_open. cbn [andb].
    inversion F as [|x y OKj F']; subst.
    assert (G : qfile (j :: items) last = qitem_text j ++ nl :: qfile items last).
    { unfold qfile, file_text. cbn [map flat_map]. rewrite <- !app_assoc. reflexivity. }
    rewrite G, (getline_mid 256 (qitem_text j) (qfile items last) (item_line j OKj)).
    specialize (IH j last (into_buffer buf t) r fuel OKj F' FL ltac:(cbn [length] in HF; lia)).
    unfold fetched in *. cbn [app qlines] in *. exact IH.
  - pose proof OK as (_ & _ & _ & _ & _ & _ & _ & _ & _ & NC & _).
    destruct fuel as [|fuel]; [lia|]. cbn [skip_comments qitem_text]. rewrite (is_comment_no buf (qtext l) NC). cbn [andb fetch].
    destruct (resolve_good buf l r OK) as (r' & E & R). rewrite E. cbn [obind]. unfold fetched. cbn [app qlines].
    eexists _, _. split; [reflexivity|]. split; [exact R|]. left. exists (j :: items), last. repeat split; try assumption.
Qed.

(* opening line of a call *)
Lemma next_open items last r buf : Forall qitem_ok items -> Forall qitem_ok (olist last) ->
  let '(t, s1) := getline 256 (s_open (qfile items last)) in
  if s_ok s1 then
    match qlines (items ++ olist last) with
    | l :: ls => exists r' s', fetch r (skip_comments (length (s_rest s1) + 2) (into_buffer buf t) s1) = Some (Ok (0%Z, r', s')) /\ is_rec l r' /\ to_come s' ls
    | [] => exists c s', fetch r (skip_comments (length (s_rest s1) + 2) (into_buffer buf t) s1) = Some (Ok (c, r, s')) /\ c <> 0%Z /\ to_come s' []
    end
  else qlines (items ++ olist last) = [] /\ to_come s1 [].
Proof.
  intros F FL. destruct items as [|i items].
  - unfold qfile. cbn [map]. unfold file_text. cbn [flat_map app].
    assert (LL : line_ok 256 (otext last)).
    { destruct last as [i|]; cbn in *; [inversion FL; subst; apply item_line; assumption|]. split; [intros []|simpl; lia]. }
    rewrite (getline_end 256 (otext last) LL). destruct last as [[t'|l']|]; cbn [olist otext qitem_text] in *.
    + pose proof (Forall_inv FL) as OKc; cbn [qitem_ok] in OKc; destruct OKc as (C' & L' & D'). destruct t' as [|c t']; [destruct C'|].
      cbn [s_ok s_fail negb s_rest length Nat.add skip_comments qlines]. rewrite (is_comment_yes _ (c :: t') C'). cbn [andb s_good negb s_eof s_fail].
      cbn [fetch]. rewrite (resolve_fail _ (c :: t')) by exact D'. cbn [obind].
      eexists _, _. split; [reflexivity|]. split; [discriminate|]. right. split; reflexivity.
    + pose proof (Forall_inv FL) as OK'. pose proof OK' as (_ & _ & _ & _ & _ & _ & _ & _ & _ & NC & _).
      pose proof (item_nonempty (QData l') OK') as NE. cbn [qitem_text] in NE. destruct (qtext l') as [|c tl] eqn:QT; [congruence|].
      cbn [s_ok s_fail negb s_rest length Nat.add skip_comments qlines]. rewrite <- QT in *. rewrite (is_comment_no _ (qtext l') NC). cbn [andb].
      cbn [fetch]. destruct (resolve_good buf l' r OK') as (r' & E & R). rewrite E. cbn [obind].
      eexists _, _. split; [reflexivity|]. split; [exact R|]. right. split; reflexivity.
    + cbn [s_ok s_fail negb qlines]. split; [reflexivity|]. right. split; reflexivity.
  - inversion F as [|x y OKi F']; subst.
    assert (G : qfile (i :: items) last = qitem_text i ++ nl :: qfile items last).
    { unfold qfile, file_text. cbn [map flat_map]. rewrite <- !app_assoc. reflexivity. }
    rewrite G, (getline_mid 256 (qitem_text i) (qfile items last) (item_line i OKi)). cbn [s_ok s_open s_fail negb s_rest].
    pose proof (fetch_open items i last buf r (length (qfile items last) + 2) OKi F' FL) as H. unfold fetched in H. cbn [app]. apply H.
    pose proof (file_len items last). lia.
Qed.

Lemma ended_getline s : s_good s = false -> getline 256 s = ([], Stream (s_rest s) (s_eof s) true).
Proof. intros E. unfold getline. rewrite E. reflexivity. Qed.

Lemma get_next_fetch buf s r : get_next date buf s r =
  let '(t, s1) := getline 256 s in
  if s_ok s1 then fetch r (skip_comments (length (s_rest s1) + 2) (into_buffer buf t) s1) else Some (Ok (2%Z, r, s1)).
Proof. reflexivity. Qed.

Lemma get_next_some buf s l ls r : to_come s (l :: ls) ->
  exists r' s', get_next date buf s r = Some (Ok (0%Z, r', s')) /\ is_rec l r' /\ to_come s' ls.
Proof.
  intros [(items & last & F & FL & -> & E)|[_ E]]; [|discriminate]. rewrite get_next_fetch.
  pose proof (next_open items last r buf F FL) as H. destruct (getline 256 _) as [t s1]. rewrite <- E in H.
  destruct (s_ok s1); [exact H|]. destruct H; discriminate.
Qed.
Lemma get_next_none buf s r : to_come s [] ->
  exists c s', get_next date buf s r = Some (Ok (c, r, s')) /\ c <> 0%Z /\ to_come s' [].
Proof.
  intros [(items & last & F & FL & -> & E)|[E _]]; rewrite get_next_fetch.
  - pose proof (next_open items last r buf F FL) as H. destruct (getline 256 _) as [t s1]. rewrite <- E in H.
    destruct (s_ok s1); [exact H|]. destruct H as [_ H]. eexists _, _. split; [reflexivity|]. split; [discriminate|exact H].
  - rewrite (ended_getline s E). cbn. eexists _, _. split; [reflexivity|]. split; [discriminate|]. right.
    split; [|reflexivity]. unfold s_good. cbn. apply andb_false_r.
Qed.

(* ---- several records: get_next with a count ---- *)
Lemma get_n_fetch i buf s r rest : get_next_n date i buf s (r :: rest) =
  let '(t, s1) := getline 256 s in
  if s_ok s1 then
    match skip_comments (length (s_rest s1) + 2) (into_buffer buf t) s1 with
    | None => None
    | Some (buf2, s2) =>
        match fetch r (Some (buf2, s2)) with
        | Some (Ok (c, r', s2')) =>
           if Z.eqb c 0 then match get_next_n date (S i) buf2 s2' rest with Some (Ok (c2, l, s3)) => Some (Ok (c2, r' :: l, s3)) | x => x end
           else Some (Ok (Z.of_nat i * 10, r' :: rest, s2'))%Z
        | Some UB => Some UB
        | None => None
        end
    end
  else Some (Ok (2%Z, r :: rest, s1)).
Proof.
  cbn [get_next_n fetch]. destruct (getline 256 s) as [t s1]. destruct (s_ok s1); [|reflexivity].
  destruct (skip_comments _ _ _) as [[b2 s2]|]; [|reflexivity]. destruct (resolve_line date b2 r) as [[c r']|]; reflexivity.
Qed.

Lemma get_n_enough rs : forall i buf s ls, to_come s ls -> (length rs <= length ls)%nat ->
  exists rs' s', get_next_n date i buf s rs = Some (Ok (0%Z, rs', s')) /\ Forall2 is_rec (firstn (length rs) ls) rs' /\ to_come s' (skipn (length rs) ls).
Proof.
  induction rs as [|r rs IH]; intros i buf s ls T L.
  - eexists _, _. split; [reflexivity|]. split; [constructor|exact T].
  - destruct ls as [|l ls]; [simpl in L; lia|]. rewrite get_n_fetch.
    destruct T as [(items & last & F & FL & -> & E)|[_ E]]; [|discriminate].
    pose proof (next_open items last r buf F FL) as H. destruct (getline 256 _) as [t s1]. rewrite <- E in H.
    destruct (s_ok s1); [|destruct H; discriminate]. destruct H as (r' & s' & X & R & T').
    destruct (skip_comments _ _ _) as [[b2 s2]|]; [|discriminate]. rewrite X. cbn [Z.eqb].
    destruct (IH (S i) b2 s' ls T' ltac:(simpl in L; lia)) as (rs' & s3 & Y & R3 & T3). rewrite Y.
    exists (r' :: rs'), s3. split; [reflexivity|]. split; [constructor; assumption|exact T3].
Qed.
Lemma get_n_short rs : forall i buf s ls, to_come s ls -> (length ls < length rs)%nat -> (0 < i + length ls)%nat ->
  exists c rs' s', get_next_n date i buf s rs = Some (Ok (c, rs', s')) /\ c <> 0%Z.
Proof.
  induction rs as [|r rs IH]; intros i buf s ls T L P; [simpl in L; lia|]. rewrite get_n_fetch.
  destruct ls as [|l ls].
  - destruct T as [(items & last & F & FL & -> & E)|[E _]].
    + pose proof (next_open items last r buf F FL) as H. destruct (getline 256 _) as [t s1]. rewrite <- E in H.
      destruct (s_ok s1); [|eexists _, _, _; split; [reflexivity|discriminate]].
      destruct H as (c & s' & X & R & T'). destruct (skip_comments _ _ _) as [[b2 s2]|]; [|discriminate]. rewrite X.
      destruct (Z.eqb_spec c 0); [contradiction|]. eexists _, _, _. split; [reflexivity|]. simpl in P. lia.
    + rewrite (ended_getline s E). cbn. eexists _, _, _. split; [reflexivity|discriminate].
  - destruct T as [(items & last & F & FL & -> & E)|[_ E]]; [|discriminate].
    pose proof (next_open items last r buf F FL) as H. destruct (getline 256 _) as [t s1]. rewrite <- E in H.
    destruct (s_ok s1); [|destruct H; discriminate]. destruct H as (r' & s' & X & R & T').
    destruct (skip_comments _ _ _) as [[b2 s2]|]; [|discriminate]. rewrite X. cbn [Z.eqb].
    destruct (IH (S i) b2 s' ls T' ltac:(simpl in L; lia) ltac:(lia)) as (c & rs' & s3 & Y & N). rewrite Y. eauto 6.
Qed.

(* ---- the buffer ---- *)
(* neighbours in the buffer are neighbours in the file, or one and the same record *)
Fixpoint linked (file : list qline) (w : list qrec) : Prop :=
  match w with
  | a :: t => match t with b :: _ => consecutive file a b \/ a = b | [] => True end /\ linked file t
  | [] => True
  end.
Lemma linked_nth file w : forall i a b, linked file w -> nth_error w i = Some a -> nth_error w (S i) = Some b -> consecutive file a b \/ a = b.
Proof.
  induction w as [|x w IH]; intros i a b HL A B; [destruct i; discriminate|]. destruct HL as [H L].
  destruct i as [|i].
  - cbn in A. injection A as <-. destruct w as [|y w]; [discriminate|]. cbn in B. injection B as <-. exact H.
  - exact (IH i a b L A B).
Qed.
Lemma linked_snoc file w r : linked file w -> (w = [] \/ exists w' a, w = w' ++ [a] /\ (consecutive file a r \/ a = r)) -> linked file (w ++ [r]).
Proof.
  induction w as [|x w IH]; intros L H; [cbn; auto|].
  destruct H as [H|(w' & a & E & H)]; [discriminate|]. destruct L as [L0 L]. cbn [app linked].
  destruct w as [|y w].
  - destruct w' as [|z w']; [cbn in E; injection E as <-; cbn; auto|]. destruct w'; discriminate.
  - split; [exact L0|]. apply IH; [exact L|]. right. destruct w' as [|z w']; [discriminate|]. cbn in E. injection E as _ E. eauto.
Qed.
Lemma linked_skipn file k : forall w, linked file w -> linked file (skipn k w).
Proof. induction k as [|k IH]; intros w H; [exact H|]. destruct w as [|x w]; [exact I|]. apply IH, H. Qed.

(* [file] = [p] read + [ls] to come; the last [k] buffered records are linked and end
   with the record read last *)
Definition tracks (file : list qline) (p ls : list qline) (k : nat) (h : hunter) : Prop :=
  length (hq h) = 5%nat /\ file = p ++ ls /\ to_come (hs h) ls /\ (k <= 5)%nat /\
  linked file (skipn (5 - k) (hq h)) /\
  (k <> O -> exists p' l r b, p = p' ++ [l] /\ hq h = b ++ [r] /\ is_rec l r).

Lemma skipn_snoc_tail (q : list qrec) r k : length q = 5%nat -> (k < 5)%nat -> skipn (4 - k) (shift_in q r) = skipn (5 - k) q ++ [r].
Proof.
  intros L K. unfold shift_in. do 6 (destruct q as [|? q]; try discriminate L).
  do 5 (destruct k as [|k]; [reflexivity|]). lia.
Qed.
Lemma shift_length q r : length q = 5%nat -> length (shift_in q r) = 5%nat.
Proof. intros L. unfold shift_in. do 6 (destruct q as [|? q]; try discriminate L). reflexivity. Qed.
Lemma shift_end q r : length q = 5%nat -> exists b, shift_in q r = b ++ [r].
Proof. intros L. unfold shift_in. eauto. Qed.

(* one more record of the file enters the buffer *)
Lemma tracks_feed file p l ls k h r s' : tracks file p (l :: ls) k h -> is_rec l r -> to_come s' ls ->
  tracks file (p ++ [l]) ls (Nat.min 5 (k + 1)) (Hunter (shift_in (hq h) r) s').
Proof.
  intros (L5 & EF & _ & K5 & LK & LE) R T. repeat split; cbn [hq hs].
  - apply shift_length, L5.
  - rewrite <- app_assoc. exact EF.
  - exact T.
  - lia.
  - assert (W : linked file (skipn (5 - k) (hq h) ++ [r])).
    { apply linked_snoc; [exact LK|]. destruct k as [|k].
      - left. change (5 - 0)%nat with 5%nat. rewrite <- L5. apply skipn_all.
      - right. destruct LE as (p' & l0 & r0 & b & Ep & Eb & R0); [discriminate|].
        assert (LB : length b = 4%nat) by (rewrite Eb, app_length in L5; cbn in L5; lia).
        exists (skipn (5 - S k) b), r0. split.
        + rewrite Eb, skipn_app. replace (5 - S k - length b)%nat with O by lia. reflexivity.
        + left. exists p', l0, l, ls. split; [|split; assumption]. rewrite EF, Ep, <- app_assoc. reflexivity. }
    destruct (Nat.eq_dec k 5) as [->|NE].
    + change (Nat.min 5 (5 + 1)) with 5%nat. change (5 - 5)%nat with O in *. cbn [skipn] in *. unfold shift_in.
      destruct (hq h) as [|q0 [|q1 [|q2 [|q3 [|q4 [|q5 ql]]]]]]; try discriminate L5.
      apply (linked_skipn file 1) in W. exact W.
    + replace (5 - Nat.min 5 (k + 1))%nat with (4 - k)%nat by lia. rewrite skipn_snoc_tail by lia. exact W.
  - intros _. destruct (shift_end (hq h) r L5) as [b E]. exists p, l, r, b. auto.
Qed.
(* the last record enters again when nothing could be read *)
Lemma tracks_again file p k h r b s' : tracks file p [] k h -> k <> O -> hq h = b ++ [r] -> to_come s' [] ->
  tracks file p [] (Nat.min 5 (k + 1)) (Hunter (shift_in (hq h) r) s').
Proof.
  intros (L5 & EF & _ & K5 & LK & LE) K Eb T. destruct (LE K) as (p' & l0 & r0 & b' & Ep & Eb' & R0).
  assert (r0 = r) as -> by (rewrite Eb in Eb'; apply app_inj_tail in Eb'; symmetry; tauto).
  repeat split; cbn [hq hs].
  - apply shift_length, L5.
  - exact EF.
  - exact T.
  - lia.
  - assert (LB : length b = 4%nat) by (rewrite Eb, app_length in L5; cbn in L5; lia).
    assert (W : linked file (skipn (5 - k) (hq h) ++ [r])).
    { apply linked_snoc; [exact LK|]. right. exists (skipn (5 - k) b), r. split; [|right; reflexivity].
      rewrite Eb, skipn_app. replace (5 - k - length b)%nat with O by lia. reflexivity. }
    destruct (Nat.eq_dec k 5) as [->|NE].
    + change (Nat.min 5 (5 + 1)) with 5%nat. change (5 - 5)%nat with O in *. cbn [skipn] in *. unfold shift_in.
      destruct (hq h) as [|q0 [|q1 [|q2 [|q3 [|q4 [|q5 ql]]]]]]; try discriminate L5. apply (linked_skipn file 1) in W. exact W.
    + replace (5 - Nat.min 5 (k + 1))%nat with (4 - k)%nat by lia. rewrite skipn_snoc_tail by lia. exact W.
  - intros _. destruct (shift_end (hq h) r L5) as [b2 E]. exists p', l0, r, b2. auto.
Qed.

(* ---- lookups ---- *)
Definition inside (t : Q) (a b : qrec) : Prop := (q_t a <= t)%Q /\ (t < q_t b)%Q.
Lemma in_cell_spec t a b : in_cell t (q_t a) (q_t b) = true <-> inside t a b.
Proof.
  unfold in_cell, inside. rewrite andb_true_iff, negb_true_iff, Qle_bool_iff. split; intros [A B]; (split; [exact A|]).
  - apply Qnot_le_lt. intros C. apply Qle_bool_iff in C. congruence.
  - destruct (Qle_bool (q_t b) t) eqn:E; [|reflexivity]. apply Qle_bool_iff in E. exfalso. apply (Qlt_not_le _ _ B E).
Qed.
Lemma inside_irrefl t a : ~ inside t a a.
Proof. intros [A B]. apply (Qlt_not_le _ _ B A). Qed.
Lemma nle_lt a b : Qle_bool a b = false <-> (b < a)%Q.
Proof.
  split; intros H; [apply Qnot_le_lt; intros C; apply Qle_bool_iff in C; congruence|].
  destruct (Qle_bool a b) eqn:E; [|reflexivity]. apply Qle_bool_iff in E. exfalso. apply (Qlt_not_le _ _ H E).
Qed.

Lemma find_interval_spec q t : length q = 5 ->
  (exists i a b, i < 4 /\ find_interval q t = Z.of_nat i /\ nth_error q i = Some a /\ nth_error q (S i) = Some b /\ inside t a b) \/
  (find_interval q t = (-1)%Z /\ exists a, nth_error q 0 = Some a /\ (t < q_t a)%Q) \/
  (find_interval q t = 6%Z /\ exists a b, nth_error q 0 = Some a /\ nth_error q 4 = Some b /\ (q_t a <= t)%Q /\ (q_t b <= t)%Q).
Proof.
  intros L. destruct q as [|q0 [|q1 [|q2 [|q3 [|q4 [|q5 ql]]]]]]; try discriminate L. unfold find_interval. cbn [find_down nth_error].
  destruct (in_cell t (q_t q3) (q_t q4)) eqn:C3; [left; exists 3, q3, q4; apply in_cell_spec in C3; repeat split; try (lia || reflexivity); apply C3|].
  destruct (in_cell t (q_t q2) (q_t q3)) eqn:C2; [left; exists 2, q2, q3; apply in_cell_spec in C2; repeat split; try (lia || reflexivity); apply C2|].
  destruct (in_cell t (q_t q1) (q_t q2)) eqn:C1; [left; exists 1, q1, q2; apply in_cell_spec in C1; repeat split; try (lia || reflexivity); apply C1|].
  destruct (in_cell t (q_t q0) (q_t q1)) eqn:C0; [left; exists 0, q0, q1; apply in_cell_spec in C0; repeat split; try (lia || reflexivity); apply C0|].
  right. destruct (Qle_bool (q_t q0) t) eqn:A; cbn [negb].
  - right. unfold in_cell in *. rewrite A in C0. cbn [andb] in C0. apply negb_false_iff in C0. rewrite C0 in C1. cbn [andb] in C1. apply negb_false_iff in C1.
    rewrite C1 in C2. cbn [andb] in C2. apply negb_false_iff in C2. rewrite C2 in C3. cbn [andb] in C3. apply negb_false_iff in C3. rewrite C3.
    split; [reflexivity|]. exists q0, q4. apply Qle_bool_iff in A, C3. auto.
  - left. split; [reflexivity|]. exists q0. split; [reflexivity|]. apply nle_lt, A.
Qed.

Lemma to_come_len s ls : to_come s ls -> length ls <= length (s_rest s).
Proof.
  intros [(items & last & F & FL & -> & ->)|[_ ->]]; [|cbn; lia]. cbn [s_open s_rest].
  assert (A : forall l, length (qlines l) <= length l) by (induction l as [|[?|?] ? ?]; cbn; lia).
  pose proof (A (items ++ olist last)) as B. rewrite app_length in B.
  assert (C : length items + length (olist last) <= length (qfile items last)); [|lia].
  clear A B. unfold qfile, file_text. induction items as [|i items IH].
  - cbn. destruct last as [i|]; cbn; [|lia]. pose proof (item_nonempty i (Forall_inv FL)). destruct (qitem_text i); [congruence|cbn; lia].
  - inversion F; subst. specialize (IH H2). cbn [map flat_map length]. rewrite app_length in IH. rewrite !app_length. cbn [length]. lia.
Qed.

Lemma end_nth (q b : list qrec) r : length q = 5 -> q = b ++ [r] -> nth_error q 4 = Some r.
Proof. intros L ->. rewrite app_length in L. cbn in L. rewrite nth_error_app2 by lia. replace (4 - length b) with 0 by lia. reflexivity. Qed.
Lemma shift_nth q r : length q = 5 -> nth_error (shift_in q r) 3 = nth_error q 4 /\ nth_error (shift_in q r) 4 = Some r.
Proof. intros L. destruct q as [|q0 [|q1 [|q2 [|q3 [|q4 [|q5 ql]]]]]]; try discriminate L. split; reflexivity. Qed.

(* a record of the rest of the file is later than [t] *)
Definition later (t : Q) (l : qline) : Prop := exists u, date (cstr (qtext l)) = Some u /\ (t < u)%Q.

Lemma hunt_ok ls : forall fuel buf t file p k h tmp b, tracks file p ls k h -> k <> 0 -> hq h = b ++ [tmp] -> length ls + 1 <= fuel ->
  exists err h' p' ls' k', hunt date fuel buf t h tmp = Some (Ok (err, h')) /\ tracks file p' ls' k' h' /\
    length p <= length p' /\ Nat.min 5 (k + (length p' - length p)) <= k' /\
    (err = 0%Z -> 2 <= k' /\ exists x y, nth_error (hq h') 3 = Some x /\ nth_error (hq h') 4 = Some y /\ inside t x y) /\
    ((q_t tmp <= t)%Q -> Exists (later t) ls -> err = 0%Z).
Proof.
  induction ls as [|l ls IH]; intros fuel buf t file p k h tmp b T K E HF; (destruct fuel as [|fuel]; [lia|]); cbn [hunt].
  - pose proof T as (L5 & _ & TC & K5 & _).
    destruct (get_next_none buf (hs h) tmp TC) as (c & s' & G & NC & TC'). rewrite G.
    destruct (shift_nth (hq h) tmp L5) as [N3 N4]. rewrite N3, N4, (end_nth _ _ _ L5 E).
    destruct (Z.eqb_spec c 0); [contradiction|]. cbn [andb].
    exists c, (Hunter (shift_in (hq h) tmp) s'), p, [], (Nat.min 5 (k + 1)). split; [reflexivity|].
    split; [apply (tracks_again file p k h tmp b s' T K E TC')|]. split; [lia|]. split; [lia|]. split; [contradiction|].
    intros _ X. inversion X.
  - pose proof T as (L5 & _ & TC & K5 & _).
    destruct (get_next_some buf (hs h) l ls tmp TC) as (r & s' & G & R & TC'). rewrite G.
    destruct (shift_nth (hq h) r L5) as [N3 N4]. rewrite N3, N4, (end_nth _ _ _ L5 E). rewrite Z.eqb_refl. cbn [andb].
    pose proof (tracks_feed file p l ls k h r s' T R TC') as T'.
    destruct (in_cell t (q_t tmp) (q_t r)) eqn:C; cbn [negb].
    + exists 0%Z, (Hunter (shift_in (hq h) r) s'), (p ++ [l]), ls, (Nat.min 5 (k + 1)). split; [reflexivity|]. split; [exact T'|].
      rewrite app_length. cbn [length]. split; [lia|]. split; [lia|]. split; [|reflexivity]. intros _. split; [lia|].
      exists tmp, r. cbn [hq]. rewrite N3, N4, (end_nth _ _ _ L5 E). apply in_cell_spec in C. auto.
    + destruct (shift_end (hq h) r L5) as [b' E'].
      destruct (IH fuel buf t file (p ++ [l]) (Nat.min 5 (k + 1)) (Hunter (shift_in (hq h) r) s') r b' T' ltac:(lia) E' ltac:(cbn [length] in HF; lia))
        as (err & h' & p' & ls' & k' & HH & TT & LP & LK & EO & EC).
      exists err, h', p', ls', k'. split; [exact HH|]. split; [exact TT|]. rewrite app_length in *. cbn [length] in *.
      split; [lia|]. split; [lia|]. split; [exact EO|]. intros LE X.
      assert (NL : (q_t r <= t)%Q).
      { apply Qnot_lt_le. intros LT. assert (in_cell t (q_t tmp) (q_t r) = true) by (apply in_cell_spec; split; assumption). congruence. }
      apply EC; [exact NL|]. inversion X as [? ? (u & D & LT)|? ? X']; subst; [|exact X'].
      exfalso. destruct R as [D' _]. rewrite D' in D. injection D as <-. apply (Qlt_not_le _ _ LT NL).
Qed.

(* what a lookup does *)
Lemma get_at_ok buf tmp0 t file p ls k h : tracks file p ls k h ->
  exists res, get_at date buf tmp0 t h = Some (Ok res) /\
    match res with
    | GAssert => exists a, nth_error (hq h) 0 = Some a /\ (t < q_t a)%Q
    | GFail h' => exists p' ls' k', tracks file p' ls' k' h' /\ length p <= length p' /\ Nat.min 5 (k + (length p' - length p)) <= k' /\
        ~ Exists (later t) ls
    | GOk f a b h' => exists p' ls' k', tracks file p' ls' k' h' /\ length p <= length p' /\ Nat.min 5 (k + (length p' - length p)) <= k' /\
        inside t a b /\ (f == (t - q_t a) / (q_t b - q_t a))%Q /\ (k = 5 -> consecutive file a b)
    end.
Proof.
  intros T. pose proof T as (L5 & EF & TC & K5 & LK & LE). unfold get_at, set_at.
  destruct (find_interval_spec (hq h) t L5) as [(i & a & b & I4 & E & A & B & IN)|[(E & a & A & LT)|(E & a & b & A & B & LA & LB)]]; rewrite E.
  - destruct (Z.ltb_spec (Z.of_nat i) 0); [lia|]. destruct (Z.ltb_spec (Z.of_nat i) 5); [|lia]. cbn [Z.eqb negb]. rewrite Nat2Z.id.
    rewrite A. replace (i + 1) with (S i) by lia. rewrite B. eexists. split; [reflexivity|]. exists p, ls, k. split; [exact T|].
    split; [lia|]. split; [lia|]. split; [exact IN|]. split; [reflexivity|]. intros ->. cbn [skipn Nat.sub] in LK.
    destruct (linked_nth file (hq h) i a b LK A B) as [C|C]; [exact C|]. subst. exfalso. exact (inside_irrefl _ _ IN).
  - cbn [Z.ltb Z.compare]. eexists. split; [reflexivity|]. exists a. auto.
  - change (6 <? 0)%Z with false. change (6 <? 5)%Z with false. cbv iota. destruct ls as [|l ls].
    + destruct (get_next_none buf (hs h) tmp0 TC) as (c & s' & G & NC & TC'). rewrite G. destruct (Z.eqb_spec c 0); [contradiction|].
      cbn [negb Z.eqb]. eexists. split; [reflexivity|]. exists p, [], k. split; [split; [exact L5|]; repeat split; assumption|].
      split; [lia|]. split; [lia|]. intros X. inversion X.
    + destruct (get_next_some buf (hs h) l ls tmp0 TC) as (r & s' & G & R & TC'). rewrite G. cbn [Z.eqb negb]. rewrite A, B.
      pose proof (tracks_feed file p l ls k h r s' T R TC') as T'.
      destruct (shift_nth (hq h) r L5) as [N3 N4].
      destruct (in_cell t (q_t b) (q_t r)) eqn:C.
      * cbn [Z.eqb negb hq]. change (Z.to_nat 3) with 3. change (3 + 1) with 4. rewrite N3, N4, B.
        eexists. split; [reflexivity|]. exists (p ++ [l]), ls, (Nat.min 5 (k + 1)). split; [exact T'|]. rewrite app_length. cbn [length].
        split; [lia|]. split; [lia|]. apply in_cell_spec in C. split; [exact C|]. split; [reflexivity|]. intros ->.
        destruct T' as (_ & _ & _ & _ & LK' & _). change (Nat.min 5 (5 + 1)) with 5 in LK'. cbn [skipn Nat.sub hq] in LK'.
        destruct (linked_nth file _ 3 b r LK') as [D|D]; [rewrite N3; exact B|exact N4|exact D|]. subst. exfalso. exact (inside_irrefl _ _ C).
      * assert (LA' : Qle_bool (q_t a) t = true) by (apply Qle_bool_iff; exact LA). rewrite LA'. cbn [negb].
        destruct (shift_end (hq h) r L5) as [b' E'].
        destruct (hunt_ok ls (length (s_rest s') + 3) buf t file (p ++ [l]) (Nat.min 5 (k + 1)) (Hunter (shift_in (hq h) r) s') r b' T' ltac:(lia) E')
          as (err & h' & p' & ls' & k' & HH & TT & LP & LKK & EO & EC).
        { pose proof (to_come_len s' ls TC'). lia. }
        rewrite HH. rewrite app_length in LP, LKK. cbn [length] in LP, LKK. destruct (Z.eqb_spec err 0) as [Z0|NZ].
        -- cbn [Z.eqb negb]. change (Z.to_nat 3) with 3. change (3 + 1) with 4. destruct (EO Z0) as (K2 & x & y & X3 & Y4 & IN). rewrite X3, Y4.
           eexists. split; [reflexivity|]. exists p', ls', k'. split; [exact TT|]. split; [lia|]. split; [lia|]. split; [exact IN|]. split; [reflexivity|].
           intros ->. destruct TT as (_ & _ & _ & K5' & LK' & _). replace (5 - k') with 0 in LK' by lia. cbn [skipn] in LK'.
           destruct (linked_nth file _ 3 x y LK' X3 Y4) as [D|D]; [exact D|]. subst. exfalso. exact (inside_irrefl _ _ IN).
        -- destruct (Z.eqb_spec err 0); [contradiction|]. cbn [negb]. eexists. split; [reflexivity|]. exists p', ls', k'. split; [exact TT|].
           split; [lia|]. split; [lia|]. intros X. apply NZ. apply EC.
           { apply Qnot_lt_le. intros LT. assert (in_cell t (q_t b) (q_t r) = true) by (apply in_cell_spec; split; assumption). congruence. }
           inversion X as [? ? (u & D & LT)|? ? X']; subst; [|exact X']. exfalso. destruct R as [D' _]. rewrite D' in D. injection D as <-.
           assert (in_cell t (q_t b) (q_t r) = true) by (apply in_cell_spec; split; assumption). congruence.
Qed.

(* ---- theorems about objects ---- *)
(* the buffer holds five records of the file and the stream is behind the last one *)
Definition filled (file : list qline) (h : hunter) : Prop := exists p ls, tracks file p ls 5 h.

Lemma fraction t a b : inside t a b -> (0 <= (t - q_t a) / (q_t b - q_t a))%Q /\ ((t - q_t a) / (q_t b - q_t a) < 1)%Q.
Proof.
  intros [A B]. split.
  - apply Qle_shift_div_l; lra.
  - apply Qlt_shift_div_r; lra.
Qed.
Lemma filled_lookup buf tmp0 t file h : filled file h ->
  exists res, get_at date buf tmp0 t h = Some (Ok res) /\
    match res with
    | GAssert => exists a, nth_error (hq h) 0 = Some a /\ (t < q_t a)%Q
    | GFail h' => filled file h'
    | GOk f a b h' => filled file h' /\ consecutive file a b /\ (q_t a <= t)%Q /\ (t < q_t b)%Q /\
        (0 <= f)%Q /\ (f < 1)%Q /\ (f * (q_t b - q_t a) == t - q_t a)%Q
    end.
Proof.
  intros (p & ls & T). destruct (get_at_ok buf tmp0 t file p ls 5 h T) as (res & E & R). exists res. split; [exact E|].
  destruct res as [|h'|f a b h'].
  - exact R.
  - destruct R as (p' & ls' & k' & TT & _ & LK & _). pose proof TT as (_ & _ & _ & K5 & _). replace k' with 5 in TT by lia. exists p', ls'. exact TT.
  - destruct R as (p' & ls' & k' & TT & _ & LK & IN & F & C). pose proof TT as (_ & _ & _ & K5 & _). replace k' with 5 in TT by lia.
    split; [exists p', ls'; exact TT|]. split; [apply C; reflexivity|]. split; [apply IN|]. split; [apply IN|].
    destruct (fraction t a b IN) as [F0 F1]. split; [rewrite F; exact F0|]. split; [rewrite F; exact F1|].
    rewrite F. field. destruct IN as [A B]. intros C0. lra.
Qed.
(* inside the span of buffer and rest of the file a lookup succeeds *)
Lemma filled_success buf tmp0 t file p ls h a l : tracks file p ls 5 h -> nth_error (hq h) 0 = Some a -> (q_t a <= t)%Q ->
  In l ls -> later t l -> exists f x y h', get_at date buf tmp0 t h = Some (Ok (GOk f x y h')).
Proof.
  intros T A LA I LT. destruct (get_at_ok buf tmp0 t file p ls 5 h T) as (res & E & R). destruct res as [|h'|f x y h'].
  - destruct R as (a' & A' & B). rewrite A in A'. injection A' as <-. exfalso. apply (Qlt_not_le _ _ B LA).
  - destruct R as (_ & _ & _ & _ & _ & _ & N). exfalso. apply N. apply Exists_exists. eauto.
  - eauto.
Qed.

(* histories of lookups *)
Record request := Req { rq_buf : chars; rq_tmp : qrec; rq_t : Q }.
Fixpoint lookups (rs : list request) (h : hunter) : option hunter :=
  match rs with
  | [] => Some h
  | r :: rest =>
      match get_at date (rq_buf r) (rq_tmp r) (rq_t r) h with
      | Some (Ok (GFail h')) | Some (Ok (GOk _ _ _ h')) => lookups rest h'
      | _ => None
      end
  end.
(* at least [n] records of the file have been read *)
Definition has_read (file : list qline) (n : nat) (h : hunter) : Prop :=
  exists p ls, file = p ++ ls /\ to_come (hs h) ls /\ n <= length p.

Lemma construct_ok buf items last junk : Forall qitem_ok items -> Forall qitem_ok (olist last) -> length junk = 5 ->
  2 <= length (qlines (items ++ olist last)) ->
  exists h r0 r1, construct date buf (qfile items last) junk = Some (Ok (Some h)) /\ hq h = r0 :: r1 :: skipn 2 junk /\
    Forall2 is_rec (firstn 2 (qlines (items ++ olist last))) [r0; r1] /\
    tracks (qlines (items ++ olist last)) (firstn 2 (qlines (items ++ olist last))) (skipn 2 (qlines (items ++ olist last))) 0 h.
Proof.
  intros F FL LJ L2. unfold construct. set (file := qlines (items ++ olist last)) in *.
  assert (TC : to_come (s_open (qfile items last)) file) by (left; exists items, last; auto).
  assert (LJ2 : length (firstn 2 junk) = 2) by (rewrite firstn_length; lia).
  destruct (get_n_enough (firstn 2 junk) 0 buf _ file TC ltac:(lia)) as (rs & s' & E & R & T). rewrite LJ2 in *. rewrite E. cbn [Z.eqb].
  assert (LR : length rs = 2).
  { clear - R L2. assert (X : length (firstn 2 file) = length rs) by (induction R; cbn; congruence). rewrite firstn_length in X. lia. }
  destruct rs as [|r0 [|r1 [|r2 rs]]]; try discriminate LR.
  exists (Hunter ([r0; r1] ++ skipn 2 junk) s'), r0, r1. split; [reflexivity|]. split; [reflexivity|]. split; [exact R|].
  unfold tracks. cbn [hq hs]. split; [cbn [app length]; rewrite skipn_length; lia|]. split; [symmetry; apply firstn_skipn|]. split; [exact T|].
  split; [lia|]. split; [|congruence].
  rewrite skipn_all2; [exact I|]. cbn [app length]. rewrite skipn_length. lia.
Qed.

Lemma lookups_track rs : forall file p ls k h h', tracks file p ls k h -> lookups rs h = Some h' -> Nat.min 5 (length p - 2) <= k -> 2 <= length p ->
  exists p' ls' k', tracks file p' ls' k' h' /\ Nat.min 5 (length p' - 2) <= k' /\ 2 <= length p'.
Proof.
  induction rs as [|r rs IH]; intros file p ls k h h' T E K P2; cbn [lookups] in E.
  - injection E as <-. exists p, ls, k. auto.
  - destruct (get_at_ok (rq_buf r) (rq_tmp r) (rq_t r) file p ls k h T) as (res & G & R). rewrite G in E.
    destruct res as [|h1|f a b h1]; [discriminate| |].
    + destruct R as (p1 & ls1 & k1 & T1 & L1 & K1 & _). apply (IH file p1 ls1 k1 h1 h' T1 E); lia.
    + destruct R as (p1 & ls1 & k1 & T1 & L1 & K1 & _). apply (IH file p1 ls1 k1 h1 h' T1 E); lia.
Qed.

(* after construction and any lookups: either the buffer is filled by the file, or fewer
   than five records have been read since construction *)
Lemma history_filled buf items last junk rs h0 h : Forall qitem_ok items -> Forall qitem_ok (olist last) -> length junk = 5 ->
  2 <= length (qlines (items ++ olist last)) ->
  construct date buf (qfile items last) junk = Some (Ok (Some h0)) -> lookups rs h0 = Some h ->
  filled (qlines (items ++ olist last)) h \/
  exists p ls, qlines (items ++ olist last) = p ++ ls /\ to_come (hs h) ls /\ length p < 7.
Proof.
  intros F FL LJ L2 C E. destruct (construct_ok buf items last junk F FL LJ L2) as (h1 & r0 & r1 & C1 & _ & _ & T). rewrite C1 in C. injection C as <-.
  destruct (lookups_track rs _ _ _ _ _ _ T E) as (p & ls & k & T' & K & P2).
  - rewrite firstn_length. lia.
  - rewrite firstn_length. lia.
  - destruct (le_lt_dec 7 (length p)) as [G|G].
    + left. exists p, ls. pose proof T' as (_ & _ & _ & K5 & _). replace k with 5 in T' by lia. exact T'.
    + right. exists p, ls. destruct T' as (_ & EF & TC & _). auto.
Qed.
End OneRecord.

(* ---- several records and single records ---- *)
(* the single-record reader run repeatedly *)
Inductive reads : stream -> list qrec -> stream -> list qrec -> Prop :=
| ReadsNil s : reads s [] s []
| ReadsCons buf s r s1 r' rs s2 rs' : get_next date buf s r = Some (Ok (0%Z, r', s1)) -> reads s1 rs s2 rs' -> reads s (r :: rs) s2 (r' :: rs').

Lemma get_n_zero rs : forall i buf s rs' s', get_next_n date i buf s rs = Some (Ok (0%Z, rs', s')) ->
  reads s rs s' rs' \/ (i = 0 /\ exists r rest c r' s1, rs = r :: rest /\ get_next date buf s r = Some (Ok (c, r', s1)) /\ c <> 0%Z).
Proof.
  induction rs as [|r rs IH]; intros i buf s rs' s' E; cbn [get_next_n] in E.
  - injection E as <- <-. left. constructor.
  - destruct (getline 256 s) as [t s1] eqn:G. destruct (s_ok s1) eqn:OK; [|discriminate].
    destruct (skip_comments (length (s_rest s1) + 2) (into_buffer buf t) s1) as [[b2 s2]|] eqn:SK; [|discriminate].
    destruct (resolve_line date b2 r) as [[c r']|] eqn:RL; [|discriminate]. destruct (Z.eqb_spec c 0) as [->|NZ].
    + destruct (get_next_n date (S i) b2 s2 rs) as [[[[c2 l] s3]|]|] eqn:GN; try discriminate. injection E as -> <- <-.
      destruct (IH _ _ _ _ _ GN) as [R|[C _]]; [|discriminate]. left. econstructor; [|exact R].
      unfold get_next. rewrite G, OK, SK, RL. reflexivity.
    + injection E as E1 <- <-. right. split; [lia|]. exists r, rs, c, r', s2. split; [reflexivity|]. split; [|exact NZ].
      unfold get_next. rewrite G, OK, SK, RL. reflexivity.
Qed.
End Dates.

(* ---- reading ends on every file ---- *)
Lemma take_line_shorter l : forall room a b e, take_line (S room) l = (a, b, e) -> l <> [] -> length b < length l.
Proof.
  intros room a b e E N. pose proof (take_line_split l (S room) a b e E) as T. destruct e.
  - destruct T as (-> & -> & _). destruct a; [congruence|cbn; lia].
  - destruct T as (-> & _). rewrite app_length. cbn. lia.
  - destruct T as (-> & LA & _). rewrite app_length. lia.
Qed.
Lemma getline_shrinks s t s' : getline 256 s = (t, s') -> s_good s = true ->
  length (s_rest s') < length (s_rest s) \/ s_good s' = false.
Proof.
  unfold getline. intros E G. rewrite G in E. change (256 - 1) with 255 in E. destruct (take_line 255 (s_rest s)) as [[a b] e] eqn:T.
  injection E as <- <-. cbn [s_rest]. destruct (s_rest s) as [|c l] eqn:SR.
  - right. cbn in T. injection T as <- <- <-. reflexivity.
  - left. apply (take_line_shorter _ 254 a b e T). discriminate.
Qed.
Lemma skip_ends fuel : forall buf s, length (s_rest s) + 2 <= fuel -> exists r, skip_comments fuel buf s = Some r.
Proof.
  induction fuel as [|fuel IH]; intros buf s H; [lia|]. cbn [skip_comments].
  destruct (is_comment buf); cbn [andb]; [|eauto]. destruct (s_good s) eqn:G; [|eauto].
  destruct (getline 256 s) as [t s'] eqn:GL. destruct (getline_shrinks s t s' GL G) as [L|B]; [apply IH; lia|].
  destruct fuel; cbn [skip_comments]; rewrite B, andb_false_r; eauto.
Qed.
Lemma skip_rest fuel : forall buf s b2 s2, skip_comments fuel buf s = Some (b2, s2) -> length (s_rest s2) <= length (s_rest s).
Proof.
  induction fuel as [|fuel IH]; intros buf s b2 s2 H; cbn [skip_comments] in H; destruct (is_comment buf && s_good s) eqn:C; try discriminate; try (injection H as <- <-; lia).
  apply andb_true_iff in C. destruct (getline 256 s) as [t s'] eqn:GL. apply IH in H.
  unfold getline in GL. rewrite (proj2 C) in GL. destruct (take_line (256 - 1) (s_rest s)) as [[a b] e] eqn:T. injection GL as <- <-. cbn [s_rest] in H.
  pose proof (take_line_split _ _ _ _ _ T) as S. destruct e.
  - destruct S as (_ & -> & _). cbn in H. lia.
  - destruct S as (-> & _). rewrite app_length. cbn. lia.
  - destruct S as (-> & _). rewrite app_length. lia.
Qed.
Lemma get_next_ends date buf s r : exists x, get_next date buf s r = Some x.
Proof.
  unfold get_next. destruct (getline 256 s) as [t s1]. destruct (s_ok s1); [|eauto].
  destruct (skip_ends (length (s_rest s1) + 2) (into_buffer buf t) s1 ltac:(lia)) as ([b2 s2] & ->). eauto.
Qed.
Lemma get_next_shrinks date buf s r r' s' : get_next date buf s r = Some (Ok (0%Z, r', s')) -> length (s_rest s') < length (s_rest s).
Proof.
  unfold get_next. destruct (getline 256 s) as [t s1] eqn:GL. destruct (s_ok s1) eqn:OK; [|discriminate].
  destruct (skip_comments _ _ _) as [[b2 s2]|] eqn:SK; [|discriminate]. apply skip_rest in SK.
  destruct (resolve_line date b2 r) as [[c rr]|]; [|discriminate]. cbn [obind]. intros E. injection E as _ _ <-.
  unfold getline in GL. destruct (s_good s) eqn:G.
  - change (256 - 1) with 255 in GL. destruct (take_line 255 (s_rest s)) as [[a b] e] eqn:T. injection GL as <- <-. cbn [s_rest] in SK.
    destruct (s_rest s) as [|c0 l] eqn:SR.
    + cbn in T. injection T as <- <- <-. discriminate OK.
    + pose proof (take_line_shorter _ 254 a b e T ltac:(discriminate)). cbn in *. lia.
  - injection GL as <- <-. discriminate OK.
Qed.
Lemma hunt_ends date fuel : forall buf t h tmp, length (s_rest (hs h)) + 1 <= fuel -> exists x, hunt date fuel buf t h tmp = Some x.
Proof.
  induction fuel as [|fuel IH]; intros buf t h tmp L; [lia|]. cbn [hunt].
  destruct (get_next_ends date buf (hs h) tmp) as [[[[err r] s']|] E]; rewrite E; [|eauto].
  destruct (nth_error (shift_in (hq h) r) 3); [|eauto]. destruct (nth_error (shift_in (hq h) r) 4); [|eauto].
  destruct (Z.eqb_spec err 0) as [->|]; cbn [andb]; [|eauto]. destruct (negb _); [|eauto].
  apply IH. cbn [hs]. apply get_next_shrinks in E. lia.
Qed.
Lemma get_at_ends date buf tmp0 t h : exists x, get_at date buf tmp0 t h = Some x.
Proof.
  unfold get_at, set_at. destruct (Z.ltb (find_interval (hq h) t) 0); [eauto|].
  destruct (Z.ltb (find_interval (hq h) t) 5).
  { cbn [Z.eqb negb]. destruct (nth_error _ _); [|eauto]. destruct (nth_error _ _); eauto. }
  destruct (get_next_ends date buf (hs h) tmp0) as [[[[c r] s']|] E]; rewrite E; [|eauto].
  destruct (Z.eqb c 0); cbn [negb]; [|cbn [Z.eqb negb]; eauto].
  destruct (nth_error (hq h) 4) as [b4|]; [|eauto]. destruct (nth_error (hq h) 0) as [b0|]; [|eauto].
  destruct (in_cell t (q_t b4) (q_t r)).
  { cbn [Z.eqb negb]. destruct (nth_error _ _); [|eauto]. destruct (nth_error _ _); eauto. }
  destruct (negb (Qle_bool (q_t b0) t)); [cbn [Z.eqb negb]; eauto|].
  destruct (hunt_ends date (length (s_rest s') + 3) buf t (Hunter (shift_in (hq h) r) s') r ltac:(cbn [hs]; lia)) as [[[err h2]|] EH]; rewrite EH; [|eauto].
  destruct (Z.eqb err 0) eqn:EZ; cbn [Z.eqb negb].
  - destruct (nth_error _ _); [|eauto]. destruct (nth_error _ _); eauto.
  - rewrite EZ. cbn [negb]. eauto.
Qed.

(* ---- concrete files ---- *)
(* a stand-in for the date functions: the day is the leading digit *)
Definition ex_date (t : chars) : option Q :=
  match t with c :: _ => option_map inject_Z (digit_of c) | [] => None end.
Definition ex_num (d : Z) : dnum := DNum false [d] [0%Z].
Definition ex_line (d : Z) : qline :=
  QLine (dchar d :: repeat blank 34) (ex_num d) (repeat blank 16) (ex_num 0) (repeat blank 16) (ex_num 0) (repeat blank 16) (ex_num d) [].
Definition ex_items (ds : list Z) : list qitem := QComment ["#"%char] :: map (fun d => QData (ex_line d)) ds.
Definition ex_file (ds : list Z) : chars := qfile (ex_items ds) None.
Definition zero_rec : qrec := QRec 0 0 0 0 0.
Definition zero_junk : list qrec := repeat zero_rec 5.

Lemma ex_line_ok d : In d [1; 2; 3; 4; 5; 6; 7; 8; 9]%Z -> qline_ok ex_date (ex_line d).
Proof.
  intros I. unfold qline_ok.
  assert (NO : forall z, (0 <= z <= 9)%Z -> nok (ex_num z)).
  { intros z Z9. split; [discriminate|]. split; repeat constructor; cbn; lia. }
  assert (D9 : (0 <= d <= 9)%Z) by (repeat (destruct I as [<-|I]; [lia|]); destruct I).
  split; [reflexivity|]. split; [reflexivity|]. split; [reflexivity|]. split; [reflexivity|].
  split; [apply NO, D9|]. split; [apply NO; lia|]. split; [apply NO; lia|]. split; [apply NO, D9|].
  repeat (destruct I as [<-|I]; [split; [split; [vm_compute; intuition discriminate|vm_compute; lia]|split; [discriminate|discriminate]]|]). destruct I.
Qed.
Lemma ex_items_ok ds : Forall (fun d => In d [1; 2; 3; 4; 5; 6; 7; 8; 9]%Z) ds -> Forall (qitem_ok ex_date) (ex_items ds).
Proof.
  intros F. unfold ex_items. constructor; [split; [reflexivity|split; [split; [vm_compute; intuition discriminate|vm_compute; lia]|reflexivity]]|].
  apply Forall_map. eapply Forall_impl; [|exact F]. intros d I. exact (ex_line_ok d I).
Qed.
Definition nine : list Z := [1; 2; 3; 4; 5; 6; 7; 8; 9]%Z.
Lemma nine_ok : Forall (qitem_ok ex_date) (ex_items nine).
Proof. apply ex_items_ok. unfold nine. repeat (constructor; [cbn; tauto|]). constructor. Qed.

(* memory that happens to be zero: an epoch between the second and the third record is
   answered with a quaternion that is in no record *)
Lemma junk_used : exists h f b h', construct ex_date [] (ex_file nine) zero_junk = Some (Ok (Some h)) /\
  get_at ex_date [] zero_rec (5 # 2) h = Some (Ok (GOk f zero_rec b h')) /\ q_t b = 3%Q /\
  (forall l, In l (qlines (ex_items nine)) -> ~ is_rec ex_date l zero_rec).
Proof.
  eexists _, _, _, _. split; [vm_compute; reflexivity|]. split; [vm_compute; reflexivity|]. split; [reflexivity|].
  intros l I [D _]. cbn [ex_items nine qlines map In] in I. repeat (destruct I as [<-|I]; [vm_compute in D; discriminate|]). destruct I.
Qed.

(* a record whose quaternion cannot be read enters the buffer with its own epoch and the
   quaternion of the record before *)
Definition bad_text (d : Z) : chars := dchar d :: repeat blank 34 ++ ["x"%char] ++ repeat blank 70.
Definition broken_file : chars := file_text (map qtext (map ex_line [1; 2; 3; 4; 5; 6; 7]%Z) ++ [bad_text 8; qtext (ex_line 9)]) [].
Lemma mixed_used : exists h h1 f a b h2, construct ex_date [] broken_file zero_junk = Some (Ok (Some h)) /\
  get_at ex_date [] zero_rec (17 # 2) h = Some (Ok (GFail h1)) /\
  get_at ex_date [] zero_rec (15 # 2) h1 = Some (Ok (GOk f a b h2)) /\ q_t b = 8%Q /\ (q_w b == 7)%Q.
Proof. eexists _, _, _, _, _, _. split; [vm_compute; reflexivity|]. split; [vm_compute; reflexivity|]. split; [vm_compute; reflexivity|]. split; reflexivity. Qed.

(* no record at all is reported as two records read *)
Lemma nothing_read : get_next_n ex_date 0 [] (s_open (ex_file [])) [zero_rec; zero_rec] = Some (Ok (0%Z, [zero_rec; zero_rec], Stream [] true true)) /\
  exists h, construct ex_date [] (ex_file []) zero_junk = Some (Ok (Some h)).
Proof. split; [vm_compute; reflexivity|]. eexists. vm_compute. reflexivity. Qed.

(* a filled buffer is reached: one lookup late in the file *)
Definition newlines (s : chars) : nat := count_occ ascii_dec s nl.
Lemma to_come_lines date s ls : to_come date s ls -> length ls <= newlines (s_rest s) + 1.
Proof.
  intros [(items & last & F & FL & -> & ->)|[_ ->]]; [|cbn; lia]. cbn [s_open s_rest].
  assert (A : forall l, length (qlines l) <= length l) by (induction l as [|[?|?] ? ?]; cbn; lia).
  pose proof (A (items ++ olist last)) as B. rewrite app_length in B.
  assert (C : length items <= newlines (qfile items last)).
  { clear. unfold qfile, file_text, newlines. induction items as [|i items IH]; [cbn; lia|].
    cbn [map flat_map length]. rewrite !count_occ_app in *. cbn [count_occ]. destruct (ascii_dec nl nl); [lia|congruence]. }
  assert (D : length (olist last) <= 1) by (destruct last; cbn; lia). lia.
Qed.
Lemma filled_reached : exists h f a b h', construct ex_date [] (ex_file nine) zero_junk = Some (Ok (Some h)) /\
  get_at ex_date [] zero_rec (15 # 2) h = Some (Ok (GOk f a b h')) /\ filled ex_date (qlines (ex_items nine)) h' /\ (f == 1 # 2)%Q.
Proof.
  assert (FO : Forall (qitem_ok ex_date) (olist None)) by constructor.
  destruct (construct_ok ex_date eq_refl [] (ex_items nine) None zero_junk nine_ok FO eq_refl) as (h & r0 & r1 & C & HQ & _ & T); [vm_compute; lia|].
  destruct (get_at_ok ex_date eq_refl [] zero_rec (15 # 2) _ _ _ _ _ T) as (res & G & R).
  assert (C' : construct ex_date [] (ex_file nine) zero_junk = Some (Ok (Some h))) by exact C.
  vm_compute in C'. injection C' as <-. clear C. vm_compute in G. injection G as <-.
  eexists _, _, _, _, _. split; [vm_compute; reflexivity|]. split; [vm_compute; reflexivity|]. split; [|reflexivity].
  destruct R as (p' & ls' & k' & TT & LP & LK & _).
  assert (P7 : 7 <= length p').
  { destruct TT as (_ & EF & TC & _). apply to_come_lines in TC. cbn [hs s_rest] in TC. vm_compute in TC.
    apply (f_equal (@length _)) in EF. rewrite app_length in EF. change (length (qlines (ex_items nine ++ olist None))) with 9 in EF.
    assert (length ls' <= 2) by exact TC. lia. }
  pose proof TT as (_ & _ & _ & K5 & _). change (length (firstn 2 (qlines (ex_items nine ++ olist None)))) with 2 in *.
  assert (k' = 5) as -> by lia. exists p', ls'. exact TT.
Qed.
