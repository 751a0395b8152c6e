(* Specification and lemmas behind RnxFile_props.v. *)
From Coq Require Import String List ZArith QArith Ascii Bool Lia.
From Verif Require Import Base CLib_model CLib_proofs Stream_model Lines_proofs SysInfo_model SysInfo_proofs Rinex_model Rinex_proofs
  RnxHead_model RnxHead_proofs RnxFile_model.
Import ListNotations.
Local Open Scope nat_scope.

(* ================= every file: the loop ends ================= *)
Lemma getline_consumes n s t s' : getline n s = (t, s') -> 1 < n -> s_ok s' = true ->
  s_eof s = false /\ s_fail s = false /\ length (s_rest s') + (if s_eof s' then 1 else 2) < length (s_rest s) + 2.
Proof.
  intros G Hn O. unfold getline in G. destruct (s_good s) eqn:E.
  - unfold s_good in E. apply andb_prop in E as [E1 E2].
    destruct (s_eof s); [discriminate|]. destruct (s_fail s); [discriminate|].
    destruct (take_line (n - 1) (s_rest s)) as [[a b] e] eqn:T. apply take_line_split in T.
    injection G as <- <-. cbn [s_rest s_eof s_fail s_ok] in *.
    split; [reflexivity|]. split; [reflexivity|]. destruct e.
    + destruct T as (-> & -> & _). destruct a; [discriminate|]. cbn [length]. lia.
    + destruct T as (-> & _). rewrite app_length. cbn [length]. lia.
    + discriminate.
  - injection G as <- <-. discriminate.
Qed.

Section Header.
Variable date : Type.
Variable read_date : chars -> option date.
Notation head := (head date).
Notation record := (record date read_date).
Notation records := (records date read_date).

Lemma records_end : forall fuel h errno buf s, length (s_rest s) + (if s_eof s then 1 else 2) <= fuel ->
  exists r, records fuel h errno buf s = Some r.
Proof.
  induction fuel as [|fuel IH]; intros h errno buf s F; [destruct (s_eof s); lia|].
  cbn [records RnxFile_model.records]. destruct (getline MAX_HEADER_CHARS s) as [t s'] eqn:G.
  destruct (s_ok s) eqn:O; [|eauto]. destruct (s_ok s') eqn:O'; [|eauto].
  destruct (record h errno (into_buffer buf t)) as [[h' e'|code|]|]; eauto.
  apply IH. destruct (getline_consumes _ _ _ _ G) as (E1 & _ & L); [unfold MAX_HEADER_CHARS; lia|exact O'|].
  rewrite E1 in F. lia.
Qed.
Lemma getline_shrinks n s t s' : getline n s = (t, s') -> length (s_rest s') <= length (s_rest s).
Proof.
  unfold getline. destruct (s_good s).
  - destruct (take_line (n - 1) (s_rest s)) as [[a b] e] eqn:T. apply take_line_split in T. intros E. injection E as <- <-.
    cbn [s_rest]. destruct e.
    + destruct T as (_ & -> & _). cbn. lia.
    + destruct T as (-> & _). rewrite app_length. cbn. lia.
    + destruct T as (-> & _). rewrite app_length. lia.
  - intros E. injection E as <- <-. cbn. lia.
Qed.

Lemma header_ends junk errno file : exists r, open_rinex date read_date junk errno file = Some r.
Proof.
  destruct file as [content|]; [|cbn; eauto]. unfold open_rinex.
  assert (R : exists r, read_header date read_date junk errno content = Some r).
  { unfold read_header. destruct (getline MAX_HEADER_CHARS (s_open content)) as [t1 s1] eqn:G1.
    destruct (labelled _ _) as [[|]|]; eauto.
    destruct (obind _ _) as [[[[v u] c20] c40]|]; eauto.
    destruct (_ || _ || _); eauto.
    destruct (getline MAX_HEADER_CHARS s1) as [t2 s2] eqn:G2.
    destruct (labelled _ _) as [[|]|]; eauto.
    apply getline_shrinks in G1. apply getline_shrinks in G2. cbn [s_rest s_open] in G1.
    edestruct (records_end (S (S (length content)))) as (r & E).
    2:{ rewrite E. destruct r as [[c|[[h m] s]]|]; eauto. }
    destruct (s_eof s2); lia. }
  destruct R as (r & ->). destruct r as [[c|[h s]]|]; eauto.
Qed.

(* ================= every file: what an accepted header guarantees ================= *)
(* the lines of the header: two, the others, the last one; every line at most 80 characters *)
Definition header_lines (content : chars) (ls : list chars) (rest : chars) : Prop :=
  content = file_text ls rest /\ Forall (line_ok 81) ls.
(* two 3-character arrays hold the same C string *)
Definition same_code (a b : chars) : Prop := length a = 3 /\ length b = 3 /\ cstr a = cstr b.
Definition consistent (h : head) : Prop :=
  Forall code_ok (h_codes _ h) /\ Forall (fun f => f <> 0%Z) (h_factors _ h)
  /\ Forall (fun r => exists s, In s (h_stations _ h) /\ same_code (st_code s) (rs_code r)) (h_refs _ h)
  /\ Forall (fun s => length (st_code s) = 3) (h_stations _ h).

Lemma strncmp_same : forall n a b, length a = n -> length b = n -> strncmp_eq a b n = Ok true -> cstr a = cstr b.
Proof.
  induction n as [|n IH]; intros a b A B; destruct a as [|x a], b as [|y b]; try discriminate; [reflexivity|].
  cbn [strncmp_eq cstr]. destruct (Ascii.eqb_spec x y) as [->|]; [|discriminate].
  destruct (Ascii.eqb y nul); [reflexivity|]. intros E. f_equal. apply IH; [now injection A|now injection B|exact E].
Qed.
Lemma find_station_some p l s : find_station p l = Ok (Some s) -> In s l /\ p s = Ok true.
Proof.
  induction l as [|x l IH]; cbn [find_station]; [discriminate|].
  destruct (p x) as [[|]|] eqn:E; cbn [obind]; [|intros H; apply IH in H as [A B]; split; [now right|exact B]|discriminate].
  intros H. injection H as <-. split; [now left|exact E].
Qed.

Lemma mk_code_sound t f c : mk_code t f = Some c -> code_ok c.
Proof.
  unfold mk_code, code_ok. destruct (has_frequency t) eqn:H.
  - destruct ((f <? 1)%Z || (f >? 2)%Z) eqn:E; [discriminate|]. intros X. injection X as <-. cbn [oc_type oc_freq]. rewrite H.
    apply orb_false_iff in E as [E1 E2]. rewrite Z.ltb_ge in E1. rewrite Z.gtb_ltb, Z.ltb_ge in E2. lia.
  - intros X. injection X as <-. cbn [oc_type oc_freq]. now rewrite H.
Qed.
Lemma obs_codes_sound line : forall n k acc cs, obs_codes line n k acc = Ok (0%Z, cs) -> Forall code_ok acc -> Forall code_ok cs.
Proof.
  induction n as [|n IH]; intros k acc cs E F; cbn [obs_codes] in E.
  - injection E as <-. exact F.
  - destruct (string_at line (6 + k * 4)) as [s0|]; [|discriminate]. cbn [obind] in E.
    destruct (drop_blanks s0) as [|c s]; [discriminate|]. destruct (char_to_type c) as [t|]; [|discriminate].
    destruct (has_frequency t && _); [discriminate|].
    destruct (mk_code t _) as [code|] eqn:M; [|discriminate].
    apply (IH (S k) (acc ++ [code]) cs E). apply Forall_app. split; [exact F|]. constructor; [exact (mk_code_sound _ _ _ M)|constructor].
Qed.
Lemma obs_types_sound line old oldn cs n : obs_types_line line old oldn = Ok (0%Z, cs, n) -> Forall code_ok cs.
Proof.
  unfold obs_types_line. destruct (load line 0) as [c0|]; [|discriminate]. cbn [obind].
  destruct (negb _); [discriminate|]. destruct (string_at line 1) as [s|]; [|discriminate]. cbn [obind].
  destruct (_ || _ || _); [discriminate|]. destruct (negb _); [discriminate|].
  destruct (obs_codes line _ 0 []) as [[c l]|] eqn:E; [|discriminate]. cbn [obind fst snd]. intros X. injection X as -> -> _.
  exact (obs_codes_sound _ _ _ _ _ E (Forall_nil _)).
Qed.
Lemma upd_forall {A} (P : A -> Prop) v : P v -> forall l i l', upd l i v = Some l' -> Forall P l -> Forall P l' /\ length l' = length l.
Proof.
  intros Pv. induction l as [|x l IH]; intros i l' E F; [discriminate|]. inversion F; subst.
  destruct i as [|i]; cbn [upd] in E.
  - injection E as <-. split; [now constructor|reflexivity].
  - destruct (upd l i v) as [l2|] eqn:U; [|discriminate]. injection E as <-. destruct (IH i l2 U) as [A1 A2]; [assumption|].
    split; [now constructor|cbn; now rewrite A2].
Qed.
Lemma scale_codes_sound codes line factor : factor <> 0%Z -> forall n k fs c r,
  scale_codes codes line factor n k fs = Ok (c, r) -> Forall (fun f => f <> 0%Z) fs ->
  Forall (fun f => f <> 0%Z) r /\ length r = length fs.
Proof.
  intros NZ. induction n as [|n IH]; intros k fs c r E F; cbn [scale_codes] in E.
  - injection E as <- <-. auto.
  - destruct (string_at line (10 + k * 4)) as [s0|]; [|discriminate]. cbn [obind] in E.
    destruct (drop_blanks s0) as [|ch s]; [injection E as <- <-; auto|].
    destruct (char_to_type ch) as [t|]; [|injection E as <- <-; auto].
    destruct (has_frequency t && _); [injection E as <- <-; auto|].
    destruct (mk_code t _) as [code|]; [|injection E as <- <-; auto].
    destruct (_ <? 0)%Z; [injection E as <- <-; auto|].
    unfold store in E. destruct (upd fs _ factor) as [f2|] eqn:U; [|discriminate]. cbn [of_option obind] in E.
    destruct (upd_forall _ factor NZ _ _ _ U F) as [A B]. destruct (IH _ _ _ _ E A) as [C D]. split; [exact C|congruence].
Qed.
Lemma scale_line_sound codes old line r : scale_line codes old line = Ok (0%Z, r) ->
  Forall (fun f => f <> 0%Z) r /\ length r = length codes.
Proof.
  unfold scale_line. destruct (load line 0) as [c0|]; [|discriminate]. cbn [obind].
  destruct (negb _); [discriminate|]. destruct (string_at line 2) as [s|]; [|discriminate]. cbn [obind].
  assert (I : Forall (fun f => f <> 0%Z) (repeat 1%Z (length codes))).
  { apply Forall_forall. intros x H. apply repeat_spec in H. lia. }
  destruct (_ || _ || _) eqn:Z; [discriminate|]. apply orb_false_iff in Z as [Z _]. apply orb_false_iff in Z as [Z _].
  apply Z.eqb_neq in Z.
  destruct (load line 8) as [c8|]; [|discriminate]. destruct (load line 9) as [c9|]; [|discriminate]. cbn [obind].
  destruct (_ && _).
  - intros E. destruct (scale_codes_sound _ _ _ Z _ _ _ _ _ E I) as [A B]. split; [exact A|]. now rewrite repeat_length in B.
  - destruct (string_at line 8) as [s8|]; [|discriminate]. cbn [obind]. destruct (_ || _ || _ || _); [discriminate|].
    intros E. destruct (scale_codes_sound _ _ _ Z _ _ _ _ _ E I) as [A B]. split; [exact A|]. now rewrite repeat_length in B.
Qed.

Lemma into_buffer_length buf t : length buf = 81 -> length t <= 80 -> length (into_buffer buf t) = 81.
Proof. intros L T. unfold into_buffer. rewrite app_length. cbn [length]. rewrite skipn_length. lia. Qed.
Lemma columns_length buf off n : off + n <= length buf -> length (columns buf off n) = n.
Proof. intros L. unfold columns. rewrite firstn_length, skipn_length. lia. Qed.

Lemma three_lists line base m : forall left i h h' e, three date line base m left i h = Ok (Go _ h' e) ->
  h_codes _ h' = h_codes _ h /\ h_factors _ h' = h_factors _ h /\ h_stations _ h' = h_stations _ h /\ h_refs _ h' = h_refs _ h.
Proof.
  induction left as [|left IH]; intros i h h' e E; cbn [three] in E.
  - injection E as <- _. auto.
  - destruct (string_at line (14 * i)) as [s|]; [|discriminate]. cbn [obind] in E. destruct (strtod s) as [q used].
    destruct (Nat.eqb used 0); [discriminate|]. apply IH in E. exact E.
Qed.
Lemma station_code_length errno st s st' e : set_from_rinex_line errno st s = (0%Z, st', e) -> length (st_code st') = 3.
Proof.
  unfold set_from_rinex_line. destruct (Nat.ltb_spec (length s) 60) as [L|L]; [discriminate|].
  destruct (_ || _); [discriminate|]. destruct (_ || _); [discriminate|]. intros E. injection E as <- _. cbn [st_code].
  apply columns_length. lia.
Qed.
Lemma record_consistent h errno buf h' errno' : length buf = 81 -> record h errno buf = Ok (Go _ h' errno') ->
  consistent h -> consistent h'.
Proof.
  intros LB E (C & F & R & S). unfold record, RnxFile_model.record in E.
  destruct (kind_among labels buf) as [k|]; [|discriminate]. cbn [obind] in E.
  destruct k.
  - destruct (count_length_reverse buf 0 59) as [n|]; [|discriminate]. cbn [obind] in E.
    destruct (_ || _); [discriminate|]. injection E as <- _. now repeat split.
  - destruct (count_length_reverse buf 0 59) as [n|]; [|discriminate]. cbn [obind] in E.
    destruct (_ || _); [discriminate|]. injection E as <- _. now repeat split.
  - destruct (strncmp_eq buf _ 10) as [[|]|]; try discriminate. injection E as <- _. now repeat split.
  - injection E as <- _. now repeat split.
  - destruct (text20 buf 0) as [[a|]|]; try discriminate. cbn [obind] in E.
    destruct (text20 buf 20) as [[b|]|]; try discriminate. cbn [obind] in E.
    destruct (text20 buf 40) as [[c|]|]; try discriminate. cbn [obind] in E. injection E as <- _. now repeat split.
  - destruct (text20 buf 0) as [[a|]|]; try discriminate. cbn [obind] in E.
    destruct (text20 buf 20) as [[b|]|]; try discriminate. cbn [obind] in E.
    destruct (list_eq_dec _ _ _); [|discriminate]. destruct (list_eq_dec _ _ _); [|discriminate].
    injection E as <- _. now repeat split.
  - apply three_lists in E as (E1 & E2 & E3 & E4). unfold consistent. rewrite E1, E2, E3, E4. now repeat split.
  - apply three_lists in E as (E1 & E2 & E3 & E4). unfold consistent. rewrite E1, E2, E3, E4. now repeat split.
  - destruct (obs_types_line buf _ _) as [[[code cs] n]|] eqn:O; [|discriminate]. cbn [obind] in E.
    destruct (Z.eqb_spec code 0) as [->|]; [|discriminate]. injection E as <- _. apply obs_types_sound in O. now repeat split.
  - destruct (strncmp_eq _ _ 3) as [[|]|]; try discriminate. cbn [obind] in E.
    destruct (string_at buf 0) as [s|]; [|discriminate]. cbn [obind] in E. destruct (read_date s); [|discriminate].
    injection E as <- _. now repeat split.
  - discriminate.
  - destruct (scale_line _ _ buf) as [[code fs]|] eqn:O; [|discriminate]. cbn [obind fst snd] in E.
    destruct (Z.eqb_spec code 0) as [->|]; [|discriminate]. injection E as <- _. apply scale_line_sound in O as [O _]. now repeat split.
  - destruct (load buf 0) as [c|]; [|discriminate]. cbn [obind] in E. destruct (Ascii.eqb c "D"); [|discriminate].
    destruct (string_at buf 3) as [s|]; [|discriminate]. cbn [obind] in E. destruct (strtod s) as [q used].
    destruct (Nat.eqb used 0); [discriminate|]. injection E as <- _. now repeat split.
  - destruct (leading_int buf) as [[n|]|]; try discriminate. cbn [obind] in E. destruct (n =? 0)%Z; [discriminate|].
    injection E as <- _. now repeat split.
  - destruct (string_at buf 0) as [s|]; [|discriminate]. cbn [obind] in E.
    destruct (set_from_rinex_line errno _ s) as [[code st] e] eqn:O. destruct (Z.eqb_spec code 0) as [->|]; [|discriminate].
    injection E as <- _. apply station_code_length in O. refine (conj C (conj F (conj _ _))); cbn.
    + eapply Forall_impl; [|exact R]. cbn. intros r (x & A & B). exists x. split; [apply in_or_app; now left|exact B].
    + apply Forall_app. split; [exact S|]. constructor; [exact O|constructor].
  - destruct (leading_int buf) as [[n|]|]; try discriminate. cbn [obind] in E. destruct (n =? 0)%Z; [discriminate|].
    injection E as <- _. now repeat split.
  - destruct (string_at buf 5) as [s|]; [|discriminate]. cbn [obind] in E. destruct (strtod s) as [q used].
    destruct (Nat.eqb used 0); [discriminate|]. destruct (string_at buf 19) as [s2|]; [|discriminate]. cbn [obind] in E.
    destruct (strtod s2) as [q2 used2]. destruct (Nat.eqb used2 0); [discriminate|].
    destruct (find_station _ _) as [[x|]|] eqn:FS; try discriminate. cbn [obind] in E. injection E as <- _.
    apply find_station_some in FS as [I M]. refine (conj C (conj F (conj _ S))); cbn.
    apply Forall_app. split; [exact R|]. constructor; [|constructor]. exists x. split; [exact I|].
    pose proof (proj1 (Forall_forall _ _) S x I) as L3. cbn in L3.
    assert (L3' : length (columns buf 0 3) = 3) by (apply columns_length; lia).
    refine (conj L3 (conj L3' _)). now apply (strncmp_same 3).
  - destruct (string_at buf 0) as [s|]; [|discriminate]. cbn [obind] in E. destruct (read_date s); [|discriminate].
    injection E as <- _. now repeat split.
  - destruct (leading_int buf) as [[n|]|]; try discriminate. cbn [obind] in E. destruct (_ || _ || _); [discriminate|].
    injection E as <- _. now repeat split.
  - discriminate.
  - injection E as <- _. now repeat split.
Qed.

Lemma take_line_room : forall l room a b e, take_line room l = (a, b, e) -> length a <= room.
Proof.
  induction l as [|c l IH]; intros room a b e E.
  - destruct room; cbn in E; injection E as <- _ _; cbn; lia.
  - destruct room as [|room]; cbn [take_line] in E; destruct (Ascii.eqb c nl); try (injection E as <- _ _; cbn; lia).
    destruct (take_line room l) as [[a' b'] e'] eqn:T. injection E as <- _ _. apply IH in T. cbn. lia.
Qed.
Lemma getline_length s t s' : getline MAX_HEADER_CHARS s = (t, s') -> length t <= 80.
Proof.
  unfold getline. destruct (s_good s); [|intros E; injection E as <- <-; cbn; lia].
  destruct (take_line (MAX_HEADER_CHARS - 1) (s_rest s)) as [[a b] e] eqn:T. intros E. injection E as <- <-. exact (take_line_room _ _ _ _ _ T).
Qed.
Lemma getline_line s t s' : getline MAX_HEADER_CHARS s = (t, s') -> s_good s' = true ->
  s_rest s = t ++ nl :: s_rest s' /\ line_ok 81 t /\ s' = s_open (s_rest s').
Proof.
  intros G. pose proof (getline_length _ _ _ G) as L. revert G.
  unfold getline. destruct (s_good s).
  2:{ intros E; injection E as <- <-. unfold s_good; cbn. now rewrite andb_false_r. }
  destruct (take_line (MAX_HEADER_CHARS - 1) (s_rest s)) as [[a b] e] eqn:T. apply take_line_split in T.
  intros E. injection E as -> <-. cbn [s_rest]. destruct e; unfold s_good; cbn; try discriminate.
  intros _. destruct T as [-> N]. refine (conj eq_refl (conj (conj N _) eq_refl)). lia.
Qed.
Lemma getline_good s t s' : getline MAX_HEADER_CHARS s = (t, s') -> s_good s' = true -> s_good s = true.
Proof.
  unfold getline. destruct (s_good s); [reflexivity|]. intros E; injection E as <- <-. unfold s_good; cbn. now rewrite andb_false_r.
Qed.

Lemma file_text_cons t ls rest : file_text (t :: ls) rest = t ++ nl :: file_text ls rest.
Proof. unfold file_text. cbn [flat_map]. now rewrite <- !app_assoc. Qed.

(* only whole lines have been read when the loop is left with a good stream, the last of them being the mark *)
Lemma records_sound : forall fuel h errno buf s h' s', length buf = 81 -> consistent h ->
  records fuel h errno buf s = Some (Ok (inr (h', true, s'))) -> s_good s' = true ->
  consistent h' /\ exists ls rest, ls <> [] /\ header_lines (s_rest s) ls rest /\ s' = s_open rest /\ s_good s = true.
Proof.
  induction fuel as [|fuel IH]; intros h errno buf s h' s' LB C E GS; [discriminate|].
  cbn [records RnxFile_model.records] in E. destruct (getline MAX_HEADER_CHARS s) as [t s1] eqn:G.
  destruct (s_ok s); [|discriminate]. destruct (s_ok s1); [|discriminate].
  pose proof (into_buffer_length buf t LB (getline_length _ _ _ G)) as LB'.
  destruct (record h errno (into_buffer buf t)) as [[h2 e2|code|]|] eqn:R; try discriminate.
  - destruct (IH h2 e2 (into_buffer buf t) s1 h' s' LB' (record_consistent _ _ _ _ _ LB' R C) E GS) as (C' & ls & rest & N & (T & F) & ES & G1).
    split; [exact C'|]. destruct (getline_line _ _ _ G G1) as (P & LT & _). exists (t :: ls), rest.
    refine (conj _ (conj (conj _ _) (conj ES _))); [discriminate| |now constructor|exact (getline_good _ _ _ G G1)].
    rewrite file_text_cons, P. now rewrite T.
  - injection E as <- <-. split; [exact C|]. destruct (getline_line _ _ _ G GS) as (P & LT & O). exists [t], (s_rest s1).
    refine (conj _ (conj (conj _ _) (conj O (getline_good _ _ _ G GS)))); [discriminate| |constructor; [exact LT|constructor]].
    rewrite P. unfold file_text. cbn [flat_map]. now rewrite <- !app_assoc.
Qed.

Definition sound (h : head) : Prop :=
  consistent h
  /\ length (h_factors _ h) = length (h_codes _ h)
  /\ h_ncodes _ h = Z.of_nat (length (h_codes _ h))
  /\ h_nstations _ h = Z.of_nat (length (h_stations _ h))
  /\ length (h_refs _ h) < length (h_stations _ h).
Lemma open_sound junk errno file h lpb s : length junk = 81 ->
  open_rinex date read_date junk errno file = Some (Ok (inr (h, lpb, s))) ->
  sound h /\ exists content ls rest, file = Some content /\ header_lines content ls rest /\ 3 <= length ls /\ s = s_open rest
    /\ (Z.of_nat (length (h_codes _ h)) <= 5 * lpb)%Z /\ (forall j, Z.of_nat (length (h_codes _ h)) <= 5 * j -> lpb <= j)%Z.
Proof.
  intros LJ E. unfold open_rinex in E. destruct file as [content|]; [|discriminate].
  destruct (read_header date read_date junk errno content) as [[[c|[h1 s1]]|]|] eqn:R; try discriminate.
  injection E as -> <- ->. unfold read_header in R.
  destruct (getline MAX_HEADER_CHARS (s_open content)) as [t1 s1] eqn:G1.
  destruct (labelled _ _) as [[|]|]; try discriminate.
  destruct (obind _ _) as [[[[v u] c20] c40]|]; [|discriminate].
  destruct (_ || _ || _); [discriminate|].
  destruct (getline MAX_HEADER_CHARS s1) as [t2 s2] eqn:G2.
  destruct (labelled _ _) as [[|]|]; try discriminate.
  match type of R with match ?x with _ => _ end = _ => destruct x as [[[c|[[h2 m] s3]]|]|] eqn:RR end; try discriminate.
  destruct (Z.eqb_spec (final_checks date h2 m s3) 0) as [Z0|]; [|discriminate].
  injection R as -> ->. unfold final_checks in Z0.
  destruct (s_good s) eqn:GS; [|discriminate]. destruct m; [|discriminate]. cbn [negb orb] in Z0.
  destruct (Nat.eqb_spec (length (h_codes _ h)) (length (h_factors _ h))) as [L1|]; [|discriminate].
  destruct (Z.eqb_spec (h_ncodes _ h) (Z.of_nat (length (h_codes _ h)))) as [L2|]; [|discriminate]. cbn [negb orb] in Z0.
  destruct (Z.eqb_spec (h_nstations _ h) (Z.of_nat (length (h_stations _ h)))) as [L3|]; [|discriminate]. cbn [negb orb] in Z0.
  destruct (Nat.leb_spec (length (h_stations _ h)) (length (h_refs _ h))) as [L4|L4]; [discriminate|].
  apply records_sound in RR as (C & ls & rest & N & (T & F) & ES & GS2).
  - split; [refine (conj C (conj _ (conj L2 (conj L3 L4)))); congruence|].
    destruct (getline_line _ _ _ G2 GS2) as (P2 & O2 & _). pose proof (getline_good _ _ _ G2 GS2) as GS1.
    destruct (getline_line _ _ _ G1 GS1) as (P1 & O1 & _). cbn [s_rest s_open] in P1.
    destruct (lines_least (Z.of_nat (length (h_codes _ h))) ltac:(lia)) as [A B].
    exists content, (t1 :: t2 :: ls), rest. refine (conj eq_refl (conj (conj _ _) (conj _ (conj ES (conj A B))))).
    + rewrite P1, P2, T, !file_text_cons. reflexivity.
    + constructor; [exact O1|]. constructor; [exact O2|exact F].
    + destruct ls; [contradiction|]. cbn. lia.
  - apply into_buffer_length; [|exact (getline_length _ _ _ G2)]. apply into_buffer_length; [exact LJ|exact (getline_length _ _ _ G1)].
  - refine (conj _ (conj _ (conj _ _))); constructor.
  - exact GS.
Qed.
End Header.

(* ---- the codes ---- *)
Section Codes.
Variable date : Type.
Variable read_date : chars -> option date.
Definition coded (a : outcome (action date)) : Prop := forall c, a = Ok (Return _ c) -> c <> 0%Z.
Lemma coded_bind {A} (x : outcome A) f : (forall a, x = Ok a -> coded (f a)) -> coded (obind x f).
Proof. intros H c E. destruct x as [a|]; [|discriminate]. exact (H a eq_refl c E). Qed.
Lemma coded_three line base m left i h : (0 < base)%Z -> coded (three date line base m left i h).
Proof.
  intros B. revert i h. induction left as [|left IH]; intros i h; cbn [three]; [intros c E; discriminate|]. apply coded_bind. intros s _. destruct (strtod s) as [q used].
  destruct (Nat.eqb used 0); [intros c E; injection E as <-; lia|apply IH].
Qed.
Lemma coded_record h errno line : coded (record date read_date h errno line).
Proof.
  unfold record. apply coded_bind. intros k _.
  destruct k; repeat first
    [ apply coded_three; reflexivity
    | apply coded_bind; intros ? ?
    | match goal with
      | |- coded (match ?x with _ => _ end) => destruct x eqn:?
      | |- coded (Ok (match ?x with _ => _ end)) => destruct x eqn:?
      | |- coded (let (_, _) := ?x in _) => destruct x eqn:?
      end
    | solve [intros c E; injection E as <-; first [discriminate|apply Z.eqb_neq; assumption]]
    | solve [intros c E; discriminate E] ].
Qed.
Lemma records_code fuel : forall h errno buf s c, records date read_date fuel h errno buf s = Some (Ok (inl c)) -> c <> 0%Z.
Proof.
  induction fuel as [|f IH]; intros h errno buf s c E; cbn [records] in E; [discriminate|]. destruct (getline _ _) as [t s']. destruct (s_ok s); [|discriminate]. destruct (s_ok s'); [|discriminate].
  pose proof (coded_record h errno (into_buffer buf t)) as C. destruct (record date read_date h errno (into_buffer buf t)) as [[h' e'|code|]|]; try discriminate.
  - exact (IH _ _ _ _ _ E).
  - injection E as <-. exact (C code eq_refl).
Qed.
Lemma header_failure junk errno file r : open_rinex date read_date junk errno file = Some (Ok r) -> (file = None -> exists c, r = inl c) /\ forall c, r = inl c -> c <> 0%Z.
Proof.
  intros E. split; [intros ->; cbn in E; injection E as <-; eexists; reflexivity|]. intros c ->. unfold open_rinex in E. destruct file as [content|]; [|injection E as <-; discriminate].
  unfold read_header in E. destruct (getline _ _) as [t1 s1]. destruct (labelled _ _) as [[|]|]; [|injection E as <-; discriminate|discriminate].
  destruct (obind _ _) as [[[[v used] c20] c40]|]; [|discriminate]. destruct (_ || _); [injection E as <-; discriminate|]. destruct (getline _ _) as [t2 s2]. destruct (labelled _ _) as [[|]|]; [|injection E as <-; discriminate|discriminate].
  destruct (records _ _ _ _ _ _ _) as [[[code|[[h marked] s]]|]|] eqn:R; try discriminate.
  - injection E as <-. exact (records_code _ _ _ _ _ _ R).
  - destruct (Z.eqb_spec (final_checks date h marked s) 0); [discriminate|]. injection E as <-. assumption.
Qed.
End Codes.
