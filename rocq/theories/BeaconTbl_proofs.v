From Coq Require Import String List ZArith QArith Ascii Bool Lia.
From Verif Require Import Base CLib_model Stream_model Lines_model Lines_proofs BeaconTbl_model.
Import ListNotations.
Local Open Scope Z_scope.

(* ---- the rows of a table ---- *)
Definition row_text (r : chars) : Prop := ~ In nl r /\ ~ In nul r /\ (46 <= length r < 256)%nat.
(* columns 1-4, 6, 25 and 46 *)
Definition row_entry (strptime : chars -> option Z) (r : chars) (e : entry) : Prop :=
  b_id e = firstn 4 r /\ strptime (skipn 5 r) = Some (b_from e) /\ strptime (skipn 24 r) = Some (b_to e) /\
  exists n, strtod (skipn 45 r) = (b_height e, n) /\ n <> O.
Definition in_span (t : Z) (e : entry) : bool := (b_from e <=? t) && (t <? b_to e).

Lemma cstr_app r x : ~ In nul r -> cstr (r ++ nul :: x) = r.
Proof.
  induction r as [|c r IH]; intros N; cbn; [reflexivity|]. destruct (Ascii.eqb_spec c nul) as [->|_]; [exfalso; apply N; left; reflexivity|]. f_equal. apply IH. intros H. apply N. right. exact H.
Qed.
Lemma not_in_skipn {A} (x : A) k l : ~ In x l -> ~ In x (skipn k l).
Proof. intros N H. apply N. rewrite <- (firstn_skipn k l). apply in_or_app. right. exact H. Qed.
Lemma text_at_row buf r k : ~ In nul r -> (k <= length r)%nat -> text_at (into_buffer buf r) k = Ok (skipn k r).
Proof.
  intros N L. unfold text_at, into_buffer. rewrite skipn_app. replace (k - length r)%nat with O by lia. cbn [skipn]. rewrite existsb_app. cbn [existsb]. rewrite Ascii.eqb_refl. cbn [orb]. rewrite orb_true_r.
  rewrite cstr_app by (apply not_in_skipn, N). reflexivity.
Qed.
Section Reader.
Context (strptime : chars -> option Z).
Lemma row_good t buf acc r e : row_text r -> row_entry strptime r e ->
  row_body strptime 0 t (buf, acc) r = inl (into_buffer buf r, acc ++ (if in_span t e then [e] else [])).
Proof.
  intros (N1 & N2 & L) (I & F & T & n & H & NZ). unfold row_body. cbn [fst snd]. rewrite text_at_row by (assumption || lia). rewrite F, text_at_row by (assumption || lia). rewrite T, text_at_row by (assumption || lia). rewrite H. cbn [Z.eqb negb orb].
  destruct (Nat.eqb_spec n 0) as [|_]; [contradiction|]. fold (in_span t e). destruct (in_span t e); [|rewrite app_nil_r; reflexivity].
  replace (firstn 4 (into_buffer buf r)) with (firstn 4 r) by (unfold into_buffer; rewrite firstn_app; replace (4 - length r)%nat with O by lia; cbn [firstn]; rewrite app_nil_r; reflexivity).
  rewrite <- I. destruct e. reflexivity.
Qed.
Lemma rows_good t : forall rs es buf acc, Forall row_text rs -> Forall2 (row_entry strptime) rs es ->
  exists buf', run_lines (row_body strptime 0 t) (buf, acc) rs = inl (buf', acc ++ filter (in_span t) es).
Proof.
  induction rs as [|r rs IH]; intros es buf acc F E; inversion E as [|r' e rs' es' E1 E2]; subst.
  - cbn. rewrite app_nil_r. eauto.
  - inversion F as [|? ? F1 F2]; subst. cbn [run_lines]. rewrite (row_good t buf acc r e F1 E1). destruct (IH es' (into_buffer buf r) (acc ++ (if in_span t e then [e] else [])) F2 E2) as [b ->]. exists b. f_equal. f_equal. rewrite <- app_assoc. f_equal. cbn [filter]. destruct (in_span t e); reflexivity.
Qed.
Lemma row_ok256 r : row_text r -> line_ok 256 r. Proof. intros (N & _ & L). split; [exact N|lia]. Qed.
Lemma text_length ls last : (length ls <= length (file_text ls last))%nat.
Proof. unfold file_text. rewrite app_length. enough (length ls <= length (flat_map (fun t => t ++ [nl]) ls))%nat by lia. induction ls as [|x ls IH]; cbn [flat_map length]; [lia|]. rewrite !app_length. cbn [length]. lia. Qed.
Lemma after_header header rs last array errno t : line_ok 256 header -> Forall (line_ok 256) rs -> line_ok 256 last ->
  load_to_memory strptime (Some (file_text (header :: rs) last)) array errno t =
  match run_lines (row_body strptime errno t) (into_buffer array header, []) (seen rs last) with inl st => Some (Ok (Rows (snd st))) | inr r => Some r end.
Proof.
  intros H F L. unfold load_to_memory. change (file_text (header :: rs) last) with ((header ++ [nl]) ++ flat_map (fun t0 => t0 ++ [nl]) rs ++ last) || (unfold file_text; cbn [flat_map]). rewrite <- ?app_assoc. cbn [app]. rewrite getline_mid by exact H.
  change (flat_map (fun t0 => t0 ++ [nl]) rs ++ last) with (file_text rs last). rewrite loop_text; [destruct (run_lines _ _ _); reflexivity|exact F|exact L|]. unfold line_budget. cbn [s_rest s_open]. pose proof (text_length rs last). lia.
Qed.
Lemma table_good header rs last es array t : line_ok 256 header -> Forall row_text rs -> (last = [] \/ row_text last) -> Forall2 (row_entry strptime) (seen rs last) es ->
  load_to_memory strptime (Some (file_text (header :: rs) last)) array 0 t = Some (Ok (Rows (filter (in_span t) es))).
Proof.
  intros H F L E. assert (LL : line_ok 256 last) by (destruct L as [->|L]; [split; [intros []|cbn; lia]|apply row_ok256, L]).
  rewrite after_header; [|exact H|apply (Forall_impl _ row_ok256 F)|exact LL].
  assert (FS : Forall row_text (seen rs last)). { unfold seen. apply Forall_app. split; [exact F|]. destruct last as [|c x]; [constructor|]. constructor; [|constructor]. destruct L as [L|L]; [discriminate|exact L]. }
  destruct (rows_good t (seen rs last) es (into_buffer array header) [] FS E) as [b ->]. reflexivity.
Qed.
(* a leftover error number makes every non-empty table fail *)
Lemma table_errno header r rs last es array errno t : line_ok 256 header -> row_text r -> Forall row_text rs -> (last = [] \/ row_text last) -> row_entry strptime r es -> errno <> 0 ->
  load_to_memory strptime (Some (file_text (header :: r :: rs) last)) array errno t = Some (Ok Throw).
Proof.
  intros H R F L E NZ. assert (LL : line_ok 256 last) by (destruct L as [->|L]; [split; [intros []|cbn; lia]|apply row_ok256, L]).
  rewrite after_header; [|exact H|constructor; [apply row_ok256, R|apply (Forall_impl _ row_ok256 F)]|exact LL].
  unfold seen. cbn [app run_lines]. unfold row_body at 1. destruct R as (N1 & N2 & LR). destruct E as (I & FR & T & n & HT & NN). cbn [fst snd]. rewrite text_at_row by (assumption || lia). rewrite FR, text_at_row by (assumption || lia). rewrite T, text_at_row by (assumption || lia). rewrite HT.
  destruct (Z.eqb_spec errno 0); [contradiction|]. reflexivity.
Qed.
(* the first row which does not parse *)
Lemma row_bad t buf acc r : row_text r -> (forall e, ~ row_entry strptime r e) -> row_body strptime 0 t (buf, acc) r = inr (Ok Throw).
Proof.
  intros (N1 & N2 & L) NE. unfold row_body. cbn [fst snd]. rewrite text_at_row by (assumption || lia). destruct (strptime (skipn 5 r)) as [f|] eqn:F; [|reflexivity]. rewrite text_at_row by (assumption || lia). destruct (strptime (skipn 24 r)) as [o|] eqn:T; [|reflexivity]. rewrite text_at_row by (assumption || lia).
  destruct (strtod (skipn 45 r)) as [h n] eqn:H. destruct (Nat.eqb_spec n 0) as [|NZ]; [reflexivity|]. exfalso. apply (NE (Entry (firstn 4 r) h f o)). repeat split; try assumption. exists n. split; assumption.
Qed.
Lemma table_bad header pre r post last es array t : line_ok 256 header -> Forall row_text (pre ++ r :: post) -> (last = [] \/ row_text last) -> Forall2 (row_entry strptime) pre es -> (forall e, ~ row_entry strptime r e) ->
  load_to_memory strptime (Some (file_text (header :: pre ++ r :: post) last)) array 0 t = Some (Ok Throw).
Proof.
  intros H F L E NE. assert (LL : line_ok 256 last) by (destruct L as [->|L]; [split; [intros []|cbn; lia]|apply row_ok256, L]).
  rewrite after_header; [|exact H|apply (Forall_impl _ row_ok256 F)|exact LL]. apply Forall_app in F. destruct F as [F1 F2]. pose proof (Forall_inv F2) as FR.
  unfold seen. rewrite <- app_assoc. cbn [app]. destruct (rows_good t pre es (into_buffer array header) [] F1 E) as [b HB].
  assert (A : forall xs ys st st', run_lines (row_body strptime 0 t) st xs = inl st' -> run_lines (row_body strptime 0 t) st (xs ++ ys) = run_lines (row_body strptime 0 t) st' ys).
  { induction xs as [|x xs IH]; intros ys st st' R; cbn [run_lines app] in *; [injection R as ->; reflexivity|]. destruct (row_body strptime 0 t st x) as [s1|q]; [apply IH, R|discriminate]. }
  rewrite (A _ _ _ _ HB). cbn [run_lines app]. rewrite row_bad by assumption. reflexivity.
Qed.
Lemma table_total content array errno t : exists r, load_to_memory strptime content array errno t = Some r.
Proof.
  destruct content as [c|]; [|eexists; reflexivity]. unfold load_to_memory. destruct (getline 256 (s_open c)) as [h s]. destruct (loop_total 256 (row_body strptime errno t) ltac:(lia) (line_budget s) (into_buffer array h, []) s ltac:(unfold line_budget; lia)) as [r ->]. destruct r; eexists; reflexivity.
Qed.
End Reader.
(* ---- an example ---- *)
Definition ex_date (s : chars) : option Z := match s with " "%char :: c :: _ => digit_of c | c :: _ => digit_of c | [] => None end.
Definition ex_row (a b : string) : chars := list_ascii_of_string ("ADEA " ++ a ++ "000-00-00T00:00:00 " ++ b ++ "000-00-00T00:00:00    0.513").
Definition ex_header : chars := list_ascii_of_string "Site From To Height".
Definition clean (r : chars) : bool := forallb (fun c => negb (Ascii.eqb c nl) && negb (Ascii.eqb c nul)) r.
Lemma clean_ok r : clean r = true -> ~ In nl r /\ ~ In nul r.
Proof. unfold clean. rewrite forallb_forall. intros H. split; intros I; specialize (H _ I); discriminate H. Qed.
