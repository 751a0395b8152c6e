(* Lemmas behind RnxFile_props.v: when the header is read without undefined behaviour. *)
From Coq Require Import String List ZArith QArith Ascii Bool Lia.
From Verif Require Import Base CLib_model CLib_proofs Stream_model Lines_proofs SysInfo_model SysInfo_proofs Rinex_model Rinex_proofs
  RnxHead_model RnxHead_proofs RnxFile_model RnxFile_proofs RnxFileText_proofs.
Import ListNotations.
Local Open Scope nat_scope.

(* the columns behind the first 60 start with a text *)
Definition marked (t : chars) (l : string) : Prop := firstn (length (str l)) (skipn 60 t) = str l.
Definition not_blank (n : nat) (t : chars) : Prop := exists i c, i < n /\ nth_error t i = Some c /\ c <> blank.
(* a line that is not cut short, with something in the columns of a name and fewer than 13 observation types *)
Definition safe (t : chars) : Prop :=
  60 <= length t <= 80 /\ clean t /\
  (marked t "SATELLITE NAME" \/ marked t "COSPAR NUMBER" -> not_blank 60 t) /\
  (marked t "REC # / TYPE / VERS" \/ marked t "ANT # / TYPE" -> not_blank 20 t) /\
  (marked t "SYS / # / OBS TYPES" -> (wrap 32 (l_val (strtol (skipn 1 t))) < 13)%Z).

Section Safe.
Variable date : Type.
Variable read_date : chars -> option date.

Lemma string_at_safe t stale k : clean t -> k <= length t -> string_at (t ++ nul :: stale) k = Ok (skipn k t).
Proof.
  intros C L. rewrite <- (firstn_skipn k t) at 1. rewrite <- app_assoc. apply string_at_buf; [apply firstn_length_le; exact L|].
  intros I. apply (clean_nul t C). rewrite <- (firstn_skipn k t). apply in_or_app. now right.
Qed.
Lemma strncmp_defined : forall n a b, n <= length a -> n <= length b -> exists e, strncmp_eq a b n = Ok e.
Proof.
  induction n as [|n IH]; intros [|x a] [|y b] A B; cbn in *; try lia; eauto.
  destruct (Ascii.eqb x y); [|eauto]. destruct (Ascii.eqb x nul); [eauto|]. apply IH; lia.
Qed.
Lemma strncmp_true : forall n a b, ~ In nul b -> length b = n -> strncmp_eq a b n = Ok true -> firstn n a = b.
Proof.
  induction n as [|n IH]; intros a b N L E; destruct b as [|y b]; try discriminate; [reflexivity|].
  cbn [strncmp_eq] in E. destruct a as [|x a]; [discriminate|]. destruct (Ascii.eqb_spec x y) as [->|]; [|discriminate].
  destruct (Ascii.eqb_spec y nul) as [->|]; [now destruct N; left|]. cbn [firstn]. f_equal. apply IH; [intro; apply N; now right|now injection L|exact E].
Qed.
Lemma kind_defined line : length line = 81 -> forall ls, Forall (fun p => length (str (fst p)) <= 20 /\ ~ In nul (str (fst p))) ls ->
  exists k, kind_among ls line = Ok k /\ (k = KIgnored \/ exists t, In (t, k) ls /\ firstn (length (str t)) (skipn 60 line) = str t).
Proof.
  intros L. induction ls as [|[t k] ls IH]; intros F; [cbn; eauto|]. inversion F as [|? ? [F1 F2] F3]; subst. cbn [kind_among fst] in *.
  unfold labelled. destruct (strncmp_defined (length (str t)) (skipn 60 line) (str t)) as ([|] & E); [rewrite skipn_length; lia|lia| |].
  - fold (str t). rewrite E. cbn [obind]. exists k. split; [reflexivity|]. right. exists t. split; [now left|]. now apply strncmp_true.
  - fold (str t). rewrite E. cbn [obind]. destruct (IH F3) as (k' & E' & [KI|(t' & I & P)]); exists k'; (split; [exact E'|]); [now left|right].
    exists t'. split; [now right|exact P].
Qed.
Lemma labels_fit : Forall (fun p => length (str (fst p)) <= 20 /\ ~ In nul (str (fst p))) labels.
Proof.
  apply Forall_forall. intros p I. assert (H : forallb (fun p => (length (str (fst p)) <=? 20) && negb (existsb (Ascii.eqb nul) (str (fst p)))) labels = true) by reflexivity.
  rewrite forallb_forall in H. apply H in I. apply andb_prop in I as [A B]. split; [now apply Nat.leb_le|].
  intro X. destruct (existsb (Ascii.eqb nul) (str (fst p))) eqn:E; [discriminate|].
  rewrite <- not_true_iff_false in E. apply E. apply existsb_exists. exists nul. now rewrite Ascii.eqb_refl.
Qed.
Lemma marked_line t stale (l : string) : 60 <= length t -> ~ In nul (str l) -> clean t ->
  firstn (length (str l)) (skipn 60 (t ++ nul :: stale)) = str l -> marked t l.
Proof.
  intros L N C E. unfold marked. rewrite skipn_app in E. replace (60 - length t) with 0 in E by lia. rewrite skipn_O in E.
  rewrite firstn_app in E. destruct (length (str l) - length (skipn 60 t)) as [|k] in E; [cbn [firstn] in E; now rewrite app_nil_r in E|].
  cbn [firstn] in E. exfalso. apply N. rewrite <- E. apply in_or_app. right. now left.
Qed.
Lemma count_defined line off : forall from, off + from < length line ->
  (off <> 0 \/ exists i c, i <= from /\ nth_error line i = Some c /\ c <> blank) ->
  exists n, count_length_reverse line off from = Ok n.
Proof.
  induction from as [|f IH]; intros L H; cbn [count_length_reverse]; unfold load;
    (destruct (nth_error line (off + _)) as [c|] eqn:E; [|apply nth_error_None in E; lia]); cbn [of_option obind].
  - destruct (Ascii.eqb_spec c blank) as [->|]; [|eauto]. destruct (Nat.eqb_spec off 0) as [->|]; [|eauto].
    destruct H as [H|(i & c & Li & N & B)]; [contradiction|]. replace i with 0 in N by lia. cbn in E, N. congruence.
  - destruct (Ascii.eqb_spec c blank) as [->|]; [|eauto]. apply IH; [lia|].
    destruct (Nat.eq_dec off 0) as [->|]; [right|now left]. destruct H as [H|(i & c & Li & N & B)]; [contradiction|].
    exists i, c. refine (conj _ (conj N B)). destruct (Nat.eq_dec i (S f)) as [->|]; [cbn [Nat.add] in E; congruence|lia].
Qed.
Lemma text20_defined line off : off + 20 <= length line -> (off <> 0 \/ exists i c, i < 20 /\ nth_error line i = Some c /\ c <> blank) ->
  exists r, text20 line off = Ok r.
Proof.
  intros L H. unfold text20. destruct (count_defined line off 19) as (n & ->); [lia| |cbn [obind]; eauto].
  destruct H as [H|(i & c & Li & N)]; [now left|right]. exists i, c. split; [lia|exact N].
Qed.
Lemma nb_line t stale n : not_blank n t -> exists i c, i < n /\ nth_error (t ++ nul :: stale) i = Some c /\ c <> blank.
Proof.
  intros (i & c & L & N & B). exists i, c. refine (conj L (conj _ B)). rewrite nth_error_app1; [exact N|]. apply nth_error_Some. congruence.
Qed.
Lemma three_defined t stale base m : clean t -> 28 <= length t -> forall left i h, i + left <= 3 ->
  exists a, three date (t ++ nul :: stale) base m left i h = Ok a /\ (forall h' e, a = Go _ h' e -> h_codes _ h' = h_codes _ h).
Proof.
  intros C L. induction left as [|left IH]; intros i h B; cbn [three].
  - eexists. split; [reflexivity|]. intros h' e E. now injection E as <-.
  - rewrite string_at_safe by (try exact C; lia). cbn [obind]. destruct (strtod _) as [q used].
    destruct (Nat.eqb used 0); [eexists; split; [reflexivity|discriminate]|]. destruct (IH (S i) (with_number date h (m i) q)) as (a & -> & H); [lia|].
    exists a. split; [reflexivity|exact H].
Qed.
Lemma obs_codes_defined t stale : clean t -> 60 <= length t -> forall n k acc, n + k <= 12 ->
  exists r, obs_codes (t ++ nul :: stale) n k acc = Ok r /\ length (snd r) <= length acc + n.
Proof.
  intros C L. induction n as [|n IH]; intros k acc B; cbn [obs_codes].
  - eexists. split; [reflexivity|]. cbn. lia.
  - rewrite string_at_safe by (try exact C; lia). cbn [obind].
    destruct (drop_blanks _) as [|c s]; [eexists; split; [reflexivity|cbn; lia]|].
    destruct (char_to_type c) as [ty|]; [|eexists; split; [reflexivity|cbn; lia]].
    destruct (has_frequency ty && _); [eexists; split; [reflexivity|cbn; lia]|].
    destruct (mk_code ty _) as [code|]; [|eexists; split; [reflexivity|cbn; lia]].
    destruct (IH (S k) (acc ++ [code])) as (r & E & LE); [lia|]. exists r. split; [exact E|]. rewrite app_length in LE. cbn in LE. lia.
Qed.
Lemma load_line t stale i : i < length t -> exists c, load (t ++ nul :: stale) i = Ok c.
Proof.
  intros L. unfold load. destruct (nth_error (t ++ nul :: stale) i) eqn:E; [cbn; eauto|]. apply nth_error_None in E. rewrite app_length in E. lia.
Qed.
Lemma obs_types_defined t stale old oldn : clean t -> 60 <= length t -> (wrap 32 (l_val (strtol (skipn 1 t))) < 13)%Z -> length old <= 12 ->
  exists code cs n, obs_types_line (t ++ nul :: stale) old oldn = Ok (code, cs, n) /\ length cs <= 12.
Proof.
  intros C L B O. unfold obs_types_line. destruct (load_line t stale 0) as (c & ->); [lia|]. cbn [obind].
  destruct (negb _); [do 3 eexists; split; [reflexivity|exact O]|].
  rewrite string_at_safe by (try exact C; lia). cbn [obind]. destruct (_ || _ || _); [do 3 eexists; split; [reflexivity|exact O]|].
  destruct (Z.ltb_spec (wrap 32 (l_val (strtol (skipn 1 t)))) 13); [|lia]. cbn [negb].
  destruct (obs_codes_defined t stale C L (Z.to_nat (wrap 32 (l_val (strtol (skipn 1 t))))) 0 []) as ([code cs] & -> & LE); [lia|].
  cbn [obind fst snd length Nat.add] in *. do 3 eexists. split; [reflexivity|]. clear - LE H. lia.
Qed.
Lemma index_bound codes c : (get_observation_code_index codes c < 0)%Z \/ (0 <= get_observation_code_index codes c < Z.of_nat (length codes))%Z.
Proof.
  destruct (proj1 (obs_index_ok codes c _) eq_refl) as [[-> _]|(a & b & E & _ & ->)]; [left; lia|right]. rewrite E, app_length. cbn [length]. lia.
Qed.
Lemma upd_defined {A} (v : A) : forall l i, i < length l -> exists l', upd l i v = Some l' /\ length l' = length l.
Proof.
  induction l as [|x l IH]; intros [|i] L; cbn in *; try lia; [eauto|].
  destruct (IH i) as (l' & -> & E); [lia|]. eexists. split; [reflexivity|]. cbn. lia.
Qed.
Lemma scale_codes_defined t stale codes f : clean t -> 60 <= length t -> forall n k fs, n + k <= 12 -> length fs = length codes ->
  exists r, scale_codes codes (t ++ nul :: stale) f n k fs = Ok r.
Proof.
  intros C L. induction n as [|n IH]; intros k fs B F; cbn [scale_codes]; [eauto|].
  rewrite string_at_safe by (try exact C; lia). cbn [obind].
  destruct (drop_blanks _) as [|c s]; [eauto|]. destruct (char_to_type c) as [ty|]; [|eauto].
  destruct (has_frequency ty && _); [eauto|]. destruct (mk_code ty _) as [code|]; [|eauto].
  destruct (Z.ltb_spec (get_observation_code_index codes code) 0); [eauto|].
  destruct (index_bound codes code) as [|IB]; [lia|]. unfold store.
  destruct (upd_defined f fs (Z.to_nat (get_observation_code_index codes code))) as (fs' & -> & LE); [lia|]. cbn [of_option obind].
  apply IH; lia.
Qed.
Lemma scale_line_defined t stale codes old : clean t -> 60 <= length t -> length codes <= 12 -> exists r, scale_line codes old (t ++ nul :: stale) = Ok r.
Proof.
  intros C L B. unfold scale_line. destruct (load_line t stale 0) as (c & ->); [lia|]. cbn [obind]. destruct (negb _); [eauto|].
  rewrite string_at_safe by (try exact C; lia). cbn [obind]. destruct (_ || _ || _); [eauto|].
  destruct (load_line t stale 8) as (c8 & ->); [lia|]. destruct (load_line t stale 9) as (c9 & ->); [lia|]. cbn [obind].
  destruct (_ && _); [apply scale_codes_defined; try assumption; [lia|apply repeat_length]|].
  rewrite string_at_safe by (try exact C; lia). cbn [obind].
  destruct (_ || _ || _ || _) eqn:E; [eauto|].
  apply scale_codes_defined; try assumption; [|apply repeat_length].
  apply orb_false_iff in E as [E _]. apply orb_false_iff in E as [E _]. apply orb_false_iff in E as [_ E]. apply Z.ltb_ge in E. lia.
Qed.
Lemma leading_defined t stale : clean t -> exists r, leading_int (t ++ nul :: stale) = Ok r.
Proof. intros C. unfold leading_int. rewrite string_at_safe by (try exact C; lia). cbn [obind]. eauto. Qed.
Lemma find_defined code l : length code = 3 -> Forall (fun s => length (st_code s) = 3) l ->
  exists r, find_station (fun b => strncmp_eq (st_code b) code 3) l = Ok r.
Proof.
  intros L. induction 1 as [|x l X F IH]; cbn [find_station]; [eauto|].
  destruct (strncmp_defined 3 (st_code x) code) as ([|] & ->); [lia|lia| |]; cbn [obind]; eauto.
Qed.

Lemma record_defined h errno t stale : safe t -> length (t ++ nul :: stale) = 81 -> consistent date h -> length (h_codes _ h) <= 12 ->
  exists a, record date read_date h errno (t ++ nul :: stale) = Ok a /\ (forall h' e, a = Go _ h' e -> length (h_codes _ h') <= 12) /\
  (marked t "END OF HEADER" -> a = Break _).
Proof.
  intros (L & C & S1 & S2 & S3) L81 CO LC. unfold RnxFile_model.record.
  destruct (kind_defined (t ++ nul :: stale) L81 labels labels_fit) as (k & E & KD). rewrite E. cbn [obind].
  assert (KE : marked t "END OF HEADER" -> k = KEnd).
  { intros M. assert (ML : forall l : string, marked t l -> length (str l) <= length (skipn 60 t) /\ skipn 60 t = str l ++ skipn (length (str l)) (skipn 60 t)).
    { intros l H. unfold marked in H. split.
      - apply (f_equal (@length ascii)) in H. rewrite firstn_length in H. lia.
      - rewrite <- (firstn_skipn (length (str l)) (skipn 60 t)) at 1. now rewrite H. }
    destruct (ML _ M) as [_ SK]. revert E. clear - SK L.
    assert (G : forall ls, kind_among ls (t ++ nul :: stale) = kind_among ls (repeat blank 60 ++ skipn 60 t ++ nul :: stale)).
    { induction ls as [|[x y] ls IH]; [reflexivity|]. cbn [kind_among]. unfold labelled. rewrite IH.
      replace (skipn 60 (t ++ nul :: stale)) with (skipn 60 (repeat blank 60 ++ skipn 60 t ++ nul :: stale)); [reflexivity|].
      rewrite skipn_app_exact by reflexivity. rewrite skipn_app. replace (60 - length t) with 0 by lia. reflexivity. }
    rewrite G, SK, <- app_assoc. intros E. assert (X : Ok KEnd = Ok k) by exact E. now injection X. }
  assert (MK : forall l, In (l, k) labels -> firstn (length (str l)) (skipn 60 (t ++ nul :: stale)) = str l -> marked t l).
  { intros l I P. apply (marked_line t stale); [lia| |exact C|exact P].
    exact (proj2 (proj1 (Forall_forall _ _) labels_fit _ I)). }
  assert (M1 : forall l, (forall l', In (l', k) labels -> l' = l) -> k <> KIgnored -> marked t l).
  { intros l U NI. destruct KD as [|(l' & I & P)]; [contradiction|]. rewrite <- (U l' I). now apply MK. }
  assert (GO : forall (a : action date), (forall h' e, a = Go _ h' e -> h_codes _ h' = h_codes _ h) -> (k <> KEnd) ->
     exists a', Ok a = Ok a' /\ (forall h' e, a' = Go _ h' e -> length (h_codes _ h') <= 12) /\ (marked t "END OF HEADER" -> a' = Break _)).
  { intros a H NE. exists a. refine (conj eq_refl (conj _ _)); [intros h' e X; now rewrite (H h' e X)|intros M; now destruct (NE (KE M))]. }
  assert (SA : forall i, i <= 60 -> string_at (t ++ nul :: stale) i = Ok (skipn i t)) by (intros; apply string_at_safe; [exact C|lia]).
  Ltac uniq := let l' := fresh in let I := fresh in intros l' I; cbn in I;
    repeat match goal with H : _ \/ _ |- _ => destruct H as [H|H] end; try contradiction; try congruence.
  destruct k.
  - (* satellite *)
    destruct (count_defined (t ++ nul :: stale) 0 59) as (n & ->); [rewrite L81; lia| |].
    { right. destruct (nb_line t stale 60 (S1 (or_introl (M1 "SATELLITE NAME"%string ltac:(uniq) ltac:(discriminate))))) as (i & c & A & B). exists i, c. split; [lia|exact B]. }
    cbn [obind]. apply GO; [|discriminate]. destruct (_ || _); [discriminate|]. intros h' e' X. injection X as <- _. reflexivity.
  - destruct (count_defined (t ++ nul :: stale) 0 59) as (n & ->); [rewrite L81; lia| |].
    { right. destruct (nb_line t stale 60 (S1 (or_intror (M1 "COSPAR NUMBER"%string ltac:(uniq) ltac:(discriminate))))) as (i & c & A & B). exists i, c. split; [lia|exact B]. }
    cbn [obind]. apply GO; [|discriminate]. destruct (_ || _); [discriminate|]. intros h' e' X. injection X as <- _. reflexivity.
  - destruct (strncmp_defined 10 (t ++ nul :: stale) (list_ascii_of_string "SPACEBORNE")) as (b & ->); [lia|cbn; lia|]. cbn [obind].
    apply GO; [|discriminate]. destruct b; [|discriminate]. intros h' e' X. injection X as <- _. reflexivity.
  - apply GO; [|discriminate]. intros h' e' X. injection X as <- _. reflexivity.
  - (* receiver *)
    pose proof (nb_line t stale 20 (S2 (or_introl (M1 "REC # / TYPE / VERS"%string ltac:(uniq) ltac:(discriminate))))) as NB.
    destruct (text20_defined (t ++ nul :: stale) 0) as (a & ->); [lia|now right|]. cbn [obind]. destruct a as [a|]; [|apply GO; discriminate].
    destruct (text20_defined (t ++ nul :: stale) 20) as (b & ->); [lia|left; lia|]. cbn [obind]. destruct b as [b|]; [|apply GO; discriminate].
    destruct (text20_defined (t ++ nul :: stale) 40) as (c & ->); [lia|left; lia|]. cbn [obind].
    apply GO; [|discriminate]. destruct c; [|discriminate]. intros h' e' X. injection X as <- _. reflexivity.
  - pose proof (nb_line t stale 20 (S2 (or_intror (M1 "ANT # / TYPE"%string ltac:(uniq) ltac:(discriminate))))) as NB.
    destruct (text20_defined (t ++ nul :: stale) 0) as (a & ->); [lia|now right|]. cbn [obind]. destruct a as [a|]; [|apply GO; discriminate].
    destruct (text20_defined (t ++ nul :: stale) 20) as (b & ->); [lia|left; lia|]. cbn [obind]. apply GO; [|discriminate].
    destruct b; [|discriminate]. destruct (list_eq_dec _ _ _); [|discriminate]. destruct (list_eq_dec _ _ _); [|discriminate].
    intros h' e' X. injection X as <- _. reflexivity.
  - destruct (three_defined t stale 90 ApproxPosition C ltac:(lia) 3 0 h ltac:(lia)) as (a & -> & H). now apply GO.
  - destruct (three_defined t stale 100 CenterMass C ltac:(lia) 3 0 h ltac:(lia)) as (a & -> & H). now apply GO.
  - (* observation types *)
    destruct (obs_types_defined t stale (h_codes _ h) (h_ncodes _ h) C ltac:(lia) (S3 (M1 "SYS / # / OBS TYPES"%string ltac:(uniq) ltac:(discriminate))) LC) as (code & cs & n & -> & LE).
    cbn [obind]. eexists. refine (conj eq_refl (conj _ _)).
    + destruct (code =? 0)%Z; [|discriminate]. intros h' e' X. injection X as <- _. exact LE.
    + intros M. now specialize (KE M).
  - destruct (strncmp_defined 3 (skipn 48 (t ++ nul :: stale)) (list_ascii_of_string "DOR")) as (b & ->); [rewrite skipn_length; lia|cbn; lia|]. cbn [obind].
    destruct b; [|apply GO; discriminate]. rewrite SA by lia. cbn [obind]. apply GO; [|discriminate]. destruct (read_date _); [|discriminate].
    intros h' e' X. injection X as <- _. reflexivity.
  - apply GO; discriminate.
  - destruct (scale_line_defined t stale (h_codes _ h) (h_factors _ h) C ltac:(lia) LC) as (r & ->). cbn [obind]. apply GO; [|discriminate].
    destruct (fst r =? 0)%Z; [|discriminate]. intros h' e' X. injection X as <- _. reflexivity.
  - destruct (load_line t stale 0) as (c & ->); [lia|]. cbn [obind]. destruct (Ascii.eqb c "D"); [|apply GO; discriminate].
    rewrite SA by lia. cbn [obind]. destruct (strtod _) as [q used]. apply GO; [|discriminate]. destruct (Nat.eqb used 0); [discriminate|].
    intros h' e' X. injection X as <- _. reflexivity.
  - destruct (leading_defined t stale C) as (r & ->). cbn [obind]. apply GO; [|discriminate]. destruct r as [n|]; [|discriminate].
    destruct (n =? 0)%Z; [discriminate|]. intros h' e' X. injection X as <- _. reflexivity.
  - rewrite SA by lia. cbn [obind]. destruct (set_from_rinex_line _ _ _) as [[code st] e0]. apply GO; [|discriminate].
    destruct (code =? 0)%Z; [|discriminate]. intros h' e' X. injection X as <- _. reflexivity.
  - destruct (leading_defined t stale C) as (r & ->). cbn [obind]. apply GO; [|discriminate]. destruct r as [n|]; [|discriminate].
    destruct (n =? 0)%Z; [discriminate|]. intros h' e' X. injection X as <- _. reflexivity.
  - rewrite SA by lia. cbn [obind]. destruct (strtod _) as [q used]. destruct (Nat.eqb used 0); [apply GO; discriminate|].
    rewrite SA by lia. cbn [obind]. destruct (strtod (skipn 19 t)) as [q2 used2]. destruct (Nat.eqb used2 0); [apply GO; discriminate|].
    destruct CO as (_ & _ & _ & CO). destruct (find_defined (columns (t ++ nul :: stale) 0 3) (h_stations _ h)) as (r & ->); [apply (columns_length date read_date); lia|exact CO|].
    cbn [obind]. apply GO; [|discriminate]. destruct r; [|discriminate]. intros h' e' X. injection X as <- _. reflexivity.
  - rewrite SA by lia. cbn [obind]. apply GO; [|discriminate]. destruct (read_date _); [|discriminate]. intros h' e' X. injection X as <- _. reflexivity.
  - destruct (leading_defined t stale C) as (r & ->). cbn [obind]. apply GO; [|discriminate]. destruct r as [n|]; [|discriminate].
    destruct (_ || _ || _); [discriminate|]. intros h' e' X. injection X as <- _. reflexivity.
  - eexists. refine (conj eq_refl (conj _ _)); [discriminate|reflexivity].
  - apply GO; [|discriminate]. intros h' e' X. injection X as <- _. reflexivity.
Qed.

Lemma safe_line t : safe t -> line_ok 81 t.
Proof. intros (L & C & _). split; [now apply clean_nl|lia]. Qed.
Lemma records_defined : forall ls t rest h errno buf fuel, Forall safe (ls ++ [t]) -> marked t "END OF HEADER" -> length buf = 81 ->
  consistent date h -> length (h_codes _ h) <= 12 -> length ls < fuel ->
  exists r, records date read_date fuel h errno buf (s_open (file_text (ls ++ [t]) rest)) = Some (Ok r).
Proof.
  induction ls as [|x ls IH]; intros t rest h errno buf fuel F M LB CO LC LF; (destruct fuel as [|fuel]; [lia|]); cbn [app records];
    rewrite file_text_cons; unfold MAX_HEADER_CHARS; rewrite getline_mid by (apply safe_line; now inversion F);
    cbn [s_ok s_open s_fail s_eof negb].
  - inversion F as [|? ? F1 _]; subst. destruct (into_text buf t) as (stale & EB).
    assert (L81 : length (into_buffer buf t) = 81) by (apply (into_buffer_length date read_date); [exact LB|destruct F1 as ((_ & ?) & _); lia]).
    rewrite EB in *. destruct (record_defined h errno t stale F1 L81 CO LC) as (a & -> & _ & E). rewrite (E M). eauto.
  - inversion F as [|? ? F1 F2]; subst. destruct (into_text buf x) as (stale & EB).
    assert (L81 : length (into_buffer buf x) = 81) by (apply (into_buffer_length date read_date); [exact LB|destruct F1 as ((_ & ?) & _); lia]).
    rewrite EB in *. destruct (record_defined h errno x stale F1 L81 CO LC) as (a & E & G & _). rewrite E.
    destruct a as [h' e'|code|]; [|eauto|eauto]. cbn [length] in LF.
    apply IH; try assumption; [exact (record_consistent _ _ _ _ _ _ _ L81 E CO)|exact (G _ _ eq_refl)|lia].
Qed.
Lemma header_defined a b ls t rest junk errno : Forall safe (a :: b :: ls ++ [t]) -> marked t "END OF HEADER" -> length junk = 81 ->
  exists r, open_rinex date read_date junk errno (Some (file_text (a :: b :: ls ++ [t]) rest)) = Some (Ok r).
Proof.
  intros F M LJ. assert (R : exists r, read_header date read_date junk errno (file_text (a :: b :: ls ++ [t]) rest) = Some (Ok r)).
  { inversion F as [|? ? FA F1]; subst. inversion F1 as [|? ? FB F2]; subst. unfold read_header.
    rewrite file_text_cons. unfold MAX_HEADER_CHARS. rewrite getline_mid by (now apply safe_line).
    destruct (into_text junk a) as (st1 & E1).
    assert (L1 : length (into_buffer junk a) = 81) by (apply (into_buffer_length date read_date); [exact LJ|destruct FA as ((_ & ?) & _); lia]).
    rewrite E1 in *. unfold labelled at 1.
    destruct (strncmp_defined (length (list_ascii_of_string "RINEX VERSION / TYPE")) (skipn 60 (a ++ nul :: st1)) (list_ascii_of_string "RINEX VERSION / TYPE")) as (e & ->);
      [rewrite skipn_length; cbn; lia|lia|]. destruct e; [|eauto].
    rewrite string_at_safe by (try apply FA; lia). cbn [obind].
    destruct (load_line a st1 20) as (c20 & ->); [destruct FA as ((? & _) & _); lia|]. destruct (load_line a st1 40) as (c40 & ->); [destruct FA as ((? & _) & _); lia|].
    cbn [obind]. destruct (strtod _) as [q used]. destruct (_ || _ || _); [eauto|].
    rewrite file_text_cons, getline_mid by (now apply safe_line).
    destruct (into_text (a ++ nul :: st1) b) as (st2 & E2).
    assert (L2 : length (into_buffer (a ++ nul :: st1) b) = 81) by (apply (into_buffer_length date read_date); [exact L1|destruct FB as ((_ & ?) & _); lia]).
    rewrite E2 in *. unfold labelled.
    destruct (strncmp_defined (length (list_ascii_of_string "PGM / RUN BY / DATE")) (skipn 60 (b ++ nul :: st2)) (list_ascii_of_string "PGM / RUN BY / DATE")) as (e & ->);
      [rewrite skipn_length; cbn; lia|lia|]. destruct e; [|eauto].
    match goal with |- context [records date read_date ?n ?h _ ?bf _] => destruct (records_defined ls t rest h errno bf n F2 M L2) as (r & ->) end.
    - refine (conj _ (conj _ (conj _ _))); constructor.
    - cbn. lia.
    - rewrite !app_length. cbn [length]. rewrite app_length. pose proof (file_text_long date read_date (ls ++ [t]) rest) as FL. rewrite app_length in FL. cbn [length] in *. lia.
    - destruct r as [c|[[h m] s]]; eauto. }
  destruct R as (r & E). unfold open_rinex. rewrite E. destruct r as [c|[h s]]; eauto.
Qed.
End Safe.
