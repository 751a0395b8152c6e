(* Specification of, and proofs about, observation codes, station records and
   DORIS frequencies (C25, C42, C43, C61, C62). *)
From Coq Require Import List ZArith QArith Ascii Bool Lia Lqa.
From Verif Require Import Base CLib_model CLib_proofs SysInfo_model.
Import ListNotations.
Local Open Scope Z_scope.

Definition known_letters : list ascii := ["L"; "C"; "W"; "F"; "P"; "T"; "H"]%char.

Lemma type_roundtrip o : char_to_type (type_to_char o) = Some o.
Proof. destruct o; reflexivity. Qed.

Lemma char_to_type_sound c o : char_to_type c = Some o <-> c = type_to_char o.
Proof.
  split.
  - unfold char_to_type.
    repeat match goal with |- context [Ascii.eqb ?a ?b] => destruct (Ascii.eqb_spec a b) as [->|?] end;
      intros E; injection E as <- || discriminate E; reflexivity.
  - intros ->. apply type_roundtrip.
Qed.

Lemma char_rejected c : char_to_type c = None <-> ~ In c known_letters.
Proof.
  split.
  - intros E HI. simpl in HI.
    repeat (destruct HI as [<-|HI]; [discriminate E|]). exact HI.
  - intros HN. destruct (char_to_type c) as [o|] eqn:E; [|reflexivity].
    exfalso. apply HN. apply char_to_type_sound in E. subst. destruct o; simpl; tauto.
Qed.

Lemma letters_ok : (forall o, char_to_type (type_to_char o) = Some o) /\
  (forall o1 o2, type_to_char o1 = type_to_char o2 -> o1 = o2) /\
  (forall c, char_to_type c = None <-> ~ In c known_letters).
Proof.
  split; [exact type_roundtrip|]. split; [|exact char_rejected].
  intros o1 o2 E. pose proof (type_roundtrip o1) as H1. rewrite E, type_roundtrip in H1. congruence.
Qed.

(* which types carry a frequency number (RINEX DORIS 3.0) *)
Definition carries_frequency (o : obs_type) : Prop :=
  o = phase \/ o = pseudorange \/ o = power_level.

Lemma code_ctor_ok t f :
  (carries_frequency t ->
     (f = 1 \/ f = 2 -> mk_code t f = Some (ObsCode t f)) /\
     (~ (f = 1 \/ f = 2) -> mk_code t f = None)) /\
  (~ carries_frequency t -> mk_code t f = Some (ObsCode t 0)).
Proof.
  unfold carries_frequency, mk_code. split.
  - intros [->|[->| ->]]; simpl; (split; [intros [->| ->]; reflexivity|]); intros N;
      destruct (Z.ltb_spec f 1); simpl; try reflexivity;
      rewrite Z.gtb_ltb; destruct (Z.ltb_spec 2 f); try reflexivity; exfalso; apply N; lia.
  - intros N. destruct t; simpl; try reflexivity; exfalso; apply N; tauto.
Qed.

(* two codes print alike only if they are equal (and operator== agrees) *)
Lemma type_eqb_iff a b : type_eqb a b = true <-> a = b.
Proof. destruct a, b; simpl; split; congruence. Qed.

Lemma code_strings_ok t1 f1 t2 f2 c1 c2 :
  mk_code t1 f1 = Some c1 -> mk_code t2 f2 = Some c2 ->
  (exists s1, code_to_str c1 = Ok s1 /\ length s1 = 2%nat) /\
  (code_to_str c1 = code_to_str c2 <-> code_eqb c1 c2 = true) /\
  (code_eqb c1 c2 = true <-> c1 = c2).
Proof.
  assert (B : forall t f c, mk_code t f = Some c -> oc_freq c = 0 \/ oc_freq c = 1 \/ oc_freq c = 2).
  { intros t f c E. unfold mk_code in E. destruct (has_frequency t).
    - destruct (Z.ltb_spec f 1); simpl in E; [discriminate|]. rewrite Z.gtb_ltb in E.
      destruct (Z.ltb_spec 2 f); simpl in E; [discriminate|]. injection E as <-. simpl. lia.
    - injection E as <-. simpl. lia. }
  intros E1 E2. apply B in E1. apply B in E2. destruct c1 as [ty1 g1], c2 as [ty2 g2]. simpl in *.
  assert (Q : code_eqb (ObsCode ty1 g1) (ObsCode ty2 g2) = true <-> ObsCode ty1 g1 = ObsCode ty2 g2).
  { unfold code_eqb. simpl. rewrite andb_true_iff, type_eqb_iff, Z.eqb_eq. split.
    - intros [-> ->]. reflexivity.
    - intros E. injection E as -> ->. split; reflexivity. }
  split; [|split; [|exact Q]].
  - destruct E1 as [->|[->| ->]]; eexists; split; reflexivity.
  - rewrite Q. split; [|intros E; injection E as -> ->; reflexivity].
    intros E. unfold code_to_str in E. simpl in E.
    destruct E1 as [->|[->| ->]]; destruct E2 as [->|[->| ->]]; simpl in E; injection E as E;
      try discriminate; apply (proj1 (proj2 letters_ok)) in E; subst; reflexivity.
Qed.

Example code_ctor_case : carries_frequency phase /\ ~ carries_frequency ground_humidity /\
  mk_code phase 3 = None.
Proof. unfold carries_frequency. repeat split; [tauto|intros [H|[H|H]]; discriminate]. Qed.

(* ---- station records ---- *)
(* A STATION REFERENCE record: columns 0-2 code, 5-8 id, 10-39 name, 40-49
   DOMES number, 50 beacon type, 52- shift factor; blank padded. *)
Definition pad (n : nat) (s : chars) : chars := s ++ repeat blank (n - length s).
Definition station_line (code id name domes : chars) (ty : Z) (neg : bool) (sh : list Z)
    (gap rest : chars) : chars :=
  code ++ [blank; blank] ++ id ++ [blank] ++ pad 30 name ++ pad 10 domes ++
  [dchar ty] ++ [blank] ++ gap ++ numeral neg sh ++ rest.

Definition no_nul (s : chars) : Prop := Forall (fun c => c <> nul) s.
Definition trimmed (s : chars) : Prop := s <> [] /\ last s blank <> blank.

Definition record_ok (code id name domes : chars) (ty : Z) (neg : bool) (sh : list Z)
    (ngap : nat) (rest : chars) : Prop :=
  length code = 3%nat /\ length id = 4%nat /\
  (length name <= 30)%nat /\ trimmed name /\ (length domes <= 10)%nat /\ trimmed domes /\
  0 <= ty <= 9 /\ numeral_ok sh /\ INT_MIN <= nval neg sh <= INT_MAX /\
  not_digit_next rest /\
  (60 <= length (station_line code id name domes ty neg sh (repeat blank ngap) rest))%nat.

(* the array of n characters holding s followed by NULs *)
Definition nul_padded (n : nat) (s : chars) : chars := s ++ repeat nul (n - length s).

Lemma repeat_snoc {A} (x : A) n : repeat x n ++ [x] = x :: repeat x n.
Proof. induction n as [|n IH]; simpl; [reflexivity|]. rewrite IH. reflexivity. Qed.
Lemma rev_repeat' {A} (x : A) n : rev (repeat x n) = repeat x n.
Proof. induction n as [|n IH]; simpl; [reflexivity|]. rewrite IH. apply repeat_snoc. Qed.

Lemma strip_tail_pad n s : trimmed s -> (length s <= n)%nat ->
  strip_tail (pad n s) = nul_padded n s.
Proof.
  intros [Hne Hl] Hn. unfold strip_tail, pad, nul_padded.
  rewrite rev_app_distr, rev_repeat'.
  destruct (exists_last Hne) as (s' & c & ->). rewrite last_last in Hl.
  rewrite rev_app_distr. cbn [rev app].
  set (k := (n - length (s' ++ [c]))%nat). clearbody k.
  assert (A : strip_rev (repeat blank k ++ c :: rev s') = repeat nul k ++ c :: rev s').
  { induction k as [|k IH]; cbn [repeat app].
    - cbn [strip_rev]. destruct (rev s'); [reflexivity|].
      destruct (Ascii.eqb_spec c blank); [contradiction|reflexivity].
    - cbn [strip_rev]. destruct (repeat blank k ++ c :: rev s') eqn:E.
      + destruct k; discriminate.
      + rewrite <- E in *. replace (Ascii.eqb blank blank) with true by reflexivity.
        rewrite IH. reflexivity. }
  rewrite A, rev_app_distr, rev_repeat'. cbn [rev]. rewrite rev_involutive. reflexivity.
Qed.

Lemma pad_length n s : (length s <= n)%nat -> length (pad n s) = n.
Proof. intros H. unfold pad. rewrite app_length, repeat_length. lia. Qed.

Lemma columns_app_skip (a b : chars) off n : length a = off -> columns (a ++ b) off n = firstn n b.
Proof.
  intros <-. unfold columns. rewrite skipn_app, skipn_all, Nat.sub_diag. reflexivity.
Qed.
Lemma firstn_app_exact (a b : chars) n : length a = n -> firstn n (a ++ b) = a.
Proof. intros <-. rewrite firstn_app, Nat.sub_diag, firstn_all. simpl. apply app_nil_r. Qed.
Lemma skipn_app_exact (a b : chars) n : length a = n -> skipn n (a ++ b) = b.
Proof. intros <-. rewrite skipn_app, skipn_all, Nat.sub_diag. reflexivity. Qed.

Lemma skipn_skipn' (l : chars) : forall a b, skipn a (skipn b l) = skipn (a + b) l.
Proof.
  induction l as [|x l IH]; intros a b; [rewrite !skipn_nil; reflexivity|].
  destruct b as [|b]; [rewrite Nat.add_0_r; reflexivity|].
  cbn [skipn]. rewrite IH. replace (a + S b)%nat with (S (a + b)) by lia. reflexivity.
Qed.

Lemma wrap_id n v : 0 < n -> - 2 ^ (n - 1) <= v < 2 ^ (n - 1) -> wrap n v = v.
Proof.
  intros Hn H. unfold wrap.
  assert (E : 2 ^ n = 2 * 2 ^ (n - 1)).
  { replace n with (1 + (n - 1)) at 1 by lia. rewrite Z.pow_add_r by lia. reflexivity. }
  rewrite Z.mod_small by lia. lia.
Qed.

Lemma station_roundtrip st code id name domes ty neg sh ngap rest :
  record_ok code id name domes ty neg sh ngap rest ->
  set_from_rinex_line false st
    (station_line code id name domes ty neg sh (repeat blank ngap) rest) =
  (0, Station code id (nul_padded 30 name) (nul_padded 10 domes) ty (nval neg sh), false).
Proof.
  intros (Lc & Li & Ln & Tn & Ld & Td & Hty & Hsh & Hb & Hr & H60).
  unfold set_from_rinex_line.
  destruct (Nat.ltb_spec (length (station_line code id name domes ty neg sh (repeat blank ngap) rest)) 60) as [X|_];
    [lia|clear H60].
  pose proof (pad_length 30 name Ln) as Pn. pose proof (pad_length 10 domes Ld) as Pd.
  set (L := station_line code id name domes ty neg sh (repeat blank ngap) rest).
  assert (K0 : columns L 0 3 = code).
  { unfold columns, L, station_line. cbn [skipn]. apply firstn_app_exact, Lc. }
  assert (K1 : columns L 5 4 = id).
  { unfold L, station_line. rewrite (app_assoc code).
    rewrite columns_app_skip by (rewrite app_length, Lc; reflexivity).
    apply firstn_app_exact, Li. }
  assert (K2 : columns L 10 30 = pad 30 name).
  { unfold L, station_line. rewrite (app_assoc code), (app_assoc (code ++ _)), (app_assoc ((code ++ _) ++ _)).
    rewrite columns_app_skip by (rewrite !app_length, Lc, Li; reflexivity).
    apply firstn_app_exact, Pn. }
  assert (K3 : columns L 40 10 = pad 10 domes).
  { unfold L, station_line.
    rewrite (app_assoc code), (app_assoc (code ++ _)), (app_assoc ((code ++ _) ++ _)),
      (app_assoc (((code ++ _) ++ _) ++ _)).
    rewrite columns_app_skip by (rewrite !app_length, Lc, Li, Pn; reflexivity).
    apply firstn_app_exact, Pd. }
  assert (K4 : skipn 50 L = [dchar ty] ++ [blank] ++ repeat blank ngap ++ numeral neg sh ++ rest).
  { unfold L, station_line.
    rewrite (app_assoc code), (app_assoc (code ++ _)), (app_assoc ((code ++ _) ++ _)),
      (app_assoc (((code ++ _) ++ _) ++ _)), (app_assoc ((((code ++ _) ++ _) ++ _) ++ _)).
    apply skipn_app_exact. rewrite !app_length, Lc, Li, Pn, Pd. reflexivity. }
  assert (K5 : skipn 52 L = repeat blank ngap ++ numeral neg sh ++ rest).
  { change 52%nat with (2 + 50)%nat. rewrite <- skipn_skipn', K4. reflexivity. }
  fold L. rewrite K0, K1, K2, K3, K4, K5.
  assert (D1 : numeral_ok [ty]).
  { split; [discriminate|]. constructor; [exact Hty|constructor]. }
  pose proof (strtol_numeral 0 false [ty] ([blank] ++ repeat blank ngap ++ numeral neg sh ++ rest)
    D1 eq_refl) as T1.
  assert (B1 : LONG_MIN <= nval false [ty] <= LONG_MAX).
  { unfold nval, dval, LONG_MIN, LONG_MAX. simpl fold_left. lia. }
  specialize (T1 B1). cbn [repeat app numeral dstr map Datatypes.length] in T1.
  cbn [app]. rewrite T1. cbn [l_val l_used l_range orb].
  assert (B2 : LONG_MIN <= nval neg sh <= LONG_MAX).
  { unfold INT_MIN, INT_MAX, LONG_MIN, LONG_MAX in *. lia. }
  rewrite (strtol_numeral ngap neg sh rest Hsh Hr B2). cbn [l_val l_used l_range orb Nat.add Nat.eqb].
  destruct (Nat.eqb_spec (ngap + length (numeral neg sh)) 0) as [E|_].
  { exfalso. destruct Hsh as [Hs _]. destruct sh; [congruence|].
    unfold numeral, dstr in E. rewrite app_length, map_length in E. simpl in E. lia. }
  rewrite !strip_tail_pad by assumption.
  rewrite (wrap_id 32) by (unfold INT_MIN, INT_MAX in Hb; lia).
  rewrite (wrap_id 8) by (unfold nval, dval; simpl; lia).
  replace (nval false [ty]) with ty by (unfold nval, dval; simpl; lia). reflexivity.
Qed.

(* every record, whatever errno was on entry: not so *)
Lemma station_errno_refuted : exists st code id name domes ty neg sh ngap rest,
  record_ok code id name domes ty neg sh ngap rest /\
  fst (fst (set_from_rinex_line true st
    (station_line code id name domes ty neg sh (repeat blank ngap) rest))) <> 0.
Proof.
  exists (Station [] [] [] [] 0 0), ["D";"0";"1"]%char, ["D";"I";"O";"B"]%char,
    ["D";"I";"O"]%char, ["1";"2"]%char, 3, true, [1;5], 0%nat,
    ([blank] ++ repeat blank 20).
  split; [|vm_compute; discriminate].
  unfold record_ok, trimmed, numeral_ok, digits_ok, INT_MIN, INT_MAX.
  repeat split; try (vm_compute; congruence); try (vm_compute; intros; lia); try discriminate;
    try (simpl; lia); repeat constructor; try lia.
Qed.

Example station_case : record_ok ["D";"0";"1"]%char ["D";"I";"O";"B"]%char
    ["D";"I";" ";"N"]%char ["1";"2";"S"]%char 3 true [1;5] 1 (repeat blank 30).
Proof.
  unfold record_ok, trimmed, numeral_ok, digits_ok, INT_MIN, INT_MAX.
  repeat split; try (vm_compute; congruence); try (vm_compute; intros; lia); try discriminate;
    try (simpl; lia); repeat constructor; try lia.
Qed.

Lemma station_short_line errno st line : (length line < 60)%nat ->
  set_from_rinex_line errno st line = (1, st, errno).
Proof. intros H. unfold set_from_rinex_line. destruct (Nat.ltb_spec (length line) 60); [reflexivity|lia]. Qed.

(* description string *)
Lemma print_prec_len n : forall b s, print_prec n b = Ok s -> (length s <= n)%nat.
Proof.
  induction n as [|n IH]; intros b s E; cbn [print_prec] in E.
  - injection E as <-. simpl. lia.
  - destruct b as [|c b]; [discriminate|]. destruct (Ascii.eqb c nul).
    + injection E as <-. simpl. lia.
    + destruct (print_prec n b) as [r|] eqn:R; [|discriminate]. injection E as <-.
      apply IH in R. simpl. lia.
Qed.
Lemma print_prec_ok n : forall b, (n <= length b)%nat -> exists s, print_prec n b = Ok s.
Proof.
  induction n as [|n IH]; intros b H; cbn [print_prec]; [eexists; reflexivity|].
  destruct b as [|c b]; [simpl in H; lia|]. destruct (Ascii.eqb c nul); [eexists; reflexivity|].
  destruct (IH b) as [s E]; [simpl in H; lia|]. rewrite E. eexists; reflexivity.
Qed.
Lemma print_s_nul s r : no_nul s -> print_s (s ++ nul :: r) = Ok s.
Proof.
  induction s as [|c s IH]; intros H; cbn [app print_s]; [reflexivity|].
  inversion H; subst. destruct (Ascii.eqb_spec c nul); [contradiction|].
  rewrite IH by assumption. reflexivity.
Qed.

Lemma station_str_ok code id name domes ty neg sh ngap rest :
  record_ok code id name domes ty neg sh ngap rest -> no_nul name -> (length name <= 29)%nat ->
  exists s, station_to_str (Station code id (nul_padded 30 name) (nul_padded 10 domes) ty (nval neg sh)) = Ok s
   /\ (length s + 1 <= 52)%nat.
Proof.
  intros (Lc & Li & Ln & Tn & Ld & Td & _) Hn H29. unfold station_to_str. cbn [st_code st_id st_name st_domes].
  destruct (print_prec_ok 3 code) as [a Ea]; [lia|].
  destruct (print_prec_ok 4 id) as [b Eb]; [lia|].
  destruct (print_prec_ok 9 (nul_padded 10 domes)) as [c Ec].
  { unfold nul_padded. rewrite app_length, repeat_length. lia. }
  rewrite Ea, Eb, Ec. cbn [obind].
  assert (En : nul_padded 30 name = name ++ nul :: repeat nul (29 - length name)).
  { unfold nul_padded. replace (30 - length name)%nat with (S (29 - length name)) by lia. reflexivity. }
  rewrite En, print_s_nul by assumption. cbn [obind]. eexists. split; [reflexivity|].
  apply print_prec_len in Ea. apply print_prec_len in Eb. apply print_prec_len in Ec.
  rewrite !app_length. simpl. lia.
Qed.

Lemma station_str_refuted : exists code id name domes ty neg sh ngap rest,
  record_ok code id name domes ty neg sh ngap rest /\ no_nul name /\
  station_to_str (snd (fst (set_from_rinex_line false (Station [] [] [] [] 0 0)
     (station_line code id name domes ty neg sh (repeat blank ngap) rest)))) = UB.
Proof.
  exists ["D";"0";"1"]%char, ["D";"I";"O";"B"]%char,
    (repeat "N"%char 30), ["1";"2"]%char, 3, true, [1;5], 0%nat, ([blank] ++ repeat blank 20).
  split; [|split; [|vm_compute; reflexivity]].
  - unfold record_ok, trimmed, numeral_ok, digits_ok, INT_MIN, INT_MAX.
    repeat split; try (vm_compute; congruence); try (vm_compute; intros; lia); try discriminate;
    try (simpl; lia); repeat constructor; try lia.
  - repeat constructor; discriminate.
Qed.

(* antenna type: last letter of the station id *)
Lemma antenna_ok a b c d code name domes ty sh :
  antenna_of (Station code [a; b; c; d] name domes ty sh) =
  Ok (if ascii_dec d "A" then Some Alcatel else if ascii_dec d "B" then Some Starec_B
      else if ascii_dec d "C" then Some Starec_C else None).
Proof.
  unfold antenna_of, load. cbn [st_id nth_error of_option obind].
  repeat match goal with
  | |- context [Ascii.eqb ?x ?y] => destruct (Ascii.eqb_spec x y)
  end; repeat match goal with |- context [ascii_dec ?x ?y] => destruct (ascii_dec x y) end;
  try contradiction; try reflexivity.
Qed.

(* ---- frequencies ---- *)
Local Open Scope Q_scope.
Lemma freq_ok :
  (forall k, fst (beacon_nominal_frequency k) * 107 == snd (beacon_nominal_frequency k) * 543) /\
  fst (beacon_nominal_frequency 0) == FREQ1 * 1000000 /\
  snd (beacon_nominal_frequency 0) == FREQ2 * 1000000 /\
  (forall k1 k2, (k1 < k2)%Z ->
     fst (beacon_nominal_frequency k1) < fst (beacon_nominal_frequency k2) /\
     snd (beacon_nominal_frequency k1) < snd (beacon_nominal_frequency k2)).
Proof.
  split; [intros k; unfold beacon_nominal_frequency; simpl fst; simpl snd; ring|].
  split; [reflexivity|]. split; [reflexivity|].
  intros k1 k2 H. unfold beacon_nominal_frequency. cbn [fst snd].
  assert (K : inject_Z k1 < inject_Z k2) by (rewrite <- Zlt_Qlt; exact H).
  set (a := inject_Z k1) in *. set (b := inject_Z k2) in *.
  assert (F : forall x, (USO_F0 * (87 * x)) / (5 * inject_Z (2 ^ 26)) ==
                 x * ((5000000 * 87) / (5 * 67108864))).
  { intros x. unfold USO_F0, Qdiv. change (inject_Z (2 ^ 26)) with 67108864. ring. }
  assert (C : 0 < (5000000 * 87) / (5 * 67108864)) by reflexivity.
  set (c := (5000000 * 87) / (5 * 67108864)) in *.
  rewrite !F. assert (a * c < b * c) by (apply Qmult_lt_r; assumption).
  set (u := USO_F0 * (75 # 100)). clearbody u c. split; lra.
Qed.

(* exact value: f = f0 (3/4 + 87 k / (5 2^26)) times 543 resp. 107 *)
Lemma freq_value k :
  fst (beacon_nominal_frequency k) == 543 * (5000000 * (3#4) + 5000000 * 87 * inject_Z k / (5 * inject_Z (2^26))) /\
  snd (beacon_nominal_frequency k) == 107 * (5000000 * (3#4) + 5000000 * 87 * inject_Z k / (5 * inject_Z (2^26))).
Proof.
  unfold beacon_nominal_frequency, USO_F0. cbn [fst snd].
  change (inject_Z (2 ^ 26)) with 67108864. split; field.
Qed.

(* Phase count [cycles] of a signal of frequency f over range rho with a
   dispersive path change a/f^2 and propagation speed c. *)
Definition phase_count (c f rho a : Q) : Q := (rho + a / (f * f)) * f / c.

Lemma iono_ok c rho a : ~ c == 0 ->
  let f1 := FREQ1 in let f2 := FREQ2 in
  let L1 := phase_count c f1 rho a in
  let L2 := phase_count c f2 rho a in
  L1 + carrier_iono_correction L1 L2 == phase_count c f1 rho 0.
Proof.
  intros Hc f1 f2 L1 L2.
  unfold L1, L2, carrier_iono_correction, phase_count, GAMMA, GAMMA_SQRT, f1, f2, FREQ1, FREQ2.
  field. exact Hc.
Qed.

(* The same combination applied to the two phase-centre offsets (per antenna
   coordinate, mm to m) is the offset of the ionosphere-free phase centre:
   the weights sum to 1 and equal offsets stay put. *)
Lemma iono_free_offset_ok r1 r2 :
  iono_free_offset r1 r2 * 1000 == (GAMMA * r1 - r2) / (GAMMA - 1) /\
  iono_free_offset r1 r1 * 1000 == r1.
Proof.
  unfold iono_free_offset, GAMMA, GAMMA_SQRT, FREQ1, FREQ2. split; field.
Qed.

Example iono_case : ~ 299792458 == 0. Proof. discriminate. Qed.
