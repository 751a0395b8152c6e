(* Numerals as digit lists (specification) and the conversion functions on them. *)
From Coq Require Import List ZArith QArith Ascii Bool Lia.
From Verif Require Import CLib_model.
Import ListNotations.
Local Open Scope Z_scope.

(* The decimal digit character of d, 0 <= d <= 9 *)
Definition dchar (d : Z) : ascii := ascii_of_nat (Z.to_nat (48 + d)).
Definition digits_ok (ds : list Z) : Prop := Forall (fun d => 0 <= d <= 9) ds.
(* value of a digit string, most significant first *)
Definition dval (ds : list Z) : Z := fold_left (fun a d => a * 10 + d) ds 0.
Definition dstr (ds : list Z) : chars := map dchar ds.
Definition not_digit_next (s : chars) : Prop :=
  match s with [] => True | c :: _ => digit_of c = None end.

Lemma code_dchar d : 0 <= d <= 9 -> code (dchar d) = 48 + d.
Proof.
  intros H. unfold code, dchar. rewrite nat_ascii_embedding by lia. lia.
Qed.

Lemma digit_dchar d : 0 <= d <= 9 -> digit_of (dchar d) = Some d.
Proof.
  intros H. unfold digit_of. rewrite code_dchar by exact H.
  destruct (Z.leb_spec 48 (48 + d)); [|lia].
  destruct (Z.leb_spec (48 + d) 57); [|lia]. cbn [andb]. f_equal. lia.
Qed.

Lemma dchar_not_space d : 0 <= d <= 9 -> is_space (dchar d) = false.
Proof.
  intros H. unfold is_space. rewrite code_dchar by exact H.
  destruct (Z.eqb_spec (48 + d) 32); [lia|].
  destruct (Z.leb_spec (48 + d) 13); [lia|]. rewrite andb_false_r. reflexivity.
Qed.

Lemma code_inj a b : code a = code b -> a = b.
Proof.
  unfold code. intros H. rewrite <- (ascii_nat_embedding a), <- (ascii_nat_embedding b).
  f_equal. lia.
Qed.

Lemma dchar_neq d c : 0 <= d <= 9 -> digit_of c = None -> Ascii.eqb (dchar d) c = false.
Proof.
  intros H N. destruct (Ascii.eqb_spec (dchar d) c) as [<-|]; [|reflexivity].
  rewrite digit_dchar in N by exact H. discriminate.
Qed.

Lemma digits_run ds : forall acc rest, digits_ok ds -> not_digit_next rest ->
  digits acc (dstr ds ++ rest) =
  (fold_left (fun a d => a * 10 + d) ds acc, length ds, rest).
Proof.
  induction ds as [|d ds IH]; intros acc rest Hd Hr; cbn [dstr map app fold_left length].
  - destruct rest as [|c r]; [reflexivity|]. simpl in Hr. cbn [digits]. rewrite Hr. reflexivity.
  - inversion Hd as [|x y Hx Hy]; subst. cbn [digits]. rewrite digit_dchar by exact Hx.
    fold (dstr ds). rewrite (IH _ _ Hy Hr). reflexivity.
Qed.

Lemma skip_blanks n s : skip_spaces (repeat blank n ++ s) =
  let (k, r) := skip_spaces s in ((n + k)%nat, r).
Proof.
  induction n as [|n IH]; cbn [repeat app].
  - simpl. destruct (skip_spaces s); reflexivity.
  - cbn [skip_spaces]. replace (is_space blank) with true by reflexivity.
    rewrite IH. destruct (skip_spaces s). reflexivity.
Qed.

(* a signed numeral: optional '-' then at least one digit *)
Definition numeral (neg : bool) (ds : list Z) : chars :=
  (if neg then ["-"%char] else []) ++ dstr ds.
Definition nval (neg : bool) (ds : list Z) : Z := if neg then - dval ds else dval ds.
Definition numeral_ok (ds : list Z) : Prop := ds <> [] /\ digits_ok ds.

Lemma dval_nonneg ds : digits_ok ds -> 0 <= dval ds.
Proof.
  unfold dval. intros H. assert (A : forall l acc, digits_ok l -> 0 <= acc ->
    0 <= fold_left (fun a d => a * 10 + d) l acc).
  { induction l as [|d l IH]; intros acc Hl Ha; [exact Ha|].
    inversion Hl; subst. simpl. apply IH; [assumption|lia]. }
  apply A; [exact H|lia].
Qed.

Lemma skip_spaces_numeral neg ds rest : numeral_ok ds ->
  skip_spaces (numeral neg ds ++ rest) = (O, numeral neg ds ++ rest).
Proof.
  intros [Hn Hd]. destruct neg; unfold numeral; cbn [app].
  - reflexivity.
  - destruct ds as [|d ds]; [congruence|]. inversion Hd; subst.
    cbn [dstr map app skip_spaces]. rewrite dchar_not_space by assumption. reflexivity.
Qed.

Lemma sign_of_numeral neg ds rest : numeral_ok ds ->
  sign_of (numeral neg ds ++ rest) = (neg, if neg then 1%nat else O, dstr ds ++ rest).
Proof.
  intros [Hn Hd]. destruct neg; unfold numeral; cbn [app].
  - reflexivity.
  - destruct ds as [|d ds]; [congruence|]. inversion Hd; subst.
    cbn [dstr map app sign_of].
    rewrite !dchar_neq by (try assumption; reflexivity). reflexivity.
Qed.

Lemma strtol_numeral n neg ds rest :
  numeral_ok ds -> not_digit_next rest -> LONG_MIN <= nval neg ds <= LONG_MAX ->
  strtol (repeat blank n ++ numeral neg ds ++ rest) =
  LRes (nval neg ds) (n + length (numeral neg ds)) false.
Proof.
  intros Hok Hr Hb. unfold strtol. rewrite skip_blanks, (skip_spaces_numeral _ _ _ Hok).
  rewrite (sign_of_numeral _ _ _ Hok). destruct Hok as [Hn Hd].
  rewrite digits_run by assumption.
  destruct (Nat.eqb_spec (length ds) 0) as [E|_]; [destruct ds; [congruence|discriminate]|].
  fold (dval ds). change (if neg then - dval ds else dval ds) with (nval neg ds).
  rewrite Z.gtb_ltb. destruct (Z.ltb_spec LONG_MAX (nval neg ds)); [lia|].
  destruct (Z.ltb_spec (nval neg ds) LONG_MIN); [lia|].
  f_equal. unfold numeral, dstr. rewrite app_length, map_length. destruct neg; simpl; lia.
Qed.

Lemma from_chars_int_numeral neg ds rest :
  numeral_ok ds -> not_digit_next rest -> INT_MIN <= nval neg ds <= INT_MAX ->
  from_chars_int (numeral neg ds ++ rest) = Some (nval neg ds, length (numeral neg ds)).
Proof.
  intros [Hn Hd] Hr Hb. unfold from_chars_int.
  assert (E : match numeral neg ds ++ rest with
     | c :: t => if Ascii.eqb c "-" then (true, 1%nat, t) else (false, O, numeral neg ds ++ rest)
     | [] => (false, O, numeral neg ds ++ rest) end
     = (neg, if neg then 1%nat else O, dstr ds ++ rest)).
  { destruct neg; unfold numeral; cbn [app]; [reflexivity|].
    destruct ds as [|d ds]; [congruence|]. inversion Hd; subst. cbn [dstr map app].
    rewrite dchar_neq by (try assumption; reflexivity). reflexivity. }
  rewrite E, digits_run by assumption.
  destruct (Nat.eqb_spec (length ds) 0) as [E0|_]; [destruct ds; [congruence|discriminate]|].
  fold (dval ds). change (if neg then - dval ds else dval ds) with (nval neg ds).
  rewrite Z.gtb_ltb. destruct (Z.ltb_spec INT_MAX (nval neg ds)); [lia|].
  destruct (Z.ltb_spec (nval neg ds) INT_MIN); [lia|]. simpl.
  unfold numeral, dstr. rewrite app_length, map_length. destruct neg; simpl; reflexivity.
Qed.

Lemma strtol_blank n rest : not_digit_next rest ->
  (match rest with [] => True | c :: _ => is_space c = false /\ c <> "-"%char /\ c <> "+"%char end) ->
  strtol (repeat blank n ++ rest) = LRes 0 0 false.
Proof.
  intros Hr Hc. unfold strtol. rewrite skip_blanks. destruct rest as [|c r]; [reflexivity|].
  destruct Hc as (Hs & Hm & Hp). cbn [skip_spaces]. rewrite Hs. cbn [sign_of].
  destruct (Ascii.eqb_spec c "-"); [contradiction|]. destruct (Ascii.eqb_spec c "+"); [contradiction|].
  simpl in Hr. cbn [digits]. rewrite Hr. reflexivity.
Qed.

(* fixed-point numerals  [-]iii.fff *)
Definition fixed (neg : bool) (ip fp : list Z) : chars :=
  (if neg then ["-"%char] else []) ++ dstr ip ++ ["."%char] ++ dstr fp.
Definition fixed_val (neg : bool) (ip fp : list Z) : Q :=
  let q := (inject_Z (dval (ip ++ fp)) / inject_Z (10 ^ Z.of_nat (length fp)))%Q in
  if neg then (- q)%Q else q.

(* what follows a fixed-point numeral in a field: nothing that extends it *)
Definition no_extension (s : chars) : Prop :=
  match s with [] => True | c :: _ => digit_of c = None /\ c <> "e"%char /\ c <> "E"%char end.

Lemma Qpow10_neg k : (Qpow10 (- Z.of_nat k) == / inject_Z (10 ^ Z.of_nat k))%Q.
Proof.
  unfold Qpow10. destruct (Z.leb_spec 0 (- Z.of_nat k)) as [L|G].
  - replace (Z.of_nat k) with 0 by lia. reflexivity.
  - rewrite Z.opp_involutive. reflexivity.
Qed.

Lemma decimal_fixed ip fp rest :
  ip ++ fp <> [] -> digits_ok ip -> digits_ok fp -> no_extension rest ->
  exists q, decimal (dstr ip ++ ["."%char] ++ dstr fp ++ rest) =
            Some (q, (length ip + 1 + length fp)%nat) /\ (q == fixed_val false ip fp)%Q.
Proof.
  intros Hne Hi Hf Hr. unfold decimal.
  rewrite (digits_run ip 0 (["."%char] ++ dstr fp ++ rest) Hi) by reflexivity.
  cbn [app]. rewrite Ascii.eqb_refl.
  assert (Hnd : not_digit_next rest) by (destruct rest; simpl in *; tauto).
  rewrite (digits_run fp _ rest Hf Hnd).
  destruct (Nat.eqb_spec (length ip + length fp) 0) as [E|_].
  { rewrite <- app_length in E. apply length_zero_iff_nil in E. contradiction. }
  exists (inject_Z (dval (ip ++ fp)) * Qpow10 (- Z.of_nat (length fp)))%Q. split.
  - unfold dval. rewrite fold_left_app. destruct rest as [|c r]; [reflexivity|].
    destruct Hr as (_ & He & HE).
    destruct (Ascii.eqb_spec c "e"); [contradiction|].
    destruct (Ascii.eqb_spec c "E"); [contradiction|]. reflexivity.
  - unfold fixed_val. rewrite Qpow10_neg. reflexivity.
Qed.

Lemma strtod_fixed n neg ip fp rest :
  ip ++ fp <> [] -> digits_ok ip -> digits_ok fp -> no_extension rest ->
  exists q, strtod (repeat blank n ++ fixed neg ip fp ++ rest) =
            (q, (n + length (fixed neg ip fp))%nat) /\ (q == fixed_val neg ip fp)%Q.
Proof.
  intros Hne Hi Hf Hr. unfold strtod. rewrite skip_blanks.
  destruct (decimal_fixed ip fp rest Hne Hi Hf Hr) as (q & Eq & Hq).
  assert (S1 : skip_spaces (fixed neg ip fp ++ rest) = (O, fixed neg ip fp ++ rest)).
  { unfold fixed. destruct neg; cbn [app]; [reflexivity|].
    destruct ip as [|d ip]; [reflexivity|]. inversion Hi; subst.
    cbn [dstr map app skip_spaces]. rewrite dchar_not_space by assumption. reflexivity. }
  rewrite S1.
  assert (S2 : sign_of (fixed neg ip fp ++ rest) =
     (neg, if neg then 1%nat else O, dstr ip ++ ["."%char] ++ dstr fp ++ rest)).
  { unfold fixed. destruct neg; cbn [app]; rewrite <- ?app_assoc; cbn [app]; rewrite <- ?app_assoc; [reflexivity|].
    destruct ip as [|d ip]; [reflexivity|]. inversion Hi; subst. cbn [dstr map app sign_of].
    rewrite !dchar_neq by (try assumption; reflexivity). reflexivity. }
  rewrite S2. rewrite Eq. exists (if neg then - q else q)%Q. split.
  - f_equal. unfold fixed, dstr. rewrite !app_length, !map_length. destruct neg; simpl; lia.
  - unfold fixed_val in *. destruct neg; rewrite Hq; reflexivity.
Qed.

Lemma strtod_all_blank n : strtod (repeat blank n) = (0%Q, O).
Proof.
  unfold strtod. rewrite <- (app_nil_r (repeat blank n)), skip_blanks. reflexivity.
Qed.

Example strtod_case : exists q, strtod (repeat blank 2 ++ fixed true [1;2] [5] ++ [blank]) = (q, 7%nat)
  /\ (q == -(25#2))%Q.
Proof. eexists. split; vm_compute; reflexivity. Qed.
