(* Decimal numbers with an optional exponent (specification) and strtod on them. *)
From Coq Require Import List ZArith QArith Ascii Bool Lia.
From Verif Require Import CLib_model CLib_proofs.
Import ListNotations.
Local Open Scope Z_scope.

(* exponent part: sign character (none, + or -) and digits *)
Inductive esign := ENone | EPlus | EMinus.
Record num := Num { n_neg : bool; n_ip : list Z; n_fp : list Z; n_exp : option (bool * esign * list Z) }.
Definition exp_text (e : option (bool * esign * list Z)) : chars :=
  match e with
  | None => []
  | Some (up, s, ds) => (if up then "E"%char else "e"%char) ::
      match s with ENone => [] | EPlus => ["+"%char] | EMinus => ["-"%char] end ++ dstr ds
  end.
Definition num_text (x : num) : chars := fixed (n_neg x) (n_ip x) (n_fp x) ++ exp_text (n_exp x).
Definition pow10 (e : Z) : Q := if 0 <=? e then inject_Z (10 ^ e) else (/ inject_Z (10 ^ (- e)))%Q.
Definition num_val (x : num) : Q :=
  match n_exp x with
  | None => fixed_val (n_neg x) (n_ip x) (n_fp x)
  | Some (_, s, ds) => (fixed_val (n_neg x) (n_ip x) (n_fp x) *
      pow10 (match s with EMinus => - dval ds | _ => dval ds end))%Q
  end.
Definition num_ok (x : num) : Prop :=
  n_ip x ++ n_fp x <> [] /\ digits_ok (n_ip x) /\ digits_ok (n_fp x) /\
  match n_exp x with None => True | Some (_, _, ds) => numeral_ok ds end.

Lemma decimal_num ip fp e rest :
  ip ++ fp <> [] -> digits_ok ip -> digits_ok fp ->
  match e with None => True | Some (_, _, ds) => numeral_ok ds end -> no_extension rest ->
  exists q, decimal (dstr ip ++ ["."%char] ++ dstr fp ++ exp_text e ++ rest) =
            Some (q, (length ip + 1 + length fp + length (exp_text e))%nat) /\
    (q == num_val (Num false ip fp e))%Q.
Proof.
  intros Hne Hi Hf He Hr. destruct e as [[[up s] ds]|].
  2:{ cbn [exp_text app length]. rewrite Nat.add_0_r. exact (decimal_fixed ip fp rest Hne Hi Hf Hr). }
  destruct He as [Hd1 Hd2]. unfold decimal.
  rewrite (digits_run ip 0 (["."%char] ++ dstr fp ++ exp_text (Some (up, s, ds)) ++ rest) Hi) by reflexivity.
  cbn [app]. rewrite Ascii.eqb_refl.
  rewrite (digits_run fp _ (exp_text (Some (up, s, ds)) ++ rest) Hf) by (destruct up; reflexivity).
  destruct (Nat.eqb_spec (length ip + length fp) 0) as [E|_].
  { rewrite <- app_length in E. apply length_zero_iff_nil in E. contradiction. }
  assert (Hnd : not_digit_next rest) by (destruct rest; simpl in *; tauto).
  assert (SG : sign_of ((match s with ENone => [] | EPlus => ["+"%char] | EMinus => ["-"%char] end ++ dstr ds) ++ rest) =
    (match s with EMinus => true | _ => false end, match s with ENone => O | _ => 1%nat end, dstr ds ++ rest)).
  { destruct s; cbn [app]; [|reflexivity|reflexivity]. destruct ds as [|d ds]; [congruence|]. inversion Hd2; subst.
    cbn [dstr map app sign_of]. rewrite !dchar_neq by (try assumption; reflexivity). reflexivity. }
  assert (EE : exp_text (Some (up, s, ds)) ++ rest = (if up then "E"%char else "e"%char) ::
    ((match s with ENone => [] | EPlus => ["+"%char] | EMinus => ["-"%char] end ++ dstr ds) ++ rest)) by reflexivity.
  rewrite EE. replace (Ascii.eqb (if up then "E"%char else "e"%char) "e" || Ascii.eqb (if up then "E"%char else "e"%char) "E") with true by (destruct up; reflexivity).
  rewrite SG, digits_run by assumption.
  destruct (Nat.eqb_spec (length ds) 0) as [E0|_]; [destruct ds; [congruence|discriminate]|].
  eexists. split.
  - f_equal. f_equal. cbn [exp_text length]. unfold dstr. rewrite app_length, map_length. destruct s; cbn [length]; lia.
  - unfold num_val. cbn [n_exp n_neg n_ip n_fp]. fold (dval ds). unfold fixed_val. rewrite Qpow10_neg. unfold dval at 1. rewrite <- fold_left_app.
    fold (dval (ip ++ fp)). unfold pow10, Qpow10. destruct s; reflexivity.
Qed.

Lemma strtod_num n x rest : num_ok x -> no_extension rest ->
  exists q, strtod (repeat blank n ++ num_text x ++ rest) = (q, (n + length (num_text x))%nat) /\ (q == num_val x)%Q.
Proof.
  intros (Hne & Hi & Hf & He) Hr. unfold strtod. rewrite skip_blanks. destruct x as [neg ip fp e]. cbn [n_neg n_ip n_fp n_exp] in *.
  destruct (decimal_num ip fp e rest Hne Hi Hf He Hr) as (q & Eq & Hq).
  assert (AS : num_text (Num neg ip fp e) ++ rest = (if neg then ["-"%char] else []) ++ dstr ip ++ ["."%char] ++ dstr fp ++ exp_text e ++ rest).
  { unfold num_text, fixed. cbn [n_neg n_ip n_fp n_exp]. rewrite <- !app_assoc. reflexivity. }
  assert (S1 : skip_spaces (num_text (Num neg ip fp e) ++ rest) = (O, num_text (Num neg ip fp e) ++ rest)).
  { rewrite AS. destruct neg; cbn [app]; [reflexivity|].
    destruct ip as [|d ip]; [reflexivity|]. inversion Hi; subst.
    cbn [dstr map app skip_spaces]. rewrite dchar_not_space by assumption. reflexivity. }
  rewrite S1, AS.
  assert (S2 : sign_of ((if neg then ["-"%char] else []) ++ dstr ip ++ ["."%char] ++ dstr fp ++ exp_text e ++ rest) =
     (neg, if neg then 1%nat else O, dstr ip ++ ["."%char] ++ dstr fp ++ exp_text e ++ rest)).
  { destruct neg; cbn [app]; [reflexivity|].
    destruct ip as [|d ip]; [reflexivity|]. inversion Hi; subst. cbn [dstr map app sign_of].
    rewrite !dchar_neq by (try assumption; reflexivity). reflexivity. }
  rewrite S2, Eq. exists (if neg then - q else q)%Q. split.
  - f_equal. unfold num_text, fixed, dstr. cbn [n_neg n_ip n_fp n_exp]. rewrite !app_length, !map_length. destruct neg; cbn [length]; lia.
  - unfold num_val, fixed_val in *. cbn [n_neg n_ip n_fp n_exp] in *. destruct neg; [|exact Hq]. rewrite Hq.
    destruct e as [[[up s] ds]|]; [|reflexivity]. ring.
Qed.

(* a field that does not start like a number (nor like inf or nan) *)
Definition junk_field (s : chars) : Prop :=
  match s with
  | [] => True
  | c :: _ => ~ In c ["i"; "I"; "n"; "N"]%char /\ is_space c = false /\ digit_of c = None /\ c <> "-"%char /\ c <> "+"%char /\ c <> "."%char
  end.
Lemma strtod_junk n s : junk_field s -> strtod (repeat blank n ++ s) = (0%Q, O).
Proof.
  intros H. unfold strtod. rewrite skip_blanks. destruct s as [|c s]; [reflexivity|]. destruct H as (_ & A & B & C & D & E).
  cbn [skip_spaces]. rewrite A. cbn [sign_of]. destruct (Ascii.eqb_spec c "-"); [contradiction|]. destruct (Ascii.eqb_spec c "+"); [contradiction|].
  unfold decimal. cbn [digits]. rewrite B. destruct (Ascii.eqb_spec c "."); [contradiction|]. reflexivity.
Qed.
Lemma strtol_junk n s : junk_field s -> strtol (repeat blank n ++ s) = LRes 0 0 false.
Proof.
  intros H. apply strtol_blank; destruct s as [|c s]; try exact I; destruct H as (_ & A & B & C & D & E); [exact B|auto].
Qed.
