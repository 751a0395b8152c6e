From Coq Require Import String List ZArith QArith Qround Ascii Bool Lia Lqa.
From Verif Require Import Base CLib_model CLib_proofs Stream_model Lines_proofs C04_proofs Quat_proofs SpaceWeather_model.
Import ListNotations.
Local Open Scope nat_scope.

(* ---- specification: a comma separated line ---- *)
Fixpoint columns (s : chars) : list chars :=
  match s with
  | [] => [[]]
  | c :: t => if Ascii.eqb c "," then [] :: columns t
              else match columns t with h :: r => (c :: h) :: r | [] => [[c]] end
  end.
Definition plain (s : chars) : Prop := ~ In ","%char s.
(* the whole text of a column is a number *)
Definition int_col (s : chars) (v : Z) : Prop := from_chars_int s = Some (v, length s).
Definition real_col (s : chars) (v : Q) : Prop := from_chars_double s = Some (v, length s).

Lemma columns_ne s : columns s <> [].
Proof. destruct s as [|c t]; cbn [columns]; [discriminate|]. destruct (Ascii.eqb c ","); [discriminate|]. destruct (columns t); discriminate. Qed.
Lemma columns_cut a b : plain a -> columns (a ++ ","%char :: b) = a :: columns b.
Proof.
  induction a as [|c a IH]; intros P; [reflexivity|]. cbn [app columns].
  destruct (Ascii.eqb_spec c ",") as [->|_]; [exfalso; apply P; left; reflexivity|].
  rewrite IH by (intros I; apply P; right; exact I). reflexivity.
Qed.

Lemma firstn_add {A} a b (s : list A) : firstn (a + b) s = firstn a s ++ firstn b (skipn a s).
Proof. revert s. induction a as [|a IH]; intros s; [reflexivity|]. destruct s as [|x s]; [rewrite firstn_nil; destruct b; reflexivity|]. cbn [plus firstn skipn app]. rewrite IH. reflexivity. Qed.

(* ---- conversions read a prefix ---- *)
Lemma digits_prefix : forall s acc v n r, digits acc s = (v, n, r) ->
  n <= length s /\ r = skipn n s /\ digits acc (firstn n s) = (v, n, []) /\ Forall (fun c => digit_of c <> None) (firstn n s) /\ not_digit_next r.
Proof.
  induction s as [|c s IH]; intros acc v n r E; cbn [digits] in E.
  - injection E as <- <- <-. repeat split; constructor.
  - destruct (digit_of c) as [d|] eqn:D.
    + destruct (digits (acc * 10 + d) s) as [[v' n'] r'] eqn:E'. injection E as <- <- <-.
      destruct (IH _ _ _ _ E') as (A & B & C & F & G). cbn [length skipn firstn digits]. rewrite D, C.
      split; [lia|]. split; [exact B|]. split; [reflexivity|]. split; [constructor; [rewrite D; discriminate|exact F]|exact G].
    + injection E as <- <- <-. cbn. repeat split; try lia; try constructor. exact D.
Qed.
Lemma digits_more : forall s acc v n r, digits acc s = (v, n, r) -> forall x, not_digit_next x -> 
  (r = [] -> digits acc (s ++ x) = (v, n, x)) /\ (r <> [] -> digits acc (s ++ x) = (v, n, r ++ x)).
Proof.
  induction s as [|c s IH]; intros acc v n r E x X; cbn [digits app] in *.
  - injection E as <- <- <-. split; [intros _|congruence]. destruct x as [|c x]; [reflexivity|]. cbn in X. cbn [digits]. rewrite X. reflexivity.
  - destruct (digit_of c) as [d|] eqn:D.
    + destruct (digits (acc * 10 + d) s) as [[v' n'] r'] eqn:E'. injection E as <- <- <-.
      destruct (IH _ _ _ _ E' x X) as [A B]. split; intros R; [rewrite (A R)|rewrite (B R)]; reflexivity.
    + injection E as <- <- <-. split; [discriminate|reflexivity].
Qed.
Lemma digits_more' s acc v n r x : digits acc s = (v, n, r) -> not_digit_next x -> digits acc (s ++ x) = (v, n, r ++ x).
Proof. intros E X. destruct (digits_more s acc v n r E x X) as [A B]. destruct r; [exact (A eq_refl)|apply B; discriminate]. Qed.

Lemma digit_plain c : digit_of c <> None -> c <> ","%char.
Proof. intros D ->. apply D. reflexivity. Qed.
Lemma all_digits_plain l : Forall (fun c => digit_of c <> None) l -> plain l.
Proof. intros F I. rewrite Forall_forall in F. exact (digit_plain _ (F _ I) eq_refl). Qed.
Lemma plain_app a b : plain a -> plain b -> plain (a ++ b).
Proof. intros A B I. apply in_app_iff in I. destruct I as [I|I]; [exact (A I)|exact (B I)]. Qed.

Lemma from_int_prefix s v n : from_chars_int s = Some (v, n) ->
  n <= length s /\ from_chars_int (firstn n s) = Some (v, n) /\ plain (firstn n s).
Proof.
  intros E. unfold from_chars_int in E.
  assert (K : exists neg k1 s2, (match s with c :: t => if Ascii.eqb c "-" then (true, 1, t) else (false, 0, s) | [] => (false, 0, s) end) = (neg, k1, s2)
     /\ s2 = skipn k1 s /\ k1 <= length s /\ plain (firstn k1 s) /\
     forall m, (match firstn (k1 + m) s with c :: t => if Ascii.eqb c "-" then (true, 1, t) else (false, 0, firstn (k1 + m) s) | [] => (false, 0, firstn (k1 + m) s) end) = (neg, k1, firstn m s2)).
  { destruct s as [|c t].
    - exists false, 0, []. split; [reflexivity|]. split; [reflexivity|]. split; [cbn; lia|]. split; [intros []|]. intros m. rewrite !firstn_nil. reflexivity.
    - destruct (Ascii.eqb_spec c "-") as [->|N].
      + exists true, 1, t. split; [reflexivity|]. split; [reflexivity|]. split; [cbn; lia|]. split; [intros [A|[]]; discriminate|]. reflexivity.
      + exists false, 0, (c :: t). split; [reflexivity|]. split; [reflexivity|]. split; [cbn; lia|]. split; [intros []|]. intros m. destruct m; [reflexivity|]. cbn [plus firstn].
        destruct (Ascii.eqb_spec c "-"); [contradiction|reflexivity]. }
  destruct K as (neg & k1 & s2 & EK & ES & LK & PK & KF). rewrite EK in E.
  destruct (digits 0 s2) as [[w m] r] eqn:ED. destruct (digits_prefix _ _ _ _ _ ED) as (LM & _ & EM & FM & _).
  destruct (Nat.eqb_spec m 0) as [|M0]; [discriminate|].
  destruct (_ || _) eqn:EB; [discriminate|]. injection E as <- <-.
  assert (LS : length s2 = length s - k1) by (rewrite ES; apply skipn_length).
  split; [lia|]. split.
  - unfold from_chars_int. rewrite KF, EM. destruct (Nat.eqb_spec m 0); [contradiction|]. rewrite EB. reflexivity.
  - rewrite firstn_add. apply plain_app; [exact PK|]. rewrite <- ES. apply all_digits_plain, FM.
Qed.

Lemma from_int_more s v x : from_chars_int s = Some (v, length s) -> not_digit_next x -> from_chars_int (s ++ x) = Some (v, length s).
Proof.
  unfold from_chars_int. intros E X. destruct s as [|c t]; [discriminate|]. cbn [app].
  destruct (Ascii.eqb_spec c "-") as [->|N].
  - destruct (digits 0 t) as [[w m] r] eqn:ED. rewrite (digits_more' _ _ _ _ _ _ ED X). exact E.
  - destruct (digits 0 (c :: t)) as [[w m] r] eqn:ED. rewrite app_comm_cons, (digits_more' _ _ _ _ _ _ ED X). exact E.
Qed.

(* ---- decimal numbers: mantissa, then an exponent ---- *)
Definition mantissa (s : chars) : Z * nat * chars * nat * nat :=
  let '(ip, ni, s1) := digits 0 s in
  match s1 with
  | c :: t => if Ascii.eqb c "." then let '(v, nf, r) := digits ip t in (v, nf, r, 1, ni) else (ip, 0, s1, 0, ni)
  | [] => (ip, 0, s1, 0, ni)
  end.
Lemma decimal_mantissa s : decimal s =
  let '(m, nf, s2, kdot, ni) := mantissa s in
  if Nat.eqb (ni + nf) 0 then None
  else
    let q0 := (inject_Z m * Qpow10 (- Z.of_nat nf))%Q in
    let used0 := ni + kdot + nf in
    match s2 with
    | c :: t =>
        if Ascii.eqb c "e" || Ascii.eqb c "E" then
          let '(neg, k1, s3) := sign_of t in
          let '(e, ne, _) := digits 0 s3 in
          if Nat.eqb ne 0 then Some (q0, used0)
          else Some ((q0 * Qpow10 (if neg then - e else e)%Z)%Q, used0 + 1 + k1 + ne)
        else Some (q0, used0)
    | [] => Some (q0, used0)
    end.
Proof.
  unfold decimal, mantissa. destruct (digits 0 s) as [[ip ni] s1]. destruct s1 as [|c t]; [reflexivity|].
  destruct (Ascii.eqb c "."); [|reflexivity]. destruct (digits ip t) as [[v nf] r]. reflexivity.
Qed.
Lemma mantissa_prefix s m nf s2 kdot ni : mantissa s = (m, nf, s2, kdot, ni) ->
  ni + kdot + nf <= length s /\ s2 = skipn (ni + kdot + nf) s /\ plain (firstn (ni + kdot + nf) s) /\
  (forall j, mantissa (firstn (ni + kdot + nf) s ++ firstn j s2) = (m, nf, firstn j s2, kdot, ni)).
Proof.
  unfold mantissa. intros E. destruct (digits 0 s) as [[ip n1] s1] eqn:ED.
  destruct (digits_prefix _ _ _ _ _ ED) as (L1 & S1 & P1 & F1 & N1).
  assert (ND : forall j, not_digit_next (firstn j s1)) by (intros j; destruct j, s1; try exact I; exact N1).
  destruct s1 as [|c t].
  - injection E as <- <- <- <- <-. rewrite !Nat.add_0_r. split; [exact L1|]. split; [exact S1|]. split; [apply all_digits_plain, F1|].
    intros j. rewrite firstn_nil, app_nil_r, P1. reflexivity.
  - destruct (Ascii.eqb_spec c ".") as [->|NC].
    + destruct (digits ip t) as [[v m1] r] eqn:E2. injection E as <- <- <- <- <-.
      destruct (digits_prefix _ _ _ _ _ E2) as (L2 & S2 & P2 & F2 & N2).
      assert (SS : s = firstn n1 s ++ "."%char :: t) by (rewrite S1, firstn_skipn; reflexivity).
      assert (LF : length (firstn n1 s) = n1) by (apply firstn_length_le, L1).
      assert (LL : length s = n1 + 1 + length t) by (rewrite SS, app_length, LF; cbn; lia).
      assert (FF : firstn (n1 + 1 + m1) s = firstn n1 s ++ "."%char :: firstn m1 t).
      { rewrite SS at 1. rewrite firstn_app, firstn_all2 by lia. rewrite LF. replace (n1 + 1 + m1 - n1) with (S m1) by lia. reflexivity. }
      split; [lia|]. split; [|split].
      * rewrite SS, skipn_app, skipn_all2 by lia. rewrite LF. replace (n1 + 1 + m1 - n1) with (S m1) by lia. exact S2.
      * rewrite FF. apply plain_app; [apply all_digits_plain, F1|]. intros [A|A]; [discriminate|]. exact (all_digits_plain _ F2 A).
      * intros j. rewrite FF, <- app_assoc. cbn [app]. rewrite (digits_more' _ _ _ _ _ ("."%char :: firstn m1 t ++ firstn j r) P1) by reflexivity.
        cbn [app]. rewrite Ascii.eqb_refl. rewrite (digits_more' _ _ _ _ _ (firstn j r) P2) by (destruct j, r; try exact I; exact N2). reflexivity.
    + injection E as <- <- <- <- <-. rewrite !Nat.add_0_r. split; [exact L1|]. split; [exact S1|]. split; [apply all_digits_plain, F1|].
      intros j. rewrite (digits_more' _ _ _ _ _ _ P1 (ND j)). cbn [app]. destruct j; [reflexivity|]. cbn [firstn].
      destruct (Ascii.eqb_spec c "."); [contradiction|reflexivity].
Qed.

Lemma sign_prefix s neg k r : sign_of s = (neg, k, r) -> k <= length s /\ r = skipn k s /\ plain (firstn k s) /\
  (forall j, sign_of (firstn (k + j) s) = (neg, k, firstn j r)).
Proof.
  unfold sign_of. intros E. destruct s as [|c t].
  - injection E as <- <- <-. split; [cbn; lia|]. split; [reflexivity|]. split; [intros []|]. intros j. rewrite !firstn_nil. reflexivity.
  - destruct (Ascii.eqb_spec c "-") as [->|N1]; [|destruct (Ascii.eqb_spec c "+") as [->|N2]]; injection E as <- <- <-;
      (split; [cbn; lia|split; [reflexivity|split; [first [intros [A|[]]; discriminate | intros []]|]]]); intros j; try reflexivity.
    destruct j; [reflexivity|]. cbn [plus firstn]. destruct (Ascii.eqb_spec c "-"); [contradiction|]. destruct (Ascii.eqb_spec c "+"); [contradiction|reflexivity].
Qed.

Lemma decimal_prefix s v n : decimal s = Some (v, n) -> n <= length s /\ decimal (firstn n s) = Some (v, n) /\ plain (firstn n s).
Proof.
  intros E. rewrite decimal_mantissa in E. destruct (mantissa s) as [[[[m nf] s2] kdot] ni] eqn:EM.
  destruct (mantissa_prefix _ _ _ _ _ _ EM) as (L & S2 & P & K).
  destruct (Nat.eqb (ni + nf) 0) eqn:E0; [discriminate|]. cbn zeta in E.
  set (u := ni + kdot + nf) in *.
  assert (short : forall q, Some (q, u) = Some (v, n) -> q = (inject_Z m * Qpow10 (- Z.of_nat nf))%Q -> n <= length s /\ decimal (firstn n s) = Some (v, n) /\ plain (firstn n s)).
  { intros q X Y. injection X as <- <-. split; [exact L|]. split; [|exact P].
    rewrite decimal_mantissa. pose proof (K 0) as K0. cbn [firstn] in K0. rewrite app_nil_r in K0. rewrite K0, E0, Y. reflexivity. }
  destruct s2 as [|c t]; [exact (short _ E eq_refl)|].
  destruct (Ascii.eqb c "e" || Ascii.eqb c "E") eqn:EE; [|exact (short _ E eq_refl)].
  destruct (sign_of t) as [[neg k1] s3] eqn:ES. destruct (sign_prefix _ _ _ _ ES) as (L1 & S3 & P1 & K1).
  destruct (digits 0 s3) as [[e ne] r3] eqn:ED. destruct (digits_prefix _ _ _ _ _ ED) as (L3 & _ & P3 & F3 & _).
  destruct (Nat.eqb ne 0) eqn:EN; [exact (short _ E eq_refl)|]. injection E as <- <-.
  assert (LL : length s = u + S (length t)).
  { rewrite <- (firstn_skipn u s), app_length, <- S2. cbn [length]. rewrite firstn_length_le by exact L. reflexivity. }
  assert (L3' : length s3 = length t - k1) by (rewrite S3; apply skipn_length).
  assert (FF : firstn (u + 1 + k1 + ne) s = firstn u s ++ firstn (1 + k1 + ne) (c :: t)).
  { rewrite <- !Nat.add_assoc, firstn_add, <- S2. reflexivity. }
  split; [lia|]. split.
  - rewrite decimal_mantissa, FF, K, E0. cbn zeta. cbn [plus firstn]. rewrite EE, K1, P3, EN. reflexivity.
  - rewrite FF. apply plain_app; [exact P|]. cbn [plus firstn].
    assert (P5 : plain (firstn (k1 + ne) t)).
    { rewrite firstn_add, <- S3. apply plain_app; [exact P1|]. apply all_digits_plain, F3. }
    intros [A|A]; [|exact (P5 A)]. subst c. discriminate.
Qed.

Lemma mantissa_more s m nf s2 kdot ni x : mantissa s = (m, nf, s2, kdot, ni) -> mantissa (s ++ ","%char :: x) = (m, nf, s2 ++ ","%char :: x, kdot, ni).
Proof.
  unfold mantissa. intros E. destruct (digits 0 s) as [[ip n1] s1] eqn:ED.
  rewrite (digits_more' _ _ _ _ _ (","%char :: x) ED) by reflexivity.
  destruct s1 as [|c t]; cbn [app].
  - injection E as <- <- <- <- <-. reflexivity.
  - destruct (Ascii.eqb c ".").
    + destruct (digits ip t) as [[v m1] r] eqn:E2. rewrite (digits_more' _ _ _ _ _ (","%char :: x) E2) by reflexivity. injection E as <- <- <- <- <-. reflexivity.
    + injection E as <- <- <- <- <-. reflexivity.
Qed.
Lemma decimal_more s v n x : decimal s = Some (v, n) -> decimal (s ++ ","%char :: x) = Some (v, n).
Proof.
  rewrite !decimal_mantissa. intros E. destruct (mantissa s) as [[[[m nf] s2] kdot] ni] eqn:EM.
  rewrite (mantissa_more _ _ _ _ _ _ x EM). destruct (Nat.eqb (ni + nf) 0); [discriminate|]. cbn zeta in *.
  destruct s2 as [|c t]; [exact E|]. cbn [app]. destruct (Ascii.eqb c "e" || Ascii.eqb c "E"); [|exact E].
  assert (SX : sign_of (t ++ ","%char :: x) = let '(a, b, r) := sign_of t in (a, b, r ++ ","%char :: x)).
  { unfold sign_of. destruct t as [|d t]; [reflexivity|]. cbn [app]. destruct (Ascii.eqb d "-"); [reflexivity|]. destruct (Ascii.eqb d "+"); reflexivity. }
  rewrite SX. destruct (sign_of t) as [[neg k1] s3]. destruct (digits 0 s3) as [[e ne] r3] eqn:ED.
  rewrite (digits_more' _ _ _ _ _ (","%char :: x) ED) by reflexivity. exact E.
Qed.

Lemma from_double_prefix s v n : from_chars_double s = Some (v, n) ->
  n <= length s /\ from_chars_double (firstn n s) = Some (v, n) /\ plain (firstn n s).
Proof.
  unfold from_chars_double. intros E. destruct s as [|c t]; [discriminate|].
  destruct (Ascii.eqb_spec c "-") as [->|N].
  - destruct (decimal t) as [[q m]|] eqn:ED; [|discriminate]. injection E as <- <-. destruct (decimal_prefix _ _ _ ED) as (A & B & C).
    cbn [length firstn]. rewrite Ascii.eqb_refl, B. split; [lia|]. split; [reflexivity|]. intros [X|X]; [discriminate|exact (C X)].
  - destruct (decimal_prefix _ _ _ E) as (A & B & C). split; [exact A|]. split; [|exact C].
    destruct n as [|n]; [|cbn [firstn] in *; destruct (Ascii.eqb_spec c "-"); [contradiction|exact B]].
    cbn [firstn] in *. discriminate.
Qed.
Lemma from_double_more s v x : from_chars_double s = Some (v, length s) -> from_chars_double (s ++ ","%char :: x) = Some (v, length s).
Proof.
  unfold from_chars_double. intros E. destruct s as [|c t]; [discriminate|]. cbn [app].
  destruct (Ascii.eqb c "-").
  - destruct (decimal t) as [[q m]|] eqn:ED; [|discriminate]. rewrite (decimal_more _ _ _ x ED). exact E.
  - rewrite app_comm_cons. apply decimal_more, E.
Qed.

(* ---- specification: what a line says ---- *)
(* characters 1-4, 6-7 and 9-10 of a line begin with year, month and day *)
Definition dated (line : chars) (y m d : Z) : Prop :=
  exists a b c, from_chars_int (firstn 4 line) = Some (y, a) /\ from_chars_int (firstn 2 (skipn 5 line)) = Some (m, b) /\
    from_chars_int (firstn 2 (skipn 8 line)) = Some (d, c).
(* column CP is not empty and the data type has three letters *)
Definition documented (cols : list chars) : Prop :=
  nth_error cols 21 <> Some [] /\ exists f, nth_error cols 26 = Some f /\ length f = 3.
Definition int_at (cols : list chars) (k : nat) (v : Z) : Prop := exists c, nth_error cols k = Some c /\ int_col c v.
Definition real_at (cols : list chars) (k : nat) (v : Q) : Prop := exists c, nth_error cols k = Some c /\ real_col c v.
Definition aps_at (cols : list chars) (l : list Z) : Prop :=
  length l = 8 /\ forall i v, nth_error l i = Some v -> int_at cols (12 + i) v.

Section Calendar.
Variable ymd_mjd : Z -> Z -> Z -> Z.
Definition row_of (line : chars) (fl : flux) : Prop :=
  let cols := columns line in
  (exists y m d, dated line y m d /\ fx_mjd fl = ymd_mjd y m d) /\
  aps_at cols (fx_ap fl) /\ real_at cols 20 (fx_apd fl) /\
  (documented cols -> real_at cols 24 (fx_obs fl) /\ real_at cols 25 (fx_adj fl) /\ nth_error cols 26 = Some (firstn 3 (fx_flag fl)) /\
     real_at cols 27 (fx_obsc fl) /\ real_at cols 28 (fx_obsl fl) /\ real_at cols 29 (fx_adjc fl)).
(* the columns a line must have to be a record *)
Definition full_line (line : chars) : Prop :=
  let cols := columns line in
  (exists y m d, dated line y m d) /\ documented cols /\ 31 <= length cols /\
  (forall i, i < 8 -> exists v, int_at cols (12 + i) v) /\
  (forall k, In k [20; 24; 25; 27; 28; 29] -> exists v, real_at cols k v).

(* ---- places in the line array ---- *)
Definition place (stale rest : chars) : cursor := (rest ++ nul :: stale, (Z.of_nat (length rest) - 1)%Z).
Definition no_nul (s : chars) : Prop := ~ In nul s.
Lemma no_nul_app a b : no_nul (a ++ b) -> no_nul a /\ no_nul b.
Proof. intros N. split; intros I; apply N, in_app_iff; [left|right]; exact I. Qed.

Lemma field_sound {V} (conv : chars -> option (V * nat)) :
  (forall s v n, conv s = Some (v, n) -> n <= length s /\ conv (firstn n s) = Some (v, n) /\ plain (firstn n s)) ->
  forall stale rest v cur, field conv (place stale rest) = Ok (v, Some cur) ->
  exists w fld rest', v = Some w /\ rest = fld ++ comma :: rest' /\ plain fld /\ conv fld = Some (w, length fld) /\ cur = place stale rest'.
Proof.
  intros PF stale rest v cur E. unfold field, place in E. destruct (Z.ltb_spec (Z.of_nat (length rest) - 1) 0) as [|R]; [discriminate|].
  set (m := Z.to_nat (Z.of_nat (length rest) - 1)) in *.
  assert (M : m + 1 = length rest) by lia.
  rewrite firstn_app in E. replace (m - length rest) with 0 in E by lia. cbn [firstn] in E. rewrite app_nil_r in E.
  destruct (conv (firstn m rest)) as [[w n]|] eqn:EC; [|discriminate].
  destruct (PF _ _ _ EC) as (LN & CN & PN). rewrite firstn_length_le in LN by lia. rewrite firstn_firstn in CN, PN.
  replace (Nat.min n m) with n in CN, PN by lia.
  rewrite skipn_app in E. replace (n - length rest) with 0 in E by lia.
  destruct (skipn n rest) as [|c t] eqn:ES; [exfalso; assert (X : length (skipn n rest) = 0) by (rewrite ES; reflexivity); rewrite skipn_length in X; lia|].
  cbn [app skipn] in E. injection E as <- E. destruct (Ascii.eqb_spec c comma) as [->|]; [|discriminate]. injection E as <-.
  exists w, (firstn n rest), t. split; [reflexivity|]. split; [rewrite <- ES, firstn_skipn; reflexivity|]. split; [exact PN|].
  rewrite firstn_length_le by lia. split; [exact CN|]. unfold place. f_equal.
  assert (X : length (skipn n rest) = S (length t)) by (rewrite ES; reflexivity). rewrite skipn_length in X. lia.
Qed.
Lemma field_complete {V} (conv : chars -> option (V * nat)) :
  (forall s v x, conv s = Some (v, length s) -> conv (s ++ ","%char :: x) = Some (v, length s)) ->
  forall stale fld rest' w, conv fld = Some (w, length fld) -> field conv (place stale (fld ++ comma :: rest')) = Ok (Some w, Some (place stale rest')).
Proof.
  intros PM stale fld rest' w E. unfold field, place. rewrite app_length. cbn [length].
  destruct (Z.ltb_spec (Z.of_nat (length fld + S (length rest')) - 1) 0) as [|R]; [lia|].
  replace (Z.to_nat _) with (length fld + length rest') by lia.
  rewrite <- app_assoc. cbn [app]. rewrite firstn_add, firstn_app, firstn_all, Nat.sub_diag. cbn [firstn]. rewrite app_nil_r, skipn_len.
  assert (C : conv (fld ++ firstn (length rest') (comma :: rest' ++ nul :: stale)) = Some (w, length fld)).
  { destruct rest' as [|c r]; cbn [length firstn]; [rewrite app_nil_r; exact E|]. apply PM, E. }
  rewrite C, skipn_len. rewrite Ascii.eqb_refl. do 4 f_equal. lia.
Qed.

Lemma skip_spec stale n : forall t c, 1 <= n -> no_nul (c :: t) ->
  (length (columns t) <= n /\ skip_commas n (c :: t ++ nul :: stale) = Ok (length t + 2)) \/
  (exists a r, c :: t = a ++ r /\ skip_commas n (c :: t ++ nul :: stale) = Ok (length a) /\ columns r = skipn n (columns t) /\ n < length (columns t)).
Proof.
  intros t; revert n; induction t as [|d t IH]; intros n c Hn NN.
  - left. split; [cbn; lia|]. cbn [app length plus skip_commas].
    destruct (Ascii.eqb_spec c nul) as [->|_]; [exfalso; apply NN; left; reflexivity|]. destruct (Nat.eqb_spec n 0); [lia|]. cbn [orb].
    destruct (Ascii.eqb nul comma); reflexivity.
  - assert (NC : Ascii.eqb c nul = false) by (apply Ascii.eqb_neq; intros ->; apply NN; left; reflexivity).
    assert (ND : no_nul (d :: t)) by (intros I; apply NN; right; exact I).
    change (c :: (d :: t) ++ nul :: stale) with (c :: d :: t ++ nul :: stale).
    assert (U : skip_commas n (c :: d :: t ++ nul :: stale) = do k <- skip_commas (if Ascii.eqb d comma then pred n else n) (d :: t ++ nul :: stale); Ok (S k)).
    { cbn [skip_commas]. rewrite NC. destruct (Nat.eqb_spec n 0); [lia|]. reflexivity. }
    rewrite U. unfold comma. destruct (Ascii.eqb_spec d ",") as [->|DN].
    + cbn [columns]. rewrite Ascii.eqb_refl. cbn [length]. destruct n as [|[|n]]; [lia| |].
      * right. exists [c; ","%char], t. split; [reflexivity|]. split; [reflexivity|]. split; [reflexivity|]. pose proof (columns_ne t). destruct (columns t); [congruence|cbn; lia].
      * cbn [pred]. destruct (IH (S n) ","%char ltac:(lia) ND) as [[A B]|(a & r & A & B & C & D)]; rewrite B; cbn [obind].
        { left. split; [lia|]. f_equal. }
        { right. exists (c :: a), r. split; [rewrite A; reflexivity|]. split; [reflexivity|]. split; [exact C|lia]. }
    + assert (CC : length (columns (d :: t)) = length (columns t) /\ skipn n (columns (d :: t)) = skipn n (columns t)).
      { cbn [columns]. destruct (Ascii.eqb_spec d ","); [contradiction|]. pose proof (columns_ne t). destruct (columns t); [congruence|]. split; [reflexivity|]. destruct n; [lia|reflexivity]. }
      destruct CC as [C1 C2]. rewrite C1, C2.
      destruct (IH n d Hn ND) as [[A B]|(a & r & A & B & C & D)]; rewrite B; cbn [obind].
      { left. split; [exact A|]. f_equal. }
      { right. exists (c :: a), r. split; [rewrite A; reflexivity|]. split; [reflexivity|]. split; [exact C|exact D]. }
Qed.

(* behind the terminator nothing can be converted any more *)
Definition beyond (cur : cursor) : Prop := (snd cur < 0)%Z.
Lemma field_beyond {V} (conv : chars -> option (V * nat)) cur : beyond cur -> field conv cur = UB.
Proof. destruct cur as [b room]. unfold beyond, field. cbn. intros H. destruct (Z.ltb_spec room 0); [reflexivity|lia]. Qed.

Lemma skip_to_sound stale n c t r : 1 <= n -> no_nul (c :: t) -> skip_to n (place stale (c :: t)) = Ok (Some r) ->
  beyond r \/ exists a rest, c :: t = a ++ rest /\ r = place stale rest /\ columns rest = skipn n (columns t) /\ n < length (columns t).
Proof.
  intros Hn NN E. unfold skip_to, place in E. change ((c :: t) ++ nul :: stale) with (c :: t ++ nul :: stale) in E.
  remember (Z.of_nat (length (c :: t)) - 1)%Z as room eqn:HR. cbn [length] in HR.
  destruct (skip_spec stale n t c Hn NN) as [[A B]|(a & rest & A & B & C & D)]; rewrite B in E; cbn [obind] in E.
  - destruct (skipn _ _) as [|x y]; [discriminate|]. injection E as E. destruct (Ascii.eqb x nul); [discriminate|]. injection E as <-.
    left. unfold beyond. cbn [snd]. lia.
  - assert (X : c :: t ++ nul :: stale = a ++ rest ++ nul :: stale) by (rewrite app_comm_cons, A, app_assoc; reflexivity).
    rewrite X, skipn_len in E. destruct (rest ++ nul :: stale) as [|x y] eqn:ER; [discriminate|]. injection E as E.
    destruct (Ascii.eqb x nul); [discriminate|]. injection E as <-. right. exists a, rest. split; [exact A|]. split; [|split; assumption].
    unfold place. rewrite ER. f_equal. assert (L : length (c :: t) = length a + length rest) by (rewrite A, app_length; reflexivity). cbn [length] in L. lia.
Qed.
Lemma skip_to_complete stale n c t : 1 <= n -> no_nul (c :: t) -> n < length (columns t) -> skipn n (columns t) <> [[]] ->
  exists a rest, c :: t = a ++ rest /\ skip_to n (place stale (c :: t)) = Ok (Some (place stale rest)) /\ columns rest = skipn n (columns t).
Proof.
  intros Hn NN L NE. unfold skip_to, place. change ((c :: t) ++ nul :: stale) with (c :: t ++ nul :: stale).
  destruct (skip_spec stale n t c Hn NN) as [[A B]|(a & rest & A & B & C & D)]; [lia|]. rewrite B. cbn [obind].
  assert (X : c :: t ++ nul :: stale = a ++ rest ++ nul :: stale) by (rewrite app_comm_cons, A, app_assoc; reflexivity).
  rewrite X, skipn_len. exists a, rest. split; [exact A|]. split; [|exact C].
  assert (LL : length (c :: t) = length a + length rest) by (rewrite A, app_length; reflexivity).
  destruct rest as [|x y]; [rewrite <- C in NE; exfalso; apply NE; reflexivity|]. cbn [app].
  assert (NX : Ascii.eqb x nul = false) by (apply Ascii.eqb_neq; intros ->; apply NN; rewrite A; apply in_app_iff; right; left; reflexivity).
  rewrite NX. do 3 f_equal. cbn [length] in *. lia.
Qed.

Lemma columns_uncons rest h more : columns rest = h :: more -> plain h /\ (more <> [] -> exists rest', rest = h ++ comma :: rest' /\ columns rest' = more).
Proof.
  revert h more; induction rest as [|c t IH]; intros h more E; cbn [columns] in E.
  - injection E as <- <-. split; [intros []|congruence].
  - destruct (Ascii.eqb_spec c ",") as [->|NC].
    + injection E as <- <-. split; [intros []|]. intros _. exists t. split; reflexivity.
    + destruct (columns t) as [|h' r'] eqn:EC; [exfalso; exact (columns_ne t EC)|]. injection E as <- <-.
      destruct (IH _ _ eq_refl) as [P Q]. split; [intros [A|A]; [subst c; apply NC; reflexivity|exact (P A)]|].
      intros M. destruct (Q M) as (rest' & -> & C). exists rest'. split; [reflexivity|exact C].
Qed.
Lemma skipn_S_nth {A} (l : list A) j h more : skipn j l = h :: more -> nth_error l j = Some h /\ skipn (S j) l = more.
Proof.
  revert l; induction j as [|j IH]; intros l E.
  - cbn in E. subst l. split; reflexivity.
  - destruct l as [|x l]; [discriminate|]. cbn [skipn] in E. destruct (IH l E) as [N1 N2]. split; [exact N1|exact N2].
Qed.
Lemma nth_skipn_cons {A} (l : list A) j h : nth_error l j = Some h -> skipn j l = h :: skipn (S j) l.
Proof.
  revert l; induction j as [|j IH]; intros l E; (destruct l as [|x l]; [discriminate|]).
  - cbn in *. injection E as <-. reflexivity.
  - cbn [skipn nth_error] in *. apply IH, E.
Qed.
Lemma columns_length s : length (columns s) <= length s + 1.
Proof.
  induction s as [|c t IH]; [cbn; lia|]. cbn [columns]. destruct (Ascii.eqb c ","); [cbn [length]; lia|].
  pose proof (columns_ne t). destruct (columns t); [congruence|]. cbn [length] in *. lia.
Qed.

(* ---- one column ---- *)
Lemma read_double_sound set code stale cols j rest fl fl' cur : skipn j cols = columns rest -> no_nul rest ->
  read_double set code fl (place stale rest) = Ok (fl', inr cur) ->
  exists w rest', fl' = set w fl /\ cur = place stale rest' /\ real_at cols j w /\ skipn (S j) cols = columns rest' /\ no_nul rest'.
Proof.
  intros C NN E. unfold read_double in E. destruct (field from_chars_double (place stale rest)) as [[v nx]|] eqn:EF; [|discriminate].
  cbn [obind] in E. destruct nx as [c|]; [|discriminate]. injection E as <- <-.
  destruct (field_sound _ from_double_prefix _ _ _ _ EF) as (w & fld & rest' & -> & -> & P & K & ->).
  exists w, rest'. split; [reflexivity|]. split; [reflexivity|]. change (fld ++ comma :: rest') with (fld ++ ","%char :: rest') in C. rewrite columns_cut in C by exact P.
  destruct (skipn_S_nth _ _ _ _ C) as [N1 N2]. split; [exists fld; split; [exact N1|exact K]|]. split; [exact N2|].
  apply no_nul_app in NN. destruct NN as [_ NN]. intros I. apply NN. right. exact I.
Qed.
Lemma read_double_complete set code stale cols j rest fl w : skipn j cols = columns rest -> no_nul rest -> S j < length cols -> real_at cols j w ->
  exists rest', read_double set code fl (place stale rest) = Ok (set w fl, inr (place stale rest')) /\ skipn (S j) cols = columns rest' /\ no_nul rest'.
Proof.
  intros C NN L (fld & N & R). rewrite (nth_skipn_cons _ _ _ N) in C. symmetry in C.
  destruct (columns_uncons _ _ _ C) as [P K]. destruct K as (rest' & -> & C').
  { intros X. apply (f_equal (@length _)) in X. rewrite skipn_length in X. cbn [length] in X. lia. }
  exists rest'. unfold read_double. rewrite (field_complete _ (fun s v x => from_double_more s v x) stale fld rest' w R). cbn [obind].
  split; [reflexivity|]. split; [symmetry; exact C'|]. apply no_nul_app in NN. destruct NN as [_ NN]. intros I. apply NN. right. exact I.
Qed.

Lemma read_aps_sound stale cols : forall k i rest fl fl' cur, skipn (12 + i) cols = columns rest -> no_nul rest ->
  read_aps k i fl (place stale rest) = Ok (fl', inr cur) ->
  exists l rest', fl' = set_ap l fl /\ cur = place stale rest' /\ length l = length (fx_ap fl) /\
    (forall j v, i <= j < i + k -> nth_error l j = Some v -> int_at cols (12 + j) v) /\
    (forall j, j < i -> nth_error l j = nth_error (fx_ap fl) j) /\ skipn (12 + i + k) cols = columns rest' /\ no_nul rest'.
Proof.
  induction k as [|k IH]; intros i rest fl fl' cur C NN E; cbn [read_aps] in E.
  - injection E as <- <-. exists (fx_ap fl), rest. split; [destruct fl; reflexivity|]. split; [reflexivity|]. split; [reflexivity|].
    split; [intros j v J; lia|]. split; [reflexivity|]. rewrite Nat.add_0_r. split; assumption.
  - destruct (field from_chars_int (place stale rest)) as [[v nx]|] eqn:EF; [|discriminate]. cbn [obind] in E.
    destruct nx as [c|]; [|destruct (match v with Some _ => _ | None => _ end); discriminate].
    destruct (field_sound _ from_int_prefix _ _ _ _ EF) as (w & fld & rest' & -> & -> & P & K & ->).
    destruct (store (fx_ap fl) i w) as [l1|] eqn:EL; [|discriminate]. cbn [obind] in E.
    change (fld ++ comma :: rest') with (fld ++ ","%char :: rest') in C. rewrite columns_cut in C by exact P.
    destruct (skipn_S_nth _ _ _ _ C) as [N1 N2].
    assert (NN' : no_nul rest') by (apply no_nul_app in NN; destruct NN as [_ NN]; intros I; apply NN; right; exact I).
    replace (S (12 + i)) with (12 + S i) in N2 by lia.
    destruct (IH (S i) rest' _ _ _ N2 NN' E) as (l & rest'' & -> & -> & L & A & B & C' & NN'').
    exists l, rest''. assert (LI : i < length (fx_ap fl)).
    { destruct (Nat.lt_ge_cases i (length (fx_ap fl))) as [|G]; [assumption|]. rewrite store_UB in EL by exact G. discriminate. }
    destruct (store_ok (fx_ap fl) i w LI) as (l1' & E1 & LL & NTH). rewrite E1 in EL. injection EL as ->. cbn [fx_ap set_ap] in *.
    split; [destruct fl; reflexivity|]. split; [reflexivity|]. split; [lia|]. split; [|split; [|split; [|exact NN'']]].
    + intros j v J HJ. destruct (Nat.eq_dec j i) as [->|NE]; [|apply A; [lia|exact HJ]].
      rewrite (B i ltac:(lia)), NTH, Nat.eqb_refl in HJ. injection HJ as <-. exists fld. split; assumption.
    + intros j J. rewrite (B j ltac:(lia)), NTH. destruct (Nat.eqb_spec j i); [lia|reflexivity].
    + replace (12 + i + S k) with (12 + S i + k) by lia. exact C'.
Qed.
Lemma read_aps_complete stale cols : forall k i rest fl, skipn (12 + i) cols = columns rest -> no_nul rest ->
  12 + i + k < length cols -> i + k <= length (fx_ap fl) -> (forall j, i <= j < i + k -> exists v, int_at cols (12 + j) v) ->
  exists l rest', read_aps k i fl (place stale rest) = Ok (set_ap l fl, inr (place stale rest')) /\ skipn (12 + i + k) cols = columns rest' /\ no_nul rest'.
Proof.
  induction k as [|k IH]; intros i rest fl C NN L LA H.
  - exists (fx_ap fl), rest. cbn [read_aps]. rewrite Nat.add_0_r. split; [destruct fl; reflexivity|]. split; assumption.
  - destruct (H i ltac:(lia)) as (v & fld & N & R). rewrite (nth_skipn_cons _ _ _ N) in C. symmetry in C.
    destruct (columns_uncons _ _ _ C) as [P K]. destruct K as (rest' & -> & C').
    { intros X. apply (f_equal (@length _)) in X. rewrite skipn_length in X. cbn [length] in X. lia. }
    assert (NN' : no_nul rest') by (apply no_nul_app in NN; destruct NN as [_ NN]; intros I; apply NN; right; exact I).
    cbn [read_aps]. rewrite (field_complete _ (fun s v x E => from_int_more s v (","%char :: x) E eq_refl) stale fld rest' v R). cbn [obind].
    destruct (store_ok (fx_ap fl) i v ltac:(lia)) as (l1 & E1 & LL & _). rewrite E1. cbn [obind].
    destruct (IH (S i) rest' (set_ap l1 fl)) as (l & rest'' & E & C2 & NN2).
    { symmetry. replace (12 + S i) with (S (12 + i)) by lia. exact C'. }
    { exact NN'. } { lia. } { cbn [fx_ap set_ap]. lia. } { intros j J. apply H. lia. }
    exists l, rest''. rewrite E. split; [destruct fl; reflexivity|]. replace (12 + i + S k) with (12 + S i + k) by lia. split; assumption.
Qed.

Lemma three (l : chars) : length l = 3 -> exists a b c, l = [a; b; c].
Proof. destruct l as [|a [|b [|c [|]]]]; try discriminate. eauto. Qed.
Lemma read_flag_sound code stale cols j rest fl fl' cur fcol : skipn j cols = columns rest -> no_nul rest ->
  nth_error cols j = Some fcol -> length fcol = 3 -> read_flag code fl (place stale rest) = Ok (fl', inr cur) ->
  beyond cur \/ exists rest', fl' = set_flag (fcol ++ skipn 3 (fx_flag fl)) fl /\ cur = place stale rest' /\ skipn (S j) cols = columns rest' /\ no_nul rest'.
Proof.
  intros C NN N LF E. rewrite (nth_skipn_cons _ _ _ N) in C. symmetry in C.
  destruct (three _ LF) as (a & b & c & ->).
  destruct (list_eq_dec (list_eq_dec Ascii.ascii_dec) (skipn (S j) cols) []) as [X|X].
  - left. rewrite X in C.
    assert (LR : rest = [a; b; c]).
    { destruct (columns_uncons _ _ _ C) as [P _]. clear - C P. assert (G : forall s h, columns s = [h] -> s = h).
      { induction s as [|x s IH]; intros h H; cbn [columns] in H; [injection H as <-; reflexivity|]. destruct (Ascii.eqb x ","); [injection H as _ H; exfalso; exact (columns_ne s H)|].
        destruct (columns s) as [|u v] eqn:EU; [exfalso; exact (columns_ne s EU)|]. injection H as <- ->. f_equal. apply IH. reflexivity. }
      apply G, C. }
    subst rest. cbn in E. discriminate.
  - right. destruct (columns_uncons _ _ _ C) as [P K]. destruct (K X) as (rest' & -> & C'). exists rest'.
    unfold place in E. cbn [app read_flag length] in E. rewrite Ascii.eqb_refl in E.
    assert (EC : inr (rest' ++ nul :: stale, (Z.of_nat (S (S (S (S (length rest'))))) - 1 - 4)%Z) = inr cur :> Z + cursor) by congruence.
    assert (EF : set_flag (a :: b :: c :: skipn 3 (fx_flag fl)) fl = fl') by congruence.
    split; [symmetry; exact EF|]. split; [|split].
    + assert (EC' : (rest' ++ nul :: stale, (Z.of_nat (S (S (S (S (length rest'))))) - 1 - 4)%Z) = cur) by congruence.
      rewrite <- EC'. unfold place. f_equal. lia.
    + symmetry. exact C'.
    + apply (no_nul_app [a; b; c] (comma :: rest')) in NN. destruct NN as [_ NN]. intros I. apply NN. right. exact I.
Qed.
Lemma read_flag_complete code stale cols j rest fl fcol : skipn j cols = columns rest -> no_nul rest -> S j < length cols ->
  nth_error cols j = Some fcol -> length fcol = 3 ->
  exists rest', read_flag code fl (place stale rest) = Ok (set_flag (fcol ++ skipn 3 (fx_flag fl)) fl, inr (place stale rest')) /\ skipn (S j) cols = columns rest' /\ no_nul rest'.
Proof.
  intros C NN L N LF. rewrite (nth_skipn_cons _ _ _ N) in C. symmetry in C.
  destruct (three _ LF) as (a & b & c & ->). destruct (columns_uncons _ _ _ C) as [P K]. destruct K as (rest' & -> & C').
  { intros X. apply (f_equal (@length _)) in X. rewrite skipn_length in X. cbn [length] in X. lia. }
  exists rest'. split; [|split; [symmetry; exact C'|]].
  - unfold place. cbn [app read_flag]. rewrite Ascii.eqb_refl. do 4 f_equal. cbn [app length]. lia.
  - apply (no_nul_app [a; b; c] (comma :: rest')) in NN. destruct NN as [_ NN]. intros I. apply NN. right. exact I.
Qed.

(* ---- the whole line ---- *)
Lemma andthen_inr x f fl cur : andthen x f = Ok (fl, inr cur) -> exists fl1 cur1, x = Ok (fl1, inr cur1) /\ f fl1 cur1 = Ok (fl, inr cur).
Proof. unfold andthen. destruct x as [[fl1 [e|c]]|]; cbn [obind]; intros E; [discriminate|eauto|discriminate]. Qed.
Definition codes_nz (x : outcome parsed) : Prop := forall fl e, x = Ok (fl, inl e) -> e <> 0%Z.
Lemma andthen_nz x f : codes_nz x -> (forall fl cur, codes_nz (f fl cur)) -> codes_nz (andthen x f).
Proof. intros X F fl e E. unfold andthen in E. destruct x as [[fl1 [e1|c]]|]; cbn [obind] in E; [injection E as <- <-; eapply X; reflexivity|eapply F; exact E|discriminate]. Qed.
Lemma read_double_nz set code fl cur : code <> 0%Z -> codes_nz (read_double set code fl cur).
Proof. intros H f e E. unfold read_double in E. destruct (field _ _) as [[v [c|]]|]; cbn [obind] in E; congruence. Qed.
Lemma read_skip_nz n code fl cur : code <> 0%Z -> codes_nz (read_skip n code fl cur).
Proof. intros H f e E. unfold read_skip in E. destruct (skip_to _ _) as [[c|]|]; cbn [obind] in E; congruence. Qed.
Lemma read_flag_nz code fl cur : code <> 0%Z -> codes_nz (read_flag code fl cur).
Proof. intros H f e E. unfold read_flag in E. destruct cur as [[|a [|b [|c [|d t]]]] room]; try discriminate. destruct (Ascii.eqb d comma); congruence. Qed.
Lemma read_aps_nz : forall k i fl cur, codes_nz (read_aps k i fl cur).
Proof.
  induction k as [|k IH]; intros i fl cur f e E; cbn [read_aps] in E; [discriminate|].
  destruct (field _ _) as [[v nx]|]; cbn [obind] in E; [|discriminate].
  destruct (match v with Some _ => _ | None => _ end) as [fl'|]; cbn [obind] in E; [|discriminate].
  destruct nx as [c|]; [eapply IH; exact E|]. assert (X : e = (3 + Z.of_nat i)%Z) by congruence. lia.
Qed.

(* a loaded double or Ap field behind the terminator is undefined *)
Lemma read_double_beyond set code fl cur : beyond cur -> read_double set code fl cur = UB.
Proof. intros B. unfold read_double. rewrite field_beyond by exact B. reflexivity. Qed.
Lemma read_aps_beyond k i fl cur : beyond cur -> read_aps (S k) i fl cur = UB.
Proof. intros B. cbn [read_aps]. rewrite field_beyond by exact B. reflexivity. Qed.

Lemma slice_app {A} a n (l x : list A) : a + n <= length l -> firstn n (skipn a (l ++ x)) = firstn n (skipn a l).
Proof.
  intros H. rewrite skipn_app, firstn_app. replace (n - length (skipn a l)) with 0 by (rewrite skipn_length; lia).
  cbn [firstn]. apply app_nil_r.
Qed.
Lemma resolve_date_long line x : 10 <= length line ->
  resolve_date ymd_mjd (line ++ x) = Ok (match from_chars_int (firstn 4 line), from_chars_int (firstn 2 (skipn 5 line)), from_chars_int (firstn 2 (skipn 8 line)) with
           | Some (y, _), Some (m, _), Some (d, _) => Some (ymd_mjd y m d) | _, _, _ => None end).
Proof.
  intros H. unfold resolve_date. destruct (Nat.ltb_spec (length (line ++ x)) 10) as [L|_]; [rewrite app_length in L; lia|].
  rewrite (slice_app 5 2), (slice_app 8 2) by lia. rewrite firstn_app. replace (4 - length line) with 0 by lia. cbn [firstn]. rewrite app_nil_r. reflexivity.
Qed.
Lemma cstr_no_nul a x : no_nul a -> cstr (a ++ nul :: x) = a.
Proof. intros N. rewrite cstr_app_no_nul by exact N. cbn. apply app_nil_r. Qed.

Lemma dated_first line y m d : dated line y m d -> match line with c :: _ => c <> ","%char | [] => False end.
Proof. intros (a & _ & _ & H & _). destruct line as [|c t]; [discriminate|]. intros ->. discriminate. Qed.

Theorem resolve_sound buf line fl fl' : no_nul line -> length (fx_ap fl) = 8 -> 
  resolve_records ymd_mjd (into_buffer buf line) fl = Ok (0%Z, fl') -> row_of line fl' /\ length (fx_ap fl') = 8 /\ 20 < length (columns line).
Proof.
  intros NN LA E. unfold resolve_records, into_buffer in E.
  set (stale := skipn (S (length line)) buf) in *.
  destruct (resolve_date ymd_mjd (line ++ nul :: stale)) as [[mjd|]|] eqn:ED; cbn [obind] in E; [|discriminate|discriminate].
  rewrite cstr_no_nul in E by exact NN.
  change (line ++ nul :: stale, (Z.of_nat (length line) - 1)%Z) with (place stale line) in E.
  match type of E with obind ?x _ = _ => destruct x as [[fl2 r]|] eqn:EX; [|discriminate] end. cbn [obind] in E.
  assert (R : exists cur, r = inr cur).
  { destruct r as [e|cur]; [|eauto]. exfalso. injection E as E0 _. revert EX E0. apply andthen_nz.
    { apply read_skip_nz; discriminate. }
    intros f1 c1. apply andthen_nz; [apply read_aps_nz|]. intros f2 c2. apply andthen_nz; [apply read_double_nz; discriminate|].
    intros f3 c3. apply andthen_nz; [apply read_skip_nz; discriminate|].
    intros f4 c4. apply andthen_nz; [apply read_double_nz; discriminate|].
    intros f5 c5. apply andthen_nz; [apply read_double_nz; discriminate|].
    intros f6 c6. apply andthen_nz; [apply read_flag_nz; discriminate|].
    intros f7 c7. apply andthen_nz; [apply read_double_nz; discriminate|].
    intros f8 c8. apply andthen_nz; [apply read_double_nz; discriminate|].
    intros f9 c9. apply read_double_nz; discriminate. }
  destruct R as (cur & ->). injection E as ->.
  apply andthen_inr in EX. destruct EX as (f1 & c1 & E1 & EX).
  apply andthen_inr in EX. destruct EX as (f2 & c2 & E2 & EX).
  apply andthen_inr in EX. destruct EX as (f3 & c3 & E3 & EX).
  apply andthen_inr in EX. destruct EX as (f4 & c4 & E4 & EX).
  apply andthen_inr in EX. destruct EX as (f5 & c5 & E5 & EX).
  apply andthen_inr in EX. destruct EX as (f6 & c6 & E6 & EX).
  apply andthen_inr in EX. destruct EX as (f7 & c7 & E7 & EX).
  apply andthen_inr in EX. destruct EX as (f8 & c8 & E8 & EX).
  apply andthen_inr in EX. destruct EX as (f9 & c9 & E9 & E10).
  set (cols := columns line).
  assert (HC : exists c t, line = c :: t /\ c <> ","%char).
  { unfold resolve_date in ED. destruct (Nat.ltb _ _); [discriminate|]. injection ED as ED. destruct line as [|c t].
    - cbn [app firstn] in ED. change (from_chars_int (nul :: _)) with (@None (Z * nat)) in ED. discriminate.
    - exists c, t. split; [reflexivity|]. intros ->. change (from_chars_int (firstn 4 ((","%char :: t) ++ nul :: stale))) with (@None (Z * nat)) in ED. discriminate. }
  destruct HC as (hc & ht & HL & HN).
  (* Ap columns *)
  unfold read_skip in E1. destruct (skip_to 12 (place stale line)) as [[cur1|]|] eqn:ES; cbn [obind] in E1; try discriminate.
  injection E1 as <- <-. rewrite HL in ES, NN. destruct (skip_to_sound stale 12 hc ht cur1 ltac:(lia) NN ES) as [BY|(a1 & rest1 & A1 & -> & C1 & L1)].
  { rewrite read_aps_beyond in E2 by exact BY. discriminate. }
  assert (C1' : skipn (12 + 0) cols = columns rest1).
  { rewrite C1. unfold cols. rewrite HL. cbn [columns]. destruct (Ascii.eqb_spec hc ","); [contradiction|]. destruct (columns ht) eqn:EH; [exfalso; exact (columns_ne ht EH)|reflexivity]. }
  assert (N1 : no_nul rest1) by (rewrite A1 in NN; apply no_nul_app in NN; apply NN).
  destruct (read_aps_sound stale cols 8 0 rest1 _ _ _ C1' N1 E2) as (l & rest2 & -> & -> & LL & APS & _ & C2 & N2).
  cbn [set_mjd fx_ap] in LL. change (12 + 0 + 8) with 20 in C2.
  destruct (read_double_sound set_apd 11 stale cols 20 rest2 _ _ _ C2 N2 E3) as (apd & rest3 & -> & -> & RA & C3 & N3).
  assert (LC : 20 < length cols).
  { destruct RA as (c & K & _). apply nth_error_Some. rewrite K. discriminate. }
  assert (LLINE : 10 <= length line) by (pose proof (columns_length line); unfold cols in LC; lia).
  assert (DT : exists y m d, dated line y m d /\ mjd = ymd_mjd y m d).
  { rewrite resolve_date_long in ED by exact LLINE.
    destruct (from_chars_int (firstn 4 line)) as [[y ay]|] eqn:Ey; [|discriminate].
    destruct (from_chars_int (firstn 2 (skipn 5 line))) as [[m am]|] eqn:Em; [|discriminate].
    destruct (from_chars_int (firstn 2 (skipn 8 line))) as [[d ad]|] eqn:Edd; [|discriminate]. injection ED as <-.
    exists y, m, d. split; [exists ay, am, ad; auto|reflexivity]. }
  (* the remaining readers leave day and Ap values alone *)
  assert (KEEP : fx_mjd fl' = mjd /\ fx_ap fl' = l /\ fx_apd fl' = apd).
  { clear - E4 E5 E6 E7 E8 E9 E10.
    assert (RD : forall set code f c f' c', (forall v g, fx_mjd (set v g) = fx_mjd g /\ fx_ap (set v g) = fx_ap g /\ fx_apd (set v g) = fx_apd g) ->
      read_double set code f c = Ok (f', inr c') -> fx_mjd f' = fx_mjd f /\ fx_ap f' = fx_ap f /\ fx_apd f' = fx_apd f).
    { intros set code f c f' c' HS H. unfold read_double in H. destruct (field _ _) as [[v [x|]]|]; cbn [obind] in H; try discriminate. injection H as <- <-.
      destruct v; [apply HS|repeat split]. }
    unfold read_skip in E4. destruct (skip_to _ _) as [[x|]|]; cbn [obind] in E4; try discriminate. injection E4 as <- <-.
    apply RD in E5; [|repeat split]. apply RD in E6; [|repeat split]. apply RD in E8; [|repeat split]. apply RD in E9; [|repeat split]. apply RD in E10; [|repeat split].
    assert (F7 : fx_mjd f7 = fx_mjd f6 /\ fx_ap f7 = fx_ap f6 /\ fx_apd f7 = fx_apd f6).
    { unfold read_flag in E7. destruct c6 as [[|a [|b [|c [|d t]]]] room]; try discriminate. injection E7 as <- _. repeat split. }
    destruct E5 as (A5 & B5 & D5), E6 as (A6 & B6 & D6), F7 as (A7 & B7 & D7), E8 as (A8 & B8 & D8), E9 as (A9 & B9 & D9), E10 as (A10 & B10 & D10).
    rewrite A10, A9, A8, A7, A6, A5, B10, B9, B8, B7, B6, B5, D10, D9, D8, D7, D6, D5. repeat split. }
  destruct KEEP as (K1 & K2 & K3).
  split; [|split; [rewrite K2; lia|exact LC]]. unfold row_of. fold cols. rewrite K1, K2, K3.
  split; [exact DT|]. split.
  { split; [lia|]. intros i v I. apply APS; [|exact I]. assert (X : i < length l) by (apply nth_error_Some; rewrite I; discriminate). lia. }
  split; [exact RA|]. intros (CP & fcol & NF & LF).
  (* flux columns *)
  unfold read_skip in E4. destruct (skip_to 3 (place stale rest3)) as [[cur4|]|] eqn:ES4; cbn [obind] in E4; try discriminate. injection E4 as <- <-.
  assert (LC26 : 26 < length cols) by (apply nth_error_Some; rewrite NF; discriminate).
  assert (NE3 : exists c3 t3, rest3 = c3 :: t3 /\ c3 <> ","%char).
  { destruct rest3 as [|c3 t3].
    - exfalso. cbn [columns] in C3. apply (f_equal (@length _)) in C3. rewrite skipn_length in C3. cbn [length] in C3. lia.
    - exists c3, t3. split; [reflexivity|]. intros ->. cbn [columns] in C3. rewrite Ascii.eqb_refl in C3. destruct (skipn_S_nth _ _ _ _ C3) as [X _]. exact (CP X). }
  destruct NE3 as (c3 & t3 & -> & NC3).
  destruct (skip_to_sound stale 3 c3 t3 cur4 ltac:(lia) N3 ES4) as [BY|(a4 & rest4 & A4 & -> & C4 & L4)].
  { rewrite read_double_beyond in E5 by exact BY. discriminate. }
  assert (C4' : skipn 24 cols = columns rest4).
  { rewrite C4. cbn [columns] in C3. destruct (Ascii.eqb_spec c3 ","); [contradiction|]. destruct (columns t3) as [|u v] eqn:EH; [exfalso; exact (columns_ne t3 EH)|].
    destruct (skipn_S_nth _ _ _ _ C3) as [_ X]. change (skipn 3 (u :: v)) with (skipn 2 v). rewrite <- X. clear.
    assert (G : forall a b (q : list chars), skipn a (skipn b q) = skipn (b + a) q).
    { intros a b. induction b as [|b IH]; intros q; [reflexivity|]. destruct q; [destruct a; reflexivity|]. cbn [skipn plus]. apply IH. }
    rewrite G. reflexivity. }
  assert (N4 : no_nul rest4) by (rewrite A4 in N3; apply no_nul_app in N3; apply N3).
  destruct (read_double_sound set_obs 13 stale cols 24 rest4 _ _ _ C4' N4 E5) as (v5 & r5 & -> & -> & R5 & C5 & N5).
  destruct (read_double_sound set_adj 14 stale cols 25 r5 _ _ _ C5 N5 E6) as (v6 & r6 & -> & -> & R6 & C6 & N6).
  destruct (read_flag_sound 15 stale cols 26 r6 _ _ _ fcol C6 N6 NF LF E7) as [BY|(r7 & -> & -> & C7 & N7)].
  { rewrite read_double_beyond in E8 by exact BY. discriminate. }
  destruct (read_double_sound set_obsc 16 stale cols 27 r7 _ _ _ C7 N7 E8) as (v8 & r8 & -> & -> & R8 & C8 & N8).
  destruct (read_double_sound set_obsl 17 stale cols 28 r8 _ _ _ C8 N8 E9) as (v9 & r9 & -> & -> & R9 & C9 & N9).
  destruct (read_double_sound set_adjc 18 stale cols 29 r9 _ _ _ C9 N9 E10) as (v10 & r10 & -> & -> & R10 & C10 & N10).
  cbn [set_mjd set_ap set_apd set_obs set_adj set_flag set_obsc set_obsl set_adjc fx_obs fx_adj fx_obsc fx_obsl fx_adjc fx_flag].
  split; [exact R5|]. split; [exact R6|]. split; [|repeat split; assumption].
  rewrite NF. destruct (three _ LF) as (x & y & z & ->). reflexivity.
Qed.

Theorem resolve_complete buf line fl : no_nul line -> length (fx_ap fl) = 8 -> full_line line ->
  exists fl', resolve_records ymd_mjd (into_buffer buf line) fl = Ok (0%Z, fl') /\ row_of line fl' /\ length (fx_ap fl') = 8.
Proof.
  intros NN LA ((y & m & d & D) & (CP & fcol & NF & LF) & L31 & IA & RA).
  enough (X : exists fl', resolve_records ymd_mjd (into_buffer buf line) fl = Ok (0%Z, fl')).
  { destruct X as (fl' & E). exists fl'. destruct (resolve_sound buf line fl fl' NN LA E) as (R & L & _). auto. }
  pose proof (dated_first _ _ _ _ D) as HF. unfold resolve_records, into_buffer. set (stale := skipn (S (length line)) buf).
  pose proof (columns_length line) as LL. set (cols := columns line) in *.
  rewrite resolve_date_long by lia. destruct D as (a & b & c & -> & -> & ->). cbn [obind].
  rewrite cstr_no_nul by exact NN. change (line ++ nul :: stale, (Z.of_nat (length line) - 1)%Z) with (place stale line).
  destruct line as [|hc ht]; [contradiction|].
  assert (CT : forall n, 1 <= n -> skipn n (columns ht) = skipn n cols).
  { intros n Hn. unfold cols. cbn [columns]. destruct (Ascii.eqb_spec hc ","); [contradiction|]. destruct (columns ht) eqn:EH; [exfalso; exact (columns_ne ht EH)|]. destruct n; [lia|reflexivity]. }
  assert (LT : length (columns ht) = length cols).
  { unfold cols. cbn [columns]. destruct (Ascii.eqb_spec hc ","); [contradiction|]. destruct (columns ht) eqn:EH; [exfalso; exact (columns_ne ht EH)|reflexivity]. }
  destruct (skip_to_complete stale 12 hc ht ltac:(lia) NN ltac:(lia)) as (a1 & rest1 & A1 & S1 & C1).
  { rewrite CT by lia. intros X. apply (f_equal (@length _)) in X. rewrite skipn_length in X. cbn [length] in X. lia. }
  rewrite CT in C1 by lia.
  assert (N1 : no_nul rest1) by (rewrite A1 in NN; apply no_nul_app in NN; apply NN).
  unfold andthen at 1. unfold read_skip at 1. rewrite S1. cbn [obind].
  destruct (read_aps_complete stale cols 8 0 rest1 (set_mjd (ymd_mjd y m d) fl)) as (l & rest2 & E2 & C2 & N2).
  { symmetry. exact C1. } { exact N1. } { lia. } { cbn [fx_ap set_mjd]. lia. } { intros j J. apply IA. lia. }
  unfold andthen at 1. rewrite E2. cbn [obind]. change (12 + 0 + 8) with 20 in C2.
  destruct (RA 20) as (v3 & R3); [cbn; tauto|].
  destruct (read_double_complete set_apd 11 stale cols 20 rest2 (set_ap l (set_mjd (ymd_mjd y m d) fl)) v3 C2 N2 ltac:(lia) R3) as (rest3 & E3 & C3 & N3).
  unfold andthen at 1. rewrite E3. cbn [obind].
  assert (NE3 : exists c3 t3, rest3 = c3 :: t3 /\ c3 <> ","%char).
  { destruct rest3 as [|c3 t3].
    - exfalso. cbn [columns] in C3. apply (f_equal (@length _)) in C3. rewrite skipn_length in C3. cbn [length] in C3. lia.
    - exists c3, t3. split; [reflexivity|]. intros ->. cbn [columns] in C3. rewrite Ascii.eqb_refl in C3. destruct (skipn_S_nth _ _ _ _ C3) as [X _]. exact (CP X). }
  destruct NE3 as (c3 & t3 & -> & NC3).
  assert (CC : skipn 3 (columns t3) = skipn 24 cols /\ 3 < length (columns t3)).
  { cbn [columns] in C3. destruct (Ascii.eqb_spec c3 ","); [contradiction|]. destruct (columns t3) as [|u v] eqn:EH; [exfalso; exact (columns_ne t3 EH)|].
    assert (LV : length (skipn 21 cols) = S (length v)) by (rewrite C3; reflexivity). rewrite skipn_length in LV. split; [|cbn [length]; lia].
    destruct (skipn_S_nth _ _ _ _ C3) as [_ X]. change (skipn 3 (u :: v)) with (skipn 2 v). rewrite <- X. clear.
    assert (G : forall a b (q : list chars), skipn a (skipn b q) = skipn (b + a) q).
    { intros a b. induction b as [|b IH]; intros q; [reflexivity|]. destruct q; [destruct a; reflexivity|]. cbn [skipn plus]. apply IH. }
    rewrite G. reflexivity. }
  destruct CC as [CC LCC].
  destruct (skip_to_complete stale 3 c3 t3 ltac:(lia) N3 LCC) as (a4 & rest4 & A4 & S4 & C4).
  { rewrite CC. intros X. apply (f_equal (@length _)) in X. rewrite skipn_length in X. cbn [length] in X. lia. }
  rewrite CC in C4. assert (N4 : no_nul rest4) by (rewrite A4 in N3; apply no_nul_app in N3; apply N3).
  unfold andthen at 1. unfold read_skip. rewrite S4. cbn [obind]. symmetry in C4.
  destruct (RA 24) as (v5 & R5); [cbn; tauto|]. destruct (RA 25) as (v6 & R6); [cbn; tauto|]. destruct (RA 27) as (v8 & R8); [cbn; tauto|].
  destruct (RA 28) as (v9 & R9); [cbn; tauto|]. destruct (RA 29) as (v10 & R10); [cbn; tauto|].
  set (f4 := set_apd v3 _).
  destruct (read_double_complete set_obs 13 stale cols 24 rest4 f4 v5 C4 N4 ltac:(lia) R5) as (r5 & E5 & C5 & N5).
  unfold andthen at 1. rewrite E5. cbn [obind].
  destruct (read_double_complete set_adj 14 stale cols 25 r5 (set_obs v5 f4) v6 C5 N5 ltac:(lia) R6) as (r6 & E6 & C6 & N6).
  unfold andthen at 1. rewrite E6. cbn [obind].
  destruct (read_flag_complete 15 stale cols 26 r6 (set_adj v6 (set_obs v5 f4)) fcol C6 N6 ltac:(lia) NF LF) as (r7 & E7 & C7 & N7).
  unfold andthen at 1. rewrite E7. cbn [obind]. set (f7 := set_flag _ _).
  destruct (read_double_complete set_obsc 16 stale cols 27 r7 f7 v8 C7 N7 ltac:(lia) R8) as (r8 & E8 & C8 & N8).
  unfold andthen at 1. rewrite E8. cbn [obind].
  destruct (read_double_complete set_obsl 17 stale cols 28 r8 (set_obsc v8 f7) v9 C8 N8 ltac:(lia) R9) as (r9 & E9 & C9 & N9).
  unfold andthen at 1. rewrite E9. cbn [obind].
  destruct (read_double_complete set_adjc 18 stale cols 29 r9 (set_obsl v9 (set_obsc v8 f7)) v10 C9 N9 ltac:(lia) R10) as (r10 & E10 & _ & _).
  rewrite E10. cbn [obind]. eauto.
Qed.

(* ---- reading a file line by line ---- *)
Lemma buffer_line buf t : exists stale, into_buffer buf t = cstr t ++ nul :: stale.
Proof.
  unfold into_buffer. induction t as [|c t IH]; [exists (skipn 1 buf); reflexivity|]. cbn [cstr].
  destruct (Ascii.eqb_spec c nul) as [->|_]; [eexists; reflexivity|].
  assert (G : forall x, exists stale, t ++ nul :: x = cstr t ++ nul :: stale).
  { clear. induction t as [|c t IH]; intros x; [exists x; reflexivity|]. cbn [cstr]. destruct (Ascii.eqb_spec c nul) as [->|_]; [eexists; reflexivity|].
    destruct (IH x) as (s & E). exists s. cbn [app]. rewrite E. reflexivity. }
  destruct (G (skipn (S (length (c :: t))) buf)) as (s & E). exists s. cbn [app]. rewrite E. reflexivity.
Qed.
Lemma cstr_is_no_nul t : no_nul (cstr t).
Proof.
  induction t as [|c t IH]; [intros []|]. cbn [cstr]. destruct (Ascii.eqb_spec c nul) as [->|N]; [intros []|]. intros [A|A]; [congruence|exact (IH A)].
Qed.
Lemma resolve_sound_mem line stale fl fl' : no_nul line -> length (fx_ap fl) = 8 ->
  resolve_records ymd_mjd (line ++ nul :: stale) fl = Ok (0%Z, fl') -> row_of line fl' /\ length (fx_ap fl') = 8 /\ 20 < length (columns line).
Proof.
  intros NN LA E. apply (resolve_sound (repeat nul (S (length line)) ++ stale) line fl fl' NN LA). unfold into_buffer.
  rewrite skipn_app, skipn_all2, repeat_length, Nat.sub_diag by (rewrite repeat_length; lia). exact E.
Qed.
Lemma resolve_complete_mem line stale fl : no_nul line -> length (fx_ap fl) = 8 -> full_line line ->
  exists fl', resolve_records ymd_mjd (line ++ nul :: stale) fl = Ok (0%Z, fl') /\ row_of line fl' /\ length (fx_ap fl') = 8.
Proof.
  intros NN LA F. destruct (resolve_complete (repeat nul (S (length line)) ++ stale) line fl NN LA F) as (fl' & E & R). unfold into_buffer in E.
  rewrite skipn_app, skipn_all2, repeat_length, Nat.sub_diag in E by (rewrite repeat_length; lia). exists fl'. split; assumption.
Qed.
Lemma row_date line stale fl d : row_of line fl -> 20 < length (columns line) -> resolve_date ymd_mjd (line ++ nul :: stale) = Ok (Some d) -> fx_mjd fl = d.
Proof.
  intros ((y & m & dd & (a & b & c & E1 & E2 & E3) & M) & _) L E. pose proof (columns_length line).
  rewrite resolve_date_long, E1, E2, E3 in E by lia. congruence.
Qed.

Lemma seen_end ls last : nth_error (seen ls last) (length ls) = (match last with [] => None | _ => Some last end) /\
  length (seen ls last) = length ls + match last with [] => 0 | _ => 1 end.
Proof. unfold seen. rewrite nth_error_app2, Nat.sub_diag, app_length by lia. destruct last; split; reflexivity. Qed.
Lemma seen_in ls last i l : nth_error ls i = Some l -> nth_error (seen ls last) i = Some l.
Proof. intros E. unfold seen. rewrite nth_error_app1; [exact E|]. apply nth_error_Some. rewrite E. discriminate. Qed.
Lemma nil_or_cons {A} (l : list A) : l = [] \/ exists c t, l = c :: t.
Proof. destruct l; eauto. Qed.

Section File.
Variables (ls : list chars) (last : chars).
Hypothesis LO : Forall (line_ok 512) ls.
Hypothesis LL : line_ok 512 last.
Local Notation f := (file_text ls last).
Local Notation file := (seen ls last).

Definition on_line (i : nat) (s : stream) : Prop :=
  (i <= length ls /\ s = s_open (file_text (skipn i ls) last)) \/ (s_good s = false /\ i = length file).
(* position of line number i; the position of a stream that has read an unterminated last line is lost *)
Definition at_pos (i : nat) (pos : Z) : Prop :=
  (i <= length ls /\ pos = Z.of_nat (length (file_text (firstn i ls) []))) \/ (pos = (-1)%Z /\ i = length file /\ i <> 0).
Definition aligned (pos : Z) : Prop := exists i, at_pos i pos.

Lemma read_line i s t s' : on_line i s -> getline MAX_SW_CHARS s = (t, s') ->
  match nth_error file i with
  | Some l => t = l /\ s_ok s' = true /\ on_line (S i) s'
  | None => t = [] /\ s_ok s' = false /\ on_line i s' /\ i = length file
  end.
Proof.
  unfold MAX_SW_CHARS. intros [[Hi ->]|[B ->]] E.
  - destruct (nth_error ls i) as [l|] eqn:EN.
    + rewrite (seen_in _ _ _ _ EN).
      rewrite (nth_skipn_cons _ _ _ EN) in E. unfold file_text in E. cbn [flat_map] in E. rewrite <- !app_assoc in E. cbn [app] in E.
      rewrite getline_mid in E by (rewrite Forall_forall in LO; apply LO; eapply nth_error_In; exact EN). injection E as <- <-.
      split; [reflexivity|]. split; [reflexivity|]. left. split; [|reflexivity]. assert (i < length ls) by (apply nth_error_Some; rewrite EN; discriminate). lia.
    + assert (i = length ls) by (apply nth_error_None in EN; lia). subst i. destruct (seen_end ls last) as [S1 S2]. rewrite S1.
      rewrite skipn_all in E. unfold file_text in E. cbn [flat_map app] in E. rewrite getline_end in E by exact LL. injection E as <- <-.
      destruct (nil_or_cons last) as [EL|(c & t' & EL)]; rewrite EL in S2 |- *.
      * split; [reflexivity|]. split; [reflexivity|]. split; [right; split; [reflexivity|]|]; rewrite ?EL; lia.
      * split; [reflexivity|]. split; [reflexivity|]. right. split; [reflexivity|]. rewrite EL. lia.
  - replace (nth_error file (length file)) with (@None chars) by (symmetry; apply nth_error_None; lia).
    unfold getline in E. rewrite B in E. injection E as <- <-. split; [reflexivity|]. split; [reflexivity|]. split; [|reflexivity].
    right. split; [|reflexivity]. unfold s_good. cbn. rewrite andb_false_r. reflexivity.
Qed.

Lemma seek_line i pos : at_pos i pos -> on_line i (seek f pos) /\ (pos = 0%Z <-> i = 0).
Proof.
  intros [[Hi ->]|(-> & -> & NZ)].
  - split.
    + left. split; [exact Hi|]. unfold seek. destruct (Z.ltb_spec (Z.of_nat (length (file_text (firstn i ls) []))) 0); [lia|].
      rewrite Nat2Z.id. rewrite <- (firstn_skipn i ls) at 2. unfold file_text. rewrite flat_map_app, app_nil_r, <- app_assoc, skipn_len. reflexivity.
    + split; [|intros ->; reflexivity]. intros E. destruct i as [|i]; [reflexivity|]. destruct ls as [|t l]; [cbn in Hi; lia|].
      exfalso. unfold file_text in E. cbn [firstn flat_map] in E. rewrite !app_length in E. cbn [length] in E. lia.
  - split; [right; split; reflexivity|]. split; [discriminate|congruence].
Qed.
Lemma tell_aligned i s : on_line (S i) s -> aligned (tell f s).
Proof.
  intros [[Hi ->]|[B E]]; unfold tell.
  - exists (S i). left. split; [exact Hi|]. cbn [s_good s_open s_eof s_fail negb andb s_rest]. rewrite <- (firstn_skipn (S i) ls) at 1.
    unfold file_text. rewrite flat_map_app, app_nil_r, <- app_assoc, app_length. lia.
  - exists (S i). right. rewrite B. split; [reflexivity|]. split; [exact E|discriminate].
Qed.
Lemma at_pos_0 : at_pos 0 0.
Proof. left. split; [lia|reflexivity]. Qed.
Lemma aligned_0 : aligned 0.
Proof. exists 0. exact at_pos_0. Qed.

(* the line array holds a line *)
Definition holds (buf line : chars) : Prop := exists stale, buf = cstr line ++ nul :: stale.

Lemma seek_day_spec start : forall fuel cmjd buf s r a l, on_line (S a) s -> nth_error file a = Some l -> holds buf l ->
  resolve_date ymd_mjd buf = Ok (Some cmjd) -> seek_day ymd_mjd fuel start cmjd buf s = Some (Ok r) ->
  let '(e, buf', s') := r in
  e = 0%Z -> exists b l', a <= b /\ on_line (S b) s' /\ nth_error file b = Some l' /\ holds buf' l' /\ resolve_date ymd_mjd buf' = Ok (Some start).
Proof.
  induction fuel as [|fuel IH]; intros cmjd buf s r a l O N H D E; cbn [seek_day] in E.
  - destruct (Z.eqb_spec cmjd start) as [->|]; [|discriminate]. injection E as <-. intros _. exists a, l. auto.
  - destruct (Z.eqb_spec cmjd start) as [->|_]; [injection E as <-; intros _; exists a, l; auto|].
    destruct (getline MAX_SW_CHARS s) as [t s1] eqn:EG. pose proof (read_line _ _ _ _ O EG) as R.
    destruct (nth_error file (S a)) as [l1|] eqn:E1.
    + destruct R as (-> & OK & O1). rewrite OK in E. destruct (buffer_line buf l1) as (st & B1).
      destruct (resolve_date ymd_mjd (into_buffer buf l1)) as [[d|]|] eqn:ED; [| |discriminate].
      * pose proof (IH d (into_buffer buf l1) s1 r (S a) l1 O1 E1 (ex_intro _ st B1) ED E) as X. destruct r as [[e b'] s'].
        intros E0. destruct (X E0) as (b & l' & Q & REST). exists b, l'. split; [lia|exact REST].
      * injection E as <-. discriminate.
    + destruct R as (-> & OK & O1 & _). rewrite OK in E. injection E as <-. discriminate.
Qed.

Lemma read_days_spec start : forall k i buf s win win' pos' a l, on_line (S a) s -> nth_error file a = Some l -> holds buf l ->
  resolve_date ymd_mjd buf = Ok (Some (start + Z.of_nat i)%Z) -> Forall (fun x => length (fx_ap x) = 8) win ->
  read_days ymd_mjd k i f start buf s win = Ok (0%Z, win', pos') ->
  aligned pos' /\ length win' = length win /\ Forall (fun x => length (fx_ap x) = 8) win' /\
  exists n, n <= k /\ (0 < k -> 0 < n) /\ (n = k \/ a + n = length file) /\
    (forall j, j < n -> exists l fl, nth_error file (a + j) = Some l /\ nth_error win' (i + j) = Some fl /\ row_of (cstr l) fl /\ fx_mjd fl = (start + Z.of_nat (i + j))%Z) /\
    (forall j, j < i \/ i + n <= j -> nth_error win' j = nth_error win j).
Proof.
  induction k as [|k IH]; intros i buf s win win' pos' a l O N H D AP E; cbn [read_days] in E.
  - injection E as <- <-. split; [exact (tell_aligned _ _ O)|]. split; [reflexivity|]. split; [exact AP|].
    exists 0. split; [lia|]. split; [lia|]. split; [left; reflexivity|]. split; [intros j J; lia|reflexivity].
  - unfold load in E. destruct (nth_error win i) as [fl|] eqn:EW; [|discriminate]. cbn [of_option obind] in E.
    destruct (resolve_records ymd_mjd buf fl) as [[code fl']|] eqn:ER; [|discriminate]. cbn [obind] in E.
    assert (LI : i < length win) by (apply nth_error_Some; rewrite EW; discriminate).
    destruct (store_ok win i fl' LI) as (w1 & ES & LW & NW). rewrite ES in E. cbn [obind] in E.
    destruct (Z.eqb_spec code 0) as [->|]; cbn [negb] in E; [|discriminate].
    destruct H as (st & HB). subst buf.
    assert (LAP : length (fx_ap fl) = 8) by (rewrite Forall_forall in AP; apply AP; eapply nth_error_In; exact EW).
    destruct (resolve_sound_mem _ _ _ _ (cstr_is_no_nul l) LAP ER) as (RO & LAP' & LC).
    pose proof (row_date _ _ _ _ RO LC D) as RD.
    assert (AP1 : Forall (fun x => length (fx_ap x) = 8) w1).
    { apply Forall_forall. intros x IN. apply In_nth_error in IN. destruct IN as (j & IN). rewrite NW in IN. destruct (Nat.eqb j i); [injection IN as <-; exact LAP'|].
      rewrite Forall_forall in AP. apply AP. eapply nth_error_In; exact IN. }
    destruct (getline MAX_SW_CHARS s) as [t s1] eqn:EG. pose proof (read_line _ _ _ _ O EG) as R.
    destruct (nth_error file (S a)) as [l1|] eqn:E1.
    + destruct R as (-> & OK & O1). rewrite OK in E. destruct (buffer_line (cstr l ++ nul :: st) l1) as (st1 & B1).
      destruct (resolve_date ymd_mjd (into_buffer (cstr l ++ nul :: st) l1)) as [d|] eqn:ED; [|discriminate]. cbn [obind] in E.
      destruct (Z.eqb_spec (match d with Some d => d | None => (start + Z.of_nat i)%Z end) (start + Z.of_nat (S i))) as [DE|]; cbn [negb] in E; [|discriminate].
      destruct d as [d|]; [|lia]. subst d.
      destruct (IH (S i) _ s1 w1 win' pos' (S a) l1 O1 E1 (ex_intro _ st1 B1) ED AP1 E) as (AL & L' & AP' & n & Hn & _ & FIN & ROWS & KEEP).
      split; [exact AL|]. split; [lia|]. split; [exact AP'|]. exists (S n). split; [lia|]. split; [lia|]. split; [destruct FIN; [left|right]; lia|]. split.
      * intros j J. destruct j as [|j].
        { rewrite !Nat.add_0_r. exists l, fl'. split; [exact N|]. split; [rewrite KEEP by lia; rewrite NW, Nat.eqb_refl; reflexivity|]. split; [exact RO|exact RD]. }
        { destruct (ROWS j ltac:(lia)) as (l2 & fl2 & A & B & C & D2). exists l2, fl2. replace (a + S j) with (S a + j) by lia. replace (i + S j) with (S i + j) by lia. auto. }
      * intros j J. rewrite KEEP by lia. rewrite NW. destruct (Nat.eqb_spec j i); [lia|reflexivity].
    + destruct R as (-> & OK & O1 & FIN). rewrite OK in E. injection E as <- <-.
      split; [exact aligned_0|]. split; [exact LW|]. split; [exact AP1|]. exists 1. split; [lia|]. split; [lia|]. split; [right; lia|]. split.
      * intros j J. assert (j = 0) by lia. subst j. rewrite !Nat.add_0_r. exists l, fl'. split; [exact N|]. split; [rewrite NW, Nat.eqb_refl; reflexivity|]. split; [exact RO|exact RD].
      * intros j J. rewrite NW. destruct (Nat.eqb_spec j i); [lia|reflexivity].
Qed.

(* days read into win' from the consecutive lines a, a + 1, .. of the file *)
Definition days_from (start : Z) (a n : nat) (win win' : list flux) : Prop :=
  (forall j, j < n -> exists l fl, nth_error file (a + j) = Some l /\ nth_error win' j = Some fl /\ row_of (cstr l) fl /\ fx_mjd fl = (start + Z.of_nat j)%Z) /\
  (forall j, n <= j -> nth_error win' j = nth_error win j).

Lemma parse_open_spec retry junk pos mjd before after win win' pos' : aligned pos -> Forall (fun x => length (fx_ap x) = 8) win ->
  parse_open ymd_mjd retry f junk pos mjd before after win = Some (Ok (0%Z, win', pos')) ->
  retry = Some (Ok (0%Z, win', pos')) \/
  (aligned pos' /\ length win' = length win /\ Forall (fun x => length (fx_ap x) = 8) win' /\
   exists a n, 0 < a /\ n <= before + 1 + after /\ 0 < n /\ (n = before + 1 + after \/ a + n = length file) /\
     days_from (mjd - Z.of_nat before) a n win win').
Proof.
  intros (i0 & AL) AP E. unfold parse_open in E. destruct (seek_line i0 pos AL) as (O0 & P0).
  set (start := (mjd - Z.of_nat before)%Z) in *.
  (* the stream, the array and the number of the first data line *)
  assert (X : exists head_ok buf s0 i1, read_header f junk pos = (head_ok, buf, s0) /\ (head_ok = true -> on_line i1 s0 /\ 0 < i1)).
  { unfold read_header. destruct (Z.eqb_spec pos 0) as [->|NZ].
    - assert (i0 = 0) by (apply P0; reflexivity). subst i0. destruct (getline MAX_SW_CHARS (seek f 0)) as [t s1] eqn:EG. pose proof (read_line _ _ _ _ O0 EG) as R.
      eexists _, _, _, 1. split; [reflexivity|]. intros HO. apply andb_true_iff in HO. destruct HO as [OK _].
      destruct (nth_error file 0); [destruct R as (_ & _ & O1); split; [exact O1|lia]|]. destruct R as (_ & B & _). congruence.
    - eexists _, _, _, i0. split; [reflexivity|]. intros _. split; [exact O0|]. destruct i0; [exfalso; apply NZ, P0; reflexivity|lia]. }
  destruct X as (head_ok & buf & s0 & i1 & EX & O1). rewrite EX in E. clear EX.
  destruct head_ok; cbn [negb] in E; [|discriminate]. destruct (O1 eq_refl) as [O1' I1]. clear O1. rename O1' into O1.
  destruct (getline MAX_SW_CHARS s0) as [t s1] eqn:EG.
  pose proof (read_line _ _ _ _ O1 EG) as R.
  destruct (nth_error file i1) as [l|] eqn:EN.
  2: { destruct R as (-> & _ & _ & _). destruct (resolve_date ymd_mjd (into_buffer buf [])) as [d|] eqn:ED; [|discriminate].
    unfold resolve_date in ED. destruct (Nat.ltb _ _); [discriminate|]. injection ED as ED. unfold into_buffer in ED. cbn [app length firstn] in ED.
    change (from_chars_int (nul :: _)) with (@None (Z * nat)) in ED. subst d. discriminate. }
  destruct R as (-> & OK & O2). destruct (buffer_line buf l) as (st & B1).
  destruct (resolve_date ymd_mjd (into_buffer buf l)) as [[d|]|] eqn:ED; [| discriminate | discriminate].
  destruct (d >? start)%Z eqn:EGT.
  { destruct (pos =? 0)%Z; [discriminate|]. left. exact E. }
  right. destruct (seek_day ymd_mjd _ start d _ s1) as [[[[e buf2] s2]|]|] eqn:ES; [| discriminate | discriminate].
  destruct (Z.eqb_spec e 0) as [->|NE]; cbn [negb] in E.
  2: { injection E as E _ _. destruct (s_eof s2); [discriminate|congruence]. }
  destruct (seek_day_spec start _ _ _ _ _ i1 l O2 EN (ex_intro _ st B1) ED ES eq_refl) as (b & lb & Hb & Ob & Nb & Hob & Db).
  assert (E' : read_days ymd_mjd (before + 1 + after) 0 f start buf2 s2 win = Ok (0%Z, win', pos')) by congruence.
  replace start with (start + Z.of_nat 0)%Z in Db by lia.
  destruct (read_days_spec start _ 0 buf2 s2 win win' pos' b lb Ob Nb Hob Db AP E') as (A1 & A2 & A3 & n & N1 & N2 & N3 & N4 & N5).
  split; [exact A1|]. split; [exact A2|]. split; [exact A3|]. exists b, n. split; [lia|]. split; [exact N1|]. split; [apply N2; lia|]. split; [exact N3|].
  split; [exact N4|]. intros j J. apply N5. lia.
Qed.

Lemma parse_spec junk junk2 pos mjd before after win win' pos' : aligned pos -> Forall (fun x => length (fx_ap x) = 8) win ->
  parse ymd_mjd (Some f) junk junk2 pos mjd before after win = Some (Ok (0%Z, win', pos')) ->
  aligned pos' /\ length win' = length win /\ Forall (fun x => length (fx_ap x) = 8) win' /\
  exists a n, 0 < a /\ n <= before + 1 + after /\ 0 < n /\ (n = before + 1 + after \/ a + n = length file) /\
    days_from (mjd - Z.of_nat before) a n win win'.
Proof.
  intros AL AP E. unfold parse in E. destruct (parse_open_spec _ _ _ _ _ _ _ _ _ AL AP E) as [X|X]; [|exact X].
  destruct (parse_open_spec _ _ _ _ _ _ _ _ _ aligned_0 AP X) as [Y|Y]; [discriminate|exact Y].
Qed.

(* ---- tables: the header and one full line for each of consecutive days ---- *)
Definition names : list string := ["DATE"; "BSRN"; "ND"; "KP1"; "KP2"; "KP3"; "KP4"; "KP5"; "KP6"; "KP7"; "KP8"; "KP_SUM";
  "AP1"; "AP2"; "AP3"; "AP4"; "AP5"; "AP6"; "AP7"; "AP8"; "AP_AVG"; "CP"; "C9"; "ISN"; "F10.7_OBS"; "F10.7_ADJ"; "F10.7_DATA_TYPE";
  "F10.7_OBS_CENTER81"; "F10.7_OBS_LAST81"; "F10.7_ADJ_CENTER81"; "F10.7_ADJ_LAST81"]%string.
Definition names_line : chars := list_ascii_of_string (String.concat "," names).
Definition header_line (h : chars) : Prop := exists tail, cstr h = names_line ++ tail.
Definition day_line (d : Z) (l : chars) : Prop := full_line (cstr l) /\ exists y m dd, dated (cstr l) y m dd /\ ymd_mjd y m dd = d.
Definition table (d0 dn : Z) : Prop :=
  (exists h, nth_error file 0 = Some h /\ header_line h) /\ (1 < length file) /\ dn = (d0 + Z.of_nat (length file) - 2)%Z /\
  forall j l, nth_error file (S j) = Some l -> day_line (d0 + Z.of_nat j) l.

Lemma names_header : names_line = header.
Proof. vm_compute. reflexivity. Qed.

Lemma day_line_date d l buf : day_line d l -> holds buf l -> resolve_date ymd_mjd buf = Ok (Some d).
Proof.
  intros (F & y & m & dd & (a & b & c & E1 & E2 & E3) & <-) (st & ->). destruct F as (_ & _ & L31 & _). pose proof (columns_length (cstr l)).
  rewrite resolve_date_long by lia. rewrite E1, E2, E3. reflexivity.
Qed.

Lemma getline_512_shrinks s t s' : getline MAX_SW_CHARS s = (t, s') -> s_good s = true -> length (s_rest s') < length (s_rest s) \/ s_good s' = false.
Proof.
  unfold getline, MAX_SW_CHARS. intros E G. rewrite G in E. change (512 - 1) with 511 in E. destruct (take_line 511 (s_rest s)) as [[a b] e] eqn:T.
  injection E as <- <-. cbn [s_rest]. destruct (s_rest s) as [|c l] eqn:SR.
  - right. cbn in T. injection T as <- <- <-. reflexivity.
  - left. apply (take_line_shorter _ 510 a b e T). discriminate.
Qed.
Lemma seek_day_ends start : forall fuel cmjd buf s, (length (s_rest s) + 2 <= fuel \/ (s_good s = false /\ 1 <= fuel)) ->
  exists r, seek_day ymd_mjd fuel start cmjd buf s = Some r.
Proof.
  induction fuel as [|fuel IH]; intros cmjd buf s H; [lia|]. cbn [seek_day]. destruct (cmjd =? start)%Z; [eauto|].
  destruct (getline MAX_SW_CHARS s) as [t s'] eqn:EG. destruct (s_ok s') eqn:OK; [|eauto].
  destruct (resolve_date _ _) as [[d|]|]; [|eauto|eauto]. apply IH.
  destruct (s_good s) eqn:G.
  - destruct (getline_512_shrinks s t s' EG G) as [A|B]; [left; destruct H as [H|[H _]]; [lia|discriminate]|]. right. split; [exact B|]. destruct H as [H|[H _]]; [lia|discriminate].
  - unfold getline in EG. rewrite G in EG. injection EG as <- <-. discriminate.
Qed.

Lemma into_buffer_len buf t n : n <= length buf -> n <= length (into_buffer buf t).
Proof. intros H. unfold into_buffer. rewrite app_length. cbn [length]. rewrite skipn_length. lia. Qed.
Lemma empty_date buf : 10 <= length buf -> resolve_date ymd_mjd (into_buffer buf []) = Ok None.
Proof.
  intros H. unfold resolve_date. destruct (Nat.ltb_spec (length (into_buffer buf [])) 10) as [L|_]; [pose proof (into_buffer_len buf [] 10 H); lia|].
  unfold into_buffer. cbn [app firstn]. change (from_chars_int (nul :: _)) with (@None (Z * nat)). reflexivity.
Qed.

Lemma header_read buf : header_line buf -> firstn (length header) (cstr buf) = header.
Proof. intros (tail & ->). rewrite <- names_header. rewrite firstn_app, firstn_all, Nat.sub_diag. cbn [firstn]. apply app_nil_r. Qed.

Lemma table_seek d0 dn start : table d0 dn -> forall fuel a l buf s, on_line (S a) s -> 0 < a -> nth_error file a = Some l -> holds buf l -> 10 <= length buf ->
  (d0 + Z.of_nat a - 1 <= start)%Z -> (length (s_rest s) + 2 <= fuel \/ (s_good s = false /\ 1 <= fuel)) ->
  ((start <= dn)%Z -> exists b lb buf' s', seek_day ymd_mjd fuel start (d0 + Z.of_nat a - 1) buf s = Some (Ok (0%Z, buf', s')) /\ on_line (S b) s' /\ 0 < b /\
     nth_error file b = Some lb /\ holds buf' lb /\ 10 <= length buf' /\ start = (d0 + Z.of_nat b - 1)%Z) /\
  ((dn < start)%Z -> exists e buf' s', seek_day ymd_mjd fuel start (d0 + Z.of_nat a - 1) buf s = Some (Ok (e, buf', s')) /\ e <> 0%Z).
Proof.
  intros (_ & LF & DN & ROWS). induction fuel as [|fuel IH]; intros a l buf s O A N H LB C F; [lia|].
  assert (AL : a < length file) by (apply nth_error_Some; rewrite N; discriminate).
  cbn [seek_day]. destruct (Z.eqb_spec (d0 + Z.of_nat a - 1) start) as [E|NE].
  - split; [intros _|lia]. exists a, l, buf, s. split; [reflexivity|]. split; [exact O|]. split; [lia|]. split; [exact N|]. split; [exact H|]. split; [exact LB|lia].
  - destruct (getline MAX_SW_CHARS s) as [t s'] eqn:EG. pose proof (read_line _ _ _ _ O EG) as R.
    destruct (nth_error file (S a)) as [l1|] eqn:E1.
    + destruct R as (-> & OK & O1). rewrite OK. destruct (buffer_line buf l1) as (st & B1).
      rewrite (day_line_date _ _ _ (ROWS _ _ E1) (ex_intro _ st B1)).
      assert (F' : length (s_rest s') + 2 <= fuel \/ s_good s' = false /\ 1 <= fuel).
      { destruct (s_good s) eqn:G.
        - destruct (getline_512_shrinks s l1 s' EG G) as [X|X]; destruct F as [F|[F _]]; try discriminate; [left; lia|right; split; [exact X|lia]].
        - unfold getline in EG. rewrite G in EG. injection EG as <- <-. discriminate. }
      pose proof (IH (S a) l1 (into_buffer buf l1) s' O1 ltac:(lia) E1 (ex_intro _ st B1) (into_buffer_len _ _ _ LB) ltac:(lia) F') as [I1 I2].
      replace (d0 + Z.of_nat a)%Z with (d0 + Z.of_nat (S a) - 1)%Z by lia. split; [exact I1|exact I2].
    + destruct R as (-> & OK & O1 & FIN). rewrite OK. split; [intros; lia|]. intros _. do 3 eexists. split; [reflexivity|discriminate].
Qed.

Lemma table_read_days d0 dn start : table d0 dn -> forall k i buf s win a l, on_line (S a) s -> 0 < a -> nth_error file a = Some l -> holds buf l -> 10 <= length buf ->
  (start + Z.of_nat i = d0 + Z.of_nat a - 1)%Z -> a + k <= length file -> i + k <= length win -> Forall (fun x => length (fx_ap x) = 8) win ->
  exists win' pos', read_days ymd_mjd k i f start buf s win = Ok (0%Z, win', pos').
Proof.
  intros (_ & LF & DN & ROWS). induction k as [|k IH]; intros i buf s win a l O A N H LB S LA LW AP; cbn [read_days]; [eauto|].
  unfold load. destruct (nth_error win i) as [fl|] eqn:EW; [|apply nth_error_None in EW; lia]. cbn [of_option obind].
  assert (LAP : length (fx_ap fl) = 8) by (rewrite Forall_forall in AP; apply AP; eapply nth_error_In; exact EW).
  destruct a as [|a]; [lia|]. pose proof (ROWS _ _ N) as DL. destruct H as (st & ->).
  destruct (resolve_complete_mem (cstr l) st fl (cstr_is_no_nul l) LAP (proj1 DL)) as (fl' & ER & RO & LAP'). rewrite ER. cbn [obind].
  destruct (store_ok win i fl' ltac:(lia)) as (w1 & ES & LW1 & NW). rewrite ES. cbn [obind Z.eqb negb].
  assert (AP1 : Forall (fun x => length (fx_ap x) = 8) w1).
  { apply Forall_forall. intros x IN. apply In_nth_error in IN. destruct IN as (j & IN). rewrite NW in IN. destruct (Nat.eqb j i); [injection IN as <-; exact LAP'|].
    rewrite Forall_forall in AP. apply AP. eapply nth_error_In; exact IN. }
  destruct (getline MAX_SW_CHARS s) as [t s1] eqn:EG. pose proof (read_line _ _ _ _ O EG) as R.
  destruct (nth_error file (Datatypes.S (Datatypes.S a))) as [l1|] eqn:E1.
  - destruct R as (-> & OK & O1). rewrite OK. destruct (buffer_line (cstr l ++ nul :: st) l1) as (st1 & B1).
    rewrite (day_line_date _ _ _ (ROWS _ _ E1) (ex_intro _ st1 B1)). cbn [obind].
    destruct (Z.eqb_spec (d0 + Z.of_nat (Datatypes.S a)) (start + Z.of_nat (Datatypes.S i))) as [_|X]; [|lia]. cbn [negb].
    apply (IH (Datatypes.S i) _ s1 w1 (Datatypes.S (Datatypes.S a)) l1 O1 ltac:(lia) E1 (ex_intro _ st1 B1) (into_buffer_len _ _ _ LB)); [lia|lia|lia|exact AP1].
  - destruct R as (-> & OK & O1 & FIN). rewrite OK. eauto.
Qed.

(* what a call on a table does, from line i0 on *)
Lemma table_open d0 dn retry junk i0 pos mjd before after win : table d0 dn -> at_pos i0 pos -> 10 <= length junk ->
  Forall (fun x => length (fx_ap x) = 8) win -> before + 1 + after <= length win ->
  (mjd + Z.of_nat after <= dn \/ dn < mjd - Z.of_nat before)%Z ->
  (pos <> 0%Z /\ parse_open ymd_mjd retry f junk pos mjd before after win = retry) \/
  exists code win' pos', parse_open ymd_mjd retry f junk pos mjd before after win = Some (Ok (code, win', pos')) /\ (code <> 0%Z -> win' = win /\ pos' = 0%Z) /\
    (code = 0%Z \/ (mjd - Z.of_nat before < d0)%Z \/ (dn < mjd - Z.of_nat before)%Z \/ length file <= i0).
Proof.
  intros T AL LJ AP LW RANGE. pose proof T as ((h & H0 & HH) & LF & DN & ROWS). unfold parse_open.
  set (start := (mjd - Z.of_nat before)%Z) in *. destruct (seek_line i0 pos AL) as (O0 & P0).
  assert (X : exists buf s0 i1, read_header f junk pos = (true, buf, s0) /\ on_line i1 s0 /\ 0 < i1 /\ 10 <= length buf /\
    (nth_error file i1 = None -> length file <= i0) /\ (pos = 0%Z -> i1 = 1)).
  { unfold read_header. destruct (Z.eqb_spec pos 0) as [->|NZ].
    - assert (i0 = 0) by (apply P0; reflexivity). subst i0. destruct (getline MAX_SW_CHARS (seek f 0)) as [t s1] eqn:EG. pose proof (read_line _ _ _ _ O0 EG) as R. rewrite H0 in R.
      destruct R as (-> & OK & O1). destruct (buffer_line junk h) as (st & B1).
      assert (HR : firstn (length header) (cstr (into_buffer junk h)) = header).
      { rewrite B1, cstr_no_nul by apply cstr_is_no_nul. apply header_read. exact HH. }
      rewrite OK, HR. destruct (list_eq_dec Ascii.ascii_dec header header); [|congruence]. exists (into_buffer junk h), s1, 1.
      split; [reflexivity|]. split; [exact O1|]. split; [lia|]. split; [apply into_buffer_len; exact LJ|]. split; [|reflexivity].
      intros NO. apply nth_error_None in NO. lia.
    - exists junk, (seek f pos), i0. split; [reflexivity|]. split; [exact O0|]. split; [destruct i0; [exfalso; apply NZ, P0; reflexivity|lia]|].
      split; [exact LJ|]. split; [|congruence]. intros NO. apply nth_error_None in NO. exact NO. }
  destruct X as (buf & s0 & i1 & -> & O1 & I1 & LB & EOFC & FIRST). cbn [negb].
  destruct (getline MAX_SW_CHARS s0) as [t s1] eqn:EG. pose proof (read_line _ _ _ _ O1 EG) as R.
  destruct (nth_error file i1) as [l|] eqn:EN.
  2: { right. destruct R as (-> & _ & _ & _). rewrite empty_date by exact LB. do 3 eexists. split; [reflexivity|]. split; [intros _; split; reflexivity|].
       right. right. right. apply EOFC. reflexivity. }
  clear EOFC. destruct R as (-> & OK & O2). destruct (buffer_line buf l) as (st & B1). destruct i1 as [|j1]; [lia|].
  rewrite (day_line_date _ _ _ (ROWS _ _ EN) (ex_intro _ st B1)).
  destruct (Z.gtb_spec (d0 + Z.of_nat j1) start) as [GT|LE].
  { destruct (Z.eqb_spec pos 0) as [->|NZ]; [|left; split; [exact NZ|reflexivity]]. right. do 3 eexists. split; [reflexivity|]. split; [intros _; split; reflexivity|].
    specialize (FIRST eq_refl). right. left. replace j1 with 0 in GT by lia. lia. }
  right. destruct (table_seek d0 dn start T (length (s_rest s1) + 2) (S j1) l (into_buffer buf l) s1 O2 ltac:(lia) EN (ex_intro _ st B1) (into_buffer_len _ _ _ LB)) as [S1 S2]; [lia|left; lia|].
  replace (d0 + Z.of_nat j1)%Z with (d0 + Z.of_nat (S j1) - 1)%Z by lia.
  destruct (Z.le_gt_cases start dn) as [INS|OUT].
  - destruct (S1 INS) as (b & lb & buf' & s' & -> & Ob & Hb & Nb & Hob & LB' & EB). cbn [Z.eqb negb].
    destruct RANGE as [RANGE|RANGE]; [|lia].
    destruct (table_read_days d0 dn start T (before + 1 + after) 0 buf' s' win b lb Ob Hb Nb Hob LB') as (win' & pos' & ER); [lia|unfold start in *; lia|lia|exact AP|].
    rewrite ER. do 3 eexists. split; [reflexivity|]. split; [congruence|left; reflexivity].
  - destruct (S2 OUT) as (e & buf' & s' & -> & NE). destruct (Z.eqb_spec e 0) as [|_]; [contradiction|]. cbn [negb].
    do 3 eexists. split; [reflexivity|]. split; [intros _; split; reflexivity|]. right. right. left. exact OUT.
Qed.

Lemma table_parse d0 dn junk junk2 i0 pos mjd before after win : table d0 dn -> at_pos i0 pos -> 10 <= length junk -> 10 <= length junk2 ->
  Forall (fun x => length (fx_ap x) = 8) win -> before + 1 + after <= length win ->
  (mjd + Z.of_nat after <= dn \/ dn < mjd - Z.of_nat before)%Z ->
  exists code win' pos', parse ymd_mjd (Some f) junk junk2 pos mjd before after win = Some (Ok (code, win', pos')) /\ aligned pos' /\ (code <> 0%Z -> win' = win) /\
    (code = 0%Z \/ (mjd - Z.of_nat before < d0)%Z \/ (dn < mjd - Z.of_nat before)%Z \/ length file <= i0).
Proof.
  intros T AL LJ LJ2 AP LW RANGE.
  assert (X : exists code win' pos', parse ymd_mjd (Some f) junk junk2 pos mjd before after win = Some (Ok (code, win', pos')) /\ (code <> 0%Z -> win' = win /\ pos' = 0%Z) /\
    (code = 0%Z \/ (mjd - Z.of_nat before < d0)%Z \/ (dn < mjd - Z.of_nat before)%Z \/ length file <= i0)).
  { unfold parse. destruct (table_open d0 dn (parse_open ymd_mjd None f junk2 0 mjd before after win) junk i0 pos mjd before after win T AL LJ AP LW RANGE) as [[_ ->]|X]; [|exact X].
    destruct (table_open d0 dn None junk2 0 0 mjd before after win T at_pos_0 LJ2 AP LW RANGE) as [[X _]|(c & w & p & E & A & B)]; [congruence|].
    exists c, w, p. split; [exact E|]. split; [exact A|]. destruct B as [B|[B|[B|B]]]; auto. destruct T as (_ & T & _). lia. }
  destruct X as (code & win' & pos' & E & A & B). exists code, win', pos'. split; [exact E|]. split; [|split; [intros N; apply A, N|exact B]].
  destruct (Z.eq_dec code 0) as [->|N]; [|rewrite (proj2 (A N)); exact aligned_0].
  exact (proj1 (parse_spec junk junk2 pos mjd before after win win' pos' (ex_intro _ i0 AL) AP E)).
Qed.

(* every call ends *)
Lemma parse_open_ends retry junk pos mjd before after win : (pos = 0%Z \/ exists r, retry = Some r) ->
  exists r, parse_open ymd_mjd retry f junk pos mjd before after win = Some r.
Proof.
  intros H. unfold parse_open. destruct (read_header f junk pos) as [[ok buf] s0]. destruct ok; cbn [negb]; [|eauto].
  destruct (getline MAX_SW_CHARS s0) as [t s1]. destruct (resolve_date ymd_mjd (into_buffer buf t)) as [[d|]|]; [|eauto|eauto].
  destruct (d >? mjd - Z.of_nat before)%Z.
  { destruct (Z.eqb_spec pos 0); [eauto|]. destruct H as [H|[r ->]]; [contradiction|eauto]. }
  destruct (seek_day_ends (mjd - Z.of_nat before) (length (s_rest s1) + 2) d (into_buffer buf t) s1) as [r ->]; [left; lia|].
  destruct r as [[[e b2] s2]|]; [|eauto]. destruct (negb (e =? 0)%Z); eauto.
Qed.
Lemma parse_ends junk junk2 pos mjd before after win : exists r, parse ymd_mjd (Some f) junk junk2 pos mjd before after win = Some r.
Proof. unfold parse. apply parse_open_ends. right. apply parse_open_ends. left. reflexivity. Qed.

(* after a failure the next call starts from the top *)
Lemma read_days_fail : forall k i start buf s win code win' pos', read_days ymd_mjd k i f start buf s win = Ok (code, win', pos') -> code <> 0%Z -> pos' = 0%Z.
Proof.
  induction k as [|k IH]; intros i start buf s win code win' pos' E N; cbn [read_days] in E; [injection E as <- _ _; congruence|].
  destruct (load win i) as [fl|]; [|discriminate]. cbn [obind] in E. destruct (resolve_records ymd_mjd buf fl) as [[c fl']|]; [|discriminate]. cbn [obind] in E.
  destruct (store win i fl') as [w|]; [|discriminate]. cbn [obind] in E. destruct (negb (c =? 0)%Z); [injection E as _ _ <-; reflexivity|].
  destruct (getline MAX_SW_CHARS s) as [t s']. destruct (s_ok s'); [|injection E as _ _ <-; reflexivity].
  destruct (resolve_date ymd_mjd (into_buffer buf t)) as [d|]; [|discriminate]. cbn [obind] in E.
  destruct (negb (_ =? _)%Z); [injection E as _ _ <-; reflexivity|]. exact (IH _ _ _ _ _ _ _ _ E N).
Qed.
Lemma parse_open_fail retry junk pos mjd before after win code win' pos' : parse_open ymd_mjd retry f junk pos mjd before after win = Some (Ok (code, win', pos')) -> code <> 0%Z ->
  pos' = 0%Z \/ retry = Some (Ok (code, win', pos')).
Proof.
  unfold parse_open. intros E N. destruct (read_header f junk pos) as [[ok buf] s0]. destruct ok; cbn [negb] in E; [|injection E as _ _ <-; auto].
  destruct (getline MAX_SW_CHARS s0) as [t s1]. destruct (resolve_date ymd_mjd (into_buffer buf t)) as [[d|]|]; [|injection E as _ _ <-; auto|discriminate].
  destruct (d >? mjd - Z.of_nat before)%Z.
  { destruct (pos =? 0)%Z; [injection E as _ _ <-; auto|auto]. }
  destruct (seek_day _ _ _ _ _ _) as [[[[e b2] s2]|]|]; [|discriminate|discriminate]. destruct (negb (e =? 0)%Z); [injection E as _ _ <-; auto|].
  left. injection E as E. exact (read_days_fail _ _ _ _ _ _ _ _ _ E N).
Qed.
Lemma parse_fail junk junk2 pos mjd before after win code win' pos' : parse ymd_mjd (Some f) junk junk2 pos mjd before after win = Some (Ok (code, win', pos')) -> code <> 0%Z -> pos' = 0%Z.
Proof.
  unfold parse. intros E N. destruct (parse_open_fail _ _ _ _ _ _ _ _ _ _ E N) as [->|E2]; [reflexivity|].
  destruct (parse_open_fail _ _ _ _ _ _ _ _ _ _ E2 N) as [->|E3]; [reflexivity|discriminate].
Qed.

(* ---- the history of the magnetic index, by time ---- *)
(* three-hourly value in force t seconds after the beginning of the window *)
Definition value_at (win : list flux) (t : Q) (v : Z) : Prop :=
  exists j, nth_error (flat_map fx_ap win) j = Some v /\ (inject_Z (10800 * Z.of_nat j) <= t < inject_Z (10800 * Z.of_nat (S j)))%Q.
Fixpoint total (v : nat -> Z) (a n : nat) : Z := match n with O => 0 | S m => (v a + total v (S a) m)%Z end.
(* what the density model is to be given at sec seconds of the last of the four days of the window *)
Definition history (win : list flux) (sec : Q) (p : params) : Prop :=
  exists d3 d2 v, nth_error win 3 = Some d3 /\ nth_error win 2 = Some d2 /\
    (forall n, n < 20 -> value_at win (inject_Z (3 * 86400) + sec - inject_Z (10800 * Z.of_nat n)) (v n)) /\
    p_f107A p = fx_obsc d3 /\ p_f107 p = fx_obs d2 /\ p_ap p = fx_apd d3 /\
    exists m1 m2, p_arr p = [fx_apd d3; inject_Z (v 0); inject_Z (v 1); inject_Z (v 2); inject_Z (v 3); m1; m2] /\
      (m1 * 8 == inject_Z (total v 4 8))%Q /\ (m2 * 8 == inject_Z (total v 12 8))%Q.
Definition slot (sec : Q) (k : Z) : Prop := (inject_Z (10800 * k) <= sec < inject_Z (10800 * (k + 1)))%Q.
Definition four_days (win : list flux) : Prop := length win = 4 /\ Forall (fun x => length (fx_ap x) = 8) win.

Lemma to_int_floor q z : (inject_Z z <= q < inject_Z (z + 1))%Q -> (0 <= z <= 2147483647)%Z -> to_int q = Ok z.
Proof.
  intros [A B] R. unfold to_int. assert (P : (0 <= q)%Q) by (apply Qle_trans with (inject_Z z); [change 0%Q with (inject_Z 0); rewrite <- Zle_Qle; lia|exact A]).
  apply Qle_bool_iff in P. rewrite P. assert (F : Qfloor q = z).
  { pose proof (Qfloor_le q) as F1. pose proof (Qlt_floor q) as F2.
    assert (inject_Z z < inject_Z (Qfloor q + 1))%Q by (apply Qle_lt_trans with q; assumption).
    assert (inject_Z (Qfloor q) < inject_Z (z + 1))%Q by (apply Qle_lt_trans with q; assumption). rewrite <- Zlt_Qlt in *. lia. }
  rewrite F. change INT_MAX with 2147483647%Z. change INT_MIN with (-2147483648)%Z. destruct (Z.gtb_spec z 2147483647); [lia|]. destruct (Z.ltb_spec z (-2147483648)); [lia|]. reflexivity.
Qed.
Lemma floor_bounds q : (inject_Z (Qfloor q) <= q < inject_Z (Qfloor q + 1))%Q.
Proof. split; [apply Qfloor_le|apply Qlt_floor]. Qed.
Lemma inj_le a b q : (inject_Z a <= q)%Q -> (q < inject_Z b)%Q -> (a < b)%Z.
Proof. intros A B. rewrite Zlt_Qlt. apply Qle_lt_trans with q; assumption. Qed.

Lemma hours_slot sec : (0 <= sec < 86400)%Q -> exists h k, ihours sec = Ok h /\ Z.quot h 3 = k /\ (0 <= k < 8)%Z /\ slot sec k.
Proof.
  intros [A B]. pose proof (floor_bounds sec) as [F1 F2]. set (z := Qfloor sec) in *.
  assert (Z1 : (-1 < z)%Z). { assert ((0 < z + 1)%Z) by (apply (inj_le 0 (z + 1) sec); [exact A|exact F2]). lia. }
  assert (Z2 : (z < 86400)%Z) by (apply (inj_le z 86400 sec); [exact F1|exact B]).
  exists (Z.quot z 3600), (z / 10800)%Z. unfold ihours. rewrite (to_int_floor sec z) by (split; [exact F1|exact F2] || lia). cbn [obind].
  split; [reflexivity|]. rewrite !Z.quot_div_nonneg by (try lia; apply Z.quot_pos; lia). rewrite Z.div_div by lia. split; [reflexivity|].
  pose proof (Z.div_mod z 10800 ltac:(lia)). pose proof (Z.mod_pos_bound z 10800 ltac:(lia)). split; [lia|].
  split.
  - apply Qle_trans with (inject_Z z); [rewrite <- Zle_Qle; lia|exact F1].
  - apply Qlt_le_trans with (inject_Z (z + 1)); [exact F2|rewrite <- Zle_Qle; lia].
Qed.
Lemma slot_unique sec k k' : slot sec k -> slot sec k' -> k = k'.
Proof. intros [A B] [C D]. pose proof (inj_le _ _ _ A D). pose proof (inj_le _ _ _ C B). lia. Qed.

Lemma eight (l : list Z) : length l = 8 -> exists a b c d e g h i, l = [a; b; c; d; e; g; h; i].
Proof. do 8 (destruct l as [|? l]; [discriminate|]). destruct l; [|discriminate]. intros _. do 8 eexists. reflexivity. Qed.
Lemma four {A} (l : list A) : length l = 4 -> exists a b c d, l = [a; b; c; d].
Proof. do 4 (destruct l as [|? l]; [discriminate|]). destruct l; [|discriminate]. intros _. do 4 eexists. reflexivity. Qed.

Lemma value_slot win sec k n v : slot sec k -> (n <= 24 + k)%Z -> (0 <= n)%Z -> nth_error (flat_map fx_ap win) (Z.to_nat (24 + k - n)) = Some v ->
  value_at win (inject_Z (3 * 86400) + sec - inject_Z (10800 * n)) v.
Proof.
  intros [A B] H P E. exists (Z.to_nat (24 + k - n)). split; [exact E|]. rewrite Nat2Z.inj_succ, Z2Nat.id by lia. split.
  - replace (10800 * (24 + k - n))%Z with (3 * 86400 + 10800 * k - 10800 * n)%Z by lia. unfold Z.sub. rewrite !inject_Z_plus, !inject_Z_opp. lra.
  - replace (10800 * Z.succ (24 + k - n))%Z with (3 * 86400 + 10800 * (k + 1) - 10800 * n)%Z by lia. unfold Z.sub. rewrite !inject_Z_plus in *. rewrite !inject_Z_opp. lra.
Qed.

Lemma init_spec win sec : four_days win -> (0 <= sec < 86400)%Q -> exists p chi, init win sec = Ok (p, chi) /\ slot sec chi /\ (0 <= chi < 8)%Z /\ history win sec p.
Proof.
  intros [L F] S. destruct (hours_slot sec S) as (h & k & EH & EK & K & SK).
  destruct (four win L) as (d0 & d1 & d2 & d3 & ->). inversion_clear F as [|? ? F0 F']. inversion_clear F' as [|? ? F1 F'']. inversion_clear F'' as [|? ? F2 F3]. inversion_clear F3 as [|? ? F4 _].
  destruct (eight _ F0) as (a0 & a1 & a2 & a3 & a4 & a5 & a6 & a7 & E0). destruct (eight _ F1) as (b0 & b1 & b2 & b3 & b4 & b5 & b6 & b7 & E1).
  destruct (eight _ F2) as (c0 & c1 & c2 & c3 & c4 & c5 & c6 & c7 & E2). destruct (eight _ F4) as (e0 & e1 & e2 & e3 & e4 & e5 & e6 & e7 & E3).
  set (all := [a0; a1; a2; a3; a4; a5; a6; a7; b0; b1; b2; b3; b4; b5; b6; b7; c0; c1; c2; c3; c4; c5; c6; c7; e0; e1; e2; e3; e4; e5; e6; e7]).
  assert (ALL : flat_map fx_ap [d0; d1; d2; d3] = all) by (cbn [flat_map]; rewrite E0, E1, E2, E3; reflexivity).
  assert (LA : length all = 32) by reflexivity.
  assert (HV : forall n, n < 20 -> value_at [d0; d1; d2; d3] (inject_Z (3 * 86400) + sec - inject_Z (10800 * Z.of_nat n)) (nth (Z.to_nat (24 + k) - n) all 0%Z)).
  { intros n Hn. apply (value_slot _ sec k); [exact SK|lia|lia|]. rewrite ALL. replace (Z.to_nat (24 + k - Z.of_nat n)) with (Z.to_nat (24 + k) - n) by lia.
    apply nth_error_nth'. lia. }
  assert (X : exists p, init [d0; d1; d2; d3] sec = Ok (p, k) /\ p_f107A p = fx_obsc d3 /\ p_f107 p = fx_obs d2 /\ p_ap p = fx_apd d3 /\
    let v n := nth (Z.to_nat (24 + k) - n) all 0%Z in
    exists m1 m2, p_arr p = [fx_apd d3; inject_Z (v 0); inject_Z (v 1); inject_Z (v 2); inject_Z (v 3); m1; m2] /\
      (m1 * 8 == inject_Z (total v 4 8))%Q /\ (m2 * 8 == inject_Z (total v 12 8))%Q).
  { unfold init. rewrite EH. cbn [obind load nth_error of_option]. rewrite EK.
    assert (KK : In k [0; 1; 2; 3; 4; 5; 6; 7]%Z) by (cbn [In]; lia). clear - KK E0 E1 E2 E3.
    destruct d0, d1, d2, d3. cbn [SpaceWeather_model.fx_ap] in E0, E1, E2, E3. subst.
    cbn [In] in KK. repeat (destruct KK as [<-|KK]; [|]); [..|contradiction];
      (match goal with |- exists p, ?t = Ok (p, _) /\ _ => let r := eval cbv -[Qplus Qdiv inject_Z] in t in change t with r end;
       eexists; split; [reflexivity|]; cbn [p_f107A p_f107 p_ap p_arr]; split; [reflexivity|]; split; [reflexivity|]; split; [reflexivity|];
       repeat match goal with |- context [Z.to_nat ?x] => let r := eval vm_compute in (Z.to_nat x) in change (Z.to_nat x) with r end;
       unfold all; cbn [nth total Nat.sub]; do 2 eexists; split; [reflexivity|]; rewrite !inject_Z_plus; split; field; discriminate). }
  destruct X as (p & EI & P1 & P2 & P3 & m1 & m2 & P4 & P5 & P6).
  exists p, k. split; [exact EI|]. split; [exact SK|]. split; [exact K|]. exists d3, d2, (fun n => nth (Z.to_nat (24 + k) - n) all 0%Z).
  split; [reflexivity|]. split; [reflexivity|]. split; [exact HV|]. split; [exact P1|]. split; [exact P2|]. split; [exact P3|]. exists m1, m2. split; [exact P4|]. split; [exact P5|exact P6].
Qed.

Lemma history_slot win sec sec' k p : slot sec k -> slot sec' k -> history win sec p -> history win sec' p.
Proof.
  intros [A B] [A' B'] (d3 & d2 & v & N3 & N2 & HV & REST). exists d3, d2, v. split; [exact N3|]. split; [exact N2|]. split; [|exact REST].
  intros n Hn. destruct (HV n Hn) as (j & E & J1 & J2). exists j. split; [exact E|].
  assert (X : Z.of_nat j = (24 + k - Z.of_nat n)%Z).
  { assert (Y1 : (inject_Z (10800 * Z.of_nat j) < inject_Z (3 * 86400 + 10800 * (k + 1) - 10800 * Z.of_nat n))%Q).
    { unfold Z.sub. rewrite !inject_Z_plus, !inject_Z_opp in *. rewrite ?inject_Z_plus in *. lra. }
    assert (Y2 : (inject_Z (3 * 86400 + 10800 * k - 10800 * Z.of_nat n) < inject_Z (10800 * Z.of_nat (S j)))%Q).
    { unfold Z.sub. rewrite !inject_Z_plus, !inject_Z_opp in *. rewrite ?inject_Z_plus in *. lra. }
    rewrite <- Zlt_Qlt in Y1, Y2. lia. }
  split.
  - rewrite X. replace (10800 * (24 + k - Z.of_nat n))%Z with (3 * 86400 + 10800 * k - 10800 * Z.of_nat n)%Z by lia. unfold Z.sub. rewrite !inject_Z_plus, !inject_Z_opp. lra.
  - rewrite Nat2Z.inj_succ, X. replace (10800 * Z.succ (24 + k - Z.of_nat n))%Z with (3 * 86400 + 10800 * (k + 1) - 10800 * Z.of_nat n)%Z by lia. unfold Z.sub. rewrite !inject_Z_plus in *. rewrite !inject_Z_opp. lra.
Qed.

(* ---- the feed ---- *)
(* the four consecutive days of the file ending on day *)
Definition days_ending (day : Z) (win : list flux) : Prop :=
  four_days win /\ forall j, j < 4 -> exists l fl, In l file /\ nth_error win j = Some fl /\ row_of (cstr l) fl /\ fx_mjd fl = (day - 3 + Z.of_nat j)%Z.
Definition in_sync (fd : feed) (p : params) : Prop :=
  aligned (fd_pos fd) /\ days_ending (fd_mjd fd) (fd_win fd) /\
  exists sec, (0 <= sec < 86400)%Q /\ slot sec (fd_chi fd) /\ history (fd_win fd) sec p.
(* an update to the given second of the given day that has succeeded *)
Definition now_at (day : Z) (sec : Q) (fd : feed) (p : params) : Prop :=
  fd_mjd fd = day /\ slot sec (fd_chi fd) /\ history (fd_win fd) sec p.
Definition same_feed (fd fd' : feed) : Prop := fd_mjd fd' = fd_mjd fd /\ fd_win fd' = fd_win fd /\ fd_chi fd' = fd_chi fd.

Lemma zero_days sec : (0 <= sec < 86400)%Q -> to_int (sec / 86400) = Ok 0%Z.
Proof.
  intros [A B]. apply to_int_floor; [|lia]. split.
  - apply Qle_shift_div_l; [reflexivity|]. change (inject_Z 0) with 0%Q. lra.
  - apply Qlt_shift_div_r; [reflexivity|]. change (inject_Z (0 + 1)) with 1%Q. lra.
Qed.

Lemma full_days day a win win' : four_days win' -> days_from (day - 3) a 4 win win' -> days_ending day win'.
Proof.
  intros F [D _]. split; [exact F|]. intros j Hj. destruct (D j Hj) as (l & fl & N & W & R & M). exists l, fl. split; [exact (nth_error_In _ _ N)|]. split; [exact W|]. split; [exact R|exact M].
Qed.

Lemma next_days day win fl l : days_ending day win -> In l file -> row_of (cstr l) fl -> length (fx_ap fl) = 8 -> fx_mjd fl = (day + 1)%Z ->
  days_ending (day + 1) (skipn 1 win ++ [fl]).
Proof.
  intros ((L & F) & D) I R AP M. destruct (four win L) as (a & b & c & d & ->). cbn [skipn app].
  inversion_clear F as [|? ? _ F']. split; [split; [reflexivity|]|].
  - inversion_clear F' as [|? ? F1 F2]. inversion_clear F2 as [|? ? F3 F4]. inversion_clear F4 as [|? ? F5 _]. repeat constructor; assumption.
  - intros j Hj. destruct j as [|[|[|[|j]]]]; [| | | |lia].
    + destruct (D 1 ltac:(lia)) as (l1 & f1 & A & B & C & E). exists l1, f1. split; [exact A|]. split; [exact B|]. split; [exact C|]. rewrite E. lia.
    + destruct (D 2 ltac:(lia)) as (l1 & f1 & A & B & C & E). exists l1, f1. split; [exact A|]. split; [exact B|]. split; [exact C|]. rewrite E. lia.
    + destruct (D 3 ltac:(lia)) as (l1 & f1 & A & B & C & E). exists l1, f1. split; [exact A|]. split; [exact B|]. split; [exact C|]. rewrite E. lia.
    + exists l, fl. split; [exact I|]. split; [reflexivity|]. split; [exact R|]. rewrite M. lia.
Qed.

Lemma get_next_spec junk junk2 fresh pos day win code win' pos' : aligned pos -> length (fx_ap fresh) = 8 -> days_ending day win ->
  get_next ymd_mjd (Some f) junk junk2 fresh pos (day + 1) win = Some (Ok (code, win', pos')) ->
  aligned pos' /\ (code = 0%Z -> days_ending (day + 1) win') /\ (code <> 0%Z -> win' = win /\ pos' = 0%Z).
Proof.
  intros AL FR D E. unfold get_next in E. destruct (parse ymd_mjd (Some f) junk junk2 pos (day + 1) 0 0 [fresh]) as [[[[c new] p]|]|] eqn:EP; [|discriminate|discriminate].
  destruct (Z.eqb_spec c 0) as [->|NZ]; cbn [negb] in E.
  - destruct (parse_spec _ _ _ _ _ _ _ _ _ AL (Forall_cons _ FR (Forall_nil _)) EP) as (A & LW & AP & a & n & A1 & N1 & N2 & _ & DF).
    destruct new as [|fl [|]]; [discriminate| |discriminate]. injection E as <- <- <-. split; [exact A|]. split; [|congruence]. intros _.
    destruct DF as [DF _]. destruct (DF 0 N2) as (l & fl' & I & W & R & M). injection W as <-. inversion_clear AP as [|? ? AP1 _].
    apply (next_days day win fl l D (nth_error_In _ _ I) R AP1). rewrite M. lia.
  - pose proof (parse_fail _ _ _ _ _ _ _ _ _ _ EP NZ) as ->. injection E as <- <- <-. split; [exact aligned_0|]. split; [congruence|]. intros _. split; reflexivity.
Qed.

(* one update; jumps on tables only *)
Definition may_jump (fd : feed) (day : Z) : Prop :=
  exists d0 dn, table d0 dn /\ (day <= dn \/ dn < day - 3)%Z.
Lemma update_step junk junk2 fresh day sec fd p code fd' p' : in_sync fd p -> length (fx_ap fresh) = 8 -> (0 <= sec < 86400)%Q ->
  10 <= length junk -> 10 <= length junk2 ->
  (day = fd_mjd fd \/ day = (fd_mjd fd + 1)%Z \/ may_jump fd day) ->
  update ymd_mjd (Some f) junk junk2 fresh day sec fd p = Some (Ok (code, fd', p')) ->
  in_sync fd' p' /\ (code = 0%Z -> now_at day sec fd' p') /\ (code <> 0%Z -> same_feed fd fd' /\ p' = p /\ fd_pos fd' = 0%Z).
Proof.
  intros (AL & DE & s0 & S0 & SL & HI) FR S LJ LJ2 DAY E. pose proof DE as (FD & _). unfold update in E. rewrite (zero_days sec S), Z.add_0_r in E.
  destruct (Z.eqb_spec day (fd_mjd fd)) as [->|ND].
  - destruct (hours_slot sec S) as (h & k & EH & EK & K & SK). injection E as E. rewrite EH in E. cbn [obind] in E. rewrite EK in E.
    destruct (Z.eqb_spec k (fd_chi fd)) as [EC|NK]; [rewrite EC in SK|].
    + injection E as <- <- <-. split; [split; [exact AL|]; split; [exact DE|]; exists s0; split; [exact S0|]; split; [exact SL|exact HI]|].
      split; [|congruence]. intros _. split; [reflexivity|]. split; [exact SK|]. exact (history_slot _ _ _ _ _ SL SK HI).
    + destruct (init_spec (fd_win fd) sec FD S) as (p1 & chi & EI & SC & C & H). rewrite EI in E. cbn [obind] in E. injection E as <- <- <-.
      split; [split; [exact AL|]; split; [exact DE|]; exists sec; split; [exact S|]; split; [exact SC|exact H]|].
      split; [|congruence]. intros _. split; [reflexivity|]. split; [exact SC|exact H].
  - assert (X : exists win' pos' c, (if (fd_mjd fd + 1 =? day)%Z then get_next ymd_mjd (Some f) junk junk2 fresh (fd_pos fd) day (fd_win fd)
               else parse ymd_mjd (Some f) junk junk2 (fd_pos fd) day 3 0 (fd_win fd)) = Some (Ok (c, win', pos')) /\
               aligned pos' /\ (c = 0%Z -> days_ending day win') /\ (c <> 0%Z -> win' = fd_win fd /\ pos' = 0%Z)).
    { destruct (Z.eqb_spec (fd_mjd fd + 1) day) as [<-|NN].
      - destruct (get_next _ _ _ _ _ _ _ _) as [[[[c w] q]|]|] eqn:EN; [|discriminate|discriminate]. exists w, q, c. split; [reflexivity|]. exact (get_next_spec _ _ _ _ _ _ _ _ _ AL FR DE EN).
      - destruct DAY as [DAY|[DAY|DAY]]; [contradiction|lia|]. destruct DAY as (d0 & dn & T & RANGE). destruct FD as (L4 & AP). destruct AL as (i0 & AT).
        destruct (table_parse d0 dn junk junk2 i0 (fd_pos fd) day 3 0 (fd_win fd) T AT LJ LJ2 AP) as (c & w & q & EP & AQ & FW & _); [lia|lia|].
        exists w, q, c. split; [exact EP|]. split; [exact AQ|]. split; [|intros N; split; [exact (FW N)|exact (parse_fail _ _ _ _ _ _ _ _ _ _ EP N)]]. intros ->.
        pose proof EP as EP'. destruct (parse_spec _ _ _ _ _ _ _ _ _ (ex_intro _ i0 AT) AP EP') as (_ & LW & APW & a & n & A1 & N1 & N2 & N3 & DF).
        assert (n = 4); [|subst n; apply (full_days _ a (fd_win fd)); [split; [lia|exact APW]|exact DF]].
        destruct N3 as [->|N3]; [reflexivity|]. destruct (Nat.eq_dec n 4) as [|NE]; [assumption|exfalso].
        destruct DF as [DF _]. destruct (DF (n - 1) ltac:(lia)) as (l & fl & NL & _ & R & M). destruct T as (_ & LF & DN & ROWS).
        replace (a + (n - 1)) with (Datatypes.S (a + n - 2)) in NL by lia. destruct (ROWS _ _ NL) as (_ & y & m & dd & (y1 & y2 & y3 & Y1 & Y2 & Y3) & EY). destruct R as ((y' & m' & dd' & (z1 & z2 & z3 & Z1 & Z2 & Z3) & EZ) & _).
        assert (y = y' /\ m = m' /\ dd = dd') as (-> & -> & ->) by (rewrite Z1 in Y1; rewrite Z2 in Y2; rewrite Z3 in Y3; split; [congruence|split; congruence]).
        destruct RANGE as [RANGE|RANGE]; lia. }
    destruct X as (w & q & c & EX & AQ & XS & XF). rewrite EX in E. destruct (Z.eqb_spec c 0) as [C0|NZ]; cbn [negb] in E.
    + specialize (XS C0). injection E as E. destruct XS as (F4 & D4). destruct (init_spec w sec F4 S) as (p1 & chi & EI & SC & C & H). rewrite EI in E. cbn [obind] in E. injection E as <- <- <-.
      split; [split; [exact AQ|]; split; [split; [exact F4|exact D4]|]; exists sec; split; [exact S|]; split; [exact SC|exact H]|].
      split; [|congruence]. intros _. split; [reflexivity|]. split; [exact SC|exact H].
    + destruct (XF NZ) as (-> & ->). injection E as <- <- <-.
      split; [split; [exact AQ|]; split; [exact DE|]; exists s0; split; [exact S0|]; split; [exact SL|exact HI]|].
      split; [congruence|]. intros _. split; [repeat split|]. split; reflexivity.
Qed.

(* on a table every update is defined, and one from the top to a day of the table succeeds *)
Lemma update_defined d0 dn junk junk2 fresh day sec fd p : table d0 dn -> in_sync fd p -> length (fx_ap fresh) = 8 -> (0 <= sec < 86400)%Q ->
  10 <= length junk -> 10 <= length junk2 -> (day <= dn \/ dn < day - 3)%Z ->
  exists code fd' p', update ymd_mjd (Some f) junk junk2 fresh day sec fd p = Some (Ok (code, fd', p')) /\
    (fd_pos fd = 0%Z -> (d0 + 3 <= day <= dn)%Z -> code = 0%Z).
Proof.
  intros T (AL & DE & s0 & S0 & SL & HI) FR S LJ LJ2 RANGE. pose proof DE as ((L4 & AP) & _). unfold update. rewrite (zero_days sec S), Z.add_0_r.
  destruct (Z.eqb_spec day (fd_mjd fd)) as [->|ND].
  - destruct (hours_slot sec S) as (h & k & EH & EK & K & SK). rewrite EH. cbn [obind]. rewrite EK. destruct (Z.eqb_spec k (fd_chi fd)) as [EC|NK]; [rewrite EC in SK|].
    + do 3 eexists. split; [reflexivity|]. intros _ _. reflexivity.
    + destruct (init_spec (fd_win fd) sec (conj L4 AP) S) as (p1 & chi & -> & _). cbn [obind]. do 3 eexists. split; [reflexivity|]. intros _ _. reflexivity.
  - destruct AL as (i0 & AT). pose proof T as (_ & LF & _).
    assert (PZ : fd_pos fd = 0%Z -> i0 = 0) by (intros Z0; apply (seek_line i0 _ AT); exact Z0).
    assert (X : exists win' pos' c, (if (fd_mjd fd + 1 =? day)%Z then get_next ymd_mjd (Some f) junk junk2 fresh (fd_pos fd) day (fd_win fd)
               else parse ymd_mjd (Some f) junk junk2 (fd_pos fd) day 3 0 (fd_win fd)) = Some (Ok (c, win', pos')) /\ (c = 0%Z -> four_days win') /\
               (fd_pos fd = 0%Z -> (d0 + 3 <= day <= dn)%Z -> c = 0%Z)).
    { destruct (Z.eqb_spec (fd_mjd fd + 1) day) as [<-|NN].
      - unfold get_next. destruct (table_parse d0 dn junk junk2 i0 (fd_pos fd) (fd_mjd fd + 1) 0 0 [fresh] T AT LJ LJ2 (Forall_cons _ FR (Forall_nil _))) as (c & w & q & EP & _ & _ & WHY); [cbn; lia|lia|].
        rewrite EP. destruct (Z.eqb_spec c 0) as [->|NZ]; cbn [negb].
        + pose proof EP as EP'. destruct (parse_spec _ _ _ _ _ _ _ _ _ (ex_intro _ i0 AT) (Forall_cons _ FR (Forall_nil _)) EP') as (_ & LW & APW & _). destruct w as [|fl [|]]; [discriminate| |discriminate].
          do 3 eexists. split; [reflexivity|]. split; [|intros _ _; reflexivity]. intros _. split; [rewrite app_length, skipn_length, L4; reflexivity|].
          apply Forall_app. split; [|exact APW]. rewrite <- (firstn_skipn 1 (fd_win fd)) in AP. apply Forall_app in AP. apply AP.
        + do 3 eexists. split; [reflexivity|]. split; [congruence|]. intros Z0 IN. destruct WHY as [W|[W|[W|W]]]; [contradiction|lia|lia|]. rewrite (PZ Z0) in W. lia.
      - destruct (table_parse d0 dn junk junk2 i0 (fd_pos fd) day 3 0 (fd_win fd) T AT LJ LJ2 AP) as (c & w & q & EP & _ & _ & WHY); [lia|lia|].
        exists w, q, c. split; [exact EP|]. split.
        + intros ->. pose proof EP as EP'. destruct (parse_spec _ _ _ _ _ _ _ _ _ (ex_intro _ i0 AT) AP EP') as (_ & LW & APW & _). split; [lia|exact APW].
        + intros Z0 IN. destruct WHY as [W|[W|[W|W]]]; [exact W|lia|lia|]. rewrite (PZ Z0) in W. lia. }
    destruct X as (w & q & c & EX & X1 & X2). rewrite EX. destruct (Z.eqb_spec c 0) as [C0|NZ]; cbn [negb].
    + destruct (init_spec w sec (X1 C0) S) as (p1 & chi & -> & _). cbn [obind]. do 3 eexists. split; [reflexivity|]. intros _ _. reflexivity.
    + do 3 eexists. split; [reflexivity|]. intros A B. exact (X2 A B).
Qed.

Lemma construct_table d0 dn junk junk2 win day sec : table d0 dn -> four_days win -> (0 <= sec < 86400)%Q -> 10 <= length junk -> 10 <= length junk2 ->
  (d0 + 3 <= day <= dn)%Z -> exists fd p, construct ymd_mjd (Some f) junk junk2 win day sec = Some (Ok (Some (fd, p))) /\ in_sync fd p /\ now_at day sec fd p.
Proof.
  intros T (L4 & AP) S LJ LJ2 IN. unfold construct. pose proof T as (_ & LF & DN & ROWS).
  destruct (table_parse d0 dn junk junk2 0 0 day 3 0 win T at_pos_0 LJ LJ2 AP) as (c & w & q & EP & AQ & _ & WHY); [lia|lia|].
  assert (c = 0%Z) as -> by (destruct WHY as [W|[W|[W|W]]]; [exact W|lia|lia|lia]). rewrite EP. cbn [Z.eqb negb].
  destruct (parse_spec _ _ _ _ _ _ _ _ _ aligned_0 AP EP) as (_ & LW & APW & a & n & A1 & N1 & N2 & N3 & DF).
  assert (n = 4).
  { destruct N3 as [->|N3]; [reflexivity|]. destruct (Nat.eq_dec n 4) as [|NE]; [assumption|exfalso].
    destruct DF as [DF _]. destruct (DF (n - 1) ltac:(lia)) as (l & fl & NL & _ & R & M).
    replace (a + (n - 1)) with (Datatypes.S (a + n - 2)) in NL by lia. destruct (ROWS _ _ NL) as (_ & y & m & dd & (y1 & y2 & y3 & Y1 & Y2 & Y3) & EY). destruct R as ((y' & m' & dd' & (z1 & z2 & z3 & Z1 & Z2 & Z3) & EZ) & _).
    assert (y = y' /\ m = m' /\ dd = dd') as (-> & -> & ->) by (rewrite Z1 in Y1; rewrite Z2 in Y2; rewrite Z3 in Y3; split; [congruence|split; congruence]).
    lia. }
  subst n. assert (F4 : four_days w) by (split; [lia|exact APW]). destruct (init_spec w sec F4 S) as (p1 & chi & -> & SC & C & H). cbn [obind].
  do 2 eexists. split; [reflexivity|]. split; [|split; [reflexivity|]; split; [exact SC|exact H]].
  split; [exact AQ|]. split; [exact (full_days _ a win w F4 DF)|]. exists sec. split; [exact S|]. split; [exact SC|exact H].
Qed.

(* a history of updates: day, second of day, arrays of the calls *)
Record call := Call { c_day : Z; c_sec : Q; c_junk : chars; c_junk2 : chars; c_fresh : flux }.
Fixpoint run (calls : list call) (fd : feed) (p : params) : option (outcome (list Z * feed * params)) :=
  match calls with
  | [] => Some (Ok ([], fd, p))
  | c :: rest =>
      match update ymd_mjd (Some f) (c_junk c) (c_junk2 c) (c_fresh c) (c_day c) (c_sec c) fd p with
      | Some (Ok (code, fd', p')) => match run rest fd' p' with Some (Ok (codes, fd2, p2)) => Some (Ok (code :: codes, fd2, p2)) | x => x end
      | Some UB => Some UB
      | None => None
      end
  end.
(* the last (day, second) that was reported as updated *)
Fixpoint last_good (at0 : Z * Q) (calls : list call) (codes : list Z) : Z * Q :=
  match calls, codes with
  | c :: calls, code :: codes => last_good (if (code =? 0)%Z then (c_day c, c_sec c) else at0) calls codes
  | _, _ => at0
  end.
Definition good_call (dn : Z) (c : call) : Prop :=
  (0 <= c_sec c < 86400)%Q /\ (c_day c <= dn \/ dn < c_day c - 3)%Z /\ 10 <= length (c_junk c) /\ 10 <= length (c_junk2 c) /\ length (fx_ap (c_fresh c)) = 8.

Lemma run_table d0 dn : table d0 dn -> forall calls fd p day sec, in_sync fd p -> now_at day sec fd p -> Forall (good_call dn) calls ->
  exists codes fd' p', run calls fd p = Some (Ok (codes, fd', p')) /\ length codes = length calls /\ in_sync fd' p' /\
    now_at (fst (last_good (day, sec) calls codes)) (snd (last_good (day, sec) calls codes)) fd' p'.
Proof.
  intros T. induction calls as [|c calls IH]; intros fd p day sec SY NOW G.
  { exists [], fd, p. split; [reflexivity|]. split; [reflexivity|]. split; [exact SY|exact NOW]. }
  pose proof (Forall_inv G) as (S & R & LJ & LJ2 & FR). pose proof (Forall_inv_tail G) as G'. cbn [run].
  destruct (update_defined d0 dn (c_junk c) (c_junk2 c) (c_fresh c) (c_day c) (c_sec c) fd p T SY FR S LJ LJ2 R) as (code & fd1 & p1 & EU & _). rewrite EU.
  destruct (update_step _ _ _ _ _ _ _ _ _ _ SY FR S LJ LJ2 (or_intror (or_intror (ex_intro _ d0 (ex_intro _ dn (conj T R))))) EU) as (SY1 & N1 & N2).
  assert (NOW1 : let ds := if (code =? 0)%Z then (c_day c, c_sec c) else (day, sec) in now_at (fst ds) (snd ds) fd1 p1).
  { destruct (Z.eqb_spec code 0) as [->|NZ]; cbn zeta; [exact (N1 eq_refl)|]. destruct (N2 NZ) as ((M & W & C) & -> & _). destruct NOW as (A & B & D).
    split; [cbn [fst]; congruence|]. rewrite W, C. split; [exact B|exact D]. }
  destruct (if (code =? 0)%Z then (c_day c, c_sec c) else (day, sec)) as [day1 sec1] eqn:EDS. cbn zeta in NOW1.
  destruct (IH fd1 p1 day1 sec1 SY1 NOW1 G') as (codes & fd2 & p2 & ER & LC & SY2 & NOW2). rewrite ER.
  exists (code :: codes), fd2, p2. split; [reflexivity|]. split; [cbn [length]; lia|]. split; [exact SY2|]. cbn [last_good]. rewrite EDS. exact NOW2.
Qed.
End File.
End Calendar.

(* ---- example objects ---- *)
Definition text (s : string) : chars := list_ascii_of_string s.
(* days of the proleptic Gregorian calendar *)
Definition calendar (y m d : Z) : Z :=
  (let a := (14 - m) / 12 in let y' := y + 4800 - a in let m' := m + 12 * a - 3 in
   d + (153 * m' + 2) / 5 + 365 * y' + y' / 4 - y' / 100 + y' / 400 - 32045 - 2400001)%Z.
Definition ex_row (date : string) : chars :=
  (text date ++ text ",2583,7,13,17,20,23,27,30,23,20,173,5,6,7,9,12,15,9,7,9,0.5,2,93,146.8,142.1,OBS,150.3,147.2,146.9,143.7")%list.
Definition ex_days : list chars :=
  [ex_row "2023-01-01"; ex_row "2023-01-02"; ex_row "2023-01-03"; ex_row "2023-01-04"; ex_row "2023-01-05"; ex_row "2023-01-06"; ex_row "2023-01-07"].
Definition ex_lines : list chars := names_line :: ex_days.
Definition ex_file : chars := file_text ex_lines [].
Definition blank : flux := Flux 0 0 0 0 0 0 0 [0; 0; 0; 0; 0; 0; 0; 0]%Z (text "???").
Definition ex_win : list flux := [blank; blank; blank; blank].
Definition ex_junk : chars := repeat "#"%char 512.
Definition line_okb (t : chars) : bool := negb (existsb (Ascii.eqb nl) t) && (length t <? 512).
Lemma line_okb_ok t : line_okb t = true -> line_ok 512 t.
Proof.
  unfold line_okb. intros E. apply andb_true_iff in E. destruct E as [E L]. split; [|apply Nat.ltb_lt; exact L]. intros I.
  apply negb_true_iff in E. enough (existsb (Ascii.eqb nl) t = true) by congruence. apply existsb_exists. exists nl. split; [exact I|apply Ascii.eqb_refl].
Qed.
Lemma ex_lines_ok : Forall (line_ok 512) ex_lines /\ line_ok 512 [].
Proof.
  split; [|apply line_okb_ok; vm_compute; reflexivity]. apply Forall_forall. intros t I. apply line_okb_ok.
  assert (X : forallb line_okb ex_lines = true) by (vm_compute; reflexivity). rewrite forallb_forall in X. exact (X t I).
Qed.
Definition ex_cols : list chars := tl (columns (ex_row "2023-01-01")).
Lemma ex_cols_full c : documented (c :: ex_cols) /\ 31 <= length (c :: ex_cols) /\ (forall i, i < 8 -> exists v, int_at (c :: ex_cols) (12 + i) v) /\
  (forall k, In k [20; 24; 25; 27; 28; 29] -> exists v, real_at (c :: ex_cols) k v).
Proof.
  let x := eval vm_compute in ex_cols in change ex_cols with x.
  split; [split; [discriminate|]; eexists; split; reflexivity|]. split; [apply Nat.leb_le; reflexivity|]. split.
  - intros i Hi. do 8 (destruct i as [|i]; [eexists; eexists; split; [reflexivity|vm_compute; reflexivity]|]). exfalso. revert Hi. clear. lia.
  - intros k Hk. cbn [In] in Hk. repeat (destruct Hk as [<-|Hk]; [eexists; eexists; split; [reflexivity|vm_compute; reflexivity]|]). contradiction.
Qed.
Lemma row_full date y m d : cstr (ex_row date) = ex_row date -> columns (ex_row date) = text date :: ex_cols -> dated (ex_row date) y m d ->
  full_line (cstr (ex_row date)).
Proof. intros -> E D. split; [exists y, m, d; exact D|]. rewrite E. apply ex_cols_full. Qed.
Lemma ex_day date y m d : cstr (ex_row date) = ex_row date -> columns (ex_row date) = text date :: ex_cols -> dated (ex_row date) y m d ->
  day_line calendar (calendar y m d) (ex_row date).
Proof. intros A B C. split; [exact (row_full date y m d A B C)|]. exists y, m, d. rewrite A. split; [exact C|reflexivity]. Qed.
Lemma ex_table : table calendar ex_lines [] 59945 59951.
Proof.
  split; [|split; [|split]].
  - exists names_line. split; [reflexivity|]. exists []. vm_compute. reflexivity.
  - vm_compute. lia.
  - vm_compute. reflexivity.
  - intros j l E. do 7 (destruct j as [|j]; [injection E as <-;
      match goal with |- day_line _ ?d (ex_row ?s) => let x := eval vm_compute in (Z.sub d 59944) in
        replace d with (calendar 2023 1 x) by (vm_compute; reflexivity) end;
      apply ex_day; [vm_compute; reflexivity|vm_compute; reflexivity|do 3 eexists; split; [|split]; vm_compute; reflexivity]|]).
    destruct j; discriminate.
Qed.
(* a file of three days and one monthly prediction *)
Definition ex_gap : chars := file_text [names_line; ex_row "2023-01-01"; ex_row "2023-01-02"; ex_row "2023-01-03"; ex_row "2023-01-04"; ex_row "2023-01-05"; ex_row "2023-01-06"; ex_row "2023-02-01"] [].
(* a line whose column CP is empty, as documented otherwise *)
Definition ex_no_cp : chars :=
  text "2023-01-01,2583,7,13,17,20,23,27,30,23,20,173,5,6,7,9,12,15,9,7,9,,2,93,146.8,142.1,OBS,150.3,147.2,146.9,143.7".
Definition ex_short : chars := text "2023-01-01,2583,7,13,17,20".
