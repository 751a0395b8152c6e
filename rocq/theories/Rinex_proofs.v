(* Specifications and proofs for the RINEX data records (C17-C23, C26, C63). *)
From Coq Require Import List ZArith QArith Ascii Bool Lia Lqa ZifyNat.
From Verif Require Import Base CLib_model CLib_proofs Stream_model SysInfo_model SysInfo_proofs Rinex_model.
Import ListNotations.
Local Open Scope nat_scope.

(* ================= C17 ================= *)
Lemma lines_least obs : (0 <= obs)%Z ->
  (obs <= 5 * lines_per_beacon obs)%Z /\
  (forall j, (obs <= 5 * j)%Z -> (lines_per_beacon obs <= j)%Z).
Proof.
  intros H. unfold lines_per_beacon. pose proof (Z.quot_rem obs 5 ltac:(lia)) as E.
  pose proof (Z.rem_bound_pos obs 5 H ltac:(lia)) as B.
  destruct (Z.eqb_spec (Z.rem obs 5) 0); split; intros; lia.
Qed.

Lemma lines_nat n : Z.to_nat (lines_per_beacon (Z.of_nat n)) = (n + 4) / 5.
Proof.
  destruct (lines_least (Z.of_nat n) ltac:(lia)) as [A B].
  assert (C : (0 <= lines_per_beacon (Z.of_nat n))%Z) by lia.
  specialize (B (Z.of_nat ((n + 4) / 5))).
  pose proof (Nat.div_mod (n + 4) 5 ltac:(lia)). pose proof (Nat.mod_upper_bound (n + 4) 5 ltac:(lia)).
  assert (B' : (lines_per_beacon (Z.of_nat n) <= Z.of_nat ((n + 4) / 5))%Z) by (apply B; lia). lia.
Qed.

(* ================= C26 ================= *)
Definition first_match {A} (P : A -> Prop) (l : list A) (o : option A) : Prop :=
  match o with
  | Some x => exists a b, l = a ++ x :: b /\ P x /\ forall y, In y a -> ~ P y
  | None => forall y, In y l -> ~ P y
  end.

Lemma index_of_ok {A} (p : A -> bool) (l : list A) : forall i,
  (index_of p l i = (-1)%Z /\ (0 <= i)%Z /\ forall y, In y l -> p y = false) \/
  (exists a x b, l = a ++ x :: b /\ p x = true /\ (forall y, In y a -> p y = false) /\
     index_of p l i = (i + Z.of_nat (length a))%Z) \/ (i < 0)%Z.
Proof.
  induction l as [|x r IH]; intros i; cbn [index_of].
  - destruct (Z.le_gt_cases 0 i); [left|right; right; lia]. repeat split; try lia. intros y [].
  - destruct (p x) eqn:E.
    + right; left. exists [], x, r. repeat split; try assumption; [intros y []|simpl; lia].
    + destruct (Z.le_gt_cases 0 i) as [L|G]; [|right; right; lia].
      destruct (IH (i + 1)%Z) as [(A1 & A2 & A3)|[(a & y & b & -> & A1 & A2 & A3)|F]]; [| |lia].
      * left. repeat split; try assumption. intros y [<-|I]; auto.
      * right; left. exists (x :: a), y, b. repeat split; try assumption.
        -- intros z [<-|I]; auto.
        -- rewrite A3. cbn [length]. lia.
Qed.

Lemma obs_index_ok codes t :
  (forall i, get_observation_code_index codes t = i <->
     ((i = -1)%Z /\ ~ In t codes) \/
     (exists a b, codes = a ++ t :: b /\ ~ In t a /\ i = Z.of_nat (length a))).
Proof.
  intros i. unfold get_observation_code_index.
  assert (EQ : forall c, code_eqb c t = true <-> c = t).
  { intros c. unfold code_eqb. rewrite andb_true_iff, type_eqb_iff, Z.eqb_eq. destruct c, t; cbn. split; [intros [-> ->]; reflexivity|intros H; injection H; auto]. }
  assert (NE : forall l, (forall y, In y l -> code_eqb y t = false) <-> ~ In t l).
  { intros l. split.
    - intros H I. specialize (H t I). rewrite (proj2 (EQ t) eq_refl) in H. discriminate.
    - intros H y I. destruct (code_eqb y t) eqn:E; [|reflexivity]. apply EQ in E. subst. contradiction. }
  destruct (index_of_ok (fun c => code_eqb c t) codes 0%Z) as [(E & _ & N)|[(a & x & b & E1 & E2 & N & E)|F]]; [| |lia].
  - rewrite E. apply NE in N. split.
    + intros <-. left. auto.
    + intros [[-> _]|(a & b & -> & _)]; [reflexivity|]. exfalso. apply N, in_or_app. right. left. reflexivity.
  - apply EQ in E2. subst x. rewrite E. apply NE in N. rewrite Z.add_0_l. split.
    + intros <-. right. exists a, b. auto.
    + intros [[_ F]|(a' & b' & E' & N' & ->)].
      * exfalso. apply F. rewrite E1. apply in_or_app. right. left. reflexivity.
      * f_equal. rewrite E1 in E'. clear - N N' E'. revert a' N' E'.
        induction a as [|y a IH]; intros [|z a'] N' E'; cbn [app] in E'.
        -- reflexivity.
        -- injection E' as -> _. exfalso. apply N'. left. reflexivity.
        -- injection E' as -> _. exfalso. apply N. left. reflexivity.
        -- injection E' as -> E'. cbn [length]. f_equal. apply IH; [|intros I; apply N'; right; exact I|exact E'].
           intros I. apply N. right. exact I.
Qed.

Lemma strncmp_ok n : forall a b, n <= length a -> n <= length b -> ~ In nul (firstn n a) ->
  exists e, strncmp_eq a b n = Ok e /\ (e = true <-> firstn n a = firstn n b).
Proof.
  induction n as [|n IH]; intros a b La Lb N; cbn [strncmp_eq firstn].
  - exists true. split; [reflexivity|]. tauto.
  - destruct a as [|x a]; [simpl in La; lia|]. destruct b as [|y b]; [simpl in Lb; lia|].
    cbn [firstn] in *. destruct (Ascii.eqb_spec x y) as [->|NE].
    + destruct (Ascii.eqb_spec y nul) as [->|_]; [exfalso; apply N; left; reflexivity|].
      destruct (IH a b) as (e & -> & He); [simpl in La; lia|simpl in Lb; lia|intros I; apply N; right; exact I|].
      exists e. split; [reflexivity|]. rewrite He. split; [intros ->; reflexivity|intros H; injection H; auto].
    + exists false. split; [reflexivity|]. split; [discriminate|intros H; injection H; intros; contradiction].
Qed.

Lemma find_station_ok (p : station -> outcome bool) (P : station -> Prop) l :
  (forall s, In s l -> exists e, p s = Ok e /\ (e = true <-> P s)) ->
  exists o, find_station p l = Ok o /\ first_match P l o.
Proof.
  induction l as [|s r IH]; intros H; cbn [find_station].
  - exists None. split; [reflexivity|]. intros y [].
  - destruct (H s (or_introl eq_refl)) as (e & -> & He). cbn [obind]. destruct e.
    + exists (Some s). split; [reflexivity|]. exists [], r. split; [reflexivity|]. split; [apply He; reflexivity|]. intros y [].
    + destruct (IH (fun s' I => H s' (or_intror I))) as (o & -> & Ho). exists o. split; [reflexivity|].
      assert (NP : ~ P s) by (intros F; apply He in F; discriminate). destruct o as [x|].
      * destruct Ho as (a & b & -> & Px & N). exists (s :: a), b. split; [reflexivity|]. split; [exact Px|].
        intros y [<-|I]; auto.
      * intros y [<-|I]; auto.
Qed.

Definition stations_ok (sts : list station) : Prop :=
  forall s, In s sts -> length (st_code s) = 3 /\ length (st_id s) = 4.

Lemma firstn_exact {A} (l : list A) n : length l = n -> firstn n l = l.
Proof. intros <-. apply firstn_all. Qed.

Lemma internal_to_id_ok sts key : stations_ok sts -> 3 <= length key -> ~ In nul (firstn 3 key) ->
  exists o, beacon_internal_id2id sts key = Ok (option_map st_id o) /\
    first_match (fun s => st_code s = firstn 3 key) sts o.
Proof.
  intros Hs Hk Hn. unfold beacon_internal_id2id.
  destruct (find_station_ok (fun b => strncmp_eq key (st_code b) 3) (fun s => st_code s = firstn 3 key) sts) as (o & -> & Ho).
  - intros s I. destruct (Hs s I) as [L _]. destruct (strncmp_ok 3 key (st_code s)) as (e & E & He); try assumption; try lia.
    exists e. split; [exact E|]. rewrite He, (firstn_exact (st_code s)) by exact L. split; congruence.
  - exists o. split; [reflexivity|exact Ho].
Qed.
Lemma id_to_internal_ok sts key : stations_ok sts -> 4 <= length key -> ~ In nul (firstn 4 key) ->
  exists o, beacon_id2internal_id sts key = Ok (option_map st_code o) /\
    first_match (fun s => st_id s = firstn 4 key) sts o.
Proof.
  intros Hs Hk Hn. unfold beacon_id2internal_id.
  destruct (find_station_ok (fun b => strncmp_eq key (st_id b) 4) (fun s => st_id s = firstn 4 key) sts) as (o & -> & Ho).
  - intros s I. destruct (Hs s I) as [_ L]. destruct (strncmp_ok 4 key (st_id s)) as (e & E & He); try assumption; try lia.
    exists e. split; [exact E|]. rewrite He, (firstn_exact (st_id s)) by exact L. split; congruence.
  - exists o. split; [reflexivity|exact Ho].
Qed.

Lemma same3_ok a b : 3 <= length a -> 3 <= length b ->
  exists e, same3 a b = Ok e /\ (e = true <-> firstn 3 a = firstn 3 b).
Proof.
  intros La Lb. destruct a as [|a0 [|a1 [|a2 a]]]; try (simpl in La; lia).
  destruct b as [|b0 [|b1 [|b2 b]]]; try (simpl in Lb; lia). unfold same3. cbn.
  destruct (Ascii.eqb_spec a0 b0) as [->|]; [|exists false; split; [reflexivity|split; [discriminate|congruence]]].
  destruct (Ascii.eqb_spec a1 b1) as [->|]; [|exists false; split; [reflexivity|split; [discriminate|congruence]]].
  destruct (Ascii.eqb_spec a2 b2) as [->|]; [|exists false; split; [reflexivity|split; [discriminate|congruence]]].
  exists true. split; [reflexivity|tauto].
Qed.
Lemma station_of_ok sts key : stations_ok sts -> 3 <= length key ->
  exists o, beacon_internal_id2BeaconStation sts key = Ok o /\
    first_match (fun s => st_code s = firstn 3 key) sts o.
Proof.
  intros Hs Hk. apply find_station_ok. intros s I. destruct (Hs s I) as [L _].
  destruct (same3_ok key (st_code s)) as (e & E & He); try lia. exists e. split; [exact E|].
  rewrite He, (firstn_exact (st_code s)) by exact L. split; congruence.
Qed.
Lemma shift_factor_ok sts key k : stations_ok sts -> 3 <= length key ->
  exists o, beacon_shift_factor sts key k =
      Ok (match o with Some s => (0%Z, st_shift s) | None => (1%Z, k) end) /\
    first_match (fun s => st_code s = firstn 3 key) sts o.
Proof.
  intros Hs Hk. unfold beacon_shift_factor.
  destruct (find_station_ok (fun b => same3 (st_code b) key) (fun s => st_code s = firstn 3 key) sts) as (o & -> & Ho).
  - intros s I. destruct (Hs s I) as [L _]. destruct (same3_ok (st_code s) key) as (e & E & He); try lia.
    exists e. split; [exact E|]. rewrite He, (firstn_exact (st_code s)) by exact L. tauto.
  - exists o. split; [reflexivity|exact Ho].
Qed.

(* ================= C18 ================= *)
Definition ceil5 (n : nat) : nat := (n + 4) / 5.

Lemma getlines_add a b s : getlines (a + b) s = getlines b (getlines a s).
Proof. revert s; induction a as [|a IH]; intros s; [reflexivity|]. cbn [Nat.add getlines]. apply IH. Qed.

Lemma next_line_st r : r_st (next_line r) = snd (getline MAX_RECORD_CHARS (r_st r)).
Proof. unfold next_line. destruct (getline MAX_RECORD_CHARS (r_st r)). reflexivity. Qed.

Lemma ceil5_step c : ceil5 (S c) = ceil5 c + (if Nat.eqb (c mod 5) 0 then 1 else 0).
Proof.
  unfold ceil5. pose proof (Nat.div_mod c 5 ltac:(lia)) as E. pose proof (Nat.mod_upper_bound c 5 ltac:(lia)) as B.
  set (q := c / 5) in *. set (m := c mod 5) in *. rewrite E.
  destruct (Nat.eqb_spec m 0) as [Z|Z].
  - rewrite Z. replace (S (5 * q + 0) + 4) with (0 + (q + 1) * 5) by lia. rewrite Nat.div_add by lia.
    replace (5 * q + 0 + 4) with (4 + q * 5) by lia. rewrite Nat.div_add by lia. simpl. lia.
  - assert (D1 : (S (5 * q + m) + 4) / 5 = q + 1).
    { replace (S (5 * q + m) + 4) with (m + (q + 1) * 5) by lia. rewrite Nat.div_add by lia. rewrite Nat.div_small by lia. lia. }
    assert (D2 : (5 * q + m + 4) / 5 = q + 1).
    { replace (5 * q + m + 4) with ((m - 1) + (q + 1) * 5) by lia. rewrite Nat.div_add by lia. rewrite Nat.div_small by lia. lia. }
    rewrite D1, D2. lia.
Qed.

Lemma read_obs_lines scales todo : forall curobs id vals r o r',
  read_obs scales todo curobs id vals r = Ok (0%Z, o, r') ->
  exists k, ceil5 (curobs + todo) = ceil5 curobs + k /\ r_st r' = getlines k (r_st r).
Proof.
  induction todo as [|todo IH]; intros curobs id vals r o r' H; cbn [read_obs] in H.
  - injection H as _ <-. exists 0. rewrite !Nat.add_0_r. auto.
  - set (r1 := if Nat.eqb (curobs mod 5) 0 then next_line r else r) in *.
    destruct (load (r_line r1) 0) as [c0|]; [|discriminate]. cbn [obind] in H.
    destruct (Nat.eqb curobs 0 && negb (Ascii.eqb c0 "D")); [discriminate|].
    destruct (load scales curobs) as [sc|]; [|discriminate]. cbn [obind] in H.
    destruct (read_field (r_line r1) (curobs mod 5) sc) as [[v|]|]; try discriminate. cbn [obind] in H.
    destruct (IH _ _ _ _ _ _ H) as (k & E & S). rewrite ceil5_step in E.
    exists ((if Nat.eqb (curobs mod 5) 0 then 1 else 0) + k).
    split; [rewrite <- Nat.add_succ_comm; lia|]. rewrite S. unfold r1.
    destruct (Nat.eqb (curobs mod 5) 0); [|reflexivity]. rewrite next_line_st. reflexivity.
Qed.

Lemma read_beacons_lines nobs scales n : forall acc r obs r',
  read_beacons nobs scales n acc r = Ok (0%Z, obs, r') ->
  r_st r' = getlines (n * ceil5 nobs) (r_st r).
Proof.
  induction n as [|n IH]; intros acc r obs r' H; cbn [read_beacons] in H.
  - injection H as _ <-. reflexivity.
  - destruct (read_obs scales nobs 0 None [] r) as [[[code o] r1]|] eqn:E; [|discriminate]. cbn [obind] in H.
    destruct (Z.eqb_spec code 0) as [->|N]; [|injection H as F _ _; contradiction].
    destruct (read_obs_lines _ _ _ _ _ _ _ _ E) as (k & Ek & Sk). cbn [Nat.add] in Ek.
    rewrite (IH _ _ _ _ H), Sk, <- getlines_add. f_equal. change (ceil5 0) with 0 in Ek. lia.
Qed.

Lemma read_skip_ok nobs scales num r obs r' :
  read_data_block nobs scales num r = Ok (0%Z, obs, r') ->
  skip_data_block nobs num (r_st r) = r_st r'.
Proof.
  intros H. unfold read_data_block in H. rewrite (read_beacons_lines _ _ _ _ _ _ _ H).
  unfold skip_data_block. f_equal. destruct (Z.le_gt_cases 0 num).
  - rewrite Z2Nat.inj_mul; [|lia|]. 2:{ destruct (lines_least (Z.of_nat nobs) ltac:(lia)); lia. }
    rewrite lines_nat. reflexivity.
  - replace (Z.to_nat num) with 0 by lia. destruct (lines_least (Z.of_nat nobs) ltac:(lia)).
    assert (0 <= lines_per_beacon (Z.of_nat nobs))%Z by lia. nia.
Qed.

(* ================= C19, C20: formatted data blocks ================= *)
(* an observation field: blank, or a fixed-point number in 14 columns; two flags *)
Inductive fld := FBlank | FNum (neg : bool) (ip fp : list Z).
Record mfield := MF { mf_v : fld; mf_1 : ascii; mf_2 : ascii }.
Record mbeacon := MB { mb_id : chars; mb_fields : list mfield }.

Definition right14 (s : chars) : chars := repeat blank (14 - length s) ++ s.
Definition fld_text (f : fld) : chars :=
  match f with FBlank => repeat blank 14 | FNum neg ip fp => right14 (fixed neg ip fp) end.
Definition fld_ok (f : fld) : Prop :=
  match f with
  | FBlank => True
  | FNum neg ip fp => ip ++ fp <> [] /\ digits_ok ip /\ digits_ok fp /\ length (fixed neg ip fp) <= 14
  end.
Definition mf_ok (m : mfield) : Prop := fld_ok (mf_v m) /\ mf_1 m <> nl /\ mf_2 m <> nl.
Definition mtext (m : mfield) : chars := fld_text (mf_v m) ++ [mf_1 m; mf_2 m].

(* five fields per line *)
Fixpoint rows5 {A} (l : list A) : list (list A) :=
  match l with
  | a :: b :: c :: d :: e :: ((_ :: _) as r) => [a; b; c; d; e] :: rows5 r
  | [] => []
  | _ => [l]
  end.
Definition row_text (head : chars) (ms : list mfield) : chars := head ++ flat_map mtext ms ++ [nl].
Definition rows_text (head : chars) (rs : list (list mfield)) : chars :=
  match rs with
  | [] => []
  | r :: rest => row_text head r ++ flat_map (row_text (repeat blank 3)) rest
  end.
Definition beacon_text (b : mbeacon) : chars := rows_text (mb_id b) (rows5 (mb_fields b)).
Definition block_text (bs : list mbeacon) : chars := flat_map beacon_text bs.

Definition id_ok (id : chars) : Prop := length id = 3 /\ (exists t, id = "D"%char :: t) /\ ~ In nl id.
Definition beacon_ok (nobs : nat) (b : mbeacon) : Prop :=
  id_ok (mb_id b) /\ length (mb_fields b) = nobs /\ Forall mf_ok (mb_fields b).

(* number held by a field: blanks and zero mean missing *)
Definition content (f : fld) : Q :=
  match f with
  | FBlank => MISSING
  | FNum neg ip fp => if Qeq_bool (fixed_val neg ip fp) 0 then MISSING else fixed_val neg ip fp
  end.
Definition reads (m : mfield) (scale : Z) (v : rvalue) : Prop :=
  (rv v == content (mf_v m) / inject_Z scale)%Q /\ rv_f1 v = mf_1 m /\ rv_f2 v = mf_2 m.
(* fields i, i+1, ... against their scale factors *)
Fixpoint expects (scales : list Z) (i : nat) (ms : list mfield) (vs : list rvalue) : Prop :=
  match ms, vs with
  | [], [] => True
  | m :: ms', v :: vs' => (exists sc, nth_error scales i = Some sc /\ reads m sc v) /\ expects scales (S i) ms' vs'
  | _, _ => False
  end.
Definition scales_ok (nobs : nat) (scales : list Z) : Prop := length scales = nobs /\ Forall (fun s => s <> 0%Z) scales.

(* ---- field level ---- *)
Lemma fixed_chars neg ip fp c : digits_ok ip -> digits_ok fp -> In c (fixed neg ip fp) ->
  c = "-"%char \/ c = "."%char \/ exists d, (0 <= d <= 9)%Z /\ c = dchar d.
Proof.
  unfold fixed, dstr. intros Hi Hf I. apply in_app_or in I. destruct I as [I|I].
  - destruct neg; [destruct I as [<-|[]]; auto|destruct I].
  - rewrite !in_app_iff in I. destruct I as [I|[[<-|[]]|I]]; [|auto|];
      apply in_map_iff in I; destruct I as (d & <- & I); right; right; exists d; split; try reflexivity;
      [apply (proj1 (Forall_forall _ _) Hi)|apply (proj1 (Forall_forall _ _) Hf)]; exact I.
Qed.

Lemma fld_chars f c : fld_ok f -> In c (fld_text f) ->
  c = blank \/ c = "-"%char \/ c = "."%char \/ exists d, (0 <= d <= 9)%Z /\ c = dchar d.
Proof.
  destruct f as [|neg ip fp]; cbn [fld_ok fld_text].
  - intros _ I. apply repeat_spec in I. auto.
  - intros (_ & Hi & Hf & _) I. unfold right14 in I. apply in_app_or in I. destruct I as [I|I].
    + apply repeat_spec in I. auto.
    + right. exact (fixed_chars neg ip fp c Hi Hf I).
Qed.

Lemma fld_no c f : fld_ok f -> (code c < 32)%Z -> ~ In c (fld_text f).
Proof.
  intros H L I. apply fld_chars in I; [|exact H]. destruct I as [->|[->|[->|(d & Hd & ->)]]].
  1-3: vm_compute in L; discriminate.
  rewrite code_dchar in L by exact Hd. lia.
Qed.

Lemma fld_text_length f : fld_ok f -> length (fld_text f) = 14.
Proof.
  destruct f as [|neg ip fp]; cbn [fld_ok fld_text].
  - intros _. apply repeat_length.
  - intros (_ & _ & _ & L). unfold right14. rewrite app_length, repeat_length. lia.
Qed.
Lemma mtext_length m : mf_ok m -> length (mtext m) = 16.
Proof. intros (H & _). unfold mtext. rewrite app_length, fld_text_length by exact H. reflexivity. Qed.
Lemma flat_mtext_length ms : Forall mf_ok ms -> length (flat_map mtext ms) = 16 * length ms.
Proof.
  induction 1 as [|m ms H _ IH]; [reflexivity|]. cbn [flat_map length]. rewrite app_length, mtext_length, IH by exact H. lia.
Qed.

Lemma cstr_no_nul s rest : ~ In nul s -> cstr (s ++ nul :: rest) = s.
Proof.
  induction s as [|c s IH]; intros N; cbn [app cstr]; [reflexivity|].
  destruct (Ascii.eqb_spec c nul) as [->|_]; [exfalso; apply N; left; reflexivity|].
  rewrite IH; [reflexivity|]. intros I. apply N. right. exact I.
Qed.

Lemma forallb_space_blank n : forallb is_space (repeat blank n) = true.
Proof. induction n; [reflexivity|]. cbn [repeat forallb]. rewrite IHn. reflexivity. Qed.

Lemma load_skip (l : chars) n c t : skipn n l = c :: t -> load l n = Ok c.
Proof.
  revert n; induction l as [|x l IH]; intros [|n] H; cbn [skipn] in H; try discriminate.
  - injection H as -> _. reflexivity.
  - apply IH in H. exact H.
Qed.

Lemma Qeq_bool_eq p q r : (p == q)%Q -> Qeq_bool p r = Qeq_bool q r.
Proof. intros E. apply eq_true_iff_eq. rewrite !Qeq_bool_iff, E. tauto. Qed.

Lemma MISSING_nz : Qeq_bool MISSING 0 = false.
Proof. unfold MISSING, Qeq_bool. cbn [Qnum Qden]. reflexivity. Qed.

Lemma read_field_ok pre m post k sc : length pre = 3 + k * 16 -> mf_ok m -> sc <> 0%Z ->
  exists v, read_field (pre ++ mtext m ++ post) k sc = Ok (Some v) /\ reads m sc v.
Proof.
  intros Lp (Hf & _) Hs. unfold read_field, mtext.
  pose proof (fld_text_length _ Hf) as L14.
  rewrite <- app_assoc. cbn [app].
  rewrite columns_app_skip by exact Lp.
  rewrite (firstn_app_exact (fld_text (mf_v m))) by exact L14.
  rewrite cstr_no_nul by (apply fld_no; [exact Hf|vm_compute; reflexivity]).
  assert (S14 : skipn (3 + k * 16 + 14) (pre ++ fld_text (mf_v m) ++ mf_1 m :: mf_2 m :: post) = mf_1 m :: mf_2 m :: post).
  { rewrite app_assoc. apply skipn_app_exact. rewrite app_length. lia. }
  assert (S15 : skipn (3 + k * 16 + 15) (pre ++ fld_text (mf_v m) ++ mf_1 m :: mf_2 m :: post) = mf_2 m :: post).
  { replace (pre ++ fld_text (mf_v m) ++ mf_1 m :: mf_2 m :: post) with
      ((pre ++ fld_text (mf_v m) ++ [mf_1 m]) ++ mf_2 m :: post) by (rewrite <- !app_assoc; reflexivity).
    apply skipn_app_exact. rewrite !app_length. simpl. lia. }
  rewrite (load_skip _ _ _ _ S14), (load_skip _ _ _ _ S15). cbn [obind].
  destruct (mf_v m) as [|neg ip fp] eqn:Ev; cbn [fld_text] in *.
  - rewrite forallb_space_blank, repeat_length. cbn [Nat.eqb]. rewrite MISSING_nz.
    destruct (Z.eqb_spec sc 0); [contradiction|]. eexists. split; [reflexivity|].
    unfold reads. cbn [rv rv_f1 rv_f2]. rewrite Ev. cbn [content]. repeat split; reflexivity.
  - destruct Hf as (Hne & Hi & Hfp & Hl).
    assert (NE : forallb is_space (right14 (fixed neg ip fp)) = false).
    { apply not_true_iff_false. intros T. rewrite forallb_forall in T.
      assert (I : In "."%char (right14 (fixed neg ip fp))).
      { unfold right14, fixed. rewrite !in_app_iff. right. right. right. left. left. reflexivity. }
      specialize (T _ I). discriminate. }
    rewrite NE. unfold right14 at 1.
    destruct (strtod_fixed (14 - length (fixed neg ip fp)) neg ip fp [] Hne Hi Hfp Logic.I) as (q & Eq & Hq).
    rewrite app_nil_r in Eq. rewrite Eq.
    assert (PF : 0 < length (fixed neg ip fp)).
    { unfold fixed. rewrite !app_length. simpl. destruct neg; simpl; lia. }
    destruct (Nat.eqb_spec (14 - length (fixed neg ip fp) + length (fixed neg ip fp)) 0); [lia|].
    destruct (Z.eqb_spec sc 0); [contradiction|]. eexists. split; [reflexivity|].
    unfold reads. cbn [rv rv_f1 rv_f2]. rewrite Ev. cbn [content]. rewrite (Qeq_bool_eq q _ _ Hq).
    split; [|split; reflexivity]. destruct (Qeq_bool (fixed_val neg ip fp) 0); [reflexivity|]. rewrite Hq. reflexivity.
Qed.

(* ---- line level ---- *)
Lemma expects_app scales : forall a i b va vb, expects scales i a va -> expects scales (i + length a) b vb ->
  expects scales i (a ++ b) (va ++ vb).
Proof.
  induction a as [|m a IH]; intros i b va vb Ha Hb; destruct va as [|v va]; cbn [expects] in Ha; try contradiction.
  - cbn [app length] in *. rewrite Nat.add_0_r in Hb. exact Hb.
  - cbn [app expects]. split; [tauto|]. apply IH; [tauto|]. cbn [length] in Hb. rewrite <- Nat.add_succ_comm in Hb. exact Hb.
Qed.

Lemma load_scale scales nobs i : scales_ok nobs scales -> i < nobs ->
  exists sc, nth_error scales i = Some sc /\ load scales i = Ok sc /\ sc <> 0%Z.
Proof.
  intros [L F] H. destruct (nth_error scales i) as [sc|] eqn:E.
  - exists sc. split; [reflexivity|]. split; [unfold load; rewrite E; reflexivity|].
    apply nth_error_In in E. apply (proj1 (Forall_forall _ _) F _ E).
  - apply nth_error_None in E. lia.
Qed.

(* the fields of one line behind the first one *)
Lemma read_row_rest nobs scales : scales_ok nobs scales -> forall suf pre head tail q todo id vals r,
  r_line r = head ++ flat_map mtext pre ++ flat_map mtext suf ++ tail -> length head = 3 ->
  1 <= length pre -> length pre + length suf <= 5 -> Forall mf_ok pre -> Forall mf_ok suf ->
  5 * q + length pre + length suf <= nobs ->
  exists vs, expects scales (5 * q + length pre) suf vs /\
    read_obs scales (length suf + todo) (5 * q + length pre) id vals r =
    read_obs scales todo (5 * q + length pre + length suf) id (vals ++ vs) r.
Proof.
  intros Hsc. induction suf as [|m suf IH]; intros pre head tail q todo id vals r EL LH L1 L5 Fp Fs LN.
  - exists []. split; [exact Logic.I|]. cbn [length Nat.add]. rewrite Nat.add_0_r, app_nil_r. reflexivity.
  - inversion Fs as [|x y Hm Fs']; subst x y. cbn [length] in *.
    cbn [Nat.add read_obs]. set (c := 5 * q + length pre).
    assert (CM : c mod 5 = length pre).
    { unfold c. rewrite Nat.add_comm, Nat.mul_comm, Nat.mod_add by lia. apply Nat.mod_small. lia. }
    rewrite CM. destruct (Nat.eqb_spec (length pre) 0); [lia|]. destruct (Nat.eqb_spec c 0); [lia|].
    assert (L0 : exists c0, load (r_line r) 0 = Ok c0).
    { rewrite EL. destruct head as [|h0 head]; [discriminate|]. exists h0. reflexivity. }
    destruct L0 as (c0 & ->). cbn [obind andb].
    destruct (load_scale scales nobs c Hsc ltac:(lia)) as (sc & N1 & -> & N3). cbn [obind].
    destruct (read_field_ok (head ++ flat_map mtext pre) m (flat_map mtext suf ++ tail) (length pre) sc) as (v & Ev & Hv);
      [rewrite app_length, flat_mtext_length by exact Fp; lia|exact Hm|exact N3|].
    rewrite EL. cbn [flat_map] in *. rewrite <- !app_assoc in Ev |- *. rewrite Ev. cbn [obind].
    destruct (IH (pre ++ [m]) head tail q todo id (vals ++ [v]) r) as (vs & Evs & Er); try assumption.
    + rewrite EL, flat_map_app. cbn [flat_map]. rewrite app_nil_r, <- !app_assoc. reflexivity.
    + rewrite app_length. lia.
    + rewrite app_length. simpl. lia.
    + apply Forall_app. auto.
    + rewrite app_length. simpl. lia.
    + rewrite app_length in Evs, Er. cbn [length] in Evs, Er.
      exists (v :: vs). split.
      * cbn [expects]. split; [exists sc; auto|]. replace (S c) with (5 * q + (length pre + 1)) by (unfold c; lia). exact Evs.
      * replace (S c) with (5 * q + (length pre + 1)) by (unfold c; lia). rewrite Er.
        rewrite <- app_assoc. cbn [app]. f_equal. unfold c. lia.
Qed.

Lemma take_line_nl t rest : forall room, ~ In nl t -> length t <= room ->
  take_line room (t ++ nl :: rest) = (t, rest, AtNl).
Proof.
  induction t as [|c t IH]; intros room N L; cbn [app].
  - destruct room; reflexivity.
  - destruct room as [|room]; [simpl in L; lia|]. cbn [take_line].
    destruct (Ascii.eqb_spec c nl) as [->|_]; [exfalso; apply N; left; reflexivity|]. rewrite IH; [reflexivity| |simpl in L; lia].
    intros I. apply N. right. exact I.
Qed.

Lemma getline_nl n t rest : ~ In nl t -> length t < n ->
  getline n (s_open (t ++ nl :: rest)) = (t, s_open rest).
Proof.
  intros N L. unfold getline, s_open, s_good. cbn [s_eof s_fail negb andb s_rest].
  rewrite take_line_nl by (try assumption; lia). reflexivity.
Qed.

Lemma flat_mtext_no_nl ms : Forall mf_ok ms -> ~ In nl (flat_map mtext ms).
Proof.
  intros F I. apply in_flat_map in I. destruct I as (m & Im & I).
  destruct (proj1 (Forall_forall _ _) F m Im) as (Hf & N1 & N2). unfold mtext in I.
  apply in_app_or in I. destruct I as [I|[I|[I|[]]]]; [|congruence|congruence].
  revert I. apply fld_no; [exact Hf|vm_compute; reflexivity].
Qed.

(* one complete line *)
Lemma read_row nobs scales : scales_ok nobs scales -> forall row head rest q todo id vals r,
  r_st r = s_open (row_text head row ++ rest) -> length head = 3 -> ~ In nl head ->
  (q = 0 -> exists t, head = "D"%char :: t) ->
  1 <= length row <= 5 -> Forall mf_ok row -> 5 * q + length row <= nobs ->
  exists vs r', expects scales (5 * q) row vs /\ r_st r' = s_open rest /\
    read_obs scales (length row + todo) (5 * q) id vals r =
    read_obs scales todo (5 * q + length row) (if Nat.eqb q 0 then Some head else id) (vals ++ vs) r'.
Proof.
  intros Hsc [|m row] head rest q todo id vals r ER LH NH HD LR FR LN; [simpl in LR; lia|].
  inversion FR as [|x y Hm FR']; subst x y. cbn [length] in *. cbn [Nat.add read_obs].
  assert (CM : (5 * q) mod 5 = 0) by (rewrite Nat.mul_comm; apply Nat.mod_mul; lia).
  rewrite CM. cbn [Nat.eqb].
  assert (GL : getline MAX_RECORD_CHARS (r_st r) = (head ++ flat_map mtext (m :: row), s_open rest)).
  { rewrite ER. unfold row_text. rewrite <- !app_assoc. cbn [app]. rewrite app_assoc.
    apply getline_nl.
    - rewrite in_app_iff. intros [I|I]; [contradiction|]. revert I. apply flat_mtext_no_nl, FR.
    - rewrite app_length, flat_mtext_length by exact FR. unfold MAX_RECORD_CHARS. cbn [length]. lia. }
  unfold next_line. rewrite GL. cbn [r_line r_st].
  set (buf := into_buffer (r_line r) (head ++ flat_map mtext (m :: row))).
  assert (EB : exists tail, buf = head ++ flat_map mtext [] ++ flat_map mtext (m :: row) ++ tail).
  { unfold buf, into_buffer. eexists. cbn [flat_map app]. rewrite <- !app_assoc. reflexivity. }
  destruct EB as (tail & EB).
  assert (L0 : exists c0, load buf 0 = Ok c0 /\ (q = 0 -> c0 = "D"%char)).
  { rewrite EB. destruct head as [|h0 head]; [discriminate|]. exists h0. split; [reflexivity|].
    intros Z. destruct (HD Z) as (t & E). injection E as -> _. reflexivity. }
  destruct L0 as (c0 & -> & HC). cbn [obind].
  assert (C1 : Nat.eqb (5 * q) 0 && negb (Ascii.eqb c0 "D") = false).
  { destruct (Nat.eqb_spec (5 * q) 0); [|reflexivity]. rewrite HC by lia. reflexivity. }
  rewrite C1.
  assert (CI : columns buf 0 3 = head).
  { unfold columns. cbn [skipn]. rewrite EB. apply firstn_app_exact, LH. }
  rewrite CI.
  destruct (load_scale scales nobs (5 * q) Hsc ltac:(lia)) as (sc & N1 & -> & N3). cbn [obind].
  destruct (read_field_ok head m (flat_map mtext row ++ tail) 0 sc) as (v & Ev & Hv);
    [lia|exact Hm|exact N3|].
  assert (EB' : buf = head ++ mtext m ++ flat_map mtext row ++ tail).
  { rewrite EB. cbn [flat_map app]. rewrite <- !app_assoc. reflexivity. }
  rewrite <- EB' in Ev. rewrite Ev. cbn [obind].
  destruct (read_row_rest nobs scales Hsc row [m] head tail q todo
     (if Nat.eqb (5 * q) 0 then Some head else id) (vals ++ [v]) (RState (s_open rest) buf)) as (vs & Evs & Er); try assumption.
  - cbn [r_line]. rewrite EB'. cbn [flat_map]. rewrite app_nil_r. reflexivity.
  - simpl. lia.
  - simpl. lia.
  - constructor; [exact Hm|constructor].
  - simpl. lia.
  - exists (v :: vs), (RState (s_open rest) buf). cbn [length] in Evs, Er. split; [|split; [reflexivity|]].
    + cbn [expects]. split; [exists sc; auto|]. replace (S (5 * q)) with (5 * q + 1) by lia. exact Evs.
    + replace (S (5 * q)) with (5 * q + 1) by lia. rewrite Er.
      replace (5 * q + 1 + length row) with (5 * q + S (length row)) by lia.
      rewrite <- app_assoc. cbn [app]. f_equal.
      destruct (Nat.eqb_spec (5 * q) 0), (Nat.eqb_spec q 0); try reflexivity; lia.
Qed.

Lemma rows5_short {A} (l : list A) : 1 <= length l <= 5 -> rows5 l = [l].
Proof. destruct l as [|a [|b [|c [|d [|e [|f l]]]]]]; simpl; intros; try lia; reflexivity. Qed.
Lemma rows5_long {A} (l : list A) : 5 < length l -> rows5 l = firstn 5 l :: rows5 (skipn 5 l).
Proof. destruct l as [|a [|b [|c [|d [|e [|f l]]]]]]; cbn [length]; intros; try lia; reflexivity. Qed.

Lemma read_rows nobs scales : scales_ok nobs scales -> forall n fs head rest q id vals r,
  length fs <= n -> r_st r = s_open (rows_text head (rows5 fs) ++ rest) -> length head = 3 -> ~ In nl head ->
  (q = 0 -> exists t, head = "D"%char :: t) ->
  1 <= length fs -> Forall mf_ok fs -> 5 * q + length fs = nobs ->
  exists vs r', expects scales (5 * q) fs vs /\ r_st r' = s_open rest /\
    read_obs scales (length fs) (5 * q) id vals r =
    Ok (0%Z, BeaconObs (if Nat.eqb q 0 then Some head else id) (vals ++ vs), r').
Proof.
  intros Hsc. induction n as [|n IH]; intros fs head rest q id vals r Ln ER LH NH HD L1 FF LN; [lia|].
  destruct (Nat.le_gt_cases (length fs) 5) as [S5|G5].
  - rewrite rows5_short in ER by lia. cbn [rows_text flat_map] in ER. rewrite app_nil_r in ER.
    destruct (read_row nobs scales Hsc fs head rest q 0 id vals r) as (vs & r' & E1 & E2 & E3); try assumption; [lia|lia|].
    rewrite Nat.add_0_r in E3. exists vs, r'. split; [exact E1|]. split; [exact E2|]. rewrite E3. reflexivity.
  - rewrite rows5_long in ER by exact G5.
    assert (EF : fs = firstn 5 fs ++ skipn 5 fs) by (symmetry; apply firstn_skipn).
    assert (L5 : length (firstn 5 fs) = 5) by (rewrite firstn_length; lia).
    assert (LS : length (skipn 5 fs) = length fs - 5) by apply skipn_length.
    set (a := firstn 5 fs) in *. set (b := skipn 5 fs) in *.
    rewrite EF in FF. apply Forall_app in FF. destruct FF as [Fa Fb].
    assert (RT : rows_text head (a :: rows5 b) = row_text head a ++ rows_text (repeat blank 3) (rows5 b)).
    { cbn [rows_text]. f_equal. destruct (rows5 b); reflexivity. }
    rewrite RT, <- app_assoc in ER.
    destruct (read_row nobs scales Hsc a head (rows_text (repeat blank 3) (rows5 b) ++ rest) q (length b) id vals r)
      as (vs & r1 & E1 & E2 & E3); try assumption; [lia|lia|].
    destruct (IH b (repeat blank 3) rest (S q) (if Nat.eqb q 0 then Some head else id) (vals ++ vs) r1)
      as (vs2 & r2 & F1 & F2 & F3); try assumption; try lia.
    + reflexivity.
    + cbn. intuition discriminate.
    + exists (vs ++ vs2), r2. split; [|split; [exact F2|]].
      * rewrite EF. apply expects_app; [exact E1|]. rewrite L5. replace (5 * q + 5) with (5 * S q) by lia. exact F1.
      * replace (length fs) with (length a + length b) by lia. rewrite E3, L5.
        replace (5 * q + 5) with (5 * S q) by lia. rewrite F3. cbn [Nat.eqb]. rewrite <- app_assoc. reflexivity.
Qed.

(* what is reported for a beacon *)
Definition reported (scales : list Z) (b : mbeacon) (o : beacon_obs) : Prop :=
  b_id o = Some (mb_id b) /\ expects scales 0 (mb_fields b) (b_vals o).

Lemma read_beacons_ok nobs scales : 1 <= nobs -> scales_ok nobs scales -> forall bs acc rest r,
  Forall (beacon_ok nobs) bs -> r_st r = s_open (block_text bs ++ rest) ->
  exists obs r', read_beacons nobs scales (length bs) acc r = Ok (0%Z, acc ++ obs, r') /\
    Forall2 (reported scales) bs obs /\ r_st r' = s_open rest.
Proof.
  intros Hn Hsc. induction bs as [|b bs IH]; intros acc rest r FB ER; cbn [length read_beacons].
  - exists [], r. rewrite app_nil_r. repeat split; try constructor. exact ER.
  - inversion FB as [|x y ((L3 & HD & Nn) & LF & FF) FB']; subst x y.
    cbn [block_text flat_map] in ER. fold (block_text bs) in ER. rewrite <- app_assoc in ER.
    destruct (read_rows nobs scales Hsc (length (mb_fields b)) (mb_fields b) (mb_id b) (block_text bs ++ rest) 0 None [] r)
      as (vs & r1 & E1 & E2 & E3); try assumption; try lia.
    + intros _. exact HD.
    + rewrite LF in E3. change (5 * 0) with 0 in E1, E3. cbn [Nat.eqb app] in E3. rewrite E3. cbn [obind Z.eqb].
      destruct (IH (acc ++ [BeaconObs (Some (mb_id b)) vs]) rest r1 FB' E2) as (obs & r2 & F1 & F2 & F3).
      exists (BeaconObs (Some (mb_id b)) vs :: obs), r2. rewrite F1, <- app_assoc. cbn [app].
      split; [reflexivity|]. split; [|exact F3]. constructor; [|exact F2]. split; [reflexivity|exact E1].
Qed.

Lemma block_roundtrip nobs scales bs rest line : 1 <= nobs -> scales_ok nobs scales -> Forall (beacon_ok nobs) bs ->
  exists obs r', read_data_block nobs scales (Z.of_nat (length bs)) (RState (s_open (block_text bs ++ rest)) line)
     = Ok (0%Z, obs, r') /\ Forall2 (reported scales) bs obs /\ r_st r' = s_open rest.
Proof.
  intros Hn Hsc FB. unfold read_data_block. rewrite Nat2Z.id.
  apply (read_beacons_ok nobs scales Hn Hsc bs [] rest (RState (s_open (block_text bs ++ rest)) line)); [exact FB|reflexivity].
Qed.

(* ---- C20 ---- *)
Definition is_missing (f : fld) : Prop :=
  match f with FBlank => True | FNum neg ip fp => (fixed_val neg ip fp == 0)%Q end.

Lemma expects_nth scales : forall ms i vs k m, expects scales i ms vs -> nth_error ms k = Some m ->
  exists v sc, nth_error vs k = Some v /\ nth_error scales (i + k) = Some sc /\ reads m sc v.
Proof.
  induction ms as [|x ms IH]; intros i vs k m E N; [destruct k; discriminate|].
  destruct vs as [|v vs]; [contradiction|]. cbn [expects] in E. destruct E as [(sc & E1 & E2) E].
  destruct k as [|k]; cbn [nth_error] in N |- *.
  - injection N as <-. exists v, sc. rewrite Nat.add_0_r. auto.
  - destruct (IH (S i) vs k m E N) as (v' & sc' & A1 & A2 & A3). exists v', sc'.
    rewrite <- Nat.add_succ_comm. auto.
Qed.

Lemma missing_partial nobs scales bs rest line : 1 <= nobs -> scales_ok nobs scales -> Forall (beacon_ok nobs) bs ->
  exists obs r', read_data_block nobs scales (Z.of_nat (length bs)) (RState (s_open (block_text bs ++ rest)) line)
     = Ok (0%Z, obs, r') /\
    forall i k b m, nth_error bs i = Some b -> nth_error (mb_fields b) k = Some m -> is_missing (mf_v m) ->
      nth_error scales k = Some 1%Z ->
      exists o v, nth_error obs i = Some o /\ nth_error (b_vals o) k = Some v /\ (rv v == MISSING)%Q.
Proof.
  intros Hn Hsc FB. destruct (block_roundtrip nobs scales bs rest line Hn Hsc FB) as (obs & r' & E & F2 & _).
  exists obs, r'. split; [exact E|]. intros i k b m Nb Nm Hm Ns.
  assert (X : exists o, nth_error obs i = Some o /\ reported scales b o).
  { clear -F2 Nb. revert i Nb. induction F2 as [|b0 o0 bs obs H _ IH]; intros [|i] Nb; cbn [nth_error] in *; try discriminate.
    - injection Nb as <-. exists o0. auto.
    - apply IH, Nb. }
  destruct X as (o & No & _ & Ev). destruct (expects_nth _ _ _ _ _ _ Ev Nm) as (v & sc & N1 & N2 & (R & _)).
  cbn [Nat.add] in N2. rewrite Ns in N2. injection N2 as <-.
  exists o, v. split; [exact No|]. split; [exact N1|]. rewrite R.
  unfold Qdiv. rewrite Qmult_1_r. destruct (mf_v m) as [|neg ip fp]; [reflexivity|].
  cbn [is_missing content] in *. apply Qeq_bool_iff in Hm. rewrite Hm. reflexivity.
Qed.

Definition blank_beacon : mbeacon := MB ["D"; "0"; "1"]%char [MF FBlank " " " "]%char.
Lemma missing_refuted : exists obs r,
  read_data_block 1 [10%Z] 1 (RState (s_open (block_text [blank_beacon])) []) = Ok (0%Z, obs, r) /\
  exists v, map b_vals obs = [[v]] /\ ~ (rv v == MISSING)%Q.
Proof.
  eexists _, _. split; [vm_compute; reflexivity|]. eexists. split; [reflexivity|].
  cbn [rv]. rewrite <- Qeq_bool_iff. vm_compute. discriminate.
Qed.

(* ================= C21: no stale bytes ================= *)
Definition row_sizes (nobs : nat) : list nat := map (@length nat) (rows5 (seq 0 nobs)).
(* every line holds at least its own columns *)
Fixpoint long_lines (sizes : list nat) (s : stream) : Prop :=
  match sizes with
  | [] => True
  | k :: rest => let (t, s') := getline MAX_RECORD_CHARS s in 3 + 16 * k <= length t /\ long_lines rest s'
  end.
Definition same_result (a b : outcome (Z * list beacon_obs * rstate)) : Prop :=
  match a, b with
  | Ok (c, o, r), Ok (c', o', r') => c = c' /\ o = o' /\ r_st r = r_st r'
  | UB, UB => True
  | _, _ => False
  end.
Definition same_beacon (a b : outcome (Z * beacon_obs * rstate)) : Prop :=
  match a, b with
  | Ok (c, o, r), Ok (c', o', r') => c = c' /\ o = o' /\ r_st r = r_st r'
  | UB, UB => True
  | _, _ => False
  end.

Lemma columns_prefix (a b : chars) n off k : firstn n a = firstn n b -> off + k <= n -> columns a off k = columns b off k.
Proof.
  intros E L. unfold columns. rewrite !firstn_skipn_comm. f_equal.
  assert (X : forall l : chars, firstn (off + k) l = firstn (off + k) (firstn n l)).
  { intros l. rewrite firstn_firstn, Nat.min_l by exact L. reflexivity. }
  rewrite (X a), (X b), E. reflexivity.
Qed.
Lemma load_prefix (a b : chars) n i : firstn n a = firstn n b -> i < n -> load a i = load b i.
Proof.
  intros E L. assert (X : forall l : chars, nth_error l i = nth_error (firstn n l) i).
  { clear -L. revert i L. induction n as [|n IH]; intros i L l; [lia|].
    destruct l as [|x l]; [now destruct i|]. destruct i as [|i]; [reflexivity|]. cbn [nth_error firstn]. apply IH. lia. }
  unfold load. now rewrite (X a), (X b), E.
Qed.
Lemma read_field_prefix a b n k sc : firstn n a = firstn n b -> 3 + 16 * (k + 1) <= n -> read_field a k sc = read_field b k sc.
Proof.
  intros E L. unfold read_field. rewrite (columns_prefix a b n _ _ E) by lia.
  rewrite (load_prefix a b n (3 + k * 16 + 14) E), (load_prefix a b n (3 + k * 16 + 15) E) by lia. reflexivity.
Qed.

Lemma row_sizes_len {A} : forall n (l : list A), length l <= n -> map (@length A) (rows5 l) = row_sizes (length l).
Proof.
  assert (G : forall n A B (l : list A) (m : list B), length l <= n -> length l = length m ->
            map (@length A) (rows5 l) = map (@length B) (rows5 m)).
  { clear. induction n as [|n IH]; intros A B l m L E.
    - destruct l; [|simpl in L; lia]. destruct m; [reflexivity|discriminate].
    - destruct (Nat.le_gt_cases (length l) 5) as [S5|G5].
      + destruct l as [|a l]; [destruct m; [reflexivity|discriminate]|].
        rewrite !rows5_short by (cbn [length] in *; lia). cbn [map]. now rewrite E.
      + rewrite (rows5_long l), (rows5_long m) by lia. cbn [map]. rewrite !firstn_length, E. f_equal. apply IH; rewrite !skipn_length; lia. }
  intros n l L. unfold row_sizes. apply (G n); [exact L|]. now rewrite seq_length.
Qed.
Lemma row_sizes_step n : 0 < n -> row_sizes n = Nat.min 5 n :: row_sizes (n - 5).
Proof.
  intros H. unfold row_sizes at 1. destruct (Nat.le_gt_cases n 5) as [S5|G5].
  - rewrite rows5_short by (rewrite seq_length; lia). cbn [map]. rewrite seq_length, Nat.min_r by lia.
    replace (n - 5) with 0 by lia. reflexivity.
  - rewrite rows5_long by (rewrite seq_length; lia). cbn [map]. rewrite firstn_length, seq_length.
    rewrite (row_sizes_len (n - 5)) by (rewrite skipn_length, seq_length; lia).
    rewrite skipn_length, seq_length. reflexivity.
Qed.

Lemma mod_step c : c mod 5 < 4 -> (c + 1) mod 5 = c mod 5 + 1.
Proof.
  intros H. rewrite Nat.add_mod by lia. change (1 mod 5) with 1. apply Nat.mod_small. lia.
Qed.
Lemma mod_wrap c : c mod 5 = 4 -> (c + 1) mod 5 = 0.
Proof. intros H. rewrite Nat.add_mod by lia. rewrite H. reflexivity. Qed.

Lemma read_obs_same scales rest : forall todo curobs left id vals r1 r2,
  r_st r1 = r_st r2 -> left <= todo ->
  (left = 0 -> todo = 0 \/ curobs mod 5 = 0) ->
  (0 < left -> curobs mod 5 <> 0 /\ (curobs mod 5 + left = 5 \/ left = todo) /\
     firstn (3 + 16 * (curobs mod 5 + left)) (r_line r1) = firstn (3 + 16 * (curobs mod 5 + left)) (r_line r2)) ->
  curobs mod 5 + left <= 5 ->
  long_lines (row_sizes (todo - left) ++ rest) (r_st r1) ->
  same_beacon (read_obs scales todo curobs id vals r1) (read_obs scales todo curobs id vals r2) /\
  (forall o r', read_obs scales todo curobs id vals r1 = Ok (0%Z, o, r') -> long_lines rest (r_st r')).
Proof.
  induction todo as [|todo IH]; intros curobs left id vals r1 r2 ES LT Z0 P0 L5 LL; cbn [read_obs].
  - cbn [same_beacon]. split; [auto|]. intros o r' E. injection E as _ <-.
    replace (0 - left) with 0 in LL by lia. exact LL.
  - set (n := 3 + 16 * (curobs mod 5 + (if Nat.eqb left 0 then Nat.min 5 (S todo) else left))).
    set (x1 := if Nat.eqb (curobs mod 5) 0 then next_line r1 else r1).
    set (x2 := if Nat.eqb (curobs mod 5) 0 then next_line r2 else r2).
    set (left' := (if Nat.eqb left 0 then Nat.min 5 (S todo) else left) - 1).
    assert (X : r_st x1 = r_st x2 /\ firstn n (r_line x1) = firstn n (r_line x2) /\
                long_lines (row_sizes (todo - left') ++ rest) (r_st x1)).
    { unfold n, x1, x2, left'. destruct (Nat.eqb_spec left 0) as [->|NL].
      - destruct (Z0 eq_refl) as [D|C0]; [lia|]. rewrite C0. cbn [Nat.eqb]. unfold next_line. rewrite <- ES.
        rewrite Nat.sub_0_r, row_sizes_step in LL by lia. cbn [app long_lines] in LL.
        destruct (getline MAX_RECORD_CHARS (r_st r1)) as [t s'] eqn:G. cbn [r_st r_line]. destruct LL as [Lt LL].
        split; [reflexivity|]. split.
        + unfold into_buffer. rewrite !firstn_app. replace (3 + 16 * (0 + Nat.min 5 (S todo)) - length t) with 0 by lia.
          reflexivity.
        + replace (todo - (Nat.min 5 (S todo) - 1)) with (S todo - 5) by lia. exact LL.
      - destruct P0 as (C0 & D & E); [lia|]. destruct (Nat.eqb_spec (curobs mod 5) 0); [contradiction|].
        split; [exact ES|]. split; [exact E|]. replace (todo - (left - 1)) with (S todo - left) by lia. exact LL. }
    destruct X as (XS & XL & XLL).
    assert (N0 : 3 + 16 * (curobs mod 5 + 1) <= n) by (unfold n; destruct (Nat.eqb_spec left 0); lia).
    rewrite (load_prefix (r_line x1) (r_line x2) n 0 XL) by lia.
    destruct (load (r_line x2) 0) as [c0|]; cbn [obind]; [|split; [exact Logic.I|discriminate]].
    destruct (Nat.eqb curobs 0 && negb (Ascii.eqb c0 "D")).
    { split; [cbn [same_beacon]; auto|]. intros o r' E. discriminate. }
    rewrite (columns_prefix (r_line x1) (r_line x2) n 0 3 XL) by lia.
    destruct (load scales curobs) as [sc|]; cbn [obind]; [|split; [exact Logic.I|discriminate]].
    rewrite (read_field_prefix (r_line x1) (r_line x2) n _ sc XL N0).
    destruct (read_field (r_line x2) (curobs mod 5) sc) as [[v|]|]; cbn [obind];
      [|split; [cbn [same_beacon]; auto|intros o r' E; discriminate]|split; [exact Logic.I|discriminate]].
    rewrite <- Nat.add_1_r.
    assert (CB : curobs mod 5 < 5) by (apply Nat.mod_upper_bound; lia).
    apply (IH (curobs + 1) left'); try assumption.
    + unfold left'. destruct (Nat.eqb_spec left 0); lia.
    + intros L0. unfold left' in L0. destruct (Nat.eqb_spec left 0) as [->|NL].
      * left. lia.
      * assert (left = 1) by lia. subst left. destruct P0 as (C0 & D & E); [lia|].
        destruct D as [D|D]; [right; apply mod_wrap; lia|left; lia].
    + intros L0. assert (C4 : curobs mod 5 < 4).
      { unfold left' in L0. destruct (Nat.eqb_spec left 0) as [->|NL]; [destruct (Z0 eq_refl); lia|lia]. }
      rewrite (mod_step _ C4). split; [lia|]. split.
      * unfold left'. destruct (Nat.eqb_spec left 0) as [->|NL].
        -- destruct (Z0 eq_refl) as [?|C0]; [lia|]. rewrite C0. lia.
        -- destruct P0 as (C0 & D & E); [lia|]. destruct D as [D|D]; [left; lia|right; lia].
      * replace (3 + 16 * (curobs mod 5 + 1 + left')) with n; [exact XL|]. unfold n, left' in *.
        destruct (Nat.eqb_spec left 0); lia.
    + unfold left'. destruct (Nat.eq_dec (curobs mod 5) 4) as [C4|C4].
      * rewrite (mod_wrap _ C4). destruct (Nat.eqb_spec left 0); lia.
      * rewrite mod_step by lia. destruct (Nat.eqb_spec left 0) as [->|NL]; [|lia].
        destruct (Z0 eq_refl) as [?|C0]; [lia|]. rewrite C0. lia.
Qed.

Lemma no_stale_partial nobs scales num s l1 l2 :
  long_lines (concat (repeat (row_sizes nobs) (Z.to_nat num))) s ->
  same_result (read_data_block nobs scales num (RState s l1)) (read_data_block nobs scales num (RState s l2)).
Proof.
  unfold read_data_block. intros H.
  assert (G : forall k acc r1 r2, r_st r1 = r_st r2 -> long_lines (concat (repeat (row_sizes nobs) k)) (r_st r1) ->
     same_result (read_beacons nobs scales k acc r1) (read_beacons nobs scales k acc r2)).
  { clear. induction k as [|k IH]; intros acc r1 r2 ES LL; cbn [read_beacons].
    - cbn. auto.
    - cbn [repeat concat] in LL.
      destruct (read_obs_same scales (concat (repeat (row_sizes nobs) k)) nobs 0 0 None [] r1 r2 ES)
        as [SB CL]; [lia|intros _; right; reflexivity|lia|cbn; lia|rewrite Nat.sub_0_r; exact LL|].
      destruct (read_obs scales nobs 0 None [] r1) as [[[c1 o1] y1]|], (read_obs scales nobs 0 None [] r2) as [[[c2 o2] y2]|];
        cbn [same_beacon] in SB; try contradiction; cbn [obind]; [|exact Logic.I].
      destruct SB as (-> & -> & ES2). destruct (Z.eqb_spec c2 0) as [->|_]; [|cbn; auto].
      apply IH; [exact ES2|]. apply (CL _ _ eq_refl). }
  apply G; [reflexivity|exact H].
Qed.

(* trailing blanks stripped: the second beacon's line ends behind its first value *)
Definition num1 (d : Z) : mfield := MF (FNum false [d] [0%Z]) " " " ".
Definition stale_head (d : Z) : chars := row_text ["D"; "0"; "1"]%char [num1 1; num1 d; num1 3].
Definition stale_tail : chars := (["D"; "0"; "2"]%char ++ fld_text (FNum false [4%Z] [0%Z])) ++ [nl].
Lemma no_stale_refuted : exists a1 b1 r1 a2 b2 r2,
  read_data_block 3 [1; 1; 1]%Z 2 (RState (s_open (stale_head 7 ++ stale_tail)) []) = Ok (0%Z, [a1; b1], r1) /\
  read_data_block 3 [1; 1; 1]%Z 2 (RState (s_open (stale_head 8 ++ stale_tail)) []) = Ok (0%Z, [a2; b2], r2) /\
  b_id b1 = b_id b2 /\ map (fun v => Qred (rv v)) (b_vals b1) = [4; 7; 3]%Q /\
  map (fun v => Qred (rv v)) (b_vals b2) = [4; 8; 3]%Q.
Proof.
  eexists _, _, _, _, _, _. split; [vm_compute; reflexivity|]. split; [vm_compute; reflexivity|].
  split; [reflexivity|]. split; vm_compute; reflexivity.
Qed.

(* ================= C22: epoch lines ================= *)
Record mepoch := ME {
  me_date : chars;                        (* 29 characters from column 2 *)
  me_flag : Z;                            (* one digit *)
  me_num : list Z;                        (* up to three digits *)
  me_clock : option (bool * list Z * list Z); (* F13.9, None = blank *)
  me_cflag : Z;
  me_tail : chars }.
Definition rjust (n : nat) (s : chars) : chars := repeat blank (n - length s) ++ s.
Definition clock_text (c : option (bool * list Z * list Z)) : chars :=
  match c with None => repeat blank 13 | Some (neg, ip, fp) => rjust 13 (fixed neg ip fp) end.
Definition after_date (e : mepoch) : chars :=
  repeat blank 2 ++ [dchar (me_flag e)] ++ rjust 3 (dstr (me_num e)) ++ repeat blank 6 ++
  clock_text (me_clock e) ++ [blank] ++ [dchar (me_cflag e)] ++ me_tail e.
Definition epoch_text (e : mepoch) : chars := ">"%char :: blank :: me_date e ++ after_date e.
Definition digit (d : Z) : Prop := (0 <= d <= 9)%Z.
Definition clock_ok (c : option (bool * list Z * list Z)) : Prop :=
  match c with
  | None => True
  | Some (neg, ip, fp) => ip ++ fp <> [] /\ digits_ok ip /\ digits_ok fp /\ length (fixed neg ip fp) <= 13
  end.
Definition clock_val (c : option (bool * list Z * list Z)) : Q :=
  match c with None => MISSING | Some (neg, ip, fp) => fixed_val neg ip fp end.
Definition epoch_ok (e : mepoch) : Prop :=
  length (me_date e) = 29 /\ ~ In nul (me_date e) /\ digit (me_flag e) /\ numeral_ok (me_num e) /\
  length (me_num e) <= 3 /\ clock_ok (me_clock e) /\ digit (me_cflag e) /\
  ~ In nul (me_tail e) /\ not_digit_next (me_tail e).
(* the header a formatted line stands for *)
Definition header_of (t : Z) (e : mepoch) (h : rhdr) : Prop :=
  h_epoch h = t /\ h_flag h = me_flag e /\ h_num h = dval (me_num e) /\
  (h_clock h == clock_val (me_clock e))%Q /\ h_cflag h = me_cflag e.

Lemma string_at_text (a b : chars) k : length a = k -> ~ In nul b ->
  string_at ((a ++ b) ++ [nul]) k = Ok b.
Proof.
  intros L N. unfold string_at. rewrite <- app_assoc, skipn_app_exact by exact L.
  rewrite existsb_app. cbn [existsb]. rewrite orb_true_r. rewrite cstr_no_nul by exact N. reflexivity.
Qed.
Lemma range_text (a b c : chars) k n : length a = k -> length b = n -> range (a ++ b ++ c) k n = Ok b.
Proof.
  intros La Lb. unfold range. rewrite columns_app_skip by exact La. rewrite firstn_app_exact by exact Lb.
  rewrite !app_length. destruct (Nat.leb_spec (k + n) (length a + (length b + length c))); [reflexivity|lia].
Qed.
Lemma digits_no_nul ds : digits_ok ds -> ~ In nul (dstr ds).
Proof.
  intros H I. apply in_map_iff in I. destruct I as (d & E & I). apply (f_equal code) in E.
  pose proof (proj1 (Forall_forall _ _) H d I) as B. cbv beta in B. rewrite code_dchar in E by exact B.
  change (code nul) with 0%Z in E. lia.
Qed.
Lemma blanks_no_nul n : ~ In nul (repeat blank n).
Proof. intros I. apply repeat_spec in I. discriminate. Qed.
Lemma fixed_no_nul neg ip fp : digits_ok ip -> digits_ok fp -> ~ In nul (fixed neg ip fp).
Proof.
  intros Hi Hf I. destruct (fixed_chars _ _ _ _ Hi Hf I) as [E|[E|(d & Hd & E)]]; try discriminate.
  apply (f_equal code) in E. rewrite code_dchar in E by exact Hd. change (code nul) with 0%Z in E. lia.
Qed.
Lemma dchar_no_nul d : digit d -> dchar d <> nul.
Proof. unfold digit. intros H E. apply (f_equal code) in E. rewrite code_dchar in E by exact H. change (code nul) with 0%Z in E. lia. Qed.
Lemma rjust_length n s : length s <= n -> length (rjust n s) = n.
Proof. intros L. unfold rjust. rewrite app_length, repeat_length. lia. Qed.
Lemma clock_length c : clock_ok c -> length (clock_text c) = 13.
Proof.
  destruct c as [[[neg ip] fp]|]; cbn [clock_ok clock_text]; intros H; [apply rjust_length; tauto|apply repeat_length].
Qed.
Lemma clock_no_nul c : clock_ok c -> ~ In nul (clock_text c).
Proof.
  destruct c as [[[neg ip] fp]|]; cbn [clock_ok clock_text]; [|intros _; apply blanks_no_nul].
  intros (_ & Hi & Hf & _) I. unfold rjust in I. apply in_app_or in I. destruct I as [I|I].
  - exact (blanks_no_nul _ I).
  - exact (fixed_no_nul _ _ _ Hi Hf I).
Qed.

Lemma dval3 ds : digits_ok ds -> length ds <= 3 -> (0 <= dval ds < 1000)%Z.
Proof.
  intros Hd L. split; [apply dval_nonneg, Hd|]. unfold digits_ok in Hd.
  destruct ds as [|a [|b [|c [|]]]]; cbn [length] in L; try lia; rewrite ?Forall_cons_iff in Hd; cbv beta in Hd;
    unfold dval; cbn [fold_left]; lia.
Qed.
Lemma strtol_digits n ds rest : numeral_ok ds -> not_digit_next rest -> (length ds <= 3)%nat ->
  strtol (repeat blank n ++ dstr ds ++ rest) = LRes (dval ds) (n + length ds) false.
Proof.
  intros Hok Hr L. pose proof (strtol_numeral n false ds rest Hok Hr) as E. cbn [numeral nval app] in E.
  rewrite E.
  - unfold dstr. now rewrite map_length.
  - pose proof (dval3 ds (proj2 Hok) L).
    unfold LONG_MIN, LONG_MAX. lia.
Qed.
Lemma strtol_digit n d rest : digit d -> not_digit_next rest ->
  strtol (repeat blank n ++ dchar d :: rest) = LRes d (n + 1) false.
Proof.
  intros Hd Hr. pose proof (strtol_digits n [d] rest) as E. cbn [dstr map app length] in E.
  rewrite E; [unfold dval; cbn [fold_left]; f_equal; lia| |exact Hr|lia].
  split; [discriminate|]. constructor; [exact Hd|constructor].
Qed.
Lemma epoch_roundtrip strptime e t hdr : epoch_ok e -> strptime (me_date e ++ after_date e) = Some t ->
  exists h, resolve_data_epoch strptime (epoch_text e ++ [nul]) hdr = Ok (0%Z, h) /\ header_of t e h.
Proof.
  intros (Ld & Nd & Hf & Hn & Ln & Hc & Hcf & Nt & Dt) HS.
  assert (LN : length (dstr (me_num e)) <= 3) by (unfold dstr; rewrite map_length; exact Ln).
  set (f := dchar (me_flag e)). set (num := rjust 3 (dstr (me_num e))). set (clk := clock_text (me_clock e)).
  set (tl := dchar (me_cflag e) :: me_tail e).
  assert (ET : epoch_text e = [">"%char; blank] ++ me_date e ++ ([blank; blank; f] ++ num ++ repeat blank 6 ++ clk ++ repeat blank 1 ++ tl))
    by reflexivity.
  assert (Lnum : length num = 3) by (apply rjust_length; exact LN).
  assert (Lclk : length clk = 13) by (apply clock_length; exact Hc).
  assert (Nf : f <> nul) by (apply dchar_no_nul, Hf).
  assert (Ntl : ~ In nul tl).
  { unfold tl. intros [I|I]; [exact (dchar_no_nul _ Hcf I)|exact (Nt I)]. }
  assert (Nnum : ~ In nul num).
  { unfold num, rjust. intros I. apply in_app_or in I. destruct I as [I|I]; [exact (blanks_no_nul _ I)|].
    exact (digits_no_nul _ (proj2 Hn) I). }
  assert (Nclk : ~ In nul clk) by (apply clock_no_nul, Hc).
  assert (NA : ~ In nul (clk ++ repeat blank 1 ++ tl)).
  { rewrite !in_app_iff. intros [I|[I|I]]; [exact (Nclk I)|exact (blanks_no_nul _ I)|exact (Ntl I)]. }
  unfold resolve_data_epoch.
  replace (load (epoch_text e ++ [nul]) 0) with (Ok ">"%char) by reflexivity. cbn [obind].
  change (negb (">" =? ">")%char) with false. cbv iota.
  assert (S2 : string_at (epoch_text e ++ [nul]) 2 = Ok (me_date e ++ after_date e)).
  { rewrite ET. rewrite (string_at_text [">"%char; blank]); [reflexivity|reflexivity|].
    rewrite !in_app_iff. intros [I|[I|[I|[I|I]]]]; [exact (Nd I)| |exact (Nnum I)|exact (blanks_no_nul _ I)|].
    - destruct I as [I|[I|[I|[]]]]; [discriminate|discriminate|exact (Nf I)].
    - apply NA. rewrite !in_app_iff. exact I. }
  rewrite S2. cbn [obind]. rewrite HS.
  assert (R31 : range (epoch_text e ++ [nul]) 31 3 = Ok [blank; blank; f]).
  { rewrite ET. replace (([">"%char; blank] ++ me_date e ++ [blank; blank; f] ++ num ++ repeat blank 6 ++ clk ++ repeat blank 1 ++ tl) ++ [nul])
      with (([">"%char; blank] ++ me_date e) ++ [blank; blank; f] ++ (num ++ repeat blank 6 ++ clk ++ repeat blank 1 ++ tl ++ [nul]))
      by (rewrite <- !app_assoc; reflexivity).
    apply range_text; [rewrite app_length; cbn [length]; lia|reflexivity]. }
  rewrite R31. cbn [obind].
  assert (C31 : cstr ([blank; blank; f] ++ [nul]) = repeat blank 2 ++ dchar (me_flag e) :: []).
  { change ([blank; blank; f] ++ [nul]) with ([blank; blank; f] ++ nul :: []). rewrite cstr_no_nul; [reflexivity|].
    intros [I|[I|[I|[]]]]; [discriminate|discriminate|exact (Nf I)]. }
  rewrite C31, strtol_digit by (try exact Hf; exact Logic.I). cbn [l_used l_range l_val Nat.add Nat.eqb orb].
  assert (R34 : range (epoch_text e ++ [nul]) 34 3 = Ok num).
  { rewrite ET. replace (([">"%char; blank] ++ me_date e ++ [blank; blank; f] ++ num ++ repeat blank 6 ++ clk ++ repeat blank 1 ++ tl) ++ [nul])
      with (([">"%char; blank] ++ me_date e ++ [blank; blank; f]) ++ num ++ (repeat blank 6 ++ clk ++ repeat blank 1 ++ tl ++ [nul]))
      by (rewrite <- !app_assoc; reflexivity).
    apply range_text; [rewrite !app_length; cbn [length]; lia|exact Lnum]. }
  rewrite R34. cbn [obind].
  assert (C34 : strtol (cstr (num ++ [nul])) = LRes (dval (me_num e)) 3 false).
  { rewrite cstr_no_nul by exact Nnum. unfold num, rjust. rewrite <- (app_nil_r (dstr (me_num e))) at 2.
    rewrite strtol_digits; [|exact Hn|exact Logic.I|exact Ln]. f_equal. unfold dstr in *. rewrite map_length in *. lia. }
  rewrite C34. cbn [l_used l_range l_val Nat.eqb orb].
  assert (R43 : range (epoch_text e ++ [nul]) 43 13 = Ok clk).
  { rewrite ET. replace (([">"%char; blank] ++ me_date e ++ [blank; blank; f] ++ num ++ repeat blank 6 ++ clk ++ repeat blank 1 ++ tl) ++ [nul])
      with (([">"%char; blank] ++ me_date e ++ [blank; blank; f] ++ num ++ repeat blank 6) ++ clk ++ (repeat blank 1 ++ tl ++ [nul]))
      by (rewrite <- !app_assoc; reflexivity).
    apply range_text; [rewrite !app_length, repeat_length; cbn [length]; lia|exact Lclk]. }
  rewrite R43. cbn [obind].
  assert (S43 : string_at (epoch_text e ++ [nul]) 43 = Ok (clk ++ repeat blank 1 ++ tl)).
  { rewrite ET. replace ([">"%char; blank] ++ me_date e ++ [blank; blank; f] ++ num ++ repeat blank 6 ++ clk ++ repeat blank 1 ++ tl)
      with (([">"%char; blank] ++ me_date e ++ [blank; blank; f] ++ num ++ repeat blank 6) ++ (clk ++ repeat blank 1 ++ tl))
      by (rewrite <- !app_assoc; reflexivity).
    apply string_at_text; [rewrite !app_length, repeat_length; cbn [length]; lia|exact NA]. }
  rewrite S43. cbn [obind].
  assert (S56 : string_at (epoch_text e ++ [nul]) 56 = Ok (repeat blank 1 ++ tl)).
  { rewrite ET. replace ([">"%char; blank] ++ me_date e ++ [blank; blank; f] ++ num ++ repeat blank 6 ++ clk ++ repeat blank 1 ++ tl)
      with (([">"%char; blank] ++ me_date e ++ [blank; blank; f] ++ num ++ repeat blank 6 ++ clk) ++ (repeat blank 1 ++ tl))
      by (rewrite <- !app_assoc; reflexivity).
    apply string_at_text; [rewrite !app_length, repeat_length; cbn [length]; lia|].
    rewrite in_app_iff. intros [I|I]; [exact (blanks_no_nul _ I)|exact (Ntl I)]. }
  rewrite S56.
  assert (C56 : strtol (repeat blank 1 ++ tl) = LRes (me_cflag e) 2 false).
  { unfold tl. rewrite strtol_digit by (try exact Hcf; exact Dt). reflexivity. }
  pose proof (dval3 _ (proj2 Hn) Ln) as B3. unfold digit in Hf, Hcf.
  assert (W : wrap 64 (dval (me_num e)) = dval (me_num e) /\ wrap 8 (me_flag e) = me_flag e /\ wrap 8 (me_cflag e) = me_cflag e).
  { split; [|split]; apply wrap_id; try lia; cbn; lia. }
  destruct W as (W1 & W2 & W3).
  destruct (me_clock e) as [[[neg ip] fp]|] eqn:EC; cbn [clock_ok clock_text] in *; unfold clk in *.
  - destruct Hc as (Hne & Hi & Hfp & Hl).
    assert (NB : forallb (Ascii.eqb blank) (rjust 13 (fixed neg ip fp)) = false).
    { apply not_true_iff_false. intros T. rewrite forallb_forall in T.
      assert (I : In "."%char (rjust 13 (fixed neg ip fp))).
      { unfold rjust, fixed. rewrite !in_app_iff. right. right. right. left. left. reflexivity. }
      specialize (T _ I). discriminate. }
    rewrite NB. cbn [negb]. unfold rjust. rewrite <- app_assoc.
    destruct (strtod_fixed (13 - length (fixed neg ip fp)) neg ip fp (repeat blank 1 ++ tl) Hne Hi Hfp) as (q & Eq & Hq);
      [repeat split; try discriminate; reflexivity|].
    rewrite Eq.
    assert (PF : 0 < length (fixed neg ip fp)).
    { unfold fixed. rewrite !app_length. simpl. destruct neg; simpl; lia. }
    destruct (Nat.eqb_spec (13 - length (fixed neg ip fp) + length (fixed neg ip fp)) 0); [lia|].
    cbn [obind]. rewrite C56. cbn [l_used l_range l_val Nat.eqb orb]. eexists. split; [reflexivity|]. unfold header_of. rewrite EC. cbn [h_epoch h_flag h_num h_clock h_cflag clock_val].
    repeat split; try assumption.
  - assert (NB : forallb (Ascii.eqb blank) (repeat blank 13) = true) by reflexivity. rewrite NB. cbn [negb obind].
    rewrite C56. cbn [l_used l_range l_val Nat.eqb orb]. eexists. split; [reflexivity|]. unfold header_of. rewrite EC. cbn [h_epoch h_flag h_num h_clock h_cflag clock_val].
    repeat split; try assumption; reflexivity.
Qed.

(* ---- rejection ---- *)
(* the characters start with a decimal integer *)
Definition holds_int (s : chars) : Prop := exists ws sg ds rest,
  s = ws ++ sg ++ dstr ds ++ rest /\ Forall (fun c => is_space c = true) ws /\
  (sg = [] \/ sg = ["-"%char] \/ sg = ["+"%char]) /\ numeral_ok ds.

Lemma skip_spaces_spec s k r : skip_spaces s = (k, r) -> exists ws, s = ws ++ r /\ Forall (fun c => is_space c = true) ws.
Proof.
  revert k r; induction s as [|c s IH]; intros k r; cbn [skip_spaces].
  - intros E. injection E as _ <-. exists []. split; [reflexivity|constructor].
  - destruct (is_space c) eqn:S.
    + destruct (skip_spaces s) as [k' r'] eqn:E. intros X. injection X as _ <-.
      destruct (IH _ _ eq_refl) as (ws & -> & F). exists (c :: ws). split; [reflexivity|]. now constructor.
    + intros E. injection E as _ <-. exists []. split; [reflexivity|constructor].
Qed.
Lemma digits_spec s : forall acc v n r, digits acc s = (v, n, r) ->
  exists ds, s = dstr ds ++ r /\ digits_ok ds /\ length ds = n.
Proof.
  induction s as [|c s IH]; intros acc v n r; cbn [digits].
  - intros E. injection E as _ <- <-. exists []. repeat split; constructor.
  - unfold digit_of. destruct ((48 <=? code c) && (code c <=? 57))%Z eqn:D.
    + destruct (digits (acc * 10 + (code c - 48)) s) as [[v' n'] r'] eqn:E. intros X. injection X as _ <- <-.
      destruct (IH _ _ _ _ E) as (ds & -> & F & L). exists (code c - 48 :: ds)%Z.
      apply andb_true_iff in D. destruct D as [D1 D2]. apply Z.leb_le in D1, D2. split; [|split].
      * cbn [dstr map app]. f_equal. apply code_inj. rewrite code_dchar by lia. lia.
      * constructor; [lia|exact F].
      * cbn [length]. lia.
    + intros E. injection E as _ <- <-. exists []. repeat split; constructor.
Qed.
Lemma strtol_used s : l_used (strtol s) <> 0 -> holds_int s.
Proof.
  unfold strtol. destruct (skip_spaces s) as [k s1] eqn:E1. destruct (skip_spaces_spec _ _ _ E1) as (ws & -> & Fw).
  destruct (sign_of s1) as [[neg k1] s2] eqn:E2. destruct (digits 0 s2) as [[v n] r] eqn:E3.
  destruct (digits_spec _ _ _ _ _ E3) as (ds & -> & Fd & Ln).
  destruct (Nat.eqb_spec n 0) as [->|N]; [intros X; exfalso; apply X; reflexivity|]. intros _.
  assert (G : exists sg, s1 = sg ++ dstr ds ++ r /\ (sg = [] \/ sg = ["-"%char] \/ sg = ["+"%char])).
  { unfold sign_of in E2. destruct s1 as [|c t].
    - injection E2 as _ _ E. exists []. split; [exact E|auto].
    - destruct (Ascii.eqb_spec c "-") as [->|_]; [injection E2 as _ _ ->; exists ["-"%char]; auto|].
      destruct (Ascii.eqb_spec c "+") as [->|_]; [injection E2 as _ _ ->; exists ["+"%char]; auto|].
      injection E2 as _ _ E. exists []. auto. }
  destruct G as (sg & -> & Hsg). exists ws, sg, ds, r. repeat split; try assumption.
  intros ->. apply N. symmetry. exact Ln.
Qed.

Lemma first_error_nz st c : c <> 0%Z -> first_error st c <> 0%Z.
Proof. unfold first_error. destruct (Z.eqb_spec st 0); auto. Qed.
Lemma columns_cstr s : cstr (s ++ [nul]) = cstr s.
Proof. induction s as [|c s IH]; [reflexivity|]. cbn [app cstr]. destruct (Ascii.eqb c nul); [reflexivity|]. now rewrite IH. Qed.

Lemma epoch_accepts strptime line hdr h : resolve_data_epoch strptime line hdr = Ok (0%Z, h) ->
  nth_error line 0 = Some ">"%char /\
  (exists t, strptime (cstr (skipn 2 line)) = Some t /\ h_epoch h = t) /\
  holds_int (cstr (firstn 3 (skipn 31 line))) /\ holds_int (cstr (firstn 3 (skipn 34 line))) /\
  (forallb (Ascii.eqb blank) (firstn 13 (skipn 43 line)) = true /\ h_clock h = MISSING \/
   snd (strtod (cstr (skipn 43 line))) <> 0 /\ h_clock h = fst (strtod (cstr (skipn 43 line)))) /\
  holds_int (cstr (skipn 56 line)).
Proof.
  unfold resolve_data_epoch. unfold load at 1. destruct (nth_error line 0) as [c0|]; cbn [of_option obind]; [|discriminate].
  destruct (Ascii.eqb_spec c0 ">") as [->|_]; cbn [negb]; [|discriminate].
  assert (SA : forall k s, string_at line k = Ok s -> s = cstr (skipn k line)).
  { intros k s. unfold string_at. destruct (existsb _ _); [|discriminate]. intros E. now injection E as <-. }
  assert (RA : forall k n s, range line k n = Ok s -> s = firstn n (skipn k line)).
  { intros k n s. unfold range. destruct (Nat.leb _ _); [|discriminate]. intros E. now injection E as <-. }
  destruct (string_at line 2) as [s2|] eqn:E2; cbn [obind]; [|discriminate]. apply SA in E2. subst s2.
  destruct (strptime (cstr (skipn 2 line))) as [t|];
    (destruct (range line 31 3) as [x31|] eqn:E31; cbn [obind]; [|discriminate]; apply RA in E31; subst x31;
     destruct (range line 34 3) as [x34|] eqn:E34; cbn [obind]; [|discriminate]; apply RA in E34; subst x34;
     destruct (range line 43 13) as [x43|] eqn:E43; cbn [obind]; [|discriminate]; apply RA in E43; subst x43;
     destruct (string_at line 43) as [s43|] eqn:E43'; cbn [obind]; [|discriminate]; apply SA in E43'; subst s43;
     rewrite !columns_cstr;
     destruct (Nat.eqb_spec (l_used (strtol (cstr (firstn 3 (skipn 31 line))))) 0) as [|U1]; cbn [orb];
     destruct (l_range (strtol (cstr (firstn 3 (skipn 31 line)))));
     destruct (Nat.eqb_spec (l_used (strtol (cstr (firstn 3 (skipn 34 line))))) 0) as [|U2]; cbn [orb];
     destruct (l_range (strtol (cstr (firstn 3 (skipn 34 line)))));
     destruct (forallb (Ascii.eqb blank) (firstn 13 (skipn 43 line))); cbn [negb];
     destruct (strtod (cstr (skipn 43 line))) as [v used];
     destruct (string_at line 56) as [s56|] eqn:E56; cbn [obind]; try discriminate; apply SA in E56; subst s56;
     destruct (Nat.eqb_spec used 0); destruct (Nat.eqb_spec (l_used (strtol (cstr (skipn 56 line)))) 0) as [|U3]; cbn [orb];
     destruct (l_range (strtol (cstr (skipn 56 line)))); try discriminate;
     intros E; injection E as <-; cbn [h_epoch h_clock fst snd];
     (split; [reflexivity|]); (split; [eexists; split; reflexivity|]);
     (split; [apply strtol_used, U1|]); (split; [apply strtol_used, U2|]); (split; [auto|apply strtol_used, U3])).
Qed.

(* ================= C23: the iterator ================= *)
Record mblock := MBlk { bl_epoch : mepoch; bl_beacons : list mbeacon }.
Definition mblock_text (b : mblock) : chars := epoch_text (bl_epoch b) ++ nl :: block_text (bl_beacons b).
Definition mblock_ok (nobs : nat) (b : mblock) : Prop :=
  epoch_ok (bl_epoch b) /\ ~ In nl (epoch_text (bl_epoch b)) /\ length (epoch_text (bl_epoch b)) < MAX_RECORD_CHARS /\
  dval (me_num (bl_epoch b)) = Z.of_nat (length (bl_beacons b)) /\ Forall (beacon_ok nobs) (bl_beacons b).
Definition date_of (strptime : chars -> option Z) (b : mblock) (t : Z) : Prop :=
  strptime (me_date (bl_epoch b) ++ after_date (bl_epoch b)) = Some t.

(* successive next() calls: every block once, then end of file *)
Fixpoint delivers strptime nobs scales (it : iter) (blocks : list mblock) : Prop :=
  match blocks with
  | [] => exists it', it_next strptime nobs scales it = Ok ((-1)%Z, it')
  | b :: rest => exists it' t, it_next strptime nobs scales it = Ok (0%Z, it') /\
      date_of strptime b t /\ header_of t (bl_epoch b) (it_hdr it') /\
      Forall2 (reported scales) (bl_beacons b) (it_block it') /\ delivers strptime nobs scales it' rest
  end.

Lemma iterator_delivers strptime nobs scales : 1 <= nobs -> scales_ok nobs scales -> forall blocks it,
  Forall (mblock_ok nobs) blocks -> Forall (fun b => exists t, date_of strptime b t) blocks ->
  r_st (it_r it) = s_open (flat_map mblock_text blocks) ->
  delivers strptime nobs scales it blocks.
Proof.
  intros Hn Hsc. induction blocks as [|b bs IH]; intros it FB FD ES; cbn [delivers].
  - unfold it_next. rewrite ES. cbn. eexists. reflexivity.
  - inversion FB as [|x y (HE & NE & LE & DN & HB) FB']; subst x y. inversion FD as [|x y (t & HT) FD']; subst x y.
    unfold it_next. rewrite ES. cbn [flat_map]. unfold mblock_text at 1. rewrite <- app_assoc. cbn [app].
    rewrite getline_nl by assumption. cbn [s_open s_ok s_fail negb].
    destruct (epoch_roundtrip strptime (bl_epoch b) t (it_hdr it) HE HT) as (h & EH & HH). rewrite EH. cbn [obind].
    change (negb (0 =? 0)%Z) with false. cbv iota.
    destruct HH as (H1 & H2 & H3 & H4 & H5). rewrite H3, DN.
    destruct (block_roundtrip nobs scales (bl_beacons b) (flat_map mblock_text bs) (r_line (it_r it)) Hn Hsc HB)
      as (obs & r' & ER & RP & RS).
    rewrite ER. cbn [obind]. change (0 =? 0)%Z with true. cbv iota.
    eexists _, t. split; [reflexivity|]. cbn [it_hdr it_block].
    split; [exact HT|]. split; [repeat split; assumption|]. split; [exact RP|].
    apply IH; [exact FB'|exact FD'|exact RS].
Qed.

(* what a zero return means; every other return is the end of file or positive *)
Lemma iterator_codes strptime nobs scales it c it' : it_next strptime nobs scales it = Ok (c, it') ->
  let text := fst (getline MAX_RECORD_CHARS (r_st (it_r it))) in
  let s := snd (getline MAX_RECORD_CHARS (r_st (it_r it))) in
  (c = (-1)%Z /\ s_eof s = true /\ s_fail s = true) \/
  (c = 0%Z /\ resolve_data_epoch strptime (text ++ [nul]) (it_hdr it) = Ok (0%Z, it_hdr it') /\
     nth_error text 0 = Some ">"%char /\
     read_data_block nobs scales (h_num (it_hdr it')) (RState s (r_line (it_r it))) = Ok (0%Z, it_block it', it_r it')) \/
  (0 < c)%Z.
Proof.
  unfold it_next. destruct (getline MAX_RECORD_CHARS (r_st (it_r it))) as [text s]. cbn [fst snd].
  unfold s_ok. destruct (s_fail s) eqn:F; cbn [negb].
  - intros E. injection E as <- <-. destruct (s_eof s); [left; auto|right; right; lia].
  - destruct (resolve_data_epoch strptime (text ++ [nul]) (it_hdr it)) as [[e hdr]|] eqn:ER; cbn [obind]; [|discriminate].
    destruct (Z.eqb_spec e 0) as [->|_]; cbn [negb]; [|intros E; injection E as <- <-; right; right; lia].
    destruct (read_data_block nobs scales (h_num hdr) _) as [[[k blk] r2]|] eqn:EB; cbn [obind]; [|discriminate].
    intros E. injection E as <- <-. cbn [it_hdr it_block it_r].
    destruct (Z.eqb_spec k 0) as [->|_]; [|right; right; lia]. right. left.
    split; [reflexivity|]. split; [reflexivity|]. split; [|exact EB].
    apply epoch_accepts in ER. destruct ER as [N _]. destruct text as [|x t]; [cbn in N; discriminate|exact N].
Qed.

(* a file cut off before the continuation line of its only beacon is delivered as a good block *)
Definition some_epoch : mepoch := ME (repeat "1"%char 29) 0 [1%Z] None 0 [].
Definition cut_file : chars := epoch_text some_epoch ++ [nl] ++
  row_text ["D"; "0"; "1"]%char [num1 1; num1 2; num1 3; num1 4; num1 5].
Lemma truncated_refuted : exists it' b,
  it_next (fun _ => Some 0%Z) 7 [1; 1; 1; 1; 1; 1; 1]%Z
    (Iter (RHdr 0 0 0 0 0) [] (RState (s_open cut_file) [])) = Ok (0%Z, it') /\
  it_block it' = [b] /\ map (fun v => Qred (rv v)) (b_vals b) = [1; 2; 3; 4; 5; 1; 2]%Q.
Proof.
  eexists _, _. split; [vm_compute; reflexivity|]. split; [reflexivity|]. vm_compute. reflexivity.
Qed.

(* ================= C63: emission epochs ================= *)
(* integer part of q, towards zero *)
Definition toward_zero (q : Q) (n : Z) : Prop :=
  ((0 <= q)%Q /\ (inject_Z n <= q < inject_Z (n + 1))%Q) \/ ((q <= 0)%Q /\ (inject_Z (n - 1) < q <= inject_Z n)%Q).
Definition fits (n : Z) : Prop := (- 2 ^ 63 <= n < 2 ^ 63)%Z.

Lemma trunc_ok q : toward_zero q (trunc q).
Proof.
  destruct q as [a d]. unfold trunc, toward_zero. cbn [Qnum Qden].
  destruct (Z.le_gt_cases 0 a) as [P|N].
  - left. split; [unfold Qle; cbn; lia|]. rewrite Z.quot_div_nonneg by lia.
    pose proof (Z.div_mod a (Zpos d) ltac:(lia)). pose proof (Z.mod_pos_bound a (Zpos d) ltac:(lia)).
    unfold Qle, Qlt, inject_Z. cbn [Qnum Qden]. nia.
  - right. split; [unfold Qle; cbn; lia|].
    replace a with (- (- a))%Z by lia. rewrite Z.quot_opp_l by lia. rewrite Z.quot_div_nonneg by lia.
    pose proof (Z.div_mod (- a) (Zpos d) ltac:(lia)). pose proof (Z.mod_pos_bound (- a) (Zpos d) ltac:(lia)).
    unfold Qle, Qlt, inject_Z. cbn [Qnum Qden]. nia.
Qed.
Lemma toward_zero_unique q n m : toward_zero q n -> toward_zero q m -> n = m.
Proof.
  destruct q as [a d]. unfold toward_zero, Qle, Qlt, inject_Z. cbn [Qnum Qden]. intros H1 H2.
  set (D := Zpos d) in *. assert (P : (0 < D)%Z) by (unfold D; lia). clearbody D.
  rewrite ?Z.mul_1_r in *.
  assert (L : forall u v : Z, (u * D < v * D -> u < v)%Z) by (intros u v; apply Zmult_lt_reg_r, P).
  assert (G : (n < m + 1)%Z /\ (m < n + 1)%Z); [|lia].
  destruct H1 as [(A & B & C)|(A & B & C)], H2 as [(A' & B' & C')|(A' & B' & C')]; try (split; apply L; lia).
  - pose proof (L 0 (n + 1))%Z. pose proof (L n 1)%Z. pose proof (L (m - 1) 0)%Z. pose proof (L (-1) m)%Z. lia.
  - pose proof (L 0 (m + 1))%Z. pose proof (L m 1)%Z. pose proof (L (n - 1) 0)%Z. pose proof (L (-1) n)%Z. lia.
Qed.
Lemma trunc_compat p q : (p == q)%Q -> trunc p = trunc q.
Proof.
  intros E. apply (toward_zero_unique q); [|apply trunc_ok].
  pose proof (trunc_ok p) as T. unfold toward_zero in *. rewrite <- E. exact T.
Qed.
Lemma to_long_ok q n : to_long q = Ok n <-> toward_zero q n /\ fits n.
Proof.
  unfold to_long. pose proof (trunc_ok q) as T. unfold fits, LONG_MIN, LONG_MAX.
  destruct ((- 2 ^ 63 <=? trunc q) && (trunc q <=? 2 ^ 63 - 1))%Z eqn:B.
  - apply andb_true_iff in B. rewrite !Z.leb_le in B. split.
    + intros E. injection E as <-. split; [exact T|lia].
    + intros [H _]. f_equal. exact (toward_zero_unique _ _ _ T H).
  - apply andb_false_iff in B. rewrite !Z.leb_gt in B. split; [discriminate|].
    intros [H F]. rewrite (toward_zero_unique _ _ _ H T) in F. lia.
Qed.
Lemma trunc_missing : trunc (MISSING * inject_Z 1000000000) = 0%Z.
Proof. vm_compute. reflexivity. Qed.

(* nanoseconds to add for a receiver clock offset in seconds *)
Definition clock_shift (applied : bool) (clock : Q) (n : Z) : Prop :=
  if applied then n = 0%Z
  else (clock == MISSING)%Q /\ n = 0%Z \/
       ~ (clock == MISSING)%Q /\ toward_zero (clock * inject_Z 1000000000) n /\ fits n.

Lemma l1_epoch_ok applied epoch clock t :
  corrected_l1_epoch applied epoch clock = Ok t <-> exists n, clock_shift applied clock n /\ t = (epoch + n)%Z.
Proof.
  unfold corrected_l1_epoch, clock_shift. destruct applied.
  { split; [intros E; injection E as <-; exists 0%Z; split; [reflexivity|lia]|intros (n & -> & ->); f_equal; lia]. }
  destruct (Qeq_bool clock MISSING) eqn:M.
  - apply Qeq_bool_iff in M.
    assert (X : to_long (0 * clock * inject_Z 1000000000) = Ok 0%Z).
    { unfold to_long. rewrite (trunc_compat _ 0) by ring. reflexivity. }
    rewrite X. cbn [obind]. split.
    + intros E. injection E as <-. exists 0%Z. split; [left; auto|reflexivity].
    + intros (n & [[_ ->]|[C _]] & ->); [reflexivity|contradiction].
  - assert (NM : ~ (clock == MISSING)%Q) by (rewrite <- Qeq_bool_iff; rewrite M; discriminate).
    assert (X : to_long (1 * clock * inject_Z 1000000000) = to_long (clock * inject_Z 1000000000)).
    { unfold to_long. rewrite (trunc_compat (1 * clock * inject_Z 1000000000) (clock * inject_Z 1000000000)) by ring. reflexivity. }
    rewrite X.
    split.
    + destruct (to_long (clock * inject_Z 1000000000)) as [n|] eqn:E; cbn [obind]; [|discriminate].
      intros Y. injection Y as <-. apply to_long_ok in E. exists n. split; [right; auto|reflexivity].
    + intros (n & [[C _]|(_ & H)] & ->); [contradiction|]. apply to_long_ok in H. rewrite H. reflexivity.
Qed.

Lemma epochs_agree applied epoch clock off t1 t2 :
  corrected_l12_epoch applied epoch clock off = Ok (t1, t2) <->
  corrected_l1_epoch applied epoch clock = Ok t1 /\
  exists n, toward_zero (off * inject_Z 1000) n /\ fits n /\ (t2 = t1 + n)%Z.
Proof.
  unfold corrected_l12_epoch, l21_date_offset.
  assert (S : (if applied then Ok epoch else do n <- to_long (clock * inject_Z 1000000000); Ok (epoch + n)%Z) =
              corrected_l1_epoch applied epoch clock).
  { unfold corrected_l1_epoch. destruct applied; [reflexivity|]. unfold to_long.
    destruct (Qeq_bool clock MISSING) eqn:M.
    - apply Qeq_bool_iff in M. rewrite (trunc_compat (0 * clock * inject_Z 1000000000) 0) by ring.
      rewrite (trunc_compat (clock * inject_Z 1000000000) (MISSING * inject_Z 1000000000)) by (rewrite M; reflexivity).
      rewrite trunc_missing. reflexivity.
    - rewrite (trunc_compat (1 * clock * inject_Z 1000000000) (clock * inject_Z 1000000000)) by ring. reflexivity. }
  rewrite S. destruct (corrected_l1_epoch applied epoch clock) as [t|]; cbn [obind];
    [|split; [discriminate|intros [E _]; discriminate]].
  split.
  - destruct (to_long (off * inject_Z 1000)) as [n|] eqn:E; cbn [obind]; [|discriminate].
    intros X. injection X as <- <-. split; [reflexivity|]. exists n. apply to_long_ok in E. tauto.
  - intros (E & n & T & F & ->). injection E as <-.
    assert (X : to_long (off * inject_Z 1000) = Ok n) by (apply to_long_ok; auto). rewrite X. reflexivity.
Qed.

(* ================= examples ================= *)
Lemma digits_check l : forallb (fun d => (0 <=? d) && (d <=? 9))%Z l = true -> digits_ok l.
Proof.
  intros H. apply Forall_forall. intros d I. rewrite forallb_forall in H. specialize (H d I).
  apply andb_true_iff in H. rewrite !Z.leb_le in H. exact H.
Qed.
(* seven observables (two lines per beacon): -12.345, blank, 0.0, 7.0 ... *)
Definition ex_fields : list mfield :=
  [MF (FNum true [1; 2]%Z [3; 4; 5]%Z) "1" "2"; MF FBlank " " " "; num1 0; num1 7; num1 8; MF FBlank "x" " "; num1 9]%char.
Definition ex_beacons : list mbeacon :=
  [MB ["D"; "0"; "1"]%char ex_fields; MB ["D"; "1"; "2"]%char ex_fields].
Definition ex_scales : list Z := [1; 10; -100; 1; 1; 1; 1000]%Z.
Lemma num1_ok d : digit d -> mf_ok (num1 d).
Proof.
  intros H. repeat split; try discriminate; cbn; try lia.
  - constructor; [exact H|constructor].
  - apply digits_check. reflexivity.
Qed.
Lemma ex_fields_ok : Forall mf_ok ex_fields.
Proof.
  assert (B : forall a b, a <> nl -> b <> nl -> mf_ok (MF FBlank a b)) by (intros; repeat split; auto).
  assert (D : digit 0 /\ digit 7 /\ digit 8 /\ digit 9) by (unfold digit; lia).
  unfold ex_fields. repeat (apply Forall_cons); try apply Forall_nil; try (apply B; discriminate); try (apply num1_ok; tauto).
  repeat split; try discriminate; cbn; try lia; apply digits_check; reflexivity.
Qed.
Lemma ex_beacons_ok : Forall (beacon_ok 7) ex_beacons.
Proof.
  assert (I : forall a b, a <> nl -> b <> nl -> id_ok ["D"%char; a; b]).
  { intros a b Ha Hb. split; [reflexivity|]. split; [eexists; reflexivity|].
    intros [X|[X|[X|[]]]]; [discriminate|congruence|congruence]. }
  unfold ex_beacons. repeat (apply Forall_cons); try apply Forall_nil;
    (split; [apply I; discriminate|split; [reflexivity|exact ex_fields_ok]]).
Qed.
Lemma ex_scales_ok : scales_ok 7 ex_scales.
Proof. split; [reflexivity|]. unfold ex_scales. repeat constructor; discriminate. Qed.

Definition ex_epoch (num : list Z) (c : option (bool * list Z * list Z)) : mepoch :=
  ME (repeat "1"%char 29) 0 num c 1 [].
Lemma ex_epoch_ok num c : numeral_ok num -> length num <= 3 -> clock_ok c -> epoch_ok (ex_epoch num c).
Proof.
  intros H1 H2 H3. unfold epoch_ok, ex_epoch. cbn [me_date me_flag me_num me_clock me_cflag me_tail].
  split; [reflexivity|]. split; [intros I; apply repeat_spec in I; discriminate|].
  split; [unfold digit; lia|]. split; [exact H1|]. split; [exact H2|]. split; [exact H3|].
  split; [unfold digit; lia|]. split; [intros []|exact Logic.I].
Qed.
Definition ex_blocks : list mblock :=
  [MBlk (ex_epoch [2%Z] (Some (true, [0%Z], [1; 2]%Z))) ex_beacons; MBlk (ex_epoch [0; 0]%Z None) []].
Lemma no_nl_check t : existsb (Ascii.eqb nl) t = false -> ~ In nl t.
Proof.
  intros H I. assert (X : existsb (Ascii.eqb nl) t = true) by (apply existsb_exists; exists nl; split; [exact I|reflexivity]).
  congruence.
Qed.
Lemma ex_blocks_ok : Forall (mblock_ok 7) ex_blocks.
Proof.
  unfold ex_blocks. repeat (apply Forall_cons); try apply Forall_nil; unfold mblock_ok; cbn [bl_epoch bl_beacons].
  - split; [apply ex_epoch_ok; [split; [discriminate|apply digits_check; reflexivity]|cbn; lia|]|].
    + repeat split; try discriminate; try (apply digits_check; reflexivity). cbn. lia.
    + split; [apply no_nl_check; reflexivity|]. split; [vm_compute; lia|]. split; [reflexivity|exact ex_beacons_ok].
  - split; [apply ex_epoch_ok; [split; [discriminate|apply digits_check; reflexivity]|cbn; lia|exact Logic.I]|].
    split; [apply no_nl_check; reflexivity|]. split; [vm_compute; lia|]. split; [reflexivity|constructor].
Qed.
Lemma ex_long_lines : long_lines (concat (repeat (row_sizes 7) 2)) (s_open (block_text ex_beacons)).
Proof.
  vm_compute. repeat split; repeat constructor.
Qed.
