From Coq Require Import String List ZArith QArith Ascii Bool Lia Permutation.
From Verif Require Import Base CLib_model CLib_proofs Sci_proofs Stream_model Lines_model Lines_proofs SysInfo_model SysInfo_proofs
  Harmonics_model Harmonics_proofs C04_proofs Icgem_model.
Import ListNotations.
Local Open Scope Z_scope.

(* ==== data section ==== *)
(* ---- specification: gfc files ---- *)
Record drec := DRec { d_g0 : nat; d_l : list Z; d_g1 : nat; d_m : list Z; d_g2 : nat; d_c : num; d_g3 : nat; d_s : num; d_tail : chars }.
Inductive ditem := DOther (t : chars) | DData (r : drec).
Definition drec_text (r : drec) : chars :=
  lit "gfc " ++ repeat blank (d_g0 r) ++ dstr (d_l r) ++ repeat blank (S (d_g1 r)) ++ dstr (d_m r) ++
  repeat blank (S (d_g2 r)) ++ num_text (d_c r) ++ repeat blank (S (d_g3 r)) ++ num_text (d_s r) ++ d_tail r.
Definition ditem_text (i : ditem) : chars := match i with DOther t => t | DData r => drec_text r end.
Definition key (r : drec) : nat * nat := (Z.to_nat (dval (d_l r)), Z.to_nat (dval (d_m r))).
Definition drec_ok (r : drec) : Prop :=
  numeral_ok (d_l r) /\ numeral_ok (d_m r) /\ dval (d_l r) <= INT_MAX /\ dval (d_m r) <= dval (d_l r) /\
  num_ok (d_c r) /\ num_ok (d_s r) /\ no_extension (d_tail r) /\
  (dval (d_m r) = 0 -> (num_val (d_s r) == 0)%Q).
Definition ditem_ok (i : ditem) : Prop :=
  ~ In nul (ditem_text i) /\ line_ok 512 (ditem_text i) /\
  match i with DOther t => starts_with (lit "gfc ") t = false | DData r => drec_ok r end.
(* the (degree, order) pairs of a model of degree l and order m *)
Definition pairs (l m : nat) : list (nat * nat) :=
  flat_map (fun i => map (pair i) (seq 0 (Nat.min i m + 1))) (seq 0 (l + 1)).
Fixpoint drecs (l : list ditem) : list drec :=
  match l with [] => [] | DOther _ :: t => drecs t | DData r :: t => r :: drecs t end.
Definition needed (l m : nat) (rs : list drec) : list drec :=
  filter (fun r => (dval (d_l r) <=? Z.of_nat l) && (dval (d_m r) <=? Z.of_nat m)) rs.
(* C and S values of record r are found in h *)
Definition holds_rec (h : hc Q) (r : drec) : Prop :=
  let (i, j) := key r in
  (exists q, C_get h (Z.of_nat i) (Z.of_nat j) = Ok q /\ (q == num_val (d_c r))%Q) /\
  (j <> O -> exists q, S_get h (Z.of_nat i) (Z.of_nat j) = Ok q /\ (q == num_val (d_s r))%Q).

(* ---- the number of coefficients ---- *)
Lemma in_pairs l m i j : In (i, j) (pairs l m) <-> (i <= l /\ j <= i /\ j <= m)%nat.
Proof.
  unfold pairs. rewrite in_flat_map. split.
  - intros (i' & Hi & Hj). apply in_seq in Hi. apply in_map_iff in Hj. destruct Hj as (j' & E & Hj).
    injection E as <- <-. apply in_seq in Hj. lia.
  - intros (A & B & C). exists i. split; [apply in_seq; lia|]. apply in_map_iff. exists j. split; [reflexivity|].
    apply in_seq. lia.
Qed.
Lemma pairs_length l m : length (pairs l m) = fold_left (fun s i => s + (Nat.min i m + 1))%nat (seq 0 (l + 1)) O.
Proof.
  unfold pairs. assert (A : forall L acc, (acc + length (flat_map (fun i => map (pair i) (seq 0 (Nat.min i m + 1))) L) =
    fold_left (fun s i => s + (Nat.min i m + 1)) L acc)%nat).
  { induction L as [|x L IH]; intros acc; cbn [flat_map fold_left length]; [lia|].
    rewrite app_length, map_length, seq_length, <- IH. lia. }
  rewrite <- A. reflexivity.
Qed.
Lemma sum_lin (n : nat) : (2 * fold_left (fun s i => s + (i + 1)) (seq 0 n) 0 = n * (n + 1))%nat.
Proof.
  induction n as [|n IH]; [reflexivity|]. rewrite seq_S, fold_left_app. cbn [fold_left]. lia.
Qed.
Lemma fold_ext {B} (f g : nat -> B -> nat) L : (forall s i, In i L -> f s i = g s i) -> forall acc, fold_left f L acc = fold_left g L acc.
Proof.
  induction L as [|x L IH]; intros H acc; [reflexivity|]. cbn [fold_left]. rewrite H by (left; reflexivity).
  apply IH. intros s i Hi. apply H. right. exact Hi.
Qed.
Lemma coeffs_nr_pairs l m : (m <= l)%nat -> coeffs_nr l m = length (pairs l m).
Proof.
  intros H. rewrite pairs_length. unfold coeffs_nr. destruct (Nat.eqb_spec l m) as [->|NE].
  - rewrite (fold_ext _ (fun s i => s + (i + 1))%nat).
    + pose proof (sum_lin (m + 1)) as S. cbn zeta.
      replace ((m + 1) * (m + 1 - 1))%nat with ((m + 1) * m)%nat by lia.
      assert (D : (((m + 1) * m / 2) * 2 = (m + 1) * m)%nat).
      { destruct (Nat.Even_or_Odd m) as [[k K]|[k K]].
        - replace ((m + 1) * m)%nat with (((m + 1) * k) * 2)%nat by (subst m; lia). rewrite Nat.div_mul by lia. reflexivity.
        - replace ((m + 1) * m)%nat with (((k + 1) * m) * 2)%nat by (subst m; lia). rewrite Nat.div_mul by lia. reflexivity. }
      lia.
    + intros s i Hi. apply in_seq in Hi. lia.
  - apply fold_ext. intros s i Hi. destruct (Nat.ltb_spec m i); lia.
Qed.
Lemma pairs_nodup l m : NoDup (pairs l m).
Proof.
  unfold pairs. cut (forall n a, NoDup (flat_map (fun i => map (pair i) (seq 0 (Nat.min i m + 1))) (seq a n))); [intros C; apply C|].
  clear l. induction n as [|n IH]; intros a; [constructor|]. change (seq a (S n)) with (a :: seq (S a) n). cbn [flat_map].
  assert (N1 : NoDup (map (pair a) (seq 0 (Nat.min a m + 1)))).
  { apply FinFun.Injective_map_NoDup; [intros x y E; injection E; auto|apply seq_NoDup]. }
  assert (D : forall p, In p (map (pair a) (seq 0 (Nat.min a m + 1))) -> ~ In p (flat_map (fun i => map (pair i) (seq 0 (Nat.min i m + 1))) (seq (S a) n))).
  { intros p Hp Hq. apply in_map_iff in Hp. destruct Hp as (j & <- & _). apply in_flat_map in Hq.
    destruct Hq as (i & Hi & Hq). apply in_seq in Hi. apply in_map_iff in Hq. destruct Hq as (j' & E & _). injection E as E1 _. lia. }
  induction (map (pair a) (seq 0 (Nat.min a m + 1))) as [|x L IHL]; [apply IH|]. cbn [app]. inversion N1; subst. constructor.
  - rewrite in_app_iff. intros [I|I]; [contradiction|]. apply (D x (or_introl eq_refl) I).
  - apply IHL; [assumption|]. intros p Hp. apply D. right. exact Hp.
Qed.

(* ---- writes into a coefficient set whose allocation is at least its degree ---- *)
Definition storage (h : hc Q) : Prop := exists N, h_degree h <= N /\ rect N (h_rows h).
Lemma put_ok (h : hc Q) o : storage h -> legal (h_degree h) (hkey o) ->
  exists h', h_step h o = Ok h' /\ h_degree h' = h_degree h /\ h_normalized h' = h_normalized h /\ storage h' /\
    forall k, legal (h_degree h) k ->
      coef_get h' k = if coef_eqb (hkey o) k then Ok (hval Q o) else coef_get h k.
Proof.
  intros (N & LN & R) Lg. destruct (cells_ok Q h) as (B & I & _).
  destruct (B _ Lg) as [B1 B2].
  assert (E : h_step h o = cell_put h (cell h (hkey o)) (hval Q o)) by (destruct o; reflexivity).
  rewrite E. unfold cell_put.
  destruct (modify2_ok Q N (h_rows h) (fst (cell h (hkey o))) (snd (cell h (hkey o)))
              (fun _ => hval Q o) R ltac:(lia) ltac:(lia)) as (rows' & M & R' & Hs & Ho).
  rewrite M. cbn [obind]. eexists. split; [reflexivity|]. cbn [h_degree h_normalized].
  split; [reflexivity|]. split; [reflexivity|]. split; [exists N; cbn; auto|].
  intros k Lk. rewrite !coef_get_cell. cbn [h_rows].
  assert (Ec : cell (HC (h_normalized h) (h_degree h) rows') k = cell h k)
    by (destruct k; reflexivity).
  rewrite Ec. destruct (coef_eqb_spec (hkey o) k) as [<-|D].
  - destruct (load2_ok Q N (h_rows h) (fst (cell h (hkey o))) (snd (cell h (hkey o))) R ltac:(lia) ltac:(lia)) as (? & v & _ & _ & Lv & _).
    apply (Hs v Lv).
  - destruct (B _ Lk) as [K1 K2]. apply Ho; [lia|lia|].
    intros Q0. apply D. symmetry. apply I; try assumption.
    rewrite (surjective_pairing (cell h k)), (surjective_pairing (cell h (hkey o))). exact Q0.
Qed.
Lemma get_ok' (h : hc Q) k : storage h -> legal (h_degree h) k -> exists v, coef_get h k = Ok v.
Proof.
  intros (N & LN & R) Lk. destruct (cells_ok Q h) as (B & _). destruct (B k Lk) as [B1 B2]. rewrite coef_get_cell.
  destruct (load2_ok Q N (h_rows h) (fst (cell h k)) (snd (cell h k)) R ltac:(lia) ltac:(lia)) as (? & v & _ & _ & E & _). eauto.
Qed.

(* ---- one data line ---- *)
Lemma starts_with_app p s : starts_with p (p ++ s) = true.
Proof. induction p as [|c p IH]; [reflexivity|]. cbn [app starts_with]. rewrite Ascii.eqb_refl. exact IH. Qed.

Lemma blank_not_digit n rest : not_digit_next (repeat blank (S n) ++ rest).
Proof. reflexivity. Qed.
Lemma blank_no_ext n rest : no_extension (repeat blank (S n) ++ rest).
Proof. cbn. repeat split; discriminate. Qed.

Lemma strtol_dstr n ds rest : numeral_ok ds -> not_digit_next rest -> dval ds <= INT_MAX ->
  strtol (repeat blank n ++ dstr ds ++ rest) = LRes (dval ds) (n + length (dstr ds)) false.
Proof.
  intros H1 H2 H3. pose proof (dval_nonneg ds (proj2 H1)) as H4.
  exact (strtol_numeral n false ds rest H1 H2 ltac:(unfold nval, LONG_MIN, LONG_MAX, INT_MAX in *; lia)).
Qed.
Lemma wrap_int v : 0 <= v <= INT_MAX -> wrap 32 v = v.
Proof. intros H. apply wrap_id; [lia|]. unfold INT_MAX in H. change (32 - 1) with 31. lia. Qed.

Definition ops_of (r : drec) (c s : Q) : list (hop Q) :=
  let '(i, j) := key r in
  PutC (Z.of_nat i) (Z.of_nat j) c :: (if Nat.eqb j 0 then [] else [PutS (Z.of_nat i) (Z.of_nat j) s]).

Lemma skipn_plus {A} (a b : list A) (n : nat) : skipn (length a + n) (a ++ b) = skipn n b.
Proof. induction a; [reflexivity|assumption]. Qed.
Lemma skipn_blanks n (ds rest : chars) : skipn (n + length ds) (repeat blank n ++ ds ++ rest) = rest.
Proof. rewrite <- (repeat_length blank n) at 1. rewrite skipn_plus. apply skipn_len. Qed.

Lemma numeral_length ds : numeral_ok ds -> (length (dstr ds) <> 0)%nat.
Proof. intros [N _]. destruct ds; [congruence|]. cbn. lia. Qed.
Lemma num_length x : (length (num_text x) <> 0)%nat.
Proof. unfold num_text, fixed. rewrite !app_length. cbn [length]. lia. Qed.

Lemma eqb0_add n k : k <> O -> Nat.eqb (n + k) 0 = false.
Proof. intros H. destruct (Nat.eqb_spec (n + k) 0); [lia|reflexivity]. Qed.

Lemma data_line_rec l m h read r : drec_ok r ->
  exists c s, (c == num_val (d_c r))%Q /\ (s == num_val (d_s r))%Q /\
  data_line l m h read (drec_text r) =
    if (dval (d_l r) <=? l) && (dval (d_m r) <=? m) then
      match h_run h (ops_of r c s) with Ok h' => Val (Some (h', S read)) | UB => Undef end
    else Val (Some (h, read)).
Proof.
  intros (NL & NM & BL & ML & NC & NS & NE & Z0).
  pose proof (dval_nonneg _ (proj2 NL)) as PL. pose proof (dval_nonneg _ (proj2 NM)) as PM.
  destruct (strtod_num (S (d_g3 r)) (d_s r) (d_tail r) NS NE) as (s & ES & QS).
  destruct (strtod_num (S (d_g2 r)) (d_c r) (repeat blank (S (d_g3 r)) ++ num_text (d_s r) ++ d_tail r) NC (blank_no_ext _ _)) as (c & EC & QC).
  exists c, s. split; [exact QC|]. split; [exact QS|].
  unfold data_line, drec_text. rewrite starts_with_app.
  change (skipn 4 (lit "gfc " ++ ?x)) with x.
  rewrite strtol_dstr by (try assumption; apply blank_not_digit). cbn [l_used l_val].
  rewrite eqb0_add by (apply numeral_length, NL). rewrite skipn_blanks.
  rewrite strtol_dstr by (try assumption; try apply blank_not_digit; lia). cbn [l_used l_val].
  rewrite eqb0_add by (apply numeral_length, NM). rewrite skipn_blanks.
  rewrite !wrap_int by lia.
  destruct ((dval (d_l r) <=? l) && (dval (d_m r) <=? m)); [|reflexivity].
  rewrite EC. rewrite eqb0_add by apply num_length. rewrite skipn_blanks. rewrite ES. rewrite eqb0_add by apply num_length.
  unfold ops_of, key. cbn [h_run h_step]. rewrite !Z2Nat.id by assumption.
  destruct (C_put h (dval (d_l r)) (dval (d_m r)) c) as [h1|]; cbn [lift rbind obind]; [|reflexivity].
  destruct (Z.eqb_spec (dval (d_m r)) 0) as [E|E].
  - rewrite E. cbn [Z.to_nat Nat.eqb h_run]. replace (Qeq_bool s 0) with true; [reflexivity|].
    symmetry. apply Qeq_bool_iff. rewrite QS. apply Z0, E.
  - destruct (Nat.eqb_spec (Z.to_nat (dval (d_m r))) 0); [lia|]. cbn [h_run h_step].
    destruct (S_put h1 (dval (d_l r)) (dval (d_m r)) s); reflexivity.
Qed.

(* ---- the loop, on the list of lines ---- *)
Fixpoint data_run (l m : Z) (to_read : nat) (h : hc Q) (read : nat) (ls : list chars) : res (hc Q * nat * bool) :=
  match ls with
  | [] => Val (h, read, false)
  | t :: rest =>
      if Nat.ltb read to_read then
        match data_line l m h read (cstr t) with
        | Val (Some (h', read')) => data_run l m to_read h' read' rest
        | Val None => Val (h, read, true)
        | Abort => Abort
        | Undef => Undef
        end
      else Val (h, read, false)
  end.
Lemma data_loop_text l m to_read ls : forall h read last fuel, Forall (line_ok 512) ls -> line_ok 512 last ->
  (length ls + 1 <= fuel)%nat ->
  (let (raw, s) := getline 512 (s_open (file_text ls last)) in data_loop fuel l m to_read h read raw s) =
  Some (data_run l m to_read h read ls).
Proof.
  induction ls as [|t ls IH]; intros h read last fuel F L HF.
  - unfold file_text. cbn [flat_map app]. rewrite getline_end by exact L. destruct fuel as [|fuel]; [simpl in HF; lia|].
    cbn [data_loop data_run]. unfold s_good. cbn [s_eof s_fail negb andb]. reflexivity.
  - inversion F; subst. unfold file_text. cbn [flat_map]. rewrite <- !app_assoc. cbn [app].
    rewrite getline_mid by assumption. destruct fuel as [|fuel]; [simpl in HF; lia|]. cbn [data_loop data_run].
    change (s_good (s_open (flat_map (fun t0 => t0 ++ [nl]) ls ++ last))) with true. cbn [andb].
    destruct (read <? to_read)%nat; [|reflexivity].
    destruct (data_line l m h read (cstr t)) as [[[h' read']|]| |]; try reflexivity.
    apply IH; [assumption|exact L|simpl in HF; lia].
Qed.

Lemma cstr_id s : ~ In nul s -> cstr s = s.
Proof. intros H. rewrite <- (app_nil_r s) at 1. rewrite cstr_app_no_nul by exact H. cbn. apply app_nil_r. Qed.

Definition ck (p : nat * nat) : coef := CC (Z.of_nat (fst p)) (Z.of_nat (snd p)).
Definition sk (p : nat * nat) : coef := SS (Z.of_nat (fst p)) (Z.of_nat (snd p)).

Lemma ops_run h r c s : storage h -> (snd (key r) <= fst (key r))%nat -> Z.of_nat (fst (key r)) <= h_degree h ->
  exists h', h_run h (ops_of r c s) = Ok h' /\ h_degree h' = h_degree h /\ h_normalized h' = h_normalized h /\ storage h' /\
    coef_get h' (ck (key r)) = Ok c /\ (snd (key r) <> O -> coef_get h' (sk (key r)) = Ok s) /\
    forall k, legal (h_degree h) k -> k <> ck (key r) -> k <> sk (key r) -> coef_get h' k = coef_get h k.
Proof.
  intros ST J I. unfold ops_of. destruct (key r) as [i j]. unfold ck, sk in *. cbn [fst snd] in *.
  destruct (put_ok h (PutC (Z.of_nat i) (Z.of_nat j) c) ST) as (h1 & E1 & D1 & N1 & S1 & G1); [cbn; lia|].
  cbn [hkey hval] in G1. cbn [h_run]. rewrite E1. cbn [obind].
  destruct (Nat.eqb_spec j 0) as [->|NZ].
  - cbn [h_run]. exists h1. split; [reflexivity|]. split; [exact D1|]. split; [exact N1|]. split; [exact S1|].
    split; [rewrite G1 by (cbn; lia); destruct (coef_eqb_spec (CC (Z.of_nat i) (Z.of_nat 0)) (CC (Z.of_nat i) (Z.of_nat 0))); congruence|].
    split; [congruence|]. intros k Lk K1 K2. rewrite G1 by exact Lk. destruct (coef_eqb_spec (CC (Z.of_nat i) (Z.of_nat 0)) k); congruence.
  - cbn [h_run]. destruct (put_ok h1 (PutS (Z.of_nat i) (Z.of_nat j) s) S1) as (h2 & E2 & D2 & N2 & S2 & G2); [rewrite D1; cbn; lia|].
    cbn [hkey hval] in G2. rewrite E2. cbn [obind]. exists h2. split; [reflexivity|]. split; [congruence|]. split; [congruence|]. split; [exact S2|].
    rewrite D1 in G2. split; [|split].
    + rewrite G2 by (cbn; lia). cbn [coef_eqb]. rewrite G1 by (cbn; lia).
      destruct (coef_eqb_spec (CC (Z.of_nat i) (Z.of_nat j)) (CC (Z.of_nat i) (Z.of_nat j))); congruence.
    + intros _. rewrite G2 by (cbn; lia). destruct (coef_eqb_spec (SS (Z.of_nat i) (Z.of_nat j)) (SS (Z.of_nat i) (Z.of_nat j))); congruence.
    + intros k Lk K1 K2. rewrite G2 by exact Lk. destruct (coef_eqb_spec (SS (Z.of_nat i) (Z.of_nat j)) k); [congruence|].
      rewrite G1 by exact Lk. destruct (coef_eqb_spec (CC (Z.of_nat i) (Z.of_nat j)) k); congruence.
Qed.

Lemma key_inj_ck p q : ck p = ck q -> p = q.
Proof. destruct p, q. unfold ck. cbn. intros E. injection E as E1 E2. f_equal; lia. Qed.
Lemma key_inj_sk p q : sk p = sk q -> p = q.
Proof. destruct p, q. unfold sk. cbn. intros E. injection E as E1 E2. f_equal; lia. Qed.

(* all lines of a section: every needed record is stored *)
Lemma data_run_ok l m to_read items : forall h read, storage h -> Z.of_nat l <= h_degree h ->
  Forall ditem_ok items -> NoDup (map key (needed l m (drecs items))) ->
  (read + length (needed l m (drecs items)) <= to_read)%nat ->
  exists h', data_run (Z.of_nat l) (Z.of_nat m) to_read h read (map ditem_text items) =
      Val (h', read + length (needed l m (drecs items)), false)%nat /\
    h_degree h' = h_degree h /\ h_normalized h' = h_normalized h /\ storage h' /\
    (forall r, In r (needed l m (drecs items)) -> holds_rec h' r) /\
    (forall k, legal (h_degree h) k -> ~ In k (map ck (map key (needed l m (drecs items)))) ->
       ~ In k (map sk (map key (needed l m (drecs items)))) -> coef_get h' k = coef_get h k).
Proof.
  induction items as [|it items IH]; intros h read ST LD F ND CNT.
  - exists h. cbn. rewrite Nat.add_0_r. split; [reflexivity|]. split; [reflexivity|]. split; [reflexivity|]. split; [exact ST|]. split; [intros r' []|reflexivity].
  - inversion F as [|x y (NN & LO & OK) F']; subst. cbn [map data_run].
    destruct (Nat.ltb_spec read to_read) as [LT|GE].
    2:{ assert (E0 : length (needed l m (drecs (it :: items))) = O) by lia.
        apply length_zero_iff_nil in E0. rewrite E0. exists h. cbn. rewrite Nat.add_0_r.
        split; [reflexivity|]. split; [reflexivity|]. split; [reflexivity|]. split; [exact ST|]. split; [intros r' []|reflexivity]. }
    rewrite cstr_id by exact NN. destruct it as [t|r].
    + cbn [ditem_text drecs] in *. unfold data_line. rewrite OK. apply IH; assumption.
    + cbn [ditem_text drecs] in *. destruct (data_line_rec (Z.of_nat l) (Z.of_nat m) h read r OK) as (c & s & QC & QS & E). rewrite E. clear E.
      unfold needed in *. cbn [filter] in *.
      destruct ((dval (d_l r) <=? Z.of_nat l) && (dval (d_m r) <=? Z.of_nat m)) eqn:NB; [|apply IH; assumption].
      apply andb_prop in NB. destruct NB as [N1 N2]. apply Z.leb_le in N1, N2.
      destruct OK as (NL & NM & BL & ML & _). pose proof (dval_nonneg _ (proj2 NL)) as PL. pose proof (dval_nonneg _ (proj2 NM)) as PM.
      assert (KJ : (snd (key r) <= fst (key r))%nat) by (cbn; lia).
      assert (KI : Z.of_nat (fst (key r)) <= h_degree h) by (cbn; lia).
      destruct (ops_run h r c s ST KJ KI) as (h1 & E1 & D1 & NO1 & S1 & G1 & G2 & G3). rewrite E1.
      cbn [map length] in ND, CNT. inversion ND as [|? ? NI ND']; subst.
      destruct (IH h1 (S read) S1 ltac:(rewrite D1; exact LD) F' ND' ltac:(lia)) as (h2 & E2 & D2 & NO2 & S2 & H2 & H3).
      exists h2. rewrite E2. cbn [length]. rewrite Nat.add_succ_r. cbn [Nat.add].
      split; [reflexivity|]. split; [congruence|]. split; [congruence|]. split; [exact S2|].
      rewrite D1 in H3.
      assert (LC : legal (h_degree h) (ck (key r))) by (unfold ck; cbn [legal]; lia).
      assert (NC1 : ~ In (ck (key r)) (map ck (map key (filter (fun r0 => (dval (d_l r0) <=? Z.of_nat l) && (dval (d_m r0) <=? Z.of_nat m)) (drecs items))))).
      { intros I. apply in_map_iff in I. destruct I as (p & E & I). apply key_inj_ck in E. subst p. contradiction. }
      assert (NS1 : ~ In (sk (key r)) (map sk (map key (filter (fun r0 => (dval (d_l r0) <=? Z.of_nat l) && (dval (d_m r0) <=? Z.of_nat m)) (drecs items))))).
      { intros I. apply in_map_iff in I. destruct I as (p & E & I). apply key_inj_sk in E. subst p. contradiction. }
      assert (NX : forall (a b : nat * nat), ck a <> sk b) by (intros a b X; discriminate X).
      assert (NC2 : forall p L, ~ In (ck p) (map sk L)) by (intros p L I; apply in_map_iff in I; destruct I as (q & E & _); discriminate E).
      assert (NS2 : forall p L, ~ In (sk p) (map ck L)) by (intros p L I; apply in_map_iff in I; destruct I as (q & E & _); discriminate E).
      split.
      * intros r' [<-|I]; [|apply H2, I]. unfold holds_rec. destruct (key r) as [i j] eqn:K. cbn [fst snd] in *.
        split.
        -- exists c. split; [|exact QC]. change (C_get h2 (Z.of_nat i) (Z.of_nat j)) with (coef_get h2 (ck (i, j))).
           rewrite H3; [exact G1|exact LC|exact NC1|apply NC2].
        -- intros NZ. exists s. split; [|exact QS]. change (S_get h2 (Z.of_nat i) (Z.of_nat j)) with (coef_get h2 (sk (i, j))).
           rewrite H3; [apply G2, NZ|unfold sk; cbn [legal fst snd]; lia|apply NS2|exact NS1].
      * intros k Lk K1 K2. rewrite H3; [apply G3; [exact Lk| |]|exact Lk| |].
        -- intros ->. apply K1. left. reflexivity.
        -- intros ->. apply K2. left. reflexivity.
        -- intros I. apply K1. right. exact I.
        -- intros I. apply K2. right. exact I.
Qed.

(* ---- whole data sections ---- *)
Lemma pair_dec (p q : nat * nat) : {p = q} + {p <> q}.
Proof. decide equality; apply Nat.eq_dec. Qed.
Lemma needed_in_pairs l m items : Forall ditem_ok items -> incl (map key (needed l m (drecs items))) (pairs l m).
Proof.
  intros F p Hp. apply in_map_iff in Hp. destruct Hp as (r & <- & Hr). unfold needed in Hr. apply filter_In in Hr. destruct Hr as [Hr B].
  assert (OK : drec_ok r).
  { clear B. induction items as [|it items IH]; [destruct Hr|]. inversion F as [|x y (_ & _ & OK) F']; subst. destruct it as [t|r0]; cbn [drecs] in Hr.
    - apply IH; assumption.
    - destruct Hr as [<-|Hr]; [exact OK|apply IH; assumption]. }
  destruct OK as (NL & NM & BL & ML & _). pose proof (dval_nonneg _ (proj2 NL)). pose proof (dval_nonneg _ (proj2 NM)).
  apply andb_prop in B. destruct B as [B1 B2]. apply Z.leb_le in B1, B2. apply in_pairs. lia.
Qed.

Lemma init_ok hd (h : hc Q) : storage h -> 1 <= h_degree h ->
  exists h2, (try h1 <- lift (C_put (HC (is_normalized hd) (h_degree h) (h_rows h)) 1 0 sentinel); lift (C_put h1 1 1 sentinel)) = Val h2 /\
    h_degree h2 = h_degree h /\ h_normalized h2 = is_normalized hd /\ storage h2 /\
    C_get h2 1 0 = Ok sentinel /\ C_get h2 1 1 = Ok sentinel /\
    forall k, legal (h_degree h) k -> k <> CC 1 0 -> k <> CC 1 1 -> coef_get h2 k = coef_get h k.
Proof.
  intros (N & LN & R) LD. set (h0 := HC (is_normalized hd) (h_degree h) (h_rows h)).
  assert (S0 : storage h0) by (exists N; auto).
  destruct (put_ok h0 (PutC 1 0 sentinel) S0) as (h1 & E1 & D1 & N1 & S1 & G1); [cbn; lia|]. cbn [h_step] in E1. rewrite E1. cbn [lift rbind].
  destruct (put_ok h1 (PutC 1 1 sentinel) S1) as (h2 & E2 & D2 & N2 & S2 & G2); [rewrite D1; cbn; lia|]. cbn [h_step] in E2. rewrite E2. cbn [lift].
  exists h2. split; [reflexivity|]. cbn [hkey hval] in *. rewrite D1 in G2. change (h_degree h0) with (h_degree h) in *.
  change (h_normalized h0) with (is_normalized hd) in N1.
  split; [congruence|]. split; [congruence|]. split; [exact S2|].
  split; [change (C_get h2 1 0) with (coef_get h2 (CC 1 0)); rewrite G2 by (cbn; lia); cbn [coef_eqb]; rewrite G1 by (cbn; lia); reflexivity|].
  split; [change (C_get h2 1 1) with (coef_get h2 (CC 1 1)); rewrite G2 by (cbn; lia); reflexivity|].
  intros k Lk K1 K2. rewrite G2 by exact Lk. destruct (coef_eqb_spec (CC 1 1) k); [congruence|].
  rewrite G1 by exact Lk. destruct (coef_eqb_spec (CC 1 0) k); [congruence|]. destruct k; reflexivity.
Qed.

Lemma budget_text ls last : (length ls + 1 <= length (s_rest (s_open (file_text ls last))) + 2)%nat.
Proof. pose proof (budget_lines ls last). unfold line_budget in H. lia. Qed.

Lemma items_lines items : Forall ditem_ok items -> Forall (line_ok 512) (map ditem_text items).
Proof. intros F. apply Forall_map. eapply Forall_impl; [|exact F]. intros i (_ & L & _). exact L. Qed.

(* the state after the loop *)
Lemma data_body hd h l m items last : storage h -> (1 <= l)%nat -> (m <= l)%nat -> Z.of_nat l <= hd_degree hd -> Z.of_nat l <= h_degree h ->
  Forall ditem_ok items -> line_ok 512 last -> NoDup (map key (needed l m (drecs items))) ->
  exists h2 h3, parse_data hd (Some (s_open (file_text (map ditem_text items) last))) (Z.of_nat l) (Z.of_nat m) h =
      Some (data_finish (length (pairs l m)) h3 (length (needed l m (drecs items)))) /\
    h_degree h3 = h_degree h /\ h_normalized h3 = is_normalized hd /\ storage h3 /\
    (forall r, In r (needed l m (drecs items)) -> holds_rec h3 r) /\
    (forall k, legal (h_degree h) k -> ~ In k (map ck (map key (needed l m (drecs items)))) ->
       ~ In k (map sk (map key (needed l m (drecs items)))) -> coef_get h3 k = coef_get h2 k) /\
    C_get h2 1 0 = Ok sentinel /\ C_get h2 1 1 = Ok sentinel /\
    (forall k, legal (h_degree h) k -> k <> CC 1 0 -> k <> CC 1 1 -> coef_get h2 k = coef_get h k).
Proof.
  intros ST L1 ML LH LD F LL ND. unfold parse_data.
  destruct (Z.ltb_spec (hd_degree hd) (Z.of_nat l)); [lia|]. destruct (Z.ltb_spec (Z.of_nat l) (Z.of_nat m)); [lia|].
  destruct (Z.ltb_spec (h_degree h) (Z.of_nat l)); [lia|]. cbn [orb].
  destruct (init_ok hd h ST ltac:(lia)) as (h2 & E2 & D2 & N2 & S2 & I1 & I2 & I3). rewrite E2.
  rewrite !Nat2Z.id. rewrite coeffs_nr_pairs by exact ML.
  pose proof (data_loop_text (Z.of_nat l) (Z.of_nat m) (length (pairs l m)) (map ditem_text items) h2 0 last _ (items_lines items F) LL (budget_text _ last)) as DL.
  destruct (getline 512 (s_open (file_text (map ditem_text items) last))) as [raw s'] eqn:GL. rewrite DL.
  destruct (data_run_ok l m (length (pairs l m)) items h2 0 S2 ltac:(lia) F ND) as (h3 & E3 & D3 & N3 & S3 & H3 & K3).
  { cbn [Nat.add]. rewrite <- (map_length key). apply NoDup_incl_length; [exact ND|apply needed_in_pairs, F]. }
  rewrite E3. cbn [Nat.add]. exists h2, h3. split; [reflexivity|]. split; [congruence|]. split; [congruence|]. split; [exact S3|].
  split; [exact H3|]. split; [rewrite D2 in K3; exact K3|]. auto.
Qed.

Definition complete (l m : nat) (items : list ditem) : Prop := incl (pairs l m) (map key (needed l m (drecs items))).

Lemma data_complete hd h l m items last : storage h -> (1 <= l)%nat -> (m <= l)%nat -> Z.of_nat l <= hd_degree hd -> Z.of_nat l <= h_degree h ->
  Forall ditem_ok items -> line_ok 512 last -> NoDup (map key (needed l m (drecs items))) -> complete l m items ->
  exists h', parse_data hd (Some (s_open (file_text (map ditem_text items) last))) (Z.of_nat l) (Z.of_nat m) h = Some (Val (0, h')) /\
    h_degree h' = h_degree h /\ h_normalized h' = is_normalized hd /\
    forall i j, (i <= l)%nat -> (j <= i)%nat -> (j <= m)%nat ->
      exists r, In r (drecs items) /\ key r = (i, j) /\ holds_rec h' r.
Proof.
  intros ST L1 ML LH LD F LL ND CO.
  destruct (data_body hd h l m items last ST L1 ML LH LD F LL ND) as (h2 & h3 & E & D & N & S3 & H3 & _).
  assert (LE : length (needed l m (drecs items)) = length (pairs l m)).
  { rewrite <- (map_length key). apply Nat.le_antisymm; apply NoDup_incl_length; [exact ND|apply needed_in_pairs, F|apply pairs_nodup|exact CO]. }
  exists h3. rewrite E. unfold data_finish. rewrite LE, Nat.ltb_irrefl. split; [reflexivity|]. split; [exact D|]. split; [exact N|].
  intros i j A B C. assert (I : In (i, j) (map key (needed l m (drecs items)))) by (apply CO, in_pairs; lia).
  apply in_map_iff in I. destruct I as (r & K & I). exists r. split; [unfold needed in I; apply filter_In in I; exact (proj1 I)|]. split; [exact K|apply H3, I].
Qed.

(* degree-1 terms: present with an ordinary value *)
Definition no_sentinel (items : list ditem) : Prop :=
  forall r, In r (drecs items) -> fst (key r) = 1%nat -> ~ (num_val (d_c r) == sentinel)%Q.

Lemma c_legal d i j : (j <= i)%nat -> Z.of_nat i <= d -> legal d (CC (Z.of_nat i) (Z.of_nat j)).
Proof. cbn. lia. Qed.

Lemma data_codes hd h l m items last : storage h -> (1 <= m)%nat -> (m <= l)%nat -> Z.of_nat l <= hd_degree hd -> Z.of_nat l <= h_degree h ->
  Forall ditem_ok items -> line_ok 512 last -> NoDup (map key (needed l m (drecs items))) -> no_sentinel items ->
  exists code h', parse_data hd (Some (s_open (file_text (map ditem_text items) last))) (Z.of_nat l) (Z.of_nat m) h = Some (Val (code, h')) /\
    (code = 0 \/ code = 2) /\
    (code = 0 <-> complete l m items \/
       (forall p, In p (pairs l m) -> (In p (map key (needed l m (drecs items))) <-> p <> (1, 0)%nat /\ p <> (1, 1)%nat))) /\
    (code = 0 -> (forall r, In r (needed l m (drecs items)) -> holds_rec h' r) /\
       forall i j, In (i, j) (pairs l m) -> ~ In (i, j) (map key (needed l m (drecs items))) ->
         exists q, C_get h' (Z.of_nat i) (Z.of_nat j) = Ok q /\ (q == 0)%Q).
Proof.
  intros ST M1 ML LH LD F LL ND NS.
  destruct (data_body hd h l m items last ST ltac:(lia) ML LH LD F LL ND) as (h2 & h3 & E & D & N & S3 & H3 & K3 & I1 & I2 & _).
  set (keys := map key (needed l m (drecs items))) in *.
  assert (LEN : length (needed l m (drecs items)) = length keys) by (unfold keys; rewrite map_length; reflexivity).
  pose proof (needed_in_pairs l m items F) as INC. fold keys in INC.
  rewrite E. unfold data_finish. rewrite LEN.
  assert (P10 : In (1, 0)%nat (pairs l m)) by (apply in_pairs; lia).
  assert (P11 : In (1, 1)%nat (pairs l m)) by (apply in_pairs; lia).
  (* the two degree-1 cells *)
  assert (DEG1 : forall j, (j <= 1)%nat -> exists q, C_get h3 1 (Z.of_nat j) = Ok q /\
     (In (1, j)%nat keys -> ~ (q == sentinel)%Q) /\ (~ In (1, j)%nat keys -> q = sentinel)).
  { intros j Hj. destruct (in_dec pair_dec (1, j)%nat keys) as [I|NI].
    - unfold keys in I. apply in_map_iff in I. destruct I as (r & K & I). pose proof (H3 r I) as HR. unfold holds_rec in HR. rewrite K in HR.
      destruct HR as ((q & Q1 & Q2) & _). exists q. split; [exact Q1|]. split.
      + intros _ C. apply (NS r); [unfold needed in I; apply filter_In in I; exact (proj1 I)|rewrite K; reflexivity|]. rewrite <- Q2. exact C.
      + intros C. exfalso. apply C. unfold keys. rewrite <- K. apply in_map, I.
    - exists sentinel. split.
      + change (C_get h3 1 (Z.of_nat j)) with (coef_get h3 (ck (1, j)%nat)). rewrite K3.
        * unfold ck. cbn [fst snd]. change (Z.of_nat 1) with 1. destruct j as [|[|j]]; [exact I1|exact I2|lia].
        * unfold ck. cbn. lia.
        * intros C. apply in_map_iff in C. destruct C as (p & Ep & C). apply key_inj_ck in Ep. subst p. contradiction.
        * intros C. apply in_map_iff in C. destruct C as (p & Ep & _). discriminate Ep.
      + split; [contradiction|reflexivity]. }
  destruct (DEG1 0%nat ltac:(lia)) as (a & A1 & A2 & A3). destruct (DEG1 1%nat ltac:(lia)) as (b & B1 & B2 & B3). clear DEG1.
  change (Z.of_nat 0) with 0 in A1. change (Z.of_nat 1) with 1 in B1.
  destruct (Nat.ltb_spec (length keys) (length (pairs l m))) as [LT|GE].
  - rewrite A1, B1. cbn [lift rbind].
    assert (NCO : ~ incl (pairs l m) keys).
    { intros C. pose proof (NoDup_incl_length (pairs_nodup l m) C). lia. }
    destruct (in_dec pair_dec (1, 0)%nat keys) as [I10|N10].
    { assert (QB : Qeq_bool a b && Qeq_bool b sentinel = false).
      { destruct (Qeq_bool a b) eqn:X; [|reflexivity]. destruct (Qeq_bool b sentinel) eqn:Y; [|reflexivity].
        apply Qeq_bool_iff in X, Y. exfalso. apply (A2 I10). rewrite X. exact Y. }
      rewrite QB, andb_false_r. exists 2, h3. split; [reflexivity|]. split; [auto|]. split; [|discriminate].
      split; [discriminate|]. intros [C|C]; [contradiction|]. apply (C _ P10) in I10. exfalso. apply (proj1 I10). reflexivity. }
    destruct (in_dec pair_dec (1, 1)%nat keys) as [I11|N11].
    { assert (QB : Qeq_bool a b && Qeq_bool b sentinel = false).
      { destruct (Qeq_bool b sentinel) eqn:Y; [|rewrite andb_false_r; reflexivity].
        apply Qeq_bool_iff in Y. exfalso. apply (B2 I11). exact Y. }
      rewrite QB, andb_false_r. exists 2, h3. split; [reflexivity|]. split; [auto|]. split; [|discriminate].
      split; [discriminate|]. intros [C|C]; [contradiction|]. apply (C _ P11) in I11. exfalso. apply (proj2 I11). reflexivity. }
    rewrite (A3 N10), (B3 N11). change (Qeq_bool sentinel sentinel) with true. cbn [andb]. rewrite andb_true_r.
    assert (ND2 : NoDup ((1, 0)%nat :: (1, 1)%nat :: keys)).
    { constructor; [intros [C|C]; [discriminate|contradiction]|]. constructor; [exact N11|exact ND]. }
    assert (INC2 : incl ((1, 0)%nat :: (1, 1)%nat :: keys) (pairs l m)).
    { intros p [<-|[<-|I]]; [exact P10|exact P11|apply INC, I]. }
    destruct (Nat.eqb_spec (length (pairs l m) - length keys) 2) as [E2|NE2].
    + assert (ALL : incl (pairs l m) ((1, 0)%nat :: (1, 1)%nat :: keys)).
      { apply NoDup_length_incl; [exact ND2|cbn [length]; lia|exact INC2]. }
      destruct (put_ok h3 (PutC 1 0 0%Q) S3) as (h4 & E4 & D4 & N4 & S4 & G4); [cbn; lia|]. cbn [h_step] in E4. rewrite E4. cbn [lift rbind].
      destruct (put_ok h4 (PutC 1 1 0%Q) S4) as (h5 & E5 & D5 & N5 & S5 & G5); [rewrite D4; cbn; lia|]. cbn [h_step] in E5. rewrite E5. cbn [lift rbind].
      exists 0, h5. split; [reflexivity|]. split; [auto|]. cbn [hkey hval] in *. rewrite D4 in G5. split.
      * split; [intros _|reflexivity]. right. intros p Hp. split.
        -- intros I. split; intros ->; contradiction.
        -- intros [X Y]. destruct (ALL p Hp) as [<-|[<-|I]]; [congruence|congruence|exact I].
      * intros _. split.
        -- intros r I. pose proof (H3 r I) as HR. unfold holds_rec in *. destruct (key r) as [i j] eqn:K.
           assert (IK : In (i, j) keys) by (unfold keys; rewrite <- K; apply in_map, I).
           assert (IP : (i <= l /\ j <= i /\ j <= m)%nat) by (apply in_pairs, INC, IK).
           destruct HR as ((q & Q1 & Q2) & HS). split.
           ++ exists q. split; [|exact Q2]. change (coef_get h5 (ck (i, j)) = Ok q). rewrite G5 by (unfold ck; cbn; lia).
              destruct (coef_eqb_spec (CC 1 1) (ck (i, j))) as [X|_].
              { exfalso. apply N11. replace (1, 1)%nat with (i, j); [exact IK|]. unfold ck in X. injection X as X1 X2. f_equal; lia. }
              rewrite G4 by (unfold ck; cbn; lia).
              destruct (coef_eqb_spec (CC 1 0) (ck (i, j))) as [X|_].
              { exfalso. apply N10. replace (1, 0)%nat with (i, j); [exact IK|]. unfold ck in X. injection X as X1 X2. f_equal; lia. }
              exact Q1.
           ++ intros NZ. destruct (HS NZ) as (q' & Q3 & Q4). exists q'. split; [|exact Q4]. change (coef_get h5 (sk (i, j)) = Ok q').
              rewrite G5 by (unfold sk; cbn; lia). cbn [coef_eqb sk]. rewrite G4 by (unfold sk; cbn; lia). cbn [coef_eqb sk]. exact Q3.
        -- intros i j Hp NI. destruct (ALL (i, j) Hp) as [X|[X|X]]; [| |contradiction].
           ++ injection X as <- <-. exists 0%Q. split; [|reflexivity]. change (coef_get h5 (CC 1 0) = Ok 0%Q). rewrite G5 by (cbn; lia). cbn [coef_eqb].
              rewrite G4 by (cbn; lia). reflexivity.
           ++ injection X as <- <-. exists 0%Q. split; [|reflexivity]. change (coef_get h5 (CC 1 1) = Ok 0%Q). rewrite G5 by (cbn; lia). reflexivity.
    + exists 2, h3. split; [reflexivity|]. split; [auto|]. split; [|discriminate]. split; [discriminate|].
      intros [C|C]; [contradiction|]. exfalso. apply NE2.
      assert (ALL : incl (pairs l m) ((1, 0)%nat :: (1, 1)%nat :: keys)).
      { intros p Hp. destruct (pair_dec p (1, 0)%nat) as [->|X]; [left; reflexivity|].
        destruct (pair_dec p (1, 1)%nat) as [->|Y]; [right; left; reflexivity|]. right. right. apply C; auto. }
      pose proof (NoDup_incl_length ND2 INC2) as Q1. pose proof (NoDup_incl_length (pairs_nodup l m) ALL) as Q2. cbn [length] in Q1, Q2. lia.
  - assert (CO : incl (pairs l m) keys).
    { apply NoDup_length_incl; [exact ND|exact GE|exact INC]. }
    exists 0, h3. split; [reflexivity|]. split; [auto|]. split; [split; [intros _; left; exact CO|reflexivity]|].
    intros _. split; [exact H3|]. intros i j Hp NI. exfalso. apply NI, CO, Hp.
Qed.

(* ---- malformed lines ---- *)
Inductive malformed (l m : nat) : chars -> Prop :=
| BadDegree n j : junk_field j -> malformed l m (lit "gfc " ++ repeat blank n ++ j)
| BadOrder n ds n' j : numeral_ok ds -> dval ds <= INT_MAX -> not_digit_next (repeat blank n' ++ j) -> junk_field j ->
    malformed l m (lit "gfc " ++ repeat blank n ++ dstr ds ++ repeat blank n' ++ j)
| BadC g0 ds g1 ms n j : numeral_ok ds -> numeral_ok ms -> dval ds <= Z.of_nat l -> dval ms <= Z.of_nat m ->
    dval ds <= INT_MAX -> dval ms <= INT_MAX -> not_digit_next (repeat blank n ++ j) -> junk_field j ->
    malformed l m (lit "gfc " ++ repeat blank g0 ++ dstr ds ++ repeat blank (S g1) ++ dstr ms ++ repeat blank n ++ j)
| BadS g0 ds g1 ms g2 c n j : numeral_ok ds -> numeral_ok ms -> dval ds <= Z.of_nat l -> dval ms <= Z.of_nat m ->
    dval ds <= INT_MAX -> dval ms <= INT_MAX -> num_ok c -> no_extension (repeat blank n ++ j) -> junk_field j ->
    malformed l m (lit "gfc " ++ repeat blank g0 ++ dstr ds ++ repeat blank (S g1) ++ dstr ms ++ repeat blank (S g2) ++ num_text c ++ repeat blank n ++ j).

Lemma malformed_line l m h read t : malformed l m t -> data_line (Z.of_nat l) (Z.of_nat m) h read t = Val None.
Proof.
  intros H. destruct H as [n j J|n ds n' j ND BD NX J|g0 ds g1 ms n j ND NM BD BM ID IM NX J|g0 ds g1 ms g2 c n j ND NM BD BM ID IM NC NX J];
    unfold data_line; rewrite starts_with_app.
  - change (skipn 4 (lit "gfc " ++ ?x)) with x. rewrite strtol_junk by exact J. reflexivity.
  - change (skipn 4 (lit "gfc " ++ ?x)) with x.
    rewrite strtol_dstr by assumption. cbn [l_used l_val]. rewrite eqb0_add by (apply numeral_length, ND). rewrite skipn_blanks.
    rewrite strtol_junk by exact J. reflexivity.
  - change (skipn 4 (lit "gfc " ++ ?x)) with x.
    pose proof (dval_nonneg _ (proj2 ND)). pose proof (dval_nonneg _ (proj2 NM)).
    rewrite strtol_dstr by (try assumption; apply blank_not_digit). cbn [l_used l_val]. rewrite eqb0_add by (apply numeral_length, ND). rewrite skipn_blanks.
    rewrite strtol_dstr by assumption. cbn [l_used l_val]. rewrite eqb0_add by (apply numeral_length, NM). rewrite skipn_blanks.
    rewrite !wrap_int by lia. destruct (Z.leb_spec (dval ds) (Z.of_nat l)); [|lia]. destruct (Z.leb_spec (dval ms) (Z.of_nat m)); [|lia]. cbn [andb].
    rewrite strtod_junk by exact J. reflexivity.
  - change (skipn 4 (lit "gfc " ++ ?x)) with x.
    pose proof (dval_nonneg _ (proj2 ND)). pose proof (dval_nonneg _ (proj2 NM)).
    rewrite strtol_dstr by (try assumption; apply blank_not_digit). cbn [l_used l_val]. rewrite eqb0_add by (apply numeral_length, ND). rewrite skipn_blanks.
    rewrite strtol_dstr by (try assumption; apply blank_not_digit). cbn [l_used l_val]. rewrite eqb0_add by (apply numeral_length, NM). rewrite skipn_blanks.
    rewrite !wrap_int by lia. destruct (Z.leb_spec (dval ds) (Z.of_nat l)); [|lia]. destruct (Z.leb_spec (dval ms) (Z.of_nat m)); [|lia]. cbn [andb].
    destruct (strtod_num (S g2) c (repeat blank n ++ j) NC NX) as (q & EC & _). rewrite EC. rewrite eqb0_add by apply num_length. rewrite skipn_blanks.
    rewrite strtod_junk by exact J. reflexivity.
Qed.

Lemma data_run_app l m to_read a b : forall h read,
  data_run l m to_read h read (a ++ b) =
  match data_run l m to_read h read a with
  | Val (h', read', false) => data_run l m to_read h' read' b
  | x => x
  end.
Proof.
  induction a as [|t a IH]; intros h read; [reflexivity|]. cbn [app data_run]. destruct (read <? to_read)%nat eqn:LT.
  - destruct (data_line l m h read (cstr t)) as [[[h' read']|]| |]; try reflexivity. apply IH.
  - destruct b; cbn [data_run]; [reflexivity|rewrite LT; reflexivity].
Qed.

Lemma data_malformed hd h l m items t more last : storage h -> (1 <= l)%nat -> (m <= l)%nat -> Z.of_nat l <= hd_degree hd -> Z.of_nat l <= h_degree h ->
  Forall ditem_ok items -> NoDup (map key (needed l m (drecs items))) -> ~ complete l m items ->
  malformed l m t -> ~ In nul t -> line_ok 512 t -> Forall (line_ok 512) more -> line_ok 512 last ->
  exists h', parse_data hd (Some (s_open (file_text (map ditem_text items ++ t :: more) last))) (Z.of_nat l) (Z.of_nat m) h = Some (Val (1, h')).
Proof.
  intros ST L1 ML LH LD F ND NCO MF NN LT FM LL. unfold parse_data.
  destruct (Z.ltb_spec (hd_degree hd) (Z.of_nat l)); [lia|]. destruct (Z.ltb_spec (Z.of_nat l) (Z.of_nat m)); [lia|].
  destruct (Z.ltb_spec (h_degree h) (Z.of_nat l)); [lia|]. cbn [orb].
  destruct (init_ok hd h ST ltac:(lia)) as (h2 & E2 & D2 & N2 & S2 & _). rewrite E2.
  rewrite !Nat2Z.id. rewrite coeffs_nr_pairs by exact ML.
  assert (FA : Forall (line_ok 512) (map ditem_text items ++ t :: more)).
  { apply Forall_app. split; [apply items_lines, F|]. constructor; assumption. }
  pose proof (data_loop_text (Z.of_nat l) (Z.of_nat m) (length (pairs l m)) _ h2 0 last _ FA LL (budget_text _ last)) as DL.
  destruct (getline 512 (s_open (file_text (map ditem_text items ++ t :: more) last))) as [raw s'] eqn:GL. rewrite DL.
  pose proof (needed_in_pairs l m items F) as INC.
  assert (LEN : (length (needed l m (drecs items)) < length (pairs l m))%nat).
  { rewrite <- (map_length key). pose proof (NoDup_incl_length ND INC). destruct (Nat.eq_dec (length (map key (needed l m (drecs items)))) (length (pairs l m))) as [Q|Q]; [|lia].
    exfalso. apply NCO. apply NoDup_length_incl; [exact ND|lia|exact INC]. }
  destruct (data_run_ok l m (length (pairs l m)) items h2 0 S2 ltac:(lia) F ND ltac:(lia)) as (h3 & E3 & _).
  rewrite data_run_app, E3. cbn [Nat.add data_run]. destruct (Nat.ltb_spec (length (needed l m (drecs items))) (length (pairs l m))); [|lia].
  rewrite cstr_id by exact NN. rewrite malformed_line by exact MF. exists h3. reflexivity.
Qed.

Lemma data_bad_request hd content h l m : hd_degree hd < l \/ l < m \/ h_degree h < l \/ content = None ->
  parse_data hd content l m h = Some (Val (1, h)).
Proof.
  intros H. unfold parse_data. destruct (Z.ltb_spec (hd_degree hd) l), (Z.ltb_spec l m), (Z.ltb_spec (h_degree h) l); cbn [orb]; try reflexivity.
  destruct H as [H|[H|[H|H]]]; [lia|lia|lia|]. rewrite H. reflexivity.
Qed.

Lemma data_loop_total l m to_read : forall fuel h read raw s, (length (s_rest s) + (if s_eof s then 1 else 2) <= fuel)%nat ->
  exists r, data_loop fuel l m to_read h read raw s = Some r.
Proof.
  induction fuel as [|fuel IH]; intros h read raw s HF; [destruct (s_eof s); lia|]. cbn [data_loop].
  destruct (s_good s) eqn:G; cbn [andb]; [|eauto]. destruct (read <? to_read)%nat; [|eauto].
  destruct (data_line l m h read (cstr raw)) as [[[h' read']|]| |]; [|eauto|eauto|eauto].
  unfold getline. rewrite G. destruct (take_line (512 - 1) (s_rest s)) as [[a b] e] eqn:T. apply take_line_split in T.
  unfold s_good in G. apply andb_prop in G. destruct G as [G1 G2]. destruct (s_eof s) eqn:SE; [discriminate|].
  apply IH. cbn [s_rest s_eof]. destruct e.
  - destruct T as (T & -> & _). cbn [length]. lia.
  - destruct T as (T & _). rewrite T in HF. rewrite app_length in HF. cbn [length] in HF. lia.
  - destruct T as (T & LA & _). rewrite T in HF. rewrite app_length, LA in HF. lia.
Qed.

Lemma data_ends hd content l m h : exists r, parse_data hd content l m h = Some r.
Proof.
  unfold parse_data. destruct ((hd_degree hd <? l) || (l <? m) || (h_degree h <? l)); [eauto|]. destruct content as [s|]; [|eauto].
  destruct (try h1 <- lift (C_put (HC (is_normalized hd) (h_degree h) (h_rows h)) 1 0 sentinel); lift (C_put h1 1 1 sentinel)) as [h2| |]; [|eauto|eauto].
  destruct (getline 512 s) as [raw s'] eqn:GL.
  destruct (data_loop_total l m (coeffs_nr (Z.to_nat l) (Z.to_nat m)) (length (s_rest s) + 2) h2 0 raw s') as (r & ->).
  - unfold getline in GL. destruct (s_good s).
    + destruct (take_line (512 - 1) (s_rest s)) as [[a b] e] eqn:T. apply take_line_split in T. injection GL as <- <-. cbn [s_rest s_eof]. destruct e.
      * destruct T as (_ & -> & _). cbn [length]. lia.
      * destruct T as (T & _). rewrite T, app_length. cbn [length]. lia.
      * destruct T as (T & _). rewrite T, app_length. lia.
    + injection GL as <- <-. cbn [s_rest s_eof]. destruct (s_eof s); lia.
  - destruct r as [[[h3 read] [|]]| |]; eauto.
Qed.

(* ==== header ==== *)
(* ---- specification: header lines ---- *)
Inductive tfield := FProduct | FModel | FErrors | FTide | FNorm.
Definition tkey (f : tfield) : chars :=
  lit (match f with FProduct => "product_type" | FModel => "modelname" | FErrors => "errors" | FTide => "tide_system" | FNorm => "norm" end).
Definition troom (f : tfield) : nat := match f with FModel => 128 | _ => 64 end%nat.
Definition tget (f : tfield) (h : hdr) : chars :=
  cstr (match f with FProduct => hd_product h | FModel => hd_model h | FErrors => hd_errors h | FTide => hd_tide h | FNorm => hd_norm h end).
Definition tdefault (f : tfield) : chars := match f with FTide => lit "unknown" | FNorm => lit "fully_normalized" | _ => [] end.
Definition teqb (f g : tfield) : bool :=
  match f, g with FProduct, FProduct | FModel, FModel | FErrors, FErrors | FTide, FTide | FNorm, FNorm => true | _, _ => false end.

(* lines: free text; keyword and word; keyword, number and anything separated *)
Inductive hitem :=
| HOther (t : chars)
| HText (f : tfield) (lead gap : nat) (v : chars)
| HGm (lead gap : nat) (x : num) (tail : chars)
| HRadius (lead gap : nat) (x : num) (tail : chars)
| HDegree (lead gap : nat) (ds : list Z) (tail : chars).
Definition kline (lead : nat) (kw : chars) (gap : nat) (v : chars) : chars := repeat blank lead ++ kw ++ repeat blank (S gap) ++ v.
Definition hitem_text (i : hitem) : chars :=
  match i with
  | HOther t => t
  | HText f lead gap v => kline lead (tkey f) gap v
  | HGm lead gap x tail => kline lead (lit "earth_gravity_constant") gap (num_text x ++ tail)
  | HRadius lead gap x tail => kline lead (lit "radius") gap (num_text x ++ tail)
  | HDegree lead gap ds tail => kline lead (lit "max_degree") gap (dstr ds ++ tail)
  end.
Definition keywords : list chars := map lit ["product_type"; "modelname"; "earth_gravity_constant"; "radius"; "max_degree"; "errors"; "tide_system"; "norm"]%string.
(* free text: behind its leading blanks none of the keywords, and not the end mark *)
Definition free_text (t : chars) : Prop :=
  starts_with (lit "end_of_head") t = false /\
  exists n u, t = repeat blank n ++ u /\ hd nul u <> blank /\ forall k, In k keywords -> starts_with k u = false.
Definition hitem_ok (i : hitem) : Prop :=
  ~ In nul (hitem_text i) /\ line_ok 256 (hitem_text i) /\
  match i with
  | HOther t => free_text t
  | HText f _ _ v => v <> [] /\ ~ In blank v /\ (length v + 1 < troom f)%nat
  | HGm _ _ x tail | HRadius _ _ x tail => num_ok x /\ no_extension tail /\ ~ (num_val x == 0)%Q
  | HDegree _ _ ds tail => numeral_ok ds /\ not_digit_next tail /\ 0 < dval ds <= INT_MAX
  end.
(* what the last line of a kind says *)
Definition text_value (f : tfield) (items : list hitem) (d : chars) : chars :=
  fold_left (fun acc i => match i with HText g _ _ v => if teqb f g then v else acc | _ => acc end) items d.
Definition gm_value (items : list hitem) (d : Q) : Q :=
  fold_left (fun acc i => match i with HGm _ _ x _ => num_val x | _ => acc end) items d.
Definition radius_value (items : list hitem) (d : Q) : Q :=
  fold_left (fun acc i => match i with HRadius _ _ x _ => num_val x | _ => acc end) items d.
Definition degree_value (items : list hitem) (d : Z) : Z :=
  fold_left (fun acc i => match i with HDegree _ _ ds _ => dval ds | _ => acc end) items d.

(* ---- single lines ---- *)
Definition rooms (h : hdr) : Prop :=
  length (hd_product h) = 64%nat /\ length (hd_model h) = 128%nat /\ length (hd_errors h) = 64%nat /\
  length (hd_tide h) = 64%nat /\ length (hd_norm h) = 64%nat.

Lemma non_ws_blanks n u : hd nul u <> blank -> next_non_ws (repeat blank n ++ u) = u.
Proof.
  intros H. induction n as [|n IH]; cbn [repeat app].
  - destruct u as [|c u]; [reflexivity|]. cbn [next_non_ws]. cbn [hd] in H. destruct (Ascii.eqb_spec c blank); [contradiction|reflexivity].
  - cbn [next_non_ws]. rewrite Ascii.eqb_refl. exact IH.
Qed.
Lemma word_no_blank v : ~ In blank v -> word_length v = length v.
Proof.
  induction v as [|c v IH]; intros H; [reflexivity|]. cbn [word_length]. destruct (Ascii.eqb_spec c blank) as [->|_]; [exfalso; apply H; left; reflexivity|].
  cbn [length]. f_equal. apply IH. intros I. apply H. right. exact I.
Qed.
Lemma resolve_hit kw gap v : hd nul v <> blank -> resolve kw (kw ++ repeat blank (S gap) ++ v) = Val (Some (v, (word_length v + 1)%nat)).
Proof.
  intros H. unfold resolve. rewrite starts_with_app.
  destruct (Nat.eqb_spec (length (kw ++ repeat blank (S gap) ++ v)) (length kw)) as [E|_].
  { rewrite !app_length, repeat_length in E. lia. }
  replace (skipn (length kw + 1) (kw ++ repeat blank (S gap) ++ v)) with (repeat blank gap ++ v).
  - rewrite non_ws_blanks by exact H. reflexivity.
  - rewrite Nat.add_comm, <- skipn_skipn', skipn_len. reflexivity.
Qed.
Lemma resolve_miss kw line : starts_with kw line = false -> resolve kw line = Val None.
Proof. intros H. unfold resolve. rewrite H. reflexivity. Qed.
Lemma strncpy_word v buf : (length v + 1 < length buf)%nat -> ~ In nul v ->
  cstr (strncpy (length v + 1) v buf) = v /\ length (strncpy (length v + 1) v buf) = length buf.
Proof.
  intros L N. unfold strncpy. replace (firstn (length v + 1) (v ++ repeat nul (length v + 1))) with (v ++ [nul]).
  - split.
    + rewrite <- app_assoc. rewrite cstr_app_no_nul by exact N. cbn. rewrite app_nil_r. reflexivity.
    + rewrite !app_length, skipn_length. cbn [length]. lia.
  - rewrite firstn_app. rewrite firstn_all2 by lia. replace (length v + 1 - length v)%nat with 1%nat by lia. rewrite Nat.add_comm. reflexivity.
Qed.

Lemma text_hit kw gap v buf : v <> [] -> ~ In blank v -> ~ In nul v -> (length v + 1 < length buf)%nat ->
  kw_text kw (kw ++ repeat blank (S gap) ++ v) buf = Val (strncpy (length v + 1) v buf).
Proof.
  intros N B NN L. unfold kw_text. rewrite resolve_hit.
  - cbn [rbind]. rewrite word_no_blank by exact B. destruct (Nat.ltb_spec (length v + 1) (length buf)); [reflexivity|lia].
  - destruct v as [|c v]; [congruence|]. cbn [hd]. intros ->. apply B. left. reflexivity.
Qed.
Lemma text_miss kw line buf : starts_with kw line = false -> kw_text kw line buf = Val buf.
Proof. intros H. unfold kw_text. rewrite resolve_miss by exact H. reflexivity. Qed.
Lemma double_miss kw line v e : starts_with kw line = false -> kw_double kw line v e = Val (v, e).
Proof. intros H. unfold kw_double. rewrite resolve_miss by exact H. reflexivity. Qed.
Lemma int_miss kw line v e : starts_with kw line = false -> kw_int kw line v e = Val (v, e).
Proof. intros H. unfold kw_int. rewrite resolve_miss by exact H. reflexivity. Qed.

Lemma num_head x tail : num_ok x -> hd nul (num_text x ++ tail) <> blank.
Proof.
  intros (N & I1 & I2 & _). unfold num_text, fixed. destruct (n_neg x); [discriminate|]. cbn [app].
  destruct (n_ip x) as [|d l] eqn:E; [discriminate|]. inversion I1; subst. cbn [dstr map app hd]. intros C. pose proof (dchar_neq_blank d ltac:(assumption)). congruence.
Qed.
Lemma double_hit kw gap x tail v e : num_ok x -> no_extension tail -> ~ (num_val x == 0)%Q ->
  exists q, kw_double kw (kw ++ repeat blank (S gap) ++ num_text x ++ tail) v e = Val (q, e) /\ (q == num_val x)%Q.
Proof.
  intros NX NE NZ. unfold kw_double. rewrite resolve_hit by (apply num_head, NX). cbn [rbind].
  destruct (strtod_num 0 x tail NX NE) as (q & E & Q1). cbn [repeat app] in E. rewrite E. exists q. split; [|exact Q1].
  rewrite eqb0_add by apply num_length. cbn [orb]. destruct (Qeq_bool q 0) eqn:Z0; [|reflexivity].
  apply Qeq_bool_iff in Z0. exfalso. apply NZ. rewrite <- Q1. exact Z0.
Qed.
Lemma int_hit kw gap ds tail v e : numeral_ok ds -> not_digit_next tail -> 0 < dval ds <= INT_MAX ->
  kw_int kw (kw ++ repeat blank (S gap) ++ dstr ds ++ tail) v e = Val (dval ds, e).
Proof.
  intros ND NX B. unfold kw_int. rewrite resolve_hit.
  - cbn [rbind]. pose proof (strtol_dstr 0 ds tail ND NX) as E. cbn [repeat app] in E. rewrite E by lia. cbn [l_val l_used].
    rewrite wrap_int by lia. rewrite eqb0_add by (apply numeral_length, ND). destruct (Z.eqb_spec (dval ds) 0); [lia|reflexivity].
  - destruct ND as [ND1 ND2]. destruct ds as [|d l]; [congruence|]. inversion ND2; subst. cbn [dstr map app hd]. intros C.
    pose proof (dchar_neq_blank d ltac:(assumption)). congruence.
Qed.

Lemma kline_head lead kw gap v : hd nul kw <> blank -> kw <> [] -> next_non_ws (kline lead kw gap v) = kw ++ repeat blank (S gap) ++ v.
Proof. intros H N. unfold kline. apply non_ws_blanks. destruct kw; [congruence|exact H]. Qed.

Definition hview (h h' : hdr) (i : hitem) : Prop :=
  (forall f, tget f h' = text_value f [i] (tget f h)) /\ (hd_gm h' == gm_value [i] (hd_gm h))%Q /\
  (hd_radius h' == radius_value [i] (hd_radius h))%Q /\ hd_degree h' = degree_value [i] (hd_degree h).

Lemma header_item h i : hitem_ok i -> rooms h ->
  exists h', header_line h (hitem_text i) = Val (h', 0) /\ rooms h' /\ hview h h' i.
Proof.
  intros (NN & LO & OK) (R1 & R2 & R3 & R4 & R5). destruct i as [t|f lead gap v|lead gap x tail|lead gap x tail|lead gap ds tail];
    cbn [hitem_text] in *; unfold header_line.
  - destruct OK as (_ & n & u & -> & HU & KW). rewrite non_ws_blanks by exact HU.
    assert (A : forall s, In (lit s) keywords -> starts_with (lit s) u = false) by (intros s I; apply KW, I).
    repeat first [rewrite text_miss by (apply A; cbn; tauto) | rewrite double_miss by (apply A; cbn; tauto) | rewrite int_miss by (apply A; cbn; tauto) | progress cbn [rbind]].
    eexists. split; [reflexivity|]. split; [cbn; repeat split; assumption|].
    split; [intros []; reflexivity|]. split; [reflexivity|]. split; [reflexivity|]. reflexivity.
  - destruct OK as (VN & VB & VL).
    assert (VNN : ~ In nul v).
    { intros I. apply NN. unfold kline. rewrite !in_app_iff. auto. }
    rewrite kline_head by (destruct f; discriminate).
    destruct f; cbn [tkey troom] in *.
    all: repeat first [rewrite text_hit by (first [assumption|lia]) | rewrite text_miss by reflexivity | rewrite double_miss by reflexivity | rewrite int_miss by reflexivity | progress cbn [rbind]].
    all: eexists; split; [reflexivity|].
    all: match goal with |- context [strncpy _ _ ?b] => destruct (strncpy_word v b ltac:(lia) VNN) as [W1 W2] end.
    all: split; [unfold rooms; cbn [hd_product hd_model hd_errors hd_tide hd_norm]; repeat split; congruence|].
    all: split; [|split; [reflexivity|]; split; reflexivity].
    all: intros []; cbn [text_value fold_left teqb]; unfold tget; cbn [hd_product hd_model hd_errors hd_tide hd_norm]; first [exact W1|reflexivity].
  - destruct OK as (NX & NE & NZ). rewrite kline_head by discriminate.
    destruct (double_hit (lit "earth_gravity_constant") gap x tail (hd_gm h) 0 NX NE NZ) as (q & EQ & Q1).
    repeat first [rewrite EQ | rewrite text_miss by reflexivity | rewrite double_miss by reflexivity | rewrite int_miss by reflexivity | progress cbn [rbind]].
    eexists; split; [reflexivity|]. split; [cbn; repeat split; assumption|].
    split; [intros []; reflexivity|]. split; [exact Q1|]. split; reflexivity.
  - destruct OK as (NX & NE & NZ). rewrite kline_head by discriminate.
    destruct (double_hit (lit "radius") gap x tail (hd_radius h) 0 NX NE NZ) as (q & EQ & Q1).
    repeat first [rewrite EQ | rewrite text_miss by reflexivity | rewrite (double_miss (lit "earth_gravity_constant")) by reflexivity | rewrite int_miss by reflexivity | progress cbn [rbind]].
    eexists; split; [reflexivity|]. split; [cbn; repeat split; assumption|].
    split; [intros []; reflexivity|]. split; [reflexivity|]. split; [exact Q1|reflexivity].
  - destruct OK as (ND & NX & B). rewrite kline_head by discriminate.
    repeat first [rewrite int_hit by assumption | rewrite text_miss by reflexivity | rewrite double_miss by reflexivity | progress cbn [rbind]].
    eexists; split; [reflexivity|]. split; [cbn; repeat split; assumption|].
    split; [intros []; reflexivity|]. split; [reflexivity|]. split; reflexivity.
Qed.

Lemma not_end i : hitem_ok i -> starts_with (lit "end_of_head") (hitem_text i) = false.
Proof.
  intros (_ & _ & OK). destruct i as [t|f lead gap v|lead gap x tail|lead gap x tail|lead gap ds tail]; cbn [hitem_text]; [exact (proj1 OK)| | | |];
    unfold kline; (destruct lead; [|reflexivity]); try reflexivity. destruct f; reflexivity.
Qed.

Lemma header_text items : forall left h endl rest,
  Forall hitem_ok items -> rooms h -> (length items <= left)%nat -> starts_with (lit "end_of_head") (cstr endl) = true -> line_ok 256 endl ->
  exists h', (let (raw, s) := getline 256 (s_open (file_text (map hitem_text items ++ [endl]) rest)) in header_loop left h (cstr raw) s) = Val (0, h', s_open rest) /\
    rooms h' /\ (forall f, tget f h' = text_value f items (tget f h)) /\ (hd_gm h' == gm_value items (hd_gm h))%Q /\
    (hd_radius h' == radius_value items (hd_radius h))%Q /\ hd_degree h' = degree_value items (hd_degree h).
Proof.
  induction items as [|i items IH]; intros left h endl rest F R L E LE.
  - cbn [map app]. unfold file_text. cbn [flat_map]. rewrite <- !app_assoc. cbn [app]. rewrite getline_mid by exact LE.
    exists h. split; [destruct left; cbn [header_loop]; rewrite E; reflexivity|]. split; [exact R|]. repeat split; reflexivity.
  - inversion F as [|x y Hi F']; subst. destruct left as [|left]; [simpl in L; lia|].
    destruct (header_item h i Hi R) as (h1 & E1 & R1 & V1 & V2 & V3 & V4).
    destruct (IH left h1 endl rest F' R1 ltac:(simpl in L; lia) E LE) as (h' & E' & R' & W1 & W2 & W3 & W4).
    exists h'. split.
    + cbn [map app]. unfold file_text. cbn [flat_map]. rewrite <- !app_assoc. cbn [app]. destruct Hi as (NN & LO & OK).
      rewrite getline_mid by exact LO. cbn [header_loop]. rewrite cstr_id by exact NN. rewrite not_end by (split; auto).
      rewrite E1. cbn [rbind]. unfold file_text in E'. 
      destruct (getline 256 (s_open (flat_map (fun t => t ++ [nl]) (map hitem_text items ++ [endl]) ++ rest))) as [raw s]. exact E'.
    + split; [exact R'|]. split; [intros f; rewrite W1, V1; reflexivity|].
      split; [rewrite W2|split; [rewrite W3|rewrite W4, V4; reflexivity]].
      * clear - V2. unfold gm_value in *. cbn [fold_left] in *. revert V2. generalize (hd_gm h1), (match i with HGm _ _ x _ => num_val x | _ => hd_gm h end). 
        induction items as [|j items IH]; intros a b E; [exact E|]. cbn [fold_left]. apply IH. destruct j; try exact E; reflexivity.
      * clear - V3. unfold radius_value in *. cbn [fold_left] in *. revert V3. generalize (hd_radius h1), (match i with HRadius _ _ x _ => num_val x | _ => hd_radius h end). 
        induction items as [|j items IH]; intros a b E; [exact E|]. cbn [fold_left]. apply IH. destruct j; try exact E; reflexivity.
Qed.

Lemma hdr0_rooms : rooms hdr0.
Proof. repeat split. Qed.
Lemma hdr0_text f : tget f hdr0 = tdefault f.
Proof. destruct f; reflexivity. Qed.

Lemma header_ok items endl rest : Forall hitem_ok items -> (length items <= 1000)%nat -> starts_with (lit "end_of_head") (cstr endl) = true -> line_ok 256 endl ->
  exists h', parse_header (Some (file_text (map hitem_text items ++ [endl]) rest)) hdr0 = Val (0, h', s_open rest) /\
    (forall f, tget f h' = text_value f items (tdefault f)) /\ (hd_gm h' == gm_value items 0)%Q /\
    (hd_radius h' == radius_value items 0)%Q /\ hd_degree h' = degree_value items 0 /\
    (is_normalized h' = true <-> text_value FNorm items (lit "fully_normalized") = lit "fully_normalized").
Proof.
  intros F L E LE. destruct (header_text items 1000 hdr0 endl rest F hdr0_rooms L E LE) as (h' & E' & _ & V1 & V2 & V3 & V4).
  exists h'. unfold parse_header. split; [exact E'|]. split; [intros f; rewrite V1, hdr0_text; reflexivity|].
  split; [exact V2|]. split; [exact V3|]. split; [exact V4|]. pose proof (V1 FNorm) as VN. rewrite hdr0_text in VN. unfold tget in VN. cbn [tdefault] in VN.
  unfold is_normalized. rewrite VN. destruct (list_eq_dec ascii_dec (text_value FNorm items (lit "fully_normalized")) (lit "fully_normalized")); split; intros; congruence.
Qed.

(* a header without the end mark is never accepted *)
Lemma starts_with_spec p s : starts_with p s = true <-> exists r, s = p ++ r.
Proof.
  revert s. induction p as [|c p IH]; intros s; cbn [starts_with app].
  - split; [eauto|reflexivity].
  - destruct s as [|d s]; [split; [discriminate|intros (r & E); discriminate]|]. destruct (Ascii.eqb_spec c d) as [->|N]; cbn [andb].
    + rewrite IH. split; intros (r & E); exists r; congruence.
    + split; [discriminate|]. intros (r & E). injection E as E1 E2. congruence.
Qed.
Lemma cstr_prefix l : exists r, l = cstr l ++ r.
Proof.
  induction l as [|c l (r & IH)]; [exists []; reflexivity|]. cbn [cstr]. destruct (Ascii.eqb c nul); [eexists; reflexivity|].
  exists r. cbn [app]. congruence.
Qed.
Lemma getline_slice n s raw s' : getline n s = (raw, s') -> exists g, s_rest s = raw ++ g ++ s_rest s'.
Proof.
  unfold getline. destruct (s_good s).
  - destruct (take_line (n - 1) (s_rest s)) as [[a b] e] eqn:T. apply take_line_split in T. intros E. injection E as <- <-. cbn [s_rest]. destruct e.
    + destruct T as (-> & -> & _). exists []. rewrite app_nil_r. reflexivity.
    + destruct T as (-> & _). exists [nl]. reflexivity.
    + destruct T as (-> & _). exists []. reflexivity.
  - intros E. injection E as <- <-. exists []. reflexivity.
Qed.
Lemma header_loop_end left : forall h buf s code h' s', header_loop left h buf s = Val (code, h', s') -> code = 0 ->
  starts_with (lit "end_of_head") buf = true \/ exists a b, s_rest s = a ++ lit "end_of_head" ++ b.
Proof.
  induction left as [|left IH]; intros h buf s code h' s' E C; cbn [header_loop] in E;
    destruct (starts_with (lit "end_of_head") buf); auto; right;
    destruct (header_line h buf) as [[h1 err]| |]; try discriminate; cbn [rbind] in E;
    destruct (getline 256 s) as [raw s1] eqn:GL; destruct (Z.eqb_spec err 0) as [->|NE]; cbn [negb] in E; injection E as E1 || idtac.
  - subst. congruence.
  - subst. congruence.
  - apply IH in E; [|exact C]. destruct (getline_slice _ _ _ _ GL) as (g & GE). destruct E as [E|(a & b & E)].
    + apply starts_with_spec in E. destruct E as (r & E). destruct (cstr_prefix raw) as (r' & E2). exists [], (r ++ r' ++ g ++ s_rest s1).
      rewrite GE. rewrite E2 at 1. rewrite E. cbn [app]. rewrite <- !app_assoc. reflexivity.
    + exists (raw ++ g ++ a), b. rewrite GE, E. rewrite <- !app_assoc. reflexivity.
  - subst. congruence.
Qed.
Lemma header_needs_end f h code h' s : parse_header (Some f) h = Val (code, h', s) -> code = 0 -> exists a b, f = a ++ lit "end_of_head" ++ b.
Proof.
  unfold parse_header. destruct (getline 256 (s_open f)) as [raw s1] eqn:GL. intros E C.
  destruct (getline_slice _ _ _ _ GL) as (g & GE). cbn [s_rest s_open] in GE. apply header_loop_end in E; [|exact C]. destruct E as [E|(a & b & E)].
  - apply starts_with_spec in E. destruct E as (r & E). destruct (cstr_prefix raw) as (r' & E2). exists [], (r ++ r' ++ g ++ s_rest s1).
    rewrite GE. rewrite E2 at 1. rewrite E. cbn [app]. rewrite <- !app_assoc. reflexivity.
  - exists (raw ++ g ++ a), b. rewrite GE, E. rewrite <- !app_assoc. reflexivity.
Qed.

(* ==== whole files ==== *)
Lemma file_text_app a b last : file_text (a ++ b) last = file_text a (file_text b last).
Proof. unfold file_text. rewrite flat_map_app, app_assoc. reflexivity. Qed.

Lemma resize_storage junk h n : storage h -> 0 <= n -> storage (h_resize junk h n) /\ h_degree (h_resize junk h n) = n.
Proof.
  intros (N & L & R) P. unfold h_resize. destruct (Z.leb_spec n (h_degree h)); cbn [h_degree]; (split; [|reflexivity]).
  - exists N. cbn [h_degree h_rows]. split; [lia|exact R].
  - exists n. cbn [h_degree h_rows]. split; [lia|apply rect_allocate].
Qed.

Lemma gravity_file junk h l m hitems endl items last : storage h -> (1 <= l)%nat -> (m <= l)%nat ->
  Forall hitem_ok hitems -> (length hitems <= 1000)%nat -> starts_with (lit "end_of_head") (cstr endl) = true -> line_ok 256 endl ->
  Z.of_nat l <= degree_value hitems 0 ->
  Forall ditem_ok items -> line_ok 512 last -> NoDup (map key (needed l m (drecs items))) -> complete l m items ->
  exists h', parse_gravity_model junk (Some (file_text ((map hitem_text hitems ++ [endl]) ++ map ditem_text items) last)) (Z.of_nat l) (Z.of_nat m) h = Some (Val (0, h')) /\
    h_degree h' = Z.of_nat l /\ (h_normalized h' = true <-> text_value FNorm hitems (lit "fully_normalized") = lit "fully_normalized") /\
    forall i j, (i <= l)%nat -> (j <= i)%nat -> (j <= m)%nat ->
      exists r, In r (drecs items) /\ key r = (i, j) /\ holds_rec h' r.
Proof.
  intros ST L1 ML FH LH SE LE DV F LL ND CO. unfold parse_gravity_model.
  rewrite file_text_app. destruct (header_ok hitems endl (file_text (map ditem_text items) last) FH LH SE LE) as (hd & E & _ & _ & _ & ED & EN).
  rewrite E. rewrite Z.eqb_refl. cbn [negb]. rewrite ED. destruct (Z.leb_spec (Z.of_nat l) (degree_value hitems 0)); [|lia].
  destruct (Z.leb_spec (Z.of_nat m) (Z.of_nat l)); [|lia]. cbn [andb negb s_rest s_open].
  destruct (resize_storage junk h (Z.of_nat l) ST ltac:(lia)) as [SR DR].
  destruct (data_complete hd (h_resize junk h (Z.of_nat l)) l m items last SR L1 ML ltac:(lia) ltac:(lia) F LL ND CO) as (h' & E' & D' & N' & C').
  change (s_open (file_text (map ditem_text items) last)) with (Stream (file_text (map ditem_text items) last) false false) in E'.
  unfold s_open. rewrite E'. exists h'. split; [reflexivity|]. split; [congruence|]. split; [rewrite N'; exact EN|exact C'].
Qed.

Lemma gravity_codes junk h l m hitems endl items last : storage h -> (1 <= m)%nat -> (m <= l)%nat ->
  Forall hitem_ok hitems -> (length hitems <= 1000)%nat -> starts_with (lit "end_of_head") (cstr endl) = true -> line_ok 256 endl ->
  Z.of_nat l <= degree_value hitems 0 ->
  Forall ditem_ok items -> line_ok 512 last -> NoDup (map key (needed l m (drecs items))) -> no_sentinel items ->
  exists code h', parse_gravity_model junk (Some (file_text ((map hitem_text hitems ++ [endl]) ++ map ditem_text items) last)) (Z.of_nat l) (Z.of_nat m) h = Some (Val (code, h')) /\
    (code = 0 \/ code = 1) /\
    (code = 0 <-> complete l m items \/
       (forall p, In p (pairs l m) -> (In p (map key (needed l m (drecs items))) <-> p <> (1, 0)%nat /\ p <> (1, 1)%nat))).
Proof.
  intros ST L1 ML FH LH SE LE DV F LL ND NS. unfold parse_gravity_model.
  rewrite file_text_app. destruct (header_ok hitems endl (file_text (map ditem_text items) last) FH LH SE LE) as (hd & E & _ & _ & _ & ED & EN).
  rewrite E. rewrite Z.eqb_refl. cbn [negb]. rewrite ED. destruct (Z.leb_spec (Z.of_nat l) (degree_value hitems 0)); [|lia].
  destruct (Z.leb_spec (Z.of_nat m) (Z.of_nat l)); [|lia]. cbn [andb negb s_rest s_open].
  destruct (resize_storage junk h (Z.of_nat l) ST ltac:(lia)) as [SR DR].
  destruct (data_codes hd (h_resize junk h (Z.of_nat l)) l m items last SR L1 ML ltac:(lia) ltac:(lia) F LL ND NS) as (c & h' & E' & C2 & C0 & _).
  change (s_open (file_text (map ditem_text items) last)) with (Stream (file_text (map ditem_text items) last) false false) in E'.
  unfold s_open. rewrite E'. exists (if c =? 0 then 0 else 1), h'. split; [reflexivity|].
  rewrite <- C0. destruct C2 as [->| ->]; cbn; intuition discriminate.
Qed.
Lemma gravity_malformed junk h l m hitems endl items t more last : storage h -> (1 <= l)%nat -> (m <= l)%nat ->
  Forall hitem_ok hitems -> (length hitems <= 1000)%nat -> starts_with (lit "end_of_head") (cstr endl) = true -> line_ok 256 endl ->
  Z.of_nat l <= degree_value hitems 0 ->
  Forall ditem_ok items -> NoDup (map key (needed l m (drecs items))) -> ~ complete l m items ->
  malformed l m t -> ~ In nul t -> line_ok 512 t -> Forall (line_ok 512) more -> line_ok 512 last ->
  exists h', parse_gravity_model junk (Some (file_text ((map hitem_text hitems ++ [endl]) ++ map ditem_text items ++ t :: more) last)) (Z.of_nat l) (Z.of_nat m) h = Some (Val (1, h')).
Proof.
  intros ST L1 ML FH LH SE LE DV F ND NC MF NN LT FM LL. unfold parse_gravity_model.
  rewrite file_text_app. destruct (header_ok hitems endl (file_text (map ditem_text items ++ t :: more) last) FH LH SE LE) as (hd & E & _ & _ & _ & ED & EN).
  rewrite E. rewrite Z.eqb_refl. cbn [negb]. rewrite ED. destruct (Z.leb_spec (Z.of_nat l) (degree_value hitems 0)); [|lia].
  destruct (Z.leb_spec (Z.of_nat m) (Z.of_nat l)); [|lia]. cbn [andb negb s_rest s_open].
  destruct (resize_storage junk h (Z.of_nat l) ST ltac:(lia)) as [SR DR].
  destruct (data_malformed hd (h_resize junk h (Z.of_nat l)) l m items t more last SR L1 ML ltac:(lia) ltac:(lia) F ND NC MF NN LT FM LL) as (h' & E').
  unfold s_open in *. rewrite E'. exists h'. reflexivity.
Qed.

(* ---- concrete files ---- *)
Definition N1 (d : Z) : num := Num false [d] [5] None.
Definition gfc (l m c s : Z) : ditem := DData (DRec 1 [l] 0 [m] 2 (Num false [c] [0] (Some (true, EMinus, [0; 3]))) 0 (Num true [s] [0] None) []).
Definition gm_line := HGm 0 3 (Num false [3] [9; 8] (Some (true, EPlus, [1; 4]))) (repeat blank 2).
Definition deg_line := HDegree 2 0 [0; 2] [].
Definition norm_line (v : string) := HText FNorm 1 4 (lit v).
Definition model1 : list ditem := [DOther (lit "#"); gfc 1 1 4 5; gfc 0 0 1 0; gfc 9 9 1 1; gfc 1 0 3 0].
Definition h_one (v : Q) : hc Q := hc_new (fun _ _ => v) 2.

Ltac okline := split; [vm_compute; intuition discriminate|split; [split; [vm_compute; intuition discriminate|vm_compute; lia]|]].
Ltac digs := repeat (first [apply Forall_nil | apply Forall_cons; [lia|]]).
Lemma gfc_ok l m c s : 0 <= l <= 9 -> 0 <= m <= l -> 0 <= c <= 9 -> 0 <= s <= 9 -> (m = 0 -> s = 0) -> 
  ~ In nul (ditem_text (gfc l m c s)) /\ line_ok 512 (ditem_text (gfc l m c s)) -> ditem_ok (gfc l m c s).
Proof.
  intros B1 B2 B3 B4 Z [A1 A2]. split; [exact A1|]. split; [exact A2|]. unfold gfc. cbn.
  split; [split; [discriminate|unfold digits_ok; digs]|]. split; [split; [discriminate|unfold digits_ok; digs]|].
  unfold dval. cbn [fold_left d_l d_m]. unfold INT_MAX. split; [lia|]. split; [lia|].
  split; [split; [discriminate|split; [unfold digits_ok; digs|split; [unfold digits_ok; digs|split; [discriminate|unfold digits_ok; digs]]]]|].
  split; [split; [discriminate|split; [unfold digits_ok; digs|split; [unfold digits_ok; digs|exact I]]]|].
  split; [exact I|]. intros M0. rewrite Z by lia. reflexivity.
Qed.
Ltac okgfc := apply gfc_ok; [lia|lia|lia|lia|lia|split; [vm_compute; intuition discriminate|split; [vm_compute; intuition discriminate|vm_compute; lia]]].
Lemma model1_ok : Forall ditem_ok model1.
Proof.
  unfold model1. apply Forall_cons; [okline; reflexivity|].
  apply Forall_cons; [okgfc|]. apply Forall_cons; [okgfc|]. apply Forall_cons; [okgfc|]. apply Forall_cons; [okgfc|apply Forall_nil].
Qed.
Lemma model1_complete : NoDup (map key (needed 1 1 (drecs model1))) /\ complete 1 1 model1.
Proof.
  split.
  - change (NoDup [(1, 1); (0, 0); (1, 0)]%nat). repeat (constructor; [cbn; intuition congruence|]). constructor.
  - unfold complete. change (incl [(0, 0); (1, 0); (1, 1)]%nat [(1, 1); (0, 0); (1, 0)]%nat). intros p. cbn. tauto.
Qed.
Definition head1 : list hitem := [HOther (lit "  a comment"); gm_line; norm_line "fully_normalized"; deg_line].
Lemma head1_ok : Forall hitem_ok head1.
Proof.
  unfold head1. apply Forall_cons.
  { okline. split; [reflexivity|]. exists 2%nat, (lit "a comment"). split; [reflexivity|]. split; [discriminate|].
    intros k I. cbn in I. intuition (subst; reflexivity). }
  apply Forall_cons.
  { okline. split; [|split; [vm_compute; intuition discriminate|discriminate]]. split; [discriminate|]. split; [unfold digits_ok; cbn; digs|]. split; [unfold digits_ok; cbn; digs|]. split; [discriminate|unfold digits_ok; digs]. }
  apply Forall_cons.
  { okline. split; [discriminate|]. split; [vm_compute; intuition discriminate|vm_compute; lia]. }
  apply Forall_cons; [|apply Forall_nil].
  okline. split; [split; [discriminate|unfold digits_ok; digs]|]. split; [exact I|vm_compute; split; [reflexivity|discriminate]].
Qed.

(* a repeated line counts for a missing one *)
Definition dup_model : list ditem := [gfc 0 0 1 0; gfc 1 0 3 0; gfc 1 0 3 0].
Lemma dup_accepted : Forall ditem_ok dup_model /\ ~ In (1, 1)%nat (map key (drecs dup_model)) /\
  exists h', parse_data (Hdr [] [] [] [] [] 1 1 9) (Some (s_open (file_text (map ditem_text dup_model) []))) 1 1 (h_one 0) = Some (Val (0, h')) /\
    C_get h' 1 1 = Ok sentinel.
Proof.
  split; [unfold dup_model; apply Forall_cons; [okgfc|]; apply Forall_cons; [okgfc|]; apply Forall_cons; [okgfc|apply Forall_nil]|].
  split; [vm_compute; intuition discriminate|]. eexists. split; [vm_compute; reflexivity|reflexivity].
Qed.
(* absent degree-1 terms: S(1,1) keeps what the memory held *)
Definition egm_model : list ditem := [gfc 0 0 1 0].
Lemma stale_s11 : Forall ditem_ok egm_model /\
  exists h', parse_data (Hdr [] [] [] [] [] 1 1 9) (Some (s_open (file_text (map ditem_text egm_model) []))) 1 1 (h_one 7) = Some (Val (0, h')) /\
    S_get h' 1 1 = Ok 7%Q.
Proof.
  split; [unfold egm_model; apply Forall_cons; [okgfc|apply Forall_nil]|]. eexists. split; [vm_compute; reflexivity|reflexivity].
Qed.
(* order 0: two missing terms, one of them of degree 2, are accepted *)
Definition zonal_model : list ditem := [gfc 0 0 1 0].
Lemma zonal_accepted : Forall ditem_ok zonal_model /\ ~ In (2, 0)%nat (map key (drecs zonal_model)) /\
  exists h', parse_data (Hdr [] [] [] [] [] 1 1 9) (Some (s_open (file_text (map ditem_text zonal_model) []))) 2 0 (h_one 7) = Some (Val (0, h')) /\
    C_get h' 2 0 = Ok 7%Q.
Proof.
  split; [unfold zonal_model; apply Forall_cons; [okgfc|apply Forall_nil]|]. split; [vm_compute; intuition discriminate|].
  eexists. split; [vm_compute; reflexivity|reflexivity].
Qed.
(* degree 0 writes beyond the object *)
Lemma degree_zero_undefined : parse_data (Hdr [] [] [] [] [] 1 1 9) (Some (s_open (file_text (map ditem_text [gfc 0 0 1 0]) []))) 0 0 (hc_new (fun _ _ => 0%Q) 0) = Some Undef.
Proof. reflexivity. Qed.
(* a last line without newline is not read *)
Lemma last_line_lost : exists h', parse_data (Hdr [] [] [] [] [] 1 1 9) (Some (s_open (file_text (map ditem_text [gfc 0 0 1 0; gfc 1 0 3 0]) (ditem_text (gfc 1 1 4 5))))) 1 1 (h_one 0) = Some (Val (2, h')).
Proof. eexists. vm_compute. reflexivity. Qed.
(* a blank behind the value of norm *)
Definition norm_header (pad : chars) : chars := lit "norm fully_normalized" ++ pad ++ [nl] ++ lit "end_of_head" ++ [nl].
Lemma trailing_blank : (exists h s, parse_header (Some (norm_header [])) hdr0 = Val (0, h, s) /\ is_normalized h = true) /\
  (exists h s, parse_header (Some (norm_header [blank])) hdr0 = Val (0, h, s) /\ is_normalized h = false).
Proof. split; eexists _, _; (split; [vm_compute; reflexivity|vm_compute; reflexivity]). Qed.

(* ---- header numbers that cannot be read ---- *)
Definition number_keywords : list chars := map lit ["earth_gravity_constant"; "radius"; "max_degree"]%string.
Lemma header_bad_line h kw lead gap j : In kw number_keywords -> junk_field j -> hd nul j <> blank -> 
  exists h', header_line h (kline lead kw gap j) = Val (h', 2).
Proof.
  intros I J B. pose proof (strtod_junk 0 j J) as E1. pose proof (strtol_junk 0 j J) as E2. cbn [repeat app] in E1, E2.
  cbn in I. destruct I as [<-|[<-|[<-|[]]]]; unfold header_line; (rewrite kline_head by discriminate).
  - repeat first [rewrite text_miss by reflexivity | rewrite double_miss by reflexivity | rewrite int_miss by reflexivity | progress cbn [rbind]
      | unfold kw_double at 1; rewrite resolve_hit by exact B; cbn [rbind]; rewrite E1; cbn [Nat.eqb orb]]. eauto.
  - repeat first [rewrite text_miss by reflexivity | rewrite double_miss by reflexivity | rewrite int_miss by reflexivity | progress cbn [rbind]
      | unfold kw_double at 1; rewrite resolve_hit by exact B; cbn [rbind]; rewrite E1; cbn [Nat.eqb orb]]. eauto.
  - repeat first [rewrite text_miss by reflexivity | rewrite double_miss by reflexivity | rewrite int_miss by reflexivity | progress cbn [rbind]
      | unfold kw_int at 1; rewrite resolve_hit by exact B; cbn [rbind]; rewrite E2; cbn [Nat.eqb orb l_used l_val]]. eauto.
Qed.

Lemma header_bad_number items kw lead gap j more last : Forall hitem_ok items -> (length items <= 1000)%nat ->
  In kw number_keywords -> junk_field j -> hd nul j <> blank -> ~ In nul (kline lead kw gap j) -> line_ok 256 (kline lead kw gap j) ->
  exists h' s, parse_header (Some (file_text (map hitem_text items ++ kline lead kw gap j :: more) last)) hdr0 = Val (2, h', s).
Proof.
  intros F L I J B NN LO. unfold parse_header.
  cut (forall left h, rooms h -> (length items <= left)%nat -> exists h' s,
    (let (raw, s) := getline 256 (s_open (file_text (map hitem_text items ++ kline lead kw gap j :: more) last)) in header_loop left h (cstr raw) s) = Val (2, h', s)).
  { intros C. apply C; [apply hdr0_rooms|exact L]. }
  clear L. induction items as [|i items IH]; intros left h R L.
  - cbn [map app]. unfold file_text. cbn [flat_map]. rewrite <- !app_assoc. cbn [app]. rewrite getline_mid by exact LO.
    rewrite cstr_id by exact NN. destruct (header_bad_line h kw lead gap j I J B) as (h' & E).
    assert (NE : starts_with (lit "end_of_head") (kline lead kw gap j) = false).
    { unfold kline. destruct lead; [|reflexivity]. cbn in I. destruct I as [<-|[<-|[<-|[]]]]; reflexivity. }
    destruct left; cbn [header_loop]; rewrite NE, E; cbn [rbind];
      destruct (getline 256 (s_open (flat_map (fun t => t ++ [nl]) more ++ last))) as [raw s]; eexists _, _; reflexivity.
  - inversion F as [|x y Hi F']; subst. destruct left as [|left]; [simpl in L; lia|].
    destruct (header_item h i Hi R) as (h1 & E1 & R1 & _).
    destruct (IH F' left h1 R1 ltac:(simpl in L; lia)) as (h' & s & E').
    exists h', s. cbn [map app]. unfold file_text. cbn [flat_map]. rewrite <- !app_assoc. cbn [app]. destruct Hi as (NI & LI & OK).
    rewrite getline_mid by exact LI. cbn [header_loop]. rewrite cstr_id by exact NI. rewrite not_end by (split; auto).
    rewrite E1. cbn [rbind]. unfold file_text in E'.
    destruct (getline 256 (s_open (flat_map (fun t => t ++ [nl]) (map hitem_text items ++ kline lead kw gap j :: more) ++ last))) as [raw s0]. exact E'.
Qed.
