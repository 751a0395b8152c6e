(* Specification and lemmas behind RnxWhole_props.v. *)
From Coq Require Import List ZArith QArith Ascii Bool Lia.
From Verif Require Import Base CLib_model CLib_proofs Stream_model Lines_proofs SysInfo_model SysInfo_proofs Rinex_model Rinex_proofs
  RnxHead_model RnxHead_proofs RnxFile_model RnxFile_proofs RnxFileText_proofs RnxWhole_model.
Import ListNotations.
Local Open Scope nat_scope.

(* ================= every file: the loop ends ================= *)
Lemma next_line_rest r : length (s_rest (r_st (next_line r))) <= length (s_rest (r_st r)).
Proof.
  unfold next_line. destruct (getline MAX_RECORD_CHARS (r_st r)) as [t s] eqn:G. cbn [r_st].
  exact (getline_shrinks Z (fun _ => None) _ _ _ _ G).
Qed.
Lemma next_line_eof r : s_eof (r_st r) = true -> s_eof (r_st (next_line r)) = true.
Proof.
  intros E. unfold next_line, getline, s_good. rewrite E. cbn. reflexivity.
Qed.
Definition budget (s : stream) : nat := length (s_rest s) + (if s_eof s then 1 else 2).
Lemma next_line_budget r : budget (r_st (next_line r)) <= budget (r_st r).
Proof.
  pose proof (next_line_rest r). unfold budget. destruct (s_eof (r_st r)) eqn:E; [rewrite (next_line_eof r E); lia|].
  destruct (s_eof (r_st (next_line r))); lia.
Qed.
Lemma read_obs_budget scales : forall todo curobs id vals r c o r',
  read_obs scales todo curobs id vals r = Ok (c, o, r') -> budget (r_st r') <= budget (r_st r).
Proof.
  induction todo as [|todo IH]; intros curobs id vals r c o r' E; cbn [read_obs] in E.
  - injection E as _ _ <-. lia.
  - set (r1 := if Nat.eqb (curobs mod 5) 0 then next_line r else r) in *.
    assert (B : budget (r_st r1) <= budget (r_st r)) by (unfold r1; destruct (Nat.eqb _ _); [apply next_line_budget|lia]).
    destruct (load (r_line r1) 0) as [c0|]; [|discriminate]. cbn [obind] in E.
    destruct (_ && _); [injection E as _ _ <-; exact B|].
    destruct (load scales curobs) as [sc|]; [|discriminate]. cbn [obind] in E.
    destruct (read_field _ _ sc) as [[v|]|]; [| |discriminate]; cbn [obind] in E.
    + apply IH in E. lia.
    + injection E as _ _ <-. exact B.
Qed.
Lemma read_beacons_budget nobs scales : forall n acc r c l r',
  read_beacons nobs scales n acc r = Ok (c, l, r') -> budget (r_st r') <= budget (r_st r).
Proof.
  induction n as [|n IH]; intros acc r c l r' E; cbn [read_beacons] in E.
  - injection E as _ _ <-. lia.
  - destruct (read_obs scales nobs 0 None [] r) as [[[k o] r1]|] eqn:R; [|discriminate]. cbn [obind] in E.
    apply read_obs_budget in R. destruct (Z.eqb k 0); [apply IH in E; lia|injection E as _ _ <-; exact R].
Qed.
Section Every.
Variable strptime : chars -> option Z.
Lemma it_next_budget nobs scales it it' : it_next strptime nobs scales it = Ok (0%Z, it') ->
  budget (r_st (it_r it')) < budget (r_st (it_r it)).
Proof.
  unfold it_next. destruct (getline MAX_RECORD_CHARS (r_st (it_r it))) as [t s] eqn:G.
  destruct (s_ok s) eqn:O; cbn [negb]; [|destruct (s_eof s); discriminate].
  destruct (getline_consumes _ _ _ _ G) as (E1 & _ & L); [unfold MAX_RECORD_CHARS; lia|exact O|].
  destruct (resolve_data_epoch strptime (t ++ [nul]) (it_hdr it)) as [[e hdr]|]; cbn [obind]; [|discriminate].
  destruct (negb (Z.eqb e 0)); [discriminate|].
  destruct (read_data_block nobs scales (h_num hdr) _) as [[[k blk] r2]|] eqn:EB; cbn [obind]; [|discriminate].
  unfold read_data_block in EB. apply read_beacons_budget in EB. cbn [r_st] in EB.
  intros E. injection E as _ <-. cbn [it_r]. unfold budget in *. rewrite E1. lia.
Qed.
Lemma all_blocks_end nobs scales : forall fuel it, budget (r_st (it_r it)) <= fuel ->
  exists r, all_blocks strptime fuel nobs scales it = Some r.
Proof.
  induction fuel as [|fuel IH]; intros it F; [unfold budget in F; destruct (s_eof _); lia|].
  cbn [all_blocks]. destruct (it_next strptime nobs scales it) as [[c it']|] eqn:N; [|eauto].
  destruct (Z.eqb_spec c 0) as [->|]; [|eauto]. apply it_next_budget in N.
  destruct (IH it') as (r & ->); [lia|]. destruct r as [[l e]|]; eauto.
Qed.
Lemma whole_ends junk errno line0 hdr0 file : exists r, read_file strptime junk errno line0 hdr0 file = Some r.
Proof.
  unfold read_file. destruct (header_ends Z strptime junk errno file) as (r & ->).
  destruct r as [[c|[[h lpb] s]]|]; eauto.
  edestruct (all_blocks_end (length (h_codes _ h)) (h_factors _ h) (S (S (length (s_rest s)))) (Iter hdr0 [] (RState s line0))) as (r & ->).
  { unfold budget. cbn [it_r r_st]. destruct (s_eof s); lia. }
  destruct r as [[l e]|]; eauto.
Qed.

(* ================= every file: the shape of what is delivered ================= *)
Lemma into_buffer_size buf t : length t < length buf -> length (into_buffer buf t) = length buf.
Proof. intros H. unfold into_buffer. rewrite app_length. cbn [length]. rewrite skipn_length. lia. Qed.
Lemma take_line_room : forall room l a b e, take_line room l = (a, b, e) -> length a <= room.
Proof.
  induction room as [|room IH]; intros [|c l] a b e; cbn [take_line]; try (intros E; inversion E; cbn; lia).
  - destruct (Ascii.eqb c nl); intros E; inversion E; cbn; lia.
  - destruct (Ascii.eqb c nl); [intros E; inversion E; cbn; lia|].
    destruct (take_line room l) as [[x y] z] eqn:T. intros E. inversion E; subst. apply IH in T. cbn. lia.
Qed.
Lemma next_line_size r : length (r_line r) = 124 -> length (r_line (next_line r)) = 124.
Proof.
  intros L. unfold next_line. destruct (getline MAX_RECORD_CHARS (r_st r)) as [t s] eqn:G. cbn [r_line].
  rewrite into_buffer_size; [exact L|]. rewrite L. unfold getline in G. destruct (s_good _).
  - destruct (take_line _ _) as [[a b] e] eqn:T. apply take_line_room in T. injection G as <- _. unfold MAX_RECORD_CHARS in T. lia.
  - injection G as <- _. cbn. lia.
Qed.
(* what a beacon of a block looks like: an identifier of three characters, D first, and nobs values *)
Definition shaped (nobs : nat) (o : beacon_obs) : Prop :=
  (1 <= nobs -> exists a b, b_id o = Some ["D"%char; a; b]) /\ length (b_vals o) = nobs.
Lemma read_obs_shape scales : forall todo curobs id vals r o r',
  read_obs scales todo curobs id vals r = Ok (0%Z, o, r') -> length (r_line r) = 124 ->
  (curobs <> 0 -> exists a b, id = Some ["D"%char; a; b]) ->
  (1 <= todo + curobs -> exists a b, b_id o = Some ["D"%char; a; b]) /\ length (b_vals o) = todo + length vals /\ length (r_line r') = 124.
Proof.
  induction todo as [|todo IH]; intros curobs id vals r o r' E L I; cbn [read_obs] in E.
  - injection E as <- <-. cbn [b_id b_vals]. split; [intros H; apply I; lia|]. split; [reflexivity|exact L].
  - set (r1 := if Nat.eqb (curobs mod 5) 0 then next_line r else r) in *.
    assert (L1 : length (r_line r1) = 124) by (unfold r1; destruct (Nat.eqb _ _); [apply next_line_size|]; exact L).
    destruct (load (r_line r1) 0) as [c0|] eqn:L0; [|discriminate]. cbn [obind] in E.
    destruct (Nat.eqb curobs 0 && negb (Ascii.eqb c0 "D")) eqn:C; [discriminate|].
    destruct (load scales curobs) as [sc|]; [|discriminate]. cbn [obind] in E.
    destruct (read_field _ _ sc) as [[v|]|]; [| |discriminate]; cbn [obind] in E; [|discriminate].
    apply IH in E; [|exact L1|].
    + destruct E as (A & B & D). split; [intros _; apply A; lia|]. split; [|exact D]. rewrite B, app_length. cbn. lia.
    + intros _. destruct (Nat.eqb_spec curobs 0) as [->|N]; [|exact (I N)]. cbn [andb] in C.
      destruct (Ascii.eqb_spec c0 "D") as [->|]; [|discriminate].
      destruct (r_line r1) as [|x [|y [|z t]]]; try discriminate. cbn in L0. injection L0 as ->.
      unfold columns. cbn. eauto.
Qed.
Lemma read_beacons_shape nobs scales : forall n acc r l r',
  read_beacons nobs scales n acc r = Ok (0%Z, l, r') -> length (r_line r) = 124 -> Forall (shaped nobs) acc ->
  Forall (shaped nobs) l /\ length l = n + length acc /\ length (r_line r') = 124.
Proof.
  induction n as [|n IH]; intros acc r l r' E L F; cbn [read_beacons] in E.
  - injection E as <- <-. auto.
  - destruct (read_obs scales nobs 0 None [] r) as [[[k o] r1]|] eqn:R; [|discriminate]. cbn [obind] in E.
    destruct (Z.eqb_spec k 0) as [->|N]; [|injection E as ? _ _; contradiction].
    apply read_obs_shape in R; [|exact L|intros H; now contradiction H]. destruct R as (A & B & D).
    apply IH in E; [|exact D|apply Forall_app; split; [exact F|constructor; [|constructor]]].
    + destruct E as (E1 & E2 & E3). split; [exact E1|]. split; [|exact E3]. rewrite E2, app_length. cbn. lia.
    + split; [rewrite Nat.add_0_r in A; exact A|]. rewrite B. cbn. lia.
Qed.
(* a delivered block: as many beacons as its epoch line announces, each with its values *)
Definition whole_block (nobs : nat) (it : iter) : Prop :=
  Z.of_nat (length (it_block it)) = Z.max 0 (h_num (it_hdr it)) /\ Forall (shaped nobs) (it_block it).
Lemma all_blocks_shape nobs scales : forall fuel it l e, all_blocks strptime fuel nobs scales it = Some (Ok (l, e)) ->
  length (r_line (it_r it)) = 124 -> Forall (whole_block nobs) l /\ e <> 0%Z /\ (e = (-1)%Z \/ (0 < e)%Z).
Proof.
  induction fuel as [|fuel IH]; intros it l e E L; [discriminate|]. cbn [all_blocks] in E.
  destruct (it_next strptime nobs scales it) as [[c it']|] eqn:N; [|discriminate].
  pose proof (iterator_codes strptime nobs scales it c it' N) as K. cbn zeta in K.
  destruct (Z.eqb_spec c 0) as [->|NZ].
  - destruct K as [(K & _)|[(_ & K1 & K2 & K3)|K]]; [discriminate| |lia].
    destruct (all_blocks strptime fuel nobs scales it') as [[[l2 e2]|]|] eqn:A; try discriminate.
    injection E as <- <-. unfold read_data_block in K3. apply read_beacons_shape in K3; [|exact L|constructor].
    destruct K3 as (F & LE & LL). destruct (IH _ _ _ A LL) as (G1 & G2). split; [|exact G2].
    constructor; [|exact G1]. split; [|exact F]. rewrite LE. cbn [length]. lia.
  - injection E as <- <-. split; [constructor|]. split; [exact NZ|]. destruct K as [(-> & _)|[(-> & _)|K]]; [auto|contradiction|auto].
Qed.
Lemma shaped_value codes nobs o c : shaped nobs o -> nobs = length codes -> In c codes -> exists v, value_at codes o c = Ok v.
Proof.
  intros [_ L] -> I. unfold value_at.
  destruct (proj1 (obs_index_ok codes c _) eq_refl) as [[_ N]|(a & b & E & _ & ->)]; [contradiction|].
  destruct (Z.ltb_spec (Z.of_nat (length a)) 0) as [|_]; [lia|]. rewrite Nat2Z.id. unfold load.
  destruct (nth_error (b_vals o) (length a)) as [v|] eqn:X; [exists v; reflexivity|].
  apply nth_error_None in X. rewrite L, E, app_length in X. cbn in X. lia.
Qed.
Lemma whole_shape junk errno line0 hdr0 file h l e : length line0 = 124 -> length junk = 81 ->
  read_file strptime junk errno line0 hdr0 file = Some (Ok (inr (h, l, e))) ->
  sound Z h /\ (e = (-1)%Z \/ (0 < e)%Z) /\
  Forall (fun it => Z.of_nat (length (it_block it)) = Z.max 0 (h_num (it_hdr it)) /\
    forall o, In o (it_block it) -> length (b_vals o) = length (h_codes _ h) /\
      (h_codes _ h <> [] -> exists a b, b_id o = Some ["D"%char; a; b]) /\
      forall c, In c (h_codes _ h) -> exists v, value_at (h_codes _ h) o c = Ok v) l.
Proof.
  intros L0 LJ. unfold read_file. destruct (open_rinex Z strptime junk errno file) as [[[c|[[h1 lpb] s]]|]|] eqn:O; try discriminate.
  destruct (all_blocks _ _ _ _ _) as [[[l1 e1]|]|] eqn:A; try discriminate. intros E. injection E as -> -> ->.
  destruct (open_sound Z strptime junk errno file h lpb s LJ O) as (S & _). split; [exact S|].
  destruct (all_blocks_shape _ _ _ _ _ _ A L0) as (F & _ & K). split; [exact K|].
  eapply Forall_impl; [|exact F]. intros it (B1 & B2). split; [exact B1|]. intros o I.
  rewrite Forall_forall in B2. specialize (B2 o I). destruct B2 as [C1 C2]. split; [exact C2|]. split.
  - intros N. apply C1. destruct (h_codes _ h); [contradiction|cbn; lia].
  - intros c J. exact (shaped_value _ _ _ c (conj C1 C2) eq_refl J).
Qed.
End Every.

(* ================= files as the format says ================= *)
Section Printed.
Variable strptime : chars -> option Z.
(* the factor of an observable: that of the last scale record when it is listed there, else one *)
Definition factor_of (ms : list mrec) (c : obs_code) (f : Z) : Prop :=
  match last_given gives_scale ms with
  | Some (cs, g) => (In c cs -> f = g) /\ (~ In c cs -> f = 1%Z)
  | None => f = 1%Z
  end.
Definition codes_given (ms : list mrec) : list obs_code := or_else [] (last_given gives_codes ms).
(* a block of the file against the iterator that delivered it *)
Definition tells (ms : list mrec) (h : head Z) (b : mblock) (it : iter) : Prop :=
  (exists t, date_of strptime b t /\ header_of t (bl_epoch b) (it_hdr it)) /\
  map b_id (it_block it) = map (fun x => Some (mb_id x)) (bl_beacons b) /\
  (forall l1 x l2, bl_beacons b = l1 ++ x :: l2 -> (forall y, In y l1 -> mb_id y <> mb_id x) ->
     exists o, contains_beacon (it_block it) (mb_id x) = Ok (Some o) /\
       forall k c m, nth_error (codes_given ms) k = Some c -> nth_error (mb_fields x) k = Some m ->
         exists f v, factor_of ms c f /\ value_at (h_codes _ h) o c = Ok v /\ reads m f v) /\
  (forall key, length key = 3 -> (forall x, In x (bl_beacons b) -> mb_id x <> key) -> contains_beacon (it_block it) key = Ok None) /\
  (forall x, In x (bl_beacons b) -> exists o, beacon_internal_id2BeaconStation (h_stations _ h) (mb_id x) = Ok o /\
     first_match (fun s => st_code s = mb_id x) (stations_of ms) o).

Lemma delivered nobs scales : forall blocks it fuel, delivers strptime nobs scales it blocks -> length blocks < fuel ->
  exists its, all_blocks strptime fuel nobs scales it = Some (Ok (its, (-1)%Z)) /\
    Forall2 (fun b i => (exists t, date_of strptime b t /\ header_of t (bl_epoch b) (it_hdr i)) /\
      Forall2 (reported scales) (bl_beacons b) (it_block i)) blocks its.
Proof.
  induction blocks as [|b bs IH]; intros it fuel D F; (destruct fuel as [|fuel]; [cbn in F; lia|]); cbn [delivers all_blocks] in *.
  - destruct D as (it' & ->). exists []. split; [reflexivity|constructor].
  - destruct D as (it' & t & -> & D1 & D2 & D3 & D4). change (0 =? 0)%Z with true. cbv iota.
    destruct (IH it' fuel D4) as (its & -> & F2); [cbn in F; lia|]. exists (it' :: its). split; [reflexivity|].
    constructor; [|exact F2]. split; [eauto|exact D3].
Qed.
Lemma contains_first scales : forall bs os, Forall2 (reported scales) bs os -> Forall (fun x => length (mb_id x) = 3) bs ->
  forall l1 x l2, bs = l1 ++ x :: l2 -> (forall y, In y l1 -> mb_id y <> mb_id x) ->
  exists o, contains_beacon os (mb_id x) = Ok (Some o) /\ expects scales 0 (mb_fields x) (b_vals o).
Proof.
  induction 1 as [|b o bs os [R1 R2] F IH]; intros L l1 x l2 E N; [destruct l1; discriminate|].
  inversion L as [|? ? L1 L2]; subst. cbn [contains_beacon]. rewrite R1. cbn [of_option obind].
  destruct l1 as [|y l1]; injection E as -> E.
  - destruct (same3_ok (mb_id x) (mb_id x)) as (e & -> & He); try lia. cbn [obind].
    rewrite (proj2 He eq_refl). exists o. auto.
  - assert (LX : length (mb_id x) = 3) by (rewrite E in L2; apply Forall_app in L2 as [_ L3]; now inversion L3).
    destruct (same3_ok (mb_id y) (mb_id x)) as (e & -> & He); try lia. cbn [obind].
    destruct e.
    + exfalso. apply (N y (or_introl eq_refl)). assert (X : firstn 3 (mb_id y) = firstn 3 (mb_id x)) by (apply He; reflexivity).
      rewrite !firstn_exact in X by assumption. exact X.
    + apply (IH L2 l1 x l2 E). intros z I. apply N. now right.
Qed.
Lemma contains_none scales : forall bs os key, Forall2 (reported scales) bs os -> Forall (fun x => length (mb_id x) = 3) bs ->
  length key = 3 -> (forall x, In x bs -> mb_id x <> key) -> contains_beacon os key = Ok None.
Proof.
  intros bs os key F LF LK N. induction F as [|b o bs os [R1 R2] F IH]; [reflexivity|].
  inversion LF as [|? ? L1 L2]; subst. cbn [contains_beacon]. rewrite R1. cbn [of_option obind].
  destruct (same3_ok (mb_id b) key) as (e & -> & He); try lia. cbn [obind]. destruct e.
  - exfalso. apply (N b (or_introl eq_refl)). assert (X : firstn 3 (mb_id b) = firstn 3 key) by (apply He; reflexivity).
    rewrite !firstn_exact in X by assumption. exact X.
  - apply IH; [exact L2|]. intros x I. apply N. now right.
Qed.
Lemma blocks_length blocks : length blocks <= length (flat_map mblock_text blocks).
Proof.
  induction blocks as [|b bs IH]; cbn [flat_map length]; [lia|]. rewrite app_length. unfold mblock_text at 1.
  rewrite app_length. cbn [length]. lia.
Qed.
Lemma last_given_in {V} (f : mrec -> option V) ms v : last_given f ms = Some v -> exists m, In m ms /\ f m = Some v.
Proof.
  revert v. induction ms as [|m ms IH] using rev_ind; intros v; [discriminate|]. unfold last_given. rewrite fold_left_app. cbn [fold_left].
  destruct (f m) as [w|] eqn:E; intros H.
  - injection H as ->. exists m. split; [apply in_or_app; right; now left|exact E].
  - destruct (IH v H) as (x & I & X). exists x. split; [apply in_or_app; now left|exact X].
Qed.
Lemma stations_fit ms : Forall (rec_ok Z strptime) ms -> stations_ok (stations_of ms).
Proof.
  intros F s I. unfold stations_of in I. apply in_flat_map in I as (m & I & J).
  rewrite Forall_forall in F. specialize (F m I). destruct m; cbn in J; try contradiction.
  destruct J as [<-|[]]. destruct F as ((A & B & _) & _). cbn [st_code st_id]. auto.
Qed.

Lemma whole_round_trip v p ms blocks junk line0 hdr0 :
  header_ok Z strptime v p ms -> codes_given ms <> [] ->
  Forall (mblock_ok (length (codes_given ms))) blocks -> Forall (fun b => exists t, date_of strptime b t) blocks ->
  exists h its, read_file strptime junk false line0 hdr0 (Some (header_file v p ms (flat_map mblock_text blocks)))
      = Some (Ok (inr (h, its, (-1)%Z)))
    /\ reflects Z strptime v ms h /\ Forall2 (tells ms h) blocks its.
Proof.
  intros HO NE FB FD. destruct (header_round_trip Z strptime v p ms (flat_map mblock_text blocks) junk HO) as (h & E & R).
  pose proof R as (_ & _ & _ & RC & RF & RS & _ & _). fold (codes_given ms) in RC.
  destruct HO as (_ & _ & (OK & _) & _ & _ & SC).
  assert (G : exists num, In (MObs num (codes_given ms)) ms).
  { unfold codes_given in *. destruct (last_given gives_codes ms) as [cs|] eqn:L; [|now contradiction NE]. cbn [or_else].
    apply last_given_in in L as (m & I & X). destruct m; try discriminate. injection X as ->. eauto. }
  destruct G as (num & IN). pose proof OK as OK2. rewrite Forall_forall in OK2. specialize (OK2 _ IN). cbn [rec_ok] in OK2.
  destruct OK2 as (_ & ND & _ & _ & _ & _).
  assert (FAC : length (h_factors _ h) = length (codes_given ms) /\
     forall i c, nth_error (codes_given ms) i = Some c -> exists f, nth_error (h_factors _ h) i = Some f /\ factor_of ms c f /\ f <> 0%Z).
  { unfold factor_of. destruct (last_given gives_scale ms) as [[cs g]|] eqn:LS.
    - rewrite RC in RF. destruct RF as [LF NF]. split; [exact LF|]. intros i c N. destruct (NF i c N) as [A B].
      assert (GN : g <> 0%Z).
      { apply last_given_in in LS as (m & I & X). destruct m as [ | | | | | | | | | |neg f u c1| | | | | | | | ]; try discriminate. injection X as <- <-.
        rewrite Forall_forall in OK. specialize (OK _ I). cbn [rec_ok] in OK. tauto. }
      destruct (in_dec (fun a b : obs_code => match bool_dec (code_eqb a b) true with
         | left e => left (proj1 (code_eqb_iff a b) e) | right n => right (fun x => n (proj2 (code_eqb_iff a b) x)) end) c cs) as [I|I].
      + exists g. split; [exact (A I)|]. split; [split; [auto|intros; contradiction]|exact GN].
      + exists 1%Z. split; [exact (B I)|]. split; [split; [intros; contradiction|auto]|lia].
    - exfalso. apply SC; [|reflexivity]. intros L. apply NE. unfold codes_given. now rewrite L. }
  destruct FAC as [FL FN].
  assert (SO : scales_ok (length (codes_given ms)) (h_factors _ h)).
  { split; [exact FL|]. apply Forall_forall. intros f I. apply In_nth_error in I as (i & Ni).
    destruct (nth_error (codes_given ms) i) as [c|] eqn:Nc.
    - destruct (FN i c Nc) as (f' & A & _ & B). rewrite A in Ni. now injection Ni as <-.
    - exfalso. apply nth_error_None in Nc. assert (i < length (h_factors _ h)) by (apply nth_error_Some; congruence). lia. }
  assert (N1 : 1 <= length (codes_given ms)) by (destruct (codes_given ms); [contradiction|cbn; lia]).
  pose proof (iterator_delivers strptime _ _ N1 SO blocks (Iter hdr0 [] (RState (s_open (flat_map mblock_text blocks)) line0)) FB FD eq_refl) as D.
  destruct (delivered _ _ _ _ (S (S (length (flat_map mblock_text blocks)))) D) as (its & EA & F2); [pose proof (blocks_length blocks); lia|].
  exists h, its. split; [|split; [exact R|]].
  - unfold read_file. rewrite E. cbn [s_open s_rest]. rewrite RC. rewrite EA. reflexivity.
  - clear - F2 FB RC RS FN ND OK. revert its F2. induction FB as [|b bs MB FB IH]; intros its F2; inversion F2 as [|? i ? its' [T RP] F2']; subst; constructor; [|exact (IH _ F2')].
    destruct MB as (_ & _ & _ & _ & HB).
    assert (L3 : Forall (fun x => length (mb_id x) = 3) (bl_beacons b)) by (eapply Forall_impl; [|exact HB]; intros x ((L & _) & _); exact L).
    refine (conj T (conj _ (conj _ (conj _ _)))).
    + clear - RP. induction RP as [|x o xs os [A _] F IH]; [reflexivity|]. cbn [map]. now rewrite A, IH.
    + intros l1 x l2 E N. destruct (contains_first _ _ _ RP L3 l1 x l2 E N) as (o & EO & EX). exists o. split; [exact EO|].
      intros k c m Nc Nm. destruct (expects_nth _ _ _ _ _ _ EX Nm) as (v & sc & V1 & V2 & V3). cbn [Nat.add] in V2.
      destruct (FN k c Nc) as (f & A & B & _). exists f, v. split; [exact B|].
      rewrite A in V2. injection V2 as <-. split; [|exact V3].
      unfold value_at. rewrite RC.
      destruct (proj1 (obs_index_ok (codes_given ms) c _) eq_refl) as [[_ NI]|(a & d & Es & NI & ->)];
        [exfalso; apply NI; eapply nth_error_In; exact Nc|].
      assert (k = length a).
      { eapply (proj1 (NoDup_nth_error (codes_given ms)) ND); [apply nth_error_Some; congruence|].
        rewrite Nc, Es, nth_error_app2, Nat.sub_diag by lia. reflexivity. }
      subst k. destruct (Z.ltb_spec (Z.of_nat (length a)) 0) as [|_]; [lia|]. rewrite Nat2Z.id. unfold load. now rewrite V1.
    + intros key LK N. exact (contains_none _ _ _ key RP L3 LK N).
    + intros x I. rewrite RS. rewrite Forall_forall in L3. specialize (L3 x I).
      destruct (station_of_ok (stations_of ms) (mb_id x) (stations_fit ms OK)) as (o & A & B); [lia|].
      exists o. split; [exact A|]. now rewrite firstn_exact in B by exact L3.
Qed.
End Printed.
