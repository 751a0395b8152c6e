(* Specification and lemmas behind PolyFile_props.v. *)
From Coq Require Import List ZArith QArith Ascii Bool Lia.
From Verif Require Import Base CLib_model CLib_proofs Stream_model Lines_proofs SysInfo_model SysInfo_proofs Rinex_model Rinex_proofs
  RnxHead_model RnxHead_proofs RnxFile_model RnxFile_proofs RnxFileText_proofs RnxWhole_model RnxWhole_proofs DopFile_proofs RfoFit_model RfoFit_proofs PolyFile_model.
Import ListNotations.
Local Open Scope nat_scope.

(* ---- specification: files as the format says ---- *)
(* a block, its epoch and the time of its L1 observations *)
Record sight := Sight { sg_block : mblock; sg_epoch : Z; sg_l1 : Z }.
Definition sight_ok (strptime : chars -> option Z) (applied : bool) (s : sight) : Prop :=
  date_of strptime (sg_block s) (sg_epoch s) /\
  exists n, clock_shift applied (clock_val (me_clock (bl_epoch (sg_block s)))) n /\ sg_l1 s = (sg_epoch s + n)%Z.
Definition moment (use_tai : bool) (s : sight) : Z := if use_tai then sg_l1 s else sg_epoch s.
(* the blocks of the range: up to the first at or behind its end *)
Fixpoint chosen (start fin : Z) (ss : list sight) : list sight :=
  match ss with
  | [] => []
  | s :: ss => if (fin <=? sg_l1 s)%Z then [] else if (start <=? sg_l1 s)%Z then s :: chosen start fin ss else chosen start fin ss
  end.
Definition F : obs_code := ObsCode frequency_offset 0.
(* the offset of a block: what is printed with its first beacon over the factor of F *)
Definition printed_offset (ms : list mrec) (s : sight) (v : Q) : Prop :=
  exists y ys i m f, bl_beacons (sg_block s) = y :: ys /\ nth_error (codes_given ms) i = Some F /\ nth_error (mb_fields y) i = Some m /\
    factor_of ms F f /\ (v == content (mf_v m) / inject_Z f)%Q.
Definition printed_point (use_tai : bool) (ms : list mrec) (tref : Z) (g : list sight) (p : Q * Q) : Prop :=
  exists vs first last t, Forall2 (printed_offset ms) g vs /\ nth_error g 0 = Some first /\ nth_error g (length g - 1) = Some last /\
    middle_of (moment use_tai first) (moment use_tai last) t /\
    (fst p * inject_Z (Z.of_nat (length g)) == sumQ vs)%Q /\ (snd p == inject_Z (t - tref) / 1000000000)%Q.
Record pfile := PFile { pf_v : fnum; pf_p : chars; pf_ms : list mrec; pf_ss : list sight }.
Definition pfile_bytes (f : pfile) : chars := header_file (pf_v f) (pf_p f) (pf_ms f) (flat_map mblock_text (map sg_block (pf_ss f))).
(* a file with F among its observables, each block with a beacon, whose blocks of the range fall into groups *)
Definition pfile_ok (strptime : chars -> option Z) (every : nat) (start fin : Z) (f : pfile) (gs : list (list sight)) : Prop :=
  header_ok Z strptime (pf_v f) (pf_p f) (pf_ms f) /\ In F (codes_given (pf_ms f)) /\
  Forall (fun s => mblock_ok (length (codes_given (pf_ms f))) (sg_block s) /\ bl_beacons (sg_block s) <> [] /\
    sight_ok strptime (or_else false (last_given gives_clock (pf_ms f))) s) (pf_ss f) /\
  chosen start fin (pf_ss f) = concat gs /\ gs <> [] /\ Forall (fun g => length g = every) gs.
Inductive printed_points (use_tai : bool) (tref : Z) : list pfile -> list (list (list sight)) -> list (Q * Q) -> Prop :=
| no_file : printed_points use_tai tref [] [] []
| a_file_more : forall f fs gs gss p ps, Forall2 (printed_point use_tai (pf_ms f) tref) gs p -> printed_points use_tai tref fs gss ps ->
    printed_points use_tai tref (f :: fs) (gs :: gss) (p ++ ps).
Fixpoint groups (gss : list (list (list sight))) : nat := match gss with [] => 0 | gs :: gss => length gs + groups gss end.

(* ---- every file ---- *)
(* the file is read from here to its end, or to a block at or behind [fin] *)
Inductive covered (strptime : chars -> option Z) (nobs : nat) (scales : list Z) (applied : bool) (fin : Z) : iter -> Prop :=
| at_eof it it' : it_next strptime nobs scales it = Ok ((-1)%Z, it') -> covered strptime nobs scales applied fin it
| behind it it' t : it_next strptime nobs scales it = Ok (0%Z, it') -> corrected_l1_epoch applied (h_epoch (it_hdr it')) (h_clock (it_hdr it')) = Ok t ->
    (fin <= t)%Z -> covered strptime nobs scales applied fin it
| one_more it it' t : it_next strptime nobs scales it = Ok (0%Z, it') -> corrected_l1_epoch applied (h_epoch (it_hdr it')) (h_clock (it_hdr it')) = Ok t ->
    (t < fin)%Z -> covered strptime nobs scales applied fin it' -> covered strptime nobs scales applied fin it.
Definition file_covered (strptime : chars -> option Z) (junk : chars) (errno : bool) (hdr0 : rhdr) (fin : Z) (file : option chars) : Prop :=
  exists h lpb s line, open_rinex Z strptime junk errno file = Some (Ok (inr (h, lpb, s))) /\
    covered strptime (length (h_codes _ h)) (h_factors _ h) (h_applied _ h) fin (Iter hdr0 [] (RState s line)).
Section Every.
Variable strptime : chars -> option Z.
Variables (junk : chars) (errno : bool) (hdr0 : rhdr) (none : Z).
Lemma range_end nobs scales applied fin : forall fuel it, budget (r_st (it_r it)) <= fuel -> exists r, range_blocks strptime fuel nobs scales applied fin it = Some r.
Proof.
  induction fuel as [|fuel IH]; intros it B; [unfold budget in B; destruct (s_eof _); lia|].
  cbn [range_blocks]. destruct (it_next strptime nobs scales it) as [[c it']|] eqn:N; eauto.
  destruct (Z.eqb_spec c 0) as [->|]; eauto. apply it_next_budget in N. destruct (block_of applied it') as [b|]; eauto.
  destruct (Z.leb fin (b_tl1 b)); eauto. destruct (IH it') as (r & ->); [lia|]. destruct r as [[[l e] line]|]; eauto.
Qed.
Lemma as_rinex_end fin line0 file : exists r, as_rinex strptime junk errno hdr0 none fin line0 file = Some r.
Proof.
  unfold as_rinex. destruct (header_ends Z strptime junk errno file) as (r & ->). destruct r as [[c|[[h lpb] s]]|]; eauto.
  edestruct (range_end (length (h_codes _ h)) (h_factors _ h) (h_applied _ h) fin (S (S (length (s_rest s)))) (Iter hdr0 [] (RState s line0))) as (r & ->).
  { unfold budget. cbn [it_r r_st]. destruct (s_eof s); lia. }
  destruct r as [[[l e] line]|]; eauto.
Qed.
Lemma parse_files_end use_tai every order cap start fin : forall files line0 tref rows,
  exists r, parse_files strptime junk errno hdr0 none use_tai every order cap start fin line0 tref rows files = Some r.
Proof.
  induction files as [|f files IH]; intros line0 tref rows; cbn [parse_files]; eauto. destruct (as_rinex_end fin line0 f) as (r & ->).
  destruct r as [[[x|] line]|]; eauto. destruct (parse_rinex_rfos _ _ _ _ _ _ _ _ _ _ _ _ _) as [[[c t] rows1]|]; eauto. destruct (Z.eqb c 0); eauto.
Qed.
Lemma poly_files_end solve use_tai every order start fin num_days line0 files :
  exists r, fit_poly_files strptime junk errno hdr0 none solve use_tai every order start fin num_days line0 files = Some r.
Proof.
  unfold fit_poly_files. destruct every as [|every]; eauto.
  destruct (parse_files_end use_tai (S every) order (room (S every) num_days) start fin files line0 None []) as (r & ->).
  destruct r as [[t rows| |]|]; eauto. destruct (finite rows); eauto.
Qed.
(* the blocks read: none of them at or behind the end but perhaps the last *)
Lemma range_covered nobs scales applied fin : forall fuel it l e line, range_blocks strptime fuel nobs scales applied fin it = Some (Ok (l, e, line)) ->
  (e = (-1)%Z /\ covered strptime nobs scales applied fin it) \/ (0 < e)%Z /\ Forall (fun b => (b_tl1 b < fin)%Z) l.
Proof.
  induction fuel as [|fuel IH]; intros it l e line; cbn [range_blocks]; [discriminate|].
  destruct (it_next strptime nobs scales it) as [[c it']|] eqn:N; [|discriminate].
  pose proof (iterator_codes strptime nobs scales it c it' N) as K. cbn zeta in K. destruct (Z.eqb_spec c 0) as [->|NZ].
  - unfold block_of. destruct (corrected_l1_epoch applied (h_epoch (it_hdr it')) (h_clock (it_hdr it'))) as [t|] eqn:C; cbn [obind]; [|discriminate]. cbn [b_tl1].
    destruct (Z.leb_spec fin t) as [G|G].
    + intros E. injection E as _ <- _. left. split; [reflexivity|]. eapply behind; eassumption.
    + destruct (range_blocks strptime fuel nobs scales applied fin it') as [[[[l1 e1] line1]|]|] eqn:R; try discriminate. intros E. injection E as <- <- _.
      destruct (IH _ _ _ _ R) as [[-> H]|[H1 H2]]; [left; split; [reflexivity|eapply one_more; eassumption]|right; split; [exact H1|constructor; [exact G|exact H2]]].
  - intros E. injection E as <- <- _. destruct K as [(-> & _)|[(-> & _)|K]]; [|contradiction|right; split; [lia|constructor]].
    left. split; [reflexivity|]. eapply at_eof. exact N.
Qed.
Lemma read_blocks_term use_tai every order cap f_idx start fin tref term : forall bs st r, Forall (fun b => (b_tl1 b < fin)%Z) bs ->
  read_blocks use_tai every order cap f_idx start fin tref term st bs = Ok r -> snd r = term.
Proof.
  induction bs as [|b bs IH]; intros st r FB; cbn [read_blocks]; [intros E; injection E as <-; reflexivity|].
  inversion FB as [|? ? B FB']; subst. destruct (_ && _).
  - destruct (take_block _ _ _ _ _ _ _ _) as [st'|]; cbn [obind]; [|discriminate]. apply IH. exact FB'.
  - destruct (Z.leb_spec fin (b_tl1 b)); [lia|]. apply IH. exact FB'.
Qed.
Lemma parse_covered use_tai every order cap start fin tref rows fin' line0 file x line t rows' : fin' = fin ->
  as_rinex strptime junk errno hdr0 none fin' line0 file = Some (Ok (Some x, line)) ->
  parse_rinex_rfos none use_tai every order cap (x_f x) start fin tref rows (x_ref x) (x_term x) (x_blocks x) = Ok (0%Z, t, rows') ->
  file_covered strptime junk errno hdr0 fin file.
Proof.
  intros ->. unfold as_rinex. destruct (open_rinex Z strptime junk errno file) as [[[c|[[h lpb] s]]|]|] eqn:O; try discriminate.
  destruct (range_blocks _ _ _ _ _ _ _) as [[[[l e] line1]|]|] eqn:R; try discriminate. intros E. injection E as <- _. cbn [x_f x_ref x_term x_blocks].
  apply range_covered in R as [[-> C]|[P FB]]; [intros _; exists h, lpb, s, line0; auto|].
  unfold parse_rinex_rfos. destruct every as [|every]; [discriminate|]. destruct (read_blocks _ _ _ _ _ _ _ _ _ _ _) as [r|] eqn:RB; cbn [obind]; [|discriminate].
  apply (read_blocks_term _ _ _ _ _ _ _ _ _ _ _ _ FB) in RB. rewrite RB. destruct (Z.ltb_spec 0 e); [discriminate|lia].
Qed.
Lemma parse_code use_tai every order cap f_idx start fin tref rows file_ref term bs c t rows' :
  parse_rinex_rfos none use_tai every order cap f_idx start fin tref rows file_ref term bs = Ok (c, t, rows') -> c = 0%Z \/ c = 1%Z.
Proof.
  unfold parse_rinex_rfos. destruct every as [|every]; [discriminate|]. destruct (read_blocks _ _ _ _ _ _ _ _ _ _ _) as [r|]; cbn [obind]; [|discriminate].
  destruct (Z.ltb 0 (snd r)); [intros E; injection E as <- _ _; auto|]. destruct (leftover _ _ _ _ _) as [l|]; cbn [obind]; [|discriminate]. intros E. injection E as <- _ _. auto.
Qed.
Lemma parse_files_inv use_tai every order cap start fin : forall files line0 tref rows r,
  parse_files strptime junk errno hdr0 none use_tai every order cap start fin line0 tref rows files = Some (Ok r) ->
  match r with
  | Rows _ _ => Forall (file_covered strptime junk errno hdr0 fin) files
  | Failed => True
  | Ended => exists f c, In f files /\ open_rinex Z strptime junk errno f = Some (Ok (inl c))
  end.
Proof.
  induction files as [|f files IH]; intros line0 tref rows r; cbn [parse_files]; [intros E; injection E as <-; constructor|].
  destruct (as_rinex strptime junk errno hdr0 none fin line0 f) as [[[[x|] line]|]|] eqn:A; try discriminate.
  - destruct (parse_rinex_rfos _ _ _ _ _ _ _ _ _ _ _ _ _) as [[[c t] rows1]|] eqn:P; [|discriminate].
    destruct (Z.eqb_spec c 0) as [->|]; [|intros E; injection E as <-; exact Logic.I]. intros E. apply IH in E. destruct r as [t' rows'| |].
    + constructor; [|exact E]. eapply parse_covered; [reflexivity|exact A|exact P].
    + exact Logic.I.
    + destruct E as (g & c & I & O). exists g, c. split; [now right|exact O].
  - intros E. injection E as <-. unfold as_rinex in A. destruct (open_rinex Z strptime junk errno f) as [[[c|[[h lpb] s]]|]|] eqn:O; try discriminate.
    + exists f, c. split; [now left|exact O].
    + destruct (range_blocks _ _ _ _ _ _ _) as [[[[l e] line1]|]|]; discriminate.
Qed.
Lemma poly_files_codes solve use_tai every order start fin num_days line0 files r :
  fit_poly_files strptime junk errno hdr0 none solve use_tai every order start fin num_days line0 files = Some (Ok r) ->
  match r with
  | PCode c fit => (c = 0%Z /\ Forall (file_covered strptime junk errno hdr0 fin) files) \/ (c = 1%Z /\ fit = None)
  | PTerminated => exists f c, In f files /\ open_rinex Z strptime junk errno f = Some (Ok (inl c))
  end.
Proof.
  unfold fit_poly_files. destruct every as [|every]; [discriminate|].
  destruct (parse_files _ _ _ _ _ _ _ _ _ _ _ _ _ _ _) as [[p|]|] eqn:P; try discriminate.
  apply parse_files_inv in P. destruct p as [t rows| |].
  - destruct (finite rows) as [l|]; intros E; injection E as <-; left; auto.
  - intros E. injection E as <-. right. auto.
  - intros E. injection E as <-. exact P.
Qed.
End Every.

(* ---- files as the format says ---- *)
Lemma toward_zero_eq a b n : (a == b)%Q -> toward_zero a n -> toward_zero b n.
Proof. intros E. unfold toward_zero. rewrite E. auto. Qed.
Lemma clock_shift_eq applied a b n : (a == b)%Q -> clock_shift applied a n -> clock_shift applied b n.
Proof.
  intros E. unfold clock_shift. destruct applied; [auto|]. intros [[A ->]|(A & T & Ft)]; [left; split; [rewrite <- E; exact A|reflexivity]|right].
  split; [rewrite <- E; exact A|]. split; [|exact Ft]. eapply toward_zero_eq; [|exact T]. now rewrite E.
Qed.
(* a block of the file as the equations see it *)
Definition matches (scales : list Z) (s : sight) (b : block) : Prop :=
  b_tl1 b = sg_l1 s /\ b_proper b = sg_epoch s /\ exists os, Forall2 (reported scales) (bl_beacons (sg_block s)) os /\ b_obs b = map (fun o => map rv (b_vals o)) os.
Section Printed.
Variable strptime : chars -> option Z.
Lemma range_ok nobs scales applied start fin : forall ss it fuel, delivers strptime nobs scales it (map sg_block ss) -> Forall (sight_ok strptime applied) ss -> length ss < fuel ->
  exists l line, range_blocks strptime fuel nobs scales applied fin it = Some (Ok (l, (-1)%Z, line)) /\ Forall2 (matches scales) (chosen start fin ss) (wanted start fin l).
Proof.
  induction ss as [|s ss IH]; intros it fuel D FS B; (destruct fuel as [|fuel]; [cbn in B; lia|]); cbn [map delivers range_blocks] in *.
  - destruct D as (it' & ->). exists []. eexists. split; [reflexivity|constructor].
  - destruct D as (it' & t & -> & D1 & D2 & D3 & D4). change (0 =? 0)%Z with true. cbv iota. inversion FS as [|? ? (S1 & n & S2 & S3) FS']; subst.
    assert (ET : t = sg_epoch s) by (unfold date_of in *; congruence). destruct D2 as (H1 & _ & _ & H4 & _). unfold block_of.
    assert (EC : corrected_l1_epoch applied (h_epoch (it_hdr it')) (h_clock (it_hdr it')) = Ok (sg_l1 s)).
    { apply l1_epoch_ok. exists n. split; [eapply clock_shift_eq; [symmetry; exact H4|exact S2]|]. rewrite H1, ET. exact S3. }
    rewrite EC. cbn [obind b_tl1 chosen].
    assert (M : matches scales s (Blk (sg_l1 s) (h_epoch (it_hdr it')) (map (fun o => map rv (b_vals o)) (it_block it')))).
    { split; [reflexivity|]. split; [cbn; congruence|]. exists (it_block it'). auto. }
    destruct (Z.leb_spec fin (sg_l1 s)) as [G|G].
    + eexists _, _. split; [reflexivity|]. cbn [wanted b_tl1]. destruct (Z.leb_spec fin (sg_l1 s)); [constructor|lia].
    + destruct (IH it' fuel D4 FS') as (l & line & -> & F2); [cbn in B; lia|]. eexists _, _. split; [reflexivity|]. cbn [wanted b_tl1].
      destruct (Z.leb_spec fin (sg_l1 s)); [lia|]. destruct (Z.leb start (sg_l1 s)); [constructor; assumption|exact F2].
Qed.
Lemma F2_concat {A B} (P : A -> B -> Prop) : forall gs l, Forall2 P (concat gs) l -> exists hs, l = concat hs /\ Forall2 (Forall2 P) gs hs.
Proof.
  induction gs as [|g gs IH]; cbn [concat]; intros l F2; [inversion F2; exists []; split; [reflexivity|constructor]|].
  apply Forall2_app_inv_l in F2 as (l1 & l2 & A1 & A2 & ->). destruct (IH _ A2) as (hs & -> & H). exists (l1 :: hs). split; [reflexivity|constructor; assumption].
Qed.
Lemma F2_nth {A B} (P : A -> B -> Prop) : forall l m, Forall2 P l m -> forall k b, nth_error m k = Some b -> exists a, nth_error l k = Some a /\ P a b.
Proof. induction 1 as [|a b l m H _ IH]; intros [|k] c E; try discriminate; cbn in *; [injection E as <-; eauto|eauto]. Qed.
Lemma matches_offset ms scales s b i : nth_error (codes_given ms) i = Some F ->
  (forall i c, nth_error (codes_given ms) i = Some c -> exists f, nth_error scales i = Some f /\ factor_of ms c f) ->
  mblock_ok (length (codes_given ms)) (sg_block s) -> bl_beacons (sg_block s) <> [] -> matches scales s b ->
  exists v, has_offset (Z.of_nat i) b v /\ printed_offset ms s v.
Proof.
  intros Ni FA (_ & _ & _ & _ & HB) NE (_ & _ & os & RP & EO). destruct (bl_beacons (sg_block s)) as [|y ys] eqn:EB; [contradiction|].
  inversion RP as [|? o ? os' [_ R] _]; subst. inversion HB as [|? ? (_ & LF & _) _]; subst.
  assert (IL : i < length (codes_given ms)) by (apply nth_error_Some; congruence).
  destruct (nth_error (mb_fields y) i) as [m|] eqn:Nm; [|apply nth_error_None in Nm; lia].
  destruct (expects_nth _ _ _ _ _ _ R Nm) as (w & sc & W1 & W2 & W3). cbn [Nat.add] in W2. destruct (FA i F Ni) as (f & Nf & Ff).
  rewrite Nf in W2. injection W2 as <-. exists (rv w). split.
  - exists (map rv (b_vals o)), (map (fun o => map rv (b_vals o)) os'). split; [exact EO|]. split; [lia|]. rewrite Nat2Z.id, nth_error_map, W1. reflexivity.
  - exists y, ys, i, m, f. refine (conj EB (conj Ni (conj Nm (conj Ff _)))). exact (proj1 W3).
Qed.
Lemma offset_unique f b v w : has_offset f b v -> has_offset f b w -> v = w.
Proof. intros A B. apply f_value_ok in A, B. congruence. Qed.
Variables (junk : chars) (hdr0 : rhdr) (none : Z).
(* the file against the record of RfoFit_model.v *)
Definition stands_for (every : nat) (start fin : Z) (f : pfile) (gs : list (list sight)) (x : rinex) (hs : list (list block)) : Prop :=
  complete every start fin x hs /\ length hs = length gs /\ x_ref x = or_else none (last_given (gives_date Z strptime RefStatDate) (pf_ms f)) /\
  forall use_tai tref p, Forall2 (is_point use_tai (x_f x) tref) hs p -> Forall2 (printed_point use_tai (pf_ms f) tref) gs p.
Lemma sum_eq : forall vs ws, Forall2 Qeq vs ws -> (sumQ vs == sumQ ws)%Q.
Proof. induction 1; cbn [sumQ]; [reflexivity|]. now rewrite H, IHForall2. Qed.
Lemma point_printed use_tai ms tref f_idx g h p :
  Forall2 (fun s b => b_tl1 b = sg_l1 s /\ b_proper b = sg_epoch s /\ exists v, has_offset f_idx b v /\ printed_offset ms s v) g h ->
  is_point use_tai f_idx tref h p -> printed_point use_tai ms tref g p.
Proof.
  intros M (vs & first & last & t & V & N0 & N1 & MD & AV & SE).
  assert (LG : length g = length h) by (clear - M; induction M; cbn; auto).
  destruct (F2_nth _ _ _ M _ _ N0) as (s0 & G0 & (A0 & B0 & _)). destruct (F2_nth _ _ _ M _ _ N1) as (s1 & G1 & (A1 & B1 & _)).
  exists vs, s0, s1, t. split.
  - clear - M V. revert vs V. induction M as [|s b g h (_ & _ & v & H & P) M IH]; intros vs V; inversion V; subst; constructor; [|auto].
    erewrite offset_unique; [exact P|eassumption|exact H].
  - rewrite LG. split; [exact G0|]. split; [exact G1|]. split; [|split; [exact AV|exact SE]].
    unfold moment. unfold date in MD. rewrite A0, A1, B0, B1 in MD. exact MD.
Qed.
Lemma pfile_read every start fin f gs line0 : pfile_ok strptime every start fin f gs ->
  exists x line hs, as_rinex strptime junk false hdr0 none fin line0 (Some (pfile_bytes f)) = Some (Ok (Some x, line)) /\ stands_for every start fin f gs x hs.
Proof.
  intros (HO & IF & FS & CH & NE & LG). assert (NC : codes_given (pf_ms f) <> []) by (intros E; rewrite E in IF; exact IF).
  destruct (header_round_trip Z strptime _ _ _ (flat_map mblock_text (map sg_block (pf_ss f))) junk HO) as (h & E & R).
  destruct (header_scales strptime _ _ _ h HO NC R) as (RC & SO & FA).
  destruct R as (_ & _ & RD & _ & _ & _ & _ & RA).
  assert (N1 : 1 <= length (codes_given (pf_ms f))) by (destruct (codes_given (pf_ms f)); [contradiction|cbn; lia]).
  assert (FB : Forall (mblock_ok (length (codes_given (pf_ms f)))) (map sg_block (pf_ss f))).
  { apply Forall_forall. intros b I. apply in_map_iff in I as (s & <- & I). rewrite Forall_forall in FS. apply FS. exact I. }
  assert (FD : Forall (fun b => exists t, date_of strptime b t) (map sg_block (pf_ss f))).
  { apply Forall_forall. intros b I. apply in_map_iff in I as (s & <- & I). rewrite Forall_forall in FS. exists (sg_epoch s). apply (FS s I). }
  pose proof (iterator_delivers strptime _ _ N1 SO _ (Iter hdr0 [] (RState (s_open (flat_map mblock_text (map sg_block (pf_ss f)))) line0)) FB FD eq_refl) as D.
  destruct (range_ok _ _ (h_applied _ h) start fin (pf_ss f) _ (S (S (length (flat_map mblock_text (map sg_block (pf_ss f)))))) D) as (l & line & ER & F2).
  { rewrite RA. eapply Forall_impl; [|exact FS]. intros s (_ & _ & S). exact S. }
  { pose proof (blocks_length (map sg_block (pf_ss f))) as L. rewrite map_length in L. lia. }
  rewrite CH in F2. destruct (F2_concat _ _ _ F2) as (hs & EW & G).
  destruct (proj1 (obs_index_ok (codes_given (pf_ms f)) F _) eq_refl) as [[_ NI]|(a & d & Es & NI & EI)]; [contradiction|].
  assert (Na : nth_error (codes_given (pf_ms f)) (length a) = Some F) by (rewrite Es, nth_error_app2, Nat.sub_diag by lia; reflexivity).
  assert (IC : forall s, In s (concat gs) -> In s (pf_ss f)).
  { intros s I. rewrite <- CH in I. clear - I. induction (pf_ss f) as [|s' ss IH]; cbn [chosen] in I; [contradiction|].
    destruct (Z.leb fin (sg_l1 s')); [contradiction|]. destruct (Z.leb start (sg_l1 s')); [destruct I as [<-|I]; [now left|right; auto]|right; auto]. }
  assert (MO : forall s b, In s (concat gs) -> matches (h_factors _ h) s b -> exists v, has_offset (Z.of_nat (length a)) b v /\ printed_offset (pf_ms f) s v).
  { intros s b I M. rewrite Forall_forall in FS. destruct (FS s (IC s I)) as (S1 & S2 & _). exact (matches_offset _ _ _ _ _ Na FA S1 S2 M). }
  exists (Rnx (Z.of_nat (length a)) (or_else none (last_given (gives_date Z strptime RefStatDate) (pf_ms f))) l (-1)%Z), line, hs. split.
  - unfold as_rinex, pfile_bytes. rewrite E. cbn [s_open s_rest]. rewrite RC. change (ObsCode frequency_offset 0) with F. rewrite EI, RD. rewrite ER.
    destruct (last_given (gives_date Z strptime RefStatDate) (pf_ms f)); reflexivity.
  - split; [|split; [|split; [reflexivity|]]].
    + refine (conj eq_refl (conj EW (conj _ (conj _ _)))); cbn [x_f].
      * intros ->. inversion G; subst. contradiction.
      * clear - G LG. induction G as [|g hg gs hs A G IH]; [constructor|]. inversion LG; subst. constructor; [|auto]. clear - A. induction A; cbn; auto.
      * rewrite <- EW. clear - F2 MO. induction F2 as [|s b ss bs M F2 IH]; [constructor|]. constructor; [|apply IH; intros; apply MO; [now right|assumption]].
        destruct (MO s b (or_introl eq_refl) M) as (v & H & _). eauto.
    + clear - G. induction G; cbn; auto.
    + intros use_tai tref p FP. cbn [x_f] in FP. clear - G MO FP. revert p FP. induction G as [|g hg gs hs A G IH]; intros p FP; inversion FP; subst; constructor.
      * eapply point_printed; [|eassumption].
        assert (MG : forall s b, In s g -> matches (h_factors _ h) s b -> exists v, has_offset (Z.of_nat (length a)) b v /\ printed_offset (pf_ms f) s v) by (intros; apply MO; [cbn [concat]; apply in_or_app; now left|assumption]).
           clear - A MG. induction A as [|s b g hg M A IH]; constructor; [|apply IH; intros; apply MG; [now right|assumption]].
           destruct M as (M1 & M2 & M3). split; [exact M1|]. split; [exact M2|]. apply MG; [now left|]. split; [exact M1|]. split; [exact M2|exact M3].
      * apply IH; [intros; apply MO; [cbn [concat]; apply in_or_app; now right|assumption]|assumption].
Qed.
Inductive all_stand (every : nat) (start fin : Z) : chars -> list pfile -> list (list (list sight)) -> list rinex -> list (list (list block)) -> Prop :=
| none_stands line : all_stand every start fin line [] [] [] []
| more_stand line line' f fs gs gss x xs hs hss : as_rinex strptime junk false hdr0 none fin line (Some (pfile_bytes f)) = Some (Ok (Some x, line')) ->
    stands_for every start fin f gs x hs -> all_stand every start fin line' fs gss xs hss -> all_stand every start fin line (f :: fs) (gs :: gss) (x :: xs) (hs :: hss).
Lemma files_read every start fin fs gss : Forall2 (pfile_ok strptime every start fin) fs gss -> forall line, exists xs hss, all_stand every start fin line fs gss xs hss.
Proof.
  induction 1 as [|f gs fs gss H _ IH]; intros line; [exists [], []; constructor|].
  destruct (pfile_read every start fin f gs line H) as (x & line' & hs & E & S). destruct (IH line') as (xs & hss & A). exists (x :: xs), (hs :: hss). econstructor; eassumption.
Qed.
Lemma parse_same use_tai every order cap start fin : forall line fs gss xs hss, all_stand every start fin line fs gss xs hss -> forall tref rows,
  parse_files strptime junk false hdr0 none use_tai every order cap start fin line tref rows (map (fun f => Some (pfile_bytes f)) fs) =
  Some (do r <- parse_all none use_tai every order cap start fin tref rows xs; Ok (match r with Some (t, l) => Rows t l | None => Failed end)).
Proof.
  induction 1 as [|line line' f fs gs gss x xs hs hss E S A IH]; intros tref rows; cbn [map parse_files parse_all]; [reflexivity|].
  rewrite E. destruct (parse_rinex_rfos _ _ _ _ _ _ _ _ _ _ _ _ _) as [[[c t] rows1]|]; cbn [obind]; [|reflexivity].
  destruct (Z.eqb c 0); [apply IH|reflexivity].
Qed.
Lemma fit_same solve use_tai every order start fin num_days line fs gss xs hss r : all_stand every start fin line fs gss xs hss ->
  fit_offsets solve none use_tai every order start fin num_days xs = Ok r ->
  fit_poly_files strptime junk false hdr0 none solve use_tai every order start fin num_days line (map (fun f => Some (pfile_bytes f)) fs) = Some (Ok (PCode (fst r) (snd r))).
Proof.
  intros A. unfold fit_poly_files, fit_offsets. destruct every as [|every]; [discriminate|]. rewrite (parse_same _ _ _ _ _ _ _ _ _ _ _ A).
  destruct (parse_all _ _ _ _ _ _ _ _ _ _) as [[[t rows]|]|]; cbn [obind]; try discriminate.
  - destruct (finite rows); intros E; injection E as <-; reflexivity.
  - intros E. injection E as <-. reflexivity.
Qed.
Lemma stand_complete every start fin line fs gss xs hss : all_stand every start fin line fs gss xs hss -> Forall2 (complete every start fin) xs hss /\ group_count hss = groups gss.
Proof. induction 1 as [|line line' f fs gs gss x xs hs hss E (S1 & S2 & _) A [IH1 IH2]]; [split; [constructor|reflexivity]|]. split; [constructor; assumption|]. cbn. lia. Qed.
Lemma stand_points every start fin use_tai tref line fs gss xs hss : all_stand every start fin line fs gss xs hss -> forall pts, all_points use_tai tref xs hss pts -> printed_points use_tai tref fs gss pts.
Proof.
  induction 1 as [|line line' f fs gs gss x xs hs hss E (S1 & S2 & S3 & S4) A IH]; intros pts P; inversion P; subst; constructor; [now apply S4|now apply IH].
Qed.
Lemma poly_files_ok solve use_tai every order start fin num_days line f fs gss : solver solve -> 2 <= every -> 1 <= order ->
  Forall2 (pfile_ok strptime every start fin) (f :: fs) gss -> RfoFit_proofs.fits (groups gss) every num_days ->
  exists pts, printed_points use_tai (or_else none (last_given (gives_date Z strptime RefStatDate) (pf_ms f))) (f :: fs) gss pts /\
  (enough_dates (order + 1) pts -> exists cf,
    fit_poly_files strptime junk false hdr0 none solve use_tai every order start fin num_days line (map (fun f => Some (pfile_bytes f)) (f :: fs)) =
      Some (Ok (PCode 0 (Some (Some (or_else none (last_given (gives_date Z strptime RefStatDate) (pf_ms f))), cf)))) /\
    length cf = (order + 1)%nat /\ forall z, length z = (order + 1)%nat -> (cost pts cf <= cost pts z)%Q).
Proof.
  intros SO E2 O1 FF CAP. destruct (files_read every start fin _ _ FF line) as (xs & hss & A). destruct (stand_complete _ _ _ _ _ _ _ _ A) as [C GC].
  inversion A as [|? line' ? ? gs gss' x xs' hs hss' ER (S1 & S2 & S3 & S4) A']; subst.
  rewrite <- GC in CAP. destruct (fit_least_squares solve none use_tai every order start fin num_days x xs' _ SO E2 O1 C CAP) as (pts & P & H).
  rewrite S3 in *. exists pts. split; [exact (stand_points _ _ _ _ _ _ _ _ _ _ A _ P)|]. intros ED. destruct (H ED) as (cf & EF & L & M). exists cf.
  split; [exact (fit_same _ _ _ _ _ _ _ _ _ _ _ _ _ A EF)|]. auto.
Qed.
End Printed.
