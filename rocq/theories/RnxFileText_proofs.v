(* The text of a DORIS RINEX header, and the lemmas behind the round trip of RnxFile_props.v. *)
From Coq Require Import String List ZArith QArith Ascii Bool Lia.
From Verif Require Import Base CLib_model CLib_proofs Stream_model Lines_proofs SysInfo_model SysInfo_proofs Rinex_model Rinex_proofs
  RnxHead_model RnxHead_proofs RnxFile_model RnxFile_proofs.
Import ListNotations.
Local Open Scope nat_scope.

(* ================= the format ================= *)
Definition str (s : string) : chars := list_ascii_of_string s.
(* a number printed with a decimal point, right in its columns *)
Record fnum := FNum { n_neg : bool; n_ip : list Z; n_fp : list Z }.
Definition fnum_text (x : fnum) : chars := fixed (n_neg x) (n_ip x) (n_fp x).
Definition fnum_val (x : fnum) : Q := fixed_val (n_neg x) (n_ip x) (n_fp x).
Definition fnum_ok (n : nat) (x : fnum) : Prop :=
  n_ip x ++ n_fp x <> [] /\ digits_ok (n_ip x) /\ digits_ok (n_fp x) /\ length (fnum_text x) <= n.

(* the records of a header, between the first two lines and the last one *)
Inductive mrec :=
| MSat (name : chars)
| MCospar (number : chars)
| MMarker
| MObserver (who : chars)
| MReceiver (chain type version : chars)
| MAntenna
| MPosition (x y z : fnum)
| MMass (x y z : fnum)
| MObs (num : list Z) (cs : list obs_code)
| MFirst (date : chars)
| MScale (neg : bool) (f num : list Z) (cs : list obs_code)
| MOffset (off : fnum)
| MCount (n : list Z)
| MStation (code id name domes : chars) (ty : Z) (neg : bool) (sh : list Z) (ngap : nat)
| MRefCount (n : list Z)
| MRef (code : chars) (bias shift : fnum)
| MRefDate (date : chars)
| MClock (applied : bool)
| MOther (body label : chars).

Definition body (m : mrec) : chars :=
  match m with
  | MSat s | MCospar s | MObserver s => s
  | MMarker => str "SPACEBORNE"
  | MReceiver a b c => pad 20 a ++ pad 20 b ++ pad 20 c
  | MAntenna => pad 20 (str "DORIS") ++ pad 20 (str "STAREC")
  | MPosition x y z | MMass x y z => rjust 14 (fnum_text x) ++ rjust 14 (fnum_text y) ++ rjust 14 (fnum_text z)
  | MObs num cs => obs_types_text num cs []
  | MFirst d => pad 48 d ++ str "DOR"
  | MScale neg f num cs => scale_text neg f num cs []
  | MOffset x => str "D  " ++ rjust 14 (fnum_text x)
  | MCount n | MRefCount n => rjust 6 (dstr n)
  | MStation code id name domes ty neg sh ngap => station_line code id name domes ty neg sh (repeat blank ngap) []
  | MRef code b s => code ++ repeat blank 2 ++ rjust 14 (fnum_text b) ++ rjust 14 (fnum_text s)
  | MRefDate d => d
  | MClock b => rjust 6 [dchar (if b then 1 else 0)]
  | MOther b _ => b
  end.
Definition label (m : mrec) : chars :=
  match m with
  | MSat _ => str "SATELLITE NAME"
  | MCospar _ => str "COSPAR NUMBER"
  | MMarker => str "MARKER TYPE"
  | MObserver _ => str "OBSERVER / AGENCY"
  | MReceiver _ _ _ => str "REC # / TYPE / VERS"
  | MAntenna => str "ANT # / TYPE"
  | MPosition _ _ _ => str "APPROX POSITION XYZ"
  | MMass _ _ _ => str "CENTER OF MASS: XYZ"
  | MObs _ _ => str "SYS / # / OBS TYPES"
  | MFirst _ => str "TIME OF FIRST OBS"
  | MScale _ _ _ _ => str "SYS / SCALE FACTOR"
  | MOffset _ => str "L2 / L1 DATE OFFSET"
  | MCount _ => str "# OF STATIONS"
  | MStation _ _ _ _ _ _ _ _ => str "STATION REFERENCE"
  | MRefCount _ => str "# TIME REF STATIONS"
  | MRef _ _ _ => str "TIME REF STATION"
  | MRefDate _ => str "TIME REF STAT DATE"
  | MClock _ => str "RCV CLOCK OFFS APPL"
  | MOther _ l => l
  end.
Definition hline (b l : chars) : chars := pad 60 b ++ l.
Definition text_of (m : mrec) : chars := hline (body m) (label m).
Definition version_line (v : fnum) : chars :=
  hline (rjust 9 (fnum_text v) ++ repeat blank 11 ++ pad 20 (str "OBSERVATION DATA") ++ str "D") (str "RINEX VERSION / TYPE").
Definition program_line (p : chars) : chars := hline p (str "PGM / RUN BY / DATE").
Definition end_line : chars := hline [] (str "END OF HEADER").
Definition header_file (v : fnum) (p : chars) (ms : list mrec) (rest : chars) : chars :=
  file_text (version_line v :: program_line p :: map text_of ms ++ [end_line]) rest.

(* the labels that mean something *)
Definition known : list chars := map str
  ["SATELLITE NAME"; "COSPAR NUMBER"; "MARKER TYPE"; "OBSERVER / AGENCY"; "REC # / TYPE / VERS"; "ANT # / TYPE";
   "APPROX POSITION XYZ"; "CENTER OF MASS: XYZ"; "SYS / # / OBS TYPES"; "TIME OF FIRST OBS"; "SYS / DCBS APPLIED";
   "SYS / SCALE FACTOR"; "L2 / L1 DATE OFFSET"; "# OF STATIONS"; "STATION REFERENCE"; "# TIME REF STATIONS";
   "TIME REF STATION"; "TIME REF STAT DATE"; "RCV CLOCK OFFS APPL"; "END OF HEADER"]%string.

Definition clean (s : chars) : Prop := Forall (fun c => c <> nl /\ c <> nul) s.
Definition plain (n : nat) (s : chars) : Prop := length s <= n /\ clean s.
Definition count_ok (n : list Z) : Prop := numeral_ok n /\ length n <= 6 /\ (dval n <> 0)%Z.

Section Text.
Variable date : Type.
Variable read_date : chars -> option date.

(* a record on its own *)
Definition rec_ok (m : mrec) : Prop :=
  match m with
  | MSat s => trimmed s /\ plain 58 s
  | MCospar s => trimmed s /\ plain 19 s
  | MMarker | MAntenna | MClock _ => True
  | MObserver s => plain 60 s
  | MReceiver a b c => (trimmed a /\ plain 18 a) /\ (trimmed b /\ plain 18 b) /\ (trimmed c /\ plain 18 c)
  | MPosition x y z | MMass x y z => fnum_ok 13 x /\ fnum_ok 13 y /\ fnum_ok 13 z
  | MObs num cs => Forall code_ok cs /\ NoDup cs /\ numeral_ok num /\ length num <= 3 /\ dval num = Z.of_nat (length cs) /\ 1 <= length cs <= 12
  | MFirst d => plain 48 d /\ read_date (text_of m) <> None
  | MScale neg f num cs => Forall code_ok cs /\ NoDup cs /\ numeral_ok f /\ length (numeral neg f) <= 4 /\ nval neg f <> 0%Z /\
      numeral_ok num /\ length num <= 2 /\ dval num = Z.of_nat (length cs) /\ 1 <= length cs <= 12
  | MOffset x => fnum_ok 14 x
  | MCount n | MRefCount n => count_ok n
  | MStation code id name domes ty neg sh ngap => record_ok code id name domes ty neg sh ngap (repeat blank 60) /\ plain 60 (body m)
  | MRef code b s => plain 3 code /\ length code = 3 /\ fnum_ok 13 b /\ fnum_ok 13 s
  | MRefDate d => plain 60 d /\ read_date (text_of m) <> None
  | MOther b l => plain 60 b /\ plain 20 l /\ Forall (fun t => firstn (length t) l <> t) known
  end.
(* a record after the others: the factors after the observation types, for some of them; the reference
   beacons after the stations, among them *)
Definition rec_after (before : list mrec) (m : mrec) : Prop :=
  match m with
  | MObs _ _ => forall neg f num cs, ~ In (MScale neg f num cs) before
  | MScale _ _ _ cs => exists num codes l1 l2, before = l1 ++ MObs num codes :: l2 /\ (forall n c, ~ In (MObs n c) l2) /\ incl cs codes
  | MRef code _ _ => exists id name domes ty neg sh ngap, In (MStation code id name domes ty neg sh ngap) before
  | _ => True
  end.
Definition recs_ok (ms : list mrec) : Prop :=
  Forall rec_ok ms /\ forall l1 m l2, ms = l1 ++ m :: l2 -> rec_after l1 m.

(* the value of the last record that gives one *)
Definition last_given {V} (f : mrec -> option V) (ms : list mrec) : option V :=
  fold_left (fun acc m => match f m with Some v => Some v | None => acc end) ms None.
Definition gives_text (k : text_member) (m : mrec) : option chars :=
  match k, m with
  | SatelliteName, MSat s => Some s
  | CosparNumber, MCospar s => Some s
  | RecChain, MReceiver a _ _ => Some a
  | RecType, MReceiver _ b _ => Some b
  | RecVersion, MReceiver _ _ c => Some c
  | AntennaNumber, MAntenna => Some (str "DORIS")
  | AntennaType, MAntenna => Some (str "STAREC")
  | _, _ => None
  end.
Definition gives_number (k : number_member) (m : mrec) : option Q :=
  match k, m with
  | ApproxPosition 0, MPosition x _ _ | CenterMass 0, MMass x _ _ => Some (fnum_val x)
  | ApproxPosition 1, MPosition _ y _ | CenterMass 1, MMass _ y _ => Some (fnum_val y)
  | ApproxPosition 2, MPosition _ _ z | CenterMass 2, MMass _ _ z => Some (fnum_val z)
  | DateOffset, MOffset x => Some (fnum_val x)
  | _, _ => None
  end.
Definition gives_date (k : date_member) (m : mrec) : option date :=
  match k, m with
  | FirstObs, MFirst _ | RefStatDate, MRefDate _ => read_date (text_of m)
  | _, _ => None
  end.
Definition gives_codes (m : mrec) : option (list obs_code) := match m with MObs _ cs => Some cs | _ => None end.
Definition gives_scale (m : mrec) : option (list obs_code * Z) := match m with MScale neg f _ cs => Some (cs, nval neg f) | _ => None end.
Definition gives_count (m : mrec) : option Z := match m with MCount n => Some (dval n) | _ => None end.
Definition gives_clock (m : mrec) : option bool := match m with MClock b => Some b | _ => None end.
Definition stations_of (ms : list mrec) : list station :=
  flat_map (fun m => match m with MStation code id name domes ty neg sh _ => [Station code id (nul_padded 30 name) (nul_padded 10 domes) ty (nval neg sh)] | _ => [] end) ms.
Definition refs_of (ms : list mrec) : list (chars * Q * Q) :=
  flat_map (fun m => match m with MRef code b s => [(code, fnum_val b, fnum_val s)] | _ => [] end) ms.

Definition same_number (a b : option Q) : Prop :=
  match a, b with Some x, Some y => (x == y)%Q | None, None => True | _, _ => False end.
Definition same_ref (r : ref_station) (x : chars * Q * Q) : Prop :=
  let '(c, b, s) := x in rs_code r = c /\ (rs_bias r == b)%Q /\ (rs_shift r == s)%Q.
Definition or_else {V} (d : V) (o : option V) : V := match o with Some v => v | None => d end.

(* the object tells what the records say *)
Definition reflects (v : fnum) (ms : list mrec) (h : head date) : Prop :=
  (forall k, h_text _ h k = last_given (gives_text k) ms) /\
  (forall k, same_number (h_number _ h k) (match k with Version => Some (fnum_val v) | _ => last_given (gives_number k) ms end)) /\
  (forall k, h_date _ h k = last_given (gives_date k) ms) /\
  h_codes _ h = or_else [] (last_given gives_codes ms) /\
  match last_given gives_scale ms with
  | None => h_factors _ h = []
  | Some (cs, f) => factors_for (h_codes _ h) cs f (h_factors _ h)
  end /\
  h_stations _ h = stations_of ms /\
  Forall2 same_ref (h_refs _ h) (refs_of ms) /\
  h_applied _ h = or_else false (last_given gives_clock ms).
(* the counters, not part of the object *)
Definition counted (ms : list mrec) (h : head date) : Prop :=
  h_ncodes _ h = Z.of_nat (length (h_codes _ h)) /\ h_nstations _ h = or_else 0%Z (last_given gives_count ms) /\ NoDup (h_codes _ h).
(* the whole header: a count of stations that is right, fewer reference beacons than stations, factors *)
Definition header_ok (v : fnum) (p : chars) (ms : list mrec) : Prop :=
  fnum_ok 9 v /\ plain 60 p /\ recs_ok ms /\
  or_else 0%Z (last_given gives_count ms) = Z.of_nat (length (stations_of ms)) /\
  length (refs_of ms) < length (stations_of ms) /\
  (last_given gives_codes ms <> None -> last_given gives_scale ms <> None).

(* ================= the lines ================= *)
Lemma into_text buf t : exists stale, into_buffer buf t = t ++ nul :: stale.
Proof. unfold into_buffer. eauto. Qed.
Lemma hline_at b l stale : length b <= 60 -> skipn 60 (hline b l ++ nul :: stale) = l ++ nul :: stale.
Proof. intros L. unfold hline. rewrite <- app_assoc. apply skipn_app_exact, pad_length, L. Qed.
Lemma labelled_hline b l stale t : length b <= 60 -> labelled (hline b l ++ nul :: stale) t = labelled (repeat blank 60 ++ l ++ nul :: stale) t.
Proof. intros L. unfold labelled. rewrite hline_at by exact L. reflexivity. Qed.
Lemma kind_hline b l stale ls : length b <= 60 -> kind_among ls (hline b l ++ nul :: stale) = kind_among ls (repeat blank 60 ++ l ++ nul :: stale).
Proof. intros L. induction ls as [|[t k] ls IH]; [reflexivity|]. cbn [kind_among]. rewrite labelled_hline, IH by exact L. reflexivity. Qed.

Lemma strncmp_prefix : forall t l stale, ~ In nul t -> ~ In nul l -> firstn (length t) l <> t -> strncmp_eq (l ++ nul :: stale) t (length t) = Ok false.
Proof.
  induction t as [|x t IH]; intros l stale N M E; [now contradiction E|]. cbn [length]. destruct l as [|y l]; cbn [app strncmp_eq].
  - destruct (Ascii.eqb_spec nul x) as [<-|]; [now contradiction N; left|reflexivity].
  - destruct (Ascii.eqb_spec y x) as [->|]; [|reflexivity].
    destruct (Ascii.eqb_spec x nul) as [->|]; [now contradiction N; left|].
    apply IH; [now intro; apply N; right|now intro; apply M; right|]. intro F. apply E. cbn [firstn length]. now rewrite F.
Qed.
Lemma kind_other l stale : ~ In nul l -> forall ls, Forall (fun t => firstn (length t) l <> t /\ ~ In nul t) (map (fun p => str (fst p)) ls) ->
  kind_among ls (repeat blank 60 ++ l ++ nul :: stale) = Ok KIgnored.
Proof.
  intros N. induction ls as [|[t k] ls IH]; intros F; [reflexivity|]. inversion F as [|? ? [F1 F2] F3]; subst. cbn [kind_among].
  unfold labelled. rewrite skipn_app_exact by reflexivity. cbn [fst] in *. rewrite strncmp_prefix by assumption. cbn [obind]. auto.
Qed.

Lemma count_blanks line off k : forall j, (forall i, k <= i <= k + j -> nth_error line (off + i) = Some blank) -> 
  k <> 0 -> count_length_reverse line off (k + j) = count_length_reverse line off (k - 1).
Proof.
  induction j as [|j IH]; intros B K.
  - destruct k as [|k]; [lia|]. replace (S k + 0) with (S k) by lia. cbn [count_length_reverse]. unfold load. rewrite (B (S k)) by lia. cbn [of_option obind].
    rewrite Ascii.eqb_refl. f_equal. lia.
  - replace (k + S j) with (S (k + j)) by lia. cbn [count_length_reverse]. unfold load. rewrite (B (S (k + j))) by lia. cbn [of_option obind].
    rewrite Ascii.eqb_refl. apply IH; [|exact K]. intros i Hi. apply B. lia.
Qed.
Lemma last_nth : forall (s : chars), s <> [] -> nth_error s (length s - 1) = Some (last s blank).
Proof.
  induction s as [|c s IH]; intros H; [contradiction|]. destruct s as [|d s]; [reflexivity|].
  replace (length (c :: d :: s) - 1) with (S (length (d :: s) - 1)) by (cbn; lia). cbn [nth_error last].
  rewrite IH by discriminate. reflexivity.
Qed.
Lemma nth_repeat_some {A} (x : A) n i : i < n -> nth_error (repeat x n) i = Some x.
Proof. revert i. induction n as [|n IH]; intros [|i] H; cbn; try lia; [reflexivity|]. apply IH. lia. Qed.
(* a name in its columns has the length of the name *)
Lemma count_pad a s rest n : trimmed s -> length s <= n -> count_length_reverse (a ++ pad n s ++ rest) (length a) (n - 1) = Ok (length s).
Proof.
  intros [NE LB] L. assert (L1 : 1 <= length s) by (destruct s; [contradiction|cbn; lia]).
  assert (E : count_length_reverse (a ++ pad n s ++ rest) (length a) (n - 1) = count_length_reverse (a ++ pad n s ++ rest) (length a) (length s - 1)).
  { destruct (Nat.eq_dec (length s) n) as [->|]; [reflexivity|].
    replace (n - 1) with (length s + (n - 1 - length s)) by lia. apply count_blanks; [|lia].
    intros i Hi. rewrite nth_error_app2 by lia. replace (length a + i - length a) with i by lia.
    rewrite nth_error_app1 by (rewrite pad_length; lia). unfold pad. rewrite nth_error_app2 by lia. apply nth_repeat_some. lia. }
  rewrite E. assert (N : nth_error (a ++ pad n s ++ rest) (length a + (length s - 1)) = Some (last s blank)).
  { rewrite nth_error_app2 by lia. replace (length a + (length s - 1) - length a) with (length s - 1) by lia. unfold pad.
    rewrite <- app_assoc, nth_error_app1 by lia. now apply last_nth. }
  destruct (length s - 1) as [|k] eqn:K; cbn [count_length_reverse]; unfold load; rewrite N; cbn [of_option obind];
    (destruct (Ascii.eqb_spec (last s blank) blank); [contradiction|]); f_equal; lia.
Qed.
Lemma columns_pad a s rest n : length s <= n -> columns (a ++ pad n s ++ rest) (length a) (length s) = s.
Proof. intros L. rewrite columns_app_skip by reflexivity. unfold pad. rewrite <- app_assoc. now apply firstn_app_exact. Qed.
Lemma text20_pad a s rest off : length a = off -> trimmed s -> length s <= 18 -> text20 (a ++ pad 20 s ++ rest) off = Ok (Some s).
Proof.
  intros <- T L. unfold text20. pose proof (count_pad a s rest 20 T ltac:(lia)) as C. change (20 - 1) with 19 in C. rewrite C. cbn [obind].
  destruct T as [NE _]. assert (1 <= length s) by (destruct s; [contradiction|cbn; lia]).
  destruct (Nat.ltb_spec (length s) 1); [lia|]. destruct (Nat.leb_spec 19 (length s)); [lia|]. cbn [orb]. rewrite columns_pad by lia. reflexivity.
Qed.
Lemma hline_no_nul b l : ~ In nul b -> ~ In nul l -> ~ In nul (hline b l).
Proof. unfold hline, pad. rewrite !in_app_iff. intros B L [[I|I]|I]; [auto|exact (blanks_no_nul _ I)|auto]. Qed.
Lemma fnum_string a n x stale rest k : length a = k -> fnum_ok n x -> ~ In nul rest -> no_extension rest ->
  exists q, (do s <- string_at (a ++ (rjust n (fnum_text x) ++ rest) ++ nul :: stale) k; Ok (strtod s)) = Ok (q, n) /\ (q == fnum_val x)%Q /\ n <> 0.
Proof.
  intros L (NE & D1 & D2 & LN) NR X. rewrite string_at_buf; [|exact L|].
  - cbn [obind]. unfold rjust. rewrite <- app_assoc.
    destruct (strtod_fixed (n - length (fnum_text x)) (n_neg x) (n_ip x) (n_fp x) rest NE D1 D2 X) as (q & E & Q). unfold fnum_text in *. rewrite E. exists q.
    assert (1 <= length (fixed (n_neg x) (n_ip x) (n_fp x))) by (unfold fixed; rewrite !app_length; cbn [length]; lia).
    split; [do 2 f_equal; lia|]. split; [exact Q|lia].
  - unfold rjust. rewrite !in_app_iff. intros [[I|I]|I]; [exact (blanks_no_nul _ I)|exact (fixed_no_nul _ _ _ D1 D2 I)|auto].
Qed.
Lemma fnum_at a n x stale rest k : length a = k -> fnum_ok n x -> ~ In nul rest -> no_extension rest ->
  exists s q, string_at (a ++ (rjust n (fnum_text x) ++ rest) ++ nul :: stale) k = Ok s /\ strtod s = (q, n) /\ (q == fnum_val x)%Q /\ n <> 0.
Proof.
  intros L F NR X. destruct (fnum_string a n x stale rest k L F NR X) as (q & E & Q & N).
  destruct (string_at _ k) as [s|]; [|discriminate]. cbn [obind] in E. exists s, q. injection E as E. auto.
Qed.
Lemma rjust_no_nul n s : ~ In nul s -> ~ In nul (rjust n s).
Proof. unfold rjust. rewrite in_app_iff. intros N [I|I]; [exact (blanks_no_nul _ I)|auto]. Qed.
Lemma fnum_no_nul n x : fnum_ok n x -> ~ In nul (fnum_text x).
Proof. intros (_ & D1 & D2 & _). exact (fixed_no_nul _ _ _ D1 D2). Qed.
Lemma fnum_more n m x : fnum_ok n x -> n <= m -> fnum_ok m x.
Proof. intros (A & B & C & D) L. repeat split; auto. lia. Qed.
(* a right-adjusted number with room before it starts with a blank *)
Lemma rjust_ext n s rest : length s < n -> no_extension (rjust n s ++ rest).
Proof. intros L. unfold rjust. destruct (n - length s) as [|k] eqn:E; [lia|]. cbn. repeat split; discriminate. Qed.

Lemma count_at n rest stale : count_ok n -> ~ In nul rest -> not_digit_next rest ->
  leading_int (rjust 6 (dstr n) ++ rest ++ nul :: stale) = Ok (Some (dval n)).
Proof.
  intros ((NE & D) & L & NZ) NR X. unfold leading_int.
  assert (S : string_at (rjust 6 (dstr n) ++ rest ++ nul :: stale) 0 = Ok (rjust 6 (dstr n) ++ rest)).
  { rewrite app_assoc. apply (string_at_buf [] (rjust 6 (dstr n) ++ rest) stale 0 eq_refl). rewrite in_app_iff.
    intros [I|I]; [exact (rjust_no_nul 6 _ (digits_no_nul _ D) I)|auto]. }
  rewrite S. cbn [obind]. unfold rjust. rewrite <- app_assoc.
  assert (V : (0 <= dval n < 1000000)%Z).
  { split; [apply dval_nonneg, D|]. clear - D L. unfold digits_ok in D.
    destruct n as [|a [|b [|c [|d [|e [|f [|]]]]]]]; cbn [length] in L; try lia; rewrite ?Forall_cons_iff in D; cbv beta in D;
    unfold dval; cbn [fold_left]; lia. }
  change (dstr n ++ rest) with (numeral false n ++ rest).
  rewrite (strtol_numeral (6 - length (dstr n)) false n rest (conj NE D) X) by (unfold nval, LONG_MIN, LONG_MAX; lia).
  cbn [l_range l_used l_val nval]. assert (length (numeral false n) <> 0).
  { unfold numeral, dstr. cbn [app]. rewrite map_length. destruct n; [contradiction|discriminate]. }
  destruct (Nat.eqb_spec (6 - length (dstr n) + length (numeral false n)) 0); [lia|]. cbn [orb].
  rewrite wrap_id by (cbn; lia). reflexivity.
Qed.

(* ---------- the printed records hold no end of line and no NUL, and fit their columns ---------- *)
Lemma clean_nl s : clean s -> ~ In nl s.
Proof. intros C I. destruct (proj1 (Forall_forall _ _) C _ I). congruence. Qed.
Lemma clean_nul s : clean s -> ~ In nul s.
Proof. intros C I. destruct (proj1 (Forall_forall _ _) C _ I). congruence. Qed.
Lemma clean_app a b : clean a -> clean b -> clean (a ++ b).
Proof. intros. apply Forall_app. now split. Qed.
Lemma clean_cons c s : c <> nl /\ c <> nul -> clean s -> clean (c :: s).
Proof. now constructor. Qed.
Ltac split_clean := repeat match goal with |- clean (?a ++ ?b) => apply (clean_app a b) end.
Lemma clean_blanks n : clean (repeat blank n).
Proof. apply Forall_forall. intros c I. apply repeat_spec in I. subst. now split. Qed.
Lemma clean_digit d : (0 <= d <= 9)%Z -> dchar d <> nl /\ dchar d <> nul.
Proof. intros H. split; intro E; apply (f_equal code) in E; rewrite code_dchar in E by exact H; [change (code nl) with 10%Z in E|change (code nul) with 0%Z in E]; lia. Qed.
Lemma clean_dstr ds : digits_ok ds -> clean (dstr ds).
Proof. intros D. unfold clean, dstr. apply Forall_map. eapply Forall_impl; [|exact D]. intros d H. now apply clean_digit. Qed.
Lemma clean_numeral neg ds : digits_ok ds -> clean (numeral neg ds).
Proof. intros D. unfold numeral. apply clean_app; [destruct neg; repeat constructor; discriminate|now apply clean_dstr]. Qed.
Lemma clean_fnum n x : fnum_ok n x -> clean (fnum_text x).
Proof.
  intros (_ & D1 & D2 & _). unfold fnum_text, fixed. split_clean; try now apply clean_dstr.
  - destruct (n_neg x); repeat constructor; discriminate.
  - repeat constructor; discriminate.
Qed.
Lemma clean_pad n s : clean s -> clean (pad n s).
Proof. intros C. apply clean_app; [exact C|apply clean_blanks]. Qed.
Lemma clean_rjust n s : clean s -> clean (rjust n s).
Proof. intros C. apply clean_app; [apply clean_blanks|exact C]. Qed.
Lemma clean_check s : forallb (fun c => negb (Ascii.eqb c nl) && negb (Ascii.eqb c nul)) s = true -> clean s.
Proof.
  intros H. apply Forall_forall. intros c I. rewrite forallb_forall in H. specialize (H c I). apply andb_prop in H as [A B].
  split; intros ->; [rewrite Ascii.eqb_refl in A|rewrite Ascii.eqb_refl in B]; discriminate.
Qed.
Lemma clean_codes cs : Forall code_ok cs -> clean (flat_map code_text cs).
Proof.
  induction 1 as [|c cs O _ IH]; [constructor|]. cbn [flat_map]. apply clean_app; [|exact IH]. unfold code_text, code_ok in *.
  destruct (oc_type c); cbn [has_frequency type_to_char] in *; try (apply clean_check; reflexivity);
    (destruct O as [-> | ->]; apply clean_check; reflexivity).
Qed.
Lemma rec_plain m : rec_ok m -> plain 60 (body m) /\ plain 20 (label m).
Proof.
  assert (LB : forall t : string, length (str t) <= 20 -> forallb (fun c => negb (Ascii.eqb c nl) && negb (Ascii.eqb c nul)) (str t) = true -> plain 20 (str t)).
  { intros t A B. split; [exact A|now apply clean_check]. }
  assert (LT : forall (l : chars), (length l <=? 20) && forallb (fun c => negb (Ascii.eqb c nl) && negb (Ascii.eqb c nul)) l = true -> plain 20 l).
  { intros l H. apply andb_prop in H as [A B]. split; [now apply Nat.leb_le|now apply clean_check]. }
  assert (F3 : forall x y z, fnum_ok 13 x -> fnum_ok 13 y -> fnum_ok 13 z ->
    plain 60 (rjust 14 (fnum_text x) ++ rjust 14 (fnum_text y) ++ rjust 14 (fnum_text z))).
  { intros x y z X Y Z. split.
    - rewrite !app_length, !rjust_length by (destruct X as (?&?&?&?), Y as (?&?&?&?), Z as (?&?&?&?); lia). lia.
    - split_clean; apply clean_rjust; eapply clean_fnum; eassumption. }
  assert (C6 : forall n, count_ok n -> plain 60 (rjust 6 (dstr n))).
  { intros n ((_ & D) & L & _). split; [rewrite rjust_length by (unfold dstr; rewrite map_length; lia); lia|now apply clean_rjust, clean_dstr]. }
  intros O. split; [|destruct m; try (apply LT; reflexivity); cbn in O; tauto].
  destruct m; cbn [rec_ok body] in *.
  - destruct O as (_ & L & C). split; [lia|exact C].
  - destruct O as (_ & L & C). split; [lia|exact C].
  - split; [cbn; lia|now apply clean_check].
  - exact O.
  - destruct O as ((_ & L1 & C1) & (_ & L2 & C2) & (_ & L3 & C3)). split; [rewrite !app_length, !pad_length by lia; lia|].
    split_clean; now apply clean_pad.
  - split; [cbn; lia|now apply clean_check].
  - destruct O as (X & Y & Z). now apply F3.
  - destruct O as (X & Y & Z). now apply F3.
  - destruct O as (FC & ND & (NE & D) & L & DV & LC). unfold obs_types_text. split.
    + cbn [length]. rewrite !app_length, codes_length, rjust_length by (unfold dstr; rewrite map_length; lia). cbn. lia.
    + apply clean_cons; [split; discriminate|]. split_clean; [apply clean_blanks|now apply clean_rjust, clean_dstr|now apply clean_codes|constructor].
  - destruct O as ((L & C) & _). split; [rewrite app_length, pad_length by lia; cbn; lia|]. apply clean_app; [now apply clean_pad|now apply clean_check].
  - destruct O as (FC & ND & (NE & D) & LF & NZ & (NE2 & D2) & L & DV & LC). unfold scale_text. split.
    + cbn [length]. rewrite !app_length, codes_length, !rjust_length by (unfold dstr; try rewrite map_length; lia). cbn. lia.
    + apply clean_cons; [split; discriminate|]. apply clean_cons; [split; discriminate|].
      split_clean; [now apply clean_rjust, clean_numeral|apply clean_blanks|now apply clean_rjust, clean_dstr|now apply clean_codes|constructor].
  - pose proof O as (_ & _ & _ & L). split; [rewrite app_length, rjust_length by exact L; cbn; lia|].
    apply clean_app; [now apply clean_check|apply clean_rjust; eapply clean_fnum; exact O].
  - now apply C6.
  - destruct O as (_ & O). exact O.
  - now apply C6.
  - destruct O as ((_ & C) & L & B & S). pose proof B as (_ & _ & _ & LB'). pose proof S as (_ & _ & _ & LS). split.
    + rewrite !app_length, !rjust_length by lia. cbn. lia.
    + split_clean; [exact C|apply clean_blanks|apply clean_rjust; eapply clean_fnum; exact B|apply clean_rjust; eapply clean_fnum; exact S].
  - destruct O as (O & _). exact O.
  - split; [cbn; lia|]. destruct applied; now apply clean_check.
  - destruct O as (O & _). exact O.
Qed.
Lemma hline_ok b l : plain 60 b -> plain 20 l -> line_ok 81 (hline b l) /\ ~ In nul (hline b l).
Proof.
  intros [L1 C1] [L2 C2]. assert (C : clean (hline b l)) by (apply clean_app; [now apply clean_pad|exact C2]).
  refine (conj (conj (clean_nl _ C) _) (clean_nul _ C)). unfold hline. rewrite app_length, pad_length by exact L1. lia.
Qed.

(* ---------- what the last record adds ---------- *)
Definition newer {V} (a b : option V) : option V := match a with Some v => Some v | None => b end.
Lemma last_snoc {V} (f : mrec -> option V) ms m : last_given f (ms ++ [m]) = newer (f m) (last_given f ms).
Proof. unfold last_given. rewrite fold_left_app. reflexivity. Qed.
Lemma stations_snoc ms m : stations_of (ms ++ [m]) = stations_of ms ++ stations_of [m].
Proof. unfold stations_of. now rewrite flat_map_app. Qed.
Lemma refs_snoc ms m : refs_of (ms ++ [m]) = refs_of ms ++ refs_of [m].
Proof. unfold refs_of. now rewrite flat_map_app. Qed.
Lemma reflects_snoc v ms m h :
  (forall k, h_text _ h k = newer (gives_text k m) (last_given (gives_text k) ms)) ->
  (forall k, same_number (h_number _ h k) (match k with Version => Some (fnum_val v) | _ => newer (gives_number k m) (last_given (gives_number k) ms) end)) ->
  (forall k, h_date _ h k = newer (gives_date k m) (last_given (gives_date k) ms)) ->
  h_codes _ h = or_else [] (newer (gives_codes m) (last_given gives_codes ms)) ->
  match newer (gives_scale m) (last_given gives_scale ms) with
  | None => h_factors _ h = []
  | Some (cs, f) => factors_for (h_codes _ h) cs f (h_factors _ h)
  end ->
  h_stations _ h = stations_of ms ++ stations_of [m] ->
  Forall2 same_ref (h_refs _ h) (refs_of ms ++ refs_of [m]) ->
  h_applied _ h = or_else false (newer (gives_clock m) (last_given gives_clock ms)) ->
  reflects v (ms ++ [m]) h.
Proof.
  intros A B C D E F G H. refine (conj _ (conj _ (conj _ (conj _ (conj _ (conj _ (conj _ _))))))).
  - intros k. now rewrite last_snoc.
  - intros k. specialize (B k). destruct k; now rewrite ?last_snoc.
  - intros k. now rewrite last_snoc.
  - now rewrite last_snoc.
  - now rewrite last_snoc.
  - now rewrite stations_snoc.
  - now rewrite refs_snoc.
  - now rewrite last_snoc.
Qed.

Lemma last_none {V} (f : mrec -> option V) ms : (forall m, In m ms -> f m = None) -> last_given f ms = None.
Proof.
  induction ms as [|m ms IH] using rev_ind; intros H; [reflexivity|]. rewrite last_snoc, H by (apply in_or_app; right; now left).
  apply IH. intros x I. apply H. apply in_or_app. now left.
Qed.
Lemma last_after {V} (f : mrec -> option V) l1 m l2 x : f m = Some x -> (forall y, In y l2 -> f y = None) -> last_given f (l1 ++ m :: l2) = Some x.
Proof.
  intros E. induction l2 as [|y l2 IH] using rev_ind; intros H.
  - rewrite last_snoc, E. reflexivity.
  - replace (l1 ++ m :: l2 ++ [y]) with ((l1 ++ m :: l2) ++ [y]) by (rewrite <- app_assoc; reflexivity).
    rewrite last_snoc, H by (apply in_or_app; right; now left). apply IH. intros z I. apply H, in_or_app. now left.
Qed.
Lemma obs_types_rest num cs r : obs_types_text num cs [] ++ r = obs_types_text num cs r.
Proof. unfold obs_types_text. cbn [app]. rewrite <- !app_assoc. reflexivity. Qed.
Lemma scale_rest neg f num cs r : scale_text neg f num cs [] ++ r = scale_text neg f num cs r.
Proof. unfold scale_text. cbn [app]. rewrite <- !app_assoc. reflexivity. Qed.
Lemma station_rest code id name domes ty neg sh g r : station_line code id name domes ty neg sh g [] ++ r = station_line code id name domes ty neg sh g r.
Proof. unfold station_line. rewrite <- !app_assoc. reflexivity. Qed.
Lemma blanks_then_digit n l : not_digit_next l -> not_digit_next (repeat blank n ++ l).
Proof. destruct n; [auto|reflexivity]. Qed.
Lemma blanks_then_ext n l : no_extension l -> no_extension (repeat blank n ++ l).
Proof. destruct n; [auto|]. cbn. repeat split; discriminate. Qed.

Lemma three_ok x y z l stale base m h : fnum_ok 13 x -> fnum_ok 13 y -> fnum_ok 13 z -> ~ In nul l ->
  exists q0 q1 q2, three date (hline (rjust 14 (fnum_text x) ++ rjust 14 (fnum_text y) ++ rjust 14 (fnum_text z)) l ++ nul :: stale) base m 3 0 h
    = Ok (Go date (with_number _ (with_number _ (with_number _ h (m 0) q0) (m 1) q1) (m 2) q2) false)
  /\ (q0 == fnum_val x)%Q /\ (q1 == fnum_val y)%Q /\ (q2 == fnum_val z)%Q.
Proof.
  intros X Y Z NL.
  pose proof (fnum_more _ 14 _ X ltac:(lia)) as X'. pose proof (fnum_more _ 14 _ Y ltac:(lia)) as Y'. pose proof (fnum_more _ 14 _ Z ltac:(lia)) as Z'.
  assert (LX : length (rjust 14 (fnum_text x)) = 14) by (apply rjust_length; destruct X' as (_&_&_&?); assumption).
  assert (LY : length (rjust 14 (fnum_text y)) = 14) by (apply rjust_length; destruct Y' as (_&_&_&?); assumption).
  assert (LZ : length (rjust 14 (fnum_text z)) = 14) by (apply rjust_length; destruct Z' as (_&_&_&?); assumption).
  set (tail := repeat blank 18 ++ l).
  assert (NT : ~ In nul tail) by (unfold tail; rewrite in_app_iff; intros [I|I]; [exact (blanks_no_nul _ I)|auto]).
  assert (EL : hline (rjust 14 (fnum_text x) ++ rjust 14 (fnum_text y) ++ rjust 14 (fnum_text z)) l ++ nul :: stale =
     rjust 14 (fnum_text x) ++ rjust 14 (fnum_text y) ++ rjust 14 (fnum_text z) ++ tail ++ nul :: stale).
  { unfold hline, pad, tail. rewrite !app_length, LX, LY, LZ. rewrite <- !app_assoc. reflexivity. }
  rewrite EL.
  destruct (fnum_at [] 14 x stale (rjust 14 (fnum_text y) ++ rjust 14 (fnum_text z) ++ tail) 0 eq_refl X') as (s0 & q0 & A0 & B0 & C0 & _).
  { rewrite !in_app_iff. intros [I|[I|I]]; [exact (rjust_no_nul _ _ (fnum_no_nul _ _ Y) I)|exact (rjust_no_nul _ _ (fnum_no_nul _ _ Z) I)|auto]. }
  { apply rjust_ext. destruct Y as (_&_&_&?). lia. }
  destruct (fnum_at (rjust 14 (fnum_text x)) 14 y stale (rjust 14 (fnum_text z) ++ tail) 14 LX Y') as (s1 & q1 & A1 & B1 & C1 & _).
  { rewrite !in_app_iff. intros [I|I]; [exact (rjust_no_nul _ _ (fnum_no_nul _ _ Z) I)|auto]. }
  { apply rjust_ext. destruct Z as (_&_&_&?). lia. }
  destruct (fnum_at (rjust 14 (fnum_text x) ++ rjust 14 (fnum_text y)) 14 z stale tail 28) as (s2 & q2 & A2 & B2 & C2 & _).
  { rewrite app_length, LX, LY. reflexivity. }
  { exact Z'. }
  { exact NT. }
  { unfold tail. cbn. repeat split; discriminate. }
  cbn [app] in A0. repeat rewrite <- app_assoc in A0. repeat rewrite <- app_assoc in A1. repeat rewrite <- app_assoc in A2.
  exists q0, q1, q2. refine (conj _ (conj C0 (conj C1 C2))).
  cbn [three]. change (14 * 0) with 0. rewrite A0. cbn [obind]. rewrite B0. cbn [Nat.eqb].
  change (14 * 1) with 14. rewrite A1. cbn [obind]. rewrite B1. cbn [Nat.eqb].
  change (14 * 2) with 28. rewrite A2. cbn [obind]. rewrite B2. cbn [Nat.eqb]. reflexivity.
Qed.

Lemma find_code code : forall l, length code = 3 -> ~ In nul code -> Forall (fun s => length (st_code s) = 3) l -> (exists s, In s l /\ st_code s = code) ->
  exists s, find_station (fun b => strncmp_eq (st_code b) code 3) l = Ok (Some s).
Proof.
  induction l as [|x l IH]; intros L N F (s & I & E); [destruct I|]. cbn [find_station]. inversion F as [|? ? F1 F2]; subst x0 l0.
  assert (D : exists b, strncmp_eq (st_code x) code 3 = Ok b /\ (st_code x = code -> b = true)).
  { destruct (st_code x) as [|a [|b [|c [|]]]]; try discriminate. destruct code as [|a' [|b' [|c' [|]]]]; try discriminate.
    assert (a' <> nul) by (intro; subst; apply N; now left). assert (b' <> nul) by (intro; subst; apply N; right; now left).
    assert (c' <> nul) by (intro; subst; apply N; right; right; now left).
    cbn [strncmp_eq].
    destruct (Ascii.eqb_spec a a') as [->|]; [|eexists; split; [reflexivity|congruence]]. destruct (Ascii.eqb_spec a' nul); [contradiction|].
    destruct (Ascii.eqb_spec b b') as [->|]; [|eexists; split; [reflexivity|congruence]]. destruct (Ascii.eqb_spec b' nul); [contradiction|].
    destruct (Ascii.eqb_spec c c') as [->|]; [|eexists; split; [reflexivity|congruence]]. destruct (Ascii.eqb_spec c' nul); [contradiction|]. eauto. }
  destruct D as (b & -> & D). cbn [obind]. destruct b; [eauto|].
  destruct I as [<-|I]; [specialize (D E); discriminate|]. apply IH; eauto.
Qed.
Lemma stations_code ms : Forall (rec_ok) ms -> Forall (fun s => length (st_code s) = 3) (stations_of ms).
Proof.
  induction 1 as [|m ms O _ IH]; [constructor|]. unfold stations_of in *. cbn [flat_map]. apply Forall_app. split; [|exact IH].
  destruct m; try constructor; [|constructor]. cbn in O |- *. destruct O as ((L & _) & _). exact L.
Qed.
Ltac keep := match goal with
  | H : forall k, h_text _ _ k = _ |- forall k : text_member, _ = _ => solve [intros []; cbn; auto]
  | H : forall k, same_number _ _ |- forall k : number_member, _ =>
      let k := fresh "k" in intros k; generalize (H k); destruct k as [|[|[|[|]]]|[|[|[|]]]|]; cbn; auto
  | H : forall k, h_date _ _ k = _ |- forall k : date_member, _ = _ => try solve [intros []; cbn; auto]
  | _ => try solve [cbn; rewrite ?app_nil_r; auto]
  end.
Ltac finish := split; [apply reflects_snoc; keep|unfold counted; rewrite last_snoc; cbn; auto].

Lemma step v ms m h stale : Forall rec_ok ms -> rec_ok m -> rec_after ms m -> reflects v ms h -> counted ms h ->
  exists h', record date read_date h false (text_of m ++ nul :: stale) = Ok (Go _ h' false) /\ reflects v (ms ++ [m]) h' /\ counted (ms ++ [m]) h'.
Proof.
  intros OS O AF (RT & RN & RD & RC & RF & RS & RR & RA) (CN & CS & CD).
  pose proof (rec_plain m O) as [[LB CB] [LL CL]]. destruct (hline_ok (body m) (label m) (conj LB CB) (conj LL CL)) as [_ NN].
  assert (K : forall k, kind_among labels (repeat blank 60 ++ label m ++ nul :: stale) = Ok k -> kind_among labels (text_of m ++ nul :: stale) = Ok k).
  { intros k <-. now apply kind_hline. }
  assert (SA : string_at (text_of m ++ nul :: stale) 0 = Ok (text_of m)) by exact (string_at_buf [] (text_of m) stale 0 eq_refl NN).
  unfold RnxFile_model.record.
  assert (NZ : forall s : chars, trimmed s -> length s <> 0) by (intros [|? ?] [? ?]; [contradiction|discriminate]).
  destruct m; cbn [rec_ok rec_after] in O, AF.
  - (* satellite name *)
    rewrite (K KSatellite eq_refl). cbn [obind]. destruct O as (T & L & _).
    pose proof (count_pad [] name (label (MSat name) ++ nul :: stale) 60 T ltac:(lia)) as C. cbn [app length Nat.sub] in C.
    unfold text_of, hline. rewrite <- app_assoc. cbn [body]. rewrite C. cbn [obind].
    destruct (Nat.eqb_spec (length name) 0); [now destruct (NZ name T)|]. destruct (Nat.leb_spec 59 (length name)); [lia|]. cbn [orb].
    pose proof (columns_pad [] name (label (MSat name) ++ nul :: stale) 60 ltac:(lia)) as E. cbn [app length] in E. rewrite E.
    eexists. split; [reflexivity|]. finish.
  - (* COSPAR number *)
    rewrite (K KCospar eq_refl). cbn [obind]. destruct O as (T & L & _).
    pose proof (count_pad [] number (label (MCospar number) ++ nul :: stale) 60 T ltac:(lia)) as C. cbn [app length Nat.sub] in C.
    unfold text_of, hline. rewrite <- app_assoc. cbn [body]. rewrite C. cbn [obind].
    destruct (Nat.eqb_spec (length number) 0); [now destruct (NZ number T)|]. destruct (Nat.ltb_spec 19 (length number)); [lia|]. cbn [orb].
    pose proof (columns_pad [] number (label (MCospar number) ++ nul :: stale) 60 ltac:(lia)) as E. cbn [app length] in E. rewrite E.
    eexists. split; [reflexivity|]. finish.
  - (* marker *)
    rewrite (K KMarker eq_refl). cbn [obind]. eexists. split; [reflexivity|]. finish.
  - (* observer *)
    rewrite (K KObserver eq_refl). cbn [obind]. eexists. split; [reflexivity|]. finish.
  - (* receiver *)
    rewrite (K KReceiver eq_refl). cbn [obind]. destruct O as ((T1 & L1 & _) & (T2 & L2 & _) & (T3 & L3 & _)).
    set (lb := label (MReceiver chain type version)).
    assert (P1 : length (pad 20 chain) = 20) by (apply pad_length; lia). assert (P2 : length (pad 20 type) = 20) by (apply pad_length; lia).
    assert (P3 : length (pad 20 version) = 20) by (apply pad_length; lia).
    assert (E : text_of (MReceiver chain type version) ++ nul :: stale = pad 20 chain ++ pad 20 type ++ pad 20 version ++ lb ++ nul :: stale).
    { unfold text_of, hline, pad at 1. cbn [body]. rewrite !app_length, P1, P2, P3. cbn [Nat.sub Nat.add repeat]. rewrite app_nil_r, <- !app_assoc. reflexivity. }
    rewrite E. rewrite (text20_pad [] chain _ 0 eq_refl T1 L1 : text20 (pad 20 chain ++ _) 0 = _). cbn [obind].
    rewrite (text20_pad (pad 20 chain) type _ 20 P1 T2 L2). cbn [obind].
    rewrite (app_assoc (pad 20 chain)). rewrite (text20_pad (pad 20 chain ++ pad 20 type) version _ 40) by (try assumption; rewrite app_length; lia). cbn [obind].
    eexists. split; [reflexivity|]. finish.
  - (* antenna *)
    rewrite (K KAntenna eq_refl). cbn [obind]. eexists. split; [reflexivity|]. finish.
  - (* position *)
    rewrite (K KPosition eq_refl). cbn [obind]. destruct O as (X & Y & Z).
    destruct (three_ok x y z (label (MPosition x y z)) stale 90 ApproxPosition h X Y Z (clean_nul _ CL)) as (q0 & q1 & q2 & E & Q0 & Q1 & Q2).
    unfold text_of. cbn [body]. rewrite E. eexists. split; [reflexivity|]. finish.
  - (* centre of mass *)
    rewrite (K KMass eq_refl). cbn [obind]. destruct O as (X & Y & Z).
    destruct (three_ok x y z (label (MMass x y z)) stale 100 CenterMass h X Y Z (clean_nul _ CL)) as (q0 & q1 & q2 & E & Q0 & Q1 & Q2).
    unfold text_of. cbn [body]. rewrite E. eexists. split; [reflexivity|]. finish.
  - (* observation types *)
    rewrite (K KObsTypes eq_refl). cbn [obind]. destruct O as (FC & ND & NU & L & DV & LC).
    unfold text_of, hline, pad. cbn [body]. rewrite <- (app_assoc (obs_types_text num cs [])), obs_types_rest.
    rewrite obs_types_roundtrip; try assumption.
    2:{ rewrite in_app_iff. intros [I|I]; [exact (blanks_no_nul _ I)|exact (clean_nul _ CL I)]. }
    cbn [obind Z.eqb]. eexists. split; [reflexivity|].
    assert (N : last_given gives_scale ms = None).
    { apply last_none. intros m I. destruct m; try reflexivity. now destruct (AF neg f num0 cs0). }
    rewrite N in RF. split.
    + apply reflects_snoc; keep. cbn [gives_scale newer]. rewrite N. exact RF.
    + unfold counted. rewrite last_snoc. cbn. auto.
  - (* first observation *)
    rewrite (K KFirst eq_refl). cbn [obind]. destruct O as ((L & _) & RDT).
    assert (E : strncmp_eq (skipn 48 (text_of (MFirst date0) ++ nul :: stale)) (list_ascii_of_string "DOR") 3 = Ok true).
    { unfold text_of, hline, pad at 1. cbn [body]. rewrite <- !app_assoc. rewrite skipn_app_exact by (apply pad_length; exact L). reflexivity. }
    rewrite E. cbn [obind]. rewrite SA. cbn [obind]. destruct (read_date (text_of (MFirst date0))) as [d|] eqn:D; [|contradiction].
    eexists. split; [reflexivity|]. split.
    + apply reflects_snoc; keep. intros []; cbn [h_date with_date date_member_beq gives_date]; [rewrite D; reflexivity|apply RD].
    + unfold counted. rewrite last_snoc. cbn. auto.
  - (* scale factors *)
    rewrite (K KScale eq_refl). cbn [obind]. destruct O as (FC & ND & NU & LF & NZF & NU2 & LN & DV & LC).
    destruct AF as (num' & codes & l1 & l2 & EB & NO & IN).
    assert (CO : h_codes _ h = codes).
    { rewrite RC, EB, (last_after gives_codes l1 (MObs num' codes) l2 codes eq_refl); [reflexivity|].
      intros y I. destruct y; try reflexivity. now destruct (NO num0 cs0). }
    destruct (scale_line_ok (h_codes _ h) (h_factors _ h) (MS neg f num cs (repeat blank (60 - length (body (MScale neg f num cs))) ++ label (MScale neg f num cs)) stale) CD) as (fs & E & FF).
    { unfold mscale_ok. cbn [ms_neg ms_factor ms_num ms_codes ms_rest]. rewrite CO.
      refine (conj FC (conj IN (conj ND (conj NU (conj LF (conj NZF (conj NU2 (conj LN (conj DV (conj _ _)))))))))); [lia|].
      rewrite in_app_iff. intros [I|I]; [exact (blanks_no_nul _ I)|exact (clean_nul _ CL I)]. }
    unfold mscale_line in E. cbn [ms_neg ms_factor ms_num ms_codes ms_rest ms_stale] in E, FF.
    assert (ET : text_of (MScale neg f num cs) = scale_text neg f num cs (repeat blank (60 - length (body (MScale neg f num cs))) ++ label (MScale neg f num cs))).
    { unfold text_of, hline, pad. cbn [body]. rewrite <- (app_assoc (scale_text neg f num cs [])), scale_rest. reflexivity. }
    rewrite ET, E. cbn [obind fst snd Z.eqb]. eexists. split; [reflexivity|]. split.
    + apply reflects_snoc; keep.
    + unfold counted. rewrite last_snoc. cbn. auto.
  - (* offset of the two frequencies *)
    rewrite (K KOffset eq_refl). cbn [obind].
    pose proof O as (_ & _ & _ & LO). assert (LR : length (rjust 14 (fnum_text off)) = 14) by (apply rjust_length; exact LO).
    set (tail := repeat blank 43 ++ label (MOffset off)).
    assert (NT : ~ In nul tail) by (unfold tail; rewrite in_app_iff; intros [I|I]; [exact (blanks_no_nul _ I)|exact (clean_nul _ CL I)]).
    assert (ET : text_of (MOffset off) ++ nul :: stale = str "D  " ++ (rjust 14 (fnum_text off) ++ tail) ++ nul :: stale).
    { unfold text_of, hline, pad, tail. cbn [body]. rewrite !app_length, LR. rewrite <- !app_assoc. reflexivity. }
    rewrite ET. destruct (fnum_at (str "D  ") 14 off stale tail 3 eq_refl O NT) as (s & q & A & B & C & _); [cbn; repeat split; discriminate|].
    replace (load (str "D  " ++ (rjust 14 (fnum_text off) ++ tail) ++ nul :: stale) 0) with (Ok "D"%char) by reflexivity. cbn [obind].
    rewrite Ascii.eqb_refl, A. cbn [obind]. rewrite B. cbn [Nat.eqb].
    eexists. split; [reflexivity|]. finish.
  - (* number of stations *)
    rewrite (K KStations eq_refl). cbn [obind].
    assert (ET : text_of (MCount n) ++ nul :: stale = rjust 6 (dstr n) ++ (repeat blank 54 ++ label (MCount n)) ++ nul :: stale).
    { unfold text_of, hline, pad. cbn [body]. destruct O as (_ & L & _). rewrite rjust_length by (unfold dstr; rewrite map_length; exact L). rewrite <- !app_assoc. reflexivity. }
    rewrite ET, count_at; [|exact O| |reflexivity].
    2:{ rewrite in_app_iff. intros [I|I]; [exact (blanks_no_nul _ I)|exact (clean_nul _ CL I)]. }
    cbn [obind]. destruct O as (_ & _ & NZN). destruct (Z.eqb_spec (dval n) 0); [contradiction|].
    eexists. split; [reflexivity|]. finish.
  - (* station *)
    rewrite (K KStation eq_refl). cbn [obind]. rewrite SA. cbn [obind]. destruct O as (RO & _).
    set (g := repeat blank ngap) in *.
    assert (ET : text_of (MStation code id name domes ty neg sh ngap) = station_line code id name domes ty neg sh g
       (repeat blank (60 - length (body (MStation code id name domes ty neg sh ngap))) ++ label (MStation code id name domes ty neg sh ngap))).
    { unfold text_of, hline, pad. cbn [body]. rewrite <- app_assoc, station_rest. reflexivity. }
    rewrite ET. unfold g. rewrite station_roundtrip.
    2:{ cbn [body]. destruct RO as (A1 & A2 & A3 & A4 & A5 & A6 & A7 & A8 & A9 & _ & _).
        refine (conj A1 (conj A2 (conj A3 (conj A4 (conj A5 (conj A6 (conj A7 (conj A8 (conj A9 (conj _ _)))))))))).
        - apply blanks_then_digit. reflexivity.
        - rewrite <- station_rest, !app_length, repeat_length. cbn [body] in LB. lia. }
    eexists. split; [reflexivity|]. split.
    + apply reflects_snoc; keep. cbn [h_stations with_stations]. rewrite RS. reflexivity.
    + unfold counted. rewrite last_snoc. cbn. auto.
  - (* number of reference beacons *)
    rewrite (K KRefs eq_refl). cbn [obind].
    assert (ET : text_of (MRefCount n) ++ nul :: stale = rjust 6 (dstr n) ++ (repeat blank 54 ++ label (MRefCount n)) ++ nul :: stale).
    { unfold text_of, hline, pad. cbn [body]. destruct O as (_ & L & _). rewrite rjust_length by (unfold dstr; rewrite map_length; exact L). rewrite <- !app_assoc. reflexivity. }
    rewrite ET, count_at; [|exact O| |reflexivity].
    2:{ rewrite in_app_iff. intros [I|I]; [exact (blanks_no_nul _ I)|exact (clean_nul _ CL I)]. }
    cbn [obind]. destruct O as (_ & _ & NZN). destruct (Z.eqb_spec (dval n) 0); [contradiction|].
    eexists. split; [reflexivity|]. finish.
  - (* reference beacon *)
    rewrite (K KRef eq_refl). cbn [obind]. destruct O as ((_ & CC) & L3 & B & S).
    pose proof (fnum_more _ 14 _ B ltac:(lia)) as B'. pose proof (fnum_more _ 14 _ S ltac:(lia)) as S'.
    assert (LRB : length (rjust 14 (fnum_text bias)) = 14) by (apply rjust_length; destruct B' as (_&_&_&?); assumption).
    assert (LRS : length (rjust 14 (fnum_text shift)) = 14) by (apply rjust_length; destruct S' as (_&_&_&?); assumption).
    set (tail := repeat blank 27 ++ label (MRef code bias shift)).
    assert (NT : ~ In nul tail) by (unfold tail; rewrite in_app_iff; intros [I|I]; [exact (blanks_no_nul _ I)|exact (clean_nul _ CL I)]).
    assert (ET : text_of (MRef code bias shift) ++ nul :: stale = (code ++ repeat blank 2) ++ rjust 14 (fnum_text bias) ++ rjust 14 (fnum_text shift) ++ tail ++ nul :: stale).
    { unfold text_of, hline, pad, tail. cbn [body]. rewrite !app_length, LRB, LRS, L3. rewrite <- !app_assoc. reflexivity. }
    rewrite ET.
    destruct (fnum_at (code ++ repeat blank 2) 14 bias stale (rjust 14 (fnum_text shift) ++ tail) 5) as (s1 & q1 & A1 & B1 & C1 & _).
    { rewrite app_length, L3. reflexivity. }
    { exact B'. }
    { rewrite in_app_iff. intros [I|I]; [exact (rjust_no_nul _ _ (fnum_no_nul _ _ S) I)|exact (NT I)]. }
    { apply rjust_ext. destruct S as (_&_&_&?). lia. }
    destruct (fnum_at ((code ++ repeat blank 2) ++ rjust 14 (fnum_text bias)) 14 shift stale tail 19) as (s2 & q2 & A2 & B2 & C2 & _).
    { rewrite !app_length, LRB, L3. reflexivity. }
    { exact S'. }
    { exact NT. }
    { cbn. repeat split; discriminate. }
    assert (EC : columns ((code ++ repeat blank 2) ++ rjust 14 (fnum_text bias) ++ rjust 14 (fnum_text shift) ++ tail ++ nul :: stale) 0 3 = code).
    { unfold columns. cbn [skipn]. rewrite <- app_assoc. apply firstn_app_exact, L3. }
    rewrite EC.
    repeat rewrite <- app_assoc in A1. repeat rewrite <- app_assoc in A2. repeat rewrite <- app_assoc. rewrite A1. cbn [obind]. rewrite B1. cbn [Nat.eqb].
    rewrite A2. cbn [obind]. rewrite B2. cbn [Nat.eqb].
    destruct AF as (id & name & domes & ty & neg & sh & ngap & I).
    destruct (find_code code (h_stations _ h) L3 (clean_nul _ CC)) as (st & FS).
    { rewrite RS. now apply stations_code. }
    { rewrite RS. exists (Station code id (nul_padded 30 name) (nul_padded 10 domes) ty (nval neg sh)). split; [|reflexivity].
      unfold stations_of. apply in_flat_map. exists (MStation code id name domes ty neg sh ngap). split; [exact I|now left]. }
    rewrite FS. cbn [obind]. eexists. split; [reflexivity|]. split.
    + apply reflects_snoc; keep. cbn [h_refs with_refs]. apply Forall2_app; [exact RR|]. constructor; [|constructor]. cbn. auto.
    + unfold counted. rewrite last_snoc. cbn. auto.
  - (* date of the reference beacons *)
    rewrite (K KRefDate eq_refl). cbn [obind]. rewrite SA. cbn [obind]. destruct O as (_ & RDT).
    destruct (read_date (text_of (MRefDate date0))) as [d|] eqn:D; [|contradiction].
    eexists. split; [reflexivity|]. split.
    + apply reflects_snoc; keep. intros []; cbn [h_date with_date date_member_beq gives_date]; [apply RD|rewrite D; reflexivity].
    + unfold counted. rewrite last_snoc. cbn. auto.
  - (* clock *)
    rewrite (K KClock eq_refl). cbn [obind].
    assert (EL : leading_int (text_of (MClock applied) ++ nul :: stale) = Ok (Some (if applied then 1 else 0)%Z)).
    { unfold leading_int. rewrite SA. cbn [obind]. destruct applied; reflexivity. }
    rewrite EL. cbn [obind]. destruct applied; (eexists; split; [reflexivity|]; finish).
  - (* anything else *)
    destruct O as (_ & (_ & CL2) & NK). cbn [label] in *. rewrite (K KIgnored).
    2:{ apply kind_other; [now apply clean_nul|]. change (map (fun p => str (fst p)) labels) with known.
        apply Forall_forall. intros t I. split; [exact (proj1 (Forall_forall _ _) NK t I)|].
        apply clean_nul. apply clean_check. revert t I. apply Forall_forall. repeat constructor. }
    cbn [obind]. eexists. split; [reflexivity|]. finish.
Qed.

Lemma file_text_long ls rest : length ls <= length (file_text ls rest).
Proof. induction ls as [|t ls IH]; [cbn; lia|]. rewrite file_text_cons, app_length. cbn [length]. lia. Qed.
Lemma run v : forall post pre h buf fuel rest, recs_ok (pre ++ post) -> reflects v pre h -> counted pre h -> length post < fuel ->
  exists h', records date read_date fuel h false buf (s_open (file_text (map text_of post ++ [end_line]) rest)) = Some (Ok (inr (h', true, s_open rest)))
    /\ reflects v (pre ++ post) h' /\ counted (pre ++ post) h'.
Proof.
  induction post as [|m post IH]; intros pre h buf fuel rest OK R C F.
  - destruct fuel as [|fuel]; [lia|]. cbn [map app records]. unfold file_text. cbn [flat_map].
    assert (LO : line_ok 81 end_line) by (split; [apply clean_nl, clean_check; reflexivity|cbn; lia]).
    replace ((((end_line ++ [nl]) ++ [])) ++ rest) with (end_line ++ nl :: rest) by (rewrite app_nil_r, <- app_assoc; reflexivity).
    unfold MAX_HEADER_CHARS. rewrite getline_mid by exact LO. cbn [s_ok s_open s_fail s_eof negb].
    destruct (into_text buf end_line) as (stale & ->).
    assert (E : record date read_date h false (end_line ++ nul :: stale) = Ok (Break _)) by reflexivity.
    rewrite E. exists h. rewrite app_nil_r. auto.
  - destruct fuel as [|fuel]; [lia|]. cbn [length] in F. destruct OK as [FO AO].
    assert (OM : rec_ok m) by (apply Forall_app in FO as [_ FO]; now inversion FO).
    assert (OP : Forall rec_ok pre) by (now apply Forall_app in FO as [FO _]).
    pose proof (rec_plain m OM) as [PB PL]. destruct (hline_ok _ _ PB PL) as [LO _].
    cbn [map app records]. rewrite file_text_cons. unfold MAX_HEADER_CHARS. rewrite getline_mid by exact LO. cbn [s_ok s_open s_fail s_eof negb].
    destruct (into_text buf (text_of m)) as (stale & EB). rewrite EB.
    destruct (step v pre m h stale OP OM (AO pre m post eq_refl) R C) as (h1 & E & R1 & C1). rewrite E.
    replace (pre ++ m :: post) with ((pre ++ [m]) ++ post) in * by (rewrite <- app_assoc; reflexivity).
    apply IH; [now split|exact R1|exact C1|lia].
Qed.

Lemma refs_length v ms h : reflects v ms h -> length (h_refs _ h) = length (refs_of ms).
Proof. intros (_ & _ & _ & _ & _ & _ & R & _). induction R; cbn; congruence. Qed.
Lemma header_round_trip v p ms rest junk : header_ok v p ms ->
  exists h, open_rinex date read_date junk false (Some (header_file v p ms rest)) = Some (Ok (inr (h, lines_per_beacon (Z.of_nat (length (h_codes _ h))), s_open rest)))
    /\ reflects v ms h.
Proof.
  intros (OV & OP & OR & CNT & LR & SC). unfold open_rinex, header_file, read_header.
  rewrite file_text_cons.
  pose proof OV as (_ & _ & _ & LV).
  set (vb := rjust 9 (fnum_text v) ++ repeat blank 11 ++ pad 20 (str "OBSERVATION DATA") ++ str "D").
  assert (LVB : length vb = 41) by (unfold vb; rewrite !app_length, rjust_length by exact LV; reflexivity).
  assert (CV : clean vb) by (unfold vb; split_clean; [apply clean_rjust; eapply clean_fnum; exact OV|apply clean_blanks|now apply clean_check|now apply clean_check]).
  assert (PV : plain 60 vb) by (split; [lia|exact CV]).
  assert (PL : plain 20 (str "RINEX VERSION / TYPE")) by (split; [cbn; lia|now apply clean_check]).
  assert (PL2 : plain 20 (str "PGM / RUN BY / DATE")) by (split; [cbn; lia|now apply clean_check]).
  destruct (hline_ok _ _ PV PL) as [LO1 NN1]. destruct (hline_ok _ _ OP PL2) as [LO2 NN2].
  unfold MAX_HEADER_CHARS. unfold version_line. fold vb. rewrite getline_mid by exact LO1.
  destruct (into_text junk (hline vb (str "RINEX VERSION / TYPE"))) as (st1 & EB1). rewrite EB1.
  replace (labelled (hline vb (str "RINEX VERSION / TYPE") ++ nul :: st1) "RINEX VERSION / TYPE") with (Ok true) by (rewrite labelled_hline by lia; reflexivity).
  set (tail := repeat blank 11 ++ pad 20 (str "OBSERVATION DATA") ++ str "D" ++ repeat blank 19 ++ str "RINEX VERSION / TYPE").
  assert (ET : hline vb (str "RINEX VERSION / TYPE") ++ nul :: st1 = (rjust 9 (fnum_text v) ++ tail) ++ nul :: st1).
  { unfold hline, pad at 1. rewrite LVB. unfold vb, tail. rewrite <- !app_assoc. reflexivity. }
  destruct (fnum_at [] 9 v st1 tail 0 eq_refl OV) as (s & q & A & B & Q & _).
  { apply clean_nul. now apply clean_check. }
  { cbn. repeat split; discriminate. }
  rewrite ET. cbn [app] in A. rewrite A. cbn [obind].
  assert (LRV : length (rjust 9 (fnum_text v)) = 9) by (apply rjust_length; exact LV).
  assert (C20 : load ((rjust 9 (fnum_text v) ++ tail) ++ nul :: st1) 20 = Ok "O"%char).
  { unfold load. rewrite <- app_assoc, nth_error_app2, LRV by lia. reflexivity. }
  assert (C40 : load ((rjust 9 (fnum_text v) ++ tail) ++ nul :: st1) 40 = Ok "D"%char).
  { unfold load. rewrite <- app_assoc, nth_error_app2, LRV by lia. reflexivity. }
  rewrite C20, C40. cbn [obind]. rewrite B. cbn [Nat.eqb orb negb Ascii.eqb Bool.eqb].
  rewrite file_text_cons. unfold program_line. rewrite getline_mid by exact LO2.
  match goal with |- context [into_buffer ?b (hline p _)] => destruct (into_text b (hline p (str "PGM / RUN BY / DATE"))) as (st2 & EB2) end. rewrite EB2.
  replace (labelled (hline p (str "PGM / RUN BY / DATE") ++ nul :: st2) "PGM / RUN BY / DATE") with (Ok true) by (rewrite labelled_hline by (destruct OP; lia); reflexivity).
  assert (R0 : reflects v [] (with_number date (head0 date) Version q)).
  { refine (conj _ (conj _ (conj _ (conj _ (conj _ (conj _ (conj _ _))))))); try reflexivity; [|constructor]. intros []; cbn; auto. }
  assert (C0 : counted [] (with_number date (head0 date) Version q)) by (refine (conj _ (conj _ _)); [reflexivity|reflexivity|constructor]).
  match goal with |- context [records date read_date ?n _ _ ?b _] => destruct (run v ms [] _ b n rest OR R0 C0) as (h & E & RH & CH) end.
  { pose proof (file_text_long (map text_of ms ++ [end_line]) rest) as FL. rewrite app_length, map_length in FL. cbn [length] in FL.
    rewrite !app_length. cbn [length]. rewrite app_length. cbn [length]. lia. }
  rewrite E. cbn [app] in RH, CH. destruct CH as (CN & CS & CD).
  assert (FC : final_checks date h true (s_open rest) = 0%Z).
  { unfold final_checks. change (s_good (s_open rest)) with true. cbn [negb orb].
    pose proof RH as (_ & _ & _ & RC & RF & RS & _ & _).
    assert (LF : length (h_factors _ h) = length (h_codes _ h)).
    { destruct (last_given gives_scale ms) as [[cs f]|]; [apply RF|].
      destruct (last_given gives_codes ms); [now destruct (SC ltac:(discriminate))|]. rewrite RF, RC. reflexivity. }
    rewrite LF, Nat.eqb_refl, CN, Z.eqb_refl. cbn [negb orb]. rewrite CS, CNT, RS, Z.eqb_refl. cbn [negb orb].
    rewrite (refs_length v ms h RH). destruct (Nat.leb_spec (length (stations_of ms)) (length (refs_of ms))); [lia|reflexivity]. }
  rewrite FC. cbn [Z.eqb]. exists h. auto.
Qed.
End Text.
