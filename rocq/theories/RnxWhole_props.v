(* C101: a whole DORIS RINEX file, from its header to a single value. *)
From Coq Require Import String List ZArith QArith Ascii Bool Lia.
From Verif Require Import Base CLib_model CLib_proofs Stream_model SysInfo_model SysInfo_proofs Rinex_model Rinex_proofs
  RnxHead_model RnxHead_proofs RnxFile_model RnxFile_proofs RnxFileText_proofs RnxFile_props RnxWhole_model RnxWhole_proofs.
Import ListNotations.
Local Open Scope nat_scope.

(* C101: reading any file to its end takes finitely many blocks *)
Theorem rinex_file_ends : forall strptime junk errno line0 hdr0 file,
  exists r, read_file strptime junk errno line0 hdr0 file = Some r.
Proof. exact whole_ends. Qed.
Print Assumptions rinex_file_ends.

(* C101: whatever the file holds, a block that is delivered has the number of beacons its epoch line announces,
   each with an identifier (D first) and one value per observable of the header, so that every observable
   of the header can be looked up; the loop ends at the end of the file or with a positive code *)
Theorem rinex_file_shape : forall strptime junk errno line0 hdr0 file h l e,
  length line0 = 124 -> length junk = 81 ->
  read_file strptime junk errno line0 hdr0 file = Some (Ok (inr (h, l, e))) ->
  sound Z h /\ (e = (-1)%Z \/ (0 < e)%Z) /\
  Forall (fun it => Z.of_nat (length (it_block it)) = Z.max 0 (h_num (it_hdr it)) /\
    forall o, In o (it_block it) -> length (b_vals o) = length (h_codes _ h) /\
      (h_codes _ h <> [] -> exists a b, b_id o = Some ["D"%char; a; b]) /\
      forall c, In c (h_codes _ h) -> exists v, value_at (h_codes _ h) o c = Ok v) l.
Proof. exact whole_shape. Qed.
Print Assumptions rinex_file_shape.

(* C101: a file that cannot be opened, or whose header is refused, gives no block and a code that is not 0 *)
Theorem rinex_file_refused : forall strptime junk errno line0 hdr0 file,
  (file = None -> exists c, read_file strptime junk errno line0 hdr0 file = Some (Ok (inl c))) /\
  forall c, read_file strptime junk errno line0 hdr0 file = Some (Ok (inl c)) -> c <> 0%Z.
Proof.
  intros strptime junk errno line0 hdr0 file. split; [intros ->; eexists; reflexivity|]. intros c. unfold read_file.
  destruct (open_rinex Z strptime junk errno file) as [[[d|[[h lpb] s]]|]|] eqn:O; try discriminate.
  - intros E. injection E as <-. exact (proj2 (header_failure Z strptime junk errno file _ O) d eq_refl).
  - destruct (all_blocks _ _ _ _) as [[[l e]|]|]; discriminate.
Qed.
Print Assumptions rinex_file_refused.

(* C101: a file printed as the format says: the header and every block are delivered, in order, up to the end
   of the file; a beacon and an observable looked up give the number printed there divided by the factor the
   header gives to that observable, beacons not in the block are reported absent, and the identifier leads
   to the first station record with it.  Missing: the restrictions on headers of C95, a header without
   observation types, files that are not printed so. *)
Theorem rinex_file_round_trip_partial : forall strptime v p ms blocks junk line0 hdr0,
  header_ok Z strptime v p ms -> codes_given ms <> [] ->
  Forall (mblock_ok (length (codes_given ms))) blocks -> Forall (fun b => exists t, date_of strptime b t) blocks ->
  exists h its, read_file strptime junk false line0 hdr0 (Some (header_file v p ms (flat_map mblock_text blocks)))
      = Some (Ok (inr (h, its, (-1)%Z)))
    /\ reflects Z strptime v ms h /\ Forall2 (tells strptime ms h) blocks its.
Proof. exact whole_round_trip. Qed.
Print Assumptions rinex_file_round_trip_partial.

(* ---------- cases ---------- *)
Definition some_value (ip fp : list Z) : mfield := MF (Rinex_proofs.FNum false ip fp) "1"%char " "%char.
Definition case_beacons : list mbeacon :=
  [MB (str "D02") [some_value [1; 2]%Z [5]%Z; some_value [7; 0; 0]%Z []; MF FBlank " "%char " "%char];
   MB (str "D01") [some_value [3]%Z []; some_value [4]%Z [2; 5]%Z; some_value [9]%Z [0]%Z]].
Definition case_blocks : list mblock :=
  [MBlk (ex_epoch [2%Z] (Some (true, [0%Z], [1; 2]%Z))) case_beacons; MBlk (ex_epoch [0; 0]%Z None) []].
Lemma case_beacons_ok : Forall (beacon_ok 3) case_beacons.
Proof.
  assert (V : forall ip fp, ip ++ fp <> [] -> digits_ok ip -> digits_ok fp -> length (fixed false ip fp) <= 14 -> mf_ok (some_value ip fp)).
  { intros ip fp A B C D. refine (conj (conj A (conj B (conj C D))) (conj _ _)); discriminate. }
  assert (I : forall a b, a <> nl -> b <> nl -> id_ok ["D"%char; a; b]).
  { intros a b Ha Hb. split; [reflexivity|]. split; [eexists; reflexivity|].
    intros [X|[X|[X|[]]]]; [discriminate|congruence|congruence]. }
  constructor; [|constructor; [|constructor]].
  - split; [apply I; discriminate|]. split; [reflexivity|]. cbn [mb_fields].
    constructor; [apply V; [discriminate|digitly|digitly|cbn; lia]|].
    constructor; [apply V; [discriminate|digitly|digitly|cbn; lia]|].
    constructor; [refine (conj Logic.I (conj _ _)); discriminate|constructor].
  - split; [apply I; discriminate|]. split; [reflexivity|]. cbn [mb_fields].
    constructor; [apply V; [discriminate|digitly|digitly|cbn; lia]|].
    constructor; [apply V; [discriminate|digitly|digitly|cbn; lia]|].
    constructor; [apply V; [discriminate|digitly|digitly|cbn; lia]|constructor].
Qed.
Example rinex_file_case :
  header_ok Z day three_oh (str "prog") full /\ codes_given full <> [] /\
  Forall (mblock_ok (length (codes_given full))) case_blocks /\ Forall (fun b => exists t, date_of day b t) case_blocks.
Proof.
  refine (conj full_ok (conj _ (conj _ _))).
  - discriminate.
  - change (length (codes_given full)) with 3. constructor; [|constructor; [|constructor]].
    + split; [apply ex_epoch_ok; [split; [discriminate|digitly]|cbn; lia|]|].
      * repeat split; try discriminate; try digitly. cbn. lia.
      * split; [apply no_nl_check; reflexivity|]. split; [vm_compute; lia|]. split; [reflexivity|exact case_beacons_ok].
    + split; [apply ex_epoch_ok; [split; [discriminate|digitly]|cbn; lia|exact Logic.I]|].
      split; [apply no_nl_check; reflexivity|]. split; [vm_compute; lia|]. split; [reflexivity|constructor].
  - repeat constructor; exists 7%Z; reflexivity.
Qed.
(* the same file read: L2, whose factor is 100, of the beacon D02 and then of D01 *)
Definition first_block (k : chars) : option Q :=
  match read_file day array false (repeat "?"%char 124) (RHdr 0 0 0 0 0) (Some (header_file three_oh (str "prog") full (flat_map mblock_text case_blocks))) with
  | Some (Ok (inr (h, it :: _, _))) =>
      match contains_beacon (it_block it) k with
      | Ok (Some o) => match value_at (h_codes _ h) o L2 with Ok v => Some (Qred (rv v)) | UB => None end
      | _ => None
      end
  | _ => None
  end.
Example rinex_file_value : first_block (str "D02") = Some (7 # 1)%Q /\ first_block (str "D01") = Some (17 # 400)%Q /\ first_block (str "D03") = None.
Proof. vm_compute. auto. Qed.
