(* Property theorems C34, C35.  [date] stands for the external date functions; an
   empty line has no date. *)
From Coq Require Import List ZArith QArith Ascii.
From Verif Require Import Base CLib_model Stream_model Quat_model Quat_proofs.
Import ListNotations.
Local Open Scope nat_scope.

(* C34: once five records of the file fill the buffer, every lookup that succeeds uses
   consecutive records around the epoch, and the buffer stays filled.  Missing: the
   lookups before that, and files with unreadable lines, refuted below. *)
Theorem attitude_lookup_partial : forall date, date [] = None -> forall buf tmp0 t file h, filled date file h ->
  exists res, get_at date buf tmp0 t h = Some (Ok res) /\
    match res with
    | GAssert => exists a, nth_error (hq h) 0 = Some a /\ (t < q_t a)%Q
    | GFail h' => filled date file h'
    | GOk f a b h' => filled date file h' /\ consecutive date file a b /\ (q_t a <= t)%Q /\ (t < q_t b)%Q /\
        (0 <= f)%Q /\ (f < 1)%Q /\ (f * (q_t b - q_t a) == t - q_t a)%Q
    end.
Proof. exact filled_lookup. Qed.
Print Assumptions attitude_lookup_partial.

(* C34: inside the span of the buffer and the rest of the file lookups succeed *)
Theorem attitude_lookup_succeeds : forall date, date [] = None -> forall buf tmp0 t file p ls h a l, tracks date file p ls 5 h ->
  nth_error (hq h) 0 = Some a -> (q_t a <= t)%Q -> In l ls -> later date t l ->
  exists f x y h', get_at date buf tmp0 t h = Some (Ok (GOk f x y h')).
Proof. exact filled_success. Qed.
Print Assumptions attitude_lookup_succeeds.

(* C34: any history of lookups on a constructed object ends with a filled buffer, or has read
   fewer than five records since construction *)
Theorem attitude_history_partial : forall date, date [] = None -> forall buf items last junk rs h0 h,
  Forall (qitem_ok date) items -> Forall (qitem_ok date) (olist last) -> length junk = 5 -> 2 <= length (qlines (items ++ olist last)) ->
  construct date buf (qfile items last) junk = Some (Ok (Some h0)) -> lookups date rs h0 = Some h ->
  filled date (qlines (items ++ olist last)) h \/
  exists p ls, qlines (items ++ olist last) = p ++ ls /\ to_come date (hs h) ls /\ length p < 7.
Proof. exact history_filled. Qed.
Print Assumptions attitude_history_partial.

(* C34: lookups end on every file *)
Theorem attitude_lookup_ends : forall date buf tmp0 t h, exists x, get_at date buf tmp0 t h = Some x.
Proof. exact get_at_ends. Qed.
Print Assumptions attitude_lookup_ends.

(* C34: the constructor fills two of five buffer entries; with the rest zero, an epoch between
   records 2 and 3 is interpolated from an entry that is no record of the file *)
Theorem attitude_uninitialised_refuted : exists h f b h', construct ex_date [] (ex_file nine) zero_junk = Some (Ok (Some h)) /\
  get_at ex_date [] zero_rec (5 # 2) h = Some (Ok (GOk f zero_rec b h')) /\ q_t b = 3%Q /\
  (forall l, In l (qlines (ex_items nine)) -> ~ is_rec ex_date l zero_rec).
Proof. exact junk_used. Qed.
Print Assumptions attitude_uninitialised_refuted.

(* C34: after a failed lookup the epoch of an unreadable line is used with the quaternion of the
   record before *)
Theorem attitude_mixed_record_refuted : exists h h1 f a b h2, construct ex_date [] broken_file zero_junk = Some (Ok (Some h)) /\
  get_at ex_date [] zero_rec (17 # 2) h = Some (Ok (GFail h1)) /\
  get_at ex_date [] zero_rec (15 # 2) h1 = Some (Ok (GOk f a b h2)) /\ q_t b = 8%Q /\ (q_w b == 7)%Q.
Proof. exact mixed_used. Qed.
Print Assumptions attitude_mixed_record_refuted.

(* C35: readable files with at least one record.  Missing: no readable first record, refuted below. *)
Theorem quaternion_count_partial : forall date, date [] = None -> forall rs buf s ls, to_come date s ls ->
  (length rs <= length ls -> exists rs' s', get_next_n date 0 buf s rs = Some (Ok (0%Z, rs', s')) /\
     Forall2 (is_rec date) (firstn (length rs) ls) rs' /\ to_come date s' (skipn (length rs) ls)) /\
  (length ls < length rs -> 0 < length ls -> exists c rs' s', get_next_n date 0 buf s rs = Some (Ok (c, rs', s')) /\ c <> 0%Z).
Proof. intros date D rs buf s ls T. split; [exact (get_n_enough date D rs 0 buf s ls T)|exact (get_n_short date D rs 0 buf s ls T)]. Qed.
Print Assumptions quaternion_count_partial.

(* C35: any file: 0 means that all records were read one by one, or that the very first could
   not be read *)
Theorem quaternion_zero_partial : forall date rs buf s rs' s', get_next_n date 0 buf s rs = Some (Ok (0%Z, rs', s')) ->
  reads date s rs s' rs' \/
  exists r rest c r' s1, rs = r :: rest /\ get_next date buf s r = Some (Ok (c, r', s1)) /\ c <> 0%Z.
Proof. intros date rs buf s rs' s' E. destruct (get_n_zero date rs 0 buf s rs' s' E) as [R|[_ R]]; [left|right]; exact R. Qed.
Print Assumptions quaternion_zero_partial.

(* C35: a file without records: 0 is returned, nothing is read and the object is constructed *)
Theorem quaternion_none_read_refuted :
  get_next_n ex_date 0 [] (s_open (ex_file [])) [zero_rec; zero_rec] = Some (Ok (0%Z, [zero_rec; zero_rec], Stream [] true true)) /\
  exists h, construct ex_date [] (ex_file []) zero_junk = Some (Ok (Some h)).
Proof. exact nothing_read. Qed.
Print Assumptions quaternion_none_read_refuted.

Example attitude_case : Forall (qitem_ok ex_date) (ex_items nine) /\
  exists h f a b h', construct ex_date [] (ex_file nine) zero_junk = Some (Ok (Some h)) /\
  get_at ex_date [] zero_rec (15 # 2) h = Some (Ok (GOk f a b h')) /\ filled ex_date (qlines (ex_items nine)) h' /\ (f == 1 # 2)%Q.
Proof. split; [exact nine_ok|exact filled_reached]. Qed.
