(* Model of src/satellites/jason3_quaternions.hpp and
   src/satellites/jason3_quaternions.cpp.  Doubles are exact rationals.  The
   date functions of the external datetime library (utc_strptime_ymd_hms,
   utc2tai) are the oracle [date]: TAI MJD of a line, None when one of them
   throws.  Slerp and normalisation are Eigen's: a lookup delivers the
   fraction and the two quaternions given to slerp. *)
From Coq Require Import List ZArith QArith Ascii Bool.
From Verif Require Import Base CLib_model Stream_model.
Import ListNotations.

Notation "'let*' p <- e ; f" := (obind e (fun p => f)) (at level 200, p pattern, e at level 100, f at level 200).

(* jason3_quaternions.hpp:11-16 *)
Record qrec := QRec { q_t : Q; q_w : Q; q_x : Q; q_y : Q; q_z : Q }.
Definition tab : ascii := ascii_of_nat 9.

Section Oracle.
Variable date : chars -> option Q.

(* jason3_quaternions.cpp:40-44, 52-56: from_chars(c, line + 255, ..), then the tab;
   [p] is the position of c in the 256-byte array.  Value (None: error), next position. *)
Definition q_field (buf : chars) (p : nat) : outcome (option Q * nat) :=
  if Nat.ltb 255 p then UB
  else
    match from_chars_double (firstn (255 - p) (skipn p buf)) with
    | Some (q, n) =>
        let* c <- load buf (p + n);
        Ok (if Ascii.eqb c tab then Some q else None, p + n + 1)%nat
    | None => let* c <- load buf p; Ok (None, p + 1)%nat
    end.

(* jason3_quaternions.cpp:12-79: code and record.  A readable date is stored even
   when the quaternion is not readable. *)
Definition resolve_line (buf : chars) (r : qrec) : outcome (Z * qrec) :=
  match date (cstr buf) with
  | None => Ok (1%Z, r)
  | Some t =>
      let r := QRec t (q_w r) (q_x r) (q_y r) (q_z r) in
      let* (w, p1) <- q_field buf (23 + 1 + (10 + 1));
      let* (x, p2) <- q_field buf (p1 + (4 + 1) + (10 + 1));
      let* (y, p3) <- q_field buf (p2 + (4 + 1) + (10 + 1));
      let* (z, p4) <- q_field buf (p3 + (4 + 1) + (10 + 1));
      match w, x, y, z with
      | Some w, Some x, Some y, Some z => Ok (0%Z, QRec t w x y z)
      | _, _, _, _ => Ok (1%Z, r)
      end
  end.

Definition is_comment (buf : chars) : bool := match buf with c :: _ => Ascii.eqb c "#" | [] => false end.

(* jason3_quaternions.cpp:98-100, 115-117: while (line[0] == '#' && fin.good()) getline;
   None when the step budget is spent *)
Fixpoint skip_comments (fuel : nat) (buf : chars) (s : stream) : option (chars * stream) :=
  if is_comment buf && s_good s then
    match fuel with
    | O => None
    | S f => let (t, s') := getline 256 s in skip_comments f (into_buffer buf t) s'
    end
  else Some (buf, s).

(* jason3_quaternions.cpp:90-103; [buf] is the indeterminate content of the local array.
   Code, record, stream. *)
Definition get_next (buf : chars) (s : stream) (r : qrec) : option (outcome (Z * qrec * stream)) :=
  let (t, s1) := getline 256 s in
  if s_ok s1 then
    match skip_comments (length (s_rest s1) + 2) (into_buffer buf t) s1 with
    | None => None
    | Some (buf2, s2) => Some (let* (c, r') <- resolve_line buf2 r; Ok (c, r', s2))
    end
  else Some (Ok (2%Z, r, s1)).

(* jason3_quaternions.cpp:105-123: i counts from 0; the array lives through the loop *)
Fixpoint get_next_n (i : nat) (buf : chars) (s : stream) (rs : list qrec) : option (outcome (Z * list qrec * stream)) :=
  match rs with
  | [] => Some (Ok (0%Z, [], s))
  | r :: rest =>
      let (t, s1) := getline 256 s in
      if s_ok s1 then
        match skip_comments (length (s_rest s1) + 2) (into_buffer buf t) s1 with
        | None => None
        | Some (buf2, s2) =>
            match resolve_line buf2 r with
            | UB => Some UB
            | Ok (c, r') =>
                if Z.eqb c 0 then
                  match get_next_n (S i) buf2 s2 rest with
                  | Some (Ok (c2, l, s3)) => Some (Ok (c2, r' :: l, s3))
                  | x => x
                  end
                else Some (Ok (Z.of_nat i * 10, r' :: rest, s2))%Z
            end
        end
      else Some (Ok (2%Z, rs, s1))
  end.

(* jason3_quaternions.hpp:53-56 *)
Record hunter := Hunter { hq : list qrec; hs : stream }.
(* jason3_quaternions.cpp:81-88: [junk] is the indeterminate content of bodyq; the
   result is the constructed object or None when the constructor throws *)
Definition construct (buf : chars) (f : chars) (junk : list qrec) : option (outcome (option hunter)) :=
  match get_next_n 0 buf (s_open f) (firstn 2 junk) with
  | Some (Ok (c, rs, s)) => Some (Ok (if Z.eqb c 0 then Some (Hunter (rs ++ skipn 2 junk) s) else None))
  | Some UB => Some UB
  | None => None
  end.

Definition in_cell (t a b : Q) : bool := Qle_bool a t && negb (Qle_bool b t).

(* jason3_quaternions.hpp:79-95: from i = 3 down to 0 *)
Fixpoint find_down (q : list qrec) (t : Q) (i : nat) : option nat :=
  match nth_error q i, nth_error q (S i) with
  | Some a, Some b =>
      if in_cell t (q_t a) (q_t b) then Some i
      else match i with O => None | S i' => find_down q t i' end
  | _, _ => None
  end.
Definition find_interval (q : list qrec) (t : Q) : Z :=
  match find_down q t 3 with
  | Some i => Z.of_nat i
  | None =>
      match nth_error q 0, nth_error q 4 with
      | Some a, Some b => if negb (Qle_bool (q_t a) t) then -1 else if Qle_bool (q_t b) t then 6 else -100
      | _, _ => -100
      end%Z
  end.

(* jason3_quaternions.hpp:69-77 and the following store into the last element *)
Definition shift_in (q : list qrec) (r : qrec) : list qrec := skipn 1 q ++ [r].

(* results of set_at: failed assert, or return code with the index *)
Inductive sres := SAssert | SRet (code : Z) (index : Z) (h : hunter).

(* jason3_quaternions.cpp:168-177: do { .. } while; [tmp] keeps its value when
   nothing could be read *)
Fixpoint hunt (fuel : nat) (buf : chars) (t : Q) (h : hunter) (tmp : qrec) : option (outcome (Z * hunter)) :=
  match fuel with
  | O => None
  | S f =>
      match get_next buf (hs h) tmp with
      | None => None
      | Some UB => Some UB
      | Some (Ok (err, tmp', s')) =>
          let q := shift_in (hq h) tmp' in
          match nth_error q 3, nth_error q 4 with
          | Some a, Some b =>
              if Z.eqb err 0 && negb (in_cell t (q_t a) (q_t b)) then hunt f buf t (Hunter q s') tmp'
              else Some (Ok (err, Hunter q s'))
          | _, _ => Some UB
          end
      end
  end.

(* jason3_quaternions.cpp:125-193; [tmp0] is the indeterminate value of the local
   record.  The index keeps its value in the failing branches. *)
Definition set_at (buf : chars) (tmp0 : qrec) (t : Q) (h : hunter) : option (outcome sres) :=
  let index := find_interval (hq h) t in
  if Z.ltb index 0 then Some (Ok SAssert)
  else if Z.ltb index 5 then Some (Ok (SRet 0 index h))
  else
    match get_next buf (hs h) tmp0 with
    | None => None
    | Some UB => Some UB
    | Some (Ok (c, tmp, s)) =>
        let h1 := Hunter (hq h) s in
        if negb (Z.eqb c 0) then Some (Ok (SRet 1 index h1))
        else
          match nth_error (hq h) 4, nth_error (hq h) 0 with
          | Some b4, Some b0 =>
              if in_cell t (q_t b4) (q_t tmp) then Some (Ok (SRet 0 3 (Hunter (shift_in (hq h) tmp) s)))
              else if negb (Qle_bool (q_t b0) t) then Some (Ok (SRet 1 index h1))
              else
                match hunt (length (s_rest s) + 3) buf t (Hunter (shift_in (hq h) tmp) s) tmp with
                | None => None
                | Some UB => Some UB
                | Some (Ok (err, h2)) => Some (Ok (if Z.eqb err 0 then SRet 0 3 h2 else SRet err index h2))
                end
          | _, _ => Some UB
          end
    end.

(* results of get_at: the fraction and the two records given to slerp *)
Inductive gres := GAssert | GFail (h : hunter) | GOk (frac : Q) (r0 r1 : qrec) (h : hunter).
(* jason3_quaternions.cpp:195-225 *)
Definition get_at (buf : chars) (tmp0 : qrec) (t : Q) (h : hunter) : option (outcome gres) :=
  match set_at buf tmp0 t h with
  | None => None
  | Some UB => Some UB
  | Some (Ok SAssert) => Some (Ok GAssert)
  | Some (Ok (SRet code index h')) =>
      if negb (Z.eqb code 0) then Some (Ok (GFail h'))
      else
        match nth_error (hq h') (Z.to_nat index), nth_error (hq h') (Z.to_nat index + 1) with
        | Some a, Some b => Some (Ok (GOk ((t - q_t a) / (q_t b - q_t a)) a b h'))
        | _, _ => Some UB
        end
  end.
End Oracle.
