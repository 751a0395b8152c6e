(* Lemmas behind Yaml_props.v. *)
From Coq Require Import List Ascii String ZArith Lia.
Require Import Verif.Base Verif.CLib_model Verif.Stream_model Verif.Yaml_model.
Import ListNotations.

(* ---- specification: what a document holds under a path of keys ---- *)
Inductive under {node} (index : node -> chars -> option node) : node -> list chars -> node -> Prop :=
| under_here n : under index n [] n
| under_key n k ks m p : index n k = Some m -> under index m ks p -> under index n (k :: ks) p.
Definition holds {node T} (index : node -> chars -> option node) (as_ : node -> option T) (root : node)
  (path : list chars) (v : T) : Prop := exists m, under index root path m /\ as_ m = Some v.
Definition holds_none {node T} (index : node -> chars -> option node) (as_ : node -> option T) (root : node)
  (path : list chars) : Prop := forall v, ~ holds index as_ root path v.

Section Any.
Variable node : Type.
Variable index : node -> chars -> option node.

Lemma under2 root k1 k2 m : under index root [k1; k2] m <-> exists n, index root k1 = Some n /\ index n k2 = Some m.
Proof.
  split.
  - intros H. inversion H as [|? ? ? n ? A B]; subst. inversion B as [|? ? ? q ? C D]; subst. inversion D; subst.
    now exists n.
  - intros (n & A & B). econstructor; [exact A|]. econstructor; [exact B|]. constructor.
Qed.
Lemma holds_step {T} (as_ : node -> option T) root k ks n v : index root k = Some n ->
  holds index as_ root (k :: ks) v <-> holds index as_ n ks v.
Proof.
  intros E. split; intros (m & U & A); exists m; split; try exact A.
  - inversion U as [|? ? ? q ? B C]; subst. rewrite E in B. injection B as <-. exact C.
  - now econstructor; [exact E|].
Qed.

Lemma value2_ok T (as_ : node -> option T) root k1 k2 val :
  (forall v, holds index as_ root [k1; k2] v -> value_depth2 node index T as_ root k1 k2 val = (Returned 0, v))
  /\ (holds_none index as_ root [k1; k2] -> value_depth2 node index T as_ root k1 k2 val = (Returned 1, val)).
Proof.
  split.
  - intros v (m & U & A). apply under2 in U as (n & B & C). unfold value_depth2. now rewrite B, C, A.
  - intros N. unfold value_depth2. destruct (index root k1) as [n|] eqn:B; [|reflexivity].
    destruct (index n k2) as [m|] eqn:C; [|reflexivity]. destruct (as_ m) as [v|] eqn:A; [|reflexivity].
    exfalso. apply (N v). exists m. split; [|exact A]. apply under2. now exists n.
Qed.
Lemma value3_ok T (as_ : node -> option T) root k1 k2 k3 val n : index root k1 = Some n ->
  (forall v, holds index as_ root [k1; k2; k3] v -> value_depth3 node index T as_ root k1 k2 k3 val = (Returned 0, v))
  /\ (holds_none index as_ root [k1; k2; k3] -> value_depth3 node index T as_ root k1 k2 k3 val = (Returned 1, val)).
Proof.
  intros E. destruct (value2_ok T as_ n k2 k3 val) as [A B]. unfold value_depth3. rewrite E. split.
  - intros v H. apply A. now apply (holds_step as_ root k1 _ n).
  - intros N. apply B. intros v H. apply (N v). now apply (holds_step as_ root k1 _ n).
Qed.

(* the array holds the string: its characters before the first NUL, behind them everything as before *)
Definition c_string (old new text : chars) : Prop :=
  List.length new = List.length old /\ exists rest, new = text ++ nul :: rest /\ rest = skipn (S (List.length text)) old.
Lemma strcpy_ok buf text : List.length (cstr text) < List.length buf ->
  exists b, strcpy buf text = Ok b /\ c_string buf b (cstr text).
Proof.
  intros H. unfold strcpy. rewrite (proj2 (Nat.ltb_lt _ _) H). eexists. split; [reflexivity|].
  unfold into_buffer. split; [|eexists; split; reflexivity].
  rewrite app_length. cbn [List.length]. rewrite skipn_length. lia.
Qed.
Lemma cstr_id s : ~ In nul s -> cstr s = s.
Proof.
  induction s as [|c s IH]; intros N; [reflexivity|]. cbn. destruct (Ascii.eqb_spec c nul) as [->|_].
  - exfalso. apply N. now left.
  - rewrite IH; [reflexivity|]. intros I. apply N. now right.
Qed.

Section Text.
Variable as_string : node -> option chars.
Lemma text2_ok root k1 k2 buf :
  (forall s, holds index as_string root [k1; k2] s -> ~ In nul s -> List.length s < List.length buf ->
     exists b, text_depth2 node index as_string root k1 k2 buf = Ok (Returned 0, b) /\ c_string buf b s)
  /\ (holds_none index as_string root [k1; k2] ->
     text_depth2 node index as_string root k1 k2 buf = Ok (Returned 1, buf)).
Proof.
  split.
  - intros s (m & U & A) N L. apply under2 in U as (n & B & C). unfold text_depth2. rewrite B, C, A.
    rewrite <- (cstr_id s N) in L. destruct (strcpy_ok buf s L) as (b & E & S). exists b. rewrite E.
    split; [reflexivity|]. now rewrite (cstr_id s N) in S.
  - intros N. unfold text_depth2. destruct (index root k1) as [n|] eqn:B; [|reflexivity].
    destruct (index n k2) as [m|] eqn:C; [|reflexivity]. destruct (as_string m) as [v|] eqn:A; [|reflexivity].
    exfalso. apply (N v). exists m. split; [|exact A]. apply under2. now exists n.
Qed.
Lemma text3_ok root k1 k2 k3 buf n : index root k1 = Some n ->
  (forall s, holds index as_string root [k1; k2; k3] s -> ~ In nul s -> List.length s < List.length buf ->
     exists b, text_depth3 node index as_string root k1 k2 k3 buf = Ok (Returned 0, b) /\ c_string buf b s)
  /\ (holds_none index as_string root [k1; k2; k3] ->
     text_depth3 node index as_string root k1 k2 k3 buf = Ok (Returned 1, buf)).
Proof.
  intros E. destruct (text2_ok n k2 k3 buf) as [A B]. unfold text_depth3. rewrite E. split.
  - intros s H. apply A. now apply (holds_step as_string root k1 _ n).
  - intros N. apply B. intros v H. apply (N v). now apply (holds_step as_string root k1 _ n).
Qed.
Lemma text2_long root k1 k2 buf s : holds index as_string root [k1; k2] s -> ~ In nul s ->
  List.length buf <= List.length s -> text_depth2 node index as_string root k1 k2 buf = UB.
Proof.
  intros (m & U & A) N L. apply under2 in U as (n & B & C). unfold text_depth2, strcpy. rewrite B, C, A, (cstr_id s N).
  now rewrite (proj2 (Nat.ltb_ge _ _) L).
Qed.
End Text.
End Any.

(* documents of maps and scalars; a key that is not there yields a node that only throws, and so does
   indexing a scalar (yaml-cpp: InvalidNode, BadSubscript) *)
Inductive doc := Scalar (s : chars) | Map (l : list (chars * doc)) | Missing.
Definition chars_eqb (a b : chars) : bool := if list_eq_dec ascii_dec a b then true else false.
Definition doc_index (d : doc) (k : chars) : option doc :=
  match d with
  | Map l => match find (fun e => chars_eqb k (fst e)) l with Some (_, v) => Some v | None => Some Missing end
  | Scalar _ | Missing => None
  end.
Definition doc_text (d : doc) : option chars := match d with Scalar s => Some s | _ => None end.
Definition ch (s : string) : chars := list_ascii_of_string s.
Definition ex_doc : doc :=
  Map [(ch "data", Map [(ch "a-coeff", Scalar (ch "3")); (ch "b-coeff", Scalar (ch "4"))]);
       (ch "model", Map [(ch "foo", Missing); (ch "bar", Map [(ch "koko", Scalar (ch "1"))])])].
