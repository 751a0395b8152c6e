From Coq Require Import List Ascii Bool Arith Lia.
From Verif Require Import CLib_model Stream_model Lines_model.
Import ListNotations.

(* ---- text files: newline-terminated lines and an unterminated rest ---- *)
Definition file_text (ls : list chars) (last : chars) : chars :=
  flat_map (fun t => t ++ [nl]) ls ++ last.
(* the lines a reader sees: an empty unterminated rest is no line *)
Definition seen (ls : list chars) (last : chars) : list chars :=
  ls ++ match last with [] => [] | _ => [last] end.
Definition line_ok (n : nat) (t : chars) : Prop := ~ In nl t /\ length t < n.

Fixpoint run_lines {S R : Type} (step : S -> chars -> S + R) (st : S) (ls : list chars) : S + R :=
  match ls with
  | [] => inl st
  | t :: rest => match step st t with inl st' => run_lines step st' rest | inr r => inr r end
  end.

Lemma take_line_some : forall t room rest, ~ In nl t -> length t <= room ->
  take_line room (t ++ nl :: rest) = (t, rest, AtNl) /\ take_line room t = (t, [], AtEof).
Proof.
  induction t as [|c t IH]; intros room rest N L; cbn [app].
  - destruct room; split; reflexivity.
  - destruct room as [|room]; [simpl in L; lia|]. cbn [take_line].
    destruct (Ascii.eqb_spec c nl) as [->|_]; [exfalso; apply N; left; reflexivity|].
    destruct (IH room rest) as [A B]; [intros I; apply N; right; exact I|simpl in L; lia|].
    rewrite A, B. split; reflexivity.
Qed.

Lemma take_line_split : forall l room a b e, take_line room l = (a, b, e) ->
  match e with
  | AtEof => l = a /\ b = [] /\ ~ In nl a
  | AtNl => l = a ++ nl :: b /\ ~ In nl a
  | Full => l = a ++ b /\ length a = room /\ ~ In nl a
  end.
Proof.
  induction l as [|c l IH]; intros room a b e E.
  - assert (X : take_line room [] = ([], [], AtEof)) by (destruct room; reflexivity). rewrite X in E. injection E as <- <- <-. split; [reflexivity|]. split; [reflexivity|intros []].
  - assert (X : take_line room (c :: l) = if Ascii.eqb c nl then ([], l, AtNl) else
      match room with O => ([], c :: l, Full) | S r => let '(a, b, e) := take_line r l in (c :: a, b, e) end)
      by (destruct room; reflexivity). rewrite X in E. clear X.
    destruct (Ascii.eqb_spec c nl) as [->|NE].
    + injection E as <- <- <-. split; [reflexivity|intros []].
    + destruct room as [|room].
      * injection E as <- <- <-. split; [reflexivity|]. split; [reflexivity|intros []].
      * destruct (take_line room l) as [[a' b'] e'] eqn:E'. injection E as <- <- <-. apply IH in E'.
        destruct e'.
        -- destruct E' as (-> & -> & N). split; [reflexivity|]. split; [reflexivity|]. intros [I|I]; [congruence|contradiction].
        -- destruct E' as (-> & N). split; [reflexivity|]. intros [I|I]; [congruence|contradiction].
        -- destruct E' as (-> & <- & N). split; [reflexivity|]. split; [reflexivity|]. intros [I|I]; [congruence|contradiction].
Qed.

Lemma getline_mid n t rest : line_ok n t -> getline n (s_open (t ++ nl :: rest)) = (t, s_open rest).
Proof.
  intros [N L]. unfold getline, s_open, s_good. cbn [s_eof s_fail negb andb s_rest].
  rewrite (proj1 (take_line_some t (n - 1) rest N ltac:(lia))). reflexivity.
Qed.
Lemma getline_end n t : line_ok n t -> getline n (s_open t) = (t, Stream [] true (match t with [] => true | _ => false end)).
Proof.
  intros [N L]. unfold getline, s_open, s_good. cbn [s_eof s_fail negb andb s_rest].
  rewrite (proj2 (take_line_some t (n - 1) [] N ltac:(lia))). destruct t; reflexivity.
Qed.

Lemma loop_text {S R} n (step : S -> chars -> S + R) : forall ls last st fuel,
  Forall (line_ok n) ls -> line_ok n last -> length ls + 2 <= fuel ->
  loop_lines fuel n step st (s_open (file_text ls last)) = Some (run_lines step st (seen ls last)).
Proof.
  induction ls as [|t ls IH]; intros last st fuel F HL HF.
  - destruct fuel as [|[|fuel]]; [simpl in HF; lia|simpl in HF; lia|]. unfold file_text, seen. cbn [flat_map app loop_lines].
    rewrite getline_end by exact HL. cbn [s_ok s_fail]. destruct last as [|c last]; cbn [negb]; [reflexivity|].
    cbn [run_lines]. destruct (step st (c :: last)) as [st'|r]; [|reflexivity].
    unfold getline, s_good. cbn. reflexivity.
  - destruct fuel as [|fuel]; [simpl in HF; lia|]. inversion F as [|x y Ht F']; subst.
    unfold file_text, seen. cbn [flat_map app loop_lines run_lines]. rewrite <- !app_assoc. cbn [app].
    rewrite getline_mid by exact Ht. change (s_ok (s_open (flat_map (fun t0 => t0 ++ [nl]) ls ++ last))) with true. cbv iota.
    destruct (step st t) as [st'|r]; [|reflexivity]. apply IH; [exact F'|exact HL|simpl in HF; lia].
Qed.

(* the budget suffices on every stream, so the loop always yields a result *)
Lemma loop_total {S R} n (step : S -> chars -> S + R) : 1 < n -> forall fuel st s,
  length (s_rest s) + 2 <= fuel -> exists r, loop_lines fuel n step st s = Some r.
Proof.
  intros Hn. assert (A : forall fuel st s, length (s_rest s) + (if s_eof s then 1 else 2) <= fuel ->
    exists r, loop_lines fuel n step st s = Some r).
  { induction fuel as [|fuel IH]; intros st s HF; [destruct (s_eof s); lia|]. cbn [loop_lines].
    unfold getline. destruct (s_good s) eqn:G.
    - destruct (take_line (n - 1) (s_rest s)) as [[a b] e] eqn:T. apply take_line_split in T.
      unfold s_good in G. apply andb_prop in G. destruct G as [G1 G2].
      destruct (s_eof s); [discriminate|]. cbn [s_ok s_fail].
      destruct e.
      + destruct T as (T & -> & _). destruct a as [|c a]; cbn [s_ok s_fail negb]; [eauto|].
        destruct (step st (c :: a)); [|eauto]. apply IH. cbn [s_rest s_eof length]. rewrite T in HF. cbn [length] in HF. lia.
      + destruct T as (T & _). cbn [s_ok s_fail negb]. destruct (step st a); [|eauto]. apply IH. cbn [s_rest s_eof].
        rewrite T in HF. rewrite app_length in HF. cbn [length] in HF. lia.
      + cbn [s_ok s_fail negb]. eauto.
    - cbn [s_ok s_fail negb]. eauto. }
  intros fuel st s H. apply A. destruct (s_eof s); lia.
Qed.

(* every file is a text of that form *)
Lemma every_file f : exists ls last, f = file_text ls last /\ Forall (fun t => ~ In nl t) ls /\ ~ In nl last.
Proof.
  induction f as [|c f (ls & last & -> & F & L)].
  - exists [], []. split; [reflexivity|]. split; [constructor|intros []].
  - destruct (Ascii.eqb_spec c nl) as [->|NE].
    + exists ([] :: ls), last. split; [reflexivity|]. split; [constructor; [intros []|exact F]|exact L].
    + destruct ls as [|t ls].
      * exists [], (c :: last). split; [reflexivity|]. split; [constructor|]. intros [I|I]; [congruence|contradiction].
      * exists ((c :: t) :: ls), last. inversion F; subst. split; [reflexivity|].
        split; [constructor; [intros [I|I]; [congruence|contradiction]|assumption]|exact L].
Qed.

Lemma run_lines_app {S R} (step : S -> chars -> S + R) a b : forall st,
  run_lines step st (a ++ b) = match run_lines step st a with inl st' => run_lines step st' b | inr r => inr r end.
Proof.
  induction a as [|t a IH]; intros st; [reflexivity|]. cbn [app run_lines]. destruct (step st t); [apply IH|reflexivity].
Qed.
