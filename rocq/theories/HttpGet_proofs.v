From Coq Require Import String List ZArith Ascii Bool Lia.
From Verif Require Import CLib_model HttpGet_model.
Import ListNotations.
Local Open Scope Z_scope.

Lemma get_skip p t c : p_node p = File c -> http_get false p t = (-1, File c, false).
Proof. intros E. unfold http_get. rewrite E. reflexivity. Qed.
Lemma get_codes force p t r n u : http_get force p t = (r, n, u) ->
  (r < 0 <-> force = false /\ exists c, p_node p = File c) /\ (r < 0 -> r = -1) /\ (r = 0 -> u = true /\ t_status t = 0 /\ n = File (t_kept t)).
Proof.
  unfold http_get. destruct (negb force && file_exists (p_node p)) eqn:S.
  - intros E. injection E as <- <- <-. apply andb_prop in S. destruct S as [F X]. split; [split; [intros _|lia]|split; lia]. split; [destruct force; [discriminate|reflexivity]|]. destruct (p_node p); try discriminate. eauto.
  - assert (NS : ~ (force = false /\ exists c, p_node p = File c)) by (intros (F & c & E); rewrite F, E in S; discriminate).
    destruct (open_write p); intros E; [destruct (t_status t =? 0) eqn:Z|]; injection E as <- <- <-.
    + apply Z.eqb_eq in Z. rewrite Z. change (if 0 <? 0 then 0 * -1 else 0) with 0. split; [split; [lia|intros H; destruct (NS H)]|]. split; [lia|]. intros _. split; [reflexivity|]. split; reflexivity.
    + apply Z.eqb_neq in Z. destruct (t_status t <? 0) eqn:N; [apply Z.ltb_lt in N|apply Z.ltb_ge in N]; (split; [split; [lia|intros H; destruct (NS H)]|]; split; lia).
    + split; [split; [cbn; lia|intros H; destruct (NS H)]|]. split; cbn; lia.
Qed.
Lemma get_failure force p t r n u : http_get force p t = (r, n, u) -> 0 < r -> p_node p = Missing -> p_remove p = true -> n = Missing.
Proof.
  unfold http_get. intros E R M RM. rewrite M, RM in E. cbn [file_exists] in E. rewrite Bool.andb_false_r in E. destruct (open_write p).
  - destruct (t_status t =? 0) eqn:Z; injection E as <- <- <-; [apply Z.eqb_eq in Z; rewrite Z in R; cbn in R; lia|reflexivity].
  - cbn in E. injection E as <- <- <-. reflexivity.
Qed.
Lemma get_unforced p t c : p_node p = File c -> snd (fst (http_get false p t)) = File c.
Proof. intros E. rewrite (get_skip p t c E). reflexivity. Qed.
(* a failed transfer always removes what was there *)
Lemma get_destroys p t c : p_node p = File c -> p_remove p = true -> t_status t <> 0 -> snd (fst (http_get true p t)) = Missing.
Proof.
  intros E RM NZ. unfold http_get. cbn [negb andb]. rewrite RM. unfold open_write. rewrite E. destruct (p_open p); cbn [fst snd].
  - destruct (Z.eqb_spec (t_status t) 0); [congruence|reflexivity].
  - reflexivity.
Qed.
