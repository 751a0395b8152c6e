(* The integrator over whole runs: safety, termination, the outcomes of de. *)
From Coq Require Import List ZArith Reals Arith Bool Lra Lia.
From Verif Require Import Base Gravity_model Gravity_proofs Spline_model Sgode_model Adams Sgode_proofs Sgode_adams.
Import ListNotations.
Local Open Scope R_scope.

(* ---- safety ---- *)
Record fit (s : ode) : Prop := Fit { f_sized : sized (s_co s); f_k : (1 <= s_k s <= 12)%nat; f_kold : (s_kold s <= 12)%nat; f_nornd : s_nornd s = true }.
Lemma attempt_safe f n eps ifail s : fit s -> exists r, attempt f n eps ifail s = Ok r /\
  match r with
  | Accepted a knew _ _ => fit a /\ (1 <= knew)%nat /\ s_start a = s_start s
  | Again a i => fit a /\ s_start a = s_start s /\ s_x a = s_x s /\ s_yy a = s_yy s /\ s_wt a = s_wt s /\ i = (ifail + 1)%Z /\ fouru * Rabs (s_x s) <= Rabs (s_h a)
  | Crashed a e => fit a /\ s_start a = s_start s /\ s_x a = s_x s /\ s_yy a = s_yy s /\ e = eps + eps
  end.
Proof.
  intros [Z K Ko Nr]. destruct (attempt_cases f n eps ifail s Z K Nr) as (c & ph & p & yp & P & erk & knew & e1 & KN & [(L & A)|(L & t2 & k' & c' & ph' & Rs & K' & _ & _ & _ & [(Lh & A)|(Lh & A)])]); rewrite A; eexists; (split; [reflexivity|]); cbn beta iota.
  - split; [|split; [lia|reflexivity]]. constructor; try assumption; try reflexivity. exact (q_sized _ _ _ _ _ _ P).
  - destruct (restore_run (s_k s) (s_h s) c ph (q_sized _ _ _ _ _ _ P) K) as (c1 & ph1 & Rs' & Z1 & _). rewrite Rs in Rs'. injection Rs' as <- <-.
    split; [constructor; try assumption; cbn [s_k s_nornd]; try lia; reflexivity|]. repeat split; exact Lh.
  - destruct (restore_run (s_k s) (s_h s) c ph (q_sized _ _ _ _ _ _ P) K) as (c1 & ph1 & Rs' & Z1 & _). rewrite Rs in Rs'. injection Rs' as <- <-.
    split; [constructor; try assumption; cbn [s_k s_nornd]; try lia; reflexivity|]. repeat split.
Qed.
Lemma settle_safe f n eps s knew e1 erk : fit s -> (1 <= knew)%nat -> exists s', settle f n eps s knew e1 erk = Ok s' /\ fit s' /\ s_start s' = s_start s.
Proof.
  intros [Z K Ko Nr] KN. destruct (settle_run f n eps s knew e1 erk Z K KN) as (s' & E & _ & _ & Hk & _ & Hko & _ & Hs & Hr & _ & Hc & _). exists s'. split; [exact E|]. split; [|exact Hs].
  constructor; [rewrite Hc; exact Z|exact Hk|lia|exact Hr].
Qed.
Lemma passes_safe fuel f n eps : forall ifail s, fit s -> exists o, passes fuel f n eps ifail s = Ok o /\ forall c e s', o = Some (c, e, s') -> fit s' /\ s_start s' = s_start s /\ (c = true -> e = eps + eps /\ s_x s' = s_x s) /\ (c = false -> e = eps).
Proof.
  induction fuel as [|fu IH]; intros ifail s H; cbn [passes].
  - eexists. split; [reflexivity|]. discriminate.
  - destruct (attempt_safe f n eps ifail s H) as (r & -> & C). cbn [obind]. destruct r as [a knew e1 erk|a i|a e].
    + destruct C as (Fa & KN & Sa). destruct (settle_safe f n eps a knew e1 erk Fa KN) as (s' & -> & F' & S'). cbn [obind]. eexists. split; [reflexivity|]. intros c e s'' Q. injection Q as <- <- <-. split; [exact F'|]. split; [congruence|]. split; [discriminate|reflexivity].
    + destruct C as (Fa & Sa & Xa & _). destruct (IH i a Fa) as (o & -> & Ho). exists o. split; [reflexivity|]. intros c e s' Q. destruct (Ho c e s' Q) as (F' & S' & C'). split; [exact F'|]. split; [congruence|]. destruct C' as (C1 & C2). split; [|exact C2]. intros Hc. destruct (C1 Hc). split; congruence.
    + destruct C as (Fa & Sa & Xa & _ & ->). eexists. split; [reflexivity|]. intros c e s' Q. injection Q as <- <- <-. split; [exact Fa|]. split; [exact Sa|]. split; [auto|discriminate].
Qed.
(* between calls of step *)
Definition sound (s : ode) : Prop := sized (s_co s) /\ (s_start s = false -> (1 <= s_k s <= 12)%nat /\ (s_kold s <= 12)%nat /\ s_nornd s = true).
(* the first step does not need the extra rounding control of lines 65-68 *)
Definition quiet (n : nat) (eps : R) (s : ode) : Prop := s_start s = true -> 100 * (twou * norm n (vdiv (s_yy s) (s_wt s))) < eps / 2.
Lemma step_safe fuel f n junk eps s : sound s -> quiet n eps s -> exists o, step fuel f n junk eps s = Ok o /\
  forall c e s', o = Some (c, e, s') -> sound s' /\ (c = true -> (s_start s' = true -> s_start s = true) /\ s_x s' = s_x s /\ (e = eps \/ e = eps + eps \/ eps < e)) /\ (c = false -> s_start s' = false /\ e = eps).
Proof.
  intros (Z & Ns) Q. unfold step. destruct (rgt (fouru * _) _).
  { eexists. split; [reflexivity|]. intros c e s' E. injection E as <- <- <-. split; [split; assumption|]. split; [|discriminate]. intros _. cbn [s_start s_x]. auto. }
  destruct (rgt (twou * _) _) eqn:Er.
  { eexists. split; [reflexivity|]. intros c e s' E. injection E as <- <- <-. split; [split; assumption|]. split; [|discriminate]. intros _. split; [auto|]. split; [reflexivity|]. right. right.
    unfold rgt in Er. destruct (Rlt_dec (0.5 * eps) (twou * norm n (vdiv (s_yy s) (s_wt s)))) as [L|]; [|discriminate]. pose proof (Rle_0_1).
    assert (0 < fouru) by (unfold fouru, umach; apply Rmult_lt_0_compat; [lra|]; apply Rinv_0_lt_compat, pow_lt; lra).
    assert (0 <= twou * norm n (vdiv (s_yy s) (s_wt s))) by (apply Rmult_le_pos; [unfold twou, umach; apply Rmult_le_pos; [lra|]; left; apply Rinv_0_lt_compat, pow_lt; lra|apply sqrt_pos]). nra. }
  destruct (ready_ok (s_co s) Z) as (c0 & -> & Z0 & _). cbn [obind]. destruct (s_start s) eqn:St.
  - rewrite setcol_ok by lia. cbn [obind]. rewrite setcol_ok by lia. cbn [obind].
    assert (Nr : negb (rle (0.5 * eps) (100 * (twou * norm n (vdiv (s_yy s) (s_wt s))))) = true).
    { apply negb_true_iff, rle_false. specialize (Q St). lra. }
    rewrite Nr. cbn [obind]. match goal with |- context [passes fuel f n eps 0 ?q] => destruct (passes_safe fuel f n eps 0 q) as (o & -> & Ho) end.
    { constructor; cbn [s_co s_k s_kold s_nornd]; [exact Z0|lia|lia|reflexivity]. }
    exists o. split; [reflexivity|]. intros c e s' E. destruct (Ho c e s' E) as (F' & S' & C1 & C2). cbn [s_start s_x] in *. destruct F' as [Z' K' Ko' N']. split; [split; [exact Z'|auto]|]. split.
    + intros Hc. destruct (C1 Hc) as (-> & Hx). split; [auto|]. split; [exact Hx|auto].
    + intros Hc. split; [exact S'|exact (C2 Hc)].
  - destruct (Ns eq_refl) as (K & Ko & Nr). match goal with |- context [passes fuel f n eps junk ?q] => destruct (passes_safe fuel f n eps junk q) as (o & -> & Ho) end.
    { constructor; cbn [s_co s_k s_kold s_nornd]; assumption. }
    exists o. split; [reflexivity|]. intros c e s' E. destruct (Ho c e s' E) as (F' & S' & C1 & C2). cbn [s_start s_x] in *. destruct F' as [Z' K' Ko' N']. split; [split; [exact Z'|auto]|]. split.
    + intros Hc. destruct (C1 Hc) as (-> & Hx). split; [congruence|]. split; [exact Hx|auto].
    + intros Hc. split; [exact S'|exact (C2 Hc)].
Qed.
Lemma intrp_safe s xout junk : sound s -> s_start s = false -> exists r, intrp s xout junk = Ok r.
Proof. intros (Z & H) St. destruct (H St) as (_ & Ko & _). destruct (intrp_run s xout junk Z Ko) as (yo & ypo & E & _). exists (yo, ypo). exact E. Qed.

(* the objects any sequence of calls of step can leave, whatever the caller does to the time, the state,
   the step size and the weights in between *)
Inductive called (f : rhs) (n : nat) : ode -> Prop :=
| C_new s : sized (s_co s) -> s_start s = true -> called f n s
| C_set s h wt : called f n s -> called f n (Ode (s_x s) h (s_hold s) (s_k s) (s_kold s) (s_ns s) (s_start s) (s_phase1 s) (s_nornd s) (s_yy s) (s_yp s) (s_p s) wt (s_phi s) (s_co s))
| C_restart s x h y : called f n s -> called f n (Ode x h (s_hold s) (s_k s) (s_kold s) (s_ns s) true (s_phase1 s) (s_nornd s) y (s_yp s) (s_p s) (s_wt s) (s_phi s) (s_co s))
| C_step s fuel junk eps c eps' s' : called f n s -> quiet n eps s -> step fuel f n junk eps s = Ok (Some (c, eps', s')) -> called f n s'.
Lemma called_sound f n s : called f n s -> sound s.
Proof.
  induction 1 as [s Z St|s h wt _ IH|s x h y _ (Z & _)|s fuel junk eps c eps' s' _ IH Q E].
  - split; [exact Z|]. congruence.
  - exact IH.
  - split; [exact Z|discriminate].
  - destruct (step_safe fuel f n junk eps s IH Q) as (o & E' & H). rewrite E in E'. injection E' as <-. exact (proj1 (H c eps' s' eq_refl)).
Qed.
Lemma step_in_bounds f n s fuel junk eps : called f n s -> quiet n eps s -> step fuel f n junk eps s <> UB /\
  (s_start s = false -> (1 <= s_k s <= 12)%nat /\ (s_kold s <= 12)%nat /\ forall xout j, intrp s xout j <> UB).
Proof.
  intros C Q. pose proof (called_sound f n s C) as Sd. split.
  - destruct (step_safe fuel f n junk eps s Sd Q) as (o & -> & _). discriminate.
  - intros St. destruct (proj2 Sd St) as (K & Ko & _). split; [exact K|]. split; [exact Ko|]. intros xout j. destruct (intrp_safe s xout j Sd St) as (r & ->). discriminate.
Qed.
(* without that condition a first step has no defined meaning *)
Lemma step_undefined fuel f n junk eps s : sized (s_co s) -> s_start s = true -> fouru * Rabs (s_x s) <= Rabs (s_h s) ->
  twou * norm n (vdiv (s_yy s) (s_wt s)) <= eps / 2 <= 100 * (twou * norm n (vdiv (s_yy s) (s_wt s))) -> step (S fuel) f n junk eps s = UB.
Proof.
  intros Z St Hh (H1 & H2). unfold step. unfold rgt at 1. destruct (Rlt_dec (Rabs (s_h s)) (fouru * Rabs (s_x s))); [lra|]. unfold rgt at 1. destruct (Rlt_dec (0.5 * eps) (twou * norm n (vdiv (s_yy s) (s_wt s)))); [lra|].
  destruct (ready_ok (s_co s) Z) as (c0 & -> & Z0 & _). cbn [obind]. rewrite St. rewrite setcol_ok by lia. cbn [obind]. rewrite setcol_ok by lia. cbn [obind].
  replace (rle (0.5 * eps) (100 * (twou * norm n (vdiv (s_yy s) (s_wt s))))) with true by (symmetry; apply rle_true; lra). cbn [negb]. rewrite setcol_ok by lia. cbn [obind passes].
  match goal with |- context [attempt f n eps 0 ?q] => assert (attempt f n eps 0 q = UB) as ->; [|reflexivity] end. unfold attempt.
  match goal with |- context [coefficients ?a ?b ?c ?d ?e] => assert (M : exists c', coefficients a b c d e = Ok c' /\ sized c') end.
  { match goal with |- context [count_steps ?q] => exact (new_coef_ok q Z0 ltac:(cbn [s_k]; lia)) end. }
  destruct M as (c & -> & Zc). cbn [obind s_k s_phi]. destruct (star_run 1 (count_steps (Ode (s_x s) (copysign (Rmax (if rgt (16 * norm n (vdiv (f (s_x s) (s_yy s)) (s_wt s)) * s_h s * s_h s) eps then 0.25 * sqrt (eps / norm n (vdiv (f (s_x s) (s_yy s)) (s_wt s))) else Rabs (s_h s)) (fouru * Rabs (s_x s))) (s_h s)) 0 1 0 (s_ns s) false true false (s_yy s) (f (s_x s) (s_yy s)) (s_p s) (s_wt s)
      (fun i => if Nat.eqb i 14 then vzero else (fun i => if Nat.eqb i 1 then vzero else (fun i => if Nat.eqb i 0 then f (s_x s) (s_yy s) else s_phi s i) i) i) c0)) (beta c)
      (fun i => if Nat.eqb i 14 then vzero else (fun i => if Nat.eqb i 1 then vzero else (fun i => if Nat.eqb i 0 then f (s_x s) (s_yy s) else s_phi s i) i) i) ltac:(lia) (z_beta _ Zc)) as (ph & -> & _). cbn [obind].
  destruct (predict_run 1 (g c) ph ltac:(lia) (z_g _ Zc)) as (p & ph' & -> & _). cbn [obind s_nornd negb]. reflexivity.
Qed.

(* ---- termination of a step ---- *)
Lemma halved eps erk ifail t2 : 0 <= eps -> ((3 < ifail + 1)%Z -> t2 = 1 / 2) -> ((ifail + 1 = 3)%Z -> t2 = 1 / 2) ->
  ((ifail + 1 < 3)%Z -> t2 = if rgt (0.25 * erk) (0.5 * eps) then sqrt (0.5 * eps / erk) else 1 / 2) -> 0 <= t2 <= 1 / 2.
Proof.
  intros He T3 T2 T1. destruct (Z.lt_trichotomy (ifail + 1) 3) as [Q|[Q|Q]]; [|rewrite (T2 Q); lra|rewrite (T3 ltac:(lia)); lra].
  specialize (T1 Q). unfold rgt in T1. destruct (Rlt_dec (0.5 * eps) (0.25 * erk)); [|rewrite T1; lra].
  assert (B : 0.5 * eps / erk <= (1 / 2) * (1 / 2)) by (apply Rmult_le_reg_r with erk; [lra|]; unfold Rdiv; rewrite Rmult_assoc, Rinv_l by lra; lra).
  rewrite T1. split; [apply sqrt_pos|]. rewrite <- (sqrt_square (1 / 2)) by lra. apply sqrt_le_1_alt. exact B.
Qed.
Lemma passes_end f n eps : 0 <= eps -> forall m ifail s, fit s -> Rabs (s_h s) < 2 * 2 ^ m * (fouru * Rabs (s_x s)) -> passes (S m) f n eps ifail s <> Ok None.
Proof.
  intros He m. induction m as [|m IH]; intros ifail s Fs B.
  - cbn [passes]. destruct Fs as [Z K Ko Nr]. destruct (attempt_cases f n eps ifail s Z K Nr) as (c & ph & p & yp & P & erk & knew & e1 & KN & [(L & A)|(L & t2 & k' & c' & ph' & Rs & K' & T3 & T2 & T1 & [(Lh & A)|(Lh & A)])]); rewrite A; cbn [obind].
    + match goal with |- context [settle f n eps ?a ?k1 ?x ?y] => destruct (settle_safe f n eps a k1 x y) as (s' & -> & _) end; [constructor; try assumption; try reflexivity; exact (q_sized _ _ _ _ _ _ P)|lia|]. cbn [obind]. discriminate.
    + exfalso. pose proof (halved eps erk ifail t2 He (fun Q => proj1 (T3 Q)) (fun Q => proj1 (T2 Q)) (fun Q => proj2 (T1 Q))) as H. rewrite Rabs_mult in Lh. pose proof (Rabs_pos (s_h s)). rewrite (Rabs_right t2) in Lh by lra. cbn [pow] in B. nra.
    + discriminate.
  - cbn [passes]. pose proof Fs as [Z K Ko Nr]. destruct (attempt_cases f n eps ifail s Z K Nr) as (c & ph & p & yp & P & erk & knew & e1 & KN & [(L & A)|(L & t2 & k' & c' & ph' & Rs & K' & T3 & T2 & T1 & [(Lh & A)|(Lh & A)])]); rewrite A; cbn [obind].
    + match goal with |- context [settle f n eps ?a ?k1 ?x ?y] => destruct (settle_safe f n eps a k1 x y) as (s' & -> & _) end; [constructor; try assumption; try reflexivity; exact (q_sized _ _ _ _ _ _ P)|lia|]. cbn [obind]. discriminate.
    + destruct (restore_run (s_k s) (s_h s) c ph (q_sized _ _ _ _ _ _ P) K) as (c1 & ph1 & Rs' & Z1 & _). rewrite Rs in Rs'. injection Rs' as <- <-.
      apply IH; [constructor; cbn [s_co s_k s_kold s_nornd]; try assumption; try lia; reflexivity|]. cbn [s_h s_x].
      pose proof (halved eps erk ifail t2 He (fun Q => proj1 (T3 Q)) (fun Q => proj1 (T2 Q)) (fun Q => proj2 (T1 Q))) as H. rewrite Rabs_mult. pose proof (Rabs_pos (s_h s)). rewrite (Rabs_right t2) by lra. cbn [pow] in B. nra.
    + discriminate.
Qed.
Lemma fouru_pos : 0 < fouru.
Proof. unfold fouru, umach. apply Rmult_lt_0_compat; [lra|]. apply Rinv_0_lt_compat, pow_lt. lra. Qed.
Lemma Rabs_copysign a b : Rabs (copysign a b) = Rabs a.
Proof. unfold copysign. destruct (Rlt_dec b 0); rewrite ?Rabs_Ropp; apply Rabs_Rabsolu. Qed.
Lemma first_h n eps s yp : 0 <= eps -> fouru * Rabs (s_x s) <= Rabs (s_h s) ->
  Rabs (copysign (Rmax (if rgt (16 * norm n (vdiv yp (s_wt s)) * s_h s * s_h s) eps then 0.25 * sqrt (eps / norm n (vdiv yp (s_wt s))) else Rabs (s_h s)) (fouru * Rabs (s_x s))) (s_h s)) <= Rabs (s_h s).
Proof.
  intros He Hh. rewrite Rabs_copysign. set (sum := norm n (vdiv yp (s_wt s))). assert (0 <= sum) by apply sqrt_pos. pose proof (Rabs_pos (s_h s)) as Ph.
  assert (0 <= fouru * Rabs (s_x s)) by (apply Rmult_le_pos; [left; exact fouru_pos|apply Rabs_pos]).
  rewrite Rabs_right by (apply Rle_ge; eapply Rle_trans; [|apply Rmax_r]; assumption). apply Rmax_lub; [|exact Hh]. unfold rgt. destruct (Rlt_dec eps (16 * sum * s_h s * s_h s)) as [L|]; [|lra].
  assert (Ps : 0 < sum) by (destruct (Req_dec sum 0) as [E|]; [rewrite E in L; lra|lra]).
  assert (B : eps / sum <= (4 * Rabs (s_h s)) * (4 * Rabs (s_h s))).
  { apply Rmult_le_reg_r with sum; [exact Ps|]. unfold Rdiv. rewrite Rmult_assoc, Rinv_l by lra. replace (4 * Rabs (s_h s) * (4 * Rabs (s_h s))) with (16 * (Rabs (s_h s) * Rabs (s_h s))) by ring.
    rewrite <- Rabs_mult, (Rabs_right (s_h s * s_h s)) by (apply Rle_ge, Rle_0_sqr). lra. }
  apply sqrt_le_1_alt in B. rewrite sqrt_square in B by lra. lra.
Qed.
Lemma step_end f n junk eps s m : sound s -> quiet n eps s -> 0 <= eps -> Rabs (s_h s) < 2 * 2 ^ m * (fouru * Rabs (s_x s)) -> exists r, step (S m) f n junk eps s = Ok (Some r).
Proof.
  intros Sd Q He B. destruct (step_safe (S m) f n junk eps s Sd Q) as (o & E & _). destruct o as [r|]; [exists r; exact E|exfalso]. revert E.
  destruct Sd as (Z & Ns). unfold step. unfold rgt at 1. destruct (Rlt_dec (Rabs (s_h s)) (fouru * Rabs (s_x s))) as [|Hh]; [discriminate|]. apply Rnot_lt_le in Hh.
  destruct (rgt (twou * _) _); [discriminate|]. destruct (ready_ok (s_co s) Z) as (c0 & -> & Z0 & _). cbn [obind]. destruct (s_start s) eqn:St.
  - rewrite setcol_ok by lia. cbn [obind]. rewrite setcol_ok by lia. cbn [obind].
    assert (Nr : negb (rle (0.5 * eps) (100 * (twou * norm n (vdiv (s_yy s) (s_wt s))))) = true).
    { apply negb_true_iff, rle_false. specialize (Q St). lra. }
    rewrite Nr. cbn [obind]. apply passes_end; [exact He|constructor; cbn [s_co s_k s_kold s_nornd]; [exact Z0|lia|lia|reflexivity]|]. cbn [s_h s_x]. eapply Rle_lt_trans; [apply (first_h n eps s _ He Hh)|exact B].
  - destruct (Ns eq_refl) as (K & Ko & Nr). apply passes_end; [exact He|constructor; cbn [s_co s_k s_kold s_nornd]; assumption|exact B].
Qed.
Lemma step_terminates f n junk eps s : sound s -> quiet n eps s -> 0 <= eps -> s_x s <> 0 -> exists m r, step m f n junk eps s = Ok (Some r).
Proof.
  intros Sd Q He Hx. assert (P : 0 < fouru * Rabs (s_x s)) by (apply Rmult_lt_0_compat; [exact fouru_pos|apply Rabs_pos_lt; exact Hx]).
  destruct (Pow_x_infinity 2 ltac:(rewrite Rabs_right; lra) (Rabs (s_h s) / (fouru * Rabs (s_x s)))) as (m & Hm). specialize (Hm m (le_n m)). rewrite Rabs_right in Hm by (apply Rle_ge, pow_le; lra).
  exists (S m). apply step_end; try assumption. apply Rge_le in Hm. apply Rmult_le_compat_r with (r := fouru * Rabs (s_x s)) in Hm; [|lra]. unfold Rdiv in Hm. rewrite Rmult_assoc, Rinv_l, Rmult_1_r in Hm by lra. assert (0 < 2 ^ m) by (apply pow_lt; lra). nra.
Qed.

(* ---- the driver: specification ---- *)
(* the request: stop at tout or not (sign), from, to, relative and absolute weights *)
Record request := Request { q_sign : Z; q_t : R; q_tout : R; q_rel : R; q_abs : R }.
Definition routine := R -> ode -> outcome (option (bool * R * ode)).
(* the output time is not reached yet *)
Definition under_way (q : request) (s : ode) : Prop :=
  Rabs (s_x s - q_t q) < Rabs (q_tout q - q_t q) /\ ((0 < q_sign q)%Z \/ fouru * Rabs (s_x s) <= Rabs (q_tout q - s_x s)).
(* the farthest the integration may go *)
Definition limit (q : request) : R := if Z.ltb (q_sign q) 0 then q_tout q else q_t q + 10 * (q_tout q - q_t q).
(* what step is called with *)
Definition trial (q : request) (s : ode) : ode :=
  Ode (s_x s) (copysign (Rmin (Rabs (s_h s)) (Rabs (limit q - s_x s))) (s_h s)) (s_hold s) (s_k s) (s_kold s) (s_ns s) (s_start s) (s_phase1 s) (s_nornd s) (s_yy s) (s_yp s) (s_p s)
    (fun i => q_rel q * Rabs (s_yy s i) + q_abs q) (s_phi s) (s_co s).
(* successful steps, from a tolerance and a state; the orders they used, the last first *)
Inductive stepped (stp : routine) (q : request) (eps : R) (s : ode) : list nat -> R -> ode -> Prop :=
| T_none : stepped stp q eps s [] eps s
| T_more l e1 s1 e2 s2 : stepped stp q eps s l e1 s1 -> under_way q s1 -> stp e1 (trial q s1) = Ok (Some (false, e2, s2)) -> stepped stp q eps s (s_kold s2 :: l) e2 s2.
(* fifty steps in a row of order four at most: the equations look stiff *)
Definition looks_stiff (l : list nat) : Prop := exists a b c, l = a ++ b ++ c /\ length b = 50%nat /\ Forall (fun k => (k <= 4)%nat) b.
(* how a call ends after these steps *)
Inductive ending (stp : routine) (f : rhs) (junk : nat -> R) (q : request) (S : solver) (l : list nat) (e : R) (s : ode) : result -> Prop :=
| E_interpolated y yp : Rabs (q_tout q - q_t q) <= Rabs (s_x s - q_t q) -> intrp s (q_tout q) junk = Ok (y, yp) ->
    ending stp f junk q S l e s (Result 0 (q_tout q) y (Solver 2 (q_tout q) (delsgn S) (q_sign q) (relerr S) (abserr S) (neqn S) s))
| E_extrapolated s' : Rabs (s_x s - q_t q) < Rabs (q_tout q - q_t q) -> (q_sign q <= 0)%Z -> Rabs (q_tout q - s_x s) < fouru * Rabs (s_x s) ->
    s' = Ode (s_x s) (q_tout q - s_x s) (s_hold s) (s_k s) (s_kold s) (s_ns s) (s_start s) (s_phase1 s) (s_nornd s) (s_yy s) (f (s_x s) (s_yy s)) (s_p s) (s_wt s) (s_phi s) (s_co s) ->
    ending stp f junk q S l e s (Result 0 (q_tout q) (fun i => s_yy s i + (q_tout q - s_x s) * f (s_x s) (s_yy s) i) (Solver 2 (q_tout q) (delsgn S) (q_sign q) (relerr S) (abserr S) (neqn S) s'))
| E_work fl : under_way q s -> length l = 500%nat -> (fl = 5%Z /\ looks_stiff l) \/ (fl = 4%Z /\ ~ looks_stiff l) ->
    ending stp f junk q S l e s (Result 1 (s_x s) (s_yy s) (Solver (q_sign q * fl) (s_x s) (delsgn S) 1 (relerr S) (abserr S) (neqn S) s))
| E_tolerance e' s' : under_way q s -> (length l < 500)%nat -> stp e (trial q s) = Ok (Some (true, e', s')) ->
    ending stp f junk q S l e s (Result 1 (s_x s') (s_yy s') (Solver (q_sign q * 3) (s_x s') (delsgn S) 1 (e' * q_rel q) (e' * q_abs q) (neqn S) s')).

(* ---- the driver: proofs ---- *)
Fixpoint trail (l : list nat) : nat := match l with [] => O | k :: r => if Nat.ltb 4 k then O else S (trail r) end.
Lemma trail_spec m l : (m <= trail l)%nat <-> exists a b, l = a ++ b /\ length a = m /\ Forall (fun k => (k <= 4)%nat) a.
Proof.
  revert m. induction l as [|k r IH]; intros m; cbn [trail].
  - split; [intros L; exists [], []; assert (m = O) as -> by lia; auto|]. intros (a & b & E & La & _). destruct a; [cbn in La; lia|discriminate].
  - destruct (Nat.ltb_spec 4 k) as [H|H].
    + split; [intros L; exists [], (k :: r); assert (m = O) as -> by lia; auto|]. intros (a & b & E & La & Fa). destruct a as [|x a]; [cbn in La; lia|]. injection E as <- _. inversion Fa; subst. lia.
    + split.
      * intros L. destruct m as [|m]; [exists [], (k :: r); auto|]. destruct (proj1 (IH m) ltac:(lia)) as (a & b & -> & La & Fa). exists (k :: a), b. cbn [app length]. split; [reflexivity|]. split; [lia|constructor; assumption].
      * intros (a & b & E & La & Fa). destruct a as [|x a]; [cbn in La; lia|]. injection E as <- E. inversion Fa; subst. cbn [length]. enough (length a <= trail (a ++ b))%nat by lia. apply IH. exists a, b. auto.
Qed.
Lemma stiff_next k l : looks_stiff (k :: l) <-> looks_stiff l \/ (50 <= trail (k :: l))%nat.
Proof.
  rewrite trail_spec. split.
  - intros (a & b & c & E & Lb & Fb). destruct a as [|x a]; [right; exists b, c; auto|]. injection E as _ ->. left. exists a, b, c. auto.
  - intros [(a & b & c & -> & Lb & Fb)|(a & b & E & La & Fa)]; [exists (k :: a), b, c; auto|]. exists [], a, b. auto.
Qed.
Lemma not_stiff_nil : ~ looks_stiff [].
Proof. intros (a & b & c & E & Lb & _). destruct a; [|discriminate]. destruct b; [cbn in Lb; lia|discriminate]. Qed.
Section Driver.
Variables (stp : routine) (f : rhs) (junk : nat -> R) (q : request) (S0 : solver) (eps0 : R) (s0 : ode) (yout : vec).
Let loop fuel nostep kle4 stiff eps s := de_loop fuel stp f junk (q_sign q) (q_t q) (q_tout q) (limit q) (Rabs (q_tout q - q_t q)) (q_rel q) (q_abs q) nostep kle4 stiff eps yout (set_core S0 s).
Lemma de_loop_out fuel : forall l e s stiff r, stepped stp q eps0 s0 l e s -> (length l <= 500)%nat -> (stiff = true <-> looks_stiff l) ->
  loop fuel (length l) (trail l) stiff e s = Ok (Some r) -> exists l' e' s', stepped stp q eps0 s0 l' e' s' /\ ending stp f junk q S0 l' e' s' r.
Proof.
  induction fuel as [|fu IH]; intros l e s stiff r H Ll Hs E; unfold loop in E; cbn [de_loop] in E; [discriminate|]. cbn [set_core core] in E.
  destruct (rle (Rabs (q_tout q - q_t q)) (Rabs (s_x s - q_t q))) eqn:A.
  { apply rle_true in A. destruct (intrp s (q_tout q) junk) as [(y & yp)|] eqn:Ei; [|discriminate]. cbn [obind fst] in E. injection E as <-. exists l, e, s. split; [exact H|]. apply (E_interpolated stp f junk q S0 l e s y yp A Ei). }
  apply rle_false in A. destruct (Z.leb (q_sign q) 0 && rgt (fouru * Rabs (s_x s)) (Rabs (q_tout q - s_x s))) eqn:B.
  { apply andb_true_iff in B. destruct B as (B1 & B2). apply Z.leb_le in B1. unfold rgt in B2. destruct (Rlt_dec (Rabs (q_tout q - s_x s)) (fouru * Rabs (s_x s))) as [B3|]; [|discriminate]. injection E as <-. exists l, e, s. split; [exact H|].
    apply (E_extrapolated stp f junk q S0 l e s _ A B1 B3 eq_refl). }
  assert (U : under_way q s).
  { split; [exact A|]. destruct (Z.leb_spec (q_sign q) 0); [right|left; assumption]. cbn [andb] in B. unfold rgt in B. destruct (Rlt_dec (Rabs (q_tout q - s_x s)) (fouru * Rabs (s_x s))); [discriminate|lra]. }
  unfold maxnum in E. destruct (Nat.leb_spec 500 (length l)) as [Lm|Lm].
  { injection E as <-. exists l, e, s. split; [exact H|]. apply E_work; [exact U|lia|]. destruct stiff; [left; split; [reflexivity|apply Hs; reflexivity]|right; split; [reflexivity|]]. intros Q. apply Hs in Q. discriminate. }
  change (set_wt (set_h s (copysign (Rmin (Rabs (s_h s)) (Rabs (limit q - s_x s))) (s_h s))) (fun i : nat => q_rel q * Rabs (s_yy s i) + q_abs q)) with (trial q s) in E.
  destruct (stp e (trial q s)) as [[[[c e'] s']|]|] eqn:Es; cbn [obind] in E; try discriminate. destruct c.
  - injection E as <-. exists l, e, s. split; [exact H|]. apply (E_tolerance stp f junk q S0 l e s e' s' U Lm Es).
  - refine (IH (s_kold s' :: l) e' s' (stiff || Nat.leb 50 (trail (s_kold s' :: l))) r _ _ _ _).
    + exact (T_more _ _ _ _ _ _ _ _ _ H U Es).
    + cbn [length]. lia.
    + rewrite orb_true_iff, stiff_next, Nat.leb_le, Hs. reflexivity.
    + exact E.
Qed.
Lemma de_loop_end fuel : (forall e s, stp e s <> Ok None) -> forall l e s stiff, (length l <= 500)%nat -> (501 - length l <= fuel)%nat -> loop fuel (length l) (trail l) stiff e s <> Ok None.
Proof.
  intros T. induction fuel as [|fu IH]; intros l e s stiff Ll Lf; unfold loop; cbn [de_loop]; [lia|]. cbn [set_core core].
  destruct (rle _ _); [destruct (intrp _ _ _); discriminate|]. destruct (Z.leb _ _ && _); [discriminate|]. unfold maxnum. destruct (Nat.leb_spec 500 (length l)); [discriminate|].
  match goal with |- context [stp e ?x] => pose proof (T e x) as Tx; destruct (stp e x) as [[[[c e'] s']|]|] end; cbn [obind]; try discriminate; [|contradiction]. destruct c; [discriminate|].
  refine (IH (s_kold s' :: l) e' s' _ _ _); cbn [length]; lia.
Qed.
End Driver.
(* the request of a call *)
Definition asked (S : solver) (t tout : R) : request := let eps := Rmax (relerr S) (abserr S) in Request (Z.sgn (iflag S)) t tout (relerr S / eps) (abserr S / eps).
(* improper parameters *)
Definition improper (S : solver) (t tout : R) : Prop :=
  (neqn S < 1)%Z \/ t = tout \/ relerr S < 0 \/ abserr S < 0 \/ iflag S = 0%Z \/ (t <> told S /\ iflag S <> 1%Z /\ iflag S <> (-1)%Z).
(* the state the steps start from: a new integration, or where the last call stopped *)
Definition from (S : solver) (t tout : R) (y0 : vec) : ode :=
  let s := core S in
  if Rle_dec (delsgn S * (tout - t)) 0 then Ode t (copysign (Rmax (Rabs (tout - t)) (fouru * Rabs t)) (tout - t)) (s_hold s) (s_k s) (s_kold s) (s_ns s) true (s_phase1 s) (s_nornd s) y0 (s_yp s) (s_p s) (s_wt s) (s_phi s) (s_co s)
  else if Z.eqb (Z.abs (iflag S)) 1 then Ode t (copysign (Rmax (Rabs (tout - t)) (fouru * Rabs t)) (tout - t)) (s_hold s) (s_k s) (s_kold s) (s_ns s) true (s_phase1 s) (s_nornd s) y0 (s_yp s) (s_p s) (s_wt s) (s_phi s) (s_co s)
  else s.
Definition renewed (S : solver) (t tout : R) : R := if Rle_dec (delsgn S * (tout - t)) 0 then copysign 1 (tout - t) else if Z.eqb (Z.abs (iflag S)) 1 then copysign 1 (tout - t) else delsgn S.
Definition directed (S : solver) (d : R) : solver := Solver (Z.abs (iflag S)) (told S) d (isnold S) (relerr S) (abserr S) (neqn S) (core S).
Lemma rgt_true a b : rgt a b = true <-> b < a.
Proof. unfold rgt. destruct (Rlt_dec b a); split; intros; try discriminate; try reflexivity; try assumption; contradiction. Qed.
Lemma improper_spec S t tout : Z.ltb (neqn S) 1 || (if Req_EM_T t tout then true else false) || rgt 0 (relerr S) || rgt 0 (abserr S) || rgt 0 (Rmax (relerr S) (abserr S)) || Z.eqb (iflag S) 0 ||
     ((if Req_EM_T t (told S) then false else true) && negb (Z.eqb (Z.abs (iflag S)) 1)) = true <-> improper S t tout.
Proof.
  unfold improper. rewrite !orb_true_iff, andb_true_iff, negb_true_iff, Z.ltb_lt, !rgt_true, Z.eqb_eq, Z.eqb_neq.
  split.
  - intros [[[[[[H|H]|H]|H]|H]|H]|(H & K)]; auto.
    + destruct (Req_EM_T t tout); [auto|discriminate].
    + right. right. left. pose proof (Rmax_l (relerr S) (abserr S)). lra.
    + auto 10.
    + destruct (Req_EM_T t (told S)); [discriminate|]. do 5 right. split; [assumption|]. lia.
  - intros [H|[H|[H|[H|[H|(H & K & L)]]]]]; auto 10.
    + left. left. left. left. left. right. destruct (Req_EM_T t tout); [reflexivity|contradiction].
    + right. split; [destruct (Req_EM_T t (told S)); [contradiction|reflexivity]|lia].
Qed.
Lemma de_run fuel stp f junk t tout y0 yout S : ~ improper S t tout -> (Z.abs (iflag S) <= 5)%Z ->
  de fuel stp f junk t tout y0 yout S = de_loop fuel stp f junk (q_sign (asked S t tout)) t tout (limit (asked S t tout)) (Rabs (tout - t)) (q_rel (asked S t tout)) (q_abs (asked S t tout)) 0 0 false (Rmax (relerr S) (abserr S)) yout
    (Solver (Z.abs (iflag S)) (told S) (renewed S t tout) (isnold S) (relerr S) (abserr S) (neqn S) (from S t tout y0)).
Proof.
  intros Ni Fl. unfold de. match goal with |- (if ?c then _ else _) = _ => assert (c = false) as ->; [apply not_true_is_false; rewrite improper_spec; exact Ni|] end.
  destruct (Z.ltb_spec 5 (Z.abs (iflag S))); [lia|]. cbv zeta. unfold asked, limit, from, renewed. cbn [q_sign q_rel q_abs q_t q_tout relerr abserr].
  destruct (rle (delsgn S * (tout - t)) 0) eqn:P; [apply rle_true in P|apply rle_false in P]; destruct (Rle_dec (delsgn S * (tout - t)) 0) as [Q|Q]; try lra; cbn [orb]; [reflexivity|].
  destruct (Z.eqb (Z.abs (iflag S)) 1); reflexivity.
Qed.
Lemma de_outcome fuel stp f junk t tout y0 yout S r : de fuel stp f junk t tout y0 yout S = Ok (Some r) ->
  (improper S t tout /\ r = Result 1 t yout (Solver 6 (told S) (delsgn S) (isnold S) (relerr S) (abserr S) (neqn S) (core S))) \/
  (~ improper S t tout /\ (5 < Z.abs (iflag S))%Z /\ r = Result 1 t yout (Solver (Z.abs (iflag S)) (told S) (delsgn S) (isnold S) (relerr S) (abserr S) (neqn S) (core S))) \/
  (~ improper S t tout /\ (1 <= Z.abs (iflag S) <= 5)%Z /\ exists l e s, stepped stp (asked S t tout) (Rmax (relerr S) (abserr S)) (from S t tout y0) l e s /\
     ending stp f junk (asked S t tout) (directed S (renewed S t tout)) l e s r).
Proof.
  intros E. assert (D : improper S t tout \/ ~ improper S t tout).
  { rewrite <- improper_spec. match goal with |- ?c = true \/ _ => destruct c; [left; reflexivity|right; discriminate] end. }
  destruct D as [D|D].
  { left. split; [exact D|]. unfold de in E. rewrite (proj2 (improper_spec S t tout) D) in E. injection E as <-. reflexivity. }
  right. destruct (Z.le_gt_cases (Z.abs (iflag S)) 5) as [Fl|Fl].
  - right. split; [exact D|]. split; [split; [|exact Fl]; assert (iflag S <> 0)%Z by (intros Q; apply D; unfold improper; auto 10); lia|].
    rewrite de_run in E by assumption.
    refine (de_loop_out stp f junk (asked S t tout) (directed S (renewed S t tout)) (Rmax (relerr S) (abserr S)) (from S t tout y0) yout fuel [] _ _ false r (T_none _ _ _ _) _ _ E).
    + cbn [length]. lia.
    + split; [discriminate|]. intros Q. destruct (not_stiff_nil Q).
  - left. split; [exact D|]. split; [lia|]. unfold de in E. match type of E with (if ?c then _ else _) = _ => assert (c = false) as X; [apply not_true_is_false; rewrite improper_spec; exact D|rewrite X in E; clear X] end.
    destruct (Z.ltb_spec 5 (Z.abs (iflag S))); [|lia]. injection E as <-. reflexivity.
Qed.
Lemma de_ends fuel stp f junk t tout y0 yout S : (forall e s, stp e s <> Ok None) -> (501 <= fuel)%nat -> de fuel stp f junk t tout y0 yout S <> Ok None.
Proof.
  intros T L. assert (D : improper S t tout \/ ~ improper S t tout).
  { rewrite <- improper_spec. match goal with |- ?c = true \/ _ => destruct c; [left; reflexivity|right; discriminate] end. }
  destruct D as [D|D]; [unfold de; rewrite (proj2 (improper_spec S t tout) D); discriminate|]. destruct (Z.le_gt_cases (Z.abs (iflag S)) 5) as [Fl|Fl].
  - rewrite de_run by assumption. refine (de_loop_end stp f junk (asked S t tout) (directed S (renewed S t tout)) yout fuel T [] _ _ false _ _); cbn [length]; lia.
  - unfold de. match goal with |- (if ?c then _ else _) <> _ => destruct c; [discriminate|] end. destruct (Z.ltb_spec 5 (Z.abs (iflag S))); [discriminate|lia].
Qed.

(* ---- codes ---- *)
Lemma de_codes fuel stp f junk t tout y0 yout S r : de fuel stp f junk t tout y0 yout S = Ok (Some r) -> (Z.abs (iflag S) <= 5)%Z ->
  (code r = 0%Z /\ iflag (r_solver r) = 2%Z /\ r_t r = tout /\ told (r_solver r) = tout) \/
  (code r = 1%Z /\ (iflag (r_solver r) = 6%Z \/ exists c, (c = 3 \/ c = 4 \/ c = 5)%Z /\ iflag (r_solver r) = (Z.sgn (iflag S) * c)%Z /\ told (r_solver r) = r_t r /\ r_t r = s_x (core (r_solver r)) /\ r_y r = s_yy (core (r_solver r)))).
Proof.
  intros E Fl. destruct (de_outcome _ _ _ _ _ _ _ _ _ _ E) as [(D & ->)|[(D & F & _)|(D & F & l & e & s & T & En)]]; [right; cbn; auto|lia|]. destruct En; cbn [code iflag r_solver r_t r_y told core asked q_sign q_tout directed]; [left; auto|left; auto| |].
  - right. split; [reflexivity|]. right. exists fl. split; [|auto]. lia.
  - right. split; [reflexivity|]. right. exists 3%Z. auto.
Qed.

(* ---- sequences of calls ---- *)
(* the relative tolerance is the larger one, and not close to the rounding error *)
Definition tolerable (n : nat) (S : solver) : Prop := 0 <= abserr S <= relerr S /\ 400 * umach * sqrt (INR n) < relerr S.
Inductive session (f : rhs) (n : nat) : solver -> Prop :=
| S_new S : iflag S = 1%Z -> sized (s_co (core S)) -> tolerable n S -> session f n S
| S_again S : session f n S -> session f n (Solver 1 (told S) (delsgn S) (isnold S) (relerr S) (abserr S) (neqn S) (core S))
| S_call S fuel fs (jf : R -> ode -> Z) junk t tout y0 yout r : session f n S -> de fuel (fun e s => step fs f n (jf e s) e s) f junk t tout y0 yout S = Ok (Some r) -> session f n (r_solver r).
Definition resumable (S : solver) : Prop := sized (s_co (core S)) /\ (iflag S = 1%Z \/ (5 < iflag S)%Z \/ ((0 < iflag S)%Z /\ sound (core S) /\ (s_start (core S) = true -> s_x (core S) = told S))).
Definition tracked (t : R) (s : ode) : Prop := sound s /\ (s_start s = true -> s_x s = t).
Lemma umach_pos : 0 < umach.
Proof. unfold umach. apply Rinv_0_lt_compat, pow_lt. lra. Qed.
Lemma tolerance_pos n S : tolerable n S -> 0 < relerr S /\ Rmax (relerr S) (abserr S) = relerr S.
Proof.
  intros ((A & B) & C). pose proof umach_pos. pose proof (sqrt_pos (INR n)). assert (0 < relerr S) by nra. split; [assumption|]. apply Rmax_left. lra.
Qed.
Lemma norm2_small n u : (forall i, (i < n)%nat -> u i * u i <= 1) -> norm2 n u <= INR n.
Proof. induction n as [|n IH]; intros H; cbn [norm2]; [cbn; lra|]. rewrite S_INR. specialize (IH ltac:(intros; apply H; lia)). specialize (H n ltac:(lia)). lra. Qed.
Lemma trial_quiet n S t tout s e : tolerable n S -> relerr S <= e -> quiet n e (trial (asked S t tout) s).
Proof.
  intros T He _. destruct (tolerance_pos n S T) as (P & M). destruct T as ((A0 & A1) & T). unfold trial, asked. cbn [s_yy s_wt q_rel q_abs]. rewrite M. replace (relerr S / relerr S) with 1 by (field; lra).
  set (ab := abserr S / relerr S). assert (0 <= ab) by (unfold ab, Rdiv; apply Rmult_le_pos; [lra|left; apply Rinv_0_lt_compat; lra]).
  assert (B : norm n (vdiv (s_yy s) (fun i => 1 * Rabs (s_yy s i) + ab)) <= sqrt (INR n)).
  { unfold norm. apply sqrt_le_1_alt. apply norm2_small. intros i _. unfold vdiv. set (y := s_yy s i). pose proof (Rabs_pos y) as Py. destruct (Req_dec (1 * Rabs y + ab) 0) as [Z|Z].
    - assert (Y : Rabs y = 0) by lra. assert (y = 0) as -> by (destruct (Req_dec y 0) as [|N]; [assumption|exfalso; apply (Rabs_no_R0 y N Y)]). unfold Rdiv. lra.
    - assert (0 < 1 * Rabs y + ab) by lra. set (w := 1 * Rabs y + ab) in *. replace (y / w * (y / w)) with ((y * y) * (/ w * / w)) by (field; exact Z). apply Rmult_le_reg_r with (w * w); [nra|]. replace (y * y * (/ w * / w) * (w * w)) with (y * y) by (field; exact Z).
      replace (y * y) with (Rabs y * Rabs y) by (rewrite <- Rabs_mult; apply Rabs_right, Rle_ge, Rle_0_sqr). unfold w. nra. }
  pose proof umach_pos. unfold twou. nra.
Qed.
Section Session.
Variables (f : rhs) (n fs : nat) (jf : R -> ode -> Z) (junk : nat -> R) (S : solver) (t tout : R).
Hypothesis T : tolerable n S.
Let stp : routine := fun e s => step fs f n (jf e s) e s.
Let q := asked S t tout.
Lemma trial_sound s : sound s -> sound (trial q s). Proof. exact (fun H => H). Qed.
Lemma stepped_tracked eps s0 l e s : tracked t s0 -> relerr S <= eps -> stepped stp q eps s0 l e s -> tracked t s /\ e = eps /\ (l <> [] -> s_start s = false).
Proof.
  intros H0 He H. induction H as [|l e1 s1 e2 s2 _ ((Sd & _) & E1 & _) U E]; [split; [exact H0|split; [reflexivity|congruence]]|]. subst e1.
  destruct (step_safe fs f n (jf eps (trial q s1)) eps (trial q s1) (trial_sound _ Sd) (trial_quiet n S t tout s1 eps T He)) as (o & Eo & H). unfold stp in E. rewrite E in Eo. injection Eo as <-. destruct (H _ _ _ eq_refl) as (Sd' & _ & H2). destruct (H2 eq_refl) as (St & ->).
  split; [split; [exact Sd'|congruence]|]. auto.
Qed.
Lemma loop_defined : t <> tout -> forall fuel nostep kle4 stiff eps s yout S1, relerr S <= eps -> tracked t s -> core S1 = s ->
  de_loop fuel stp f junk (q_sign q) t tout (limit q) (Rabs (tout - t)) (q_rel q) (q_abs q) nostep kle4 stiff eps yout S1 <> UB.
Proof.
  intros Nt. induction fuel as [|fu IH]; intros nostep kle4 stiff eps s yout S1 He (Sd & St) C; cbn [de_loop]; [discriminate|]. rewrite C.
  destruct (rle _ _) eqn:A.
  { apply rle_true in A. assert (St' : s_start s = false).
    { destruct (s_start s); [exfalso|reflexivity]. rewrite (St eq_refl) in A. replace (t - t) with 0 in A by ring. rewrite Rabs_R0 in A. pose proof (Rabs_pos_lt (tout - t) ltac:(lra)). lra. }
    destruct (intrp_safe s tout junk Sd St') as (r & ->). discriminate. }
  destruct (Z.leb _ _ && _); [discriminate|]. destruct (Nat.leb _ _); [discriminate|].
  change (set_wt (set_h s (copysign (Rmin (Rabs (s_h s)) (Rabs (limit q - s_x s))) (s_h s))) (fun i : nat => q_rel q * Rabs (s_yy s i) + q_abs q)) with (trial q s).
  destruct (step_safe fs f n (jf eps (trial q s)) eps (trial q s) (trial_sound _ Sd) (trial_quiet n S t tout s eps T He)) as (o & Eo & H). unfold stp at 1. rewrite Eo. cbn [obind]. destruct o as [[[c e'] s']|]; [|discriminate]. destruct (H _ _ _ eq_refl) as (Sd' & _ & H2). destruct c; [discriminate|]. destruct (H2 eq_refl) as (St' & ->).
  eapply IH; [exact He|split; [exact Sd'|congruence]|reflexivity].
Qed.
Lemma from_tracked y0 : resumable S -> ~ improper S t tout -> (Z.abs (iflag S) <= 5)%Z -> tracked t (from S t tout y0).
Proof.
  intros (Z & R) D Fl. unfold from. destruct (Rle_dec (delsgn S * (tout - t)) 0); [split; [split; [exact Z|discriminate]|reflexivity]|].
  destruct (Z.eqb_spec (Z.abs (iflag S)) 1) as [|N1]; [split; [split; [exact Z|discriminate]|reflexivity]|].
  destruct R as [R|[R|(P & Sd & St)]]; [lia|lia|]. split; [exact Sd|]. intros Hs. rewrite (St Hs). destruct (Req_dec t (told S)) as [|N]; [auto|]. exfalso. apply D. unfold improper. do 5 right. split; [exact N|]. lia.
Qed.
End Session.
Lemma session_state f n S : session f n S -> resumable S /\ (0 < iflag S)%Z /\ tolerable n S.
Proof.
  induction 1 as [S F Z T|S _ ((Z & _) & _ & T)|S fuel fs jf junk t tout y0 yout r _ (R & Fl & T) E].
  - split; [split; [exact Z|auto]|]. split; [lia|exact T].
  - split; [split; [exact Z|auto]|]. split; [cbn; lia|exact T].
  - destruct (tolerance_pos n S T) as (Pr & Mx). destruct (de_outcome _ _ _ _ _ _ _ _ _ _ E) as [(D & ->)|[(D & F & ->)|(D & F & l & e & s & St & En)]].
    + split; [split; [exact (proj1 R)|right; left; cbn; lia]|]. split; [cbn; lia|exact T].
    + split; [split; [exact (proj1 R)|right; left; cbn [r_solver iflag]; lia]|]. split; [cbn [r_solver iflag]; lia|exact T].
    + pose proof (from_tracked S t tout y0 R D (proj2 F)) as H0. rewrite Mx in St.
      destruct (stepped_tracked f n fs jf S t tout T (relerr S) _ l e s H0 (Rle_refl _) St) as ((Sd & Sx) & -> & Sl).
      assert (Sg : q_sign (asked S t tout) = 1%Z) by (unfold asked; cbn [q_sign]; destruct (iflag S); try lia; reflexivity).
      destruct En as [y yp A Ei|s' A B C _|fl U L Fg|e' s' U L Es]; cbn [r_solver] in *.
      * split; [split; [exact (proj1 Sd)|]|split; [cbn; lia|exact T]]. right. right. cbn [iflag core told]. split; [lia|]. split; [exact Sd|]. intros Hs. exfalso. cbn [asked q_tout q_t] in A. rewrite (Sx Hs) in A. replace (t - t) with 0 in A by ring. rewrite Rabs_R0 in A.
        assert (t <> tout) by (intros Q; apply D; unfold improper; auto). pose proof (Rabs_pos_lt (tout - t) ltac:(lra)). lra.
      * lia.
      * split; [split; [exact (proj1 Sd)|]|split; [cbn [iflag]; lia|exact T]]. right. right. cbn [iflag core told]. split; [lia|]. split; [exact Sd|]. reflexivity.
      * destruct (step_safe fs f n (jf (relerr S) (trial (asked S t tout) s)) (relerr S) (trial (asked S t tout) s) Sd (trial_quiet n S t tout s (relerr S) T (Rle_refl _))) as (o & Eo & H). rewrite Es in Eo. injection Eo as <-. destruct (H _ _ _ eq_refl) as (Sd' & H1 & _). destruct (H1 eq_refl) as (_ & _ & He).
        split; [split; [exact (proj1 Sd')|]|split; [cbn [iflag]; lia|]].
        -- right. right. cbn [iflag core told]. split; [lia|]. split; [exact Sd'|reflexivity].
        -- destruct T as ((A0 & A1) & T). unfold tolerable, asked. cbn [relerr abserr q_rel q_abs]. rewrite Mx. replace (relerr S / relerr S) with 1 by (field; lra).
           assert (0 <= abserr S / relerr S <= 1) by (split; [apply Rmult_le_pos; [lra|left; apply Rinv_0_lt_compat; lra]|apply Rmult_le_reg_r with (relerr S); [lra|]; unfold Rdiv; rewrite Rmult_assoc, Rinv_l by lra; lra]).
           assert (relerr S <= e') by (destruct He as [->|[->|]]; lra). split; [split; nra|nra].
Qed.
Lemma session_defined f n S fuel fs jf junk t tout y0 yout : session f n S -> de fuel (fun e s => step fs f n (jf e s) e s) f junk t tout y0 yout S <> UB.
Proof.
  intros H. destruct (session_state f n S H) as (R & Fl & T). assert (D : improper S t tout \/ ~ improper S t tout).
  { rewrite <- improper_spec. match goal with |- ?c = true \/ _ => destruct c; [left; reflexivity|right; discriminate] end. }
  destruct D as [D|D]; [unfold de; rewrite (proj2 (improper_spec S t tout) D); discriminate|]. destruct (Z.le_gt_cases (Z.abs (iflag S)) 5) as [F5|F5].
  - rewrite de_run by assumption. destruct (tolerance_pos n S T) as (Pr & ->). eapply (loop_defined f n fs jf junk S t tout T); [intros Q; apply D; unfold improper; auto|apply Rle_refl|exact (from_tracked S t tout y0 R D F5)|reflexivity].
  - unfold de. match goal with |- (if ?c then _ else _) <> _ => destruct c; [discriminate|] end. destruct (Z.ltb_spec 5 (Z.abs (iflag S))); [discriminate|lia].
Qed.
