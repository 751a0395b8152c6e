(* What the integrator does not do. *)
From Coq Require Import List ZArith Reals Arith Bool Lra Lia.
From Verif Require Import Base Gravity_model Gravity_proofs Spline_model Sgode_model Adams Sgode_proofs Sgode_adams Sgode_run.
Import ListNotations.
Local Open Scope R_scope.

(* ---- passes of order one ---- *)
Lemma coefficients_one h kold m c : sized c -> (1 <= m)%nat -> exists c', coefficients h 1 kold m c = Ok c' /\ sized c' /\ g c' = g c /\
  (m = 1%nat -> a_val (psi c') 0 = h /\ a_val (sig c') 1 = 1 /\ a_val (beta c') 0 = 1) /\ ((2 <= m)%nat -> c' = c).
Proof.
  intros Z L. pose proof Z as [Zp Za Zb Zv Zw Zs Zg]. unfold coefficients. destruct (Nat.ltb_spec 1 m) as [M|M].
  { exists c. split; [reflexivity|]. split; [exact Z|]. split; [reflexivity|]. split; [lia|reflexivity]. }
  assert (m = 1%nat) as -> by lia. cbn [Nat.sub]. rewrite (wr_ok (beta c)) by lia. cbn [obind]. rewrite (wr_ok (alpha c)) by lia. cbn [obind]. rewrite (wr_ok (sig c)) by lia. cbn [obind iterate]. rewrite (wr_ok (psi c)) by lia. cbn [obind Nat.leb].
  destruct (fresh_loop 1 (v c) ltac:(lia)) as (vv & -> & Lv & _). cbn [obind]. destruct (copy_loop 1 vv (w c) ltac:(lia) ltac:(lia)) as (ww & -> & Lw & _). cbn [obind Nat.add Nat.sub iterate fst snd].
  eexists. split; [reflexivity|]. cbn [g psi sig beta a_val a_len]. split; [constructor; cbn [psi alpha beta v w sig g a_len]; congruence|]. split; [reflexivity|]. split; [|lia]. intros _. cbn [Nat.eqb INR]. split; [ring|auto].
Qed.
(* the error estimate of such a pass, for a right-hand side that depends on the time only *)
Definition one_error (n : nat) (F : R -> vec) (s : ode) : R := Rabs (s_h s) * norm n (vdiv (vsub (F (s_x s + s_h s)) (s_phi s 0%nat)) (s_wt s)) / 2.
Definition shrink (eps E : R) (ifail : Z) : R := if Z.ltb (ifail + 1) 3 then (if rgt (0.25 * E) (0.5 * eps) then sqrt (0.5 * eps / E) else 0.5) else 0.5.
Lemma restore_sig k h c ph c' ph' : restore k h c ph = Ok (c', ph') -> sig c' = sig c.
Proof. unfold restore. destruct (iterate 0 k _ ph) as [q|]; cbn [obind]; [|discriminate]. destruct (iterate 1 _ _ (psi c)) as [ps|]; cbn [obind]; [|discriminate]. intros E. injection E as <- _. reflexivity. Qed.
Record one_pass (F : R -> vec) (s : ode) (c : coef) (ph : cols) (p : vec) : Prop := One_pass {
  op_sized : sized c; op_g : g c = g (s_co s); op_psi : count_steps s = 1%nat -> a_val (psi c) 0 = s_h s; op_psi2 : (2 <= count_steps s)%nat -> a_val (psi c) 0 = a_val (psi (s_co s)) 0; op_sig : a_val (sig c) 1 = 1; op_beta : a_val (beta c) 0 = 1;
  op_ph0 : forall x, ph 0%nat x = s_phi s 0%nat x; op_ph1 : forall x, ph 1%nat x = 0; op_p : forall x, p x = s_yy s x + s_h s * s_phi s 0%nat x }.
Lemma attempt_one F n eps ifail s : sized (s_co s) -> s_k s = 1%nat -> s_nornd s = true -> a_val (g (s_co s)) 0 = 1 -> a_val (g (s_co s)) 1 = 1 / 2 ->
  ((2 <= count_steps s)%nat -> a_val (sig (s_co s)) 1 = 1 /\ a_val (beta (s_co s)) 0 = 1) ->
  exists c ph p, one_pass F s c ph p /\
  ((one_error n F s <= eps /\ attempt (fun x _ => F x) n eps ifail s = Ok (Accepted (Ode (s_x s + s_h s) (s_h s) (s_hold s) 1 (s_kold s) (count_steps s) (s_start s) (s_phase1 s) true (s_yy s) (F (s_x s + s_h s)) p (s_wt s) ph c) 1 0 (one_error n F s))) \/
   (eps < one_error n F s /\ exists c' ph', sized c' /\ g c' = g c /\ (forall i, a_val (psi c') i = a_val (psi c) i) /\ sig c' = sig c /\ beta c' = beta c /\ (forall x, ph' 0%nat x = s_phi s 0%nat x) /\
     attempt (fun x _ => F x) n eps ifail s = Ok (if rle (fouru * Rabs (s_x s)) (Rabs (shrink eps (one_error n F s) ifail * s_h s)) then
        Again (Ode (s_x s) (shrink eps (one_error n F s) ifail * s_h s) (s_hold s) 1 (s_kold s) (count_steps s) (s_start s) false true (s_yy s) (F (s_x s + s_h s)) p (s_wt s) ph' c') (ifail + 1)
      else Crashed (Ode (s_x s) (copysign (fouru * Rabs (s_x s)) (shrink eps (one_error n F s) ifail * s_h s)) (s_hold s) 1 (s_kold s) (count_steps s) (s_start s) false true (s_yy s) (F (s_x s + s_h s)) p (s_wt s) ph' c') (eps + eps)))).
Proof.
  intros Z K Nr G0 G1 H2. pose proof (count_steps_pos s) as Cp. unfold attempt. rewrite K.
  destruct (coefficients_one (s_h s) (s_kold s) (count_steps s) (s_co s) Z Cp) as (c & -> & Zc & Gc & C1 & C2). cbn [obind]. pose proof Zc as [Zp Za Zb Zv Zw Zs Zg].
  destruct (star_run 1 (count_steps s) (beta c) (s_phi s) ltac:(lia) Zb) as (ph1 & -> & Hs). cbn [obind].
  destruct (predict_run 1 (g c) ph1 ltac:(lia) Zg) as (q & ph & -> & P1 & P2 & P3 & P4 & P5). cbn [obind]. rewrite Nr. cbn [negb].
  assert (S0 : forall x, ph1 0%nat x = s_phi s 0%nat x) by (intros x; rewrite Hs; destruct (Nat.leb_spec (count_steps s) 0); [lia|reflexivity]).
  assert (OP : one_pass F s c ph (vadd (s_yy s) (vscale (s_h s) q))).
  { constructor; try assumption; try (intros M; apply C1; exact M).
    - intros M. rewrite (C2 M). reflexivity.
    - destruct (Nat.le_gt_cases 2 (count_steps s)) as [M|M]; [rewrite (C2 M); apply H2; exact M|apply C1; lia].
    - destruct (Nat.le_gt_cases 2 (count_steps s)) as [M|M]; [rewrite (C2 M); apply H2; exact M|apply C1; lia].
    - intros x. rewrite P2, P3, S0 by lia. ring.
    - intros x. unfold vadd, vscale. rewrite P1. cbn [sumn]. rewrite S0, Gc, G0. ring. }
  exists c, ph, (vadd (s_yy s) (vscale (s_h s) q)). split; [exact OP|]. destruct OP as [_ _ _ _ Sg Bt O0 O1 _].
  rewrite (col_ok ph 0) by lia. cbn [obind Nat.leb Nat.eqb Nat.sub]. rewrite (rd_ok (g c) 0) by lia. cbn [obind]. rewrite (rd_ok (g c) 1) by lia. cbn [obind]. rewrite (rd_ok (sig c) 1) by lia. cbn [obind]. rewrite (rd_ok gstr 0) by (cbn; lia). cbn [obind].
  rewrite Sg, Gc, G0, G1. replace (a_val gstr 0) with (1 / 2) by (cbn; lra).
  set (t5 := Rabs (s_h s) * sqrt _).
  assert (Et : t5 = 2 * one_error n F s).
  { unfold t5, one_error, norm. rewrite (norm2_ext n (vdiv (vsub (F (s_x s + s_h s)) (ph 0%nat)) (s_wt s)) (vdiv (vsub (F (s_x s + s_h s)) (s_phi s 0%nat)) (s_wt s))); [field|]. intros i _. unfold vdiv, vsub. rewrite O0. reflexivity. }
  replace (t5 * (1 - 1 / 2)) with (one_error n F s) by (rewrite Et; field). replace (t5 * 1 * (1 / 2)) with (one_error n F s) by (rewrite Et; field).
  destruct (rle (one_error n F s) eps) eqn:R; [left; split; [apply rle_true; exact R|reflexivity]|]. apply rle_false in R. right. split; [exact R|].
  destruct (restore_run 1 (s_h s) c ph Zc ltac:(lia)) as (c' & ph' & Er & Z' & Ra & Rb & Rv & Rg & _ & Rp & Rph). rewrite Er. cbn [obind fst snd]. pose proof (restore_sig _ _ _ _ _ _ Er) as Rs.
  exists c', ph'. split; [exact Z'|]. split; [congruence|]. split; [intros i; apply Rp; lia|]. split; [exact Rs|]. split; [exact Rb|]. split; [intros x; rewrite Rph, Bt, O0, O1 by lia; field|].
  unfold shrink. destruct (Z.ltb (ifail + 1) 3), (Z.leb (ifail + 1) 3); destruct (rle _ _); reflexivity.
Qed.

Lemma zero_div a : 0 / a = 0. Proof. unfold Rdiv. ring. Qed.
Lemma norm_one u : norm 1 u = Rabs (u 0%nat).
Proof. unfold norm. cbn [norm2]. rewrite Rplus_0_l. apply sqrt_Rsqr_abs. Qed.
(* ---- at time zero the step size has no lower limit ---- *)
Definition arr12 : arr := Arr 12 (fun _ => 0).
Definition coef0 : coef := Coef arr12 arr12 arr12 arr12 arr12 (Arr 13 (fun _ => 0)) (Arr 13 (fun i => match i with O => 1 | S O => 1 / 2 | _ => 0 end)).
Lemma sized0 : sized coef0. Proof. constructor; reflexivity. Qed.
Definition pole : rhs := fun x _ _ => / x.
Definition stuck (s : ode) : Prop := sized (s_co s) /\ s_k s = 1%nat /\ s_nornd s = true /\ a_val (g (s_co s)) 0 = 1 /\ a_val (g (s_co s)) 1 = 1 / 2 /\ s_kold s = 0%nat /\ s_hold s = 0 /\ s_h s <> 0 /\ s_x s = 0 /\ (forall x, s_phi s 0%nat x = 0) /\ (forall i, s_wt s i = 1).
Lemma stuck_passes fuel : forall ifail s, stuck s -> passes fuel pole 1 (1 / 4) ifail s = Ok None.
Proof.
  induction fuel as [|fu IH]; intros ifail s (Z & K & Nr & G0 & G1 & Ko & Ho & Hh & Hx & Hp & Hw); cbn [passes]; [reflexivity|].
  assert (CS : count_steps s = 1%nat) by (unfold count_steps; rewrite Ho, Ko; destruct (Req_EM_T (s_h s) 0); [contradiction|reflexivity]).
  assert (E : one_error 1 (fun x _ => / x) s = 1 / 2).
  { unfold one_error. rewrite norm_one. unfold vdiv, vsub. rewrite Hp, Hw, Hx, Rplus_0_l. replace ((/ s_h s - 0) / 1) with (/ s_h s) by (field; exact Hh). rewrite Rabs_inv. field. apply Rabs_no_R0. exact Hh. }
  destruct (attempt_one (fun x _ => / x) 1 (1 / 4) ifail s Z K Nr G0 G1 ltac:(lia)) as (c & ph & p & OP & [(L & _)|(_ & c' & ph' & Z' & Gc & Pc & Sc & Bc & Hph & A)]); [rewrite E in L; lra|]. change pole with (fun (x : R) (_ : vec) (_ : nat) => / x). rewrite A. clear A. rewrite E, Hx, Rabs_R0, Rmult_0_r. cbn [obind].
  assert (Sh : shrink (1 / 4) (1 / 2) ifail = 1 / 2) by (unfold shrink; destruct (Z.ltb _ _); [|lra]; unfold rgt; destruct (Rlt_dec _ _); lra). rewrite Sh.
  replace (rle 0 (Rabs (1 / 2 * s_h s))) with true by (symmetry; apply rle_true, Rabs_pos). apply IH. unfold stuck. cbn [s_co s_k s_nornd s_kold s_hold s_h s_x s_phi s_wt].
  destruct OP as [_ Og _ _ _ _ _ _ _]. rewrite Gc, Og. split; [exact Z'|]. do 6 (split; [assumption || reflexivity|]). split; [intros Q; apply Hh; lra|]. split; [first [assumption|reflexivity]|]. split; [intros x; rewrite Hph; apply Hp|exact Hw].
Qed.
Definition at_zero : ode := Ode 0 1 0 1 0 0 true true true vzero vzero vzero (fun _ => 1) (fun _ => vzero) coef0.
Lemma rgt_no a b : a <= b -> rgt a b = false. Proof. intros. unfold rgt. destruct (Rlt_dec b a); [lra|reflexivity]. Qed.
Lemma rgt_yes a b : b < a -> rgt a b = true. Proof. intros. unfold rgt. destruct (Rlt_dec b a); [reflexivity|lra]. Qed.
Lemma step_endless : exists f n eps s, 0 < eps /\ sound s /\ quiet n eps s /\ s_h s = 1 /\ forall fuel junk, step fuel f n junk eps s = Ok None.
Proof.
  exists pole, 1%nat, (1 / 4), (Ode 0 1 0 1 0 0 false true true vzero vzero vzero (fun _ => 1) (fun _ => vzero) coef0).
  split; [lra|]. split; [split; [exact sized0|]; cbn; intros; repeat split; lia|]. split; [discriminate|]. split; [reflexivity|]. intros fuel junk. unfold step. cbn [s_x s_h s_yy s_wt s_co s_start s_hold s_k s_kold s_ns s_phase1 s_nornd s_yp s_p s_phi].
  rewrite rgt_no by (rewrite Rabs_R0, Rmult_0_r; apply Rabs_pos). rewrite rgt_no by (rewrite norm_one; unfold vdiv, vzero; rewrite zero_div, Rabs_R0; lra).
  destruct (ready_ok coef0 sized0) as (c & -> & Z & _ & _ & _ & _ & G0 & G1 & _). cbn [obind]. apply stuck_passes. unfold stuck. cbn [s_co s_k s_nornd s_kold s_hold s_h s_x s_phi s_wt]. split; [exact Z|]. do 6 (split; [assumption || reflexivity|]). split; [lra|]. auto.
Qed.

(* ---- the count of failures ---- *)
(* the first three failures of a step all go back to order one *)
Lemma failures_order f n eps ifail s s' i : sound s -> s_start s = false -> (ifail <= 2)%Z -> attempt f n eps ifail s = Ok (Again s' i) -> s_k s' = 1%nat.
Proof.
  intros (Z & H) St If E. destruct (H St) as (K & _ & Nr). destruct (attempt_cases f n eps ifail s Z K Nr) as (c & ph & p & yp & P & erk & knew & e1 & KN & [(L & A)|(L & t2 & k' & c' & ph' & Rs & K' & T3 & T2 & T1 & [(Lh & A)|(Lh & A)])]); rewrite A in E; try discriminate.
  injection E as <- _. cbn [s_k]. destruct (Z.eq_dec (ifail + 1) 3) as [Q|Q]; [apply T2; exact Q|apply T1; lia].
Qed.
Definition steady (x h : R) (F : R -> vec) : ode := Ode x h 3 1 1 1 false false true vzero vzero vzero (fun _ => 1) (fun _ => vzero) coef0.
Lemma steady_count x h F : h <> 3 -> count_steps (steady x h F) = 1%nat.
Proof. intros N. unfold count_steps, steady. cbn [s_h s_hold s_ns s_kold]. destruct (Req_EM_T h 3); [contradiction|reflexivity]. Qed.
Lemma steady_error x h F : one_error 1 F (steady x h F) = Rabs h * Rabs (F (x + h) 0%nat) / 2.
Proof. unfold one_error, steady. cbn [s_h s_x s_phi s_wt]. rewrite norm_one. unfold vdiv, vsub, vzero. replace ((F (x + h) 0%nat - 0) / 1) with (F (x + h) 0%nat) by field. reflexivity. Qed.
(* and the first one does not halve the step *)
Lemma first_failure_step : exists f n eps s s', sound s /\ s_start s = false /\ 0 < eps /\ attempt f n eps 0 s = Ok (Again s' 1) /\ s_h s' = s_h s / 4.
Proof.
  set (F := fun (_ : R) (_ : nat) => 8). destruct (attempt_one F 1 1 0 (steady 0 2 F) sized0 eq_refl eq_refl eq_refl eq_refl) as (c & ph & p & OP & [(L & _)|(_ & c' & ph' & Z' & Gc & Pc & Sc & Bc & Hph & A)]).
  { rewrite steady_count by lra. lia. }
  { rewrite steady_error in L. unfold F in L. rewrite !Rabs_right in L by lra. lra. }
  exists (fun x _ => F x), 1%nat, 1, (steady 0 2 F). eexists. split; [split; [exact sized0|]; cbn; intros; repeat split; lia|]. split; [reflexivity|]. split; [lra|].
  rewrite A. assert (E : one_error 1 F (steady 0 2 F) = 8) by (rewrite steady_error; unfold F; rewrite !Rabs_right by lra; field). rewrite E.
  assert (Sh : shrink 1 8 0 = 1 / 4).
  { unfold shrink. cbn [Z.ltb Z.add Z.compare Pos.compare Pos.compare_cont]. rewrite rgt_yes by lra. replace (0.5 * 1 / 8) with (Rsqr (1 / 4)) by (unfold Rsqr; lra). apply sqrt_Rsqr. lra. }
  rewrite Sh. replace (rle (fouru * Rabs (s_x (steady 0 2 F))) (Rabs (1 / 4 * s_h (steady 0 2 F)))) with true by (symmetry; apply rle_true; cbn [steady s_x s_h]; rewrite Rabs_R0, Rmult_0_r; apply Rabs_pos).
  split; [reflexivity|]. cbn [s_h steady]. field.
Qed.
(* the uninitialised counter decides whether a step succeeds *)
Lemma step_junk : exists f n eps s e1 s1 e2 s2, sound s /\ quiet n eps s /\ s_start s = false /\ 0 < eps /\ step 2 f n 0 eps s = Ok (Some (true, e1, s1)) /\ step 2 f n 5 eps s = Ok (Some (false, e2, s2)).
Proof.
  set (X := / fouru). pose proof fouru_pos as Fp. assert (HX : fouru * Rabs X = 1) by (unfold X; rewrite Rabs_right by (apply Rle_ge; left; apply Rinv_0_lt_compat; exact Fp); apply Rinv_r; lra).
  set (F := fun (x : R) (_ : nat) => if Rlt_dec (X + 3 / 2) x then 100 else 0). set (s := steady X 2 F).
  assert (Go : forall junk, step 2 (fun x _ => F x) 1 junk 1 s = do c <- ready coef0; passes 2 (fun x _ => F x) 1 1 junk (Ode X 2 3 1 1 1 false false true vzero vzero vzero (fun _ => 1) (fun _ => vzero) c)).
  { intros junk. unfold step, s, steady. cbn [s_x s_h s_yy s_wt s_co s_start s_hold s_k s_kold s_ns s_phase1 s_nornd s_yp s_p s_phi]. rewrite rgt_no by (rewrite HX, Rabs_right; lra). rewrite rgt_no; [reflexivity|]. rewrite norm_one. unfold vdiv, vzero. rewrite zero_div, Rabs_R0. lra. }
  destruct (ready_ok coef0 sized0) as (c0 & Rc & Z0 & _ & _ & _ & _ & G0 & G1 & _). rewrite Rc in Go. cbn [obind] in Go.
  set (s' := Ode X 2 3 1 1 1 false false true vzero vzero vzero (fun _ => 1) (fun _ => vzero) c0) in Go.
  assert (C1 : count_steps s' = 1%nat) by (unfold count_steps, s'; cbn [s_h s_hold s_ns s_kold]; destruct (Req_EM_T 2 3); [lra|reflexivity]).
  assert (E1 : one_error 1 F s' = 100).
  { unfold one_error, s'. cbn [s_h s_x s_phi s_wt]. rewrite norm_one. unfold vdiv, vsub, vzero, F. destruct (Rlt_dec (X + 3 / 2) (X + 2)); [|lra]. rewrite !Rabs_right by lra. field. }
  exists (fun x _ => F x), 1%nat, 1, s.
  destruct (attempt_one F 1 1 0 s' Z0 eq_refl eq_refl G0 G1 ltac:(lia)) as (c & ph & p & OP & [(L & _)|(_ & c' & ph' & Z' & Gc & Pc & Sc & Bc & Hph & A0)]); [lra|].
  destruct (attempt_one F 1 1 5 s' Z0 eq_refl eq_refl G0 G1 ltac:(lia)) as (d & pd & pp & OQ & [(L & _)|(_ & d' & pd' & Zd & Gd & Pd & Sd & Bd & Hpd & A5)]); [lra|].
  rewrite E1 in A0, A5.
  assert (Sh0 : shrink 1 100 0 < 1 / 2).
  { unfold shrink. cbn [Z.ltb Z.add Z.compare Pos.compare Pos.compare_cont]. rewrite rgt_yes by lra. replace (1 / 2) with (sqrt (Rsqr (1 / 2))) by (apply sqrt_Rsqr; lra). apply sqrt_lt_1; unfold Rsqr; lra. }
  assert (Sh0' : 0 <= shrink 1 100 0) by (unfold shrink; cbn [Z.ltb Z.add Z.compare Pos.compare Pos.compare_cont]; rewrite rgt_yes by lra; apply sqrt_pos).
  assert (Sh5 : shrink 1 100 5 = 1 / 2) by (unfold shrink; cbn [Z.ltb Z.add Z.compare Pos.compare Pos.compare_cont Pos.add Pos.succ]; lra).
  assert (Hs : Rabs (s_h s') = 2) by (cbn [s' s_h]; apply Rabs_right; lra).
  replace (rle (fouru * Rabs (s_x s')) (Rabs (shrink 1 100 0 * s_h s'))) with false in A0 by (symmetry; apply rle_false; change (s_x s') with X; rewrite HX, Rabs_mult, Hs, Rabs_right by lra; lra).
  replace (rle (fouru * Rabs (s_x s')) (Rabs (shrink 1 100 5 * s_h s'))) with true in A5 by (symmetry; apply rle_true; change (s_x s') with X; rewrite HX, Rabs_mult, Hs, Sh5, Rabs_right by lra; lra).
  set (sd := Ode (s_x s') (shrink 1 100 5 * s_h s') (s_hold s') 1 (s_kold s') (count_steps s') (s_start s') false true (s_yy s') (F (s_x s' + s_h s')) pp (s_wt s') pd' d') in A5.
  assert (Hd : s_h sd = 1) by (cbn [sd s_h s']; rewrite Sh5; lra).
  assert (C2 : count_steps sd = 1%nat) by (unfold count_steps; rewrite Hd; cbn [sd s_hold s_ns s_kold s']; destruct (Req_EM_T 1 3); [lra|reflexivity]).
  assert (E2 : one_error 1 F sd = 0).
  { unfold one_error. rewrite Hd. cbn [sd s_x s_phi s_wt s']. rewrite norm_one. unfold vdiv, vsub. rewrite Hpd. cbn [s' s_phi]. unfold vzero, F. destruct (Rlt_dec (X + 3 / 2) (X + 1)); [lra|]. replace ((0 - 0) / 1) with 0 by field. rewrite Rabs_R0. field. }
  destruct OQ as [_ Og _ _ _ _ _ _ _]. assert (Gd' : g d' = g c0) by (rewrite Gd, Og; reflexivity).
  destruct (attempt_one F 1 1 6 sd Zd eq_refl eq_refl) as (k & pk & pq & OK & [(_ & A6)|(L & _)]); [cbn [sd s_co]; rewrite Gd'; exact G0|cbn [sd s_co]; rewrite Gd'; exact G1|lia| |rewrite E2 in L; lra].
  destruct OK as [Zk _ _ _ _ _ _ _ _].
  match type of A6 with _ = Ok (Accepted ?a 1 0 ?e) => destruct (settle_run (fun x _ => F x) 1 1 a 1 0 e Zk ltac:(cbn [s_k]; lia) ltac:(lia)) as (s2 & St & _) end.
  do 4 eexists. split; [split; [exact sized0|]; cbn; intros; repeat split; lia|]. split; [discriminate|]. split; [reflexivity|]. split; [lra|]. split.
  - rewrite Go. cbn [passes]. rewrite A0. cbn [obind]. reflexivity.
  - rewrite Go. cbn [passes]. rewrite A5. cbn [obind Z.add Pos.add Pos.succ]. rewrite A6. cbn [obind]. rewrite St. cbn [obind]. reflexivity.
Qed.

(* ---- the driver ---- *)
Definition solver0 (fl : Z) (re ab : R) (s : ode) : solver := Solver fl 0 1 1 re ab 1 s.
(* an undocumented flag stays *)
Lemma de_bad_flag : exists S, forall fuel stp f junk y0 yout, exists r, de (Datatypes.S fuel) stp f junk 0 1 y0 yout S = Ok (Some r) /\ code r = 1%Z /\ iflag (r_solver r) = 7%Z.
Proof.
  exists (solver0 7 1 0 at_zero). intros. unfold de. cbn [solver0 neqn relerr abserr iflag told core]. destruct (Req_EM_T 0 1); [lra|]. destruct (Req_EM_T 0 0); [|lra]. rewrite (rgt_no 0 1) by lra. rewrite (rgt_no 0 0) by lra. rewrite (rgt_no 0 (Rmax 1 0)) by (rewrite Rmax_left; lra).
  cbn. eexists. split; [reflexivity|]. split; reflexivity.
Qed.
(* both tolerances zero: not refused *)
Lemma de_zero_tolerance : exists S, relerr S = 0 /\ abserr S = 0 /\ forall fuel stp f junk y0 yout r, de fuel stp f junk 0 1 y0 yout S = Ok (Some r) -> iflag (r_solver r) <> 6%Z.
Proof.
  exists (solver0 1 0 0 at_zero). split; [reflexivity|]. split; [reflexivity|]. intros fuel stp f junk y0 yout r E.
  destruct (de_outcome _ _ _ _ _ _ _ _ _ _ E) as [(D & _)|[(_ & F & _)|(_ & _ & l & e & s & _ & En)]].
  - exfalso. destruct D as [D|[D|[D|[D|[D|(_ & D & _)]]]]]; cbn [solver0 neqn relerr abserr iflag] in D; try lra; try lia.
  - cbn in F. lia.
  - destruct En; cbn [r_solver iflag asked q_sign solver0 Z.sgn]; lia.
Qed.
(* a tolerance close to the rounding error: no defined result *)
Lemma de_tight : exists S y0, relerr S = 0 /\ abserr S = / 10 ^ 7 /\ iflag S = 1%Z /\ neqn S = 1%Z /\ y0 0%nat = 7000000 /\ sized (s_co (core S)) /\
  forall fuel fs f jf junk yout, de (Datatypes.S fuel) (fun e s => step (Datatypes.S fs) f 1 (jf e s) e s) f junk 0 60 y0 yout S = UB.
Proof.
  exists (solver0 1 0 (/ 10 ^ 7) at_zero), (fun _ => 7000000). do 5 (split; [reflexivity|]). split; [exact sized0|]. intros fuel fs f jf junk yout. assert (T : 0 < / 10 ^ 7) by (apply Rinv_0_lt_compat, pow_lt; lra).
  rewrite de_run.
  2:{ intros D. destruct D as [D|[D|[D|[D|[D|(_ & D & _)]]]]]; cbn [solver0 neqn relerr abserr iflag] in D; try lra; try lia. }
  2:{ cbn. lia. }
  assert (M : Rmax (relerr (solver0 1 0 (/ 10 ^ 7) at_zero)) (abserr (solver0 1 0 (/ 10 ^ 7) at_zero)) = / 10 ^ 7) by (cbn [solver0 relerr abserr]; apply Rmax_right; lra).
  unfold asked. rewrite M. cbn [solver0 relerr abserr iflag Z.sgn q_sign q_t q_tout q_rel q_abs]. cbn [de_loop core].
  assert (FR : forall q, from (Solver 1 0 1 1 0 (/ 10 ^ 7) 1 at_zero) 0 60 q = Ode 0 (copysign (Rmax (Rabs (60 - 0)) (fouru * Rabs 0)) (60 - 0)) 0 1 0 0 true true true q vzero vzero (fun _ => 1) (fun _ => vzero) coef0).
  { intros q. unfold from. cbn [core delsgn iflag at_zero s_hold s_k s_kold s_ns s_phase1 s_nornd s_yp s_p s_wt s_phi s_co Z.abs Z.eqb Pos.eqb]. destruct (Rle_dec (1 * (60 - 0)) 0); reflexivity. }
  rewrite FR. cbn [s_x s_h s_yy]. replace (rle (Rabs (60 - 0)) (Rabs (0 - 0))) with false by (symmetry; apply rle_false; rewrite !Rabs_right by lra; lra). cbn [Z.leb Z.compare andb maxnum Nat.leb].
  rewrite step_undefined; [reflexivity|exact sized0|reflexivity| |].
  - cbn [set_wt set_h s_x]. rewrite Rabs_R0, Rmult_0_r. apply Rabs_pos.
  - cbn [set_wt set_h s_yy s_wt]. rewrite norm_one. unfold vdiv. rewrite (Rabs_right 7000000) by lra.
    replace (7000000 / (0 / / 10 ^ 7 * 7000000 + / 10 ^ 7 / / 10 ^ 7)) with 7000000 by (field; lra). rewrite Rabs_right by lra.
    unfold twou, umach. assert (P : 2 ^ 52 = 4503599627370496) by ring. rewrite P. assert (Q : 10 ^ 7 = 10000000) by ring. rewrite Q. lra.
Qed.
(* a call that follows one which ended by extrapolation fails, and takes the time back *)
Lemma continue_fails S tout tout2 fuel fs f n jf junk y0 yout : iflag S = 2%Z -> told S = tout -> (1 <= neqn S)%Z -> 0 <= relerr S -> 0 <= abserr S -> 0 < relerr S + abserr S ->
  s_h (core S) = tout - s_x (core S) -> Rabs (tout - s_x (core S)) < fouru * Rabs (s_x (core S)) -> 0 < delsgn S * (tout2 - tout) -> Rabs (s_x (core S) - tout) < Rabs (tout2 - tout) ->
  exists r, de (Datatypes.S fuel) (fun e s => step fs f n (jf e s) e s) f junk tout tout2 y0 yout S = Ok (Some r) /\ code r = 1%Z /\ iflag (r_solver r) = 3%Z /\ r_t r = s_x (core S) /\ relerr (r_solver r) = relerr S /\ abserr (r_solver r) = abserr S.
Proof.
  intros Fl To Ne R0 A0 RA Hh Hc Dl Hx. rewrite de_run.
  2:{ intros D. destruct D as [D|[D|[D|[D|[D|(D & _)]]]]]; first [lia|lra|congruence|rewrite D in Dl; lra]. }
  2:{ rewrite Fl. cbn. lia. }
  assert (M : 0 < Rmax (relerr S) (abserr S)) by (destruct (Rle_dec (relerr S) (abserr S)); [rewrite Rmax_right by lra; lra|rewrite Rmax_left by lra; lra]).
  unfold asked, from. rewrite Fl. destruct (Rle_dec (delsgn S * (tout2 - tout)) 0) as [Q|_]; [lra|]. cbn [Z.sgn Z.abs Z.eqb Pos.eqb q_sign q_rel q_abs]. cbn [de_loop core].
  replace (rle (Rabs (tout2 - tout)) (Rabs (s_x (core S) - tout))) with false by (symmetry; apply rle_false; exact Hx). cbn [Z.leb Z.compare andb maxnum Nat.leb].
  unfold step. cbn [set_wt set_h s_x s_h]. rewrite rgt_yes.
  - cbn [obind]. eexists. split; [reflexivity|]. cbn [code iflag r_solver r_t relerr abserr s_x Z.mul Pos.mul]. split; [reflexivity|]. split; [reflexivity|]. split; [reflexivity|]. split; field; lra.
  - rewrite Rabs_copysign. rewrite Rabs_right; [|apply Rle_ge; apply Rmin_glb; apply Rabs_pos]. eapply Rle_lt_trans; [apply Rmin_l|]. rewrite Hh. exact Hc.
Qed.
Lemma de_continue : exists S t tout tout2, forall f y0 yout n fuel fs jf junk, exists r r2, de (Datatypes.S fuel) (fun e s => step fs f n (jf e s) e s) f junk t tout y0 yout S = Ok (Some r) /\ code r = 0%Z /\ r_t r = tout /\ iflag (r_solver r) = 2%Z /\ t < tout < tout2 /\
  de (Datatypes.S fuel) (fun e s => step fs f n (jf e s) e s) f junk tout tout2 y0 yout (r_solver r) = Ok (Some r2) /\ code r2 = 1%Z /\ iflag (r_solver r2) = 3%Z /\ r_t r2 = t /\ relerr (r_solver r2) = relerr S /\ abserr (r_solver r2) = abserr S.
Proof.
  set (t := 2 ^ 52). assert (Ft : fouru * Rabs t = 4) by (unfold fouru, umach, t; rewrite Rabs_right by (apply Rle_ge, pow_le; lra); field; apply pow_nonzero; lra).
  exists (solver0 (-1) (1 / 1000) 0 at_zero), t, (t + 1), (t + 1000). intros f y0 yout n fuel fs jf junk.
  assert (Ni : ~ improper (solver0 (-1) (1 / 1000) 0 at_zero) t (t + 1)).
  { intros D. destruct D as [D|[D|[D|[D|[D|(_ & _ & D)]]]]]; cbn [solver0 neqn relerr abserr iflag] in D; try lia; try lra. }
  rewrite de_run by (try exact Ni; cbn; lia). 
  assert (FR : exists h, from (solver0 (-1) (1 / 1000) 0 at_zero) t (t + 1) y0 = Ode t h 0 1 0 0 true true true y0 vzero vzero (fun _ => 1) (fun _ => vzero) coef0).
  { unfold from. cbn [core delsgn iflag at_zero s_hold s_k s_kold s_ns s_phase1 s_nornd s_yp s_p s_wt s_phi s_co Z.abs Z.eqb Pos.eqb solver0]. eexists. destruct (Rle_dec _ 0); reflexivity. }
  destruct FR as (h & ->). cbn [de_loop core s_x]. replace (rle (Rabs (t + 1 - t)) (Rabs (t - t))) with false by (symmetry; apply rle_false; replace (t + 1 - t) with 1 by ring; replace (t - t) with 0 by ring; rewrite !Rabs_right by lra; lra).
  cbn [asked solver0 iflag Z.sgn q_sign Z.leb Z.compare andb]. rewrite rgt_yes by (rewrite Ft; replace (t + 1 - t) with 1 by ring; rewrite Rabs_right; lra).
  match goal with |- context [Ok (Some ?r)] => destruct (continue_fails (r_solver r) (t + 1) (t + 1000) fuel fs f n jf junk y0 yout) as (r2 & E2 & C2 & F2 & T2 & R2 & A2) end;
    unfold arrive; cbn [r_solver iflag told neqn relerr abserr core delsgn set_yp set_h s_h s_x solver0]; try reflexivity; try lra; try lia.
  - rewrite Ft. replace (t + 1 - t) with 1 by ring. rewrite Rabs_right; lra.
  - unfold renewed, solver0. cbn [delsgn iflag Z.abs Z.eqb Pos.eqb]. assert (C : copysign 1 (t + 1 - t) = 1) by (unfold copysign; destruct (Rlt_dec (t + 1 - t) 0); [lra|rewrite Rabs_right; lra]). destruct (Rle_dec _ 0); rewrite C; lra.
  - replace (t - (t + 1)) with (-1) by ring. replace (t + 1000 - (t + 1)) with 999 by ring. rewrite Rabs_left, Rabs_right by lra. lra.
  - do 2 eexists. split; [reflexivity|]. split; [reflexivity|]. split; [reflexivity|]. split; [reflexivity|]. split; [lra|]. split; [exact E2|]. split; [exact C2|]. split; [exact F2|]. split; [exact T2|]. split; [exact R2|exact A2].
Qed.

(* ---- the coefficients after the order was lowered and raised ---- *)
(* five passes with steps of one size, of orders 4, 4, 3, 3, 4; the last one uses a wrong coefficient *)
Lemma wrong_coefficient : exists c1 c2 c3 c4 c5,
  coefficients 1 4 3 1 coef0 = Ok c1 /\ coefficients 1 4 4 2 c1 = Ok c2 /\ coefficients 1 3 4 3 c2 = Ok c3 /\ coefficients 1 3 3 4 c3 = Ok c4 /\ coefficients 1 4 3 4 c4 = Ok c5 /\ a_val (g c5) 4 = 499 / 1440.
Proof.
  do 5 eexists. do 5 (split; [cbv -[Rplus Rminus Rmult Rdiv Rinv Ropp IZR]; reflexivity|]). cbv -[Rplus Rminus Rmult Rdiv Rinv Ropp IZR]. field.
Qed.
(* the coefficient of the fourth difference in the Adams-Bashforth formulas is 251/720 *)
Lemma right_coefficient : lv 4 0 = 251 / 720.
Proof. unfold lv. cbn [level]. cbn [INR]. field. Qed.

(* ---- interpolation after a failed pass of order one ---- *)
Definition bumps (x : R) (_ : nat) : R := if Req_EM_T x 1 then 3 / 2 else if Req_EM_T x 2 then 2 else 0.
Lemma bumps_1 : bumps 1 0 = 3 / 2. Proof. unfold bumps. destruct (Req_EM_T 1 1); lra. Qed.
Lemma bumps_2 : bumps 2 0 = 2. Proof. unfold bumps. destruct (Req_EM_T 2 1); [lra|]. destruct (Req_EM_T 2 2); lra. Qed.
Lemma bumps_0 x : x <= 0 -> forall i, bumps x i = 0. Proof. intros. unfold bumps. destruct (Req_EM_T x 1); [lra|]. destruct (Req_EM_T x 2); lra. Qed.
Definition minus_one : ode := Ode (-1) 2 0 1 0 0 true true true vzero vzero vzero (fun _ => 1) (fun _ => vzero) coef0.
Lemma fouru_small : fouru <= 1 / 4.
Proof. unfold fouru, umach. assert (P : 2 ^ 52 = 4503599627370496) by ring. rewrite P. lra. Qed.
Lemma shrink_half eps E i : 0.25 * E <= 0.5 * eps -> shrink eps E i = 1 / 2.
Proof. intros H. unfold shrink. rewrite rgt_no by exact H. destruct (Z.ltb _ _); lra. Qed.
(* two passes of order one in a row: the first fails, the second is accepted with half the step *)
Lemma fail_then_pass F n eps ifail s : sized (s_co s) -> s_k s = 1%nat -> s_nornd s = true -> a_val (g (s_co s)) 0 = 1 -> a_val (g (s_co s)) 1 = 1 / 2 -> count_steps s = 1%nat -> 0 < s_h s -> fouru * Rabs (s_x s) <= s_h s / 2 ->
  eps < one_error n F s <= 2 * eps -> s_h s / 2 * norm n (vdiv (vsub (F (s_x s + s_h s / 2)) (s_phi s 0%nat)) (s_wt s)) / 2 <= eps ->
  exists a erk, sized (s_co a) /\ erk = s_h s / 2 * norm n (vdiv (vsub (F (s_x s + s_h s / 2)) (s_phi s 0%nat)) (s_wt s)) / 2 /\
    s_x a = s_x s + s_h s / 2 /\ s_h a = s_h s / 2 /\ s_k a = 1%nat /\ s_start a = s_start s /\ s_phase1 a = false /\ s_nornd a = true /\ s_yy a = s_yy s /\ s_yp a = F (s_x s + s_h s / 2) /\ (forall x, s_p a x = s_yy s x + s_h s / 2 * s_phi s 0%nat x) /\ s_wt a = s_wt s /\ (forall x, s_phi a 0%nat x = s_phi s 0%nat x) /\ g (s_co a) = g (s_co s) /\
    s_ns a = (if Req_EM_T (s_h s / 2) (s_hold s) then if Nat.leb 1 (s_kold s) then 2 else 1 else 1)%nat /\
    a_val (psi (s_co a)) 0 = (if Req_EM_T (s_h s / 2) (s_hold s) then if Nat.leb 1 (s_kold s) then s_h s else s_h s / 2 else s_h s / 2) /\ a_val (sig (s_co a)) 1 = 1 /\ a_val (beta (s_co a)) 0 = 1 /\
    forall fuel, passes (S (S fuel)) (fun x _ => F x) n eps ifail s = do s <- settle (fun x _ => F x) n eps a 1 0 erk; Ok (Some (false, eps, s)).
Proof.
  intros Z K Nr G0 G1 CS Ph Hx (E1 & E1') E2. set (h := s_h s / 2) in *.
  destruct (attempt_one F n eps ifail s Z K Nr G0 G1 ltac:(lia)) as (c & ph & p & OP & [(L & _)|(_ & c' & ph' & Z' & Gc & Pc & Sc & Bc & Hph & A)]); [lra|].
  rewrite (shrink_half eps) in A by lra. replace (1 / 2 * s_h s) with h in A by (unfold h; field).
  replace (rle (fouru * Rabs (s_x s)) (Rabs h)) with true in A by (symmetry; apply rle_true; rewrite (Rabs_right h) by (unfold h; lra); exact Hx).
  rewrite CS in A. match type of A with _ = Ok (Again ?a _) => set (s' := a) in A end.
  destruct OP as [_ Og Op _ Os Ob _ _ _]. specialize (Op CS).
  assert (C2 : count_steps s' = (if Req_EM_T h (s_hold s) then if Nat.leb 1 (s_kold s) then 2 else 1 else 1)%nat).
  { unfold count_steps, s'. cbn [s_h s_hold s_ns s_kold]. destruct (Req_EM_T h (s_hold s)); [destruct (Nat.leb 1 (s_kold s)); reflexivity|]. reflexivity. }
  assert (Ee : one_error n F s' = h * norm n (vdiv (vsub (F (s_x s + h)) (s_phi s 0%nat)) (s_wt s)) / 2).
  { unfold one_error, s'. cbn [s_h s_x s_phi s_wt]. rewrite (Rabs_right h) by (unfold h; lra). unfold norm. do 3 f_equal. apply norm2_ext. intros i _. unfold vdiv, vsub. rewrite Hph. reflexivity. }
  destruct (attempt_one F n eps (ifail + 1) s' Z' eq_refl eq_refl) as (c2 & ph2 & p2 & OP2 & [(_ & A2)|(L & _)]); [cbn [s' s_co]; rewrite Gc, Og; exact G0|cbn [s' s_co]; rewrite Gc, Og; exact G1|intros _; cbn [s' s_co]; rewrite Sc, Bc; auto| |lra].
  destruct OP2 as [Z2 Og2 Op2 Opp2 Os2 Ob2 Oh2 _ Oy2]. cbn [s' s_co s_phi s_yy s_h] in Og2, Op2, Opp2, Oh2, Oy2.
  eexists. exists (one_error n F s'). split; [|split; [exact Ee|]]; [|split; [|split; [|split; [|split; [|split; [|split; [|split; [|split; [|split; [|split; [|split; [|split; [|split; [|split; [|split; [|split; [|intros fuel; cbn [passes]; rewrite A; cbn [obind]; rewrite A2; cbn [obind]; reflexivity]]]]]]]]]]]]]]]]]; cbn [s_co s_x s_h s_k s_start s_phase1 s_nornd s_yy s_yp s_p s_wt s_phi s_ns s']; try reflexivity; try assumption.
  - intros x. rewrite Oy2, Hph. reflexivity.
  - intros x. rewrite Oh2. apply Hph.
  - congruence.
  - rewrite C2 in Op2, Opp2. destruct (Req_EM_T h (s_hold s)); [destruct (Nat.leb 1 (s_kold s))|].
    + rewrite Opp2 by lia. rewrite Pc. exact Op.
    + apply Op2. reflexivity.
    + apply Op2. reflexivity.
Qed.

Lemma settle_one f n eps a : sized (s_co a) -> s_k a = 1%nat -> s_phase1 a = false -> s_ns a = 1%nat -> 0 <= eps -> exists s', settle f n eps a 1 0 0 = Ok s' /\ s_k s' = 1%nat /\ s_h s' = 2 * s_h a.
Proof.
  intros [Zp Za Zb Zv Zw Zs Zg] K P1 Ns He. unfold settle. rewrite K, P1, Ns. rewrite (rd_ok (g (s_co a))) by lia. cbn [obind]. rewrite col_ok by lia. cbn [obind]. rewrite setcol_ok by lia. cbn [obind]. rewrite col_ok by lia. cbn [obind]. rewrite col_ok by (cbn; lia). cbn [obind]. rewrite setcol_ok by (cbn; lia). cbn [obind iterate]. rewrite col_ok by lia. cbn [obind]. rewrite col_ok by lia. cbn [obind]. rewrite setcol_ok by lia. cbn [obind].
  cbn [andb negb orb Nat.eqb Nat.ltb Nat.leb Nat.add obind Z.eqb]. replace (rle (0 * 2 ^ 2) (0.5 * eps)) with true by (symmetry; apply rle_true; lra). eexists. split; [reflexivity|]. split; reflexivity.
Qed.
Lemma wrong_interpolation : exists f s0 s1, forall junk1 junk2 j, exists s2, step 2 f 1 junk1 1 s0 = Ok (Some (false, 1, s1)) /\
  step 2 f 1 junk2 1 (Ode (s_x s1) (s_h s1) (s_hold s1) (s_k s1) (s_kold s1) (s_ns s1) (s_start s1) (s_phase1 s1) (s_nornd s1) (s_yy s1) (s_yp s1) (s_p s1) (fun _ => 1) (s_phi s1) (s_co s1)) = Ok (Some (false, 1, s2)) /\
  s_start s0 = true /\ s_x s1 = 0 /\ s_x s2 = 1 /\ s_kold s2 = 1%nat /\ f 0 (s_yy s1) 0%nat = 0 /\ f 1 (s_yy s2) 0%nat = 3 / 2 /\ exists yo ypo, intrp s2 (1 / 2) j = Ok (yo, ypo) /\ ypo 0%nat = 9 / 8.
Proof.
  set (f := fun (x : R) (_ : vec) => bumps x).
  (* the first step *)
  destruct (ready_ok coef0 sized0) as (c0 & Rc0 & Zc0 & _ & _ & _ & _ & G0 & G1 & _).
  set (q1 := Ode (-1) 2 0 1 0 0 false true true vzero (bumps (-1)) vzero (fun _ : nat => 1) (fun i => if Nat.eqb i 1 then vzero else (fun i => if Nat.eqb i 0 then bumps (-1) else vzero) i) c0).
  assert (Nz : forall u, (forall i, u i = 0) -> norm 1 (vdiv u (fun _ => 1)) = 0) by (intros u Hu; rewrite norm_one; unfold vdiv; rewrite Hu, zero_div; apply Rabs_R0).
  pose proof fouru_pos as Fp. pose proof fouru_small as Fs.
  assert (Go : forall fuel junk, step fuel f 1 junk 1 minus_one = passes fuel f 1 1 0 q1).
  { intros fuel junk. unfold step, minus_one. cbn [s_x s_h s_yy s_wt s_co s_start s_hold s_k s_kold s_ns s_phase1 s_nornd s_yp s_p s_phi]. rewrite Nz by reflexivity.
    rewrite rgt_no by (rewrite (Rabs_left (-1)), (Rabs_right 2); lra). rewrite rgt_no by lra. rewrite Rc0. cbn [obind]. rewrite setcol_ok by lia. cbn [obind]. rewrite setcol_ok by lia. cbn [obind]. unfold f at 1 2 3 4. rewrite Nz by (intros i; apply bumps_0; lra).
    rewrite rgt_no by lra. replace (rle (0.5 * 1) (100 * (twou * 0))) with false by (symmetry; apply rle_false; lra). cbn [negb obind].
    replace (copysign (Rmax (Rabs 2) (fouru * Rabs (-1))) 2) with 2; [reflexivity|]. rewrite (Rabs_left (-1)), (Rabs_right 2) by lra. rewrite Rmax_left by lra. unfold copysign. destruct (Rlt_dec 2 0); [lra|]. rewrite Rabs_right; lra. }
  assert (CS : count_steps q1 = 1%nat) by (unfold count_steps, q1; cbn [s_h s_hold s_ns s_kold]; destruct (Req_EM_T 2 0); [lra|reflexivity]).
  assert (P0 : bumps (-1) 0 = 0) by (apply bumps_0; lra). assert (P1 : bumps 0 0 = 0) by (apply bumps_0; lra).
  assert (E1 : one_error 1 bumps q1 = 3 / 2).
  { unfold one_error, q1. cbn [s_h s_x s_phi s_wt Nat.eqb]. rewrite norm_one. unfold vdiv, vsub. replace (-1 + 2) with 1 by lra. rewrite bumps_1, P0. rewrite !Rabs_right by lra. field. }
  destruct (fail_then_pass bumps 1 1 0 q1 Zc0 eq_refl eq_refl G0 G1 CS) as (a & erk & Za & Ee & Ax & Ah & Ak & As & Ap1 & An & Ay & Ayp & App & Aw & Aph & Ag & Ans & Aps & Asg & Abt & Run1); [cbn [q1 s_h]; lra|cbn [q1 s_h s_x]; rewrite Rabs_left by lra; lra|lra| |].
  { cbn [q1 s_h s_x s_phi s_wt Nat.eqb]. replace (-1 + 2 / 2) with 0 by field. rewrite norm_one. unfold vdiv, vsub. rewrite P0, P1. replace ((0 - 0) / 1) with 0 by field. rewrite Rabs_R0. lra. }
  assert (Ek : erk = 0).
  { rewrite Ee. cbn [q1 s_h s_x s_phi s_wt Nat.eqb]. replace (-1 + 2 / 2) with 0 by field. rewrite norm_one. unfold vdiv, vsub. rewrite P0, P1. replace ((0 - 0) / 1) with 0 by field. rewrite Rabs_R0. field. }
  rewrite Ek in Run1. cbn [q1 s_h s_x s_hold s_kold s_yy s_phi s_wt s_start s_co Nat.eqb] in Ax, Ah, As, Ay, Ayp, App, Aw, Aph, Ag, Ans, Aps. replace (-1 + 2 / 2) with 0 in * by field. replace (2 / 2) with 1 in * by field.
  destruct (Req_EM_T 1 0); [lra|].
  destruct (settle_one f 1 1 a Za Ak Ap1 Ans ltac:(lra)) as (s1 & St1 & K1 & H1).
  destruct (settle_run f 1 1 a 1 0 0 Za ltac:(lia) ltac:(lia)) as (s1' & St1' & X1 & Ho1 & _ & _ & Ko1 & N1 & Sta1 & Nr1 & W1 & C1 & _ & Y1 & Yp1 & Ph1 & Ph10). rewrite St1 in St1'. injection St1' as <-. rewrite Ak in Ph1, Ph10, Ko1, Y1. rewrite Ax in *. rewrite Ah in *.
  exists f, minus_one, s1.
  (* the second step *)
  destruct (ready_ok (s_co s1) ltac:(rewrite C1; exact Za)) as (c2 & Rc2 & Zc2 & _ & _ & _ & _ & G20 & G21 & _).
  set (q2 := Ode (s_x s1) (s_h s1) (s_hold s1) (s_k s1) (s_kold s1) (s_ns s1) false (s_phase1 s1) (s_nornd s1) (s_yy s1) (s_yp s1) (s_p s1) (fun _ : nat => 1) (s_phi s1) c2).
  assert (V1 : s_phi s1 0%nat 0%nat = 0).
  { rewrite Ph10 by lia. rewrite Aph, P0, Yp1. unfold f. rewrite P1. lra. }
  assert (Y0 : s_yy s1 0%nat = 0).
  { rewrite Y1, App, Ayp, Aph, P0, P1. unfold vzero. ring. }
  assert (Go2 : forall fuel junk, step fuel f 1 junk 1 (Ode (s_x s1) (s_h s1) (s_hold s1) (s_k s1) (s_kold s1) (s_ns s1) (s_start s1) (s_phase1 s1) (s_nornd s1) (s_yy s1) (s_yp s1) (s_p s1) (fun _ => 1) (s_phi s1) (s_co s1)) = passes fuel f 1 1 junk q2).
  { intros fuel junk. unfold step. cbn [s_x s_h s_yy s_wt s_co s_start s_hold s_k s_kold s_ns s_phase1 s_nornd s_yp s_p s_phi]. rewrite X1, H1. rewrite rgt_no by (rewrite Rabs_R0, Rmult_0_r; apply Rabs_pos). rewrite rgt_no by (rewrite norm_one; unfold vdiv; rewrite Y0, zero_div, Rabs_R0; lra).
    rewrite Rc2. cbn [obind]. rewrite Sta1, As. unfold q2. rewrite X1, H1. reflexivity. }
  replace (2 * 1) with 2 in H1 by ring.
  assert (CS2 : count_steps q2 = 1%nat) by (unfold count_steps, q2; cbn [s_h s_hold s_ns s_kold]; rewrite H1, Ho1, Ko1; destruct (Req_EM_T 2 1); [lra|reflexivity]).
  assert (E2 : one_error 1 bumps q2 = 2).
  { unfold one_error, q2. cbn [s_h s_x s_phi s_wt]. rewrite norm_one. unfold vdiv, vsub. rewrite X1, H1, V1. replace (0 + 2) with 2 by ring. rewrite bumps_2. rewrite !Rabs_right by lra. field. }
  assert (E3 : forall junk, exists b e2, sized (s_co b) /\ s_x b = 1 /\ s_h b = 1 /\ s_k b = 1%nat /\ s_yp b = bumps 1 /\ (forall x, s_phi b 0%nat x = s_phi s1 0%nat x) /\ a_val (psi (s_co b)) 0 = 2 /\ forall fuel, passes (S (S fuel)) f 1 1 junk q2 = do s <- settle f 1 1 b 1 0 e2; Ok (Some (false, 1, s))).
  { intros junk. destruct (fail_then_pass bumps 1 1 junk q2 Zc2 K1 Nr1 G20 G21 CS2) as (b & e2 & Zb & _ & Bx & Bh & Bk & _ & _ & _ & _ & Byp & _ & _ & Bph & _ & _ & Bps & _ & _ & Run2); cbn [q2 s_h s_x s_phi s_wt s_hold s_kold] in *; rewrite ?H1, ?X1, ?Ho1, ?Ko1 in *; replace (2 / 2) with 1 in * by field; replace (0 + 1) with 1 in * by ring; [lra|rewrite Rabs_R0; lra|lra| |].
    - rewrite norm_one. unfold vdiv, vsub. rewrite V1, bumps_1, Rabs_right by lra. lra.
    - exists b, e2. destruct (Req_EM_T 1 1); [|lra]. cbn [Nat.leb] in Bps. auto 20. }
  intros junk1 junk2 j. destruct (E3 junk2) as (b & e2 & Zb & Bx & Bh & Bk & Byp & Bph & Bps & Run2).
  destruct (settle_run f 1 1 b 1 0 e2 Zb ltac:(lia) ltac:(lia)) as (s2 & St2 & X2 & _ & _ & _ & Ko2 & _ & _ & _ & _ & C2 & _ & _ & Yp2 & Ph2 & Ph20). rewrite Bk in Ph2, Ph20, Ko2. rewrite Bx in *.
  exists s2. split; [rewrite Go; exact (eq_trans (Run1 0%nat) (f_equal (fun o => do s <- o; Ok (Some (false, 1, s))) St1))|].
  split; [rewrite Go2; exact (eq_trans (Run2 0%nat) (f_equal (fun o => do s <- o; Ok (Some (false, 1, s))) St2))|].
  split; [reflexivity|]. split; [exact X1|]. split; [exact X2|]. split; [exact Ko2|]. split; [exact P1|]. split; [exact bumps_1|].
  destruct (intrp_run s2 (1 / 2) j ltac:(rewrite C2; exact Zb) ltac:(lia)) as (yo & ypo & Ei & _ & Hy). exists yo, ypo. split; [exact Ei|]. rewrite Hy, Ko2. cbn [sumn]. unfold factors. cbn [prodn]. unfold gam, eta. rewrite X2, C2, Bps.
  rewrite Ph2, (Ph20 0%nat) by lia. rewrite Bph, V1, Yp2. unfold f. rewrite bumps_1. field.
Qed.

(* ---- the passes of a step are passes over the history ---- *)
Lemma step_starts f n s fuel junk eps : sized (s_co s) -> s_start s = true -> s_h s <> 0 -> quiet n eps s -> fouru * Rabs (s_x s) <= Rabs (s_h s) -> 0 < eps -> exists s0, step fuel f n junk eps s = passes fuel f n eps 0 s0 /\
  reach f n s0 (fun _ => s_x s) (fun _ => f (s_x s) (s_yy s)) false /\ s_x s0 = s_x s /\ s_yy s0 = s_yy s /\ s_wt s0 = s_wt s.
Proof.
  intros Z St Hh Q Lh Le. specialize (Q St). assert (Rp : 0 <= twou * norm n (vdiv (s_yy s) (s_wt s))) by (apply Rmult_le_pos; [pose proof umach_pos; unfold twou; lra|apply sqrt_pos]).
  unfold step. rewrite (rgt_no _ _ Lh). rewrite rgt_no by lra. destruct (ready_ok (s_co s) Z) as (c & -> & Zc & _ & _ & _ & _ & G0 & G1 & _). cbn [obind]. rewrite St. rewrite setcol_ok by lia. cbn [obind]. rewrite setcol_ok by lia. cbn [obind].
  replace (rle (0.5 * eps) (100 * (twou * norm n (vdiv (s_yy s) (s_wt s))))) with false by (symmetry; apply rle_false; lra). cbn [negb obind]. eexists. split; [reflexivity|]. split; [|repeat split].
  apply R_start; cbn [s_co s_k s_kold s_hold s_h s_nornd s_x s_yy s_phi Nat.eqb]; try assumption; try reflexivity.
  intros E. assert (P : 0 < Rmax (if rgt (16 * norm n (vdiv (f (s_x s) (s_yy s)) (s_wt s)) * s_h s * s_h s) eps then 0.25 * sqrt (eps / norm n (vdiv (f (s_x s) (s_yy s)) (s_wt s))) else Rabs (s_h s)) (fouru * Rabs (s_x s))).
  { eapply Rlt_le_trans; [|apply Rmax_l]. set (sum := norm n (vdiv (f (s_x s) (s_yy s)) (s_wt s))). unfold rgt. destruct (Rlt_dec eps (16 * sum * s_h s * s_h s)) as [L|]; [|apply Rabs_pos_lt; exact Hh].
    assert (0 <= sum) by apply sqrt_pos. assert (sum <> 0) by (intros Q0; rewrite Q0 in L; lra). apply Rmult_lt_0_compat; [lra|]. apply sqrt_lt_R0. apply Rdiv_lt_0_compat; lra. }
  apply (f_equal Rabs) in E. rewrite Rabs_copysign, Rabs_R0, Rabs_right in E by lra. lra.
Qed.
Lemma step_continues f n s X F b eps ifail a knew e1 erk s1 h wt fuel junk eps2 : reach f n s X F b -> safe s b -> attempt f n eps ifail s = Ok (Accepted a knew e1 erk) -> settle f n eps a knew e1 erk = Ok s1 -> s_start s = false ->
  0 < s_h s * h -> fouru * Rabs (s_x s1) <= Rabs h -> twou * norm n (vdiv (s_yy s1) wt) <= eps2 / 2 -> exists s0,
  step fuel f n junk eps2 (Ode (s_x s1) h (s_hold s1) (s_k s1) (s_kold s1) (s_ns s1) (s_start s1) (s_phase1 s1) (s_nornd s1) (s_yy s1) (s_yp s1) (s_p s1) wt (s_phi s1) (s_co s1)) = passes fuel f n eps2 junk s0 /\
  reach f n s0 (before (s_x s1) X) (before (s_yp s1) F) (if Nat.leb (count_steps s) 1 then false else b || Nat.ltb (s_k s) (s_kold s)) /\ s_x s0 = s_x s1 /\ s_yy s0 = s_yy s1 /\ s_wt s0 = wt /\ s_h s0 = h.
Proof.
  intros R Sf E St Ss Hh Lh Lr. destruct (reach_inv _ _ _ _ _ _ R) as (d & I).
  destruct (accepted_facts _ _ _ _ _ _ _ _ _ (i_sized _ _ _ _ _ I) (i_k _ _ _ _ _ I) (i_nornd _ _ _ _ _ I) E) as (c & ph & p & yp & P & _ & KN & Ea).
  destruct (settle_run f n eps a knew e1 erk) as (s1' & St' & _ & _ & _ & _ & _ & _ & Hst & _ & _ & Hc & _); [rewrite Ea; exact (q_sized _ _ _ _ _ _ P)|rewrite Ea; exact (i_k _ _ _ _ _ I)|exact KN|]. rewrite St in St'. injection St' as <-.
  destruct (ready_ok (s_co s1)) as (c2 & Rc & _); [rewrite Hc, Ea; exact (q_sized _ _ _ _ _ _ P)|].
  eexists. split; [|split; [exact (R_next f n s X F b eps ifail a knew e1 erk s1 h wt c2 R Sf E St Hh Rc)|repeat split]].
  unfold step. cbn [s_x s_h s_yy s_wt s_co s_start s_hold s_k s_kold s_ns s_phase1 s_nornd s_yp s_p s_phi]. rewrite (rgt_no _ _ Lh). rewrite rgt_no by lra. rewrite Rc. cbn [obind]. rewrite Hst, Ea. cbn [s_start]. rewrite Ss. reflexivity.
Qed.
(* failed passes leave the time, the state and the history *)
Lemma failed_pass f n s X F b eps ifail s' ifail' : reach f n s X F b -> safe s b -> 0 <= eps -> attempt f n eps ifail s = Ok (Again s' ifail') -> s_h s' <> 0 -> (2 <= s_k s)%nat \/ s_kold s = 0%nat \/ s_h s' <> s_hold s ->
  s_x s' = s_x s /\ s_yy s' = s_yy s /\ (0 < s_h s' / s_h s <= 1 / 2) /\ (1 <= s_k s' <= s_k s)%nat /\ reach f n s' X F (b || Nat.ltb (s_k s) (s_kold s)).
Proof.
  intros R Sf He E Nz Ex. pose proof (R_again f n s X F b eps ifail s' ifail' R Sf He E Nz Ex) as R'. destruct (reach_inv _ _ _ _ _ _ R) as (d & I). pose proof (i_k _ _ _ _ _ I) as K.
  destruct (attempt_cases f n eps ifail s (i_sized _ _ _ _ _ I) K (i_nornd _ _ _ _ _ I)) as (c & ph & p & yp & P & erk & knew & e1 & KN & [(L & A)|(L & t2 & k' & c' & ph' & Rs & K' & T3 & T2 & T1 & [(Lh & A)|(_ & A)])]); rewrite A in E; try discriminate.
  injection E as <- <-. cbn [s_x s_yy s_h s_k] in *. split; [reflexivity|]. split; [reflexivity|]. split; [|split; [lia|exact R']].
  pose proof (halved eps erk ifail t2 He (fun Q => proj1 (T3 Q)) (fun Q => proj1 (T2 Q)) (fun Q => proj2 (T1 Q))) as H. assert (s_h s <> 0) by (intros Q; apply Nz; rewrite Q; ring). assert (t2 <> 0) by (intros Q; apply Nz; rewrite Q; ring).
  replace (t2 * s_h s / s_h s) with t2 by (field; assumption). lra.
Qed.

(* ---- concrete cases ---- *)
Lemma first_pass : exists f n s X F a knew e1 erk s1, reach f n s X F false /\ safe s false /\ attempt f n 1 0 s = Ok (Accepted a knew e1 erk) /\ settle f n 1 a knew e1 erk = Ok s1 /\ s_x s1 = 2 /\ s_yy s1 0%nat = 6.
Proof.
  set (f := fun (_ : R) (_ : vec) (_ : nat) => 3). set (s := Ode 0 2 0 1 0 0 false true true vzero (fun _ => 3) vzero (fun _ => 1) (fun _ _ => 3) coef0).
  assert (R : reach f 1 s (fun _ => 0) (fun _ _ => 3) false) by (apply R_start; try reflexivity; [exact sized0|cbn; lra]).
  assert (Sf : safe s false) by (intros (Q & _); discriminate).
  assert (E : one_error 1 (fun _ _ => 3) s = 0) by (unfold one_error, s; cbn [s_h s_x s_phi s_wt]; rewrite norm_one; unfold vdiv, vsub; replace ((3 - 3) / 1) with 0 by field; rewrite Rabs_R0; field).
  assert (C : count_steps s = 1%nat) by (unfold count_steps, s; cbn [s_h s_hold s_ns s_kold]; destruct (Req_EM_T 2 0); [lra|reflexivity]).
  destruct (attempt_one (fun _ _ => 3) 1 1 0 s sized0 eq_refl eq_refl eq_refl eq_refl ltac:(lia)) as (c & ph & p & OP & [(_ & A)|(L & _)]); [|lra]. destruct OP as [Zc Gc _ _ _ _ Oh _ Oy].
  match type of A with _ = Ok (Accepted ?a 1 0 ?e) => destruct (settle_run f 1 1 a 1 0 e Zc ltac:(cbn [s_k]; lia) ltac:(lia)) as (s1 & St & X1 & _ & _ & _ & _ & _ & _ & _ & _ & _ & _ & Y1 & _) end.
  do 10 eexists. split; [exact R|]. split; [exact Sf|]. split; [exact A|]. split; [exact St|]. split; [rewrite X1; cbn [s_x s s_h]; ring|]. rewrite Y1. cbn [s_p s_h s_yp s_phi]. rewrite Oy, Oh. cbn [s s_yy s_h s_phi]. unfold vzero. ring.
Qed.
Lemma first_session f : session f 1 (solver0 1 (1 / 1000) 0 at_zero).
Proof.
  apply S_new; [reflexivity|exact sized0|]. unfold tolerable. cbn [solver0 relerr abserr]. split; [lra|]. cbn [INR]. rewrite sqrt_1. unfold umach. assert (P : 2 ^ 52 = 4503599627370496) by ring. rewrite P. lra.
Qed.
Lemma first_called f : called f 1 minus_one /\ quiet 1 1 minus_one.
Proof.
  split; [apply C_new; [exact sized0|reflexivity]|]. intros _. unfold minus_one. cbn [s_yy s_wt]. rewrite norm_one. unfold vdiv, vzero. rewrite zero_div, Rabs_R0. lra.
Qed.
Lemma polynomials_exist m X F : distinct m X -> exists P Q, degree_below m P /\ through m X F P /\ primitive P Q.
Proof. intros D. destruct (newton_primitive m X F) as (Q & HQ). exists (newton m X F), Q. split; [apply degree_newton|]. split; [apply newton_through, D|exact HQ]. Qed.
