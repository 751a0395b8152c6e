(* Specification and proofs for C30: the filter is the regularised weighted
   least-squares line. *)
From Coq Require Import List Reals ZArith Lra Psatz.
From Verif Require Import Kalman2_model.
Import ListNotations.
Local Open Scope R_scope.

(* elapsed days *)
Definition days (t0 t : Z) : R := IZR (t - t0) / (86400 * 1000000000).

(* prior: value x0 +- s0 and slope x1 +- s1 per day at epoch t0, measurement noise so *)
Record setup := Setup { su_x0 : R; su_x1 : R; su_s0 : R; su_s1 : R; su_so : R; su_t0 : Z }.
Definition setup_ok (p : setup) : Prop := 0 < su_s0 p /\ 0 < su_s1 p /\ 0 < su_so p.

(* the least-squares cost of the line value a, slope b (per day) *)
Fixpoint cost (p : setup) (obs : list (R * Z)) (a b : R) : R :=
  match obs with
  | [] => (a - su_x0 p)² / (su_s0 p)² + (b - su_x1 p)² / (su_s1 p)²
  | (z, t) :: r => cost p r a b + (z - (a + b * days (su_t0 p) t))² / (su_so p)²
  end.

(* the normal matrix [n00 n01; n01 n11] *)
Fixpoint normal (p : setup) (obs : list (R * Z)) : R * R * R :=
  match obs with
  | [] => (/ (su_s0 p)², 0, / (su_s1 p)²)
  | (z, t) :: r =>
      let '(n00, n01, n11) := normal p r in
      let d := days (su_t0 p) t in
      (n00 + / (su_so p)², n01 + d / (su_so p)², n11 + d² / (su_so p)²)
  end.

(* right-hand side *)
Fixpoint rhs (p : setup) (obs : list (R * Z)) : R * R :=
  match obs with
  | [] => (su_x0 p / (su_s0 p)², su_x1 p / (su_s1 p)²)
  | (z, t) :: r => let '(b0, b1) := rhs p r in
      (b0 + z / (su_so p)², b1 + z * days (su_t0 p) t / (su_so p)²)
  end.
Fixpoint cst (p : setup) (obs : list (R * Z)) : R :=
  match obs with
  | [] => (su_x0 p)² / (su_s0 p)² + (su_x1 p)² / (su_s1 p)²
  | (z, t) :: r => cst p r + z² / (su_so p)²
  end.

Definition filter_of (p : setup) : lk :=
  lk_init (su_x0 p) (su_x1 p) (su_s0 p) (su_s1 p) (su_so p) (su_t0 p).

Lemma cost_quadratic p obs a b : setup_ok p ->
  let '(n00, n01, n11) := normal p obs in let '(b0, b1) := rhs p obs in
  cost p obs a b = n00 * a² + 2 * n01 * a * b + n11 * b² - 2 * (b0 * a + b1 * b) + cst p obs.
Proof.
  intros (H0 & H1 & H2). induction obs as [|[z t] r IH]; cbn [cost normal rhs cst].
  - unfold Rsqr. field. split; lra.
  - destruct (normal p r) as [[n00 n01] n11]. destruct (rhs p r) as [b0 b1]. rewrite IH.
    unfold Rsqr. field. lra.
Qed.

Lemma normal_pd p obs : setup_ok p ->
  let '(n00, n01, n11) := normal p obs in 0 < n00 /\ 0 < n11 /\ 0 < n00 * n11 - n01 * n01.
Proof.
  intros (H0 & H1 & H2).
  assert (P0 : 0 < / (su_s0 p)²) by (apply Rinv_0_lt_compat, Rlt_0_sqr; lra).
  assert (P1 : 0 < / (su_s1 p)²) by (apply Rinv_0_lt_compat, Rlt_0_sqr; lra).
  assert (P2 : 0 < / (su_so p)²) by (apply Rinv_0_lt_compat, Rlt_0_sqr; lra).
  induction obs as [|[z t] r IH]; cbn [normal].
  - split; [exact P0|]. split; [exact P1|]. nra.
  - destruct (normal p r) as [[n00 n01] n11]. destruct IH as (A & B & C).
    set (d := days (su_t0 p) t). set (w := / (su_so p)²) in *.
    replace (d / (su_so p)²) with (w * d) by (unfold w, Rdiv; ring).
    replace (d² / (su_so p)²) with (w * (d * d)) by (unfold w, Rdiv, Rsqr; ring).
    split; [lra|]. split; [nra|].
    replace ((n00 + w) * (n11 + w * (d * d)) - (n01 + w * d) * (n01 + w * d))
      with ((n00 * n11 - n01 * n01) + w * (n11 - 2 * d * n01 + d * d * n00)) by ring.
    assert (0 <= n00 * (n11 - 2 * d * n01 + d * d * n00)).
    { replace (n00 * (n11 - 2 * d * n01 + d * d * n00)) with
        ((n00 * d - n01) * (n00 * d - n01) + (n00 * n11 - n01 * n01)) by ring.
      pose proof (Rle_0_sqr (n00 * d - n01)) as SQ. unfold Rsqr in SQ. lra. }
    assert (0 <= n11 - 2 * d * n01 + d * d * n00) by nra.
    pose proof (Rmult_le_pos w _ (Rlt_le _ _ P2) H3). lra.
Qed.

(* the filter holds the inverse normal matrix and the solution of the normal equations *)
Definition holds (p : setup) (obs : list (R * Z)) (f : lk) : Prop :=
  lk_R f = (su_so p)² /\ lk_tref f = su_t0 p /\
  let '(n00, n01, n11) := normal p obs in let '(b0, b1) := rhs p obs in
  let det := n00 * n11 - n01 * n01 in
  lk_P0 f = n11 / det /\ lk_P1 f = - n01 / det /\ lk_P2 f = n00 / det /\
  lk_x0 f = (n11 * b0 - n01 * b1) / det /\ lk_x1 f = (n00 * b1 - n01 * b0) / det.

Lemma holds_init p : setup_ok p -> holds p [] (filter_of p).
Proof.
  intros (H0 & H1 & H2). unfold holds, filter_of, lk_init; cbn. unfold Rsqr.
  repeat split; field; split; lra.
Qed.

Lemma holds_step p obs f z t : setup_ok p -> holds p obs f -> holds p ((z, t) :: obs) (lk_update f z t).
Proof.
  intros Hp (HR & HT & H). pose proof (normal_pd p obs Hp) as PD.
  pose proof (normal_pd p ((z, t) :: obs) Hp) as PD'. destruct Hp as (S0 & S1 & SO).
  unfold holds. cbn [normal rhs] in *.
  destruct (normal p obs) as [[n00 n01] n11]. destruct (rhs p obs) as [b0 b1].
  destruct H as (E0 & E1 & E2 & X0 & X1). destruct PD as (A & B & C).
  unfold lk_update, lk_value_at. cbn [lk_x0 lk_x1 lk_P0 lk_P1 lk_P2 lk_R lk_tref].
  assert (ED : lk_t2d f t = days (su_t0 p) t).
  { unfold lk_t2d, days. rewrite HT. f_equal. lra. }
  rewrite ED, E0, E1, E2, X0, X1, HR, HT. clear E0 E1 E2 X0 X1 HR HT ED.
  set (d := days (su_t0 p) t) in *. set (so := su_so p) in *. unfold Rsqr in *.
  destruct PD' as (_ & _ & C').
  set (det := n00 * n11 - n01 * n01) in *.
  assert (Q : 0 < n11 - 2 * d * n01 + d * d * n00 + so * so * det).
  { replace ((n00 + / (so * so)) * (n11 + d * d / (so * so)) - (n01 + d / (so * so)) * (n01 + d / (so * so)))
      with ((n11 - 2 * d * n01 + d * d * n00 + so * so * det) / (so * so)) in C'
      by (unfold det; field; lra).
    apply Rmult_lt_reg_r with (/ (so * so)); [apply Rinv_0_lt_compat; nra|]. unfold Rdiv in C'. lra. }
  assert (Q2 : (n00 * (so * so) + 1) * (n11 * (so * so) + d * d) - (n01 * (so * so) + d) * (n01 * (so * so) + d)
     = so * so * (n11 - 2 * d * n01 + d * d * n00 + so * so * det)) by (unfold det; ring).
  assert (Q3 : 0 < so * so) by nra.
  assert (N1 : det <> 0) by lra.
  assert (N2 : (n00 * (so * so) + 1) * (n11 * (so * so) + d * d) - (n01 * (so * so) + d) * (n01 * (so * so) + d) <> 0).
  { rewrite Q2. apply Rgt_not_eq. nra. }
  split; [reflexivity|]. split; [reflexivity|].
  assert (N3 : n11 - n01 * d + d * (- n01 + n00 * d) + so * so * det <> 0) by (apply Rgt_not_eq; lra).
  assert (N4 : so <> 0) by lra.
  unfold det in *.
  repeat split; field; repeat split; try assumption; try lra.
Qed.

Lemma holds_run p obs : setup_ok p -> forall done f, holds p done f -> holds p (rev obs ++ done) (lk_run f obs).
Proof.
  intros Hp. induction obs as [|[z t] r IH]; intros done f H; cbn [rev lk_run fold_left app fst snd].
  - exact H.
  - rewrite <- app_assoc. apply IH. apply holds_step; assumption.
Qed.

Lemma cost_snoc p l z t a b : cost p (l ++ [(z, t)]) a b = cost p ((z, t) :: l) a b.
Proof.
  induction l as [|[z' t'] r IH]; [reflexivity|]. cbn [app cost] in *. rewrite IH. ring.
Qed.
Lemma cost_rev p l a b : cost p (rev l) a b = cost p l a b.
Proof.
  induction l as [|[z t] r IH]; [reflexivity|]. cbn [rev]. rewrite cost_snoc. cbn [cost]. rewrite IH. reflexivity.
Qed.
Lemma normal_snoc p l o : normal p (l ++ [o]) = normal p (o :: l).
Proof.
  destruct o as [z t]. induction l as [|[z' t'] r IH]; [reflexivity|]. cbn [app normal] in *. rewrite IH.
  destruct (normal p r) as [[n00 n01] n11]. f_equal; [f_equal|]; ring.
Qed.
Lemma normal_rev p l : normal p (rev l) = normal p l.
Proof.
  induction l as [|[z t] r IH]; [reflexivity|]. cbn [rev]. rewrite normal_snoc. cbn [normal]. rewrite IH. reflexivity.
Qed.


Lemma run_holds p obs : setup_ok p -> holds p (rev obs) (lk_run (filter_of p) obs).
Proof.
  intros Hp. pose proof (holds_run p obs Hp [] _ (holds_init p Hp)) as H. rewrite app_nil_r in H. exact H.
Qed.

(* completing the square at the filter's estimate *)
Lemma cost_gap p obs a b : setup_ok p ->
  let f := lk_run (filter_of p) obs in let '(n00, n01, n11) := normal p obs in
  cost p obs a b - cost p obs (lk_x0 f) (lk_x1 f) =
    n00 * (a - lk_x0 f)² + 2 * n01 * (a - lk_x0 f) * (b - lk_x1 f) + n11 * (b - lk_x1 f)².
Proof.
  intros Hp f. pose proof (run_holds p obs Hp) as (_ & _ & H). fold f in H.
  rewrite <- (cost_rev p obs a b), <- (cost_rev p obs (lk_x0 f)), <- (normal_rev p obs).
  pose proof (cost_quadratic p (rev obs) a b Hp) as Q1.
  pose proof (cost_quadratic p (rev obs) (lk_x0 f) (lk_x1 f) Hp) as Q2.
  pose proof (normal_pd p (rev obs) Hp) as PD.
  destruct (normal p (rev obs)) as [[n00 n01] n11]. destruct (rhs p (rev obs)) as [b0 b1].
  destruct H as (_ & _ & _ & X0 & X1). destruct PD as (A & B & C).
  assert (E0 : b0 = n00 * lk_x0 f + n01 * lk_x1 f) by (rewrite X0, X1; field; lra).
  assert (E1 : b1 = n01 * lk_x0 f + n11 * lk_x1 f) by (rewrite X0, X1; field; lra).
  rewrite Q1, Q2, E0, E1. unfold Rsqr. ring.
Qed.

Lemma form_pos n00 n01 n11 u v : 0 < n00 -> 0 < n00 * n11 - n01 * n01 ->
  0 <= n00 * u² + 2 * n01 * u * v + n11 * v² /\
  (n00 * u² + 2 * n01 * u * v + n11 * v² = 0 -> u = 0 /\ v = 0).
Proof.
  intros A C.
  assert (E : n00 * (n00 * u² + 2 * n01 * u * v + n11 * v²) =
     (n00 * u + n01 * v)² + (n00 * n11 - n01 * n01) * v²) by (unfold Rsqr; ring).
  pose proof (Rle_0_sqr (n00 * u + n01 * v)) as Q1. pose proof (Rle_0_sqr v) as Q2.
  assert (Q3 : 0 <= (n00 * n11 - n01 * n01) * v²) by (apply Rmult_le_pos; lra).
  split.
  - apply Rmult_le_reg_l with n00; [exact A|]. rewrite Rmult_0_r, E. lra.
  - intros Z. rewrite Z, Rmult_0_r in E.
    assert (V : (n00 * n11 - n01 * n01) * v² = 0) by lra.
    apply Rmult_integral in V. destruct V as [V|V]; [lra|]. apply Rsqr_0_uniq in V. subst v.
    assert (U : (n00 * u + n01 * 0)² = 0) by (unfold Rsqr in *; lra). apply Rsqr_0_uniq in U.
    split; [|reflexivity]. rewrite Rmult_0_r, Rplus_0_r in U. apply Rmult_integral in U. destruct U; [lra|assumption].
Qed.

Lemma lk_optimal p obs : setup_ok p -> let f := lk_run (filter_of p) obs in
  forall a b, cost p obs (lk_x0 f) (lk_x1 f) <= cost p obs a b /\
   (cost p obs a b = cost p obs (lk_x0 f) (lk_x1 f) -> a = lk_x0 f /\ b = lk_x1 f).
Proof.
  intros Hp f a b. pose proof (cost_gap p obs a b Hp) as G. fold f in G.
  pose proof (normal_pd p obs Hp) as PD. cbv zeta in G. fold f in G.
  destruct (normal p obs) as [[n00 n01] n11]. destruct PD as (A & B & C).
  pose proof (form_pos n00 n01 n11 (a - lk_x0 f) (b - lk_x1 f) A C) as [F1 F2]. split; [lra|].
  intros E. destruct F2 as [U V]; [lra|]. split; lra.
Qed.

Lemma lk_covariance p obs : setup_ok p -> let f := lk_run (filter_of p) obs in
  let '(n00, n01, n11) := normal p obs in
  lk_P0 f * n00 + lk_P1 f * n01 = 1 /\ lk_P0 f * n01 + lk_P1 f * n11 = 0 /\
  lk_P1 f * n00 + lk_P2 f * n01 = 0 /\ lk_P1 f * n01 + lk_P2 f * n11 = 1 /\
  0 < lk_P0 f /\ 0 < lk_P2 f /\ 0 < lk_P0 f * lk_P2 f - lk_P1 f * lk_P1 f.
Proof.
  intros Hp f. pose proof (run_holds p obs Hp) as (_ & _ & H). fold f in H.
  pose proof (normal_pd p obs Hp) as PD. rewrite (normal_rev p obs) in H.
  destruct (normal p obs) as [[n00 n01] n11]. destruct (rhs p (rev obs)) as [b0 b1].
  destruct H as (E0 & E1 & E2 & _ & _). destruct PD as (A & B & C).
  assert (ID : 0 < / (n00 * n11 - n01 * n01)) by (apply Rinv_0_lt_compat, C).
  rewrite E0, E1, E2. repeat split; try (field; lra).
  - unfold Rdiv. apply Rmult_lt_0_compat; assumption.
  - unfold Rdiv. apply Rmult_lt_0_compat; assumption.
  - replace (n11 / (n00 * n11 - n01 * n01) * (n00 / (n00 * n11 - n01 * n01)) -
       - n01 / (n00 * n11 - n01 * n01) * (- n01 / (n00 * n11 - n01 * n01)))
      with (/ (n00 * n11 - n01 * n01)) by (field; lra). exact ID.
Qed.

(* the prediction is the fitted line *)
Lemma lk_predict p obs t : lk_value_at (lk_run (filter_of p) obs) t =
  lk_x0 (lk_run (filter_of p) obs) + lk_x1 (lk_run (filter_of p) obs) * days (su_t0 p) t.
Proof.
  assert (T : forall f, lk_tref (lk_run f obs) = lk_tref f).
  { induction obs as [|o r IH]; intros f; [reflexivity|]. cbn [lk_run fold_left].
    change (lk_tref (lk_run (lk_update f (fst o) (snd o)) r) = lk_tref f). rewrite IH. reflexivity. }
  unfold lk_value_at, lk_t2d, days. rewrite T. cbn [filter_of lk_init lk_tref].
  replace (86400 * 1000000000) with 86400000000000 by lra. ring.
Qed.

Example setup_case : setup_ok (Setup 1 0 2 3 1 0) /\
  days 0 172800000000000 = 2.
Proof. split; [unfold setup_ok; cbn; lra|]. unfold days. rewrite Z.sub_0_r. lra. Qed.
