(* Derivatives of vector functions of a real variable, component by component. *)
From Coq Require Import Reals Lra.
From Verif Require Import Vec_model Vec_proofs.
Local Open Scope R_scope.

Definition vderiv (f : R -> vec) (s : R) (d : vec) : Prop :=
  derivable_pt_lim (fun t => vx (f t)) s (vx d) /\ derivable_pt_lim (fun t => vy (f t)) s (vy d) /\ derivable_pt_lim (fun t => vz (f t)) s (vz d).

Lemma deriv_ext f g s d : (forall t, f t = g t) -> derivable_pt_lim f s d -> derivable_pt_lim g s d.
Proof. intros E D eps P. destruct (D eps P) as (del & H). exists del. intros h A B. rewrite <- !E. exact (H h A B). Qed.
(* equal near the point *)
Lemma deriv_near f g s d r : 0 < r -> (forall t, Rabs (t - s) < r -> f t = g t) -> derivable_pt_lim f s d -> derivable_pt_lim g s d.
Proof.
  intros P E D eps Q. destruct (D eps Q) as (del & H). assert (M : 0 < Rmin del r) by (apply Rmin_pos; [apply cond_pos|exact P]). exists (mkposreal _ M). cbn. intros h A B.
  rewrite <- !E; [apply (H h A)|rewrite Rminus_eq_0, Rabs_R0; exact P|replace (s + h - s) with h by ring]; eapply Rlt_le_trans; try exact B; [apply Rmin_l|apply Rmin_r].
Qed.
Lemma deriv_eq f s d d' : derivable_pt_lim f s d -> d = d' -> derivable_pt_lim f s d'. Proof. intros H <-. exact H. Qed.
Lemma deriv_unique f s d d' : derivable_pt_lim f s d -> derivable_pt_lim f s d' -> d = d'. Proof. apply uniqueness_limite. Qed.
Lemma deriv_const c s : derivable_pt_lim (fun _ => c) s 0. Proof. apply derivable_pt_lim_const. Qed.
Lemma deriv_id s : derivable_pt_lim (fun t => t) s 1. Proof. apply derivable_pt_lim_id. Qed.
Lemma deriv_plus f g s a b : derivable_pt_lim f s a -> derivable_pt_lim g s b -> derivable_pt_lim (fun t => f t + g t) s (a + b). Proof. intros. apply derivable_pt_lim_plus; assumption. Qed.
Lemma deriv_minus f g s a b : derivable_pt_lim f s a -> derivable_pt_lim g s b -> derivable_pt_lim (fun t => f t - g t) s (a - b). Proof. intros. apply derivable_pt_lim_minus; assumption. Qed.
Lemma deriv_opp f s a : derivable_pt_lim f s a -> derivable_pt_lim (fun t => - f t) s (- a). Proof. intros. apply derivable_pt_lim_opp; assumption. Qed.
Lemma deriv_mult f g s a b : derivable_pt_lim f s a -> derivable_pt_lim g s b -> derivable_pt_lim (fun t => f t * g t) s (a * g s + f s * b). Proof. intros. apply (derivable_pt_lim_mult f g); assumption. Qed.
Lemma deriv_scal k f s a : derivable_pt_lim f s a -> derivable_pt_lim (fun t => k * f t) s (k * a). Proof. intros. apply derivable_pt_lim_scal; assumption. Qed.
Lemma deriv_inv f s a : derivable_pt_lim f s a -> f s <> 0 -> derivable_pt_lim (fun t => / f t) s (- a / (f s * f s)).
Proof. intros D N. apply deriv_eq with ((0 * f s - a * 1) / (f s)²); [|unfold Rsqr; field; exact N]. apply deriv_ext with (fun t => 1 / f t); [intros; unfold Rdiv; ring|]. apply (derivable_pt_lim_div (fun _ => 1) f s 0 a); [apply deriv_const|exact D|exact N]. Qed.
Lemma deriv_div f g s a b : derivable_pt_lim f s a -> derivable_pt_lim g s b -> g s <> 0 -> derivable_pt_lim (fun t => f t / g t) s ((a * g s - b * f s) / (g s * g s)).
Proof. intros A B N. exact (derivable_pt_lim_div f g s a b A B N). Qed.
Lemma deriv_sqrt f s a : derivable_pt_lim f s a -> 0 < f s -> derivable_pt_lim (fun t => sqrt (f t)) s (a / (2 * sqrt (f s))).
Proof.
  intros D P. apply deriv_eq with (/ (2 * sqrt (f s)) * a); [|assert (0 < sqrt (f s)) by (apply sqrt_lt_R0; exact P); field; lra].
  apply (derivable_pt_lim_comp f sqrt); [exact D|]. apply derivable_pt_lim_sqrt. exact P.
Qed.
Lemma deriv_cos f s a : derivable_pt_lim f s a -> derivable_pt_lim (fun t => cos (f t)) s (- sin (f s) * a).
Proof. intros D. apply (derivable_pt_lim_comp f cos); [exact D|]. apply derivable_pt_lim_cos. Qed.
Lemma deriv_sin f s a : derivable_pt_lim f s a -> derivable_pt_lim (fun t => sin (f t)) s (cos (f s) * a).
Proof. intros D. apply (derivable_pt_lim_comp f sin); [exact D|]. apply derivable_pt_lim_sin. Qed.

Lemma vderiv_ext f g s d : (forall t, f t = g t) -> vderiv f s d -> vderiv g s d.
Proof. intros E (A & B & C). split; [|split]; [apply deriv_ext with (fun t => vx (f t))|apply deriv_ext with (fun t => vy (f t))|apply deriv_ext with (fun t => vz (f t))]; try assumption; intros t; rewrite E; reflexivity. Qed.
Lemma vderiv_near f g s d r : 0 < r -> (forall t, Rabs (t - s) < r -> f t = g t) -> vderiv f s d -> vderiv g s d.
Proof. intros P E (A & B & C). split; [|split]; [apply deriv_near with (fun t => vx (f t)) r|apply deriv_near with (fun t => vy (f t)) r|apply deriv_near with (fun t => vz (f t)) r]; try assumption; intros t H; rewrite (E t H); reflexivity. Qed.
Lemma vderiv_eq f s d d' : vderiv f s d -> d = d' -> vderiv f s d'. Proof. intros H <-. exact H. Qed.
Lemma vderiv_unique f s d d' : vderiv f s d -> vderiv f s d' -> d = d'.
Proof. intros (A & B & C) (A' & B' & C'). apply vec_eq; [exact (deriv_unique _ _ _ _ A A')|exact (deriv_unique _ _ _ _ B B')|exact (deriv_unique _ _ _ _ C C')]. Qed.
Lemma vderiv_const c s : vderiv (fun _ => c) s vzero. Proof. split; [|split]; apply deriv_const. Qed.
Lemma vderiv_add f g s a b : vderiv f s a -> vderiv g s b -> vderiv (fun t => vadd (f t) (g t)) s (vadd a b).
Proof. intros (A & B & C) (A' & B' & C'). split; [|split]; cbn [vadd vx vy vz]; apply deriv_plus; assumption. Qed.
Lemma vderiv_sub f g s a b : vderiv f s a -> vderiv g s b -> vderiv (fun t => vsub (f t) (g t)) s (vsub a b).
Proof. intros (A & B & C) (A' & B' & C'). split; [|split]; cbn [vsub vx vy vz]; apply deriv_minus; assumption. Qed.
Lemma vderiv_smul k f s a b : derivable_pt_lim k s a -> vderiv f s b -> vderiv (fun t => vscale (k t) (f t)) s (vadd (vscale a (f s)) (vscale (k s) b)).
Proof. intros K (A & B & C). split; [|split]; cbn [vadd vscale vx vy vz]; [apply (deriv_mult k (fun t => vx (f t)))|apply (deriv_mult k (fun t => vy (f t)))|apply (deriv_mult k (fun t => vz (f t)))]; assumption. Qed.
Lemma vderiv_scale k f s b : vderiv f s b -> vderiv (fun t => vscale k (f t)) s (vscale k b).
Proof. intros (A & B & C). split; [|split]; cbn [vscale vx vy vz]; apply deriv_scal; assumption. Qed.
Lemma deriv_dot f g s a b : vderiv f s a -> vderiv g s b -> derivable_pt_lim (fun t => dot (f t) (g t)) s (dot a (g s) + dot (f s) b).
Proof.
  intros (A & B & C) (A' & B' & C'). unfold dot. eapply deriv_eq; [apply deriv_plus; [apply deriv_plus|]; apply deriv_mult; eassumption|cbn; ring].
Qed.
Lemma vderiv_cross f g s a b : vderiv f s a -> vderiv g s b -> vderiv (fun t => cross (f t) (g t)) s (vadd (cross a (g s)) (cross (f s) b)).
Proof.
  intros (A & B & C) (A' & B' & C'). split; [|split]; unfold cross, vadd; cbn [vx vy vz]; (eapply deriv_eq; [apply deriv_minus; apply deriv_mult; eassumption|cbn; ring]).
Qed.
Lemma deriv_norm f s a : vderiv f s a -> f s <> vzero -> derivable_pt_lim (fun t => norm (f t)) s (dot (f s) a / norm (f s)).
Proof.
  intros D N. assert (P : 0 < dot (f s) (f s)) by (rewrite <- norm_sqr; pose proof (norm_pos _ N); nra). unfold norm. eapply deriv_eq.
  - apply (deriv_sqrt (fun t => dot (f t) (f t))); [apply deriv_dot; exact D|exact P].
  - rewrite (dot_sym a (f s)). assert (0 < sqrt (dot (f s) (f s))) by (apply sqrt_lt_R0; exact P). field. lra.
Qed.
Lemma vderiv_mulv m f s a : vderiv f s a -> vderiv (fun t => mulv m (f t)) s (mulv m a).
Proof.
  intros (A & B & C). split; [|split]; unfold mulv, dot; cbn [vx vy vz]; apply deriv_plus; [apply deriv_plus| |apply deriv_plus| |apply deriv_plus|]; apply deriv_scal; assumption.
Qed.
(* a straight line through a point *)
Lemma vderiv_line p u : vderiv (fun t => vadd p (vscale t u)) 0 u.
Proof.
  eapply vderiv_eq; [apply vderiv_add; [apply vderiv_const|apply (vderiv_smul (fun t => t) (fun _ => u) 0 1 vzero); [apply deriv_id|apply vderiv_const]]|]. vec_ring.
Qed.
