(* The integrator is a variable-step Adams method: what the differences, the coefficients, the
   predictor and the corrector mean, in terms of polynomials through the points of the history. *)
From Coq Require Import List ZArith Reals Arith Bool Lra Lia.
From Verif Require Import Base Gravity_model Gravity_proofs Spline_model Sgode_model Adams Sgode_proofs.
Import ListNotations.
Local Open Scope R_scope.

(* ---- specification: passes, and the history they are passes over ---- *)
(* the newest point in front *)
Definition before {A} (a : A) (X : nat -> A) : nat -> A := fun j => match j with O => a | S i => X i end.
(* one component of the derivatives *)
Definition comp (F : nat -> vec) (c : nat) : nat -> R := fun j => F j c.
(* the situation the code does not handle: the order is raised, with steps of one size, after it was
   lowered during these steps *)
Definition safe (s : ode) (lowered : bool) : Prop := ~ (lowered = true /\ s_k s = S (s_kold s) /\ (2 <= count_steps s <= s_k s)%nat).
(* states at the beginning of a pass, the times X and derivatives F of the points accepted so far (newest
   first), and whether the order was lowered since the step size last changed (or in a rejected pass) *)
Inductive reach (f : rhs) (n : nat) : ode -> (nat -> R) -> (nat -> vec) -> bool -> Prop :=
| R_start s X F : sized (s_co s) -> s_k s = 1%nat -> s_kold s = 0%nat -> s_hold s = 0 -> s_h s <> 0 -> s_nornd s = true -> a_val (g (s_co s)) 0 = 1 -> a_val (g (s_co s)) 1 = 1 / 2 ->
    X O = s_x s -> F O = f (s_x s) (s_yy s) -> s_phi s O = F O -> reach f n s X F false
| R_again s X F b eps ifail s' ifail' : reach f n s X F b -> safe s b -> 0 <= eps -> attempt f n eps ifail s = Ok (Again s' ifail') -> s_h s' <> 0 ->
    (2 <= s_k s)%nat \/ s_kold s = 0%nat \/ s_h s' <> s_hold s -> reach f n s' X F (b || Nat.ltb (s_k s) (s_kold s))
| R_next s X F b eps ifail a knew e1 erk s1 h wt c : reach f n s X F b -> safe s b ->
    attempt f n eps ifail s = Ok (Accepted a knew e1 erk) -> settle f n eps a knew e1 erk = Ok s1 -> 0 < s_h s * h -> ready (s_co s1) = Ok c ->
    reach f n (Ode (s_x s1) h (s_hold s1) (s_k s1) (s_kold s1) (s_ns s1) (s_start s1) (s_phase1 s1) (s_nornd s1) (s_yy s1) (s_yp s1) (s_p s1) wt (s_phi s1) c)
      (before (s_x s1) X) (before (s_yp s1) F) (if Nat.leb (count_steps s) 1 then false else b || Nat.ltb (s_k s) (s_kold s)).

(* ---- the invariant ---- *)
Record inv (d : R) (s : ode) (X : nat -> R) (F : nat -> vec) (b : bool) : Prop := Inv {
  i_sized : sized (s_co s); i_k : (1 <= s_k s <= 12)%nat; i_kold : (s_k s <= S (s_kold s))%nat; i_nornd : s_nornd s = true;
  i_d : d = 1 \/ d = -1; i_h : 0 < d * s_h s; i_x : X O = s_x s; i_dir : forall i, (i < s_kold s)%nat -> 0 < d * (X i - X (S i)); i_hold : (1 <= s_kold s)%nat -> s_hold s = X O - X 1%nat;
  i_phi : forall i c, (i < s_k s)%nat -> s_phi s i c = prodn i (fun j => X O - X (S j)) * dd i X (comp F c);
  i_psi : forall i, (i < s_k s - 1)%nat -> a_val (psi (s_co s)) i = X O - X (S i);
  i_g0 : a_val (g (s_co s)) 0 = 1; i_g1 : a_val (g (s_co s)) 1 = 1 / 2;
  i_run : forall i, (i < count_steps s - 1)%nat -> a_val (alpha (s_co s)) i = 1 / INR (S i) /\ a_val (beta (s_co s)) i = 1 /\ a_val (psi (s_co s)) i = INR (S i) * s_h s /\ X O - X (S i) = INR (S i) * s_h s;
  i_g : forall i, (i <= count_steps s - 1)%nat -> a_val (g (s_co s)) i = lv i 0;
  i_v : (2 <= count_steps s <= s_k s)%nat -> (s_k s <= s_kold s)%nat -> forall q, (q <= s_k s + 1 - count_steps s)%nat -> a_val (v (s_co s)) q = lv (count_steps s - 1) q;
  i_top : b = false -> (count_steps s <= S (s_kold s))%nat /\ ((2 <= count_steps s)%nat -> forall q, (q < s_kold s)%nat -> a_val (v (s_co s)) q = lv (Nat.min (count_steps s - 1) (s_kold s - q)) q) }.

Lemma lv_0_0 : lv 0 0 = 1. Proof. unfold lv. cbn [level INR]. field. Qed.
Lemma lv_1_0 : lv 1 0 = 1 / 2. Proof. rewrite lv_1. cbn [INR]. field. Qed.
Lemma monotone d m X : (d = 1 \/ d = -1) -> (forall i, (i < m)%nat -> 0 < d * (X i - X (S i))) -> forall i j, (i < j <= m)%nat -> 0 < d * (X i - X j).
Proof.
  intros D H i j. induction j as [|j IH]; intros L; [lia|]. destruct (Nat.eq_dec i j) as [->|N]; [apply H; lia|]. specialize (IH ltac:(lia)). specialize (H j ltac:(lia)). lra.
Qed.
Lemma monotone_distinct d m X : (d = 1 \/ d = -1) -> (forall i, (i < m)%nat -> 0 < d * (X i - X (S i))) -> distinct (S m) X.
Proof. intros D H i j L E. pose proof (monotone d m X D H i j ltac:(lia)). rewrite E in *. lra. Qed.

Section Pass.
Variables (f : rhs) (n : nat) (d : R) (s : ode) (X : nat -> R) (F : nat -> vec) (b : bool) (c : coef) (ph : cols) (p yp : vec).
Hypothesis I : inv d s X F b.
Hypothesis Sf : safe s b.
Hypothesis P : passed f s c ph p yp.
Let k := s_k s.
Let h := s_h s.
Let ns := count_steps s.
(* the next point *)
Let T (j : nat) : R := X O + h - X j.

Lemma T_pos j : (j < k)%nat -> 0 < d * T j.
Proof.
  intros J. unfold T. pose proof (i_h _ _ _ _ _ I). pose proof (i_kold _ _ _ _ _ I). destruct j as [|j]; [fold h in H; lra|].
  pose proof (monotone d (s_kold s) X (i_d _ _ _ _ _ I) (i_dir _ _ _ _ _ I) O (S j) ltac:(unfold k in J; lia)). fold h in H. lra.
Qed.
Lemma T_nonzero j : (j < k)%nat -> T j <> 0.
Proof. intros J E. pose proof (T_pos j J). rewrite E in *. lra. Qed.
Lemma h_nonzero : h <> 0.
Proof. intros E. pose proof (i_h _ _ _ _ _ I). fold h in H. rewrite E in *. lra. Qed.
Lemma gap j : (j < s_kold s)%nat -> X O - X (S j) <> 0.
Proof. intros J E. pose proof (monotone d (s_kold s) X (i_d _ _ _ _ _ I) (i_dir _ _ _ _ _ I) O (S j) ltac:(lia)). rewrite E in *. lra. Qed.
Lemma nodes_distinct : distinct (S (s_kold s)) X.
Proof. apply (monotone_distinct d); [apply (i_d _ _ _ _ _ I)|apply (i_dir _ _ _ _ _ I)]. Qed.
Lemma T_equal j : (j < ns)%nat -> T j = INR (S j) * h.
Proof.
  intros J. unfold T. destruct j as [|j]; [cbn [INR]; ring|]. destruct (i_run _ _ _ _ _ I j ltac:(unfold ns in J; lia)) as (_ & _ & _ & E). fold h in E. rewrite (S_INR (S j)). rewrite Rmult_plus_distr_r, <- E. ring.
Qed.
(* all the facts about block 1 *)
Lemma block1 : sized c /\ (forall j, (j < k)%nat -> a_val (psi c) j = T j) /\ (forall j, (j < k)%nat -> a_val (alpha c) j = h / T j) /\
  (forall j, (j < k)%nat -> (if Nat.leb ns j then a_val (beta c) j else 1) * prodn j (fun i => X O - X (S i)) = prodn j T) /\
  (forall j, (j < k)%nat -> a_val (beta c) j <> 0) /\ (forall j, (j < k)%nat -> (j < ns)%nat -> a_val (beta c) j = 1) /\
  (forall j, (j <= k)%nat -> a_val (g c) j = level (fun _ => 1) (fun i => h / T i) j 0) /\ a_val (g c) 0 = 1 /\ a_val (g c) 1 = 1 / 2 /\
  (forall j, (j < ns - 1)%nat -> a_val (alpha c) j = 1 / INR (S j) /\ a_val (beta c) j = 1 /\ a_val (psi c) j = INR (S j) * h) /\
  ((ns <= k)%nat -> a_val (alpha c) (ns - 1) = 1 / INR ns /\ a_val (beta c) (ns - 1) = 1 /\ a_val (psi c) (ns - 1) = INR ns * h) /\
  (forall j, (j <= ns - 1)%nat -> a_val (g c) j = lv j 0) /\ ((ns <= k)%nat -> a_val (g c) ns = lv ns 0) /\
  ((ns <= k)%nat -> forall q, (q <= k - ns)%nat -> a_val (v c) q = lv ns q) /\
  ((if Nat.leb ns 1 then false else b || Nat.ltb k (s_kold s)) = false ->
     ((ns <= k)%nat -> forall q, (q < k)%nat -> a_val (v c) q = lv (Nat.min ns (k - q)) q) /\ ((k < ns)%nat -> ns = S k /\ forall q, (q < k)%nat -> a_val (v c) q = lv (k - q) q)) /\
  (ns = 1%nat -> forall q, (q < k)%nat -> a_val (v c) q = lv 1 q).
Proof.
  pose proof (q_coef _ _ _ _ _ _ P) as E. unfold new_coef in E. pose proof (count_steps_pos s) as N1. pose proof (i_k _ _ _ _ _ I) as K. pose proof (i_kold _ _ _ _ _ I) as KO. fold k in K, KO. fold ns in N1.
  assert (EQ : forall j, (j < ns)%nat -> h / T j = 1 / INR (S j)).
  { intros j J. rewrite T_equal by exact J. pose proof h_nonzero. pose proof (lt_0_INR (S j) ltac:(lia)). field. split; lra. }
  assert (RUN : forall j, (j < ns - 1)%nat -> a_val (alpha (s_co s)) j = 1 / INR (S j) /\ a_val (beta (s_co s)) j = 1 /\ a_val (psi (s_co s)) j = INR (S j) * h).
  { intros j J. destruct (i_run _ _ _ _ _ I j J) as (A1 & A2 & A3 & _). auto. }
  assert (GAPS : forall j, (j < ns)%nat -> prodn j (fun i => X O - X (S i)) = prodn j T).
  { intros j J. apply prodn_ext. intros i Hi. rewrite T_equal by lia. apply (i_run _ _ _ _ _ I). unfold ns in *. lia. }
  destruct (Nat.le_gt_cases ns k) as [L|L].
  - (* coefficients computed *)
    destruct (coefficients_run h k (s_kold s) ns (s_co s) (i_sized _ _ _ _ _ I) ltac:(lia) ltac:(lia)) as (c' & E' & Z & Ps1 & Ps2 & B1 & B2 & B3 & A1 & A2 & A3 & G1 & V1 & V2 & G2).
    change (coefficients h k (s_kold s) ns (s_co s) = Ok c) in E. rewrite E' in E. injection E as ->.
    assert (VR : (2 <= ns)%nat -> v_ready k (s_kold s) ns (v (s_co s))).
    { intros N. split.
      - intros Q. apply (i_v _ _ _ _ _ I); [fold ns k; lia|exact Q].
      - intros Q. destruct b eqn:Eb; [exfalso; apply Sf; fold k ns; split; [reflexivity|lia]|]. destruct (i_top _ _ _ _ _ I eq_refl) as (_ & V). fold ns in V. specialize (V N).
        split; [intros q Hq; rewrite V by lia; f_equal; lia|intros j J; rewrite V by lia; f_equal; lia]. }
    assert (AL : forall j, (j < ns - 1)%nat -> a_val (alpha (s_co s)) j = 1 / INR (S j)) by (intros j J; apply RUN, J).
    assert (PSI : forall j, (j < k)%nat -> a_val (psi c) j = T j).
    { intros j J. destruct (Nat.lt_ge_cases j (ns - 1)) as [Q|Q].
      - rewrite Ps1 by exact Q. rewrite T_equal by lia. apply RUN, Q.
      - rewrite Ps2 by lia. unfold turn. destruct (Nat.eqb_spec (j + 1) ns) as [W|W].
        + rewrite T_equal by lia. rewrite <- W, Nat.add_1_r. ring.
        + rewrite (i_psi _ _ _ _ _ I) by (fold k; lia). unfold T. replace (S (j + 1 - 2)) with j by lia. ring. }
    assert (ALT : forall j, (j < k)%nat -> a_val (alpha c) j = h / T j).
    { intros j J. destruct (Nat.lt_ge_cases j (ns - 1)) as [Q|Q]; [rewrite A1, EQ by lia; apply RUN, Q|]. destruct (Nat.eq_dec j (ns - 1)) as [->|W].
      - rewrite A2, EQ by lia. do 2 f_equal. lia.
      - rewrite A3 by lia. rewrite (i_psi _ _ _ _ _ I) by (fold k; lia). unfold T. replace (S (j - 1)) with j by lia. f_equal. ring. }
    assert (BL : forall j, (j < ns)%nat -> a_val (beta c) j = 1).
    { intros j J. destruct (Nat.eq_dec j (ns - 1)) as [->|W]; [exact B2|rewrite B1 by lia; apply RUN; lia]. }
    assert (BP : forall j, (j < k)%nat -> a_val (beta c) j <> 0 /\ a_val (beta c) j * prodn j (fun i => X O - X (S i)) = prodn j T).
    { induction j as [|j IH]; intros J; [cbn [prodn]; rewrite BL by lia; split; lra|]. destruct (IH ltac:(lia)) as (IH1 & IH2). destruct (Nat.lt_ge_cases (S j) ns) as [Q|Q]; [rewrite BL by lia; split; [lra|rewrite GAPS by lia; ring]|].
      rewrite B3 by lia. replace (S j - 1)%nat with j by lia. rewrite (i_psi _ _ _ _ _ I) by (fold k; lia). pose proof (gap j ltac:(lia)) as Gj.
      assert (TJ : turn h ns (psi (s_co s)) (S j) = T j).
      { unfold turn. destruct (Nat.eqb_spec (S j) ns) as [W|W]; [rewrite T_equal by lia; rewrite W; ring|]. rewrite (i_psi _ _ _ _ _ I) by (fold k; lia). unfold T. replace (S (S j - 2)) with j by lia. ring. }
      rewrite TJ. pose proof (T_nonzero j ltac:(lia)) as Tj. split; [unfold Rdiv; repeat apply Rmult_integral_contrapositive_currified; try assumption; apply Rinv_neq_0_compat; exact Gj|]. cbn [prodn]. rewrite <- IH2. field. exact Gj. }
    assert (GN : forall j, (ns <= j <= k)%nat -> a_val (g c) j = la (alpha c) j 0).
    { apply G2; [destruct (Nat.eq_dec ns 1); [left; assumption|right; apply VR; lia]|exact AL|exact (i_g1 _ _ _ _ _ I)]. }
    assert (LE : forall j, (j <= k)%nat -> la (alpha c) j 0 = level (fun _ => 1) (fun i => h / T i) j 0).
    { intros j J. unfold la. apply level_ext. intros i Hi. split; [reflexivity|apply ALT; lia]. }
    assert (LV : forall j, (j <= ns)%nat -> lv j 0 = level (fun _ => 1) (fun i => h / T i) j 0).
    { intros j J. unfold lv. apply level_ext. intros i Hi. split; [reflexivity|symmetry; apply EQ; lia]. }
    assert (GO : forall j, (j <= ns - 1)%nat -> a_val (g c) j = lv j 0) by (intros j J; rewrite G1 by lia; apply (i_g _ _ _ _ _ I), J).
    split; [exact Z|]. split; [exact PSI|]. split; [exact ALT|]. split; [intros j J; destruct (Nat.leb_spec ns j); [apply BP, J|rewrite GAPS by lia; ring]|]. split; [intros j J; apply BP, J|]. split; [intros j _ J; apply BL, J|].
    split. { intros j J. destruct (Nat.le_gt_cases ns j) as [Q|Q]; [rewrite GN, LE by lia; reflexivity|]. rewrite GO by lia. apply LV. lia. }
    split; [rewrite G1 by lia; exact (i_g0 _ _ _ _ _ I)|]. split; [rewrite G1 by lia; exact (i_g1 _ _ _ _ _ I)|].
    split. { intros j J. split; [rewrite A1 by lia; apply RUN, J|]. split; [apply BL; lia|]. rewrite Ps1 by lia. apply RUN, J. }
    split. { intros _. split; [exact A2|]. split; [exact B2|]. rewrite PSI by lia. rewrite T_equal by lia. do 2 f_equal. lia. }
    split; [exact GO|]. split; [intros _; rewrite GN, LE by lia; symmetry; apply LV; lia|].
    split. { intros _ q Q. destruct (Nat.eq_dec ns 1) as [W|W]; [rewrite W; apply V1; lia|]. apply (V2 ltac:(lia) (VR ltac:(lia)) AL). lia. }
    split; [|exact V1]. intros Fl. split; [|lia]. intros _ q Q. destruct (Nat.leb_spec ns 1) as [W|W]; [rewrite V1 by lia; f_equal; lia|].
    apply orb_false_iff in Fl. destruct Fl as (Fb & Fk). apply Nat.ltb_ge in Fk. destruct (V2 ltac:(lia) (VR ltac:(lia)) AL) as (W1 & W2 & W3).
    destruct (Nat.lt_ge_cases q (k + 1 - ns)) as [Q1|Q1]; [rewrite W1 by exact Q1; f_equal; lia|].
    destruct (Nat.le_gt_cases k (s_kold s)) as [Q2|Q2].
    + rewrite W2 by lia. destruct (i_top _ _ _ _ _ I Fb) as (_ & V). fold ns in V. rewrite V by lia. f_equal. lia.
    + rewrite W3 by lia. f_equal. lia.
  - (* coefficients kept *)
    unfold coefficients in E. destruct (Nat.ltb_spec (s_k s) (count_steps s)); [|unfold k, ns in L; lia]. injection E as <-. fold h k ns.
    assert (LV : forall j, (j <= ns)%nat -> lv j 0 = level (fun _ => 1) (fun i => h / T i) j 0).
    { intros j J. unfold lv. apply level_ext. intros i Hi. split; [reflexivity|symmetry; apply EQ; lia]. }
    split; [exact (i_sized _ _ _ _ _ I)|]. split; [intros j J; rewrite T_equal by lia; apply RUN; lia|]. split; [intros j J; rewrite EQ by lia; apply RUN; lia|].
    split; [intros j J; destruct (Nat.leb_spec ns j); [lia|]; rewrite GAPS by lia; ring|].
    split; [intros j J; destruct (RUN j ltac:(lia)) as (_ & -> & _); lra|]. split; [intros j J _; apply RUN; lia|].
    split; [intros j J; rewrite (i_g _ _ _ _ _ I) by (fold ns; lia); apply LV; lia|]. split; [exact (i_g0 _ _ _ _ _ I)|]. split; [exact (i_g1 _ _ _ _ _ I)|].
    split; [exact RUN|]. split; [lia|]. split; [intros j J; apply (i_g _ _ _ _ _ I); exact J|]. split; [lia|]. split; [lia|]. split; [|lia].
    intros Fl. split; [lia|]. intros _. destruct (Nat.leb_spec ns 1) as [W|W]; [lia|]. apply orb_false_iff in Fl. destruct Fl as (Fb & Fk). apply Nat.ltb_ge in Fk.
    destruct (i_top _ _ _ _ _ I Fb) as (V0 & V). fold ns in V0, V. split; [lia|]. intros q Q. rewrite V by lia. f_equal. lia.
Qed.

(* the differences of the pass *)
Definition starred (X : nat -> R) (F : nat -> vec) (i x : nat) : R := prodn i T * dd i X (comp F x).
Lemma star_value i x : (i < k)%nat -> (if Nat.leb ns i then a_val (beta c) i * s_phi s i x else s_phi s i x) = starred X F i x.
Proof.
  intros L. destruct block1 as (_ & _ & _ & B & _). specialize (B i L). unfold starred. rewrite (i_phi _ _ _ _ _ I) by exact L. rewrite <- B. fold ns. destruct (Nat.leb ns i); ring.
Qed.
Lemma ph_tail i x : (i <= k)%nat -> ph i x = sumn k (fun j => starred X F j x) - sumn i (fun j => starred X F j x).
Proof.
  intros L. remember (k - i)%nat as m eqn:M. revert i L M. induction m as [|m IH]; intros i L M.
  - assert (i = k) as -> by lia. rewrite (q_zero _ _ _ _ _ _ P). ring.
  - rewrite (q_phi _ _ _ _ _ _ P) by (fold k; lia). fold ns. rewrite star_value by lia. rewrite (IH (S i)) by lia. cbn [sumn]. ring.
Qed.
Lemma ph_first x : ph O x = sumn k (fun j => starred X F j x).
Proof. rewrite ph_tail by lia. cbn [sumn]. ring. Qed.
Lemma p_value x : p x = s_yy s x + h * sumn k (fun i => a_val (g c) i * starred X F i x).
Proof. rewrite (q_p _ _ _ _ _ _ P). fold h k ns. do 2 f_equal. apply sumn_ext. intros i L. rewrite star_value by exact L. reflexivity. Qed.
(* Newton's basis between the last point and the next *)
Lemma basis_factors i u : (i <= k)%nat -> basis X i (s_x s + h * (1 - u)) = prodn i T * factors (fun _ => 1) (fun j => h / T j) i u.
Proof.
  intros L. unfold basis, factors. rewrite <- prodn_mult. apply prodn_ext. intros j J. pose proof (T_nonzero j ltac:(lia)) as N. rewrite <- (i_x _ _ _ _ _ I). unfold T in *. field. exact N.
Qed.
Lemma k_kold : (k <= S (s_kold s))%nat. Proof. exact (i_kold _ _ _ _ _ I). Qed.
(* the predictor is the integral of the polynomial through the last k derivatives *)
Lemma predictor x Pl Q : degree_below k Pl -> through k X (comp F x) Pl -> primitive Pl Q -> p x = s_yy s x + (Q (s_x s + h) - Q (s_x s)).
Proof.
  intros D Th Pr. rewrite p_value. f_equal. symmetry.
  rewrite (integral_factors (fun _ => 1) (fun j => h / T j) (fun i => starred X F i x) k (s_x s) h Pl Q Pr).
  - f_equal. apply sumn_ext. intros i L. destruct block1 as (_ & _ & _ & _ & _ & _ & G & _). rewrite G by lia. ring.
  - intros u. rewrite (newton_form k X (comp F x) Pl _ (distinct_le _ _ _ k_kold nodes_distinct) D Th). unfold newton. apply sumn_ext. intros i L. rewrite basis_factors by lia. unfold starred. ring.
Qed.
(* the polynomial of degree at most m through the next point as well *)
Lemma corrected m (val : R) x Pl Q : (m <= k)%nat -> degree_below (S m) Pl -> through (S m) (before (s_x s + h) X) (before val (comp F x)) Pl -> primitive Pl Q ->
  Q (s_x s + h) - Q (s_x s) = h * (sumn m (fun i => a_val (g c) i * starred X F i x) + a_val (g c) m * (val - sumn m (fun i => starred X F i x))).
Proof.
  intros M D Th Pr. destruct block1 as (_ & _ & _ & _ & _ & _ & G & _).
  set (Y := fun j => if Nat.ltb j m then X j else s_x s + h). set (V := fun j => if Nat.ltb j m then comp F x j else val).
  assert (Yd : distinct (S m) Y).
  { intros i j L. unfold Y. destruct (Nat.ltb_spec i m); [|lia]. destruct (Nat.ltb_spec j m); [apply nodes_distinct; pose proof k_kold; lia|]. pose proof (T_nonzero i ltac:(lia)) as N. unfold T in N. rewrite (i_x _ _ _ _ _ I) in N. lra. }
  assert (Yt : through (S m) Y V Pl).
  { intros j L. unfold Y, V. destruct (Nat.ltb_spec j m); [apply (Th (S j)); lia|apply (Th O); lia]. }
  assert (N0 : forall t, newton m Y V t = newton m X (comp F x) t).
  { intros t. unfold newton. apply sumn_ext. intros i L. rewrite (dd_ext i Y X V (comp F x)); [|intros j J; unfold Y; destruct (Nat.ltb_spec j m); [reflexivity|lia]|intros j J; unfold V; destruct (Nat.ltb_spec j m); [reflexivity|lia]].
    f_equal. unfold basis. apply prodn_ext. intros j J. unfold Y. destruct (Nat.ltb_spec j m); [reflexivity|lia]. }
  assert (B0 : forall t, basis Y m t = basis X m t) by (intros t; unfold basis; apply prodn_ext; intros j J; unfold Y; destruct (Nat.ltb_spec j m); [reflexivity|lia]).
  assert (NF : forall t, Pl t = newton m X (comp F x) t + dd m Y V * basis X m t).
  { intros t. rewrite (newton_form (S m) Y V Pl t Yd D Yt). unfold newton at 1. cbn [sumn]. fold (newton m Y V t). rewrite N0, B0. reflexivity. }
  assert (NU : forall u, newton m X (comp F x) (s_x s + h * (1 - u)) = sumn m (fun i => starred X F i x * factors (fun _ => 1) (fun j => h / T j) i u)).
  { intros u. unfold newton. apply sumn_ext. intros i L. rewrite basis_factors by lia. unfold starred. ring. }
  assert (DV : dd m Y V * prodn m T = val - sumn m (fun i => starred X F i x)).
  { pose proof (Th O ltac:(lia)) as E. cbn [before] in E. rewrite NF in E. replace (s_x s + h) with (s_x s + h * (1 - 0)) in E by ring. rewrite NU, basis_factors in E by lia.
    assert (F1 : forall i, factors (fun _ => 1) (fun j => h / T j) i 0 = 1) by (intros i; unfold factors; induction i as [|i IH]; cbn [prodn]; [reflexivity|rewrite IH; ring]).
    rewrite F1 in E. rewrite (sumn_ext m _ (fun i => starred X F i x)) in E by (intros i L; rewrite F1; ring). lra. }
  rewrite (integral_factors (fun _ => 1) (fun j => h / T j) (fun i => if Nat.ltb i m then starred X F i x else val - sumn m (fun i => starred X F i x)) (S m) (s_x s) h Pl Q Pr).
  - f_equal. cbn [sumn]. rewrite Nat.ltb_irrefl. rewrite <- G by lia. rewrite (Rmult_comm (a_val (g c) m)). f_equal. apply sumn_ext. intros i L. destruct (Nat.ltb_spec i m); [|lia]. rewrite <- G by lia. ring.
  - intros u. rewrite NF, NU, basis_factors by lia. cbn [sumn]. rewrite Nat.ltb_irrefl, <- DV. rewrite <- Rmult_assoc. f_equal. apply sumn_ext. intros i L. destruct (Nat.ltb_spec i m); [reflexivity|lia].
Qed.
(* the corrector of order k + 1, and that of order k *)
Lemma corrector x Pl Q : degree_below (S k) Pl -> through (S k) (before (s_x s + h) X) (before (yp x) (comp F x)) Pl -> primitive Pl Q ->
  p x + h * a_val (g c) k * (yp x - ph O x) = s_yy s x + (Q (s_x s + h) - Q (s_x s)).
Proof. intros D Th Pr. rewrite (corrected k (yp x) x Pl Q ltac:(lia) D Th Pr). rewrite p_value, ph_first. ring. Qed.
Lemma corrector_low x Pl Q : degree_below k Pl -> through k (before (s_x s + h) X) (before (yp x) (comp F x)) Pl -> primitive Pl Q ->
  p x + h * a_val (g c) (k - 1) * (yp x - ph O x) = s_yy s x + (Q (s_x s + h) - Q (s_x s)).
Proof.
  intros D Th Pr. pose proof (i_k _ _ _ _ _ I) as K. fold k in K. destruct k as [|m] eqn:Km; [lia|]. cbn [Nat.sub]. rewrite Nat.sub_0_r.
  rewrite (corrected m (yp x) x Pl Q ltac:(lia) D Th Pr). rewrite p_value, ph_first. rewrite Km. cbn [sumn]. ring.
Qed.
(* g decreases *)
Lemma g_decreases : 0 < a_val (g c) (k - 1) - a_val (g c) k.
Proof.
  pose proof (i_k _ _ _ _ _ I) as K. fold k in K. destruct block1 as (_ & _ & _ & _ & _ & _ & G & _). rewrite !G by lia.
  assert (A : forall j, (j < k)%nat -> 0 < h / T j <= 1).
  { intros j J. pose proof (T_pos j J) as Tp. pose proof (i_h _ _ _ _ _ I) as Hp. fold h in Hp. assert (Th : d * h <= d * T j).
    { unfold T. destruct j as [|j]; [lra|]. pose proof (monotone d (s_kold s) X (i_d _ _ _ _ _ I) (i_dir _ _ _ _ _ I) O (S j) ltac:(pose proof k_kold; lia)). lra. }
    assert (E : h / T j = (d * h) / (d * T j)) by (field; split; [apply T_nonzero, J|destruct (i_d _ _ _ _ _ I) as [->| ->]; lra]).
    rewrite E. split; [apply Rdiv_lt_0_compat; assumption|]. apply Rmult_le_reg_r with (d * T j); [exact Tp|]. unfold Rdiv. rewrite Rmult_assoc, Rinv_l by lra. lra. }
  replace k with (S (k - 1)) at 2 by lia. cbn [level]. pose proof (level_pos (fun i => h / T i) (k - 1) 1 ltac:(intros j J; apply A; lia)) as Q. destruct (A (k - 1)%nat ltac:(lia)) as (Q' & _). nra.
Qed.
(* the differences afterwards *)
Lemma new_phi (V : vec) i x : (i <= k)%nat ->
  prodn i (fun j => before (s_x s + h) X O - before (s_x s + h) X (S j)) * dd i (before (s_x s + h) X) (comp (before V F) x) = V x - sumn i (fun j => starred X F j x).
Proof.
  intros L. assert (E : forall j, before (s_x s + h) X O - before (s_x s + h) X (S j) = T j) by (intros j; cbn [before]; unfold T; rewrite (i_x _ _ _ _ _ I); ring).
  rewrite (prodn_ext i _ T) by (intros; apply E).
  assert (D : distinct (S k) (before (s_x s + h) X)).
  { intros a b' Lab. destruct a as [|a], b' as [|b']; try lia; cbn [before]; [|apply nodes_distinct; pose proof k_kold; lia]. pose proof (T_nonzero b' ltac:(lia)) as N. unfold T in N. rewrite (i_x _ _ _ _ _ I) in N. lra. }
  induction i as [|i IH]; [cbn [prodn dd sumn]; unfold comp, before; ring|].
  specialize (IH ltac:(lia)). pose proof (dd_step i (before (s_x s + h) X) (comp (before V F) x) (distinct_le (S (S i)) (S k) _ ltac:(lia) D)) as St. rewrite E in St.
  change (dd i (shift (before (s_x s + h) X)) (shift (comp (before V F) x))) with (dd i X (comp F x)) in St. cbn [prodn sumn]. unfold starred at 2.
  replace (prodn i T * T i * dd (S i) (before (s_x s + h) X) (comp (before V F) x)) with (prodn i T * (dd (S i) (before (s_x s + h) X) (comp (before V F) x) * T i)) by ring. rewrite St, Rmult_minus_distr_l, IH. ring.
Qed.
End Pass.

(* ---- the state after an accepted pass ---- *)
(* the differences and psi belong to the history *)
Record on_grid (s : ode) (X : nat -> R) (F : nat -> vec) : Prop := On_grid {
  o_sized : sized (s_co s); o_kold : (1 <= s_kold s <= 12)%nat; o_x : X O = s_x s; o_distinct : distinct (S (s_kold s)) X;
  o_phi : forall i c, (i <= s_kold s)%nat -> s_phi s i c = prodn i (fun j => X O - X (S j)) * dd i X (comp F c);
  o_psi : forall i, (i < s_kold s)%nat -> a_val (psi (s_co s)) i = X O - X (S i) }.
Lemma accepted_facts f n eps ifail s a knew e1 erk : sized (s_co s) -> (1 <= s_k s <= 12)%nat -> s_nornd s = true -> attempt f n eps ifail s = Ok (Accepted a knew e1 erk) ->
  exists c ph p yp, passed f s c ph p yp /\ local_error n s c ph yp <= eps /\ (1 <= knew)%nat /\
    a = Ode (s_x s + s_h s) (s_h s) (s_hold s) (s_k s) (s_kold s) (count_steps s) (s_start s) (s_phase1 s) true (s_yy s) yp p (s_wt s) ph c.
Proof.
  intros Z K N E. destruct (attempt_cases f n eps ifail s Z K N) as (c & ph & p & yp & P & erk' & knew' & e1' & KN & [(L & A)|(L & t2 & k' & c' & ph' & _ & _ & _ & _ & _ & [(_ & A)|(_ & A)])]); rewrite A in E; try discriminate.
  injection E as <- <- _ _. exists c, ph, p, yp. split; [exact P|]. split; [exact L|]. split; [lia|reflexivity].
Qed.
Lemma accepted_grid f n d s X F b eps ifail a knew e1 erk s1 : inv d s X F b -> safe s b -> attempt f n eps ifail s = Ok (Accepted a knew e1 erk) -> settle f n eps a knew e1 erk = Ok s1 ->
  on_grid s1 (before (s_x s1) X) (before (s_yp s1) F).
Proof.
  intros I Sf E St. destruct (accepted_facts _ _ _ _ _ _ _ _ _ (i_sized _ _ _ _ _ I) (i_k _ _ _ _ _ I) (i_nornd _ _ _ _ _ I) E) as (c & ph & p & yp & P & _ & KN & ->).
  pose proof (block1 f d s X F b c ph p yp I Sf P) as (Z & Psi & _). pose proof (i_k _ _ _ _ _ I) as K.
  destruct (settle_run f n eps (Ode (s_x s + s_h s) (s_h s) (s_hold s) (s_k s) (s_kold s) (count_steps s) (s_start s) (s_phase1 s) true (s_yy s) yp p (s_wt s) ph c) knew e1 erk Z K KN) as (s1' & St' & Hx & Hh & _ & _ & Hk & _ & _ & _ & _ & Hc & _ & _ & _ & H1 & H2).
  rewrite St in St'. injection St' as <-. cbn [s_x s_h s_k s_co s_phi s_yp] in *.
  constructor.
  - rewrite Hc. exact Z.
  - rewrite Hk. exact K.
  - reflexivity.
  - rewrite Hk, Hx. intros i j L. destruct i as [|i], j as [|j]; try lia; cbn [before].
    + pose proof (T_nonzero d s X F b I j ltac:(lia)) as N. rewrite (i_x _ _ _ _ _ I) in N. lra.
    + apply (nodes_distinct d s X F b I). pose proof (i_kold _ _ _ _ _ I). lia.
  - rewrite Hk, Hx. intros i x L. rewrite (new_phi d s X F b I (s_yp s1) i x L).
    destruct (Nat.eq_dec i (s_k s)) as [->|Ne].
    + rewrite H1. rewrite (ph_first f d s X F b c ph p yp I Sf P). reflexivity.
    + rewrite H2 by lia. rewrite (ph_first f d s X F b c ph p yp I Sf P), (ph_tail f d s X F b c ph p yp I Sf P) by lia. ring.
  - rewrite Hk, Hx, Hc. intros i L. rewrite Psi by exact L. cbn [before]. rewrite (i_x _ _ _ _ _ I). ring.
Qed.

Lemma ready_ok c : sized c -> exists c', ready c = Ok c' /\ sized c' /\ psi c' = psi c /\ alpha c' = alpha c /\ beta c' = beta c /\ v c' = v c /\
  a_val (g c') 0 = 1 /\ a_val (g c') 1 = 1 / 2 /\ forall i, (2 <= i)%nat -> a_val (g c') i = a_val (g c) i.
Proof.
  intros [Zp Za Zb Zv Zw Zs Zg]. unfold ready. do 3 io. eexists. split; [reflexivity|]. cbn [psi alpha beta v w sig g a_val a_len]. split; [constructor; assumption|]. do 4 (split; [reflexivity|]). cbn [Nat.eqb]. split; [reflexivity|]. split; [lra|].
  intros i L. destruct i as [|[|i]]; [lia|lia|reflexivity].
Qed.
Lemma same_sign d a b : (d = 1 \/ d = -1) -> 0 < d * a -> 0 < a * b -> 0 < d * b.
Proof. intros [->| ->] H K; nra. Qed.
Lemma inv_next f n d s X F b eps ifail a knew e1 erk s1 h wt c2 : inv d s X F b -> safe s b -> attempt f n eps ifail s = Ok (Accepted a knew e1 erk) -> settle f n eps a knew e1 erk = Ok s1 ->
  0 < s_h s * h -> ready (s_co s1) = Ok c2 ->
  inv d (Ode (s_x s1) h (s_hold s1) (s_k s1) (s_kold s1) (s_ns s1) (s_start s1) (s_phase1 s1) (s_nornd s1) (s_yy s1) (s_yp s1) (s_p s1) wt (s_phi s1) c2)
    (before (s_x s1) X) (before (s_yp s1) F) (if Nat.leb (count_steps s) 1 then false else b || Nat.ltb (s_k s) (s_kold s)).
Proof.
  intros I Sf E St Hh R. pose proof (accepted_grid _ _ _ _ _ _ _ _ _ _ _ _ _ _ I Sf E St) as G.
  destruct (accepted_facts _ _ _ _ _ _ _ _ _ (i_sized _ _ _ _ _ I) (i_k _ _ _ _ _ I) (i_nornd _ _ _ _ _ I) E) as (c & ph & p & yp & P & _ & KN & ->).
  pose proof (block1 f d s X F b c ph p yp I Sf P) as (Z & Psi & _ & _ & _ & _ & _ & G0 & G1 & Run & Last & Gl & Gn & Vn & Vt & _). pose proof (i_k _ _ _ _ _ I) as K.
  destruct (settle_run f n eps (Ode (s_x s + s_h s) (s_h s) (s_hold s) (s_k s) (s_kold s) (count_steps s) (s_start s) (s_phase1 s) true (s_yy s) yp p (s_wt s) ph c) knew e1 erk Z K KN) as (s1' & St' & Hx & Ho & Hk1 & Hk2 & Hk & Hn & _ & Hr & _ & Hc & _ & _ & _ & _ & _).
  rewrite St in St'. injection St' as <-. cbn [s_x s_h s_k s_co s_phi s_yp s_ns] in *. rewrite Hc in R.
  destruct (ready_ok c Z) as (c2' & R' & Z2 & Rp & Ra & Rb & Rv & Rg0 & Rg1 & Rg). rewrite R in R'. injection R' as <-.
  set (ns := count_steps s) in *. pose proof (count_steps_pos s) as N1. fold ns in N1.
  set (s2 := Ode _ h _ _ _ _ _ _ _ _ _ _ wt _ c2). set (b2 := if Nat.leb ns 1 then false else _) in *.
  (* the number of equal steps next time *)
  assert (CS : (count_steps s2 = 1%nat) \/ (h = s_h s /\ (ns <= s_k s)%nat /\ count_steps s2 = S ns) \/ (h = s_h s /\ (s_k s < ns)%nat /\ count_steps s2 = ns)).
  { unfold count_steps, s2. cbn [s_h s_hold s_ns s_kold]. rewrite Ho, Hn, Hk. destruct (Req_EM_T h (s_h s)) as [e|e]; [|left; reflexivity]. right. destruct (Nat.leb_spec ns (s_k s)); [left|right]; auto. }
  assert (TE : forall i, (i < ns)%nat -> before (s_x s1) X O - before (s_x s1) X (S i) = INR (S i) * s_h s).
  { intros i L. cbn [before]. rewrite Hx, <- (T_equal d s X F b I i L), <- (i_x _ _ _ _ _ I). reflexivity. }
  constructor; subst s2; cbn [s_x s_h s_hold s_k s_kold s_ns s_nornd s_phi s_co].
  - exact Z2.
  - exact Hk1.
  - rewrite Hk. lia.
  - exact Hr.
  - exact (i_d _ _ _ _ _ I).
  - apply (same_sign d (s_h s)); [exact (i_d _ _ _ _ _ I)|exact (i_h _ _ _ _ _ I)|exact Hh].
  - reflexivity.
  - rewrite Hk. intros i L. destruct i as [|i]; cbn [before]; [rewrite Hx, <- (i_x _ _ _ _ _ I); pose proof (i_h _ _ _ _ _ I); lra|]. apply (i_dir _ _ _ _ _ I). pose proof (i_kold _ _ _ _ _ I). lia.
  - intros _. rewrite Ho. cbn [before]. rewrite Hx, <- (i_x _ _ _ _ _ I). ring.
  - intros i x L. apply (o_phi _ _ _ G). rewrite Hk. lia.
  - intros i L. rewrite Rp, <- Hc. apply (o_psi _ _ _ G). rewrite Hk. lia.
  - exact Rg0.
  - exact Rg1.
  - rewrite Ra, Rb, Rp. intros i L. destruct CS as [CS|[(-> & Lk & CS)|(-> & Lk & CS)]]; rewrite CS in L; [lia| |].
    + destruct (Nat.eq_dec i (ns - 1)) as [->|Ne].
      * destruct (Last Lk) as (L1 & L2 & L3). replace (S (ns - 1)) with ns by lia. split; [exact L1|]. split; [exact L2|]. split; [exact L3|]. pose proof (TE (ns - 1)%nat ltac:(lia)) as TT. replace (S (ns - 1)) with ns in TT by lia. exact TT.
      * destruct (Run i ltac:(lia)) as (L1 & L2 & L3). split; [exact L1|]. split; [exact L2|]. split; [exact L3|]. apply TE. lia.
    + destruct (Run i ltac:(lia)) as (L1 & L2 & L3). split; [exact L1|]. split; [exact L2|]. split; [exact L3|]. apply TE. lia.
  - intros i L. destruct i as [|[|i]]; [rewrite Rg0; symmetry; apply lv_0_0|rewrite Rg1; symmetry; apply lv_1_0|]. rewrite Rg by lia.
    destruct CS as [CS|[(-> & Lk & CS)|(-> & Lk & CS)]]; rewrite CS in L; [lia| |apply Gl; lia]. destruct (Nat.eq_dec (S (S i)) ns) as [->|Ne]; [apply Gn, Lk|apply Gl; lia].
  - rewrite Rv. intros L L' q Q. destruct CS as [CS|[(-> & Lk & CS)|(-> & Lk & CS)]]; rewrite CS in L, Q |- *; [lia| |lia]. rewrite (Vn Lk) by lia. f_equal. lia.
  - intros B. destruct (Vt B) as (V1 & V2). rewrite Rv. destruct CS as [CS|[(-> & Lk & CS)|(-> & Lk & CS)]]; rewrite CS, Hk.
    + split; [lia|]. lia.
    + split; [lia|]. intros _ q Q. rewrite (V1 Lk) by lia. f_equal. lia.
    + destruct (V2 Lk) as (W1 & W2). split; [lia|]. intros _ q Q. rewrite W2 by lia. f_equal. lia.
Qed.
Lemma shorter eps erk ifail t2 : 0 <= eps -> ((3 < ifail + 1)%Z -> t2 = 1 / 2) -> ((ifail + 1 = 3)%Z -> t2 = 1 / 2) ->
  ((ifail + 1 < 3)%Z -> t2 = if rgt (0.25 * erk) (0.5 * eps) then sqrt (0.5 * eps / erk) else 1 / 2) -> t2 <> 0 -> 0 < t2 < 1.
Proof.
  intros He T3 T2 T1 Nz. destruct (Z.lt_trichotomy (ifail + 1) 3) as [Q|[Q|Q]]; [|rewrite (T2 Q); lra|rewrite (T3 ltac:(lia)); lra].
  specialize (T1 Q). unfold rgt in T1. destruct (Rlt_dec (0.5 * eps) (0.25 * erk)); [|rewrite T1; lra].
  assert (B : 0.5 * eps / erk < 1) by (apply Rmult_lt_reg_r with erk; [lra|]; unfold Rdiv; rewrite Rmult_assoc, Rinv_l by lra; lra).
  assert (B0 : 0 <= 0.5 * eps / erk) by (apply Rmult_le_pos; [lra|]; left; apply Rinv_0_lt_compat; lra).
  pose proof (sqrt_pos (0.5 * eps / erk)). pose proof (sqrt_lt_1 _ _ B0 Rle_0_1 B) as S1. rewrite sqrt_1 in S1. lra.
Qed.
Lemma inv_again f n d s X F b eps ifail s' ifail' : inv d s X F b -> safe s b -> 0 <= eps -> attempt f n eps ifail s = Ok (Again s' ifail') -> s_h s' <> 0 ->
  (2 <= s_k s)%nat \/ s_kold s = 0%nat \/ s_h s' <> s_hold s -> inv d s' X F (b || Nat.ltb (s_k s) (s_kold s)) /\ s_x s' = s_x s /\ s_yy s' = s_yy s.
Proof.
  intros I Sf He E Nz Ok2. pose proof (i_k _ _ _ _ _ I) as K.
  destruct (attempt_cases f n eps ifail s (i_sized _ _ _ _ _ I) K (i_nornd _ _ _ _ _ I)) as (c & ph & p & yp & P & erk & knew & e1 & KN & [(L & A)|(L & t2 & k' & c' & ph' & Rs & K' & T3 & T2 & T1 & [(Lh & A)|(_ & A)])]); rewrite A in E; try discriminate.
  injection E as <- <-. cbn [s_h s_hold] in *. split; [|split; reflexivity].
  pose proof (block1 f d s X F b c ph p yp I Sf P) as (Z & Psi & _ & Bp & Bn & B1 & _ & G0 & G1 & Run & Last & Gl & Gn & Vn & Vt & V1).
  destruct (restore_run (s_k s) (s_h s) c ph Z K) as (c1 & ph1 & Rs' & Z1 & Ra & Rb & Rv & Rg & Rp1 & Rp2 & Rph). rewrite Rs in Rs'. injection Rs' as <- <-.
  pose proof (i_h _ _ _ _ _ I) as Hd. pose proof (count_steps_pos s) as N1.
  (* the new step is shorter *)
  assert (Ht : 0 < t2 < 1).
  { apply (shorter eps erk ifail t2 He); [exact (fun Q => proj1 (T3 Q))|exact (fun Q => proj1 (T2 Q))|exact (fun Q => proj2 (T1 Q))|]. intros Q. apply Nz. rewrite Q. ring. }
  assert (PH : forall i x, (i < s_k s)%nat -> ph' i x = s_phi s i x).
  { intros i x Li. rewrite Rph by exact Li. rewrite (q_phi _ _ _ _ _ _ P) by exact Li. destruct (Nat.leb_spec (count_steps s) i).
    - field. apply Bn, Li.
    - rewrite B1 by assumption. field. }
  assert (PS : forall i, (i < s_k s - 1)%nat -> a_val (psi c') i = X O - X (S i)).
  { intros i Li. rewrite Rp1 by exact Li. rewrite Psi by lia. ring. }
  set (s2 := Ode (s_x s) _ _ _ _ _ _ _ _ _ _ _ _ _ _).
  assert (CS : (count_steps s2 = 1%nat) \/ (count_steps s = 1%nat /\ t2 * s_h s = s_hold s /\ (1 <= s_kold s)%nat /\ (2 <= s_k s)%nat /\ count_steps s2 = 2%nat)).
  { unfold count_steps at 1 3, s2. cbn [s_h s_hold s_ns s_kold]. destruct (Req_EM_T (t2 * s_h s) (s_hold s)) as [e|e]; [|left; reflexivity].
    assert (count_steps s = 1%nat) as C1.
    { unfold count_steps. destruct (Req_EM_T (s_h s) (s_hold s)) as [e'|e']; [|reflexivity]. exfalso. rewrite <- e' in e. assert (s_h s <> 0) by (intros Q; rewrite Q in Hd; lra). assert (t2 * s_h s = 1 * s_h s) as Q by lra. apply Rmult_eq_reg_r in Q; lra. }
    rewrite C1. destruct (Nat.leb_spec 1 (s_kold s)); [|left; reflexivity]. right. repeat split; try assumption. destruct Ok2 as [Q|[Q|Q]]; [exact Q|lia|contradiction]. }
  constructor; subst s2; cbn [s_x s_h s_hold s_k s_kold s_ns s_nornd s_phi s_co].
  - exact Z1.
  - lia.
  - pose proof (i_kold _ _ _ _ _ I). lia.
  - reflexivity.
  - exact (i_d _ _ _ _ _ I).
  - replace (d * (t2 * s_h s)) with (t2 * (d * s_h s)) by ring. apply Rmult_lt_0_compat; lra.
  - exact (i_x _ _ _ _ _ I).
  - exact (i_dir _ _ _ _ _ I).
  - exact (i_hold _ _ _ _ _ I).
  - intros i x Li. rewrite PH by lia. apply (i_phi _ _ _ _ _ I). lia.
  - intros i Li. apply PS. lia.
  - rewrite Rg. exact G0.
  - rewrite Rg. exact G1.
  - rewrite Ra, Rb. intros i Li. destruct CS as [CS|(C1 & Eh & Ko & K2 & CS)]; rewrite CS in Li; [lia|]. assert (i = O) as -> by lia. rewrite C1 in *. destruct (Last ltac:(lia)) as (L1 & L2 & _). cbn [Nat.sub] in L1, L2. split; [exact L1|]. split; [exact L2|].
    rewrite PS by lia. rewrite Eh, (i_hold _ _ _ _ _ I Ko). change (INR 1) with 1. split; ring.
  - rewrite Rg. intros i Li. destruct i as [|[|i]]; [rewrite G0; symmetry; apply lv_0_0|rewrite G1; symmetry; apply lv_1_0|]. destruct CS as [CS|(_ & _ & _ & _ & CS)]; rewrite CS in Li; lia.
  - rewrite Rv. intros Li Li' q Q. destruct CS as [CS|(C1 & Eh & Ko & K2 & CS)]; rewrite CS in *; [lia|]. apply V1; [exact C1|lia].
  - intros B. apply orb_false_iff in B. destruct B as (_ & B). apply Nat.ltb_ge in B. rewrite Rv. destruct CS as [CS|(C1 & Eh & Ko & K2 & CS)]; rewrite CS in *; [split; lia|]. split; [lia|]. intros _ q Q. rewrite V1 by (lia || exact C1). f_equal. lia.
Qed.

(* every state at the beginning of a pass meets the invariant *)
Lemma reach_inv f n s X F b : reach f n s X F b -> exists d, inv d s X F b.
Proof.
  intros H. induction H as [s X F Z K Ko Ho Hh Hr G0 G1 Hx HF Hp|s X F b eps ifail s' ifail' _ (d & I) Sf He E Nz Ok2|s X F b eps ifail a knew e1 erk s1 h wt c _ (d & I) Sf E St Hh R].
  - assert (CS : count_steps s = 1%nat) by (unfold count_steps; rewrite Ko, Ho; destruct (Req_EM_T (s_h s) 0); [contradiction|reflexivity]).
    exists (if Rlt_dec 0 (s_h s) then 1 else -1). constructor; rewrite ?CS, ?K, ?Ko; try assumption; try lia.
    + destruct (Rlt_dec 0 (s_h s)); auto.
    + destruct (Rlt_dec 0 (s_h s)); lra.
    + intros i c L. assert (i = O) as -> by lia. rewrite Hp. cbn [prodn dd]. unfold comp. ring.
    + intros i L. assert (i = O) as -> by lia. rewrite G0. symmetry. apply lv_0_0.
  - exists d. apply (inv_again f n d s X F b eps ifail s' ifail' I Sf He E Nz Ok2).
  - exists d. eapply inv_next; eassumption.
Qed.

(* ---- interpolation ---- *)
Lemma intrp_grid s X F xout junk : on_grid s X F -> exists yo ypo, intrp s xout junk = Ok (yo, ypo) /\
  forall x P Q, degree_below (S (s_kold s)) P -> through (S (s_kold s)) X (comp F x) P -> primitive P Q -> yo x = s_yy s x + (Q xout - Q (s_x s)) /\ ypo x = P xout.
Proof.
  intros [Z K Hx D Hphi Hpsi]. destruct (intrp_run s xout junk Z ltac:(lia)) as (yo & ypo & E & H1 & H2). exists yo, ypo. split; [exact E|]. clear E. intros x P Q Dg Th Pr. set (hi := xout - s_x s) in *.
  assert (Gp : forall j, (j < s_kold s)%nat -> X O - X (S j) <> 0) by (intros j J; specialize (D O (S j) ltac:(lia)); lra).
  assert (PU : forall u, P (s_x s + hi * (1 - u)) = sumn (S (s_kold s)) (fun i => s_phi s i x * factors (gam s hi) (eta s hi) i u)).
  { intros u. rewrite (newton_form _ X (comp F x) P _ D Dg Th). unfold newton. apply sumn_ext. intros i L. rewrite Hphi by lia.
    enough (B : basis X i (s_x s + hi * (1 - u)) = prodn i (fun j => X O - X (S j)) * factors (gam s hi) (eta s hi) i u) by (rewrite B; ring).
    unfold basis, factors. rewrite <- prodn_mult. apply prodn_ext. intros j J. unfold gam, eta. rewrite Hpsi by lia. specialize (Gp j ltac:(lia)). rewrite <- Hx.
    destruct j as [|j]; [field; exact Gp|]. rewrite (Hpsi j) by lia. field. exact Gp. }
  split.
  - rewrite H1. f_equal. replace xout with (s_x s + hi) at 1 by (unfold hi; ring). rewrite (integral_factors (gam s hi) (eta s hi) (fun i => s_phi s i x) (S (s_kold s)) (s_x s) hi P Q Pr PU). f_equal. apply sumn_ext. intros. ring.
  - rewrite H2. replace xout with (s_x s + hi * (1 - 0)) by (unfold hi; ring). rewrite PU. apply sumn_ext. intros. ring.
Qed.

(* ---- the theorems ---- *)
Lemma adams_pass f n s X F b eps ifail a knew e1 erk s1 : reach f n s X F b -> safe s b ->
  attempt f n eps ifail s = Ok (Accepted a knew e1 erk) -> settle f n eps a knew e1 erk = Ok s1 ->
  X O = s_x s /\ s_x s1 = s_x s + s_h s /\
  (forall x P Q, degree_below (s_k s) P -> through (s_k s) X (comp F x) P -> primitive P Q -> s_p a x = s_yy s x + (Q (s_x s1) - Q (s_x s))) /\
  s_yp a = f (s_x s1) (s_p a) /\
  (forall x P Q, degree_below (S (s_k s)) P -> through (S (s_k s)) (before (s_x s1) X) (before (s_yp a x) (comp F x)) P -> primitive P Q -> s_yy s1 x = s_yy s x + (Q (s_x s1) - Q (s_x s))) /\
  s_yp s1 = f (s_x s1) (s_yy s1) /\
  (forall xout junk, exists yo ypo, intrp s1 xout junk = Ok (yo, ypo) /\ forall x P Q, degree_below (S (s_k s)) P -> through (S (s_k s)) (before (s_x s1) X) (comp (before (s_yp s1) F) x) P -> primitive P Q ->
     yo x = s_yy s1 x + (Q xout - Q (s_x s1)) /\ ypo x = P xout) /\
  distinct (s_k s) X /\ distinct (S (s_k s)) (before (s_x s1) X).
Proof.
  intros R Sf E St. destruct (reach_inv _ _ _ _ _ _ R) as (d & I). pose proof (accepted_grid _ _ _ _ _ _ _ _ _ _ _ _ _ _ I Sf E St) as G.
  destruct (accepted_facts _ _ _ _ _ _ _ _ _ (i_sized _ _ _ _ _ I) (i_k _ _ _ _ _ I) (i_nornd _ _ _ _ _ I) E) as (c & ph & p & yp & P & _ & KN & ->).
  pose proof (q_sized _ _ _ _ _ _ P) as Z. pose proof (i_k _ _ _ _ _ I) as K.
  destruct (settle_run f n eps (Ode (s_x s + s_h s) (s_h s) (s_hold s) (s_k s) (s_kold s) (count_steps s) (s_start s) (s_phase1 s) true (s_yy s) yp p (s_wt s) ph c) knew e1 erk Z K KN) as (s1' & St' & Hx & Ho & _ & _ & Hk & _ & _ & _ & _ & _ & _ & Hy & Hyp & _ & _).
  rewrite St in St'. injection St' as <-. cbn [s_x s_h s_k s_co s_phi s_yp s_p s_yy] in *.
  split; [exact (i_x _ _ _ _ _ I)|]. split; [exact Hx|]. rewrite Hx.
  split; [intros x Pl Q; apply (predictor f d s X F b c ph p yp I Sf P)|].
  split; [exact (q_yp _ _ _ _ _ _ P)|].
  split; [intros x Pl Q D Th Pr; rewrite Hy; apply (corrector f d s X F b c ph p yp I Sf P x Pl Q D Th Pr)|].
  split; [exact Hyp|]. split; [|split].
  - intros xout junk. destruct (intrp_grid _ _ _ xout junk G) as (yo & ypo & Ei & H). exists yo, ypo. split; [exact Ei|]. intros x Pl Q D Th Pr. rewrite Hx, Hk in H. apply H; assumption.
  - apply distinct_le with (S (s_kold s)); [exact (i_kold _ _ _ _ _ I)|exact (nodes_distinct d s X F b I)].
  - rewrite <- Hx, <- Hk. exact (o_distinct _ _ _ G).
Qed.
(* the test of a pass *)
Lemma norm2_scale n k u : norm2 n (vscale k u) = k * k * norm2 n u.
Proof. induction n as [|n IH]; cbn [norm2]; [ring|]. rewrite IH. unfold vscale. ring. Qed.
Lemma norm2_ext n u w : (forall i, (i < n)%nat -> u i = w i) -> norm2 n u = norm2 n w.
Proof. induction n as [|n IH]; intros H; cbn [norm2]; [reflexivity|]. rewrite IH by (intros; apply H; lia). rewrite H by lia. reflexivity. Qed.
Lemma norm2_pos n u : 0 <= norm2 n u.
Proof. induction n as [|n IH]; cbn [norm2]; [lra|]. pose proof (Rle_0_sqr (u n)) as Q. unfold Rsqr in Q. lra. Qed.
Lemma adams_error f n s X F b eps ifail r low high : reach f n s X F b -> safe s b -> attempt f n eps ifail s = Ok r ->
  let yp := match r with Accepted a _ _ _ => s_yp a | Again a _ => s_yp a | Crashed a _ => s_yp a end in
  (forall x P Q, degree_below (s_k s) P -> through (s_k s) (before (s_x s + s_h s) X) (before (yp x) (comp F x)) P -> primitive P Q -> low x = s_yy s x + (Q (s_x s + s_h s) - Q (s_x s))) ->
  (forall x P Q, degree_below (S (s_k s)) P -> through (S (s_k s)) (before (s_x s + s_h s) X) (before (yp x) (comp F x)) P -> primitive P Q -> high x = s_yy s x + (Q (s_x s + s_h s) - Q (s_x s))) ->
  (exists a knew e1 erk, r = Accepted a knew e1 erk) <-> norm n (vdiv (vsub high low) (s_wt s)) <= eps.
Proof.
  intros R Sf E. cbn zeta. intros Hl Hh. destruct (reach_inv _ _ _ _ _ _ R) as (d & I).
  destruct (attempt_cases f n eps ifail s (i_sized _ _ _ _ _ I) (i_k _ _ _ _ _ I) (i_nornd _ _ _ _ _ I)) as (c & ph & p & yp & P & C).
  assert (Y : match r with Accepted a _ _ _ => s_yp a | Again a _ => s_yp a | Crashed a _ => s_yp a end = yp).
  { destruct C as (erk' & knew' & e1' & KN & [(L & A)|(L & t2 & k' & c' & ph' & _ & _ & _ & _ & _ & [(_ & A)|(_ & A)])]); rewrite A in E; injection E as <-; reflexivity. }
  rewrite Y in *. clear Y.
  assert (D1 : distinct (S (s_k s)) (before (s_x s + s_h s) X)).
  { intros i j L. destruct i as [|i], j as [|j]; try lia; cbn [before].
    - pose proof (T_nonzero d s X F b I j ltac:(lia)) as N. rewrite (i_x _ _ _ _ _ I) in N. lra.
    - apply (nodes_distinct d s X F b I). pose proof (i_kold _ _ _ _ _ I). lia. }
  assert (Eq : forall x, high x - low x = s_h s * (a_val (g c) (s_k s) - a_val (g c) (s_k s - 1)) * (yp x - ph O x)).
  { intros x. pose proof (newton_through _ _ (before (yp x) (comp F x)) D1) as T1. destruct (newton_primitive (S (s_k s)) (before (s_x s + s_h s) X) (before (yp x) (comp F x))) as (Q1 & P1).
    pose proof (distinct_le (s_k s) (S (s_k s)) _ ltac:(lia) D1) as D2. pose proof (newton_through _ _ (before (yp x) (comp F x)) D2) as T2. destruct (newton_primitive (s_k s) (before (s_x s + s_h s) X) (before (yp x) (comp F x))) as (Q2 & P2).
    rewrite (Hh x _ _ (degree_newton _ _ _) T1 P1), (Hl x _ _ (degree_newton _ _ _) T2 P2).
    rewrite <- (corrector f d s X F b c ph p yp I Sf P x _ _ (degree_newton _ _ _) T1 P1), <- (corrector_low f d s X F b c ph p yp I Sf P x _ _ (degree_newton _ _ _) T2 P2). ring. }
  pose proof (g_decreases f d s X F b c ph p yp I Sf P) as Gd.
  assert (Er : norm n (vdiv (vsub high low) (s_wt s)) = local_error n s c ph yp).
  { unfold local_error, norm. set (dg := a_val (g c) (s_k s - 1) - a_val (g c) (s_k s)) in *.
    rewrite (norm2_ext n _ (vscale (- (s_h s * dg)) (vdiv (vsub yp (ph O)) (s_wt s)))).
    - rewrite norm2_scale. rewrite sqrt_mult by (try apply norm2_pos; nra). replace (- (s_h s * dg) * - (s_h s * dg)) with (Rsqr (s_h s * dg)) by (unfold Rsqr; ring). rewrite sqrt_Rsqr_abs, Rabs_mult, (Rabs_right dg) by lra. ring.
    - intros i _. unfold vdiv, vsub, vscale. rewrite Eq. unfold dg, Rdiv. ring. }
  rewrite Er. destruct C as (erk' & knew' & e1' & KN & [(L & A)|(L & t2 & k' & c' & ph' & _ & _ & _ & _ & _ & [(_ & A)|(_ & A)])]); rewrite A in E; injection E as <-.
  - split; [intros _; exact L|intros _; do 4 eexists; reflexivity].
  - split; [intros (? & ? & ? & ? & Q); discriminate|intros Q; lra].
  - split; [intros (? & ? & ? & ? & Q); discriminate|intros Q; lra].
Qed.
