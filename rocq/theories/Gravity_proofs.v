From Coq Require Import List ZArith Reals Lra Lia Arith Bool.
From Verif Require Import Base Vec_model Vec_proofs Calc Harmonics_model Legendre GravHarm Gravity_model.
Import ListNotations.
Local Open Scope R_scope.

(* ---- specification ---- *)
(* the table holds F at the cells of degree <= l, order <= k *)
Definition holds (t : table) (F : nat -> nat -> R) (l k : nat) : Prop :=
  forall n m, (n <= l)%nat -> (m <= n)%nat -> (m <= k)%nat -> get t n m = Ok (F n m).
(* the un-normalised coefficients up to a degree *)
Definition coefficients (h : hc R) (degree : nat) (C S : nat -> nat -> R) : Prop :=
  forall n m, (m <= n <= degree)%nat -> Cnm h n m = Ok (C n m) /\ ((1 <= m)%nat -> Snm h n m = Ok (S n m)).
(* the potential: the sum of the spherical harmonics up to a degree and an order *)
Definition potential (GM Re : R) (C S : nat -> nat -> R) (degree order : nat) (p : vec) (lam : R) : R :=
  GM / norm p * sum_f_R0 (fun n => sum_f_R0 (fun m => (Re / norm p) ^ n * Pnm n m (vz p / norm p) * (C n m * cos (INR m * lam) + S n m * sin (INR m * lam))) (min n order)) degree.

(* ---- loops ---- *)
Lemma iterate_inv {S} (I : nat -> S -> Prop) f : forall count lo s, I lo s ->
  (forall i s, (lo <= i < lo + count)%nat -> I i s -> exists s', f i s = Ok s' /\ I (Datatypes.S i) s') ->
  exists s', iterate lo count f s = Ok s' /\ I (lo + count)%nat s'.
Proof.
  induction count as [|c IH]; intros lo s H F; cbn [iterate].
  - exists s. rewrite Nat.add_0_r. split; [reflexivity|exact H].
  - destruct (F lo s ltac:(lia) H) as (s' & E & H'). rewrite E. cbn [obind]. destruct (IH (Datatypes.S lo) s' H') as (s2 & E2 & H2); [intros i x L; apply F; lia|]. exists s2. split; [exact E2|]. replace (lo + Datatypes.S c)%nat with (Datatypes.S lo + c)%nat by lia. exact H2.
Qed.
Lemma loop_inv {S} (I : nat -> S -> Prop) f lo hi s : (lo <= Datatypes.S hi)%nat -> I lo s ->
  (forall i s, (lo <= i <= hi)%nat -> I i s -> exists s', f i s = Ok s' /\ I (Datatypes.S i) s') ->
  exists s', loop lo hi f s = Ok s' /\ I (Datatypes.S hi) s'.
Proof. intros L H F. unfold loop. destruct (iterate_inv I f (Datatypes.S hi - lo) lo s H) as (s' & E & H'); [intros i x B; apply F; lia|]. exists s'. split; [exact E|]. replace (Datatypes.S hi) with (lo + (Datatypes.S hi - lo))%nat by lia. exact H'. Qed.

(* ---- tables ---- *)
Record good (t : table) (F : nat -> nat -> R) (P : nat -> nat -> Prop) (rows cols : nat) : Prop := Good {
  g_rows : t_rows t = rows; g_cols : t_cols t = cols; g_val : forall i j, P i j -> t_val t i j = F i j }.
Lemma inside_ok t i j : (i < t_rows t)%nat -> (j < t_cols t)%nat -> (j <= i)%nat -> inside t i j = true.
Proof. intros. unfold inside. rewrite !andb_true_iff, !Nat.ltb_lt, Nat.leb_le. tauto. Qed.
Lemma get_good t F P rows cols i j : good t F P rows cols -> P i j -> (i < rows)%nat -> (j < cols)%nat -> (j <= i)%nat -> get t i j = Ok (F i j).
Proof. intros [R C V] H A B D. unfold get. rewrite inside_ok by lia. rewrite V by exact H. reflexivity. Qed.
Lemma put_good t F P rows cols i j v : good t F P rows cols -> (i < rows)%nat -> (j < cols)%nat -> (j <= i)%nat -> v = F i j ->
  exists t', put t i j v = Ok t' /\ good t' F (fun a b => P a b \/ (a = i /\ b = j)) rows cols.
Proof.
  intros [R C V] A B D E. unfold put. rewrite inside_ok by lia. eexists. split; [reflexivity|]. split; cbn; [exact R|exact C|]. intros a b H.
  destruct (Nat.eqb_spec a i) as [->|Na]; [destruct (Nat.eqb_spec b j) as [->|Nb]; [cbn; exact E|]|]; cbn; (destruct H as [H|[? ?]]; [apply V, H|congruence]).
Qed.
Lemma good_less t F (P Q : nat -> nat -> Prop) rows cols : good t F P rows cols -> (forall i j, Q i j -> P i j) -> good t F Q rows cols.
Proof. intros [R C V] H. split; [exact R|exact C|]. intros i j K. apply V, H, K. Qed.
Lemma good_any t F : good t F (fun _ _ => False) (t_rows t) (t_cols t). Proof. split; [reflexivity|reflexivity|intros ? ? []]. Qed.

Section Fill.
Context (x y z Re : R) (l k : nat) (rv cv rw cw : nat).
Let p := Vec_model.V x y z.
Let r2 := x * x + y * y + z * z.
Let rho := Re * Re / r2.
Let x0 := Re * x / r2.
Let y0 := Re * y / r2.
Let z0 := Re * z / r2.
Context (N : p <> vzero) (KL : (k <= l)%nat) (RV : (l < rv)%nat) (RV1 : (1 < rv)%nat) (CV : (k < cv)%nat) (RW : (l < rw)%nat) (RW1 : (1 < rw)%nat) (CW : (k < cw)%nat).
Let FV n m := VF Re n m p.
Let FW n m := WF Re n m p.
Lemma q2 : / norm p * / norm p = / r2.
Proof. rewrite <- Rinv_mult. f_equal. rewrite norm_sqr. unfold dot, r2. reflexivity. Qed.
Lemma rec_V n m : (INR n + 2 - INR m) * FV (S (S n)) m = (2 * INR n + 3) * z0 * FV (S n) m - (INR n + INR m + 1) * rho * FV n m.
Proof. unfold FV, VF. rewrite <- Rmult_assoc, F_rec, q2. unfold z0, rho, p. cbn [vz]. unfold Rdiv. ring. Qed.
Lemma rec_W n m : (INR n + 2 - INR m) * FW (S (S n)) m = (2 * INR n + 3) * z0 * FW (S n) m - (INR n + INR m + 1) * rho * FW n m.
Proof. unfold FW, WF. rewrite <- Rmult_assoc, F_rec, q2. unfold z0, rho, p. cbn [vz]. unfold Rdiv. ring. Qed.
Lemma next_V m : FV (S m) m = (2 * INR m + 1) * z0 * FV m m.
Proof. unfold FV, VF. rewrite F_next, q2. unfold z0, p. cbn [vz]. unfold Rdiv. ring. Qed.
Lemma next_W m : FW (S m) m = (2 * INR m + 1) * z0 * FW m m.
Proof. unfold FW, WF. rewrite F_next, q2. unfold z0, p. cbn [vz]. unfold Rdiv. ring. Qed.
Lemma sect_V m : FV (S m) (S m) = (2 * INR m + 1) * (x0 * FV m m - y0 * FW m m).
Proof. unfold FV, FW, VF, WF. rewrite F_sect, q2, Am_S. unfold x0, y0, p. cbn [vx vy]. unfold Rdiv. ring. Qed.
Lemma sect_W m : FW (S m) (S m) = (2 * INR m + 1) * (x0 * FW m m + y0 * FV m m).
Proof. unfold FV, FW, VF, WF. rewrite F_sect, q2, Bm_S. unfold x0, y0, p. cbn [vx vy]. unfold Rdiv. ring. Qed.
Definition both (P : nat -> nat -> Prop) (s : table * table) : Prop := good (fst s) FV P rv cv /\ good (snd s) FW P rw cw.
Lemma both_less (P Q : nat -> nat -> Prop) s : both P s -> (forall i j, Q i j -> P i j) -> both Q s.
Proof. intros [A B] H. split; eapply good_less; eassumption. Qed.
Lemma W_0 n : FW n 0 = 0. Proof. unfold FW, WF, Bm. cbn. ring. Qed.

Ltac getV G := match goal with |- context [get ?t ?i ?j] => rewrite (get_good t _ _ _ _ i j G) by (cbn; lia); cbn [obind] end.
Lemma zonal_ok n s : (2 <= n <= l)%nat -> both (fun i j => j = 0 /\ i < n)%nat s -> exists s', zonal_step z0 rho n s = Ok s' /\ both (fun i j => j = 0 /\ i < S n)%nat s'.
Proof.
  intros L [GV GW]. destruct s as [V W]. cbn [fst snd] in *. unfold zonal_step. getV GV. getV GV.
  destruct n as [|[|n]]; try lia. cbn [Nat.sub]. rewrite Nat.sub_0_r.
  destruct (put_good V FV _ rv cv (S (S n)) 0 (((2 * INR (S (S n)) - 1) * z0 * FV (S n) 0 - (INR (S (S n)) - 1) * rho * FV n 0) / INR (S (S n))) GV) as (V' & EV & GV'); [lia|lia|lia| |].
  { pose proof (rec_V n 0) as R. rewrite !S_INR. pose proof (pos_INR n). cbn [INR] in R. apply Rmult_eq_reg_r with (INR n + 1 + 1); [|lra]. unfold Rdiv. rewrite Rmult_assoc, Rinv_l by lra. lra. }
  rewrite EV. cbn [obind]. destruct (put_good W FW _ rw cw (S (S n)) 0 0 GW) as (W' & EW & GW'); [lia|lia|lia|rewrite W_0; reflexivity|]. rewrite EW. cbn [obind]. eexists. split; [reflexivity|]. split; eapply good_less; try eassumption; cbn; intros; lia.
Qed.
Lemma tesseral_ok m n s : (1 <= m <= k)%nat -> (m + 2 <= n <= l)%nat -> both (fun i j => i <= l /\ j < m /\ j <= i \/ j = m /\ j <= i < n)%nat s -> exists s', tesseral_step z0 rho m n s = Ok s' /\ both (fun i j => i <= l /\ j < m /\ j <= i \/ j = m /\ j <= i < S n)%nat s'.
Proof.
  intros LM L [GV GW]. destruct s as [V W]. cbn [fst snd] in *. unfold tesseral_step. getV GV. getV GV.
  destruct n as [|[|n]]; try lia. cbn [Nat.sub]. rewrite Nat.sub_0_r.
  assert (P : INR m <= INR n) by (apply le_INR; lia).
  destruct (put_good V FV _ rv cv (S (S n)) m (((2 * INR (S (S n)) - 1) * z0 * FV (S n) m - (INR (S (S n)) + INR m - 1) * rho * FV n m) / (INR (S (S n)) - INR m)) GV) as (V' & EV & GV'); [lia|lia|lia| |].
  { pose proof (rec_V n m) as R. rewrite !S_INR. apply Rmult_eq_reg_r with (INR n + 1 + 1 - INR m); [|lra]. unfold Rdiv. rewrite Rmult_assoc, Rinv_l by lra. lra. }
  rewrite EV. cbn [obind]. match goal with |- context [get W ?i ?j] => rewrite (get_good W _ _ _ _ i j GW) by (cbn; lia) end. cbn [obind]. match goal with |- context [get W ?i ?j] => rewrite (get_good W _ _ _ _ i j GW) by (cbn; lia) end. cbn [obind].
  destruct (put_good W FW _ rw cw (S (S n)) m (((2 * INR (S (S n)) - 1) * z0 * FW (S n) m - (INR (S (S n)) + INR m - 1) * rho * FW n m) / (INR (S (S n)) - INR m)) GW) as (W' & EW & GW'); [lia|lia|lia| |].
  { pose proof (rec_W n m) as R. rewrite !S_INR. apply Rmult_eq_reg_r with (INR n + 1 + 1 - INR m); [|lra]. unfold Rdiv. rewrite Rmult_assoc, Rinv_l by lra. lra. }
  rewrite EW. cbn [obind]. eexists. split; [reflexivity|]. split; eapply good_less; try eassumption; cbn; intros; lia.
Qed.
Lemma order_ok m s : (1 <= m <= k)%nat -> both (fun i j => i <= l /\ j < m /\ j <= i)%nat s -> exists s', order_step x0 y0 z0 rho l m s = Ok s' /\ both (fun i j => i <= l /\ j < S m /\ j <= i)%nat s'.
Proof.
  intros LM [GV GW]. destruct s as [V W]. cbn [fst snd] in *. unfold order_step. destruct m as [|m]; [lia|]. replace (S m - 1)%nat with m by lia.
  rewrite (get_good V _ _ _ _ m m GV) by (cbn; lia). cbn [obind]. rewrite (get_good W _ _ _ _ m m GW) by (cbn; lia). cbn [obind].
  destruct (put_good V FV _ rv cv (S m) (S m) ((2 * INR (S m) - 1) * (x0 * FV m m - y0 * FW m m)) GV) as (V1 & EV & GV1); [lia|lia|lia|rewrite sect_V, S_INR; ring|]. rewrite EV. cbn [obind].
  destruct (put_good W FW _ rw cw (S m) (S m) ((2 * INR (S m) - 1) * (x0 * FW m m + y0 * FV m m)) GW) as (W1 & EW & GW1); [lia|lia|lia|rewrite sect_W, S_INR; ring|]. rewrite EW. cbn [obind].
  assert (A : exists s2, (if Nat.ltb (S m) l then do v1 <- get V1 (S m) (S m); do V2 <- put V1 (S m + 1) (S m) ((2 * INR (S m) + 1) * z0 * v1); do w1 <- get W1 (S m) (S m); do W2 <- put W1 (S m + 1) (S m) ((2 * INR (S m) + 1) * z0 * w1); Ok (V2, W2) else Ok (V1, W1)) = Ok s2
      /\ both (fun i j => i <= l /\ j < S m /\ j <= i \/ (j = S m /\ j <= i < S m + 2 /\ i <= l))%nat s2).
  { destruct (Nat.ltb_spec (S m) l) as [LT|GE].
    - rewrite (get_good V1 _ _ _ _ (S m) (S m) GV1) by (cbn; lia). cbn [obind]. replace (S m + 1)%nat with (S (S m)) by lia.
      destruct (put_good V1 FV _ rv cv (S (S m)) (S m) ((2 * INR (S m) + 1) * z0 * FV (S m) (S m)) GV1) as (V2 & EV2 & GV2); [lia|lia|lia|rewrite next_V; reflexivity|]. rewrite EV2. cbn [obind].
      rewrite (get_good W1 _ _ _ _ (S m) (S m) GW1) by (cbn; lia). cbn [obind].
      destruct (put_good W1 FW _ rw cw (S (S m)) (S m) ((2 * INR (S m) + 1) * z0 * FW (S m) (S m)) GW1) as (W2 & EW2 & GW2); [lia|lia|lia|rewrite next_W; reflexivity|]. rewrite EW2. cbn [obind].
      eexists. split; [reflexivity|]. split; eapply good_less; try eassumption; cbn; intros i j H; lia.
    - eexists. split; [reflexivity|]. split; eapply good_less; try eassumption; cbn; intros i j H; lia. }
  destruct A as (s2 & E2 & G2). rewrite E2. cbn [obind].
  destruct (le_lt_dec (S m + 2) (S l)) as [LE|GT].
  - destruct (loop_inv (fun n s => both (fun i j => i <= l /\ j < S m /\ j <= i \/ j = S m /\ j <= i < n)%nat s) (tesseral_step z0 rho (S m)) (S m + 2) l s2) as (s' & E & G).
    + exact LE.
    + eapply both_less; [exact G2|]. cbn. intros i j H. lia.
    + intros n s L G. apply tesseral_ok; [lia|lia|exact G].
    + exists s'. split; [exact E|]. eapply both_less; [exact G|]. cbn. intros i j H. lia.
  - exists s2. unfold loop. replace (S l - (S m + 2))%nat with O by lia. split; [reflexivity|]. eapply both_less; [exact G2|]. cbn. intros i j H. lia.
Qed.
End Fill.

(* ---- the tables ---- *)
Lemma lagrange_ok p Re l k V W : p <> vzero -> (k <= l)%nat -> (l < t_rows V)%nat -> (1 < t_rows V)%nat -> (k < t_cols V)%nat -> (l < t_rows W)%nat -> (1 < t_rows W)%nat -> (k < t_cols W)%nat ->
  exists V' W', lagrange_polynomials p Re l k V W = Ok (0%Z, (V', W')) /\ holds V' (fun n m => VF Re n m p) l k /\ holds W' (fun n m => WF Re n m p) l k /\
    t_rows V' = t_rows V /\ t_cols V' = t_cols V /\ t_rows W' = t_rows W /\ t_cols W' = t_cols W.
Proof.
  intros N KL RV RV1 CV RW RW1 CW. destruct p as [x y z]. unfold lagrange_polynomials. destruct (Nat.ltb_spec l k) as [|_]; [lia|].
  set (p := Vec_model.V x y z) in *. set (r2 := x * x + y * y + z * z).
  destruct (put_good V (fun n m => VF Re n m p) _ _ _ 0 0 (Re / sqrt r2) (good_any V _)) as (V1 & EV1 & GV1); [lia|lia|lia| |].
  { unfold VF. rewrite F_00. unfold Am. cbn. unfold norm, dot, p. cbn [vx vy vz]. fold r2. unfold Rdiv. ring. }
  rewrite EV1. cbn [obind].
  destruct (put_good W (fun n m => WF Re n m p) _ _ _ 0 0 0 (good_any W _)) as (W1 & EW1 & GW1); [lia|lia|lia|first [exact (W_0 x y z Re 0)|symmetry; exact (W_0 x y z Re 0)]|]. rewrite EW1. cbn [obind].
  rewrite (get_good V1 _ _ _ _ 0 0 GV1) by (cbn; lia || tauto). cbn [obind].
  destruct (put_good V1 (fun n m => VF Re n m p) _ _ _ 1 0 (Re * z / r2 * VF Re 0 0 p) GV1) as (V2 & EV2 & GV2); [lia|lia|lia| |].
  { pose proof (next_V x y z Re 0) as E. cbn [INR] in E. fold p in E. rewrite E. unfold r2. ring. }
  rewrite EV2. cbn [obind].
  destruct (put_good W1 (fun n m => WF Re n m p) _ _ _ 1 0 0 GW1) as (W2 & EW2 & GW2); [lia|lia|lia|first [exact (W_0 x y z Re 1)|symmetry; exact (W_0 x y z Re 1)]|]. rewrite EW2. cbn [obind].
  assert (A : exists s, loop 2 l (zonal_step (Re * z / r2) (Re * Re / r2)) (V2, W2) = Ok s /\ both x y z Re (t_rows V) (t_cols V) (t_rows W) (t_cols W) (fun i j => j = 0 /\ i <= l)%nat s).
  { destruct (le_lt_dec 2 (S l)) as [LE|GT].
    - destruct (loop_inv (fun n s => both x y z Re (t_rows V) (t_cols V) (t_rows W) (t_cols W) (fun i j => j = 0 /\ i < n)%nat s) (zonal_step (Re * z / r2) (Re * Re / r2)) 2 l (V2, W2)) as (s & E & G).
      + exact LE.
      + split; cbn [fst snd]; [eapply good_less; [exact GV2|]|eapply good_less; [exact GW2|]]; cbn; intros i j H; lia.
      + intros n s L G. apply (zonal_ok x y z Re l k); try assumption.
      + exists s. split; [exact E|]. eapply both_less; [exact G|]. cbn. intros; lia.
    - exists (V2, W2). unfold loop. replace (S l - 2)%nat with O by lia. split; [reflexivity|]. split; cbn [fst snd]; [eapply good_less; [exact GV2|]|eapply good_less; [exact GW2|]]; cbn; intros i j H; lia. }
  destruct A as (s & ES & GS). rewrite ES. cbn [obind].
  destruct (loop_inv (fun m s => both x y z Re (t_rows V) (t_cols V) (t_rows W) (t_cols W) (fun i j => i <= l /\ j < m /\ j <= i)%nat s) (order_step (Re * x / r2) (Re * y / r2) (Re * z / r2) (Re * Re / r2) l) 1 k s) as (s' & E & G).
  - lia.
  - eapply both_less; [exact GS|]. cbn. intros; lia.
  - intros m s' L G. apply (order_ok x y z Re l k); try assumption.
  - rewrite E. cbn [obind]. destruct s' as [V' W']. destruct G as [GV GW]. cbn [fst snd] in *. exists V', W'. split; [reflexivity|].
    split; [intros n m A B D; apply (get_good V' _ _ _ _ n m GV); cbn; lia|]. split; [intros n m A B D; apply (get_good W' _ _ _ _ n m GW); cbn; lia|].
    destruct GV as [? ? _]. destruct GW as [? ? _]. tauto.
Qed.

(* ---- sums ---- *)
Fixpoint vsum (f : nat -> vec) (n : nat) : vec := match n with O => f O | S n' => vadd (vsum f n') (f (S n')) end.
Lemma vsum_dot f u n : dot (vsum f n) u = sum_f_R0 (fun i => dot (f i) u) n.
Proof. induction n as [|n IH]; cbn [vsum sum_f_R0]; [reflexivity|]. rewrite <- IH. unfold dot, vadd. cbn [vx vy vz]. ring. Qed.
Lemma vsum_add f g n : vadd (vsum f n) (vsum g n) = vsum (fun i => vadd (f i) (g i)) n.
Proof. induction n as [|n IH]; cbn [vsum]; [reflexivity|]. rewrite <- IH. vec_ring. Qed.
Lemma vsum_ext f g n : (forall i, (i <= n)%nat -> f i = g i) -> vsum f n = vsum g n.
Proof. induction n as [|n IH]; intros H; cbn [vsum]; [apply H; lia|]. rewrite IH by (intros; apply H; lia). rewrite H by lia. reflexivity. Qed.
Lemma deriv_sum (f : nat -> R -> R) (d : nat -> R) s n : (forall i, (i <= n)%nat -> derivable_pt_lim (f i) s (d i)) -> derivable_pt_lim (fun t => sum_f_R0 (fun i => f i t) n) s (sum_f_R0 d n).
Proof. induction n as [|n IH]; intros H; cbn [sum_f_R0]; [apply H; lia|]. apply (deriv_plus (fun t => sum_f_R0 (fun i => f i t) n) (f (S n))); [apply IH; intros; apply H; lia|apply H; lia]. Qed.
Lemma vderiv_sum (f : nat -> R -> vec) (d : nat -> vec) s n : (forall i, (i <= n)%nat -> vderiv (f i) s (d i)) -> vderiv (fun t => vsum (fun i => f i t) n) s (vsum d n).
Proof. induction n as [|n IH]; intros H; cbn [vsum]; [apply H; lia|]. apply (vderiv_add (fun t => vsum (fun i => f i t) n) (f (S n))); [apply IH; intros; apply H; lia|apply H; lia]. Qed.

(* ---- the acceleration as a sum ---- *)
Section Field.
Context (Re GM : R) (C S : nat -> nat -> R).
(* one term of the gradient, times Re *)
Definition Gnm (n m : nat) (p : vec) : vec :=
  match m with
  | O => vscale (- C n O) (Vec_model.V (VF Re (n + 1) 1 p) (WF Re (n + 1) 1 p) ((INR n + 1) * VF Re (n + 1) 0 p))
  | Datatypes.S m' =>
      let fac := (INR n - INR m + 1) * (INR n - INR m + 2) / 2 in
      Vec_model.V (/ 2 * (- C n m * VF Re (n + 1) (m + 1) p - S n m * WF Re (n + 1) (m + 1) p) + fac * (C n m * VF Re (n + 1) m' p + S n m * WF Re (n + 1) m' p))
                  (/ 2 * (- C n m * WF Re (n + 1) (m + 1) p + S n m * VF Re (n + 1) (m + 1) p) + fac * (- C n m * WF Re (n + 1) m' p + S n m * VF Re (n + 1) m' p))
                  ((INR n - INR m + 1) * (- C n m * VF Re (n + 1) m p - S n m * WF Re (n + 1) m p))
  end.
Definition field (degree order : nat) (p : vec) : vec := vscale (GM / (Re * Re)) (vsum (fun n => vsum (fun m => Gnm n m p) (min n order)) degree).

Lemma d_term n m p s u : vderiv p s u -> p s <> vzero -> derivable_pt_lim (fun t => Re * (C n m * VF Re n m (p t) + S n m * WF Re n m (p t))) s (dot (Gnm n m (p s)) u).
Proof.
  intros D N. destruct m as [|m].
  - apply (deriv_ext (fun t => C n O * (Re * VF Re n 0 (p t)) + S n O * (Re * WF Re n 0 (p t)))); [intros; ring|].
    eapply deriv_eq; [apply deriv_plus; apply deriv_scal; [apply (d_V0 Re p s u D N)|apply deriv_scal, d_W0]|]. unfold Gnm, dot, vscale. cbn [vx vy vz]. replace (n + 1)%nat with (Datatypes.S n) by lia. ring.
  - apply (deriv_ext (fun t => C n (Datatypes.S m) * (Re * VF Re n (Datatypes.S m) (p t)) + S n (Datatypes.S m) * (Re * WF Re n (Datatypes.S m) (p t)))); [intros; ring|].
    destruct (d_VW Re p s u D N n m) as [DV DW]. eapply deriv_eq; [apply deriv_plus; apply deriv_scal; [exact DV|exact DW]|]. unfold Gnm, dot, ff. cbn [vx vy vz]. replace (n + 1)%nat with (Datatypes.S n) by lia. replace (Datatypes.S m + 1)%nat with (Datatypes.S (Datatypes.S m)) by lia. field.
Qed.
Lemma potential_terms degree order p lam : Re <> 0 -> p <> vzero -> longitude p lam ->
  potential GM Re C S degree order p lam = GM / (Re * Re) * sum_f_R0 (fun n => sum_f_R0 (fun m => Re * (C n m * VF Re n m p + S n m * WF Re n m p)) (min n order)) degree.
Proof.
  intros NR N L. pose proof (norm_pos p N) as P. unfold potential. rewrite !scal_sum. apply sum_eq. intros n _.
  rewrite (Rmult_comm _ (GM / norm p)), (Rmult_comm _ (GM / (Re * Re))). rewrite !scal_sum. apply sum_eq. intros m _. destruct (harm_eq Re n m p lam N L) as [<- <-]. unfold Vnm, Wnm. replace (n + 1)%nat with (Datatypes.S n) by lia. cbn [pow]. field. lra.
Qed.
Lemma field_gradient degree order p lam s u : Re <> 0 -> vderiv p s u -> p s <> vzero -> (forall t, longitude (p t) (lam t)) ->
  derivable_pt_lim (fun t => potential GM Re C S degree order (p t) (lam t)) s (dot (field degree order (p s)) u).
Proof.
  intros NR D N L.
  assert (NB : exists r, 0 < r /\ forall t, Rabs (t - s) < r -> p t <> vzero).
  { pose proof (norm_pos _ N) as P. pose proof (deriv_norm p s u D N) as DN.
    assert (CT : continuity_pt (fun t => norm (p t)) s) by (apply derivable_continuous_pt; eexists; exact DN). destruct (CT (norm (p s)) P) as (r & R0 & H). exists r. split; [exact R0|]. intros t T E.
    destruct (Req_dec t s) as [->|NE]; [rewrite E in N; apply N; reflexivity|]. assert (H' : Rabs (norm (p t) - norm (p s)) < norm (p s)) by (apply (H t); split; [split; [exact I|congruence]|exact T]).
    rewrite E in H'. replace (norm vzero) with 0 in H' by (unfold norm, dot, vzero; cbn; rewrite !Rmult_0_l, !Rplus_0_l, sqrt_0; reflexivity).
    rewrite Rminus_0_l, Rabs_Ropp, Rabs_pos_eq in H' by (apply Rlt_le, P). lra. }
  destruct NB as (r & R0 & NB).
  apply (deriv_near (fun t => GM / (Re * Re) * sum_f_R0 (fun n => sum_f_R0 (fun m => Re * (C n m * VF Re n m (p t) + S n m * WF Re n m (p t))) (min n order)) degree) _ s _ r R0).
  - intros t T. symmetry. apply potential_terms; [exact NR|apply NB, T|apply L].
  - eapply deriv_eq; [apply (deriv_scal _ (fun t => sum_f_R0 (fun n => sum_f_R0 (fun m => Re * (C n m * VF Re n m (p t) + S n m * WF Re n m (p t))) (min n order)) degree) s)|].
    + apply (deriv_sum (fun n t => sum_f_R0 (fun m => Re * (C n m * VF Re n m (p t) + S n m * WF Re n m (p t))) (min n order)) (fun n => dot (vsum (fun m => Gnm n m (p s)) (min n order)) u)). intros n _. rewrite vsum_dot.
      apply (deriv_sum (fun m t => Re * (C n m * VF Re n m (p t) + S n m * WF Re n m (p t))) (fun m => dot (Gnm n m (p s)) u)). intros m _. apply d_term; assumption.
    + unfold field. rewrite <- vsum_dot. unfold dot, vscale. cbn [vx vy vz]. ring.
Qed.
(* the loops *)
Lemma accel_ok degree order V W h p : (order <= degree)%nat -> coefficients h degree C S ->
  holds V (fun n m => VF Re n m p) (degree + 1) (order + 1) -> holds W (fun n m => WF Re n m p) (degree + 1) (order + 1) ->
  grav_accel degree order Re GM V W h = Ok (field degree order p).
Proof.
  intros OD CO HV HW. unfold grav_accel.
  destruct (loop_inv (fun i a => a = match i with O => vzero | Datatypes.S i' => vsum (fun n => Gnm n 0 p) i' end) (acc_zonal V W h) 0 degree vzero) as (a & E & ->).
  - lia.
  - reflexivity.
  - intros i a L ->. unfold acc_zonal. destruct (CO i 0%nat ltac:(lia)) as [-> _]. cbn [obind]. rewrite (HV (i + 1) 0)%nat by lia. cbn [obind]. rewrite (HV (i + 1) 1)%nat by lia. cbn [obind]. rewrite (HW (i + 1) 1)%nat by lia. cbn [obind].
    eexists. split; [reflexivity|]. destruct i as [|i]; cbn [vsum]; unfold Gnm; vec_ring.
  - rewrite E. cbn [obind].
    destruct (loop_inv (fun i a => a = vsum (fun n => vsub (vsum (fun m => Gnm n m p) (min n order)) (Gnm n 0 p)) (i - 1)) (fun i => loop 1 (min i order) (acc_tesseral V W h i)) 1 degree vzero) as (a & E2 & ->).
    + lia.
    + cbn [Nat.sub vsum min]. vec_ring.
    + intros i a L ->. destruct i as [|i]; [lia|]. replace (Datatypes.S i - 1)%nat with i by lia. replace (Datatypes.S (Datatypes.S i) - 1)%nat with (Datatypes.S i) by lia. cbn [vsum].
      set (a0 := vsum (fun n => vsub (vsum (fun m => Gnm n m p) (min n order)) (Gnm n 0 p)) i).
      destruct (loop_inv (fun j a => a = vadd a0 (vsub (vsum (fun m => Gnm (Datatypes.S i) m p) (j - 1)) (Gnm (Datatypes.S i) 0 p))) (acc_tesseral V W h (Datatypes.S i)) 1 (min (Datatypes.S i) order) a0) as (a & E3 & H3).
      * lia.
      * cbn [Nat.sub vsum]. vec_ring.
      * intros j a LJ ->. destruct j as [|j]; [lia|]. replace (Datatypes.S j - 1)%nat with j by lia. replace (Datatypes.S (Datatypes.S j) - 1)%nat with (Datatypes.S j) by lia. unfold acc_tesseral. destruct (CO (Datatypes.S i) (Datatypes.S j) ltac:(lia)) as [-> CS]. rewrite CS by lia. cbn [obind]. replace (Datatypes.S j - 1)%nat with j by lia.
        rewrite (HV (Datatypes.S i + 1) j)%nat by lia. cbn [obind]. rewrite (HV (Datatypes.S i + 1) (Datatypes.S j))%nat by lia. cbn [obind]. rewrite (HV (Datatypes.S i + 1) (Datatypes.S j + 1))%nat by lia. cbn [obind]. rewrite (HW (Datatypes.S i + 1) j)%nat by lia. cbn [obind]. rewrite (HW (Datatypes.S i + 1) (Datatypes.S j))%nat by lia. cbn [obind]. rewrite (HW (Datatypes.S i + 1) (Datatypes.S j + 1))%nat by lia. cbn [obind].
        eexists. split; [reflexivity|]. cbn [vsum]. set (g := vsum (fun m => Gnm (Datatypes.S i) m p) j). set (g0 := Gnm (Datatypes.S i) 0 p). clearbody a0 g g0. unfold Gnm. vec_ring.
      * exists a. split; [exact E3|]. rewrite H3. replace (Datatypes.S (Nat.min (Datatypes.S i) order) - 1)%nat with (Nat.min (Datatypes.S i) order) by lia. reflexivity.
    + rewrite E2. cbn [obind]. unfold field. f_equal. f_equal. replace (Datatypes.S degree - 1)%nat with degree by lia. rewrite vsum_add. apply vsum_ext. intros i _. set (g := vsum _ _). set (g0 := Gnm i 0 p). clearbody g g0. vec_ring.
Qed.

(* ---- the second derivatives ---- *)
Definition dadd (a b : dd) : dd := DD (xx a + xx b) (xy a + xy b) (xz a + xz b) (yz a + yz b) (zz a + zz b).
Fixpoint dsum (f : nat -> dd) (n : nat) : dd := match n with O => f O | Datatypes.S n' => dadd (dsum f n') (f (Datatypes.S n')) end.
Definition sym (d : dd) : mat := mat9 (xx d) (xy d) (xz d) (xy d) (- (xx d + zz d)) (yz d) (xz d) (yz d) (zz d).
Lemma sym_dsum f u n : mulv (sym (dsum f n)) u = vsum (fun i => mulv (sym (f i)) u) n.
Proof. induction n as [|n IH]; cbn [dsum vsum]; [reflexivity|]. rewrite <- IH. set (a := dsum f n). clearbody a. unfold sym, mat9, mulv, dadd, vadd, dot. cbn [xx xy xz yz zz row0 row1 row2 vx vy vz]. f_equal; ring. Qed.
Lemma dd_eq a b : xx a = xx b -> xy a = xy b -> xz a = xz b -> yz a = yz b -> zz a = zz b -> a = b.
Proof. destruct a, b. cbn. intros; subst; reflexivity. Qed.
Ltac dd_ring := apply dd_eq; unfold dadd, dd0; cbn [xx xy xz yz zz]; ring.

Definition Hnm (n m : nat) (p : vec) : dd :=
  let Vn j := VF Re (n + 2) j p in
  let Wn j := WF Re (n + 2) j p in
  match m with
  | O => let c := C n O in
      DD (/ 2 * (c * Vn 2%nat - (INR n + 1) * (INR n + 2) * (c * Vn 0%nat))) (/ 2 * (c * Wn 2%nat)) ((INR n + 1) * c * Vn 1%nat) ((INR n + 1) * c * Wn 1%nat) ((INR n + 1) * (INR n + 2) * (c * Vn 0%nat))
  | Datatypes.S O => let c := C n 1%nat in let s := S n 1%nat in
      DD (/ 4 * (c * Vn 3%nat + s * Wn 3%nat + INR n * (INR n + 1) * (- (3) * c * Vn 1%nat - s * Wn 1%nat)))
         (/ 4 * (c * Wn 3%nat - s * Vn 3%nat + INR n * (INR n + 1) * (- c * Wn 1%nat - s * Vn 1%nat)))
         (INR n / 2 * (c * Vn 2%nat + s * Wn 2%nat) - INR n * (INR n + 1) * (INR n + 2) / 2 * (c * Vn 0%nat))
         (INR n / 2 * (c * Wn 2%nat - s * Vn 2%nat) - INR n * (INR n + 1) * (INR n + 2) / 2 * (s * Vn 0%nat))
         (INR n * (INR n + 1) * (c * Vn 1%nat + s * Wn 1%nat))
  | Datatypes.S (Datatypes.S m') => let c := C n m in let s := S n m in let e := INR n - INR m in
      DD (/ 4 * (c * Vn (m + 2)%nat + s * Wn (m + 2)%nat + 2 * ((e + 1) * (e + 2)) * (- c * Vn m - s * Wn m) + (e + 1) * (e + 2) * (e + 3) * (e + 4) * (c * Vn m' + s * Wn m')))
         (/ 4 * (c * Wn (m + 2)%nat - s * Vn (m + 2)%nat + (e + 1) * (e + 2) * (e + 3) * (e + 4) * (- c * Wn m' + s * Vn m')))
         ((e + 1) / 2 * (c * Vn (m + 1)%nat + s * Wn (m + 1)%nat) + (e + 1) * (e + 2) * (e + 3) * / 2 * (- c * Vn (Datatypes.S m') - s * Wn (Datatypes.S m')))
         ((e + 1) / 2 * (c * Wn (m + 1)%nat - s * Vn (m + 1)%nat) + (e + 1) * (e + 2) * (e + 3) * / 2 * (c * Wn (Datatypes.S m') - s * Vn (Datatypes.S m')))
         ((e + 1) * (e + 2) * (c * Vn m + s * Wn m))
  end.

Lemma d_field_term n m p s u : vderiv p s u -> p s <> vzero -> vderiv (fun t => vscale Re (Gnm n m (p t))) s (mulv (sym (Hnm n m (p s))) u).
Proof.
  intros D N.
  pose proof (fun n => d_V0 Re p s u D N n) as D0. pose proof (fun n m => proj1 (d_VW Re p s u D N n m)) as DV. pose proof (fun n m => proj2 (d_VW Re p s u D N n m)) as DW.
  assert (W0 : forall k q, WF Re k 0 q = 0) by (intros; unfold WF, Bm; cbn; ring).
  destruct m as [|[|m]].
  - unfold vderiv, Gnm, vscale, sym, mat9, mulv, dot, Hnm. cbn [vx vy vz row0 row1 row2 xx xy xz yz zz].
    replace (n + 1)%nat with (Datatypes.S n) by lia. replace (n + 2)%nat with (Datatypes.S (Datatypes.S n)) by lia. repeat split.
    + apply (deriv_ext (fun t => - C n 0%nat * (Re * VF Re (Datatypes.S n) 1 (p t)))); [intros; ring|]. eapply deriv_eq; [apply deriv_scal, DV|]. unfold ff. rewrite !W0. rewrite S_INR. cbn [INR]. field.
    + apply (deriv_ext (fun t => - C n 0%nat * (Re * WF Re (Datatypes.S n) 1 (p t)))); [intros; ring|]. eapply deriv_eq; [apply deriv_scal, DW|]. unfold ff. rewrite !W0. rewrite S_INR. cbn [INR]. field.
    + apply (deriv_ext (fun t => - C n 0%nat * (INR n + 1) * (Re * VF Re (Datatypes.S n) 0 (p t)))); [intros; ring|]. eapply deriv_eq; [apply deriv_scal, D0|]. rewrite S_INR. ring.
  - unfold vderiv, Gnm, vscale, sym, mat9, mulv, dot, Hnm. cbn [vx vy vz row0 row1 row2 xx xy xz yz zz]. set (c := C n 1%nat). set (s1 := S n 1%nat).
    replace (n + 1)%nat with (Datatypes.S n) by lia. replace (n + 2)%nat with (Datatypes.S (Datatypes.S n)) by lia. change (1 + 1)%nat with 2%nat. repeat split.
    + apply (deriv_ext (fun t => - / 2 * c * (Re * VF Re (Datatypes.S n) 2 (p t)) + - / 2 * s1 * (Re * WF Re (Datatypes.S n) 2 (p t)) + (INR n - INR 1 + 1) * (INR n - INR 1 + 2) / 2 * c * (Re * VF Re (Datatypes.S n) 0 (p t)))); [intros; rewrite W0; field|].
      eapply deriv_eq; [apply deriv_plus; [apply deriv_plus|]; apply deriv_scal; [apply DV|apply DW|apply D0]|]. unfold ff. rewrite !S_INR. cbn [INR]. field.
    + apply (deriv_ext (fun t => - / 2 * c * (Re * WF Re (Datatypes.S n) 2 (p t)) + / 2 * s1 * (Re * VF Re (Datatypes.S n) 2 (p t)) + (INR n - INR 1 + 1) * (INR n - INR 1 + 2) / 2 * s1 * (Re * VF Re (Datatypes.S n) 0 (p t)))); [intros; rewrite W0; field|].
      eapply deriv_eq; [apply deriv_plus; [apply deriv_plus|]; apply deriv_scal; [apply DW|apply DV|apply D0]|]. unfold ff. rewrite !S_INR. cbn [INR]. field.
    + apply (deriv_ext (fun t => - (INR n - INR 1 + 1) * c * (Re * VF Re (Datatypes.S n) 1 (p t)) + - (INR n - INR 1 + 1) * s1 * (Re * WF Re (Datatypes.S n) 1 (p t)))); [intros; ring|].
      eapply deriv_eq; [apply deriv_plus; apply deriv_scal; [apply DV|apply DW]|]. unfold ff. rewrite !W0, !S_INR. cbn [INR]. field.
  - unfold vderiv, Gnm, vscale, sym, mat9, mulv, dot, Hnm. cbn [vx vy vz row0 row1 row2 xx xy xz yz zz]. set (c := C n (Datatypes.S (Datatypes.S m))). set (s1 := S n (Datatypes.S (Datatypes.S m))).
    replace (n + 1)%nat with (Datatypes.S n) by lia. replace (n + 2)%nat with (Datatypes.S (Datatypes.S n)) by lia.
    replace (Datatypes.S (Datatypes.S m) + 2)%nat with (Datatypes.S (Datatypes.S (Datatypes.S (Datatypes.S m)))) by lia. replace (Datatypes.S (Datatypes.S m) + 1)%nat with (Datatypes.S (Datatypes.S (Datatypes.S m))) by lia.
    set (e := INR n - INR (Datatypes.S (Datatypes.S m))).
    assert (F1 : ff (Datatypes.S n) (Datatypes.S (Datatypes.S (Datatypes.S m))) = (e + 1) * (e + 2)) by (unfold ff, e; rewrite !S_INR; ring).
    assert (F2 : ff (Datatypes.S n) (Datatypes.S (Datatypes.S m)) = (e + 2) * (e + 3)) by (unfold ff, e; rewrite !S_INR; ring).
    assert (F3 : ff (Datatypes.S n) (Datatypes.S m) = (e + 3) * (e + 4)) by (unfold ff, e; rewrite !S_INR; ring).
    assert (K1 : INR (Datatypes.S n) - INR (Datatypes.S (Datatypes.S (Datatypes.S m))) + 1 = e + 1) by (unfold e; rewrite !S_INR; ring).
    assert (K2 : INR (Datatypes.S n) - INR (Datatypes.S (Datatypes.S m)) + 1 = e + 2) by (unfold e; rewrite !S_INR; ring).
    assert (K3 : INR (Datatypes.S n) - INR (Datatypes.S m) + 1 = e + 3) by (unfold e; rewrite !S_INR; ring).
    repeat split.
    + apply (deriv_ext (fun t => - / 2 * c * (Re * VF Re (Datatypes.S n) (Datatypes.S (Datatypes.S (Datatypes.S m))) (p t)) + - / 2 * s1 * (Re * WF Re (Datatypes.S n) (Datatypes.S (Datatypes.S (Datatypes.S m))) (p t)) + ((e + 1) * (e + 2) / 2 * c * (Re * VF Re (Datatypes.S n) (Datatypes.S m) (p t)) + (e + 1) * (e + 2) / 2 * s1 * (Re * WF Re (Datatypes.S n) (Datatypes.S m) (p t))))); [intros; field|].
      eapply deriv_eq; [apply deriv_plus; apply deriv_plus; apply deriv_scal; [apply DV|apply DW|apply DV|apply DW]|]. rewrite F1, F3, K1, K3. field.
    + apply (deriv_ext (fun t => - / 2 * c * (Re * WF Re (Datatypes.S n) (Datatypes.S (Datatypes.S (Datatypes.S m))) (p t)) + / 2 * s1 * (Re * VF Re (Datatypes.S n) (Datatypes.S (Datatypes.S (Datatypes.S m))) (p t)) + (- ((e + 1) * (e + 2) / 2) * c * (Re * WF Re (Datatypes.S n) (Datatypes.S m) (p t)) + (e + 1) * (e + 2) / 2 * s1 * (Re * VF Re (Datatypes.S n) (Datatypes.S m) (p t))))); [intros; field|].
      eapply deriv_eq; [apply deriv_plus; apply deriv_plus; apply deriv_scal; [apply DW|apply DV|apply DW|apply DV]|]. rewrite F1, F3, K1, K3. field.
    + apply (deriv_ext (fun t => - (e + 1) * c * (Re * VF Re (Datatypes.S n) (Datatypes.S (Datatypes.S m)) (p t)) + - (e + 1) * s1 * (Re * WF Re (Datatypes.S n) (Datatypes.S (Datatypes.S m)) (p t)))); [intros; ring|].
      eapply deriv_eq; [apply deriv_plus; apply deriv_scal; [apply DV|apply DW]|]. rewrite F2, K2. field.
Qed.
Lemma scaled_mulv k m u : mulv (mscale k m) u = vscale k (mulv m u). Proof. vec_ring. Qed.
Definition tensor (degree order : nat) (p : vec) : mat := mscale (GM / Re / Re / Re) (sym (dsum (fun n => dsum (fun m => Hnm n m p) (min n order)) degree)).
Lemma d_field degree order p s u : Re <> 0 -> vderiv p s u -> p s <> vzero -> vderiv (fun t => field degree order (p t)) s (mulv (tensor degree order (p s)) u).
Proof.
  intros NR D N. unfold field, tensor. rewrite scaled_mulv, sym_dsum.
  assert (X : vderiv (fun t => vsum (fun n => vsum (fun m => vscale Re (Gnm n m (p t))) (min n order)) degree) s (vsum (fun i => mulv (sym (dsum (fun m => Hnm i m (p s)) (min i order))) u) degree)).
  { apply (vderiv_sum (fun n t => vsum (fun m => vscale Re (Gnm n m (p t))) (min n order))). intros n _. rewrite sym_dsum. apply (vderiv_sum (fun m t => vscale Re (Gnm n m (p t)))). intros m _. apply d_field_term; assumption. }
  pose proof (vderiv_scale (GM / Re / Re / Re) _ s _ X) as Y. eapply vderiv_ext; [|exact Y].
  intros t. cbn beta. assert (E : forall f n, vsum (fun i => vscale Re (f i)) n = vscale Re (vsum f n)) by (intros f k; induction k as [|k IH]; cbn [vsum]; [reflexivity|rewrite IH; vec_ring]).
    rewrite (vsum_ext _ (fun n => vscale Re (vsum (fun m => Gnm n m (p t)) (min n order)))) by (intros; apply E). rewrite E. set (v := vsum _ _). clearbody v. unfold vscale. cbn [vx vy vz]. f_equal; field; exact NR.
Qed.

(* ---- the loops of the partials ---- *)
Definition Fn (p : vec) (n : nat) : dd := match n with O => dd0 | Datatypes.S _ => Hnm n 1 p end.
Definition Tn (p : vec) (n m : nat) : dd := if Nat.ltb 1 m then Hnm n m p else dd0.
Definition flat (d : dd) : dd := DD (xx d) (xy d) 0 0 (zz d).
Lemma dsum_add f g n : dadd (dsum f n) (dsum g n) = dsum (fun i => dadd (f i) (g i)) n.
Proof. induction n as [|n IH]; cbn [dsum]; [reflexivity|]. rewrite <- IH. dd_ring. Qed.
Lemma dsum_ext f g n : (forall i, (i <= n)%nat -> f i = g i) -> dsum f n = dsum g n.
Proof. induction n as [|n IH]; intros H; cbn [dsum]; [apply H; lia|]. rewrite IH by (intros; apply H; lia). rewrite H by lia. reflexivity. Qed.
Lemma split_terms p n k : dsum (fun m => Hnm n m p) k = dadd (Hnm n 0 p) (dadd (match k with O => dd0 | Datatypes.S _ => Hnm n 1 p end) (dsum (Tn p n) k)).
Proof.
  induction k as [|k IH]; cbn [dsum].
  - unfold Tn. cbn [Nat.ltb Nat.leb]. dd_ring.
  - rewrite IH. destruct k as [|k]; [cbn [dsum]; change (Tn p n 0) with dd0; change (Tn p n 1) with dd0; dd_ring|].
    change (Tn p n (Datatypes.S (Datatypes.S k))) with (Hnm n (Datatypes.S (Datatypes.S k)) p). dd_ring.
Qed.
Definition facs_at (n j : nat) : facs := let e := INR n - INR (max j 2) in Facs ((e + 1) * (e + 2)) ((e + 1) * (e + 2) * (e + 3)) ((e + 1) * (e + 2) * (e + 3) * (e + 4)).
Lemma start_at n : (2 <= n)%nat -> start_facs n = facs_at n 1.
Proof.
  intros L. unfold start_facs, facs_at. destruct (Nat.ltb_spec 1 n); [|lia]. remember (n - 2)%nat as k eqn:K. replace n with (Datatypes.S (Datatypes.S k)) by lia. unfold factorialRatio.
  assert (M : forall d, min (k + d) k = k /\ (max (k + d) k - min (k + d) k = d)%nat) by (intros; lia).
  destruct (M 2%nat) as [A1 A2]. destruct (M 3%nat) as [B1 B2]. destruct (M 4%nat) as [C1 C2]. rewrite A2, B2, C2, A1, B1, C1. cbn [product max]. rewrite !S_INR. cbn [INR]. f_equal; ring.
Qed.
Lemma partials_ok degree order V W h p junk : (1 <= order <= degree)%nat -> coefficients h degree C S ->
  holds V (fun n m => VF Re n m p) (degree + 2) (order + 2) -> holds W (fun n m => WF Re n m p) (degree + 2) (order + 2) ->
  let k := GM / Re / Re / Re in let T := tensor degree order p in let F := dsum (Fn p) degree in
  exists P, grav_accel_partials degree order Re GM V W h junk = Ok (field degree order p, P) /\
    vx (row0 P) = vx (row0 T) /\ vx (row1 P) = vx (row1 T) /\ vy (row1 P) = vy (row1 T) /\ vz (row2 P) = vz (row2 T) /\
    vx (row2 P) = vx (row2 T) - k * xz F /\ vy (row2 P) = vy (row2 T) - k * yz F /\
    vy (row0 P) = k * vy (row0 junk) /\ vz (row0 P) = k * vz (row0 junk) /\ vz (row1 P) = k * vz (row1 junk).
Proof.
  intros OD CO HV HW k T F. unfold grav_accel_partials.
  rewrite (accel_ok degree order V W h p) by (first [lia|exact CO|intros a b A B D; apply HV; lia|intros a b A B D; apply HW; lia]). cbn [obind].
  destruct (loop_inv (fun i s => s = (match i with O => dd0 | Datatypes.S i' => dsum (fun n => Hnm n 0 p) i' end, (INR i + 1) * (INR i + 2))) (dd_zonal V W h) 0 degree (dd0, 2)) as (d0 & E0 & H0).
  { lia. }
  { cbn [INR]. f_equal. ring. }
  { intros i s L ->. unfold dd_zonal. destruct (CO i 0%nat ltac:(lia)) as [-> _]. cbn [obind]. rewrite (HV (i + 2) 0)%nat by lia. cbn [obind]. rewrite (HV (i + 2) 1)%nat by lia. cbn [obind]. rewrite (HV (i + 2) 2)%nat by lia. cbn [obind]. rewrite (HW (i + 2) 1)%nat by lia. cbn [obind]. rewrite (HW (i + 2) 2)%nat by lia. cbn [obind].
    eexists. split; [reflexivity|]. pose proof (pos_INR i) as PI. apply f_equal2; [|rewrite S_INR; field; lra]. destruct i as [|i]; cbn [dsum]; unfold Hnm; dd_ring. }
  rewrite E0. cbn [obind].
  destruct (loop_inv (fun i s => s = (flat (dsum (Fn p) (i - 1)), INR i * (INR i + 1))) (dd_first V W h) 1 degree (dd0, 2)) as (d1 & E1 & H1).
  { lia. }
  { cbn [INR Nat.sub dsum Fn]. apply f_equal2; [reflexivity|ring]. }
  { intros i s L ->. destruct i as [|i]; [lia|]. replace (Datatypes.S i - 1)%nat with i by lia. replace (Datatypes.S (Datatypes.S i) - 1)%nat with (Datatypes.S i) by lia.
    unfold dd_first. destruct (CO (Datatypes.S i) 1%nat ltac:(lia)) as [-> CS]. rewrite CS by lia. cbn [obind]. rewrite (HV (Datatypes.S i + 2) 1)%nat by lia. cbn [obind]. rewrite (HV (Datatypes.S i + 2) 3)%nat by lia. cbn [obind]. rewrite (HW (Datatypes.S i + 2) 1)%nat by lia. cbn [obind]. rewrite (HW (Datatypes.S i + 2) 3)%nat by lia. cbn [obind].
    eexists. split; [reflexivity|]. pose proof (pos_INR i) as PI. apply f_equal2; [|rewrite !S_INR; field; lra]. cbn [dsum]. unfold flat. cbn [Fn]. unfold Hnm. dd_ring. }
  rewrite E1. cbn [obind].
  destruct (loop_inv (fun i d => d = dsum (fun n => dsum (Tn p n) (min n order)) (i - 1)) (dd_degree V W h order) 1 degree dd0) as (d2 & E2 & H2).
  { lia. }
  { reflexivity. }
  { intros i s L ->. destruct i as [|i]; [lia|]. replace (Datatypes.S i - 1)%nat with i by lia. replace (Datatypes.S (Datatypes.S i) - 1)%nat with (Datatypes.S i) by lia. cbn [dsum].
    set (a0 := dsum (fun n => dsum (Tn p n) (min n order)) i). unfold dd_degree. set (n := Datatypes.S i) in *.
    destruct (loop_inv (fun j s => fst s = dadd a0 (dsum (Tn p n) (j - 1)) /\ ((2 <= n)%nat -> snd s = facs_at n j)) (dd_tesseral V W h n) 1 (min n order) (a0, start_facs n)) as (s3 & E3 & H3 & _).
    - lia.
    - cbn [fst snd Nat.sub dsum]. split; [unfold Tn; cbn [Nat.ltb Nat.leb]; dd_ring|apply start_at].
    - intros j [d f] LJ [I1 I2]. cbn [fst snd] in I1, I2. unfold dd_tesseral. destruct j as [|j]; [lia|]. replace (Datatypes.S j - 1)%nat with j in I1 by lia. replace (Datatypes.S (Datatypes.S j) - 1)%nat with (Datatypes.S j) by lia. destruct (Nat.ltb_spec 1 (Datatypes.S j)) as [J2|J1].
      + destruct j as [|j]; [lia|]. destruct (CO n (Datatypes.S (Datatypes.S j)) ltac:(lia)) as [-> CS]. rewrite CS by lia. cbn [obind]. replace (Datatypes.S (Datatypes.S j) - 1)%nat with (Datatypes.S j) by lia. replace (Datatypes.S (Datatypes.S j) - 2)%nat with j by lia.
        rewrite (HV (n + 2) (Datatypes.S (Datatypes.S j) + 2))%nat by lia. cbn [obind]. rewrite (HV (n + 2) (Datatypes.S (Datatypes.S j) + 1))%nat by lia. cbn [obind]. rewrite (HV (n + 2) (Datatypes.S (Datatypes.S j)))%nat by lia. cbn [obind]. rewrite (HV (n + 2) (Datatypes.S j))%nat by lia. cbn [obind]. rewrite (HV (n + 2) j)%nat by lia. cbn [obind].
        rewrite (HW (n + 2) (Datatypes.S (Datatypes.S j) + 2))%nat by lia. cbn [obind]. rewrite (HW (n + 2) (Datatypes.S (Datatypes.S j) + 1))%nat by lia. cbn [obind]. rewrite (HW (n + 2) (Datatypes.S (Datatypes.S j)))%nat by lia. cbn [obind]. rewrite (HW (n + 2) (Datatypes.S j))%nat by lia. cbn [obind]. rewrite (HW (n + 2) j)%nat by lia. cbn [obind].
        eexists. split; [reflexivity|]. cbn [fst snd]. specialize (I2 ltac:(lia)). subst d f. split.
        * change (dsum (Tn p n) (Datatypes.S (Datatypes.S j))) with (dadd (dsum (Tn p n) (Datatypes.S j)) (Tn p n (Datatypes.S (Datatypes.S j)))). set (b := dsum (Tn p n) (Datatypes.S j)). clearbody b a0. unfold Tn. cbn [Nat.ltb Nat.leb]. unfold Hnm, facs_at. cbn [fac2 fac3 fac4]. replace (Nat.max (Datatypes.S (Datatypes.S j)) 2) with (Datatypes.S (Datatypes.S j)) by lia. dd_ring.
        * intros _. unfold facs_at. cbn [fac2 fac3 fac4]. replace (Nat.max (Datatypes.S (Datatypes.S j)) 2) with (Datatypes.S (Datatypes.S j)) by lia. replace (Nat.max (Datatypes.S (Datatypes.S (Datatypes.S j))) 2) with (Datatypes.S (Datatypes.S (Datatypes.S j))) by lia.
          assert (LE : INR (Datatypes.S (Datatypes.S j)) <= INR n) by (apply le_INR; lia). rewrite (S_INR (Datatypes.S (Datatypes.S j))). f_equal; field; lra.
      + assert (j = 0)%nat by lia. subst j. eexists. split; [reflexivity|]. cbn [fst snd]. split; [rewrite I1; cbn [dsum]; unfold Tn; cbn [Nat.ltb Nat.leb]; dd_ring|exact I2].
    - rewrite E3. cbn [obind]. eexists. split; [reflexivity|]. rewrite H3. replace (Datatypes.S (Nat.min n order) - 1)%nat with (Nat.min n order) by lia. reflexivity. }
  rewrite E2. cbn [obind]. eexists. split; [reflexivity|]. subst d0 d1 d2. cbn [fst].
  replace (Datatypes.S degree - 1)%nat with degree by lia.
  assert (ET : dsum (fun n => dsum (fun m => Hnm n m p) (min n order)) degree = dadd (dsum (fun n => Hnm n 0 p) degree) (dadd F (dsum (fun n => dsum (Tn p n) (min n order)) degree))).
  { unfold F. rewrite !dsum_add. apply dsum_ext. intros n _. rewrite split_terms. destruct n as [|n]; cbn [Nat.min]; [reflexivity|]. destruct order as [|o]; [lia|]. reflexivity. }
  unfold T, tensor. rewrite ET. fold F. set (a := dsum (fun n => Hnm n 0 p) degree). set (c := dsum (fun n => dsum (Tn p n) (min n order)) degree). clearbody a c F.
  unfold k, mscale, sym, mat9, vscale, dadd, flat. cbn [row0 row1 row2 vx vy vz xx xy xz yz zz]. repeat split; ring.
Qed.
End Field.

(* ---- the functions called ---- *)
Definition sized (t : table) (l k : nat) : Prop := (l < t_rows t)%nat /\ (1 < t_rows t)%nat /\ (k < t_cols t)%nat.
Lemma lagrange_tables p lam Re l k V W : p <> vzero -> longitude p lam -> (k <= l)%nat -> sized V l k -> sized W l k ->
  exists V' W', lagrange_polynomials p Re l k V W = Ok (0%Z, (V', W')) /\ holds V' (fun n m => Vnm Re n m p lam) l k /\ holds W' (fun n m => Wnm Re n m p lam) l k.
Proof.
  intros N L KL (A1 & A2 & A3) (B1 & B2 & B3). destruct (lagrange_ok p Re l k V W N KL A1 A2 A3 B1 B2 B3) as (V' & W' & E & HV & HW & _). exists V', W'. split; [exact E|].
  split; intros n m X Y Z; [rewrite (HV n m X Y Z)|rewrite (HW n m X Y Z)]; destruct (harm_eq Re n m p lam N L) as [EV EW]; congruence.
Qed.
Lemma lagrange_order p Re l k V W : (l < k)%nat -> lagrange_polynomials p Re l k V W = Ok (1%Z, (V, W)).
Proof. intros H. unfold lagrange_polynomials. destruct (Nat.ltb_spec l k); [reflexivity|lia]. Qed.
Lemma lagrange_one_row p Re V W : t_rows V = 1%nat -> lagrange_polynomials p Re 0 0 V W = UB.
Proof.
  intros R1. destruct p as [x y z]. unfold lagrange_polynomials. cbn [Nat.ltb Nat.leb]. unfold put at 1. destruct (inside V 0 0) eqn:I0; [|reflexivity]. cbn [obind]. unfold put at 1. destruct (inside W 0 0); [|reflexivity]. cbn [obind].
  unfold get at 1. destruct (inside _ 0 0); [|reflexivity]. cbn [obind]. unfold put at 1. unfold inside at 1. cbn [t_rows]. rewrite R1. reflexivity.
Qed.

Lemma harm_holds t F G l k : (forall n m, F n m = G n m) -> holds t F l k -> holds t G l k.
Proof. intros E H n m A B D. rewrite <- E. apply H; assumption. Qed.
Lemma accel_gradient Re GM C S degree order V W h p lam s u : Re <> 0 -> (order <= degree)%nat -> coefficients h degree C S -> vderiv p s u -> p s <> vzero -> (forall t, longitude (p t) (lam t)) ->
  holds V (fun n m => Vnm Re n m (p s) (lam s)) (degree + 1) (order + 1) -> holds W (fun n m => Wnm Re n m (p s) (lam s)) (degree + 1) (order + 1) ->
  exists a, grav_accel degree order Re GM V W h = Ok a /\ derivable_pt_lim (fun t => potential GM Re C S degree order (p t) (lam t)) s (dot a u).
Proof.
  intros NR OD CO D N L HV HW. exists (field Re GM C S degree order (p s)). split; [|apply field_gradient; assumption].
  apply accel_ok; [exact OD|exact CO| |]; eapply harm_holds; try eassumption; intros n m; destruct (harm_eq Re n m (p s) (lam s) N (L s)) as [EV EW]; congruence.
Qed.
Lemma accel_at_field Re GM C S degree order V W h p : (order <= degree)%nat -> coefficients h degree C S -> p <> vzero -> sized V (degree + 1) (order + 1) -> sized W (degree + 1) (order + 1) ->
  exists tabs, accel_at p degree order Re GM V W h = Ok (Some (field Re GM C S degree order p, tabs)).
Proof.
  intros OD CO N (A1 & A2 & A3) (B1 & B2 & B3). unfold accel_at.
  destruct (Nat.leb_spec (degree + 2) (t_rows V)); [|lia]. destruct (Nat.leb_spec (order + 2) (t_cols V)); [|lia]. destruct (Nat.leb_spec (degree + 2) (t_rows W)); [|lia]. destruct (Nat.leb_spec (order + 2) (t_cols W)); [|lia]. cbn [andb].
  destruct (lagrange_ok p Re (degree + 1) (order + 1) V W N ltac:(lia) A1 A2 A3 B1 B2 B3) as (V' & W' & E & HV & HW & _). rewrite E. cbn [obind Z.eqb]. rewrite (accel_ok Re GM C S degree order V' W' h p OD CO HV HW). cbn [obind]. eexists. reflexivity.
Qed.
Lemma accel_at_gradient Re GM C S degree order V W h p lam s u : Re <> 0 -> (order <= degree)%nat -> coefficients h degree C S -> vderiv p s u -> p s <> vzero -> (forall t, longitude (p t) (lam t)) -> sized V (degree + 1) (order + 1) -> sized W (degree + 1) (order + 1) ->
  exists a tabs, accel_at (p s) degree order Re GM V W h = Ok (Some (a, tabs)) /\ derivable_pt_lim (fun t => potential GM Re C S degree order (p t) (lam t)) s (dot a u).
Proof. intros NR OD CO D N L SV SW. destruct (accel_at_field Re GM C S degree order V W h (p s) OD CO N SV SW) as [tabs E]. eexists. exists tabs. split; [exact E|]. apply field_gradient; assumption. Qed.
Lemma accel_at_small p degree order Re GM V W h : ~ (sized V (degree + 1) (order + 1) /\ sized W (degree + 1) (order + 1)) -> accel_at p degree order Re GM V W h = Ok None.
Proof.
  intros H. unfold accel_at. destruct (Nat.leb_spec (degree + 2) (t_rows V)); [|reflexivity]. destruct (Nat.leb_spec (order + 2) (t_cols V)); [|reflexivity]. destruct (Nat.leb_spec (degree + 2) (t_rows W)); [|reflexivity]. destruct (Nat.leb_spec (order + 2) (t_cols W)); [|reflexivity]. exfalso. apply H. unfold sized. lia.
Qed.

(* the sizes asserted when the partials are wanted *)
Definition exact_size (t : table) (degree order : nat) : Prop := t_rows t = (degree + 3)%nat /\ t_cols t = (order + 3)%nat.
Lemma exact_sized t degree order : exact_size t degree order -> sized t (degree + 1) (order + 1).
Proof. intros [A B]. unfold sized. lia. Qed.
Lemma partials_at_ok Re GM C S degree order V W h p junk : (1 <= order <= degree)%nat -> coefficients h degree C S -> p <> vzero -> exact_size V degree order -> exact_size W degree order ->
  let k := GM / Re / Re / Re in let T := tensor Re GM C S degree order p in let F := dsum (Fn Re C S p) degree in
  exists P tabs, accel_partials_at p degree order Re GM V W h junk = Ok (Some ((field Re GM C S degree order p, P), tabs)) /\
    vx (row0 P) = vx (row0 T) /\ vx (row1 P) = vx (row1 T) /\ vy (row1 P) = vy (row1 T) /\ vz (row2 P) = vz (row2 T) /\
    vx (row2 P) = vx (row2 T) - k * xz F /\ vy (row2 P) = vy (row2 T) - k * yz F /\
    vy (row0 P) = k * vy (row0 junk) /\ vz (row0 P) = k * vz (row0 junk) /\ vz (row1 P) = k * vz (row1 junk).
Proof.
  intros OD CO N (A1 & A2) (B1 & B2) k T F. unfold accel_partials_at. rewrite A1, A2, B1, B2, !Nat.eqb_refl. cbn [andb].
  destruct (lagrange_ok p Re (degree + 2) (order + 2) V W N ltac:(lia) ltac:(lia) ltac:(lia) ltac:(lia) ltac:(lia) ltac:(lia) ltac:(lia)) as (V' & W' & E & HV & HW & _). rewrite E. cbn [obind Z.eqb].
  destruct (partials_ok Re GM C S degree order V' W' h p junk OD CO HV HW) as (P & EP & H). rewrite EP. cbn [obind]. exists P. eexists. split; [reflexivity|]. exact H.
Qed.

(* what the matrix should be: its product with a velocity is the change of the acceleration *)
Definition is_jacobian (A : vec -> vec) (q : vec) (J : mat) : Prop := forall p s u, vderiv p s u -> p s = q -> vderiv (fun t => A (p t)) s (mulv J u).
(* the acceleration at each place *)
Definition acceleration (degree order : nat) (Re GM : R) (V W : table) (h : hc R) (A : vec -> vec) : Prop :=
  forall q, q <> vzero -> exists tabs, accel_at q degree order Re GM V W h = Ok (Some (A q, tabs)).

Lemma nonzero_near p s u : vderiv p s u -> p s <> vzero -> exists r, 0 < r /\ forall t, Rabs (t - s) < r -> p t <> vzero.
Proof.
  intros D N. pose proof (norm_pos _ N) as P. pose proof (deriv_norm p s u D N) as DN.
  assert (CT : continuity_pt (fun t => norm (p t)) s) by (apply derivable_continuous_pt; eexists; exact DN). destruct (CT (norm (p s)) P) as (r & R0 & H). exists r. split; [exact R0|]. intros t T E.
  destruct (Req_dec t s) as [->|NE]; [rewrite E in N; apply N; reflexivity|]. assert (H' : Rabs (norm (p t) - norm (p s)) < norm (p s)) by (apply (H t); split; [split; [exact I|congruence]|exact T]).
  rewrite E in H'. replace (norm vzero) with 0 in H' by (unfold norm, dot, vzero; cbn; rewrite !Rmult_0_l, !Rplus_0_l, sqrt_0; reflexivity).
  rewrite Rminus_0_l, Rabs_Ropp, Rabs_pos_eq in H' by (apply Rlt_le, P). lra.
Qed.
Lemma acceleration_is Re GM C S degree order V W h A : (order <= degree)%nat -> coefficients h degree C S -> sized V (degree + 1) (order + 1) -> sized W (degree + 1) (order + 1) -> acceleration degree order Re GM V W h A ->
  forall q, q <> vzero -> A q = field Re GM C S degree order q.
Proof.
  intros OD CO SV SW H q N. destruct (H q N) as [t E]. destruct (accel_at_field Re GM C S degree order V W h q OD CO N SV SW) as [t2 E2]. rewrite E in E2. inversion E2. reflexivity.
Qed.
Lemma tensor_jacobian Re GM C S degree order V W h A q : Re <> 0 -> (order <= degree)%nat -> coefficients h degree C S -> sized V (degree + 1) (order + 1) -> sized W (degree + 1) (order + 1) -> acceleration degree order Re GM V W h A -> q <> vzero ->
  is_jacobian A q (tensor Re GM C S degree order q).
Proof.
  intros NR OD CO SV SW H N p s u D E. subst q. destruct (nonzero_near p s u D N) as (r & R0 & NZ). pose proof (d_field Re GM C S degree order p s u NR D N) as (X & Y & Z).
  pose proof (acceleration_is Re GM C S degree order V W h A OD CO SV SW H) as EA.
  split; [|split]; (eapply deriv_near; [exact R0| |first [exact X|exact Y|exact Z]]; intros t T; cbn beta; rewrite (EA (p t) (NZ t T)); reflexivity).
Qed.
Lemma jacobian_unique A q J K : is_jacobian A q J -> is_jacobian A q K -> J = K.
Proof.
  intros HJ HK.
  assert (E : forall u, mulv J u = mulv K u).
  { intros u. pose proof (HJ (fun t => vadd q (vscale t u)) 0 u (vderiv_line q u)) as X. pose proof (HK (fun t => vadd q (vscale t u)) 0 u (vderiv_line q u)) as Y.
    assert (Q : vadd q (vscale 0 u) = q) by vec_ring. specialize (X Q). specialize (Y Q). destruct X as (X1 & X2 & X3). destruct Y as (Y1 & Y2 & Y3). apply vec_eq; eapply deriv_unique; eassumption. }
  pose proof (E (Vec_model.V 1 0 0)) as E1. pose proof (E (Vec_model.V 0 1 0)) as E2. pose proof (E (Vec_model.V 0 0 1)) as E3. clear - E1 E2 E3. destruct J as [[a b c] [d e f] [g h i]], K as [[a' b' c'] [d' e' f'] [g' h' i']]. unfold mulv, dot in *. cbn [row0 row1 row2 vx vy vz] in *.
  inversion E1. inversion E2. inversion E3. f_equal; f_equal; lra.
Qed.
Lemma partials_right Re GM C S degree order V W h A q junk : Re <> 0 -> (1 <= order <= degree)%nat -> coefficients h degree C S -> q <> vzero -> exact_size V degree order -> exact_size W degree order -> acceleration degree order Re GM V W h A ->
  exists P J tabs, accel_partials_at q degree order Re GM V W h junk = Ok (Some ((A q, P), tabs)) /\ is_jacobian A q J /\
    vx (row0 P) = vx (row0 J) /\ vx (row1 P) = vx (row1 J) /\ vy (row1 P) = vy (row1 J) /\ vz (row2 P) = vz (row2 J).
Proof.
  intros NR OD CO N SV SW H. destruct (partials_at_ok Re GM C S degree order V W h q junk OD CO N SV SW) as (P & tabs & E & X1 & X2 & X3 & X4 & _).
  exists P, (tensor Re GM C S degree order q), tabs. rewrite (acceleration_is Re GM C S degree order V W h A); try assumption; try (apply exact_sized; assumption); [|lia].
  split; [exact E|]. split; [apply (tensor_jacobian Re GM C S degree order V W h A q); try assumption; try (apply exact_sized; assumption); lia|]. tauto.
Qed.
(* the last row is right as well when the coefficients of order one vanish *)
Lemma order_one_zero Re C S p degree : (forall n, C n 1%nat = 0 /\ S n 1%nat = 0) -> xz (dsum (Fn Re C S p) degree) = 0 /\ yz (dsum (Fn Re C S p) degree) = 0.
Proof.
  intros Z. induction degree as [|d [I1 I2]]; [split; reflexivity|]. cbn [dsum]. unfold dadd. cbn [xz yz]. rewrite I1, I2. destruct (Z (Datatypes.S d)) as [Z1 Z2]. unfold Fn, Hnm. cbn [xz yz]. rewrite Z1, Z2. split; ring.
Qed.
Lemma partials_last_row Re GM C S degree order V W h A q junk : Re <> 0 -> (1 <= order <= degree)%nat -> coefficients h degree C S -> (forall n, C n 1%nat = 0 /\ S n 1%nat = 0) -> q <> vzero -> exact_size V degree order -> exact_size W degree order -> acceleration degree order Re GM V W h A ->
  exists P J tabs, accel_partials_at q degree order Re GM V W h junk = Ok (Some ((A q, P), tabs)) /\ is_jacobian A q J /\ row2 P = row2 J.
Proof.
  intros NR OD CO Z N SV SW H. destruct (partials_at_ok Re GM C S degree order V W h q junk OD CO N SV SW) as (P & tabs & E & X1 & X2 & X3 & X4 & X5 & X6 & _).
  exists P, (tensor Re GM C S degree order q), tabs. rewrite (acceleration_is Re GM C S degree order V W h A); try assumption; try (apply exact_sized; assumption); [|lia].
  split; [exact E|]. split; [apply (tensor_jacobian Re GM C S degree order V W h A q); try assumption; try (apply exact_sized; assumption); lia|].
  destruct (order_one_zero Re C S q degree Z) as [Z1 Z2]. rewrite Z1 in X5. rewrite Z2 in X6. apply vec_eq; [rewrite X5; ring|rewrite X6; ring|exact X4].
Qed.
(* with order zero the third order is read in a table that has three columns *)
Lemma iterate_ub {S} lo n (f : nat -> S -> outcome S) s : (forall s, f lo s = UB) -> (0 < n)%nat -> iterate lo n f s = UB.
Proof. intros H L. destruct n as [|n]; [lia|]. cbn [iterate]. rewrite H. reflexivity. Qed.
Lemma partials_order_zero Re GM C S degree V W h q junk : (1 <= degree)%nat -> coefficients h degree C S -> q <> vzero -> exact_size V degree 0 -> exact_size W degree 0 -> accel_partials_at q degree 0 Re GM V W h junk = UB.
Proof.
  intros DG CO N (A1 & A2) (B1 & B2). unfold accel_partials_at. rewrite A1, A2, B1, B2, !Nat.eqb_refl. cbn [andb].
  destruct (lagrange_ok q Re (degree + 2) (0 + 2) V W N ltac:(lia) ltac:(lia) ltac:(lia) ltac:(lia) ltac:(lia) ltac:(lia) ltac:(lia)) as (V' & W' & E & HV & HW & RV & CV & RW & CW). rewrite E. cbn [obind Z.eqb]. unfold grav_accel_partials.
  destruct (grav_accel degree 0 Re GM V' W' h); [|reflexivity]. cbn [obind]. destruct (loop 0 degree (dd_zonal V' W' h) (dd0, 2)); [|reflexivity]. cbn [obind]. unfold loop at 1. rewrite iterate_ub; [reflexivity| |lia].
  intros [d f]. unfold dd_first. destruct (Cnm h 1 1); [|reflexivity]. cbn [obind]. destruct (Snm h 1 1); [|reflexivity]. cbn [obind]. destruct (get V' (1 + 2) 1); [|reflexivity]. cbn [obind]. unfold get at 1, inside. rewrite CV, A2. cbn [Nat.add Nat.ltb Nat.leb]. rewrite andb_false_r. reflexivity.
Qed.

(* ---- example objects ---- *)
(* a field of degree one: C00 = 1, C10 = 2, C11 = 3, S11 = 4 *)
Definition ex_coeff : hc R := HC false 1 [[1; 4]; [2; 3]].
Definition ex_C (n m : nat) : R := match n, m with O, O => 1 | 1%nat, O => 2 | 1%nat, 1%nat => 3 | _, _ => 0 end.
Definition ex_S (n m : nat) : R := match n, m with 1%nat, 1%nat => 4 | _, _ => 0 end.
Definition ex_table (rows cols : nat) : table := Table rows cols (fun _ _ => 0).
Lemma ex_coefficients : coefficients ex_coeff 1 ex_C ex_S.
Proof. intros n m [A B]. destruct n as [|[|n]]; [| |lia]; destruct m as [|[|m]]; try lia; split; try reflexivity; intros; try lia; reflexivity. Qed.
(* J2 only: C00 = 1, C20 = -1/1000 *)
Definition ex_j2 : hc R := HC false 2 [[1; 0; 0]; [0; 0; 0]; [- / 1000; 0; 0]].
Definition ex_j2_C (n m : nat) : R := match n, m with O, O => 1 | 2%nat, O => - / 1000 | _, _ => 0 end.
Lemma ex_j2_coefficients : coefficients ex_j2 2 ex_j2_C (fun _ _ => 0).
Proof. intros n m [A B]. destruct n as [|[|[|n]]]; [| | |lia]; destruct m as [|[|[|m]]]; try lia; split; try reflexivity; intros; try lia; reflexivity. Qed.
(* the acceleration as a function exists *)
Lemma ex_acceleration Re GM C S degree order V W h : (order <= degree)%nat -> coefficients h degree C S -> sized V (degree + 1) (order + 1) -> sized W (degree + 1) (order + 1) -> acceleration degree order Re GM V W h (field Re GM C S degree order).
Proof. intros OD CO SV SW q N. apply accel_at_field; assumption. Qed.

Lemma ex_missing : xz (dsum (Fn 1 ex_C ex_S (Vec_model.V 0 0 1)) 1) = - 9.
Proof.
  cbn [dsum Fn]. unfold dadd, dd0, Hnm. cbn [xz]. set (p := Vec_model.V 0 0 1). change (1 + 2)%nat with 3%nat. cbn [ex_C ex_S].
  pose proof (next_V 0 0 1 1 0) as N1. pose proof (rec_V 0 0 1 1 0 0) as R1. pose proof (rec_V 0 0 1 1 1 0) as R2. cbn zeta in N1, R1, R2. fold p in N1, R1, R2. cbn [INR] in N1, R1, R2.
  assert (E0 : VF 1 0 0 p = 1). { unfold VF. rewrite F_00. unfold Am, p, norm, dot. cbn. rewrite !Rmult_0_l, !Rplus_0_l, !Rmult_1_l, sqrt_1. lra. }
  assert (A2 : Am 2 p = 0) by (unfold Am, p; cbn; ring). assert (B2 : Bm 2 p = 0) by (unfold Bm, p; cbn; ring).
  unfold VF at 1, WF at 1. rewrite A2, B2.
  replace (0 * 0 + 0 * 0 + 1 * 1) with 1 in N1, R1, R2 by ring. unfold Rdiv in *. rewrite Rinv_1 in *. cbn [INR]. replace (VF 1 3 0 p) with 1 by lra. lra.
Qed.
Lemma ex_p : Vec_model.V 0 0 1 <> vzero. Proof. intros E. inversion E. lra. Qed.
Lemma last_row_wrong : exists degree order h V W A q junk a P J tabs, accel_partials_at q degree order 1 1 V W h junk = Ok (Some ((a, P), tabs)) /\ acceleration degree order 1 1 V W h A /\ is_jacobian A q J /\ vx (row2 P) <> vx (row2 J).
Proof.
  assert (S4 : exact_size (ex_table 4 4) 1 1) by (split; reflexivity). assert (N1 : (1 : R) <> 0) by lra.
  destruct (partials_at_ok 1 1 ex_C ex_S 1 1 (ex_table 4 4) (ex_table 4 4) ex_coeff (Vec_model.V 0 0 1) (mat9 0 0 0 0 0 0 0 0 0) ltac:(lia) ex_coefficients ex_p S4 S4) as (P & tabs & E & _ & _ & _ & _ & X5 & _).
  pose proof (ex_acceleration 1 1 ex_C ex_S 1 1 (ex_table 4 4) (ex_table 4 4) ex_coeff ltac:(lia) ex_coefficients (exact_sized _ _ _ S4) (exact_sized _ _ _ S4)) as AC.
  pose proof (tensor_jacobian 1 1 ex_C ex_S 1 1 (ex_table 4 4) (ex_table 4 4) ex_coeff _ _ N1 ltac:(lia) ex_coefficients (exact_sized _ _ _ S4) (exact_sized _ _ _ S4) AC ex_p) as J.
  do 6 eexists. exists (Vec_model.V 0 0 1). do 5 eexists. split; [exact E|]. split; [exact AC|]. split; [exact J|]. rewrite X5, ex_missing. lra.
Qed.
Lemma upper_wrong : exists degree order h V W A q junk a P J tabs, accel_partials_at q degree order 1 1 V W h junk = Ok (Some ((a, P), tabs)) /\ acceleration degree order 1 1 V W h A /\ is_jacobian A q J /\ vy (row0 P) <> vy (row0 J) /\ vz (row0 P) <> vz (row0 J) /\ vz (row1 P) <> vz (row1 J).
Proof.
  assert (S4 : exact_size (ex_table 5 4) 2 1) by (split; reflexivity). assert (N1 : (1 : R) <> 0) by lra.
  set (T := tensor 1 1 ex_j2_C (fun _ _ => 0) 2 1 (Vec_model.V 0 0 1)).
  destruct (partials_at_ok 1 1 ex_j2_C (fun _ _ => 0) 2 1 (ex_table 5 4) (ex_table 5 4) ex_j2 (Vec_model.V 0 0 1) (mat9 0 (vy (row0 T) + 1) (vz (row0 T) + 1) 0 0 (vz (row1 T) + 1) 0 0 0) ltac:(lia) ex_j2_coefficients ex_p S4 S4) as (P & tabs & E & _ & _ & _ & _ & _ & _ & X7 & X8 & X9).
  pose proof (ex_acceleration 1 1 ex_j2_C (fun _ _ => 0) 2 1 (ex_table 5 4) (ex_table 5 4) ex_j2 ltac:(lia) ex_j2_coefficients (exact_sized _ _ _ S4) (exact_sized _ _ _ S4)) as AC.
  pose proof (tensor_jacobian 1 1 ex_j2_C (fun _ _ => 0) 2 1 (ex_table 5 4) (ex_table 5 4) ex_j2 _ _ N1 ltac:(lia) ex_j2_coefficients (exact_sized _ _ _ S4) (exact_sized _ _ _ S4) AC ex_p) as J. fold T in J.
  do 6 eexists. exists (Vec_model.V 0 0 1). do 5 eexists. split; [exact E|]. split; [exact AC|]. split; [exact J|]. rewrite X7, X8, X9; cbn [mat9 row0 row1 vx vy vz]; clearbody T; repeat split; lra.
Qed.
