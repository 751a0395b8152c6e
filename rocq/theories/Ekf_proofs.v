(* Specification and proofs for C29. *)
From Coq Require Import List QArith Qfield Lqa Lia Arith.
From Verif Require Import Ekf_model.
Import ListNotations.
Local Open Scope Q_scope.

(* ---------- specification ---------- *)
Definition sameM (n : nat) (A B : matn) : Prop := forall i j, (i < n)%nat -> (j < n)%nat -> A i j == B i j.
Definition sameV (n : nat) (a b : vecn) : Prop := forall i, (i < n)%nat -> a i == b i.
(* v' A v *)
Definition qform (n : nat) (A : matn) (v : vecn) : Q := sum n (fun i => sum n (fun j => v i * A i j * v j)).
Definition psd (n : nat) (A : matn) : Prop := sameM n A (fun i j => A j i) /\ forall v, 0 <= qform n A v.
Definition op_ok {T} (n : nat) (op : ekf_op T) : Prop :=
  match op with
  | ETime _ _ _ => True
  | ETimeQ _ _ _ Qdt => psd n Qdt
  | EObs _ _ sigma _ => ~ sigma == 0
  end.
Fixpoint ops_ok {T} (n : nat) (ops : list (ekf_op T)) : Prop := match ops with o :: r => op_ok n o /\ ops_ok n r | [] => True end.
(* the covariance of what is left of an error with covariance P when any gain G is applied to an
   observation with row H and standard deviation sigma: error e - G (H.e) plus sigma G *)
Definition gain_form (n : nat) (P : matn) (H : vecn) (sigma : Q) (G : vecn) (v : vecn) : Q :=
  let vG := sum n (fun k => v k * G k) in
  qform n P (fun k => v k - vG * H k) + sigma * sigma * (vG * vG).
(* B is the inverse of A *)
Definition inverse (n : nat) (A B : matn) : Prop :=
  (forall i j, (i < n)%nat -> (j < n)%nat -> sum n (fun k => A i k * B k j) == (if Nat.eqb i j then 1 else 0)) /\
  (forall i j, (i < n)%nat -> (j < n)%nat -> sum n (fun k => B i k * A k j) == (if Nat.eqb i j then 1 else 0)).

(* ---------- sums ---------- *)
Lemma sum_ext : forall n f g, (forall i, (i < n)%nat -> f i == g i) -> sum n f == sum n g.
Proof. induction n as [|n IH]; intros f g H; cbn; [reflexivity|]. rewrite (IH f g), (H n); [reflexivity|lia|]. intros; apply H; lia. Qed.
Lemma sum_plus : forall n f g, sum n (fun i => f i + g i) == sum n f + sum n g.
Proof. induction n as [|n IH]; intros f g; cbn; [ring|]. rewrite IH. ring. Qed.
Lemma sum_scale : forall n c f, sum n (fun i => c * f i) == c * sum n f.
Proof. induction n as [|n IH]; intros c f; cbn; [ring|]. rewrite IH. ring. Qed.
Lemma sum_zero : forall n f, (forall i, (i < n)%nat -> f i == 0) -> sum n f == 0.
Proof. induction n as [|n IH]; intros f H; cbn; [reflexivity|]. rewrite (IH f), (H n); [ring|lia|]. intros; apply H; lia. Qed.
Lemma sum_swap : forall n m f, sum n (fun i => sum m (fun j => f i j)) == sum m (fun j => sum n (fun i => f i j)).
Proof.
  induction n as [|n IH]; intros m f; cbn.
  - symmetry. apply sum_zero. reflexivity.
  - rewrite IH, sum_plus. reflexivity.
Qed.
Lemma sum_nonneg : forall n f, (forall i, (i < n)%nat -> 0 <= f i) -> 0 <= sum n f.
Proof. induction n as [|n IH]; intros f H; cbn; [lra|]. pose proof (H n ltac:(lia)). pose proof (IH f ltac:(intros; apply H; lia)). lra. Qed.
Lemma sum_delta : forall n i f, (i < n)%nat -> sum n (fun k => (if Nat.eqb i k then 1 else 0) * f k) == f i.
Proof.
  induction n as [|n IH]; intros i f L; [lia|]. cbn [sum].
  destruct (Nat.eq_dec i n) as [->|N].
  - rewrite Nat.eqb_refl. rewrite sum_zero; [ring|]. intros k K. replace (Nat.eqb n k) with false by (symmetry; apply Nat.eqb_neq; lia). ring.
  - rewrite IH by lia. replace (Nat.eqb i n) with false by (symmetry; apply Nat.eqb_neq; lia). ring.
Qed.
Lemma sum_scale_r : forall n c f, sum n (fun i => f i * c) == sum n f * c.
Proof. induction n as [|n IH]; intros c f; cbn; [ring|]. rewrite IH. ring. Qed.

(* ---------- quadratic forms ---------- *)
Lemma qform_ext : forall n A B u v, sameM n A B -> sameV n u v -> qform n A u == qform n B v.
Proof.
  intros n A B u v E F. unfold qform. apply sum_ext; intros i I. apply sum_ext; intros j J.
  rewrite (E i j I J), (F i I), (F j J). reflexivity.
Qed.
Lemma qform_plus : forall n A B v, qform n (plusm A B) v == qform n A v + qform n B v.
Proof.
  intros n A B v. unfold qform, plusm. rewrite <- sum_plus. apply sum_ext; intros i I. rewrite <- sum_plus. apply sum_ext; intros j J. ring.
Qed.
Lemma qform_outer : forall n K v, qform n (outer K K) v == dotn n K v * dotn n K v.
Proof.
  intros n K v. unfold qform, outer, dotn. rewrite <- sum_scale_r. apply sum_ext; intros i I.
  rewrite <- sum_scale. apply sum_ext; intros j J. ring.
Qed.
Lemma mulm3 : forall n M A i j, mulm n (mulm n M A) (transp M) i j == sum n (fun k => sum n (fun l => M i k * A k l * M j l)).
Proof.
  intros n M A i j. unfold mulm, transp, dotn.
  rewrite (sum_ext n _ (fun k => sum n (fun l => M i l * A l k * M j k))).
  - rewrite sum_swap. apply sum_ext; intros k K. reflexivity.
  - intros k K. rewrite <- sum_scale_r. reflexivity.
Qed.
Lemma qform_congr : forall n M A v, qform n (mulm n (mulm n M A) (transp M)) v == qform n A (mulv n (transp M) v).
Proof.
  intros n M A v. unfold qform.
  transitivity (sum n (fun i => sum n (fun j => sum n (fun k => sum n (fun l => v i * (M i k * A k l * M j l) * v j))))).
  { apply sum_ext; intros i I. apply sum_ext; intros j J. rewrite mulm3.
    rewrite <- sum_scale, <- sum_scale_r. apply sum_ext; intros k K. rewrite <- sum_scale, <- sum_scale_r. apply sum_ext; intros l L. ring. }
  transitivity (sum n (fun k => sum n (fun l => sum n (fun i => sum n (fun j => v i * (M i k * A k l * M j l) * v j))))).
  { transitivity (sum n (fun i => sum n (fun k => sum n (fun l => sum n (fun j => v i * (M i k * A k l * M j l) * v j))))).
    - apply sum_ext; intros i I. rewrite sum_swap. apply sum_ext; intros k K. rewrite sum_swap. reflexivity.
    - rewrite sum_swap. apply sum_ext; intros k K. rewrite sum_swap. reflexivity. }
  apply sum_ext; intros k K. apply sum_ext; intros l L. unfold mulv, transp, dotn.
  rewrite <- sum_scale_r, <- sum_scale_r. apply sum_ext; intros i I. rewrite <- sum_scale. apply sum_ext; intros j J. ring.
Qed.
Lemma psd_plus : forall n A B, psd n A -> psd n B -> psd n (plusm A B).
Proof.
  intros n A B [sA pA] [sB pB]. split.
  - intros i j I J. unfold plusm. rewrite (sA i j I J), (sB i j I J). reflexivity.
  - intros v. rewrite qform_plus. specialize (pA v). specialize (pB v). lra.
Qed.
Lemma psd_congr : forall n M A, psd n A -> psd n (mulm n (mulm n M A) (transp M)).
Proof.
  intros n M A [sA pA]. split.
  - intros i j I J. rewrite !mulm3. rewrite sum_swap. apply sum_ext; intros k K. apply sum_ext; intros l L. rewrite (sA l k L K). ring.
  - intros v. rewrite qform_congr. apply pA.
Qed.
Lemma psd_outer : forall n K, psd n (outer K K).
Proof.
  intros n K. split.
  - intros i j I J. unfold outer. ring.
  - intros v. rewrite qform_outer. nra.
Qed.
Lemma innov_form : forall T n (e : ekf T) sigma H, ekf_innov_var n e sigma H == sigma * sigma + qform n (e_P e) H.
Proof.
  intros T n e sigma H. unfold ekf_innov_var, dotn, mulv, qform, dotn.
  assert (X : sum n (fun k => H k * sum n (fun k0 => e_P e k k0 * H k0)) == sum n (fun i => sum n (fun j => H i * e_P e i j * H j))).
  { apply sum_ext; intros i I. rewrite <- sum_scale. apply sum_ext; intros j J. ring. }
  rewrite X. reflexivity.
Qed.
Lemma innov_pos : forall T n (e : ekf T) sigma H, psd n (e_P e) -> ~ sigma == 0 -> 0 < ekf_innov_var n e sigma H.
Proof.
  intros T n e sigma H [_ pP] s0. rewrite innov_form. specialize (pP H).
  assert (0 < sigma * sigma). { destruct (Q_dec sigma 0) as [[L|L]|L]; [nra|nra|contradiction]. }
  lra.
Qed.
Lemma innov_ne : forall T n (e : ekf T) sigma H, psd n (e_P e) -> ~ sigma == 0 -> Qeq_bool (ekf_innov_var n e sigma H) 0 = false.
Proof.
  intros T n e sigma H P S. pose proof (innov_pos T n e sigma H P S) as L.
  destruct (Qeq_bool _ 0) eqn:E; [|reflexivity]. apply Qeq_bool_iff in E. lra.
Qed.
Lemma step_psd : forall T n (e : ekf T) op, psd n (e_P e) -> op_ok n op -> exists e', ekf_step n e op = Some e' /\ psd n (e_P e').
Proof.
  intros T n e op pP O. destruct op as [tk xk phi|tk xk phi Qdt|z g sigma H]; cbn in *.
  - eexists. split; [reflexivity|]. apply psd_congr. exact pP.
  - eexists. split; [reflexivity|]. apply psd_plus; [apply psd_congr; exact pP | exact O].
  - unfold ekf_obs. rewrite innov_ne by assumption. eexists. split; [reflexivity|]. cbn [e_P].
    apply psd_plus; [apply psd_congr; exact pP | apply psd_outer].
Qed.
Lemma run_psd : forall T n ops (e : ekf T), psd n (e_P e) -> ops_ok n ops -> exists e', ekf_run n e ops = Some e' /\ psd n (e_P e').
Proof.
  intros T n ops. induction ops as [|o r IH]; intros e pP O.
  - exists e. auto.
  - destruct O as [O1 O2]. destruct (step_psd T n e o pP O1) as (e1 & S1 & P1). cbn. rewrite S1. apply IH; assumption.
Qed.

(* ---------- the observation update ---------- *)
Section Obs.
Variables (T : Type) (n : nat) (e : ekf T) (z g sigma : Q) (H : vecn).
Hypothesis pP : psd n (e_P e).
Hypothesis s0 : ~ sigma == 0.
Let P := e_P e.
Let PH : vecn := fun i => sum n (fun k => P i k * H k).
Let s : Q := ekf_innov_var n e sigma H.
Let K : vecn := fun i => PH i / s.

Lemma s_pos : 0 < s.
Proof. apply innov_pos; assumption. Qed.
Lemma s_PH : s == sigma * sigma + sum n (fun k => H k * PH k).
Proof. reflexivity. Qed.
(* the updated covariance, element by element *)
Definition joseph (G : vecn) : matn :=
  plusm (mulm n (mulm n (minusm ident (outer G H)) P) (transp (minusm ident (outer G H)))) (outer (fun i => G i * sigma) (fun i => G i * sigma)).
Lemma joseph_elements : forall G i j, (i < n)%nat -> (j < n)%nat ->
  joseph G i j == P i j - G i * PH j - PH i * G j + s * (G i * G j).
Proof.
  intros G i j I J. destruct pP as [sP _]. unfold joseph, plusm.
  assert (A : forall j, (j < n)%nat -> mulm n (minusm ident (outer G H)) P i j == P i j - G i * PH j).
  { intros k KK. unfold mulm, minusm, outer, ident, dotn.
    rewrite (sum_ext n _ (fun l => (if Nat.eqb i l then 1 else 0) * P l k + (- G i) * (P k l * H l))).
    2:{ intros l L. pose proof (sP l k L KK) as E. fold P in E. rewrite E. ring. }
    rewrite sum_plus, sum_delta, sum_scale by exact I. unfold PH. ring. }
  assert (B : mulm n (mulm n (minusm ident (outer G H)) P) (transp (minusm ident (outer G H))) i j ==
    (P i j - G i * PH j) - G j * (PH i - G i * sum n (fun k => H k * PH k))).
  { unfold mulm at 1, dotn at 1.
    rewrite (sum_ext n _ (fun k => (if Nat.eqb j k then 1 else 0) * (P i k - G i * PH k) + ((- G j) * (P i k * H k) + (G j * G i) * (H k * PH k)))).
    2:{ intros k KK. rewrite (A k KK). unfold transp, minusm, outer, ident. ring. }
    rewrite sum_plus, sum_delta, sum_plus, !sum_scale by exact J. unfold PH. ring. }
  rewrite B, s_PH. unfold outer. ring.
Qed.
Lemma obs_is : ekf_obs n e z g sigma H = Some (Ekf (e_t e) (plusv (e_x e) (fun i => K i * (z - g))) (joseph K)).
Proof. unfold ekf_obs. rewrite innov_ne by assumption. reflexivity. Qed.
Lemma joseph_K : forall i j, (i < n)%nat -> (j < n)%nat -> joseph K i j == P i j - PH i * PH j / s.
Proof.
  intros i j I J. rewrite joseph_elements by assumption. unfold K. field. pose proof s_pos. lra.
Qed.
Lemma gain_form_joseph : forall G v, qform n (joseph G) v == gain_form n P H sigma G v.
Proof.
  intros G v. unfold joseph. rewrite qform_plus, qform_congr, qform_outer. unfold gain_form. cbv zeta.
  assert (D : dotn n (fun i => G i * sigma) v == sigma * sum n (fun k => v k * G k)).
  { unfold dotn. rewrite <- sum_scale. apply sum_ext; intros i I. ring. }
  rewrite D. rewrite (qform_ext n P P _ (fun k => v k - sum n (fun l => v l * G l) * H k)).
  - ring.
  - intros i j I J. reflexivity.
  - intros i I. unfold mulv, transp, minusm, outer, ident, dotn.
    rewrite (sum_ext n _ (fun k => (if Nat.eqb i k then 1 else 0) * v k + (- H i) * (v k * G k))).
    2:{ intros k KK. rewrite (Nat.eqb_sym k i). ring. }
    rewrite sum_plus, sum_delta, sum_scale by exact I. ring.
Qed.
Lemma qform_elements : forall G v, qform n (joseph G) v - qform n (joseph K) v == s * (sum n (fun i => v i * (G i - K i)) * sum n (fun i => v i * (G i - K i))).
Proof.
  intros G v. pose proof s_pos as SP.
  assert (E : forall i j, (i < n)%nat -> (j < n)%nat -> joseph G i j == joseph K i j + s * ((G i - K i) * (G j - K j))).
  { intros i j I J. rewrite joseph_elements, joseph_K by assumption. unfold K. field. lra. }
  assert (F : qform n (joseph G) v == qform n (joseph K) v + s * (sum n (fun i => v i * (G i - K i)) * sum n (fun i => v i * (G i - K i)))).
  { unfold qform. rewrite <- sum_scale_r, <- sum_scale, <- sum_plus. apply sum_ext; intros i I.
    rewrite <- sum_scale, <- sum_scale, <- sum_plus. apply sum_ext; intros j J. rewrite (E i j I J). ring. }
  rewrite F. ring.
Qed.
Lemma obs_update_ok : exists e', ekf_obs n e z g sigma H = Some e' /\
  (forall i, (i < n)%nat -> e_x e' i == e_x e i + K i * (z - g)) /\
  (forall i j, (i < n)%nat -> (j < n)%nat -> e_P e' i j == P i j - K i * sum n (fun k => H k * P k j)) /\
  e_t e' = e_t e /\
  forall G v, qform n (e_P e') v <= gain_form n P H sigma G v.
Proof.
  rewrite obs_is. eexists. split; [reflexivity|]. cbn [e_x e_P e_t].
  split; [intros; reflexivity|]. split.
  - intros i j I J. rewrite joseph_K by assumption. destruct pP as [sP _].
    rewrite (sum_ext n _ (fun k => P j k * H k)).
    2:{ intros k KK. pose proof (sP k j KK J) as E. fold P in E. rewrite E. ring. }
    fold (PH j). unfold K. field. pose proof s_pos. lra.
  - split; [reflexivity|]. intros G v. rewrite <- gain_form_joseph. pose proof (qform_elements G v) as E. pose proof s_pos as SP.
    set (w := sum n (fun i => v i * (G i - K i))) in *. assert (0 <= s * (w * w)) by nra. lra.
Qed.
(* the update adds the information of the observation *)
Lemma obs_information : forall e' W, ekf_obs n e z g sigma H = Some e' -> inverse n P W ->
  inverse n (e_P e') (fun i j => W i j + H i * H j / (sigma * sigma)).
Proof.
  intros e' W O [I1 I2]. rewrite obs_is in O. injection O as <-. cbn [e_P]. pose proof s_pos as SP. destruct pP as [sP _].
  assert (SS : ~ sigma * sigma == 0) by (intro X; apply s0; destruct (Qmult_integral _ _ X); assumption).
  assert (WPH : forall i, (i < n)%nat -> sum n (fun k => W i k * PH k) == H i).
  { intros i I. unfold PH.
    rewrite (sum_ext n _ (fun k => sum n (fun l => W i k * P k l * H l))).
    2:{ intros k KK. rewrite <- sum_scale. apply sum_ext; intros l L. ring. }
    rewrite sum_swap. rewrite (sum_ext n _ (fun l => (if Nat.eqb i l then 1 else 0) * H l)).
    - apply sum_delta. exact I.
    - intros l L. rewrite sum_scale_r. rewrite (I2 i l I L). reflexivity. }
  assert (PHW : forall j, (j < n)%nat -> sum n (fun k => PH k * W k j) == H j).
  { intros j J. unfold PH.
    rewrite (sum_ext n _ (fun k => sum n (fun l => H l * (P l k * W k j)))).
    2:{ intros k KK. rewrite <- sum_scale_r. apply sum_ext; intros l L. pose proof (sP k l KK L) as E. fold P in E. rewrite E. ring. }
    rewrite sum_swap. rewrite (sum_ext n _ (fun l => (if Nat.eqb j l then 1 else 0) * H l)).
    - apply sum_delta. exact J.
    - intros l L. rewrite sum_scale. rewrite (I1 l j L J), (Nat.eqb_sym l j). ring. }
  assert (HPH : sum n (fun k => PH k * H k) == s - sigma * sigma).
  { rewrite s_PH. rewrite (sum_ext n (fun k => PH k * H k) (fun k => H k * PH k)) by (intros; ring). ring. }
  split; intros i j I J.
  - rewrite (sum_ext n _ (fun k => P i k * W k j + ((H j / (sigma * sigma)) * (P i k * H k) + ((- PH i / s) * (PH k * W k j) + (- PH i * H j / (s * (sigma * sigma))) * (PH k * H k))))).
    2:{ intros k KK. rewrite joseph_K by assumption. field. split; [exact s0|]. lra. }
    rewrite sum_plus, sum_plus, sum_plus, !sum_scale. rewrite (I1 i j I J), (PHW j J), HPH. fold (PH i). field. split; [exact s0|]. lra.
  - rewrite (sum_ext n _ (fun k => W i k * P k j + ((H i / (sigma * sigma)) * (P j k * H k) + ((- PH j / s) * (W i k * PH k) + (- PH j * H i / (s * (sigma * sigma))) * (PH k * H k))))).
    2:{ intros k KK. rewrite joseph_K by assumption. pose proof (sP k j KK J) as E. fold P in E. rewrite E. field. split; [exact s0|]. lra. }
    rewrite sum_plus, sum_plus, sum_plus, !sum_scale. rewrite (I2 i j I J), (WPH i I), HPH. fold (PH j). field. split; [exact s0|]. lra.
Qed.
Lemma obs_state : forall e' W, ekf_obs n e z g sigma H = Some e' -> inverse n P W -> forall i, (i < n)%nat ->
  sum n (fun j => (W i j + H i * H j / (sigma * sigma)) * (e_x e' j - e_x e j)) == H i * (z - g) / (sigma * sigma).
Proof.
  intros e' W O [I1 I2] i I. rewrite obs_is in O. injection O as <-. cbn [e_x]. pose proof s_pos as SP.
  assert (WPH : sum n (fun k => W i k * PH k) == H i).
  { unfold PH.
    rewrite (sum_ext n _ (fun k => sum n (fun l => W i k * P k l * H l))).
    2:{ intros k KK. rewrite <- sum_scale. apply sum_ext; intros l L. ring. }
    rewrite sum_swap. rewrite (sum_ext n _ (fun l => (if Nat.eqb i l then 1 else 0) * H l)).
    - apply sum_delta. exact I.
    - intros l L. rewrite sum_scale_r. rewrite (I2 i l I L). reflexivity. }
  assert (HPH : sum n (fun k => H k * PH k) == s - sigma * sigma) by (rewrite s_PH; ring).
  rewrite (sum_ext n _ (fun j => ((z - g) / s) * (W i j * PH j) + (H i * (z - g) / (s * (sigma * sigma))) * (H j * PH j))).
  2:{ intros j J. unfold plusv, K. field. split; (exact s0 || lra). }
  rewrite sum_plus, !sum_scale, WPH, HPH. field. split; (exact s0 || lra).
Qed.
End Obs.
(* a history of linear observations (z, sigma, H): the predicted value is H.x of the state at hand *)
Fixpoint linear_run {T} (n : nat) (e : ekf T) (obs : list (Q * Q * vecn)) : option (ekf T) :=
  match obs with
  | [] => Some e
  | (z, sigma, H) :: obs => match ekf_obs n e z (sum n (fun k => H k * e_x e k)) sigma H with Some e' => linear_run n e' obs | None => None end
  end.
(* the normal equations of all of them *)
Fixpoint information (W : matn) (obs : list (Q * Q * vecn)) : matn :=
  match obs with [] => W | (_, sigma, H) :: obs => information (fun i j => W i j + H i * H j / (sigma * sigma)) obs end.
Fixpoint right_side (b : vecn) (obs : list (Q * Q * vecn)) : vecn :=
  match obs with [] => b | (z, sigma, H) :: obs => right_side (fun i => b i + H i * z / (sigma * sigma)) obs end.
Lemma right_side_ext : forall n obs b c, sameV n b c -> sameV n (right_side b obs) (right_side c obs).
Proof.
  intros n obs. induction obs as [|[[z sigma] H] obs IH]; intros b c E; [exact E|]. cbn. apply IH.
  intros i I. rewrite (E i I). reflexivity.
Qed.
Lemma batch : forall T n obs (e : ekf T) W, psd n (e_P e) -> Forall (fun o => ~ snd (fst o) == 0) obs -> inverse n (e_P e) W ->
  exists e', linear_run n e obs = Some e' /\ psd n (e_P e') /\ inverse n (e_P e') (information W obs) /\
  sameV n (fun i => sum n (fun j => information W obs i j * e_x e' j)) (right_side (fun i => sum n (fun j => W i j * e_x e j)) obs).
Proof.
  intros T n obs. induction obs as [|[[z sigma] H] obs IH]; intros e W pP F I.
  - exists e. split; [reflexivity|]. split; [exact pP|]. split; [exact I|]. intros i _. reflexivity.
  - inversion F as [|? ? F1 F2]; subst. cbn in F1. cbn [linear_run information right_side].
    destruct (step_psd T n e (EObs z (sum n (fun k => H k * e_x e k)) sigma H) pP F1) as (e1 & S1 & P1). cbn in S1. rewrite S1.
    pose proof (obs_information T n e _ _ _ H pP F1 e1 W S1 I) as I1.
    destruct (IH e1 _ P1 F2 I1) as (e' & R & P' & I' & X). exists e'. split; [exact R|]. split; [exact P'|]. split; [exact I'|].
    intros i II. rewrite (X i II). apply (right_side_ext n); [|exact II]. clear i II. intros i II.
    pose proof (obs_state T n e _ _ _ H pP F1 e1 W S1 I i II) as ST.
    rewrite (sum_ext n _ (fun j => (W i j + H i * H j / (sigma * sigma)) * e_x e1 j + ((-1) * (W i j * e_x e j) + (- H i / (sigma * sigma)) * (H j * e_x e j)))) in ST.
    2:{ intros j J. field. exact F1. }
    rewrite sum_plus, sum_plus, !sum_scale in ST.
    set (A := sum n (fun j => (W i j + H i * H j / (sigma * sigma)) * e_x e1 j)) in *.
    set (B := sum n (fun j => W i j * e_x e j)) in *. set (C := sum n (fun k => H k * e_x e k)) in *.
    assert (EQ : A == B + H i / (sigma * sigma) * C + H i * (z - C) / (sigma * sigma)) by (rewrite <- ST; field; exact F1).
    rewrite EQ. field. exact F1.
Qed.
Lemma ekf_time_ok : forall T n (e : ekf T) tk xk phi Qdt v,
  qform n (e_P (ekf_time n e tk xk phi)) v == qform n (e_P e) (fun k => sum n (fun i => phi i k * v i)) /\
  qform n (e_P (ekf_time_q n e tk xk phi Qdt)) v == qform n (e_P e) (fun k => sum n (fun i => phi i k * v i)) + qform n Qdt v /\
  e_x (ekf_time n e tk xk phi) = xk /\ e_x (ekf_time_q n e tk xk phi Qdt) = xk /\
  e_t (ekf_time n e tk xk phi) = tk /\ e_t (ekf_time_q n e tk xk phi Qdt) = tk.
Proof.
  intros T n e tk xk phi Qdt v. cbn [e_P e_x e_t ekf_time ekf_time_q].
  split; [apply qform_congr|]. split; [rewrite qform_plus, qform_congr; reflexivity|]. auto.
Qed.

(* one update after the other, each on the state the one before left *)
Inductive succeeds {T} (n : nat) : ekf T -> list (ekf_op T) -> ekf T -> Prop :=
| no_update e : succeeds n e [] e
| time_update e tk xk phi r e' : succeeds n (ekf_time n e tk xk phi) r e' -> succeeds n e (ETime tk xk phi :: r) e'
| noise_update e tk xk phi q r e' : succeeds n (ekf_time_q n e tk xk phi q) r e' -> succeeds n e (ETimeQ tk xk phi q :: r) e'
| obs_update e z g sigma H e1 r e' : ekf_obs n e z g sigma H = Some e1 -> succeeds n e1 r e' -> succeeds n e (EObs z g sigma H :: r) e'.
Lemma run_succeeds T n : forall ops (e e' : ekf T), ekf_run n e ops = Some e' <-> succeeds n e ops e'.
Proof.
  induction ops as [|o ops IH]; intros e e'; cbn [ekf_run].
  - split; [intros [= <-]; constructor|inversion 1; reflexivity].
  - destruct o as [tk xk phi|tk xk phi q|z g sigma H]; cbn [ekf_step].
    + rewrite IH. split; [now constructor|inversion 1; assumption].
    + rewrite IH. split; [now constructor|inversion 1; assumption].
    + destruct (ekf_obs n e z g sigma H) as [e1|] eqn:E.
      * rewrite IH. split; [now apply obs_update|]. inversion 1; subst. congruence.
      * split; [discriminate|inversion 1; subst; congruence].
Qed.
