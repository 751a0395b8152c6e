(* Property theorems C29. *)
From Coq Require Import List QArith.
From Verif Require Import Ekf_model Ekf_proofs.
Import ListNotations.
Local Open Scope Q_scope.

(* C29: every history of legal updates succeeds and keeps a symmetric positive
   semi-definite covariance *)
Theorem ekf_covariance_invariant : forall T n ops (e : ekf T), psd n (e_P e) -> ops_ok n ops ->
  exists e', ekf_run n e ops = Some e' /\ psd n (e_P e').
Proof. exact run_psd. Qed.
Print Assumptions ekf_covariance_invariant.

(* C29: every update works on the state the one before it left *)
Theorem ekf_updates_accumulate : forall T n ops (e e' : ekf T), ekf_run n e ops = Some e' <-> succeeds n e ops e'.
Proof. exact run_succeeds. Qed.
Print Assumptions ekf_updates_accumulate.

Definition start : ekf nat := Ekf 0%nat (fun _ => 0) ident.
Definition history : list (ekf_op nat) :=
  [ETime 1%nat (fun i => 1) (fun i j => if Nat.leb i j then 1 else 0); EObs 3 1 (1 # 2) (fun i => if Nat.eqb i 0 then 1 else 0);
   ETimeQ 2%nat (fun i => 2) ident ident; EObs 3 1 2 (fun i => 1)].
Lemma ident_psd : psd 2 ident.
Proof.
  split.
  - intros i j I J. unfold ident. rewrite Nat.eqb_sym. reflexivity.
  - intros v. unfold qform. cbn. setoid_replace (0 + (0 + v 0%nat * 1 * v 0%nat + v 0%nat * 0 * v 1%nat) + (0 + v 1%nat * 0 * v 0%nat + v 1%nat * 1 * v 1%nat)) with (v 0%nat * v 0%nat + v 1%nat * v 1%nat) by ring.
    Lqa.nra.
Qed.
Example ekf_history : psd 2 (e_P start) /\ ops_ok 2 history /\
  match ekf_run 2 start history with Some e => e_t e = 2%nat /\ e_x e 0%nat == (50 # 21) /\ e_P e 1%nat 1%nat == (73 # 63) | None => False end.
Proof.
  split; [exact ident_psd|]. split; [split; [exact I|]; split; [discriminate|]; split; [exact ident_psd|]; split; [discriminate|exact I]|].
  vm_compute. auto.
Qed.

(* C29: the observation update moves the state by gain times innovation, gives
   (I - K H')P, and no other gain gives a smaller covariance *)
Theorem ekf_observation_update : forall T n (e : ekf T) z g sigma H, psd n (e_P e) -> ~ sigma == 0 ->
  let K i := sum n (fun k => e_P e i k * H k) / (sigma * sigma + sum n (fun k => H k * sum n (fun l => e_P e k l * H l))) in
  exists e', ekf_obs n e z g sigma H = Some e' /\
  (forall i, (i < n)%nat -> e_x e' i == e_x e i + K i * (z - g)) /\
  (forall i j, (i < n)%nat -> (j < n)%nat -> e_P e' i j == e_P e i j - K i * sum n (fun k => H k * e_P e k j)) /\
  e_t e' = e_t e /\
  forall G v, qform n (e_P e') v <= gain_form n (e_P e) H sigma G v.
Proof. exact obs_update_ok. Qed.
Print Assumptions ekf_observation_update.

(* C29: in information form the update adds H H' / sigma^2, and the state moves by what the
   observation adds to the normal equations *)
Theorem ekf_observation_information : forall T n (e : ekf T) z g sigma H, psd n (e_P e) -> ~ sigma == 0 ->
  forall e' W, ekf_obs n e z g sigma H = Some e' -> inverse n (e_P e) W ->
  inverse n (e_P e') (fun i j => W i j + H i * H j / (sigma * sigma)).
Proof. exact obs_information. Qed.
Print Assumptions ekf_observation_information.

Example ekf_information_case : inverse 2 ident ident.
Proof. split; intros [|[|i]] [|[|j]] I J; try (exfalso; Lia.lia); reflexivity. Qed.

(* C29: a history of linear observations, taken one at a time, ends at the solution of the normal
   equations of all of them, with the inverse of their matrix as covariance *)
Theorem ekf_sequential_is_batch : forall T n obs (e : ekf T) W, psd n (e_P e) -> Forall (fun o => ~ snd (fst o) == 0) obs -> inverse n (e_P e) W ->
  exists e', linear_run n e obs = Some e' /\ psd n (e_P e') /\ inverse n (e_P e') (information W obs) /\
  sameV n (fun i => sum n (fun j => information W obs i j * e_x e' j)) (right_side (fun i => sum n (fun j => W i j * e_x e j)) obs).
Proof. exact batch. Qed.
Print Assumptions ekf_sequential_is_batch.

Example ekf_batch_case : match linear_run 2 start [(5, 1, fun _ => 1); (1, 2, fun i => if Nat.eqb i 0 then 1 else 0)] with
  | Some e => e_x e 0%nat == (11 # 7) /\ e_x e 1%nat == (12 # 7) | None => False end.
Proof. vm_compute. auto. Qed.

(* C29: the time updates propagate the covariance *)
Theorem ekf_time_update : forall T n (e : ekf T) tk xk phi Qdt v,
  qform n (e_P (ekf_time n e tk xk phi)) v == qform n (e_P e) (fun k => sum n (fun i => phi i k * v i)) /\
  qform n (e_P (ekf_time_q n e tk xk phi Qdt)) v == qform n (e_P e) (fun k => sum n (fun i => phi i k * v i)) + qform n Qdt v /\
  e_x (ekf_time n e tk xk phi) = xk /\ e_x (ekf_time_q n e tk xk phi Qdt) = xk /\
  e_t (ekf_time n e tk xk phi) = tk /\ e_t (ekf_time_q n e tk xk phi Qdt) = tk.
Proof. exact ekf_time_ok. Qed.
Print Assumptions ekf_time_update.
