From Coq Require Import Reals Lra.
From Verif Require Import Vec_model Vec_proofs Calc Frames_model.
Local Open Scope R_scope.

Lemma cel2ter_orth rc2i era rpom : orthogonal rc2i -> orthogonal rpom -> orthogonal (cel2ter rc2i era rpom).
Proof. intros A B. apply orth_mulm; [exact B|]. apply orth_mulm; [apply turn_z_orth|exact A]. Qed.
Lemma cel2ter_direct rc2i era rpom : direct rc2i -> direct rpom -> direct (cel2ter rc2i era rpom).
Proof. intros A B. apply direct_mulm; [exact B|]. apply direct_mulm; [apply turn_z_direct|exact A]. Qed.
Lemma positions_inverse rc2i era rpom r : orthogonal rc2i -> orthogonal rpom ->
  rter2cel (rcel2ter r rc2i era rpom) rc2i era rpom = r /\ rcel2ter (rter2cel r rc2i era rpom) rc2i era rpom = r /\
  norm (rcel2ter r rc2i era rpom) = norm r /\ norm (rter2cel r rc2i era rpom) = norm r.
Proof.
  intros A B. pose proof (cel2ter_orth rc2i era rpom A B) as O. pose proof (orth_rows _ O) as O'. unfold rter2cel, rcel2ter.
  split; [apply orth_back; exact O|]. split; [rewrite <- (transpose_invol (cel2ter rc2i era rpom)) at 1; apply orth_back; exact O'|]. split; [apply orth_norm; exact O|apply orth_norm; exact O'].
Qed.
Lemma spin_skew omega d : vadd (mulv (mscale omega spin_matrix) d) (mulv (transpose (mscale omega spin_matrix)) d) = vzero.
Proof. unfold spin_matrix. vec_ring. Qed.
Lemma mulv_zero m : mulv m vzero = vzero. Proof. vec_ring. Qed.
(* the rate matrix times the transpose of the rotation is antisymmetric *)
Lemma rate_skew rc2i era omega rpom a : orthogonal rc2i -> orthogonal rpom ->
  vadd (mulv (transpose (cel2ter rc2i era rpom)) (mulv (cel2ter_rate rc2i era omega rpom) a))
       (mulv (transpose (cel2ter_rate rc2i era omega rpom)) (mulv (cel2ter rc2i era rpom) a)) = vzero.
Proof.
  intros A B. unfold cel2ter, cel2ter_rate. rewrite !transpose_mulm, !mulv_mulm. rewrite !(orth_back rpom _ B). set (b := mulv rc2i a).
  rewrite <- mulv_add. set (R := rot_era era).
  assert (Z : forall c, vadd (mulv (transpose R) (mulv (mscale omega spin_matrix) (mulv R c))) (mulv (transpose R) (mulv (transpose (mscale omega spin_matrix)) (mulv R c))) = vzero).
  { intros c. set (d := mulv R c). rewrite <- mulv_add.
    rewrite spin_skew. apply mulv_zero. }
  rewrite Z. apply mulv_zero.
Qed.
Lemma vadd_swap a b c : vadd (vadd a b) c = vadd a (vadd b c). Proof. vec_ring. Qed.
Lemma vadd_zero a : vadd a vzero = a. Proof. vec_ring. Qed.
Lemma states_inverse y rc2i era omega rpom : orthogonal rc2i -> orthogonal rpom ->
  yter2cel (ycel2ter y rc2i era omega rpom) rc2i era omega rpom = y.
Proof.
  intros A B. destruct (positions_inverse rc2i era rpom (st_r y) A B) as (P & _). destruct (positions_inverse rc2i era rpom (st_v y) A B) as (Q & _).
  unfold yter2cel, ycel2ter. cbn [st_r st_v]. rewrite P. destruct y as [r v]. cbn [st_r st_v] in *. f_equal. unfold rter2cel at 1. rewrite mulv_add. unfold rter2cel in Q. rewrite Q. unfold rcel2ter.
  rewrite vadd_swap, (rate_skew rc2i era omega rpom r A B). apply vadd_zero.
Qed.
Lemma states_inverse_ter y rc2i era omega rpom : orthogonal rc2i -> orthogonal rpom ->
  ycel2ter (yter2cel y rc2i era omega rpom) rc2i era omega rpom = y.
Proof.
  intros A B. pose proof (positions_inverse rc2i era rpom (st_r y) A B) as (_ & P & _). pose proof (positions_inverse rc2i era rpom (st_v y) A B) as (_ & Q & _).
  unfold ycel2ter, yter2cel. cbn [st_r st_v]. rewrite P. destruct y as [r v]. cbn [st_r st_v] in *. f_equal. unfold rcel2ter at 1. rewrite mulv_add. unfold rcel2ter in Q, P. rewrite Q.
  pose proof (rate_skew rc2i era omega rpom (rter2cel r rc2i era rpom) A B) as Z. rewrite P in Z. rewrite vadd_swap.
  replace (vadd (mulv (cel2ter rc2i era rpom) (mulv (transpose (cel2ter_rate rc2i era omega rpom)) r)) (mulv (cel2ter_rate rc2i era omega rpom) (rter2cel r rc2i era rpom))) with vzero; [apply vadd_zero|].
  pose proof (orth_rows _ (cel2ter_orth rc2i era rpom A B)) as O'. set (T := cel2ter rc2i era rpom) in *. set (D := cel2ter_rate rc2i era omega rpom) in *. set (c := rter2cel r rc2i era rpom) in *.
  assert (E : mulv T (vadd (mulv (transpose T) (mulv D c)) (mulv (transpose D) r)) = mulv T vzero) by (rewrite Z; reflexivity). rewrite mulv_add in E.
  rewrite <- (transpose_invol T) in E at 1. rewrite (orth_back _ _ O') in E. assert (EZ : mulv T vzero = vzero) by vec_ring. rewrite EZ in E.
  apply (f_equal (fun x => x)) in E. symmetry. rewrite <- E. vec_ring.
Qed.
(* moving frames: the velocity returned is the derivative of the position returned *)
Lemma deriv_rot f era s a b : vderiv f s a -> derivable_pt_lim era s b ->
  vderiv (fun t => mulv (rot_era (era t)) (f t)) s (vadd (mulv (rot_era (era s)) a) (mulv (mscale b spin_matrix) (mulv (rot_era (era s)) (f s)))).
Proof.
  intros (A & B & C) E. unfold rot_era. assert (E' : derivable_pt_lim (fun t => - era t) s (- b)) by (apply deriv_opp; exact E).
  pose proof (deriv_cos _ _ _ E') as DC. pose proof (deriv_sin _ _ _ E') as DS.
  split; [|split]; unfold mulv, turn_z, mat9, dot, vadd, mscale, spin_matrix, transpose, vscale; cbn [row0 row1 row2 vx vy vz].
  - eapply deriv_eq; [apply deriv_plus; [apply deriv_plus|]; apply deriv_mult; [exact DC|exact A|apply deriv_opp; exact DS|exact B|apply deriv_const|exact C]|cbn; ring].
  - eapply deriv_eq; [apply deriv_plus; [apply deriv_plus|]; apply deriv_mult; [exact DS|exact A|exact DC|exact B|apply deriv_const|exact C]|cbn; ring].
  - eapply deriv_eq; [apply deriv_plus; [apply deriv_plus|]; apply deriv_mult; [apply deriv_const|exact A|apply deriv_const|exact B|apply deriv_const|exact C]|cbn; ring].
Qed.
Lemma velocity_ter r v era omega rc2i rpom s : vderiv r s (v s) -> derivable_pt_lim era s omega ->
  vderiv (fun t => rcel2ter (r t) rc2i (era t) rpom) s (st_v (ycel2ter (State (r s) (v s)) rc2i (era s) omega rpom)).
Proof.
  intros D E. unfold rcel2ter, ycel2ter, rcel2ter, cel2ter, cel2ter_rate. cbn [st_r st_v].
  apply vderiv_ext with (fun t => mulv rpom (mulv (rot_era (era t)) (mulv rc2i (r t)))); [intros; rewrite !mulv_mulm; reflexivity|]. rewrite !mulv_mulm, <- mulv_add. apply vderiv_mulv.
  apply (deriv_rot (fun t => mulv rc2i (r t))); [apply vderiv_mulv; exact D|exact E].
Qed.
(* a point at rest in the terrestrial frame moves with omega x r about the pole of date *)
Lemma at_rest r era omega rc2i rpom : orthogonal rc2i -> direct rc2i -> orthogonal rpom ->
  let y := yter2cel (State r vzero) rc2i era omega rpom in
  st_v y = cross (vscale omega (mulv (transpose rc2i) unit_z)) (st_r y).
Proof.
  intros A D B. unfold yter2cel, rter2cel, cel2ter, cel2ter_rate. cbn [st_r st_v]. rewrite !transpose_mulm, !mulv_mulm.
  set (c := mulv (transpose rpom) r). pose proof (orth_rows _ A) as A'.
  assert (D' : direct (transpose rc2i)).
  { intros x y. rewrite <- (orth_back rc2i (cross (mulv (transpose rc2i) x) (mulv (transpose rc2i) y)) A), <- D. f_equal. f_equal; [rewrite <- (transpose_invol rc2i) at 1|rewrite <- (transpose_invol rc2i) at 1]; apply orth_back; exact A'. }
  transitivity (vadd (mulv (transpose rc2i) vzero) (mulv (transpose rc2i) (mulv (transpose (rot_era era)) (mulv (transpose (mscale omega spin_matrix)) c)))).
  { f_equal. vec_ring. }
  rewrite <- mulv_add. transitivity (mulv (transpose rc2i) (cross (vscale omega unit_z) (mulv (transpose (rot_era era)) c))).
  { f_equal. unfold rot_era, spin_matrix. vec_ring. }
  rewrite <- D'. rewrite mulv_scale. reflexivity.
Qed.
Lemma rate_lod omega0 xlod : OmegaEarth omega0 xlod * 86400 = omega0 * (86400 - xlod).
Proof. unfold OmegaEarth. field. Qed.
