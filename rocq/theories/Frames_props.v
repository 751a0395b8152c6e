From Coq Require Import Reals Lra.
From Verif Require Import Vec_model Vec_proofs Calc Frames_model Frames_proofs.
Local Open Scope R_scope.

(* C47: positions go to the terrestrial frame and back unchanged and keep their length *)
Theorem positions_round_trip : forall rc2i era rpom r, orthogonal rc2i -> orthogonal rpom ->
  rter2cel (rcel2ter r rc2i era rpom) rc2i era rpom = r /\ rcel2ter (rter2cel r rc2i era rpom) rc2i era rpom = r /\
  norm (rcel2ter r rc2i era rpom) = norm r /\ norm (rter2cel r rc2i era rpom) = norm r.
Proof. exact positions_inverse. Qed.
Print Assumptions positions_round_trip.
(* C47: so do states, from either side and for any rotation rate *)
Theorem states_round_trip : forall y rc2i era omega rpom, orthogonal rc2i -> orthogonal rpom ->
  yter2cel (ycel2ter y rc2i era omega rpom) rc2i era omega rpom = y /\ ycel2ter (yter2cel y rc2i era omega rpom) rc2i era omega rpom = y.
Proof. intros y rc2i era omega rpom A B. split; [exact (states_inverse y rc2i era omega rpom A B)|exact (states_inverse_ter y rc2i era omega rpom A B)]. Qed.
Print Assumptions states_round_trip.
Example frames_case : orthogonal (turn_x 1) /\ direct (turn_x 1) /\ orthogonal (turn_z 2).
Proof. exact (conj (turn_x_orth 1) (conj (turn_x_direct 1) (turn_z_orth 2))). Qed.
(* C47: the terrestrial velocity is the time derivative of the terrestrial position while the Earth turns *)
Theorem terrestrial_velocity : forall r v era omega rc2i rpom s, vderiv r s (v s) -> derivable_pt_lim era s omega ->
  vderiv (fun t => rcel2ter (r t) rc2i (era t) rpom) s (st_v (ycel2ter (State (r s) (v s)) rc2i (era s) omega rpom)).
Proof. exact velocity_ter. Qed.
Print Assumptions terrestrial_velocity.
Example terrestrial_velocity_case : vderiv (fun t => vadd (V 7 0 0) (vscale t (V 0 1 2))) 0 ((fun _ => V 0 1 2) 0) /\ derivable_pt_lim (fun t => t) 0 1.
Proof. split; [apply vderiv_line|apply deriv_id]. Qed.
(* C47: a point resting on the Earth moves eastwards about the pole of date *)
Theorem earth_fixed_point : forall r era omega rc2i rpom, orthogonal rc2i -> direct rc2i -> orthogonal rpom ->
  let y := yter2cel (State r vzero) rc2i era omega rpom in
  st_v y = cross (vscale omega (mulv (transpose rc2i) unit_z)) (st_r y).
Proof. exact at_rest. Qed.
Print Assumptions earth_fixed_point.
(* C47: the length of day slows the rotation, by xlod seconds in one day *)
Theorem rotation_rate : forall omega0 xlod, OmegaEarth omega0 xlod * 86400 = omega0 * (86400 - xlod).
Proof. exact rate_lod. Qed.
Print Assumptions rotation_rate.
