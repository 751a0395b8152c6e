From Coq Require Import List ZArith Reals Lra Lia Arith.
From Coquelicot Require Import Coquelicot.
From Verif Require Import Base Calc Spline_model Spline_proofs.
Local Open Scope R_scope.

(* C53: for every table of at least three nodes and every abscissa the search ends at the interval of the abscissa and the value is the cubic of that interval *)
Theorem splint_interval : forall xa ya y2a n x, nodes xa n -> room ya n -> room y2a n -> (3 <= n)%nat \/ (n = 2%nat /\ a_val xa 0 <= x) ->
  exists k, located (a_val xa) n k x /\ splint xa ya y2a n x = Ok (Some (piece (a_val xa) (a_val ya) (a_val y2a) k x)).
Proof. exact splint_piece. Qed.
Print Assumptions splint_interval.
Example splint_interval_example : nodes ex_nodes 4 /\ room ex_vals 4 /\ located (a_val ex_nodes) 4 1 2.
Proof. split; [exact ex_nodes_ok|]. split; [unfold room; cbn; lia|]. split; [lia|]. cbn [a_val ex_nodes INR]. split; [right; lra|right; lra]. Qed.
(* C53: there is only one such interval *)
Theorem splint_interval_unique : forall xa n t j k, nodes xa n -> located (a_val xa) n j t -> located (a_val xa) n k t -> j = k.
Proof. exact located_unique. Qed.
Print Assumptions splint_interval_unique.
(* C53: at each node the tabulated value is returned, exactly *)
Theorem splint_at_nodes : forall xa ya y2a n i, nodes xa n -> room ya n -> room y2a n -> (2 <= n)%nat -> (i < n)%nat -> splint xa ya y2a n (a_val xa i) = Ok (Some (a_val ya i)).
Proof. exact splint_node. Qed.
Print Assumptions splint_at_nodes.
(* C53: with two nodes an abscissa below the first one gives 1e-30 and not the value of the cubic *)
Theorem splint_two_nodes_refuted : exists xa ya y2a x v, nodes xa 2 /\ room ya 2 /\ room y2a 2 /\ splint xa ya y2a 2 x = Ok (Some v) /\ v <> piece (a_val xa) (a_val ya) (a_val y2a) 0 x.
Proof. exact two_nodes_wrong. Qed.
Print Assumptions splint_two_nodes_refuted.
(* C53: splini is the integral of the function splint computes, from the first node to x *)
Theorem splini_is_integral : forall xa ya y2a n x f, nodes xa n -> room ya n -> room y2a n -> (3 <= n)%nat \/ (n = 2%nat /\ a_val xa 0 <= x) ->
  (forall t, Rmin (a_val xa 0) x < t < Rmax (a_val xa 0) x -> splint xa ya y2a n t = Ok (Some (f t))) ->
  exists v, splini xa ya y2a n x = Ok (Some v) /\ is_RInt f (a_val xa 0) x v.
Proof. exact splini_integral. Qed.
Print Assumptions splini_is_integral.
(* C53: spline always returns *)
Theorem spline_total : forall x y n yp1 ypn y2 work, nodes x n -> room y n -> (2 <= n)%nat -> room y2 n -> room work n -> exists y2' u', spline x y n yp1 ypn y2 work = Ok (y2', u') /\ room y2' n.
Proof. exact spline_defined. Qed.
Print Assumptions spline_total.
(* C53: and splint with what it returned is a twice continuously differentiable function through all nodes, with the slopes asked for at the ends, or no curvature there when the slope passed is above 0.99e30 *)
Theorem spline_is_smooth : forall x y n yp1 ypn y2 work f, nodes x n -> room y n -> (3 <= n)%nat -> room y2 n -> room work n ->
  forall y2' u', spline x y n yp1 ypn y2 work = Ok (y2', u') -> (forall t, splint x y y2' n t = Ok (Some (f t))) ->
  exists f' f'', (forall t, derivable_pt_lim f t (f' t)) /\ (forall t, derivable_pt_lim f' t (f'' t)) /\ continuity f'' /\ (forall i, (i < n)%nat -> f (a_val x i) = a_val y i) /\
    (huge < yp1 -> f'' (a_val x 0) = 0) /\ (yp1 <= huge -> f' (a_val x 0) = yp1) /\ (huge < ypn -> f'' (a_val x (n - 1)) = 0) /\ (ypn <= huge -> f' (a_val x (n - 1)) = ypn).
Proof. exact spline_smooth. Qed.
Print Assumptions spline_is_smooth.
Example spline_is_smooth_example : exists y2' u' f, spline ex_nodes ex_vals 4 1 huge (Arr 4 (fun _ => 7)) (Arr 5 (fun _ => 8)) = Ok (y2', u') /\ forall t, splint ex_nodes ex_vals y2' 4 t = Ok (Some (f t)).
Proof.
  destruct (spline_defined ex_nodes ex_vals 4 1 huge (Arr 4 (fun _ => 7)) (Arr 5 (fun _ => 8)) ex_nodes_ok) as (a & b & E & R); try (unfold room; cbn; lia).
  destruct (splint_defined ex_nodes ex_vals a 4 ex_nodes_ok) as [f F]; [unfold room; cbn; lia|exact R|lia|]. exists a, b, f. split; [exact E|exact F].
Qed.
