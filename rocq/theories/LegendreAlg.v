(* The algebra behind the recursions of Legendre.v. *)
From Coq Require Import Reals Nsatz.
Local Open Scope R_scope.
Lemma alg_bonnet n u X P Q X1 P1 Q1 : Q1 = u * P1 - (n - 0 + 1) * P -> P1 = u * X1 - (n + 1 - 0 + 1) * X -> X1 = u * P1 + (n + 1 + 0 + 1) * P -> P1 = u * Q1 + (n + 0 + 1) * Q ->
  (n + 2) * X = (2 * n + 3) * u * P - (n + 1) * Q.
Proof. intros. nsatz. Qed.
Lemma alg_rec n k u X P Q Y : X = (2 * n + 3) * Y + Q -> X = u * P + (n + 1 + k + 1) * Y -> (n + 2 - (k + 1)) * X = (2 * n + 3) * u * P - (n + (k + 1) + 1) * Q.
Proof. intros. nsatz. Qed.
Lemma alg_slope0 n u P P1 X X1 : P1 = u * X1 - (n - 0 + 1) * X -> X1 = u * P1 + (n + 0 + 1) * P -> (n + 0 + 1) * u * P - (1 - u * u) * P1 = (n - 0 + 1) * X.
Proof. intros. nsatz. Qed.
Lemma alg_slope n k u L0 L1 L2 X : (n + k + 1) * L0 + (n + k + 1) * u * L1 + 2 * u * L1 - (1 - u * u) * L2 = (n - k + 1) * X -> X = u * L1 + (n + k + 1) * L0 ->
  (n + (k + 1) + 1) * u * L1 - (1 - u * u) * L2 = (n - (k + 1) + 1) * X.
Proof. intros. nsatz. Qed.
Lemma alg_two n k u L1 X0 X1 X2 Y : (n + 1 + (k + 1) + 1) * u * X1 - (1 - u * u) * X2 = (n + 1 - (k + 1) + 1) * Y -> L1 = u * X1 - (n - k + 1) * X0 -> Y = u * X1 + (n + 1 + k + 1) * X0 ->
  2 * (k + 1) * L1 = (1 - u * u) * X2 + (n - k + 1) * (n - k) * X0.
Proof. intros. nsatz. Qed.
