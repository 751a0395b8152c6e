From Coq Require Import Reals Lra Nsatz.
From Verif Require Import Vec_model.
Local Open Scope R_scope.

Lemma vec_eq a b : vx a = vx b -> vy a = vy b -> vz a = vz b -> a = b.
Proof. destruct a as [a1 a2 a3], b as [b1 b2 b3]. cbn [vx vy vz]. intros -> -> ->. reflexivity. Qed.
Lemma mat_eq a b : row0 a = row0 b -> row1 a = row1 b -> row2 a = row2 b -> a = b.
Proof. destruct a as [a1 a2 a3], b as [b1 b2 b3]. cbn [row0 row1 row2]. intros -> -> ->. reflexivity. Qed.
Ltac vec_unfold := unfold madd, msub, mscale, outer, mulm, mulv, vadd, vsub, vscale, vzero, unit_z, cross, dot, col0, col1, col2, transpose, identity, turn_z, turn_x, mat9 in *;
  cbn [vx vy vz row0 row1 row2] in *.
Ltac vec_ring := intros; vec_unfold; repeat (apply mat_eq || apply vec_eq); cbn [vx vy vz row0 row1 row2]; try ring.

Lemma dot_sym a b : dot a b = dot b a. Proof. vec_ring. Qed.
Lemma dot_nonneg a : 0 <= dot a a.
Proof. unfold dot. pose proof (Rle_0_sqr (vx a)). pose proof (Rle_0_sqr (vy a)). pose proof (Rle_0_sqr (vz a)). unfold Rsqr in *. lra. Qed.
Lemma norm_nonneg a : 0 <= norm a. Proof. apply sqrt_pos. Qed.
Lemma norm_sqr a : norm a * norm a = dot a a. Proof. apply sqrt_sqrt, dot_nonneg. Qed.
Lemma norm_unique a x : 0 <= x -> x * x = dot a a -> norm a = x.
Proof. intros P E. unfold norm. rewrite <- E. apply sqrt_square. exact P. Qed.
Lemma dot_zero a : dot a a = 0 -> a = vzero.
Proof.
  unfold dot. intros E. pose proof (Rle_0_sqr (vx a)). pose proof (Rle_0_sqr (vy a)). pose proof (Rle_0_sqr (vz a)). unfold Rsqr in *.
  apply vec_eq; cbn [vzero vx vy vz]; apply Rsqr_0_uniq; unfold Rsqr; lra.
Qed.
Lemma norm_zero a : norm a = 0 -> a = vzero.
Proof. intros E. apply dot_zero. rewrite <- norm_sqr, E. ring. Qed.
Lemma norm_pos a : a <> vzero -> 0 < norm a.
Proof. intros N. destruct (norm_nonneg a) as [P|E]; [exact P|]. exfalso. apply N, norm_zero. symmetry. exact E. Qed.
Lemma cross_dot a b : dot (cross a b) (cross a b) = dot a a * dot b b - dot a b * dot a b.
Proof. vec_ring. Qed.
Lemma cross_orth1 a b : dot a (cross a b) = 0. Proof. vec_ring. Qed.
Lemma cross_orth2 a b : dot b (cross a b) = 0. Proof. vec_ring. Qed.
Lemma mulv_mulm m n a : mulv (mulm m n) a = mulv m (mulv n a). Proof. vec_ring. Qed.
Lemma mulv_add m a b : mulv m (vadd a b) = vadd (mulv m a) (mulv m b). Proof. vec_ring. Qed.
Lemma mulv_sub m a b : mulv m (vsub a b) = vsub (mulv m a) (mulv m b). Proof. vec_ring. Qed.
Lemma mulv_scale m k a : mulv m (vscale k a) = vscale k (mulv m a). Proof. vec_ring. Qed.
Lemma transpose_mulm m n : transpose (mulm m n) = mulm (transpose n) (transpose m). Proof. vec_ring. Qed.
Lemma transpose_invol m : transpose (transpose m) = m. Proof. vec_ring. Qed.
Lemma mulv_identity a : mulv identity a = a. Proof. vec_ring. Qed.
Lemma mulm_assoc a b c : mulm (mulm a b) c = mulm a (mulm b c). Proof. vec_ring. Qed.
Lemma mulm_identity_r m : mulm m identity = m. Proof. vec_ring. Qed.
Lemma mulm_identity_l m : mulm identity m = m. Proof. vec_ring. Qed.
Lemma dot_mulv m a b : dot (mulv m a) b = dot a (mulv (transpose m) b). Proof. vec_ring. Qed.
Lemma vscale_vscale j k a : vscale j (vscale k a) = vscale (j * k) a. Proof. vec_ring. Qed.

(* rotations *)
Definition orthogonal (m : mat) : Prop := mulm (transpose m) m = identity.
(* keeps the orientation of cross products *)
Definition direct (m : mat) : Prop := forall a b, cross (mulv m a) (mulv m b) = mulv m (cross a b).
Lemma orth_dot m a b : orthogonal m -> dot (mulv m a) (mulv m b) = dot a b.
Proof. intros O. rewrite dot_mulv, <- mulv_mulm. red in O. rewrite O, mulv_identity. reflexivity. Qed.
Lemma orth_norm m a : orthogonal m -> norm (mulv m a) = norm a.
Proof. intros O. unfold norm. rewrite orth_dot by exact O. reflexivity. Qed.
Lemma orth_back m a : orthogonal m -> mulv (transpose m) (mulv m a) = a.
Proof. intros O. rewrite <- mulv_mulm. red in O. rewrite O. apply mulv_identity. Qed.
Lemma orth_mulm m n : orthogonal m -> orthogonal n -> orthogonal (mulm m n).
Proof. unfold orthogonal. intros A B. rewrite transpose_mulm, mulm_assoc, <- (mulm_assoc (transpose m)), A, mulm_identity_l. exact B. Qed.
Lemma direct_mulm m n : direct m -> direct n -> direct (mulm m n).
Proof. unfold direct. intros A B a b. rewrite !mulv_mulm, A, B. reflexivity. Qed.

Lemma cos2_sin2 t : cos t * cos t = 1 - sin t * sin t.
Proof. pose proof (sin2_cos2 t) as H. unfold Rsqr in H. lra. Qed.
Lemma turn_z_orth t : orthogonal (turn_z t).
Proof. red. pose proof (cos2_sin2 t) as H. vec_ring; ring [H]. Qed.
Lemma turn_x_orth t : orthogonal (turn_x t).
Proof. red. pose proof (cos2_sin2 t) as H. vec_ring; ring [H]. Qed.
Lemma turn_z_direct t : direct (turn_z t).
Proof. intros a b. pose proof (cos2_sin2 t) as H. vec_ring; ring [H]. Qed.
Lemma turn_x_direct t : direct (turn_x t).
Proof. intros a b. pose proof (cos2_sin2 t) as H. vec_ring; ring [H]. Qed.
(* the inverse of a square orthogonal matrix is its transpose from both sides *)
Lemma orth_rows m : orthogonal m -> orthogonal (transpose m).
Proof.
  unfold orthogonal. rewrite transpose_invol. intros O. destruct m as [[a b c] [d e f] [g h i]].
  vec_unfold. injection O as E1 E2 E3 E4 E5 E6 E7 E8 E9. 
  repeat apply mat_eq; cbn [row0 row1 row2]; apply vec_eq; cbn [vx vy vz]; nsatz.
Qed.
