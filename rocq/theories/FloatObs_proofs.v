(* Proofs for FloatObs_model.v. *)
From Coq Require Import ZArith Reals Lia Lra Psatz.
From Flocq Require Import Core IEEE754.BinarySingleNaN IEEE754.Binary IEEE754.Bits.
From Verif Require Import FloatTime_model FloatTime_proofs FloatAngle_model FloatAngle_proofs FloatKalman_proofs FloatRel_model FloatRel_proofs FloatObs_model.
Local Open Scope R_scope.

(* a double that stands for X, no farther than a, where X is no larger than A *)
Definition about (x : double) (X a A : R) : Prop := finite x /\ Rabs (val x - X) <= a /\ Rabs X <= A.
Notation room := 1152921504606846976.
Lemma in_room x c : Rabs x <= c -> c <= room -> Rabs x <= pow2 60.
Proof. change (pow2 60) with room. lra. Qed.
Lemma about_self x A : finite x -> Rabs (val x) <= A -> about x (val x) 0 A.
Proof. intros F B. split; [exact F|]. split; [|exact B]. rewrite Rminus_diag_eq by reflexivity. rewrite Rabs_R0. lra. Qed.
Lemma about_weaken x X a A a' A' : about x X a A -> a <= a' -> A <= A' -> about x X a' A'.
Proof. intros (F & E & S) L1 L2. split; [exact F|]. split; lra. Qed.
Lemma about_add x y X Y a b A B : about x X a A -> about y Y b B -> A + B + (a + b) <= room -> about (dadd x y) (X + Y) (a + b + u * (A + B + (a + b)) + tiny) (A + B).
Proof.
  intros (F1 & E1 & S1) (F2 & E2 & S2) L. assert (D : Rabs (val x + val y - (X + Y)) <= a + b) by (apply Rabs_le_both in E1, E2; apply Rabs_le; lra).
  assert (S : Rabs (X + Y) <= A + B) by (refine (Rle_trans _ _ _ (Rabs_triang _ _) _); lra). pose proof (near_size _ _ _ _ D S) as Z.
  destruct (add_ok x y 60 F1 F2 ltac:(lia) (in_room _ _ Z L)) as [F V]. split; [exact F|]. split; [|exact S]. rewrite V. apply rnd_step; assumption.
Qed.
Lemma about_sub x y X Y a b A B : about x X a A -> about y Y b B -> A + B + (a + b) <= room -> about (dsub x y) (X - Y) (a + b + u * (A + B + (a + b)) + tiny) (A + B).
Proof.
  intros (F1 & E1 & S1) (F2 & E2 & S2) L. assert (D : Rabs (val x - val y - (X - Y)) <= a + b) by (apply Rabs_le_both in E1, E2; apply Rabs_le; lra).
  assert (S : Rabs (X - Y) <= A + B) by (unfold Rminus; refine (Rle_trans _ _ _ (Rabs_triang _ _) _); rewrite Rabs_Ropp; lra). pose proof (near_size _ _ _ _ D S) as Z.
  destruct (sub_ok x y 60 F1 F2 ltac:(lia) (in_room _ _ Z L)) as [F V]. split; [exact F|]. split; [|exact S]. rewrite V. apply rnd_step; assumption.
Qed.
Lemma about_mul x y X Y a b A B : about x X a A -> about y Y b B -> A * B + (a * (B + b) + A * b) <= room ->
  about (dmul x y) (X * Y) (a * (B + b) + A * b + u * (A * B + (a * (B + b) + A * b)) + tiny) (A * B).
Proof.
  intros (F1 & E1 & S1) (F2 & E2 & S2) L. pose proof (near_size _ _ _ _ E2 S2) as Sy. pose proof (prod_near _ _ _ _ _ _ _ _ E1 E2 S1 Sy) as D.
  assert (S : Rabs (X * Y) <= A * B) by (rewrite Rabs_mult; apply Rmult_le_compat; (apply Rabs_pos || assumption)). pose proof (near_size _ _ _ _ D S) as Z.
  destruct (mul_ok x y 60 F1 F2 ltac:(lia) (in_room _ _ Z L)) as [F V]. split; [exact F|]. split; [|exact S]. rewrite V. apply rnd_step; assumption.
Qed.
(* division by a double that is at least m *)
Lemma about_div x y X a A m : about x X a A -> finite y -> 0 < m <= val y -> A / m + a / m <= room ->
  about (ddiv x y) (X / val y) (a / m + u * (A / m + a / m) + tiny) (A / m).
Proof.
  intros (F1 & E1 & S1) F2 M L. assert (I : 0 < / val y <= / m) by (split; [apply Rinv_0_lt_compat; lra|apply Rinv_le_contravar; lra]).
  assert (H : forall t T, Rabs t <= T -> Rabs (t / val y) <= T / m).
  { intros t T B. unfold Rdiv. rewrite Rabs_mult, (Rabs_pos_eq (/ val y)) by lra. apply Rmult_le_compat; try apply Rabs_pos; lra. }
  assert (D : Rabs (val x / val y - X / val y) <= a / m) by (replace (val x / val y - X / val y) with ((val x - X) / val y) by (field; lra); apply H; exact E1).
  pose proof (H _ _ S1) as S. pose proof (near_size _ _ _ _ D S) as Z. assert (NZ : val y <> 0) by lra.
  destruct (div_ok x y 60 F1 NZ ltac:(lia) (in_room _ _ Z L)) as [F V]. split; [exact F|]. split; [|exact S]. rewrite V. apply rnd_step; assumption.
Qed.

Section Rate.
Variables (feN frT Dtau : double) (p o : obs).
Hypothesis Ff : finite feN /\ 1000000000 <= val feN <= 4000000000.
Hypothesis Fr : finite frT /\ 1000000000 <= val frT <= 4000000000.
Hypothesis Ft : finite Dtau /\ 1 <= val Dtau.
Definition usable (x : obs) : Prop := (finite (o_L1 x) /\ Rabs (val (o_L1 x)) <= 1000000000) /\ (finite (o_iono x) /\ Rabs (val (o_iono x)) <= 1000000000) /\ (finite (o_rel x) /\ Rabs (val (o_rel x)) <= 1000).
Hypothesis Up : usable p.
Hypothesis Uo : usable o.
Notation G := 1000000000.
Lemma ndop_about : about (NdopDt Dtau p o) ((val (o_L1 o) - val (o_L1 p)) / val Dtau) (401 / 100 * G * u) (2 * G).
Proof.
  destruct Up as ((F1 & B1) & _). destruct Uo as ((F2 & B2) & _). destruct Ft as [F3 B3].
  pose proof (about_sub _ _ _ _ _ _ _ _ (about_self _ _ F2 B2) (about_self _ _ F1 B1) ltac:(lra)) as S.
  assert (S' : about (dsub (o_L1 o) (o_L1 p)) (val (o_L1 o) - val (o_L1 p)) (2001 / 1000 * G * u) (2 * G)) by (apply (about_weaken _ _ _ _ _ _ S); lra).
  refine (about_weaken _ _ _ _ _ _ (about_div _ _ _ _ _ 1 S' F3 ltac:(lra) ltac:(lra)) _ _); lra.
Qed.
Lemma wave_about : about (ddiv light feN) (299792458 / val feN) (31 / 100 * u) (3 / 10).
Proof.
  destruct light_ok as [FL VL]. destruct Ff as [F B]. assert (A : about light 299792458 0 299792458) by (rewrite <- VL at 1; apply about_self; [exact FL|]; rewrite VL, Rabs_pos_eq; lra).
  refine (about_weaken _ _ _ _ _ _ (about_div _ _ _ _ _ G A F ltac:(lra) ltac:(lra)) _ _); lra.
Qed.
Lemma dion_about : about (Dion feN Dtau p o) (299792458 / val feN * (val (o_iono o) - val (o_iono p)) / val Dtau) (245 / 100 * G * u) (6 / 10 * G).
Proof.
  destruct Up as (_ & (F1 & B1) & _). destruct Uo as (_ & (F2 & B2) & _). destruct Ft as [F3 B3].
  pose proof (about_sub _ _ _ _ _ _ _ _ (about_self _ _ F2 B2) (about_self _ _ F1 B1) ltac:(lra)) as S.
  assert (S' : about (dsub (o_iono o) (o_iono p)) (val (o_iono o) - val (o_iono p)) (2001 / 1000 * G * u) (2 * G)) by (apply (about_weaken _ _ _ _ _ _ S); lra).
  pose proof (about_mul _ _ _ _ _ _ _ _ wave_about S' ltac:(lra)) as M. assert (M' : about (dmul (ddiv light feN) (dsub (o_iono o) (o_iono p))) (299792458 / val feN * (val (o_iono o) - val (o_iono p))) (184 / 100 * G * u) (6 / 10 * G)) by (apply (about_weaken _ _ _ _ _ _ M); lra).
  refine (about_weaken _ _ _ _ _ _ (about_div _ _ _ _ _ 1 M' F3 ltac:(lra) ltac:(lra)) _ _); lra.
Qed.
Lemma drel_about : about (Drel Dtau p o) ((val (o_rel o) - val (o_rel p)) / val Dtau) (5000 * u) 2000.
Proof.
  destruct Up as (_ & _ & (F1 & B1)). destruct Uo as (_ & _ & (F2 & B2)). destruct Ft as [F3 B3].
  pose proof (about_sub _ _ _ _ _ _ _ _ (about_self _ _ F2 B2) (about_self _ _ F1 B1) ltac:(lra)) as S.
  assert (S' : about (dsub (o_rel o) (o_rel p)) (val (o_rel o) - val (o_rel p)) (2001 * u) 2000) by (apply (about_weaken _ _ _ _ _ _ S); lra).
  refine (about_weaken _ _ _ _ _ _ (about_div _ _ _ _ _ 1 S' F3 ltac:(lra) ltac:(lra)) _ _); lra.
Qed.
Lemma uobs_about : about (Uobs feN frT Dtau p o)
  (299792458 / val feN * (val feN - val frT - (val (o_L1 o) - val (o_L1 p)) / val Dtau) + 299792458 / val feN * (val (o_iono o) - val (o_iono p)) / val Dtau + (val (o_rel o) - val (o_rel p)) / val Dtau)
  (18 * G * u) (211 / 100 * G).
Proof.
  destruct Ff as [F1 B1]. destruct Fr as [F2 B2].
  assert (A1 : about feN (val feN) 0 (4 * G)) by (apply about_self; [exact F1|]; rewrite Rabs_pos_eq; lra). assert (A2 : about frT (val frT) 0 (4 * G)) by (apply about_self; [exact F2|]; rewrite Rabs_pos_eq; lra).
  pose proof (about_sub _ _ _ _ _ _ _ _ A1 A2 ltac:(lra)) as S. destruct S as (FS & ES & _).
  assert (D3 : Rabs (val feN - val frT) <= 3 * G) by (apply Rabs_le; lra). assert (V : val (dsub feN frT) = rnd (val feN - val frT)) by (apply (proj2 (sub_ok feN frT 60 F1 F2 ltac:(lia) (in_room _ _ D3 ltac:(lra))))).
  assert (S' : about (dsub feN frT) (val feN - val frT) (3001 / 1000 * G * u) (3 * G)).
  { split; [exact FS|]. split; [|exact D3]. rewrite V. pose proof (FloatAngle_proofs.rnd_near (val feN - val frT)) as R. lra. }
  pose proof (about_sub _ _ _ _ _ _ _ _ S' ndop_about ltac:(lra)) as T.
  assert (T' : about (dsub (dsub feN frT) (NdopDt Dtau p o)) (val feN - val frT - (val (o_L1 o) - val (o_L1 p)) / val Dtau) (1203 / 100 * G * u) (5 * G)) by (apply (about_weaken _ _ _ _ _ _ T); lra).
  pose proof (about_mul _ _ _ _ _ _ _ _ wave_about T' ltac:(lra)) as M.
  assert (M' : about (dmul (ddiv light feN) (dsub (dsub feN frT) (NdopDt Dtau p o))) (299792458 / val feN * (val feN - val frT - (val (o_L1 o) - val (o_L1 p)) / val Dtau)) (67 / 10 * G * u) (3 / 2 * G)) by (apply (about_weaken _ _ _ _ _ _ M); lra).
  pose proof (about_add _ _ _ _ _ _ _ _ M' dion_about ltac:(lra)) as N. refine (about_weaken _ _ _ _ _ _ (about_add _ _ _ _ _ _ _ _ N drel_about _) _ _); lra.
Qed.
End Rate.
Lemma div_zero x s : is_finite 53 1024 (ddiv x (B754_zero 53 1024 s)) = false.
Proof. destruct x; reflexivity. Qed.
Lemma no_time feN frT s p o : is_finite 53 1024 (Uobs feN frT (B754_zero 53 1024 s) p o) = false.
Proof.
  destruct (is_finite 53 1024 (Uobs feN frT (B754_zero 53 1024 s) p o)) eqn:E; [|reflexivity]. unfold Uobs in E. destruct (FloatKalman_proofs.add_fin _ _ E) as (_ & F & _).
  unfold Drel in F. rewrite div_zero in F. discriminate F.
Qed.
(* ---- the theoretical value ---- *)
Definition small (b : R) (x : double) : Prop := finite x /\ Rabs (val x) <= b.
Definition weather (d : tropo) : Prop := small 10 (t_Lhz d) /\ small 100 (t_mfh d) /\ small 100 (t_mfw d).
Notation delay d w := (val (t_Lhz d) * val (t_mfh d) + w * val (t_mfw d)).
Lemma small_about b x : small b x -> about x (val x) 0 b.
Proof. intros [F B]. now apply about_self. Qed.
Lemma norm_about v : bounded 24 v -> 1 <= exact_square v -> about (norm v) (exact_norm v) (210000000 * u) 33554432.
Proof.
  intros B Q. destruct (norm_ok 24 v ltac:(lia) B) as (F & _). pose proof (norm_near 24 v ltac:(lia) B Q) as E.
  assert (N : 0 <= exact_norm v <= 33554432).
  { destruct B as ((_ & B1) & (_ & B2) & (_ & B3)). apply square_pow in B1, B2, B3. change (pow2 (24 + 24)) with 281474976710656 in *. unfold exact_norm. unfold exact_square in *. apply sqrt_between; lra. }
  split; [exact F|]. split; [lra|]. rewrite Rabs_pos_eq; lra.
Qed.
Section Theory.
Variables (feN frT Dtau : double) (p o : obs) (sp so : dvec) (tp to : tropo) (cWzd DfefeN : double).
Hypothesis Ff : finite feN /\ 1000000000 <= val feN <= 4000000000.
Hypothesis Fr : finite frT /\ 1000000000 <= val frT <= 4000000000.
Hypothesis Ft : finite Dtau /\ 1 <= val Dtau.
Hypothesis Up : usable p.
Hypothesis Uo : usable o.
Hypothesis Sp : bounded 24 sp /\ 1 <= exact_square sp.
Hypothesis So : bounded 24 so /\ 1 <= exact_square so.
Hypothesis Tp : weather tp.
Hypothesis To : weather to.
Hypothesis Ww : small 10 cWzd.
Hypothesis Fd : small (1 / 1000) DfefeN.
Notation G := 1000000000.
Lemma tropo_about d : weather d -> about (tropo_sum d cWzd) (delay d (val cWzd)) (4100 * u) 2000.
Proof.
  intros (A & B & C). pose proof (about_mul _ _ _ _ _ _ _ _ (small_about _ _ A) (small_about _ _ B) ltac:(lra)) as M1. pose proof (about_mul _ _ _ _ _ _ _ _ (small_about _ _ Ww) (small_about _ _ C) ltac:(lra)) as M2.
  refine (about_weaken _ _ _ _ _ _ (about_add _ _ _ _ _ _ _ _ M1 M2 ltac:(lra)) _ _); lra.
Qed.
Lemma dtropo_about : about (Dtropo Dtau cWzd tp to) ((delay to (val cWzd) - delay tp (val cWzd)) / val Dtau) (20000 * u) 4000.
Proof.
  destruct Ft as [F3 B3]. pose proof (about_sub _ _ _ _ _ _ _ _ (tropo_about to To) (tropo_about tp Tp) ltac:(lra)) as S.
  refine (about_weaken _ _ _ _ _ _ (about_div _ _ _ _ _ 1 S F3 ltac:(lra) ltac:(lra)) _ _); lra.
Qed.
Lemma utheo_about : about (Utheo feN frT Dtau p o sp so tp to cWzd DfefeN)
  (1 / val Dtau * (exact_norm so - exact_norm sp) + (delay to (val cWzd) - delay tp (val cWzd)) / val Dtau -
   299792458 / val feN * ((val (o_L1 o) - val (o_L1 p)) / val Dtau + val frT) * val DfefeN) (9 / 10 * G * u) 72000000.
Proof.
  destruct Ft as [F3 B3]. destruct Fr as [F2 B2]. destruct one_ok as [F1 V1].
  assert (A1 : about one 1 0 1) by (rewrite <- V1 at 1; apply about_self; [exact F1|]; rewrite V1, Rabs_pos_eq; lra).
  pose proof (about_div _ _ _ _ _ 1 A1 F3 ltac:(lra) ltac:(lra)) as I. assert (I' : about (ddiv one Dtau) (1 / val Dtau) (11 / 10 * u) 1) by (apply (about_weaken _ _ _ _ _ _ I); lra).
  pose proof (about_sub _ _ _ _ _ _ _ _ (norm_about so (proj1 So) (proj2 So)) (norm_about sp (proj1 Sp) (proj2 Sp)) ltac:(lra)) as R.
  assert (R' : about (dsub (norm so) (norm sp)) (exact_norm so - exact_norm sp) (490000000 * u) 67108864) by (apply (about_weaken _ _ _ _ _ _ R); lra).
  pose proof (about_mul _ _ _ _ _ _ _ _ I' R' ltac:(lra)) as M. assert (M' : about (dmul (ddiv one Dtau) (dsub (norm so) (norm sp))) (1 / val Dtau * (exact_norm so - exact_norm sp)) (640000000 * u) 67108864) by (apply (about_weaken _ _ _ _ _ _ M); lra).
  pose proof (about_add _ _ _ _ _ _ _ _ M' dtropo_about ltac:(lra)) as S1.
  assert (S1' : about (dadd (dmul (ddiv one Dtau) (dsub (norm so) (norm sp))) (Dtropo Dtau cWzd tp to)) (1 / val Dtau * (exact_norm so - exact_norm sp) + (delay to (val cWzd) - delay tp (val cWzd)) / val Dtau) (710000000 * u) 67113000) by (apply (about_weaken _ _ _ _ _ _ S1); lra).
  assert (A2 : about frT (val frT) 0 (4 * G)) by (apply about_self; [exact F2|]; rewrite Rabs_pos_eq; lra).
  pose proof (about_add _ _ _ _ _ _ _ _ (ndop_about Dtau p o Ft Up Uo) A2 ltac:(lra)) as S2.
  assert (S2' : about (dadd (NdopDt Dtau p o) frT) ((val (o_L1 o) - val (o_L1 p)) / val Dtau + val frT) (1002 / 100 * G * u) (6 * G)) by (apply (about_weaken _ _ _ _ _ _ S2); lra).
  pose proof (about_mul _ _ _ _ _ _ _ _ (wave_about feN Ff) S2' ltac:(lra)) as M2.
  assert (M2' : about (dmul (ddiv light feN) (dadd (NdopDt Dtau p o) frT)) (299792458 / val feN * ((val (o_L1 o) - val (o_L1 p)) / val Dtau + val frT)) (7 * G * u) (9 / 5 * G)) by (apply (about_weaken _ _ _ _ _ _ M2); lra).
  pose proof (about_mul _ _ _ _ _ _ _ _ M2' (small_about _ _ Fd) ltac:(lra)) as M3.
  assert (M3' : about (dmul (dmul (ddiv light feN) (dadd (NdopDt Dtau p o) frT)) DfefeN) (299792458 / val feN * ((val (o_L1 o) - val (o_L1 p)) / val Dtau + val frT) * val DfefeN) (9000000 * u) 1800000) by (apply (about_weaken _ _ _ _ _ _ M3); lra).
  refine (about_weaken _ _ _ _ _ _ (about_sub _ _ _ _ _ _ _ _ S1' M3' ltac:(lra)) _ _); lra.
Qed.
End Theory.
