From Coq Require Import List ZArith QArith Lia Bool Arith Lqa.
From Verif Require Import Base Eop_model Eop_proofs EopInterp_model.
Import ListNotations.
Local Open Scope Q_scope.

(* ---- specification ---- *)
(* Julian centuries since J2000 of a modified Julian date *)
Definition centuries (x : Q) : Q := (x - (515445 # 10)) / 36525.
(* the library routines are functions of the number given *)
Definition respects (L : iers) : Prop := forall a b, a == b -> rg_zont2 L a = rg_zont2 L b /\ pmut1_oceans L a = pmut1_oceans L b /\ pm_gravi L a = pm_gravi L b.
Definition zonal_dut L x : Q := fst (fst (rg_zont2 L (centuries x))).
Definition zonal_lod L x : Q := snd (fst (rg_zont2 L (centuries x))).
Definition zonal_omega L x : Q := snd (rg_zont2 L (centuries x)).
Definition ocean_x L x : Q := fst (fst (fst (pmut1_oceans L (centuries x)))).
Definition ocean_y L x : Q := snd (fst (fst (pmut1_oceans L (centuries x)))).
Definition ocean_dut L x : Q := snd (fst (pmut1_oceans L (centuries x))).
Definition ocean_lod L x : Q := snd (pmut1_oceans L (centuries x)).
Definition libration_x L x : Q := fst (pm_gravi L (centuries x)).
Definition libration_y L x : Q := snd (pm_gravi L (centuries x)).
(* a member or cell holds a number *)
Definition is (a : option Q) (v : Q) : Prop := exists w, a = Some w /\ w == v.
(* the contents of a table *)
Definition contents (t : table Q) (f : column -> nat -> option Q) : Prop := forall c i, (i < t_sz t)%nat -> t_get t c i = Ok (f c i).
Definition cells_of (t : table Q) (f : column -> nat -> option Q) (c : column) : list (option Q) := map (f c) (seq 0 (t_sz t)).
Definition interpolated : list column := [Xp; Yp; Ut1; Dx; Dy; Lod].

Lemma jc_ok x : jc2000 x == centuries x.
Proof. unfold jc2000, centuries. field. Qed.

Lemma read_ok t f c : contents t f -> forall n i, (i + n <= t_sz t)%nat -> read_cells t c i n = Ok (map (f c) (seq i n)).
Proof.
  intros C. induction n; intros i H; [reflexivity|]. cbn [read_cells seq map]. rewrite C by lia. cbn [obind]. rewrite IHn by lia. reflexivity.
Qed.
Lemma one_ok L t f x order c idx : contents t f -> one_column L t x order c idx = lagint L (cells_of t f Mjd) (cells_of t f c) x idx order.
Proof. intros C. unfold one_column. rewrite !(read_ok t f) by (try exact C; lia). reflexivity. Qed.

Definition succeeds (L : iers) (t : table Q) (f : column -> nat -> option Q) (x : Q) (order : Z) (val : column -> Q) : Prop :=
  forall c idx, In c interpolated -> exists idx', lagint L (cells_of t f Mjd) (cells_of t f c) x idx order = Ok (0%Z, Some (val c), idx').

Lemma lagrange_ok L t f x r order val : contents t f -> succeeds L t f x order val ->
  interpolate_lagrange L t x r order = Ok (0%Z, EopRec (Some x) (Some (val Xp)) (Some (val Yp)) (Some (val Ut1)) (Some (val Lod)) (Some (val Dx)) (Some (val Dy)) (r_omega r)).
Proof.
  intros C S. unfold interpolate_lagrange. rewrite !(one_ok L t f) by exact C. unfold interpolated, succeeds in S.
  destruct (S Xp (-1)%Z) as (i1 & E1); [cbn; tauto|]. rewrite E1. cbn [obind snd]. rewrite (one_ok L t f) by exact C. destruct (S Yp i1) as (i2 & E2); [cbn; tauto|]. rewrite E2. cbn [obind snd].
  rewrite (one_ok L t f) by exact C. destruct (S Ut1 i2) as (i3 & E3); [cbn; tauto|]. rewrite E3. cbn [obind snd].
  rewrite (one_ok L t f) by exact C. destruct (S Dx i3) as (i4 & E4); [cbn; tauto|]. rewrite E4. cbn [obind snd].
  rewrite (one_ok L t f) by exact C. destruct (S Dy i4) as (i5 & E5); [cbn; tauto|]. rewrite E5. cbn [obind snd].
  rewrite (one_ok L t f) by exact C. destruct (S Lod i5) as (i6 & E6); [cbn; tauto|]. rewrite E6. cbn [obind snd].
  rewrite (one_ok L t f) by exact C. destruct (S Dx i6) as (i7 & E7); [cbn; tauto|]. rewrite E7. cbn [obind snd].
  rewrite (one_ok L t f) by exact C. destruct (S Dy i7) as (i8 & E8); [cbn; tauto|]. rewrite E8. reflexivity.
Qed.

Lemma interpolate_ok L t f x r order val om : respects L -> contents t f -> succeeds L t f x order val -> r_omega r = Some om ->
  exists r', interpolate L t x r order = Ok (0%Z, r') /\ r_mjd r' = Some x /\
    is (r_xp r') (val Xp + ocean_x L x + libration_x L x) /\ is (r_yp r') (val Yp + ocean_y L x + libration_y L x) /\
    is (r_dut r') (val Ut1 + zonal_dut L x + ocean_dut L x) /\ is (r_lod r') (val Lod + zonal_lod L x + ocean_lod L x) /\
    is (r_dx r') (val Dx) /\ is (r_dy r') (val Dy) /\ is (r_omega r') (om + zonal_omega L x).
Proof.
  intros R C S O. unfold interpolate. rewrite (lagrange_ok L t f x r order val C S). cbn [obind snd r_dut r_lod r_omega r_xp r_yp r_dx r_dy]. rewrite O.
  unfold zonal_dut, zonal_lod, zonal_omega, ocean_x, ocean_y, ocean_dut, ocean_lod, libration_x, libration_y.
  destruct (R _ _ (jc_ok x)) as (-> & -> & ->). destruct (rg_zont2 L (centuries x)) as [[a b] c]. destruct (pmut1_oceans L (centuries x)) as [[[d e] g] h]. destruct (pm_gravi L (centuries x)) as [k l].
  cbn [plus_eq obind fst snd]. eexists. split; [reflexivity|]. cbn [r_mjd r_dut r_lod r_omega r_xp r_yp r_dx r_dy].
  split; [reflexivity|]. repeat split; (eexists; split; [reflexivity|]; try reflexivity; ring).
Qed.

(* a failure of the library is seen by interpolate_lagrange, not by interpolate *)
Lemma obind_inv {A B} (e : outcome A) (k : A -> outcome B) r : obind e k = Ok r -> exists a, e = Ok a /\ k a = Ok r.
Proof. destruct e as [a|]; [exists a; auto|discriminate]. Qed.
Lemma interpolate_code L t x r order s r' : interpolate L t x r order = Ok (s, r') -> s = 0%Z.
Proof.
  unfold interpolate. intros H. apply obind_inv in H. destruct H as (sr & _ & H). destruct (rg_zont2 L (jc2000 x)) as [[a b] c].
  repeat (apply obind_inv in H; destruct H as (? & _ & H); try (destruct (pmut1_oceans L (jc2000 x)) as [[[d e] g] h]); try (destruct (pm_gravi L (jc2000 x)) as [k l])).
  injection H as <- <-. reflexivity.
Qed.
Definition status_of (o : outcome (Z * option Q * Z)) : Z := match o with Ok (s, _, _) => s | UB => 0%Z end.
(* a library that reports failures with positive numbers *)
Definition sane (L : iers) : Prop := forall ms vs x idx order, (0 <= status_of (lagint L ms vs x idx order))%Z.
Lemma lagrange_status L t f x r order s r' : sane L -> contents t f -> interpolate_lagrange L t x r order = Ok (s, r') ->
  ((exists c, In c interpolated /\ forall idx, (status_of (lagint L (cells_of t f Mjd) (cells_of t f c) x idx order) <> 0)%Z) -> s = 1%Z /\ r_mjd r' = r_mjd r) /\
  (s = 0%Z -> r_mjd r' = Some x) /\ (s = 0%Z \/ s = 1%Z).
Proof.
  intros SA C H. unfold interpolate_lagrange in H.
  apply obind_inv in H; destruct H as ([[s1 v1] i1] & E1 & H). apply obind_inv in H; destruct H as ([[s2 v2] i2] & E2 & H). apply obind_inv in H; destruct H as ([[s3 v3] i3] & E3 & H).
  apply obind_inv in H; destruct H as ([[s4 v4] i4] & E4 & H). apply obind_inv in H; destruct H as ([[s5 v5] i5] & E5 & H). apply obind_inv in H; destruct H as ([[s6 v6] i6] & E6 & H).
  apply obind_inv in H; destruct H as ([[s7 v7] i7] & E7 & H). apply obind_inv in H; destruct H as ([[s8 v8] i8] & E8 & H). cbn [fst snd] in *.
  rewrite (one_ok L t f) in * by exact C.
  assert (P : forall c idx s v i, lagint L (cells_of t f Mjd) (cells_of t f c) x idx order = Ok (s, v, i) -> (0 <= s)%Z).
  { intros c idx s0 v i E. pose proof (SA (cells_of t f Mjd) (cells_of t f c) x idx order) as X. rewrite E in X. exact X. }
  pose proof (P _ _ _ _ _ E1). pose proof (P _ _ _ _ _ E2). pose proof (P _ _ _ _ _ E3). pose proof (P _ _ _ _ _ E4). pose proof (P _ _ _ _ _ E5). pose proof (P _ _ _ _ _ E6). pose proof (P _ _ _ _ _ E7). pose proof (P _ _ _ _ _ E8).
  destruct (Z.eqb_spec (s1 + s2 + s3 + s4 + s5 + s6 + s7 + s8) 0) as [Z0|Z0]; injection H as <- <-.
  - split; [|split; [reflexivity|left; reflexivity]]. intros (c & I & N). exfalso.
    assert (s1 = 0 /\ s2 = 0 /\ s3 = 0 /\ s4 = 0 /\ s5 = 0 /\ s6 = 0)%Z as (? & ? & ? & ? & ? & ?) by lia. subst.
    cbn in I. destruct I as [<-|[<-|[<-|[<-|[<-|[<-|[]]]]]]]; [apply (N (-1)%Z); rewrite E1|apply (N i1); rewrite E2|apply (N i2); rewrite E3|apply (N i3); rewrite E4|apply (N i4); rewrite E5|apply (N i5); rewrite E6]; reflexivity.
  - split; [intros _; split; reflexivity|]. split; [discriminate|right; reflexivity].
Qed.

(* ---- regularize ---- *)
Definition zonal L (c : column) (x : Q) : Q := match c with Ut1 => zonal_dut L x | Lod => zonal_lod L x | Omega => zonal_omega L x | _ => 0 end.
Definition tidal (c : column) : Prop := c = Ut1 \/ c = Lod \/ c = Omega.

Lemma minus_ok t cap f c i v d : holds Q t cap f -> (i < cap)%nat -> f c i = Some v ->
  exists t', minus_cell t c i d = Ok t' /\ t_sz t' = t_sz t /\ holds Q t' cap (a_put Q f c i (v - d)).
Proof.
  intros H I E. unfold minus_cell. rewrite (get_ok Q t cap f c i H I). cbn [obind]. rewrite E.
  destruct (set_holds Q t cap f c i (v - d) H I) as (t' & S & H'). exists t'. split; [exact S|]. split; [|exact H'].
  unfold t_set in S. destruct (t_arena t); [|discriminate]. destruct (load (t_base t) (col_nr c)); [|discriminate]. cbn [obind] in S. destruct (store c0 _ _); [|discriminate]. injection S as <-. reflexivity.
Qed.
Lemma put_same f c i (v : Q) : a_put Q f c i v c i = Some v.
Proof. unfold a_put. rewrite Nat.eqb_refl. destruct (col_eqb c c) eqn:E; [reflexivity|]. destruct c; discriminate. Qed.
Lemma put_other f c i (v : Q) c' i' : c <> c' \/ i <> i' -> a_put Q f c i v c' i' = f c' i'.
Proof.
  intros H. unfold a_put. destruct (col_eqb c c') eqn:E; [|reflexivity]. apply col_eqb_iff in E. subst. destruct (Nat.eqb_spec i i'); [|reflexivity]. subst. destruct H; congruence.
Qed.

Lemma regularize_from_ok L cap : respects L -> forall n i t f, holds Q t cap f -> (i + n <= cap)%nat ->
  (forall k, (i <= k < i + n)%nat -> f Mjd k <> None /\ f Ut1 k <> None /\ f Lod k <> None /\ f Omega k <> None) ->
  exists t' f', regularize_from L t i n = Ok t' /\ t_sz t' = t_sz t /\ holds Q t' cap f' /\
    (forall c k, ~ ((i <= k < i + n)%nat /\ tidal c) -> f' c k = f c k) /\
    (forall c k v m, (i <= k < i + n)%nat -> tidal c -> f c k = Some v -> f Mjd k = Some m -> is (f' c k) (v - zonal L c m)).
Proof.
  intros R. induction n; intros i t f H I D.
  - exists t, f. split; [reflexivity|]. split; [reflexivity|]. split; [exact H|]. split; [reflexivity|]. intros; lia.
  - destruct (D i) as (N1 & N2 & N3 & N4); [lia|]. destruct (f Mjd i) as [m|] eqn:EM; [|congruence]. destruct (f Ut1 i) as [u|] eqn:EU; [|congruence]. destruct (f Lod i) as [l|] eqn:EL; [|congruence]. destruct (f Omega i) as [o|] eqn:EO; [|congruence].
    cbn [regularize_from]. rewrite (get_ok Q t cap f Mjd i H) by lia. cbn [obind]. rewrite EM. destruct (R _ _ (jc_ok m)) as (ZE & _ & _). rewrite ZE.
    destruct (rg_zont2 L (centuries m)) as [[d1 d2] d3] eqn:EZ.
    destruct (minus_ok t cap f Ut1 i u d1 H) as (t1 & S1 & Z1 & H1); [lia|exact EU|]. rewrite S1. cbn [obind].
    destruct (minus_ok t1 cap _ Lod i l d2 H1) as (t2 & S2 & Z2 & H2); [lia|rewrite put_other by (left; discriminate); exact EL|]. rewrite S2. cbn [obind].
    destruct (minus_ok t2 cap _ Omega i o d3 H2) as (t3 & S3 & Z3 & H3); [lia|rewrite !put_other by (left; discriminate); exact EO|]. rewrite S3. cbn [obind].
    set (g := a_put Q (a_put Q (a_put Q f Ut1 i (u - d1)) Lod i (l - d2)) Omega i (o - d3)) in *.
    assert (G : forall c k, k <> i -> g c k = f c k) by (intros c k N; unfold g; rewrite !put_other by (right; congruence); reflexivity).
    assert (GN : forall c, ~ tidal c -> g c i = f c i). { intros c N. unfold g, tidal in *. rewrite !put_other; [reflexivity| | |]; left; intros <-; apply N; tauto. }
    destruct (IHn (S i) t3 g H3) as (t' & f' & RR & ZZ & HH & SAME & SUB); [lia| |].
    { intros k K. rewrite !G by lia. apply D. lia. }
    exists t', f'. split; [exact RR|]. split; [congruence|]. split; [exact HH|]. split.
    + intros c k N. assert (NN : ~ ((S i <= k < S i + n)%nat /\ tidal c)) by (intros [X Y]; apply N; split; [lia|exact Y]). rewrite (SAME c k NN).
      destruct (Nat.eq_dec k i) as [->|NE]; [|apply G; exact NE]. apply GN. intros T. apply N. split; [lia|exact T].
    + intros c k v mm K T FV FM. destruct (Nat.eq_dec k i) as [->|NE].
      * rewrite SAME by (intros [X _]; lia). assert (m = mm) by congruence. subst mm. unfold zonal, zonal_dut, zonal_lod, zonal_omega. rewrite EZ. cbn [fst snd]. unfold g.
        destruct T as [-> | [-> | ->]]; [rewrite !(put_other _ _ _ _ Ut1) by (left; discriminate)|rewrite (put_other _ Omega _ _ Lod) by (left; discriminate)|]; rewrite put_same; (eexists; split; [reflexivity|]); first [replace v with u by congruence; reflexivity|replace v with l by congruence; reflexivity|replace v with o by congruence; reflexivity].
      * apply SUB; [lia|exact T|rewrite G by exact NE; exact FV|rewrite G by exact NE; exact FM].
Qed.

Lemma built_holds t : built t -> exists f, holds Q t (t_cap t) f.
Proof.
  intros B. destruct (built_inv Q t B) as (BB & (a & A & LA) & _). exists (fun c i => match nth_error a (col_nr c * t_cap t + i) with Some v => v | None => None end).
  split; [reflexivity|]. split; [exact BB|]. exists a. split; [exact A|]. split; [exact LA|]. intros c i I.
  pose proof (addr_lt (t_cap t) c i I) as X. rewrite <- LA in X. destruct (nth_error a _) eqn:E; [reflexivity|]. apply nth_error_None in E. lia.
Qed.

Lemma regularize_ok L t f : respects L -> built t -> contents t f ->
  (forall i, (i < t_sz t)%nat -> f Mjd i <> None /\ f Ut1 i <> None /\ f Lod i <> None /\ f Omega i <> None) ->
  exists t' f', regularize L t = Ok t' /\ t_sz t' = t_sz t /\ contents t' f' /\
    forall c i v m, (i < t_sz t)%nat -> f c i = Some v -> f Mjd i = Some m -> is (f' c i) (v - zonal L c m).
Proof.
  intros R B C D. destruct (built_holds t B) as (g & H). destruct (built_inv Q t B) as (_ & _ & SZ).
  assert (GF : forall c i, (i < t_sz t)%nat -> g c i = f c i). { intros c i I. pose proof (C c i I) as X. rewrite (get_ok Q t _ g c i H) in X by lia. congruence. }
  destruct (regularize_from_ok L (t_cap t) R (t_sz t) 0 t g H) as (t' & f' & RR & ZZ & HH & SAME & SUB); [lia| |].
  { intros k K. rewrite !GF by lia. apply D. lia. }
  exists t', f'. split; [exact RR|]. split; [exact ZZ|]. split; [intros c i I; apply (get_ok Q t' (t_cap t)); [exact HH|lia]|].
  intros c i v m I FV FM.
  assert (TD : tidal c \/ ~ tidal c /\ zonal L c m == 0). { destruct c; cbn; unfold tidal; first [left; tauto|right; split; [intros [X|[X|X]]; discriminate|reflexivity]]. }
  destruct TD as [T|[T Z0]].
  - apply SUB; [lia|exact T|rewrite GF by exact I; exact FV|rewrite GF by exact I; exact FM].
  - rewrite SAME by (intros [_ X]; exact (T X)). rewrite GF by exact I. exists v. split; [exact FV|]. rewrite Z0. ring.
Qed.

(* ---- regularize, then interpolate at a date of the table ---- *)
Definition all_defined (l : list (option Q)) : Prop := Forall (fun o => o <> None) l.
Definition exact_at_nodes (L : iers) (order : Z) : Prop := forall ms vs i x y idx, all_defined ms -> all_defined vs -> length ms = length vs ->
  (forall j k a b, (j < k)%nat -> nth_error ms j = Some (Some a) -> nth_error ms k = Some (Some b) -> a < b) ->
  nth_error ms i = Some (Some x) -> nth_error vs i = Some (Some y) -> exists y' idx', lagint L ms vs x idx order = Ok (0%Z, Some y', idx') /\ y' == y /\ forall idx2, exists idx3, lagint L ms vs x idx2 order = Ok (0%Z, Some y', idx3).
Lemma nth_cells t f c i : (i < t_sz t)%nat -> nth_error (cells_of t f c) i = Some (f c i).
Proof.
  intros I. unfold cells_of. rewrite nth_error_map. rewrite (nth_error_nth' _ 0%nat) by (rewrite seq_length; exact I). rewrite seq_nth by exact I. reflexivity.
Qed.
Lemma cells_defined t f c : (forall i, (i < t_sz t)%nat -> f c i <> None) -> all_defined (cells_of t f c).
Proof. intros H. apply Forall_forall. intros o I. unfold cells_of in I. apply in_map_iff in I. destruct I as (k & <- & K). apply in_seq in K. apply H. lia. Qed.

Lemma round_trip L t f i order r om m xp yp dut lod dx dy : respects L -> exact_at_nodes L order -> built t -> contents t f ->
  (forall c k, (k < t_sz t)%nat -> f c k <> None) ->
  (forall j k a b, (j < k < t_sz t)%nat -> f Mjd j = Some a -> f Mjd k = Some b -> a < b) ->
  (i < t_sz t)%nat -> f Mjd i = Some m -> f Xp i = Some xp -> f Yp i = Some yp -> f Ut1 i = Some dut -> f Lod i = Some lod -> f Dx i = Some dx -> f Dy i = Some dy -> r_omega r = Some om ->
  exists t' r' m', regularize L t = Ok t' /\ t_get t' Mjd i = Ok (Some m') /\ m' == m /\ interpolate L t' m' r order = Ok (0%Z, r') /\
    is (r_xp r') (xp + ocean_x L m + libration_x L m) /\ is (r_yp r') (yp + ocean_y L m + libration_y L m) /\
    is (r_dut r') (dut + ocean_dut L m) /\ is (r_lod r') (lod + ocean_lod L m) /\ is (r_dx r') dx /\ is (r_dy r') dy.
Proof.
  intros R X B C D MO I EM EX EY EU EL EDX EDY EO.
  destruct (regularize_ok L t f R B C) as (t' & f' & RR & ZZ & C' & SUB); [intros k K; repeat split; apply D; exact K|].
  assert (D' : forall c k, (k < t_sz t')%nat -> f' c k <> None).
  { intros c k K. rewrite ZZ in K. pose proof (D c k K). pose proof (D Mjd k K). destruct (f c k) as [v|] eqn:E1; [|congruence]. destruct (f Mjd k) as [w|] eqn:E2; [|congruence].
    destruct (SUB c k v w K E1 E2) as (z & -> & _). discriminate. }
  destruct (SUB Mjd i m m I EM EM) as (m' & EM' & QM). cbn [zonal] in QM. assert (QM' : m' == m) by (rewrite QM; ring).
  assert (NODE : forall c v, f c i = Some v -> exists y, f' c i = Some y /\ y == v - zonal L c m) by (intros c v E; destruct (SUB c i v m I E EM) as (y & A & A'); exists y; auto).
  assert (SUC : exists val, succeeds L t' f' m' order val /\ forall c v, In c interpolated -> f c i = Some v -> val c == v - zonal L c m).
  { assert (EXV : forall c, In c interpolated -> exists y', (forall v, f c i = Some v -> y' == v - zonal L c m) /\ forall idx, exists idx', lagint L (cells_of t' f' Mjd) (cells_of t' f' c) m' idx order = Ok (0%Z, Some y', idx')).
    { intros c IC. pose proof (D c i I) as N. destruct (f c i) as [v|] eqn:E; [|congruence]. destruct (NODE c v E) as (y & Y1 & Y2).
      destruct (X (cells_of t' f' Mjd) (cells_of t' f' c) i m' y 0%Z) as (y' & idx' & _ & QY & ALL).
      - apply cells_defined. intros; apply D'; assumption.
      - apply cells_defined. intros; apply D'; assumption.
      - unfold cells_of. rewrite !map_length. reflexivity.
      - intros j k a b JK NA NB. assert (K : (k < t_sz t')%nat). { assert (K : (k < length (cells_of t' f' Mjd))%nat) by (apply nth_error_Some; congruence). unfold cells_of in K. rewrite map_length, seq_length in K. exact K. }
        rewrite nth_cells in NA by lia. rewrite nth_cells in NB by lia. injection NA as NA. injection NB as NB. rewrite ZZ in K.
        pose proof (D Mjd j ltac:(lia)). pose proof (D Mjd k K). destruct (f Mjd j) as [a0|] eqn:EA; [|congruence]. destruct (f Mjd k) as [b0|] eqn:EB; [|congruence].
        destruct (SUB Mjd j a0 a0 ltac:(lia) EA EA) as (z1 & W1 & V1). destruct (SUB Mjd k b0 b0 K EB EB) as (z2 & W2 & V2). cbn [zonal] in *. pose proof (MO j k a0 b0 ltac:(lia) EA EB).
        assert (a = z1) by congruence. assert (b = z2) by congruence. subst. lra.
      - rewrite nth_cells by lia. congruence.
      - rewrite nth_cells by lia. congruence.
      - exists y'. split; [|exact ALL]. intros v0 E0. assert (v0 = v) by congruence. subst. rewrite QY. exact Y2. }
    destruct (EXV Xp) as (a1 & A1 & L1); [cbn; tauto|]. destruct (EXV Yp) as (a2 & A2 & L2); [cbn; tauto|]. destruct (EXV Ut1) as (a3 & A3 & L3); [cbn; tauto|].
    destruct (EXV Dx) as (a4 & A4 & L4); [cbn; tauto|]. destruct (EXV Dy) as (a5 & A5 & L5); [cbn; tauto|]. destruct (EXV Lod) as (a6 & A6 & L6); [cbn; tauto|].
    exists (fun c => match c with Xp => a1 | Yp => a2 | Ut1 => a3 | Dx => a4 | Dy => a5 | Lod => a6 | _ => 0 end). split.
    - intros c idx IC. cbn in IC. destruct IC as [<-|[<-|[<-|[<-|[<-|[<-|[]]]]]]]; [apply L1|apply L2|apply L3|apply L4|apply L5|apply L6].
    - intros c v IC E. cbn in IC. destruct IC as [<-|[<-|[<-|[<-|[<-|[<-|[]]]]]]]; [apply A1|apply A2|apply A3|apply A4|apply A5|apply A6]; exact E. }
  destruct SUC as (val & SUC & VAL). destruct (interpolate_ok L t' f' m' r order val om R C' SUC EO) as (r' & RI & _ & PX & PY & PU & PL & PDX & PDY & _).
  exists t', r', m'. split; [exact RR|]. split; [rewrite (C' Mjd i) by lia; f_equal; exact EM'|]. split; [exact QM'|]. split; [exact RI|].
  assert (CE : centuries m' == centuries m) by (unfold centuries; rewrite QM'; reflexivity). destruct (R _ _ CE) as (R1 & R2 & R3).
  unfold is in *. unfold zonal_dut, zonal_lod, zonal_omega, ocean_x, ocean_y, ocean_dut, ocean_lod, libration_x, libration_y in *. rewrite R1, R2, R3 in *.
  pose proof (VAL Xp xp ltac:(cbn; tauto) EX) as V1. pose proof (VAL Yp yp ltac:(cbn; tauto) EY) as V2. pose proof (VAL Ut1 dut ltac:(cbn; tauto) EU) as V3. pose proof (VAL Lod lod ltac:(cbn; tauto) EL) as V4. pose proof (VAL Dx dx ltac:(cbn; tauto) EDX) as V5. pose proof (VAL Dy dy ltac:(cbn; tauto) EDY) as V6.
  cbn [zonal] in *. unfold zonal_dut, zonal_lod in *.
  destruct PX as (w1 & -> & P1). destruct PY as (w2 & -> & P2). destruct PU as (w3 & -> & P3). destruct PL as (w4 & -> & P4). destruct PDX as (w5 & -> & P5). destruct PDY as (w6 & -> & P6).
  repeat split; (eexists; split; [reflexivity|]); [rewrite P1, V1|rewrite P2, V2|rewrite P3, V3|rewrite P4, V4|rewrite P5, V5|rewrite P6, V6]; ring.
Qed.

(* ---- members and cells that were never written ---- *)
Lemma omega_unwritten L t f x r order val : contents t f -> succeeds L t f x order val -> r_omega r = None -> interpolate L t x r order = UB.
Proof.
  intros C S O. unfold interpolate. rewrite (lagrange_ok L t f x r order val C S). cbn [obind snd r_dut r_lod r_omega r_xp r_yp r_dx r_dy]. rewrite O.
  destruct (rg_zont2 L (jc2000 x)) as [[a b] c]. reflexivity.
Qed.
Lemma regularize_unwritten L t f : respects L -> built t -> contents t f -> (0 < t_sz t)%nat -> f Omega 0%nat = None -> regularize L t = UB.
Proof.
  intros R B C Z O. destruct (built_holds t B) as (g & H). destruct (built_inv Q t B) as (_ & _ & SZ).
  assert (GF : forall c i, (i < t_sz t)%nat -> g c i = f c i). { intros c i I. pose proof (C c i I) as X. rewrite (get_ok Q t _ g c i H) in X by lia. congruence. }
  assert (MU : forall t0 h c d, holds Q t0 (t_cap t) h -> h c 0%nat = None -> minus_cell t0 c 0 d = UB).
  { intros t0 h c d HH N. unfold minus_cell. rewrite (get_ok Q t0 _ h c 0 HH) by lia. cbn [obind]. rewrite N. reflexivity. }
  unfold regularize. destruct (t_sz t) as [|n] eqn:EN; [lia|]. cbn [regularize_from]. rewrite (get_ok Q t _ g Mjd 0 H) by lia. cbn [obind]. destruct (g Mjd 0%nat) as [m|] eqn:EM; [|reflexivity].
  destruct (rg_zont2 L (jc2000 m)) as [[a b] c].
  destruct (g Ut1 0%nat) as [u|] eqn:EU; [|rewrite (MU t g Ut1 a H EU); reflexivity]. destruct (minus_ok t (t_cap t) g Ut1 0 u a H) as (t1 & S1 & _ & H1); [lia|exact EU|]. rewrite S1. cbn [obind].
  destruct (g Lod 0%nat) as [l|] eqn:EL.
  2:{ rewrite (MU t1 _ Lod b H1); [reflexivity|]. rewrite put_other by (left; discriminate). exact EL. }
  destruct (minus_ok t1 (t_cap t) _ Lod 0 l b H1) as (t2 & S2 & _ & H2); [lia|rewrite put_other by (left; discriminate); exact EL|]. rewrite S2. cbn [obind].
  rewrite (MU t2 _ Omega c H2); [reflexivity|]. rewrite !put_other by (left; discriminate). rewrite GF by lia. exact O.
Qed.

(* ---- examples ---- *)
(* a library that knows the dates of the table only; the tides are proportional to the time *)
Fixpoint look_up (ms vs : list (option Q)) (x : Q) : option Q :=
  match ms, vs with
  | Some m :: ms, v :: vs => if Qeq_bool m x then v else look_up ms vs x
  | _, _ => None
  end.
Definition nodes_only : iers := Iers
  (fun ms vs x _ _ => match look_up ms vs x with Some v => Ok (0%Z, Some v, 0%Z) | None => Ok (1%Z, None, (-1)%Z) end)
  (fun c => let c := Qred c in (c, 2 * c, 3 * c)) (fun c => let c := Qred c in (4 * c, 5 * c, 6 * c, 7 * c)) (fun c => let c := Qred c in (8 * c, 9 * c)).
Lemma nodes_respects : respects nodes_only.
Proof. intros a b E. cbn [rg_zont2 pmut1_oceans pm_gravi nodes_only]. apply Qred_complete in E. rewrite E. auto. Qed.
Lemma nodes_sane : sane nodes_only.
Proof. intros ms vs x idx order. cbn [lagint nodes_only]. destruct (look_up ms vs x); cbn; lia. Qed.
Lemma look_up_ok ms : forall vs i x y, all_defined ms -> (forall j k a b, (j < k)%nat -> nth_error ms j = Some (Some a) -> nth_error ms k = Some (Some b) -> a < b) ->
  nth_error ms i = Some (Some x) -> nth_error vs i = Some (Some y) -> look_up ms vs x = Some y.
Proof.
  induction ms as [|m ms IH]; intros vs i x y D MO NM NV; [destruct i; discriminate|]. inversion D as [|? ? Dm D']. subst. destruct m as [m|]; [|congruence].
  destruct vs as [|v vs]; [destruct i; discriminate|]. cbn [look_up]. destruct i as [|i]; cbn [nth_error] in NM, NV.
  - injection NM as ->. injection NV as ->. rewrite (proj2 (Qeq_bool_iff x x)) by reflexivity. reflexivity.
  - destruct (Qeq_bool m x) eqn:E.
    + apply Qeq_bool_iff in E. pose proof (MO 0%nat (S i) m x ltac:(lia) eq_refl NM). lra.
    + apply (IH vs i x y D'); [|exact NM|exact NV]. intros j k a b JK A B. apply (MO (S j) (S k) a b); [lia|exact A|exact B].
Qed.
Lemma nodes_exact order : exact_at_nodes nodes_only order.
Proof.
  intros ms vs i x y idx DM DV LE MO NM NV. pose proof (look_up_ok ms vs i x y DM MO NM NV) as E. exists y, 0%Z. cbn [lagint nodes_only]. rewrite E.
  split; [reflexivity|]. split; [reflexivity|]. intros idx2. exists 0%Z. reflexivity.
Qed.
Definition two_rows : list (eop Q) :=
  flat_map (fun i => map (fun c => EWrite c i (match c with Mjd => 59000 + inject_Z (Z.of_nat i) | _ => inject_Z (Z.of_nat (col_nr c + 10 * i)) end)) [Mjd; Xp; Yp; Ut1; Dx; Dy; Lod; Omega]) [0%nat; 1%nat].
Definition two_table : table Q := match e_run (t_new Q 2) two_rows with Ok t => t | UB => t_new Q 0 end.
Definition two_map (c : column) (i : nat) : option Q := match t_get two_table c i with Ok v => v | UB => None end.
Lemma two_ok : built two_table /\ contents two_table two_map /\ t_sz two_table = 2%nat /\ forall c k, (k < 2)%nat -> two_map c k <> None.
Proof.
  split; [exists 2%nat, two_rows; vm_compute; reflexivity|]. split; [|split; [reflexivity|]].
  - intros c i I. change (t_sz two_table) with 2%nat in I. destruct i as [|[|i]]; [destruct c; vm_compute; reflexivity|destruct c; vm_compute; reflexivity|lia].
  - intros c k K. destruct k as [|[|k]]; [destruct c; vm_compute; discriminate|destruct c; vm_compute; discriminate|lia].
Qed.
(* outside the table: nothing is interpolated and success is reported *)
Definition zeros : eop_record := EopRec (Some 0) (Some 0) (Some 0) (Some 0) (Some 0) (Some 0) (Some 0) (Some 0).
Lemma outside : (exists r1, interpolate_lagrange nodes_only two_table 59010 zeros 5 = Ok (1%Z, r1)) /\ exists r2, interpolate nodes_only two_table 59010 zeros 5 = Ok (0%Z, r2) /\ r_mjd r2 = Some 59010 /\ is (r_dx r2) 0.
Proof. split; [eexists; vm_compute; reflexivity|]. eexists. split; [vm_compute; reflexivity|]. split; [reflexivity|]. exists 0. split; reflexivity. Qed.
