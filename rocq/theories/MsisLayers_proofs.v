(* Facts about the layers of the atmosphere model: what it returns below 72.5 km, and the
   temperatures it returns below and above the lower boundary of the thermosphere. *)
From Coq Require Import List ZArith Reals Lra Lia QArith Qreals.
From Verif Require Import Base Gravity_model Spline_model Msis_model Msis_data Msis_facts Msis_proofs Msis_history Msis_code Msis_refute MsisSwitch_model MsisSwitch_proofs AirParams_proofs.
Local Open Scope R_scope.
Ltac rl := Lra.lra.

(* ---- below 72.5 km ---- *)
Lemma below_inv T i mass o oc tz s r s1 : alt i < 72.5 -> gtd7 T i mass o oc tz s = Ok (r, s1) ->
  exists s0 ds s2 s3, gts7 T (with_alt i 72.5) (if rlt (alt i) zmix && Z.gtb mass 0 then 28%Z else mass) oc s0 = Ok (ds, s2) /\
    mixing T i mass ds (set_t1 (set_t0 o (t0 ds)) (t1 ds)) tz s3 = Ok (r, s1) /\
    s0 = (fst s, set_grav (snd s) (fst (glatf (if rlt (Rabs (sw i 1)) 0 then 45 else glat i))) (snd (glatf (if rlt (Rabs (sw i 1)) 0 then 45 else glat i)))).
Proof.
  intros A E. unfold gtd7 in E. destruct (glatf _) as [g rr]. apply bind_inv in E. destruct E as (u & s2 & E1 & E). injection E1 as _ <-. cbn zeta in E.
  apply bind_inv in E. destruct E as (ds & s3 & E1 & E). apply bind_inv in E. destruct E as (u2 & s4 & _ & E). rewrite Rmax_right in E1 by (cbn [zn2]; rl).
  replace (rle (zn2 0) (alt i)) with false in E by (cbn [zn2]; clear - A; rdec; first [reflexivity|exfalso; rl]).
  apply bind_inv in E. destruct E as (u3 & s5 & _ & E). apply bind_inv in E. destruct E as (u4 & s6 & _ & E).
  do 4 eexists. split; [exact E1|]. split; [exact E|]. reflexivity.
Qed.
Lemma mixing_inv T i mass ds o tz s r s1 : mass <> 0%Z -> mixing T i mass ds o tz s = Ok (r, s1) ->
  exists n tz', let dmc := if rgt (alt i) zmix then 1 - (72.5 - alt i) / (72.5 - 62.5) else 0 in
    let n2 := n * (1 + (d2 ds / dm28m (snd s) - 1) * dmc) in
    let part k v := n2 * pdm T k 1 * (1 + (v / (d2 ds * pdm T k 1) - 1) * dmc) in
    d2 r = n2 /\ d1 r = 0 /\ d6 r = 0 /\ d7 r = 0 /\ d8 r = 0 /\ t0 r = t0 o /\ t1 r = tz' /\
    (mass = 48%Z -> d0 r = part 0%nat (d0 ds) /\ d3 r = part 3%nat (d3 ds) /\ d4 r = part 4%nat (d4 ds)).
Proof.
  intros N E. unfold mixing in E. apply bind_inv in E. destruct E as (m & s2 & E1 & E). injection E1 as <- <-.
  destruct (Z.eqb_spec mass 0) as [H|_]; [contradiction|]. cbn zeta in E. apply bind_inv in E. destruct E as ([n t] & s3 & _ & E). injection E as <- _. cbn [fst snd].
  exists n, t. cbn zeta. cbn [d0 d1 d2 d3 d4 d6 d7 d8 t0 t1 zn2]. unfold zmix. repeat (split; [reflexivity|]). intros ->. cbn [Z.eqb orb]. split; [reflexivity|split; reflexivity].
Qed.
Lemma not_above a : a <= 62.5 -> rgt a zmix = false.
Proof. intros H. unfold zmix. rdec; first [reflexivity|exfalso; rl]. Qed.
Lemma above a : 62.5 < a -> rgt a zmix = true.
Proof. intros H. unfold zmix. rdec; first [reflexivity|exfalso; rl]. Qed.
Lemma not_below a : 62.5 <= a -> rlt a zmix = false.
Proof. intros H. unfold zmix. rdec; first [reflexivity|exfalso; rl]. Qed.
Lemma lies_below a : a < 62.5 -> rlt a zmix = true.
Proof. intros H. unfold zmix. rdec; first [reflexivity|exfalso; rl]. Qed.

Lemma absent T i mass o oc tz s r s1 : mass <> 0%Z -> alt i < 72.5 -> gtd7 T i mass o oc tz s = Ok (r, s1) -> d1 r = 0 /\ d6 r = 0 /\ d7 r = 0 /\ d8 r = 0.
Proof. intros N A E. destruct (below_inv _ _ _ _ _ _ _ _ _ A E) as (? & ds & ? & ? & _ & M & _). destruct (mixing_inv _ _ _ _ _ _ _ _ _ N M) as (n & tz' & _ & H1 & H2 & H3 & H4 & _). auto. Qed.

Lemma fixed_ratios T i o oc tz s r s1 : alt i <= 62.5 -> gtd7 T i 48 o oc tz s = Ok (r, s1) -> d0 r = d2 r * pdm T 0 1 /\ d3 r = d2 r * pdm T 3 1 /\ d4 r = d2 r * pdm T 4 1.
Proof.
  intros A E. assert (A2 : alt i < 72.5) by rl. destruct (below_inv _ _ _ _ _ _ _ _ _ A2 E) as (? & ds & ? & ? & _ & M & _).
  destruct (mixing_inv T i 48 _ _ _ _ _ _ ltac:(discriminate) M) as (n & tz' & H2 & _ & _ & _ & _ & _ & _ & H). rewrite (not_above _ A) in H2, H. destruct (H eq_refl) as (X & Y & Z). rewrite X, Y, Z, H2. repeat split; ring.
Qed.

(* between 62.5 and 72.5 km the ratios move linearly to those of the call made for 72.5 km *)
Lemma at_top T i o oc tz s r s1 : gtd7 T (with_alt i 72.5) 48 o oc tz s = Ok (r, s1) ->
  exists ds s2, gts7 T (with_alt i 72.5) 48 oc (fst s, set_grav (snd s) (fst (glatf (if rlt (Rabs (sw i 1)) 0 then 45 else glat i))) (snd (glatf (if rlt (Rabs (sw i 1)) 0 then 45 else glat i)))) = Ok (ds, s2) /\
    d0 r = d0 ds /\ d2 r = d2 ds /\ d3 r = d3 ds /\ d4 r = d4 ds.
Proof.
  intros E. unfold gtd7 in E. cbn [alt with_alt sw glat] in E. destruct (glatf _) as [g rr]. cbn [fst snd]. apply bind_inv in E. destruct E as (u & s2 & E1 & E). injection E1 as _ <-. cbn zeta in E.
  apply bind_inv in E. destruct E as (ds & s3 & E1 & E). apply bind_inv in E. destruct E as (u2 & s4 & _ & E). rewrite Rmax_left in E1 by (cbn [zn2]; rl).
  rewrite not_below in E1 by rl. cbn [andb] in E1.
  replace (rle (zn2 0) 72.5) with true in E by (cbn [zn2]; clear; rdec; first [reflexivity|exfalso; rl]). injection E as <- _. exists ds, s3. split; [exact E1|]. repeat split.
Qed.
Lemma transition T i o oc tz o' tz' s r s1 r' s1' : coefs_pos T -> 62.5 < alt i < 72.5 ->
  gtd7 T i 48 o oc tz s = Ok (r, s1) -> gtd7 T (with_alt i 72.5) 48 o' oc tz' s = Ok (r', s1') ->
  let w := (alt i - 62.5) / 10 in
  d0 r = d2 r * ((1 - w) * pdm T 0 1 + w * (d0 r' / d2 r')) /\ d3 r = d2 r * ((1 - w) * pdm T 3 1 + w * (d3 r' / d2 r')) /\ d4 r = d2 r * ((1 - w) * pdm T 4 1 + w * (d4 r' / d2 r')).
Proof.
  intros CP A E E' w. pose proof (gtd7_pos _ _ _ _ _ _ _ _ CP (ltac:(cbn [alt with_alt]; rl) : 72.5 <= alt (with_alt i 72.5)) E') as (P2 & _). specialize (P2 ltac:(lia)). destruct (pos_ratio T CP) as (R0 & R3 & R4).
  destruct (at_top _ _ _ _ _ _ _ _ E') as (ds' & s2' & G' & H0 & H2 & H3 & H4).
  destruct (below_inv _ _ _ _ _ _ _ _ _ (proj2 A) E) as (s0 & ds & s2 & s3 & G & M & ->). rewrite not_below in G by rl. cbn [andb] in G. rewrite G in G'. injection G' as <- _.
  destruct (mixing_inv T i 48 _ _ _ _ _ _ ltac:(discriminate) M) as (n & t & N2 & _ & _ & _ & _ & _ & _ & H). rewrite (above _ (proj1 A)) in N2, H. destruct (H eq_refl) as (X & Y & Z). rewrite <- N2 in X, Y, Z.
  rewrite X, Y, Z, H0, H2, H3, H4. rewrite H2 in P2. replace (1 - (72.5 - alt i) / (72.5 - 62.5)) with w by (unfold w; rl). clearbody w. clear - P2 R0 R3 R4. repeat split; field; repeat split; rl.
Qed.

(* ---- below 62.5 km the request for a species does not matter ---- *)
Lemma mixing_defined T i p q ds o o' tz s r s1 : p <> 0%Z -> q <> 0%Z -> t0 o = t0 o' -> mixing T i p ds o tz s = Ok (r, s1) ->
  exists r', mixing T i q ds o' tz s = Ok (r', s1) /\ d2 r' = d2 r /\ t0 r' = t0 r /\ t1 r' = t1 r.
Proof.
  intros P Q T0 E. unfold mixing in *. apply bind_inv in E. destruct E as (m & s2 & E1 & E). injection E1 as <- <-.
  destruct (Z.eqb_spec p 0) as [H|_]; [contradiction|]. cbn zeta in E. apply bind_inv in E. destruct E as ([n t] & s3 & E2 & E). injection E as <- <-.
  destruct (Z.eqb_spec q 0) as [H|_]; [contradiction|]. unfold bind at 1. unfold reads. cbn zeta. unfold bind. rewrite E2. unfold ret. eexists. split; [reflexivity|]. cbn [fst snd d2 t0 t1]. auto.
Qed.
Lemma any_mass T i p q o o' oc tz s r s1 : (0 < p)%Z -> (0 < q)%Z -> alt i < 62.5 -> gtd7 T i p o oc tz s = Ok (r, s1) ->
  exists r', gtd7 T i q o' oc tz s = Ok (r', s1) /\ d2 r' = d2 r /\ t0 r' = t0 r /\ t1 r' = t1 r.
Proof.
  intros P Q A E. unfold gtd7 in *. destruct (glatf _) as [g rr]. apply bind_inv in E. destruct E as (u & s2 & E1 & E). injection E1 as <- <-. cbn zeta in *.
  rewrite (lies_below _ A) in *. replace (Z.gtb p 0) with true in E by (symmetry; apply Z.gtb_lt; exact P). replace (Z.gtb q 0) with true by (symmetry; apply Z.gtb_lt; exact Q). cbn [andb] in *.
  apply bind_inv in E. destruct E as (ds & s3 & E1 & E). apply bind_inv in E. destruct E as (u2 & s4 & E2 & E).
  assert (B : rle (zn2 0) (alt i) = false) by (cbn [zn2]; clear - A; rdec; first [reflexivity|exfalso; rl]). rewrite B in *.
  apply bind_inv in E. destruct E as (u3 & s5 & E3 & E). apply bind_inv in E. destruct E as (u4 & s6 & E4 & E).
  destruct (mixing_defined T i p q ds (set_t1 (set_t0 o (t0 ds)) (t1 ds)) (set_t1 (set_t0 o' (t0 ds)) (t1 ds)) tz s6 r s1 ltac:(lia) ltac:(lia) eq_refl E) as (r' & E' & H). exists r'. split; [|exact H].
  assert (RUN : forall X Y (c : M X) (k : X -> M Y) a b x, c a = Ok (x, b) -> bind c k a = k x b) by (intros X Y c k a b x H1; unfold bind; rewrite H1; reflexivity).
  erewrite RUN by reflexivity. cbn [fst snd] in *. erewrite RUN by exact E1. erewrite RUN by exact E2. erewrite RUN by exact E3. erewrite RUN by exact E4. exact E'.
Qed.

(* ---- the exospheric temperature below the lower boundary ---- *)
Lemma temperatures_average T i s tinf s1 : rgt (alt i) (zn1 T 0) = false -> temperatures T i s = Ok (tinf, s1) -> tinf = ptm T 0 * pt T 0%nat.
Proof.
  intros B E. unfold temperatures in E. rewrite B in E. apply bind_inv in E. destruct E as (a & s2 & E1 & E). injection E1 as <- <-.
  repeat (let u := fresh in let w := fresh in let Q := fresh in apply bind_inv in E; destruct E as (u & w & Q & E); clear Q). injection E as <- _. reflexivity.
Qed.
Lemma gts7_average T i mass o s r s1 : rgt (alt i) (zn1 T 0) = false -> gts7 T i mass o s = Ok (r, s1) -> t0 r = ptm T 0 * pt T 0%nat.
Proof.
  intros B1 E. unfold gts7 in E. cbn zeta in E. apply bind_inv in E. destruct E as (tinf & s2 & E1 & E). rewrite <- (temperatures_average _ _ _ _ _ B1 E1).
  apply bind_inv in E. destruct E as (m & s3 & _ & E). apply bind_inv in E. destruct E as (o1 & s4 & E2 & E).
  assert (O1 : t0 o1 = tinf) by (destruct (Z.eqb mass 0); [injection E2 as <- _; reflexivity|exact (st_species _ _ _ _ _ _ _ _ _ _ Logic.I E2)]).
  apply bind_inv in E. destruct E as (o2 & s5 & E3 & E). assert (O2 : t0 o2 = tinf).
  { destruct (Nat.eqb _ 5); [injection E3 as <- _; exact O1|]. apply bind_inv in E3. destruct E3 as (u & s6 & _ & E3). injection E3 as <- _. exact O1. }
  injection E as <- _. destruct (meters i); exact O2.
Qed.
Lemma mixing_t0 T i mass ds o tz s r s1 : mixing T i mass ds o tz s = Ok (r, s1) -> t0 r = t0 o.
Proof.
  intros E. destruct (Z.eq_dec mass 0) as [->|N].
  - unfold mixing in E. apply bind_inv in E. destruct E as (m & s2 & _ & E). cbn [Z.eqb] in E. apply bind_inv in E. destruct E as (x & s3 & _ & E). apply bind_inv in E. destruct E as (u & s4 & _ & E). injection E as <- _. reflexivity.
  - destruct (mixing_inv _ _ _ _ _ _ _ _ _ N E) as (n & t & _ & _ & _ & _ & _ & H & _). exact H.
Qed.
Lemma average T i mass o oc tz s r s1 : 72.5 <= zn1 T 0 -> alt i <= zn1 T 0 -> gtd7 T i mass o oc tz s = Ok (r, s1) -> t0 r = ptm T 0 * pt T 0%nat.
Proof.
  intros Z A E. destruct (Rlt_le_dec (alt i) 72.5) as [L|L].
  - destruct (below_inv _ _ _ _ _ _ _ _ _ L E) as (? & ds & ? & ? & G & M & _). rewrite (mixing_t0 _ _ _ _ _ _ _ _ _ M). cbn [t0 set_t0 set_t1]. refine (gts7_average _ _ _ _ _ _ _ _ G).
    cbn [alt with_alt]. clear - Z. rdec; first [reflexivity|exfalso; rl].
  - unfold gtd7 in E. destruct (glatf _) as [g rr]. apply bind_inv in E. destruct E as (u & s2 & _ & E). cbn zeta in E. apply bind_inv in E. destruct E as (ds & s3 & G & E). apply bind_inv in E. destruct E as (u2 & s4 & _ & E).
    rewrite Rmax_left in G by (cbn [zn2]; rl). replace (rle (zn2 0) (alt i)) with true in E by (cbn [zn2]; clear - L; rdec; first [reflexivity|exfalso; rl]). injection E as <- _. cbn [t0 set_t0 set_t1].
    refine (gts7_average _ _ _ _ _ _ _ _ G). cbn [alt with_alt]. clear - A. rdec; first [reflexivity|exfalso; rl].
Qed.

(* ---- the temperature above the lower boundary ---- *)
Definition prof (lb ti tl x rr z : R) : R := ti - (ti - tl) * exp (- (x / (ti - tl)) * zeta rr z lb).
(* a member that the thermosphere does not write *)
Section Kept.
Context (f : inst -> R) (F1 : forall m u, f (set_dd m u) = f m) (F2 : forall m u v, f (set_meso1 m u v) = f m) (F3 : forall m u, f (set_dm28 m u) = f m) (F4 : forall m a b c d e, f (set_poly m a b c d e) = f m).
Definition kept {A} (c : M A) : Prop := forall s a s1, c s = Ok (a, s1) -> f (snd s1) = f (snd s).
Lemma kb {A B} (c : M A) (h : A -> M B) : kept c -> (forall a, kept (h a)) -> kept (bind c h).
Proof. intros H K s b s2 E. apply bind_inv in E. destruct E as (a & s1 & E1 & E). rewrite (K _ _ _ _ E). exact (H _ _ _ E1). Qed.
Lemma kr {A} (a : A) : kept (ret a). Proof. intros s b s1 E. injection E as _ <-. reflexivity. Qed.
Lemma kd {A} (h : inst -> A) : kept (reads h). Proof. intros s b s1 E. injection E as _ <-. reflexivity. Qed.
Lemma kf {A} (o : outcome A) : kept (fails o). Proof. intros s b s1 E. unfold fails in E. destruct o; [|discriminate]. injection E as _ <-. reflexivity. Qed.
Lemma kw h : (forall m, f (h m) = f m) -> kept (writes h). Proof. intros H s b s1 E. injection E as _ <-. apply H. Qed.
Lemma kg i p : kept (globe7 i p). Proof. intros [c m] b s1 E. injection E as _ <-. apply F4. Qed.
Lemma kg7 i p : kept (glob7s i p). Proof. intros [c m] b s1 E. injection E as _ <-. reflexivity. Qed.
Ltac kk := repeat first [apply kg|apply kg7|apply kw; intro; first [apply F1|apply F2|apply F3]|apply kr|apply kd|apply kf|apply kb; [|intro]|match goal with |- kept (if ?b then _ else _) => destruct b end].
Lemma ku T z dlb ta tb xm al zlb w : kept (densu T z dlb ta tb xm al zlb w).
Proof. unfold densu. cbv zeta. apply kb; [kk|intro m]. apply kb; [kk|intro]. apply kb; [kk|intro]. apply kb; [kk|intros [tz yi]]. kk. Qed.
Ltac kv := repeat first [apply ku|apply kg|apply kw; intro; first [apply F1|apply F2|apply F3]|apply kr|apply kd|apply kb; [|intro]|match goal with |- kept (if ?b then _ else _) => destruct b end].
Lemma kspecies T i mass a b c o : kept (species T i mass a b c o).
Proof.
  unfold species. apply kb; [apply kg|intro g]. apply kb; [destruct (Nat.eqb _ _); [apply kr|unfold molecular; kv]|intros [[zh bb] o1]].
  apply kb; [destruct (among _ _); [apply kb; [unfold helium; kv|intro; unfold oxygen; kv]|apply kr]|intro]. apply kb; [destruct (among _ _); [unfold oxygen2; kv|apply kr]|intro].
  apply kb; [destruct (among _ _); [unfold argon; kv|apply kr]|intro]. apply kb; [destruct (among _ _); [apply kb; [unfold hydrogen; kv|intro; unfold nitrogen; kv]|apply kr]|intro].
  destruct (among _ _); [unfold anomalous; kv|apply kr].
Qed.
Context (F5 : forall m u, f (set_xg0 m u) = f m) (F6 : forall m u, f (set_tlb m u) = f m).
Lemma ktemperatures T i : kept (temperatures T i).
Proof. unfold temperatures. repeat first [apply kg|apply kg7|apply kw; intro; first [apply F2|apply F5|apply F6]|apply kr|apply kb; [|intro]|match goal with |- kept (if ?b then _ else _) => destruct b end]. Qed.
End Kept.
Lemma densu_0 T z lb ti tl x st v st1 : 0 <= z -> zn1 T 0 < z -> densu T (Rabs z) 1 ti tl 0 0 lb (x / (ti - tl)) st = Ok (v, st1) -> st1 = st /\ snd v = prof lb ti tl x (re (snd st)) z.
Proof.
  intros P A D. rewrite Rabs_right in D by rl. unfold densu in D. apply bind_inv in D. destruct D as (m & s10 & D1 & D). injection D1 as <- <-. cbn zeta in D. replace (rlt z (zn1 T 0)) with false in D by (clear - A; rdec; first [reflexivity|exfalso; rl]).
  apply bind_inv in D. destruct D as (u3 & s11 & D1 & D). injection D1 as _ <-. apply bind_inv in D. destruct D as (m' & s12 & D1 & D). injection D1 as <- <-. apply bind_inv in D. destruct D as (y & s13 & D1 & D). injection D1 as <- <-.
  replace (rgt (Rabs 0) nearzero) with false in D by (rewrite Rabs_R0; unfold nearzero; clear; rdec; first [reflexivity|exfalso; rl]). injection D as <- <-. split; [reflexivity|]. cbn [snd]. change (pdl T 1 15) with (zn1 T 0). rewrite (Rmax_left z (zn1 T 0)) by (clear - A; rl). unfold prof. reflexivity.
Qed.
Lemma hoare_ups v w i T : hoare (set_ups v w) (if rle 300 (alt i) then
         let tn1' m := set1 (set1 (set1 (set1 (tn1 m) 1 (ptm T 6 * ptl T 0 0)) 2 (ptm T 2 * ptl T 1 0)) 3 (ptm T 7 * ptl T 2 0)) 4 (ptm T 4 * ptl T 3 0) in
         writes (fun m => set_meso1 m (tn1' m) (set1 (tgn1 m) 1 (ptm T 8 * pma T 8 0 * tn1' m 4%nat * tn1' m 4%nat / ((ptm T 4 * ptl T 3 0) * (ptm T 4 * ptl T 3 0)))))
       else
         let* a := glob7s i (ptl T 0) in
         do* writes (fun m => set_meso1 m (set1 (tn1 m) 1 (ptm T 6 * ptl T 0 0 / (1 - sw i 17 * a))) (tgn1 m)) in
         let* a := glob7s i (ptl T 1) in
         do* writes (fun m => set_meso1 m (set1 (tn1 m) 2 (ptm T 2 * ptl T 1 0 / (1 - sw i 17 * a))) (tgn1 m)) in
         let* a := glob7s i (ptl T 2) in
         do* writes (fun m => set_meso1 m (set1 (tn1 m) 3 (ptm T 7 * ptl T 2 0 / (1 - sw i 17 * a))) (tgn1 m)) in
         let* a := glob7s i (ptl T 3) in
         do* writes (fun m => set_meso1 m (set1 (tn1 m) 4 (ptm T 4 * ptl T 3 0 / (1 - sw i 17 * sw i 19 * a))) (tgn1 m)) in
         let* a := glob7s i (pma T 8) in
         writes (fun m => set_meso1 m (tn1 m) (set1 (tgn1 m) 1 (ptm T 8 * pma T 8 0 * (1 + sw i 17 * sw i 19 * a) * tn1 m 4%nat * tn1 m 4%nat / ((ptm T 4 * ptl T 3 0) * (ptm T 4 * ptl T 3 0)))))) (fun _ => set_ups v w).
Proof. destruct (rle _ _); [apply u_meso|]. repeat (eapply h_bind; [apply u_glob7s|intro; cbv beta]; try (eapply h_bind; [apply u_meso|intro; cbv beta])). apply u_meso. Qed.

(* what the temperatures at the boundary are made of does not depend on the altitude *)
Lemma temperatures_above T i s : 72.5 <= zn1 T 0 -> exists ti tl x, (off i -> ti = ptm T 0 * pt T 0%nat /\ tl = ptm T 1 * pd T 3 0 /\ x = ptm T 3 * ps T 0%nat) /\ forall z tinf s1, zn1 T 0 < z -> temperatures T (with_alt i z) s = Ok (tinf, s1) -> tinf = ti /\ tlb (snd s1) = tl /\ xg0 (snd s1) = x.
Proof.
  intros Z. destruct s as [c0 m0]. destruct (globe7 i (pt T) (c0, m0)) as [[g1 [c1 m1]]|] eqn:G1; [|discriminate G1].
  destruct (globe7 i (ps T) (c1, m1)) as [[g2 [c2 m2]]|] eqn:G2; [|discriminate G2].
  destruct (globe7 i (pd T 3) (c2, set_xg0 m2 (ptm T 3 * ps T 0%nat * (1 + sw i 18 * g2)))) as [[g3 [c3 m3]]|] eqn:G3; [|discriminate G3].
  exists (ptm T 0 * pt T 0%nat * (1 + sw i 15 * g1)), (ptm T 1 * (1 + sw i 16 * g3) * pd T 3 0), (ptm T 3 * ps T 0%nat * (1 + sw i 18 * g2)).
  split. { intros O. rewrite (O 15%nat eq_refl), (O 16%nat eq_refl), (O 18%nat eq_refl). repeat split; ring. }
  intros z tinf s1 A E. unfold temperatures in E. cbn [alt with_alt] in E.
  replace (rgt z (zn1 T 0)) with true in E by (clear - A; rdec; first [reflexivity|exfalso; rl]). replace (rgt z (zn1 T 4)) with true in E by (clear - A Z; cbn [zn1] in *; rdec; first [reflexivity|exfalso; rl]).
  apply bind_inv in E. destruct E as (a & s2 & E1 & E). apply bind_inv in E1. destruct E1 as (h1 & s3 & H1 & E1). injection E1 as <- <-.
  apply bind_inv in E. destruct E as (b & s4 & E2 & E). apply bind_inv in E2. destruct E2 as (h2 & s5 & H2 & E2). injection E2 as <- <-.
  change (globe7 (with_alt i z)) with (globe7 i) in H1, H2. rewrite G1 in H1. injection H1 as <- <-. rewrite G2 in H2. injection H2 as <- <-.
  apply bind_inv in E. destruct E as (u & s6 & E3 & E). injection E3 as _ <-. cbn [fst snd] in E.
  apply bind_inv in E. destruct E as (h3 & s7 & H3 & E). change (globe7 (with_alt i z)) with (globe7 i) in H3. change (sw (with_alt i z)) with (sw i) in *. rewrite G3 in H3. injection H3 as <- <-.
  apply bind_inv in E. destruct E as (u2 & s8 & E4 & E). injection E4 as _ <-. cbn [fst snd] in E.
  apply bind_inv in E. destruct E as (u3 & s9 & E5 & E). injection E as <- <-. split; [reflexivity|].
  assert (U : set_ups (ptm T 3 * ps T 0%nat * (1 + sw i 18 * g2)) (ptm T 1 * (1 + sw i 16 * g3) * pd T 3 0) (c3, set_tlb m3 (ptm T 1 * (1 + sw i 16 * g3) * pd T 3 0))).
  { split; [|reflexivity]. cbn [snd]. pose proof (u_globe7 (ptm T 3 * ps T 0%nat * (1 + sw i 18 * g2)) (tlb m2) i (pd T 3) (c2, set_xg0 m2 (ptm T 3 * ps T 0%nat * (1 + sw i 18 * g2))) g3 (c3, m3) (conj eq_refl eq_refl) G3) as [X _]. exact X. }
  destruct (hoare_ups _ _ (with_alt i z) T _ _ _ U E5) as [X Y]. split; [exact Y|exact X].
Qed.
Ltac kq := repeat first [apply k_densu|apply k_bind; [|intro]|apply k_globe7|apply k_writes; intro; split; reflexivity|apply k_ret|apply k_reads|match goal with |- keeps (if ?b then _ else _) => destruct b end].
Lemma k_helium T i a b c d e f o : keeps (helium T i a b c d e f o). Proof. unfold helium. kq. Qed.
Lemma k_oxygen T i a b c d e o : keeps (oxygen T i a b c d e o). Proof. unfold oxygen. kq. Qed.
Lemma k_oxygen2 T i a b c d e f mass o : keeps (oxygen2 T i a b c d e f mass o). Proof. unfold oxygen2. kq. Qed.
Lemma k_argon T i a b c d e f o : keeps (argon T i a b c d e f o). Proof. unfold argon. kq. Qed.
Lemma k_hydrogen T i a b c d e f o : keeps (hydrogen T i a b c d e f o). Proof. unfold hydrogen. kq. Qed.
Lemma k_nitrogen T i a b c d e f o : keeps (nitrogen T i a b c d e f o). Proof. unfold nitrogen. kq. Qed.
Lemma k_anomalous T i s mass o : keeps (anomalous T i s mass o). Proof. unfold anomalous. kq. Qed.
Lemma k_molecular T i mass a b c d e f o : keeps (molecular T i mass a b c d e f o). Proof. unfold molecular. kq. Qed.
Lemma k_species T i mass a b c o : keeps (species T i mass a b c o).
Proof.
  unfold species. apply k_bind; [apply k_globe7|intro g]. apply k_bind; [destruct (Nat.eqb _ _); [apply k_ret|apply k_molecular]|intros [[zh bb] o1]].
  apply k_bind; [destruct (among _ _); [apply k_bind; [apply k_helium|intro; apply k_oxygen]|apply k_ret]|intro]. apply k_bind; [destruct (among _ _); [apply k_oxygen2|apply k_ret]|intro].
  apply k_bind; [destruct (among _ _); [apply k_argon|apply k_ret]|intro]. apply k_bind; [destruct (among _ _); [apply k_bind; [apply k_hydrogen|intro; apply k_nitrogen]|apply k_ret]|intro].
  destruct (among _ _); [apply k_anomalous|apply k_ret].
Qed.
Lemma species_re T i mass tinf tlbv s o st r st1 : species T i mass tinf tlbv s o st = Ok (r, st1) -> re (snd st1) = re (snd st).
Proof. intros E. assert (K : keeps (species T i mass tinf tlbv s o)) by (apply k_species). exact (proj2 (K _ _ _ E)). Qed.
Lemma index5 mass : mass_index mass = 5%nat -> mass = 28%Z.
Proof. destruct (Z.eq_dec mass 28) as [->|N]; [reflexivity|]. unfold mass_index. intros H. exfalso. destruct mass as [|p|p]; try discriminate. do 6 (destruct p as [p|p|]; try discriminate; try (apply N; reflexivity)). Qed.
Lemma profile_above T i s : 72.5 <= zn1 T 0 -> exists ti tl x rr, 0 < rr /\ (off i -> ti = ptm T 0 * pt T 0%nat /\ tl = ptm T 1 * pd T 3 0 /\ x = ptm T 3 * ps T 0%nat) /\
  forall z mass o oc tz r s1, zn1 T 0 < z -> mass <> 28%Z -> gtd7 T (with_alt i z) mass o oc tz s = Ok (r, s1) -> t0 r = ti /\ t1 r = prof (ptm T 5) ti tl x rr z /\ tlb (snd s1) = tl.
Proof.
  intros Z. set (xlat := if rlt (Rabs (sw i 1)) 0 then 45 else glat i). pose proof (glatf_pos xlat) as RP.
  set (s0 := (fst s, set_grav (snd s) (fst (glatf xlat)) (snd (glatf xlat)))). destruct (temperatures_above T i s0 Z) as (ti & tl & x & HO & H). exists ti, tl, x, (snd (glatf xlat)). split; [exact RP|]. split; [exact HO|].
  intros z mass o oc tz r s1 A N E. unfold gtd7 in E. cbn [alt with_alt sw glat] in E. fold xlat in E. unfold s0 in H. destruct (glatf xlat) as [g rr]. cbn [fst snd] in H, RP |- *.
  apply bind_inv in E. destruct E as (u & s2 & E1 & E). injection E1 as _ <-. cbn zeta in E. apply bind_inv in E. destruct E as (ds & s3 & G & E). apply bind_inv in E. destruct E as (u2 & s4 & W & E). injection W as _ <-.
  rewrite Rmax_left in G by (cbn [zn2]; rl). replace (rle (zn2 0) z) with true in E by (cbn [zn2]; clear - A Z; rdec; first [reflexivity|exfalso; rl]). injection E as <- <-. cbn [t0 t1 set_t0 set_t1 snd].
  replace (rlt z zmix) with false in G by (unfold zmix; clear - A Z; rdec; first [reflexivity|exfalso; rl]). cbn [andb] in G. change (with_alt (with_alt i z) z) with (with_alt i z) in G.
  unfold gts7 in G. cbn zeta in G. apply bind_inv in G. destruct G as (tinf & s5 & E1 & G). destruct (k_temperatures _ _ _ _ _ E1) as [_ RE]. cbn [snd] in RE. destruct (H _ _ _ A E1) as (-> & TL & X).
  apply bind_inv in G. destruct G as (m & s6 & E2 & G). injection E2 as <- <-. rewrite TL, X in G. apply bind_inv in G. destruct G as (o1 & s7 & E2 & G).
  assert (O1 : t0 o1 = ti) by (destruct (Z.eqb mass 0); [injection E2 as <- _; reflexivity|exact (st_species _ _ _ _ _ _ _ _ _ _ Logic.I E2)]).
  assert (R1 : re (snd s7) = rr) by (destruct (Z.eqb mass 0); [injection E2 as _ <-; exact RE|rewrite (species_re _ _ _ _ _ _ _ _ _ _ E2); exact RE]).
  replace (Nat.eqb (if Z.eqb mass 0 then 0%nat else mass_index mass) 5) with false in G by (destruct (Z.eqb_spec mass 0); [reflexivity|]; symmetry; apply Nat.eqb_neq; intros Q; apply N, index5, Q).
  assert (K1 : tlb (snd s7) = tl) by (destruct (Z.eqb mass 0); [injection E2 as _ <-; exact TL|rewrite (kspecies tlb ltac:(reflexivity) ltac:(reflexivity) ltac:(reflexivity) ltac:(reflexivity) _ _ _ _ _ _ _ _ _ _ E2); exact TL]).
  apply bind_inv in G. destruct G as (o2 & s8 & E3 & G). apply bind_inv in E3. destruct E3 as (v & s9 & D & E3). injection E3 as <- <-. injection G as <- <-. cbn [alt with_alt] in D.
  destruct (densu_0 T z _ _ _ _ _ _ _ ltac:(rl) A D) as (-> & V). rewrite R1 in V. cbn [meters with_alt]. destruct (meters i); (split; [exact O1|split; [exact V|exact K1]]).
Qed.
Lemma zeta_grows rr z z' lb : 0 < rr -> 0 <= lb -> 0 < z -> z < z' -> zeta rr z lb < zeta rr z' lb.
Proof.
  intros R L Z H. unfold zeta. apply (Rmult_lt_reg_r ((rr + z) * (rr + z'))); [apply Rmult_lt_0_compat; rl|].
  replace ((z - lb) * (rr + lb) / (rr + z) * ((rr + z) * (rr + z'))) with ((z - lb) * (rr + lb) * (rr + z')) by (field; rl). replace ((z' - lb) * (rr + lb) / (rr + z') * ((rr + z) * (rr + z'))) with ((z' - lb) * (rr + lb) * (rr + z)) by (field; rl).
  assert (0 < (rr + lb) * (rr + lb) * (z' - z)) by (repeat apply Rmult_lt_0_compat; rl). replace ((z' - lb) * (rr + lb) * (rr + z)) with ((z - lb) * (rr + lb) * (rr + z') + (rr + lb) * (rr + lb) * (z' - z)) by ring. rl.
Qed.
(* an exponential that once approaches its limit from below keeps doing so *)
Lemma approach ti d k a b c : a < b < c -> ti - d * exp (k * a) < ti - d * exp (k * b) -> ti - d * exp (k * b) < ti -> ti - d * exp (k * b) < ti - d * exp (k * c) < ti.
Proof.
  intros [AB BC] H1 H2. pose proof (exp_pos (k * a)) as PA. pose proof (exp_pos (k * b)) as PB. pose proof (exp_pos (k * c)) as PC.
  assert (D : 0 < d) by (destruct (Rlt_le_dec 0 d) as [|N]; [assumption|exfalso; assert (0 <= (- d) * exp (k * b)) by (apply Rmult_le_pos; rl); rl]).
  assert (L : exp (k * b) < exp (k * a)) by (apply (Rmult_lt_reg_l d); rl). apply exp_lt_inv in L.
  assert (K : k < 0) by (destruct (Rlt_le_dec k 0) as [|N]; [assumption|exfalso; assert (0 <= k * (b - a)) by (apply Rmult_le_pos; rl); rl]).
  assert (L2 : exp (k * c) < exp (k * b)). { apply exp_increasing. assert (0 < (- k) * (c - b)) by (apply Rmult_lt_0_compat; rl). rl. }
  assert (d * exp (k * c) < d * exp (k * b)) by (apply Rmult_lt_compat_l; assumption). assert (0 < d * exp (k * c)) by (apply Rmult_lt_0_compat; assumption). split; rl.
Qed.
Lemma code_layers : zn1 code_tables 0 = 123.435 /\ ptm code_tables 5 = 120 /\ ptm code_tables 0 = 1041.3 /\ pt code_tables 0 = 0.986573 /\ pdm code_tables 0 1 = 6.71072 / 10 ^ 6 /\ pdm code_tables 3 1 = 0.26827 /\ pdm code_tables 4 1 = 0.0119615.
Proof. cbn [zn1 pdl ptm pt pdm code_tables]. unfold real1, real2. cbn [nth q_pdl q_ptm q_pt q_pdm]. unfold Q2R. cbn [Qnum Qden]. repeat split; Lra.lra. Qed.

(* an exponential falls more slowly than the potential, far enough from the centre *)
Lemma slow q : 0 < q -> (1 - exp (- q)) * (1 + q / 4) < q.
Proof.
  intros Q. pose proof (exp_pos (- q)) as P. destruct (Rlt_le_dec q (4 / 3)) as [L|L].
  - pose proof (exp_ineq1_le (- q / 2)) as X. assert (S : exp (- q) = exp (- q / 2) * exp (- q / 2)) by (rewrite <- exp_plus; f_equal; field). assert (Y : (1 - q / 2) * (1 - q / 2) <= exp (- q / 2) * exp (- q / 2)) by (apply Rmult_le_compat; rl). rewrite <- S in Y.
    assert (Z : (1 - exp (- q)) * (1 + q / 4) <= (1 - (1 - q / 2) * (1 - q / 2)) * (1 + q / 4)) by (apply Rmult_le_compat_r; rl). assert (0 < q * q * q) by (repeat apply Rmult_lt_0_compat; rl).
    replace ((1 - (1 - q / 2) * (1 - q / 2)) * (1 + q / 4)) with (q - q * q * q / 16) in Z by field. rl.
  - assert (0 < exp (- q) * (1 + q / 4)) by (apply Rmult_lt_0_compat; rl). rl.
Qed.
Lemma slower rr zm h z z' : 0 < h -> 4 * h <= rr + zm -> zm <= z -> z < z' ->
  h * (exp (- (z - zm) / h) - exp (- (z' - zm) / h)) * ((rr + z) * (rr + z')) < (z' - z) * ((rr + zm) * (rr + zm)).
Proof.
  intros H R A B. set (a := (z - zm) / h). set (q := (z' - z) / h). set (k := rr + zm) in *. assert (K : 0 < k) by rl.
  assert (IH : 0 < / h) by (apply Rinv_0_lt_compat, H).
  assert (A0 : 0 <= a) by (unfold a; apply Rmult_le_pos; rl). assert (Q0 : 0 < q) by (unfold q; apply Rmult_lt_0_compat; rl).
  replace (- (z - zm) / h) with (- a) by (unfold a; field; rl). replace (- (z' - zm) / h) with (- a + - q) by (unfold a, q; field; rl). rewrite exp_plus.
  assert (E1 : rr + z = k + a * h) by (unfold a, k; field; rl). assert (E2 : rr + z' = k + a * h + q * h) by (unfold a, q, k; field; rl). replace (z' - z) with (q * h) by (unfold q; field; rl). rewrite E1, E2. clearbody a q k. clear E1 E2 A B.
  pose proof (slow q Q0) as S. pose proof (exp_pos (- a)) as PA. pose proof (exp_pos (- q)) as PQ.
  (* (k + a h) <= k e^{a/4} *)
  assert (G : k + a * h <= k * exp (a / 4)). { pose proof (exp_ineq1_le (a / 4)) as X. apply Rle_trans with (k * (1 + a / 4)); [|apply Rmult_le_compat_l; rl]. assert (a * h <= a * (k / 4)) by (apply Rmult_le_compat_l; rl). rl. }
  assert (AH : 0 <= a * h) by (apply Rmult_le_pos; rl).
  assert (G2 : (k + a * h) * (k + a * h + q * h) <= k * exp (a / 4) * (k * exp (a / 4)) * (1 + q / 4)).
  { apply Rle_trans with ((k + a * h) * ((k + a * h) * (1 + q / 4))). { apply Rmult_le_compat_l; [rl|]. assert (q * h <= q * ((k + a * h) / 4)) by (apply Rmult_le_compat_l; rl). rl. }
    rewrite <- Rmult_assoc. apply Rmult_le_compat_r; [rl|]. apply Rmult_le_compat; rl. }
  assert (EX : exp (- a) * (exp (a / 4) * exp (a / 4)) <= 1). { rewrite <- !exp_plus. rewrite <- exp_0. destruct (Req_dec a 0) as [->|N]; [right; f_equal; field|]. left. apply exp_increasing. rl. }
  assert (Q1 : exp (- q) < 1) by (rewrite <- exp_0; apply exp_increasing; rl).
  assert (D : 0 <= h * (exp (- a) - exp (- a) * exp (- q))). { apply Rmult_le_pos; [rl|]. replace (exp (- a) - exp (- a) * exp (- q)) with (exp (- a) * (1 - exp (- q))) by ring. apply Rmult_le_pos; rl. }
  apply Rle_lt_trans with (h * (exp (- a) - exp (- a) * exp (- q)) * (k * exp (a / 4) * (k * exp (a / 4)) * (1 + q / 4))); [apply Rmult_le_compat_l; assumption|].
  replace (h * (exp (- a) - exp (- a) * exp (- q)) * (k * exp (a / 4) * (k * exp (a / 4)) * (1 + q / 4))) with ((h * (k * k)) * ((exp (- a) * (exp (a / 4) * exp (a / 4))) * ((1 - exp (- q)) * (1 + q / 4)))) by ring.
  replace (q * h * (k * k)) with ((h * (k * k)) * q) by ring. apply Rmult_lt_compat_l; [repeat apply Rmult_lt_0_compat; assumption|].
  apply Rle_lt_trans with (1 * ((1 - exp (- q)) * (1 + q / 4))); [|rl]. apply Rmult_le_compat_r; [apply Rmult_le_pos; rl|exact EX].
Qed.
Lemma zeta_step rr z z' lb : 0 < rr + z -> 0 < rr + z' -> zeta rr z' lb - zeta rr z lb = (z' - z) * ((rr + lb) * (rr + lb)) / ((rr + z) * (rr + z')).
Proof. intros. unfold zeta. field. rl. Qed.

(* ---- the densities far up ---- *)
(* two states that differ in the total dd only, with the same gravity, radius and lower temperature *)
Section Falling.
Context (T : tables) (CP : coefs_pos T) (i : input) (z z' : R).
Context (gs rr tl ti x : R) (RR : 0 < rr) (GS : 0 < gs).
Context (Z1 : 550 <= z) (Z2 : z < z') (ZA : zn1 T 0 < z) (LB : 0 <= ptm T 5 < z).
Let s2 := x / (ti - tl).
Definition tb (a : R) : R := prof (ptm T 5) ti tl x rr a.
Context (TP : 0 < tb z) (TG : tb z < tb z') (TI : tb z' < ti) (TL : 0 < tl).
Definition inv (s : state) : Prop := re (snd s) = rr /\ gsurf (snd s) = gs /\ tlb (snd s) = tl.
Definition alike (s s' : state) : Prop := fst s' = fst s /\ exists u, snd s' = set_dd (snd s) u.
Definition rel {A B} (c : M A) (c' : M B) (Q : A -> B -> Prop) : Prop :=
  forall s s' a s1 a' s1', inv s -> alike s s' -> c s = Ok (a, s1) -> c' s' = Ok (a', s1') -> Q a a' /\ inv s1 /\ alike s1 s1'.
Lemma rel_bind {A B A' B'} (c : M A) (c' : M A') (f : A -> M B) (f' : A' -> M B') (Q : A -> A' -> Prop) (P : B -> B' -> Prop) :
  rel c c' Q -> (forall a a', Q a a' -> rel (f a) (f' a') P) -> rel (bind c f) (bind c' f') P.
Proof.
  intros H K s s' b s3 b' s3' I L E E'. apply bind_inv in E. destruct E as (a & u & E1 & E). apply bind_inv in E'. destruct E' as (a' & u' & E1' & E').
  destruct (H _ _ _ _ _ _ I L E1 E1') as (Q1 & I1 & L1). exact (K a a' Q1 _ _ _ _ _ _ I1 L1 E E').
Qed.
Lemma rel_ret {A B} (a : A) (b : B) (Q : A -> B -> Prop) : Q a b -> rel (ret a) (ret b) Q.
Proof. intros H s s' a1 s1 a1' s1' I L E E'. injection E as <- <-. injection E' as <- <-. auto. Qed.
Lemma rel_dd f f' : rel (writes (fun m => set_dd m (f m))) (writes (fun m => set_dd m (f' m))) (fun _ _ => True).
Proof.
  intros s s' a1 s1 a1' s1' I (L & u & L2) E E'. injection E as _ <-. injection E' as _ <-. split; [exact Logic.I|]. split; [exact I|]. split; [exact L|]. cbn [snd]. rewrite L2. eexists. reflexivity.
Qed.
Lemma rel_globe7 y y' p : rel (globe7 (with_alt i y) p) (globe7 (with_alt i y') p) eq.
Proof.
  intros [c m] [c' m'] a s1 a' s1' I (L & u & L2) E E'. cbn [fst snd] in L, L2. subst c' m'. change (globe7 (with_alt i y) p (c, m)) with (globe7 i p (c, m)) in E. change (globe7 (with_alt i y') p (c, set_dd m u)) with (globe7 i p (c, set_dd m u)) in E'.
  unfold globe7 in E, E'. cbn zeta in E, E'. cbn [plg loc dfa apdf apt set_dd] in E'. injection E as <- <-. injection E' as <- <-. split; [reflexivity|]. split; [exact I|]. split; [reflexivity|]. exists u. reflexivity.
Qed.
Lemma rel_densu za_ dlb ta tb_ xm al zlb w : rel (densu T za_ dlb ta tb_ xm al zlb w) (densu T za_ dlb ta tb_ xm al zlb w) eq.
Proof.
  intros [c m] [c' m'] a s1 a' s1' I (L & u & L2) E E'. cbn [fst snd] in L, L2. subst c' m'. unfold densu in E, E'.
  apply bind_inv in E. destruct E as (m1 & t1 & E1 & E). injection E1 as <- <-. apply bind_inv in E'. destruct E' as (m1' & t1' & E1' & E'). injection E1' as <- <-. cbn zeta in E, E'. cbn [snd set_dd re] in E, E'.
  destruct (rlt za_ (zn1 T 0)).
  - apply bind_inv in E. destruct E as (q1 & t2 & E1 & E). injection E1 as _ <-. apply bind_inv in E'. destruct E' as (q1' & t2' & E1' & E'). injection E1' as _ <-. cbn [fst snd] in E, E'.
    apply bind_inv in E. destruct E as (m2 & t3 & E1 & E). injection E1 as <- <-. apply bind_inv in E'. destruct E' as (m2' & t3' & E1' & E'). injection E1' as <- <-. cbn [snd] in E, E'.
    apply bind_inv in E. destruct E as (y & t4 & E1 & E). apply bind_inv in E'. destruct E' as (y' & t4' & E1' & E'). apply bind_inv in E1. destruct E1 as (v & t5 & E2 & E1). apply bind_inv in E1'. destruct E1' as (v' & t5' & E2' & E1').
    match type of E2 with fails ?p _ = _ => match type of E2' with fails ?p' _ = _ => change p' with p in E2'; destruct p as [pv|]; [|discriminate] end end. injection E2 as <- <-. injection E2' as <- <-. injection E1 as <- <-. injection E1' as <- <-.
    destruct (rgt (Rabs xm) nearzero); injection E as <- <-; injection E' as <- <-; (split; [reflexivity|]; split; [exact I|]; split; [reflexivity|]; exists u; reflexivity).
  - apply bind_inv in E. destruct E as (q1 & t2 & E1 & E). injection E1 as _ <-. apply bind_inv in E'. destruct E' as (q1' & t2' & E1' & E'). injection E1' as _ <-.
    apply bind_inv in E. destruct E as (m2 & t3 & E1 & E). injection E1 as <- <-. apply bind_inv in E'. destruct E' as (m2' & t3' & E1' & E'). injection E1' as <- <-. cbn [snd] in E, E'.
    apply bind_inv in E. destruct E as (y & t4 & E1 & E). apply bind_inv in E'. destruct E' as (y' & t4' & E1' & E'). injection E1 as <- <-. injection E1' as <- <-.
    destruct (rgt (Rabs xm) nearzero); injection E as <- <-; injection E' as <- <-; (split; [reflexivity|]; split; [exact I|]; split; [reflexivity|]; exists u; reflexivity).
Qed.
(* the value of densu above the boundary *)
Lemma densu_above zz dlb xm al s a s1 : zn1 T 0 < zz -> 0.5 < xm -> densu T zz dlb ti tl xm al (ptm T 5) s2 s = Ok (a, s1) ->
  s1 = s /\ let g := gsurf (snd s) / ((1 + ptm T 5 / re (snd s)) * (1 + ptm T 5 / re (snd s))) in let gam := xm * g / (s2 * r100gas * ti) in let t := prof (ptm T 5) ti tl x (re (snd s)) zz in
    let e := exp (- s2 * gam * zeta (re (snd s)) zz (ptm T 5)) in fst a = dlb * Rpower (tl / t) (1 + al + gam) * (if rgt e 50 || rle t 0 then 50 else e).
Proof.
  intros A X E. unfold densu in E. apply bind_inv in E. destruct E as (m1 & t1 & E1 & E). injection E1 as <- <-. cbn zeta in E.
  replace (rlt zz (zn1 T 0)) with false in E by (clear - A; rdec; first [reflexivity|exfalso; rl]).
  apply bind_inv in E. destruct E as (q1 & t2 & E1 & E). injection E1 as _ <-. apply bind_inv in E. destruct E as (m2 & t3 & E1 & E). injection E1 as <- <-. apply bind_inv in E. destruct E as (y & t4 & E1 & E). injection E1 as <- <-.
  replace (rgt (Rabs xm) nearzero) with true in E by (clear - X; rewrite Rabs_right by rl; unfold nearzero; rdec; first [reflexivity|exfalso; rl]). injection E as <- <-. split; [reflexivity|]. cbn zeta. cbn [fst].
  change (pdl T 1 15) with (zn1 T 0). rewrite (Rmax_left zz (zn1 T 0)) by (clear - A; rl). reflexivity.
Qed.
Lemma lower : tl < ti /\ 0 < s2 /\ 0 < ti.
Proof.
  unfold tb, prof in TG, TI, TP. fold s2 in TG, TI, TP. pose proof (zeta_grows rr z z' (ptm T 5) RR (proj1 LB) ltac:(rl) Z2) as ZG. pose proof (exp_pos (- s2 * zeta rr z' (ptm T 5))) as PB. pose proof (exp_pos (- s2 * zeta rr z (ptm T 5))) as PA.
  assert (D : 0 < ti - tl) by (destruct (Rlt_le_dec 0 (ti - tl)) as [|N]; [assumption|exfalso; assert (0 <= (- (ti - tl)) * exp (- s2 * zeta rr z' (ptm T 5))) by (apply Rmult_le_pos; rl); rl]).
  assert (L : exp (- s2 * zeta rr z' (ptm T 5)) < exp (- s2 * zeta rr z (ptm T 5))) by (apply (Rmult_lt_reg_l (ti - tl)); rl). apply exp_lt_inv in L.
  split; [rl|]. split; [|rl]. destruct (Rlt_le_dec 0 s2) as [|N]; [assumption|exfalso]. assert (0 <= (- s2) * (zeta rr z' (ptm T 5) - zeta rr z (ptm T 5))) by (apply Rmult_le_pos; rl). rl.
Qed.
(* gravity at the lower boundary, and the way to go *)
Definition glb : R := gs / ((1 + ptm T 5 / rr) * (1 + ptm T 5 / rr)).
Definition dz : R := zeta rr z' (ptm T 5) - zeta rr z (ptm T 5).
Lemma dz_pos : 0 < dz.
Proof. unfold dz. pose proof (zeta_grows rr z z' (ptm T 5) RR (proj1 LB) ltac:(rl) Z2). rl. Qed.
Lemma glb_pos : 0 < glb.
Proof. unfold glb. apply Rmult_lt_0_compat; [assumption|]. apply Rinv_0_lt_compat. assert (0 <= ptm T 5 / rr) by (apply Rmult_le_pos; [apply LB|left; apply Rinv_0_lt_compat; exact RR]). apply Rmult_lt_0_compat; rl. Qed.
Lemma falls_value dlb xm al g : 0 < dlb -> 0.5 < xm -> -0.5 <= al -> 0 < g -> let gam := xm * g / (s2 * r100gas * ti) in
  let v a := dlb * Rpower (tl / tb a) (1 + al + gam) * (if rgt (exp (- s2 * gam * zeta rr a (ptm T 5))) 50 || rle (tb a) 0 then 50 else exp (- s2 * gam * zeta rr a (ptm T 5))) in 0 < v z' /\ v z' * exp (xm * g / (r100gas * ti) * dz) < v z.
Proof.
  intros D X A G gam v. destruct lower as (LT & S2 & TIP). assert (RG : 0 < r100gas) by (unfold r100gas; rl).
  assert (GP : 0 < gam). { unfold gam. apply Rmult_lt_0_compat; [apply Rmult_lt_0_compat; rl|]. apply Rinv_0_lt_compat. apply Rmult_lt_0_compat; [apply Rmult_lt_0_compat; assumption|assumption]. }
  pose proof (zeta_grows rr z z' (ptm T 5) RR (proj1 LB) ltac:(rl) Z2) as ZG.
  assert (ZP : 0 < zeta rr z (ptm T 5)). { unfold zeta. apply Rmult_lt_0_compat; [apply Rmult_lt_0_compat; rl|]. apply Rinv_0_lt_compat. rl. }
  assert (SG : 0 < s2 * gam) by (apply Rmult_lt_0_compat; assumption).
  assert (CL : forall a, 0 < zeta rr a (ptm T 5) -> 0 < tb a -> (if rgt (exp (- s2 * gam * zeta rr a (ptm T 5))) 50 || rle (tb a) 0 then 50 else exp (- s2 * gam * zeta rr a (ptm T 5))) = exp (- s2 * gam * zeta rr a (ptm T 5))).
  { intros a ZZ TT. assert (exp (- s2 * gam * zeta rr a (ptm T 5)) < 1). { rewrite <- exp_0 at 1. apply exp_increasing. assert (0 < s2 * gam * zeta rr a (ptm T 5)) by (apply Rmult_lt_0_compat; assumption). rl. }
    replace (rgt (exp (- s2 * gam * zeta rr a (ptm T 5))) 50) with false by (clear - H; rdec; first [reflexivity|exfalso; rl]). replace (rle (tb a) 0) with false by (clear - TT; rdec; first [reflexivity|exfalso; rl]). reflexivity. }
  unfold v. rewrite (CL z) by (first [assumption|rl]). rewrite (CL z') by (first [assumption|rl]). clear v. set (ez := exp (- s2 * gam * zeta rr z (ptm T 5))). set (ez' := exp (- s2 * gam * zeta rr z' (ptm T 5))).
  assert (EE : 0 < ez' /\ ez' * exp (xm * g / (r100gas * ti) * dz) = ez). { split; [apply exp_pos|]. unfold ez, ez'. rewrite <- exp_plus. f_equal. unfold dz, gam. field. repeat split; rl. }
  assert (Q : 0 < tl / tb z' < tl / tb z). { split; [apply Rmult_lt_0_compat; [assumption|apply Rinv_0_lt_compat; rl]|]. apply Rmult_lt_compat_l; [assumption|]. apply Rinv_lt_contravar; [apply Rmult_lt_0_compat; rl|exact TG]. }
  assert (PW : 0 < Rpower (tl / tb z') (1 + al + gam) < Rpower (tl / tb z) (1 + al + gam)). { split; [apply exp_pos|]. unfold Rpower. apply exp_increasing. apply Rmult_lt_compat_l; [rl|]. apply ln_increasing; rl. }
  pose proof (exp_pos (xm * g / (r100gas * ti) * dz)) as WP. set (w := exp (xm * g / (r100gas * ti) * dz)) in *. clearbody ez ez' w. set (p := Rpower (tl / tb z) (1 + al + gam)) in *. set (p' := Rpower (tl / tb z') (1 + al + gam)) in *. clearbody p p'. clear - D EE PW WP. destruct EE as [E0 <-].
  split; [repeat apply Rmult_lt_0_compat; rl|]. rewrite !Rmult_assoc. apply Rmult_lt_compat_l; [exact D|]. apply Rmult_lt_compat_r; [apply Rmult_lt_0_compat; assumption|rl].
Qed.
Definition down (v v' : R) : Prop := 0 < v' < v.
Definition steep (xm v v' : R) : Prop := 0 < v' /\ v' * exp (xm * glb / (r100gas * ti) * dz) < v.
Lemma steep_down xm v v' : 0 < xm -> steep xm v v' -> down v v'.
Proof.
  intros X [P H]. split; [exact P|]. destruct lower as (_ & _ & TIP). assert (RG : 0 < r100gas) by (unfold r100gas; rl). assert (E : 0 < xm * glb / (r100gas * ti) * dz).
  { apply Rmult_lt_0_compat; [|exact dz_pos]. apply Rmult_lt_0_compat; [apply Rmult_lt_0_compat; [exact X|exact glb_pos]|]. apply Rinv_0_lt_compat. apply Rmult_lt_0_compat; assumption. }
  apply exp_increasing in E. rewrite exp_0 in E. apply Rlt_trans with (v' * exp (xm * glb / (r100gas * ti) * dz)); [|exact H]. apply Rle_lt_trans with (v' * 1); [rl|]. apply Rmult_lt_compat_l; assumption.
Qed.
Lemma rel_steep dlb xm al : 0 < dlb -> 0.5 < xm -> -0.5 <= al -> rel (densu T z dlb ti tl xm al (ptm T 5) s2) (densu T z' dlb ti tl xm al (ptm T 5) s2) (fun a a' => steep xm (fst a) (fst a')).
Proof.
  intros D X A [c m] [c' m'] a s1 a' s1' I (L & u & L2) E E'. cbn [fst snd] in L, L2. subst c' m'. destruct (densu_above _ _ _ _ _ _ _ ZA X E) as (-> & V). destruct (densu_above z' _ _ _ _ _ _ ltac:(rl) X E') as (-> & V').
  split; [|split; [exact I|split; [reflexivity|exists u; reflexivity]]]. cbn zeta in V, V'. destruct I as (R1 & G1 & _). cbn [snd set_dd re gsurf] in *. rewrite R1, G1 in V, V'. unfold steep. rewrite V, V'. apply (falls_value dlb xm al glb D X A glb_pos).
Qed.
Lemma rel_falls dlb xm al : 0 < dlb -> 0.5 < xm -> -0.5 <= al -> rel (densu T z dlb ti tl xm al (ptm T 5) s2) (densu T z' dlb ti tl xm al (ptm T 5) s2) (fun a a' => down (fst a) (fst a')).
Proof.
  intros D X A s s' a s1 a' s1' I L E E'. destruct (rel_steep dlb xm al D X A s s' a s1 a' s1' I L E E') as (Q & R). split; [|exact R]. apply (steep_down xm); [rl|exact Q].
Qed.
(* the anomalous oxygen, at a temperature of its own *)
Definition tho : R := pdm T 7 9 * pdl T 0 6.
Context (THO : 0 < tho) (ZM : pdm T 7 4 = 550) (ZS : pdm T 7 5 = 76).
Lemma rel_hot dlb : 0 < dlb -> rel (densu T z dlb tho tho 16 0 (ptm T 5) s2) (densu T z' dlb tho tho 16 0 (ptm T 5) s2) (fun a a' => 0 < fst a' /\ fst a' * exp (16 * glb / (r100gas * tho) * dz) = fst a).
Proof.
  intros D [c m] [c' m'] a s1 a' s1' I (L & u & L2) E E'. cbn [fst snd] in L, L2. subst c' m'. destruct lower as (_ & S2 & _). assert (RG : 0 < r100gas) by (unfold r100gas; rl).
  set (gam := 16 * glb / (s2 * r100gas * tho)). assert (GP : 0 < gam). { unfold gam. apply Rmult_lt_0_compat; [apply Rmult_lt_0_compat; [rl|exact glb_pos]|]. apply Rinv_0_lt_compat. apply Rmult_lt_0_compat; [apply Rmult_lt_0_compat; assumption|assumption]. }
  assert (K : forall zz c m a s1, ptm T 5 < zz -> zn1 T 0 < zz -> inv (c, m) -> densu T zz dlb tho tho 16 0 (ptm T 5) s2 (c, m) = Ok (a, s1) -> s1 = (c, m) /\ fst a = dlb * exp (- s2 * gam * zeta rr zz (ptm T 5))).
  { clear E E' I a s1 a' s1' c m. intros zz c m a s1 B A (R1 & G1 & _) E. cbn [snd] in R1, G1. unfold densu in E. apply bind_inv in E. destruct E as (m1 & t1 & E1 & E). injection E1 as <- <-. cbn zeta in E. cbn [snd] in E.
    replace (rlt zz (zn1 T 0)) with false in E by (clear - A; rdec; first [reflexivity|exfalso; rl]).
    apply bind_inv in E. destruct E as (q1 & t2 & E1 & E). injection E1 as _ <-. apply bind_inv in E. destruct E as (m2 & t3 & E1 & E). injection E1 as <- <-. apply bind_inv in E. destruct E as (y & t4 & E1 & E). injection E1 as <- <-. cbn [snd] in E.
    replace (rgt (Rabs 16) nearzero) with true in E by (clear; rewrite Rabs_right by rl; unfold nearzero; rdec; first [reflexivity|exfalso; rl]). rewrite R1, G1 in E. change (pdl T 1 15) with (zn1 T 0) in E. rewrite (Rmax_left zz (zn1 T 0)) in E by (clear - A; rl).
    fold glb in E. fold gam in E. replace (tho - (tho - tho) * exp (- s2 * zeta rr zz (ptm T 5))) with tho in E by ring.
    assert (ZP : 0 < zeta rr zz (ptm T 5)). { unfold zeta. apply Rmult_lt_0_compat; [apply Rmult_lt_0_compat; rl|]. apply Rinv_0_lt_compat. rl. }
    assert (EX : exp (- s2 * gam * zeta rr zz (ptm T 5)) < 1). { rewrite <- exp_0 at 1. apply exp_increasing. assert (0 < s2 * gam * zeta rr zz (ptm T 5)) by (apply Rmult_lt_0_compat; [apply Rmult_lt_0_compat|]; assumption). rl. }
    replace (rgt (exp (- s2 * gam * zeta rr zz (ptm T 5))) 50) with false in E by (clear - EX; rdec; first [reflexivity|exfalso; rl]). replace (rle tho 0) with false in E by (clear - THO; rdec; first [reflexivity|exfalso; rl]). cbn [orb] in E. injection E as <- <-. split; [reflexivity|]. cbn [fst].
    replace (tho / tho) with 1 by (field; rl). unfold Rpower. rewrite ln_1, Rmult_0_r, exp_0. ring. }
  destruct (K z c m a s1 ltac:(rl) ZA I E) as (-> & V). destruct (K z' c (set_dd m u) a' s1' ltac:(rl) ltac:(rl) I E') as (-> & V').
  split; [|split; [exact I|split; [reflexivity|exists u; reflexivity]]]. rewrite V, V'. split; [apply Rmult_lt_0_compat; [exact D|apply exp_pos]|]. rewrite Rmult_assoc, <- exp_plus. f_equal. f_equal. unfold dz, gam. field. repeat split; rl.
Qed.
Definition upper (y : R) : R := exp (Ropp 76 / (r100gas * tho / (gs / ((1 + 550 / rr) * (1 + 550 / rr)) * 16)) * (exp (- (y - 550) / 76) - 1)).
Lemma upper_slow : upper z' < upper z * exp (16 * glb / (r100gas * tho) * dz).
Proof.
  unfold upper. rewrite <- exp_plus. apply exp_increasing. assert (RG : 0 < r100gas) by (unfold r100gas; rl). assert (KP : 0 < r100gas * tho) by (apply Rmult_lt_0_compat; assumption).
  set (R0 := r100gas * tho) in *. clearbody R0.
  pose proof (slower rr 550 76 z z' ltac:(rl) ltac:(rl) Z1 Z2) as S. unfold dz. rewrite zeta_step by rl. unfold glb.
  set (E := exp (- (z - 550) / 76)) in *. set (E' := exp (- (z' - 550) / 76)) in *. clearbody E E'.
  assert (HQ : 0 < ptm T 5 + rr) by rl.
  replace (Ropp 76 / (R0 / (gs / ((1 + 550 / rr) * (1 + 550 / rr)) * 16)) * (E' - 1)) with (16 * gs * (rr * rr) / R0 * (Ropp 76 / ((rr + 550) * (rr + 550)) * (E' - 1))) by (field; repeat split; rl).
  replace (Ropp 76 / (R0 / (gs / ((1 + 550 / rr) * (1 + 550 / rr)) * 16)) * (E - 1)) with (16 * gs * (rr * rr) / R0 * (Ropp 76 / ((rr + 550) * (rr + 550)) * (E - 1))) by (field; repeat split; rl).
  replace (16 * (gs / ((1 + ptm T 5 / rr) * (1 + ptm T 5 / rr))) / R0 * ((z' - z) * ((rr + ptm T 5) * (rr + ptm T 5)) / ((rr + z) * (rr + z')))) with (16 * gs * (rr * rr) / R0 * ((z' - z) / ((rr + z) * (rr + z')))) by (field; repeat split; rl).
  rewrite <- Rmult_plus_distr_l. apply Rmult_lt_compat_l. { apply Rmult_lt_0_compat; [repeat apply Rmult_lt_0_compat; rl|apply Rinv_0_lt_compat; exact KP]. }
  assert (P1 : 0 < (rr + 550) * (rr + 550)) by (apply Rmult_lt_0_compat; rl). assert (P2 : 0 < (rr + z) * (rr + z')) by (apply Rmult_lt_0_compat; rl). set (p1 := (rr + 550) * (rr + 550)) in *. set (p2 := (rr + z) * (rr + z')) in *. clearbody p1 p2.
  apply (Rmult_lt_reg_r (p1 * p2)); [apply Rmult_lt_0_compat; assumption|]. replace (Ropp 76 / p1 * (E' - 1) * (p1 * p2)) with (Ropp 76 * (E' - 1) * p2) by (field; rl). replace ((Ropp 76 / p1 * (E - 1) + (z' - z) / p2) * (p1 * p2)) with (Ropp 76 * (E - 1) * p2 + (z' - z) * p1) by (field; split; rl). rl.
Qed.
Lemma far k y : z <= y -> rle y (altl k) = false.
Proof. intros H. assert (altl k <= 450) by (do 8 (destruct k as [|k]; [cbn [altl]; rl|]); cbn [altl]; rl). clear - H H0 Z1. rdec; first [reflexivity|exfalso; rl]. Qed.
(* what has fallen so far.  The correction of molecular oxygen may grow, but not faster *)
Definition rc32 : R := pdm T 3 3 * pdl T 1 23 * (1 + sw i 0 * pdl T 0 23 * (f107A i - 150)).
Definition corr (y : R) : R := ccor2 y rc32 (pdm T 3 7 * pdl T 1 22) (pdm T 3 6 * pdl T 1 21) (pdm T 3 7 * pdl T 0 22).
Context (CORR : corr z' <= corr z * exp (32 * glb / (r100gas * ti) * dz)).
Definition fallen (n : nat) (o o' : output) : Prop := ((1 <= n)%nat -> down (d2 o) (d2 o')) /\ ((2 <= n)%nat -> down (d0 o) (d0 o')) /\ ((3 <= n)%nat -> down (d1 o) (d1 o')) /\ ((4 <= n)%nat -> down (d3 o) (d3 o')) /\ ((5 <= n)%nat -> down (d4 o) (d4 o')) /\ ((6 <= n)%nat -> down (d6 o) (d6 o')) /\ ((7 <= n)%nat -> down (d7 o) (d7 o')).
Ltac fl := match goal with H : fallen _ _ _ |- fallen _ _ _ => destruct H as (P2 & P0 & P1 & P3 & P4 & P6 & P7); unfold fallen, set_t1, set_d0, set_d1, set_d2, set_d3, set_d4, set_d5, set_d6, set_d7, set_d8; cbn [d0 d1 d2 d3 d4 d5 d6 d7 d8]; repeat split; intros; try (apply P2; lia); try (apply P0; lia); try (apply P1; lia); try (apply P3; lia); try (apply P4; lia); try (apply P6; lia); try (apply P7; lia); try lia end.
Lemma db_pos k j e : (k <= 7)%nat -> (j <= 8)%nat -> j <> 3%nat -> 0 < pdm T k 0 * exp e * pd T j 0.
Proof. intros K J N. apply Rmult_lt_0_compat; [apply Rmult_lt_0_compat; [apply (pos_pdm T CP), K|apply exp_pos]|apply (pos_pd T CP); assumption]. Qed.
Lemma altl_z : rlt z (altl 5) = false /\ rlt z' (altl 5) = false.
Proof. cbn [altl]. split; rdec; first [reflexivity|exfalso; rl]. Qed.
Ltac two := cbn zeta; cbn [alt with_alt sw f107A]; rewrite ?(far _ z (Rle_refl z)), ?(far _ z' (Rlt_le _ _ Z2)); cbn [andb].
Ltac globe := eapply rel_bind; [apply rel_globe7|]; let g := fresh "g" in intros g ? <-; two.
Ltac drop := let H := fresh "H" in intros ? ? H; cbv beta in H; eapply rel_bind; [apply rel_dd|]; intros ? ? _; two.
Ltac dns k j := eapply rel_bind; [apply rel_falls; [apply (db_pos k j); lia|rl|cbn [alpha]; rl]|]; drop.
Lemma rel_molecular g28 zhf xmm o o' : rel (molecular T (with_alt i z) 48 ti tl s2 g28 zhf xmm o) (molecular T (with_alt i z') 48 ti tl s2 g28 zhf xmm o') (fun r r' => fst r = fst r' /\ fallen 1 (snd r) (snd r')).
Proof.
  unfold molecular. two. rewrite (proj1 altl_z), (proj2 altl_z). cbn [Z.eqb orb Pos.eqb]. dns 2%nat 2%nat.
  eapply rel_bind; [apply rel_densu|]. intros b ? <-. two. apply rel_ret. cbn [fst snd]. split; [reflexivity|]. assert (F : fallen 0 o o') by (unfold fallen; repeat split; intros; lia). fl. all: apply H.
Qed.
Lemma rel_helium xmm zh b o o' : fallen 1 o o' -> rel (helium T (with_alt i z) ti tl s2 xmm zh b o) (helium T (with_alt i z') ti tl s2 xmm zh b o') (fallen 2).
Proof. intros F. unfold helium. two. globe. unfold diffusive. dns 0%nat 0%nat. apply rel_ret. fl. all: apply H. Qed.
Lemma rel_oxygen xmm zh o o' : fallen 2 o o' -> rel (oxygen T (with_alt i z) ti tl s2 xmm zh o) (oxygen T (with_alt i z') ti tl s2 xmm zh o') (fallen 3).
Proof. intros F. unfold oxygen. two. globe. unfold diffusive. dns 1%nat 1%nat. apply rel_ret. fl. all: apply H. Qed.
Lemma corr_pos y : 0 < corr y. Proof. unfold corr, ccor2. apply exp_pos. Qed.
Lemma rel_oxygen2 xmm zh b o o' : fallen 3 o o' -> rel (oxygen2 T (with_alt i z) ti tl s2 xmm zh b 48 o) (oxygen2 T (with_alt i z') ti tl s2 xmm zh b 48 o') (fallen 4).
Proof.
  intros F. unfold oxygen2. two. globe. unfold diffusive. eapply rel_bind; [apply rel_steep; [apply (db_pos 3 4); lia|rl|cbn [alpha]; rl]|]. drop. pose proof (steep_down 32 _ _ ltac:(rl) H) as HD. destruct (on (sw i 14)) eqn:ON.
  - eapply rel_bind; [apply (rel_ret _ _ (fun a a' => fallen 3 a a' /\ steep 32 (d3 a) (d3 a')))|]. { split; [fl|exact H]. }
    intros w w' [F' D]. apply rel_ret. fold rc32. fold (corr z) (corr z'). pose proof (corr_pos z) as C1. pose proof (corr_pos z') as C2. unfold steep in D. clear H HD F. rename F' into F. fl.
    + apply Rmult_lt_0_compat; [apply D|exact C2].
    + destruct D as [D1 D2]. apply Rle_lt_trans with (d3 w' * (corr z * exp (32 * glb / (r100gas * ti) * dz))); [apply Rmult_le_compat_l; rl|]. replace (d3 w' * (corr z * exp (32 * glb / (r100gas * ti) * dz))) with (d3 w' * exp (32 * glb / (r100gas * ti) * dz) * corr z) by ring. apply Rmult_lt_compat_r; assumption.
  - apply rel_ret. fl. all: apply HD.
Qed.
Lemma rel_argon xmm zh b o o' : fallen 4 o o' -> rel (argon T (with_alt i z) ti tl s2 xmm zh b o) (argon T (with_alt i z') ti tl s2 xmm zh b o') (fallen 5).
Proof. intros F. unfold argon. two. globe. unfold diffusive. dns 4%nat 5%nat. apply rel_ret. fl. all: apply H. Qed.
Lemma rel_hydrogen xmm zh b o o' : fallen 5 o o' -> rel (hydrogen T (with_alt i z) ti tl s2 xmm zh b o) (hydrogen T (with_alt i z') ti tl s2 xmm zh b o') (fallen 6).
Proof. intros F. unfold hydrogen. two. globe. unfold diffusive. dns 5%nat 6%nat. apply rel_ret. fl. all: apply H. Qed.
Lemma rel_nitrogen xmm zh b o o' : fallen 6 o o' -> rel (nitrogen T (with_alt i z) ti tl s2 xmm zh b o) (nitrogen T (with_alt i z') ti tl s2 xmm zh b o') (fallen 7).
Proof. intros F. unfold nitrogen. two. globe. unfold diffusive. dns 6%nat 7%nat. apply rel_ret. fl. all: apply H. Qed.
Definition done (o o' : output) : Prop := fallen 7 o o' /\ down (d5 o) (d5 o') /\ down (d8 o) (d8 o').
Lemma rel_anomalous o o' : fallen 7 o o' -> rel (anomalous T (with_alt i z) s2 48 o) (anomalous T (with_alt i z') s2 48 o') done.
Proof.
  intros F. unfold anomalous. two. globe. cbn [alpha]. fold tho. eapply rel_bind; [apply rel_hot; apply (db_pos 7 8); lia|]. drop. destruct H as [HP HE].
  eapply (rel_bind _ _ _ _ (fun m m' => re m = rr /\ gsurf m = gs /\ re m' = rr /\ gsurf m' = gs)). { intros y y' w y1 w' y1' (I1 & I2 & I3) (L & u & L2) E E'. injection E as <- <-. injection E' as <- <-. rewrite L2. cbn [re gsurf set_dd]. repeat split; try assumption. exists u. exact L2. }
  intros m m' (M1 & M2 & M3 & M4). apply rel_ret. unfold scalh. rewrite M1, M2, M3, M4, ZM, ZS. fold (upper z) (upper z'). cbn [Z.eqb Pos.eqb].
  split; [fl|]. destruct F as (P2 & P0 & P1 & P3 & P4 & P6 & P7). specialize (P2 ltac:(lia)). specialize (P0 ltac:(lia)). specialize (P1 ltac:(lia)). specialize (P3 ltac:(lia)). specialize (P4 ltac:(lia)). specialize (P6 ltac:(lia)). specialize (P7 ltac:(lia)).
  unfold set_d5, set_t1, set_d8. cbn [d0 d1 d2 d3 d4 d5 d6 d7 d8]. unfold down in *. split.
  - split; [apply Rmult_lt_0_compat; [|rl]|apply Rmult_lt_compat_l; [|rl]]; (apply Rmult_lt_0_compat; [rl|apply Rinv_0_lt_compat; apply pow_lt; rl]).
  - split; [apply Rmult_lt_0_compat; [exact HP|apply exp_pos]|]. rewrite <- HE. rewrite Rmult_assoc. apply Rmult_lt_compat_l; [exact HP|]. rewrite (Rmult_comm (exp (16 * glb / (r100gas * tho) * dz))). exact upper_slow.
Qed.
Lemma rel_species o o' : rel (species T (with_alt i z) 48 ti tl s2 o) (species T (with_alt i z') 48 ti tl s2 o') done.
Proof.
  unfold species. eapply rel_bind; [apply rel_globe7|]. intros g ? <-. cbn zeta. cbn [mass_index Nat.eqb among existsb orb sw glat doy with_alt].
  eapply rel_bind; [apply rel_molecular|]. intros [[zh b] o1] [[zh' b'] o1'] [E F]. cbn [fst snd] in E, F. injection E as <- <-.
  eapply rel_bind; [eapply rel_bind; [apply rel_helium; exact F|intros; apply rel_oxygen; assumption]|]. intros o2 o2' F2.
  eapply rel_bind; [apply rel_oxygen2; exact F2|]. intros o3 o3' F3. eapply rel_bind; [apply rel_argon; exact F3|]. intros o4 o4' F4.
  eapply rel_bind; [eapply rel_bind; [apply rel_hydrogen; exact F4|intros; apply rel_nitrogen; assumption]|]. intros o5 o5' F5. apply rel_anomalous. exact F5.
Qed.
End Falling.

(* ---- the tables of the code ---- *)
Lemma code_o2 : pdm code_tables 3 3 = 1 /\ pdl code_tables 1 23 = Ropp 0.74623 /\ pdl code_tables 0 23 = 0.0310302 /\ pdm code_tables 3 7 = Ropp 10 /\ pdl code_tables 1 22 = 3.44689 /\ pdm code_tables 3 6 = 110 /\ pdl code_tables 1 21 = 1.1502 /\ pdl code_tables 0 22 = 1.2884 /\
  pdm code_tables 7 4 = 550 /\ pdm code_tables 7 5 = 76 /\ pdm code_tables 7 9 = 4000 /\ pdl code_tables 0 6 = 1.
Proof. cbn [pdl pdm code_tables]. unfold real2. cbn [nth q_pdl q_pdm]. unfold Q2R. cbn [Qnum Qden]. repeat split; Lra.lra. Qed.
Lemma glatf_bounds x : 970 < fst (glatf x) /\ 6300 < snd (glatf x).
Proof.
  unfold glatf, egrav. cbn [fst snd]. pose proof (COS_bound (2 * deg2rad x)) as [A B]. set (c := cos (2 * deg2rad x)) in *. clearbody c. split; [rl|].
  assert (P : 0 < 0.000003085462 + 0.00000000227 * c) by rl. apply (Rmult_lt_reg_r (0.000003085462 + 0.00000000227 * c)); [exact P|].
  replace (2 * (9.80665 * 100 * (1 - 0.0026373 * c)) / (0.000003085462 + 0.00000000227 * c) * 0.00001 * (0.000003085462 + 0.00000000227 * c)) with (2 * (9.80665 * 100 * (1 - 0.0026373 * c)) * 0.00001); [rl|].
  generalize dependent (0.000003085462 + 0.00000000227 * c). intros q Q. unfold Rdiv. rewrite !Rmult_assoc. rewrite (Rmult_comm (/ q)), !Rmult_assoc. rewrite (Rmult_comm q (/ q)), Rinv_l by rl. ring.
Qed.
Lemma exp_12 : exp (- 12) <= / 4096.
Proof.
  pose proof (exp_ineq1_le 1) as H. assert (D : forall y, 0 < y -> forall a, y <= exp a -> y * y <= exp (a + a)) by (intros y Y a Q; rewrite exp_plus; apply Rmult_le_compat; rl).
  assert (H2 : 4 <= exp 2) by (replace 2 with (1 + 1) by rl; replace 4 with (2 * 2) by rl; apply D; rl). assert (H4 : 16 <= exp 4) by (replace 4 with (2 + 2) by rl; replace 16 with (4 * 4) by rl; apply D; rl).
  assert (H8 : 256 <= exp 8) by (replace 8 with (4 + 4) by rl; replace 256 with (16 * 16) by rl; apply D; rl). assert (H12 : 4096 <= exp 12) by (replace 12 with (8 + 4) by rl; rewrite exp_plus; replace 4096 with (256 * 16) by rl; apply Rmult_le_compat; rl).
  replace (- 12) with (Ropp 12) by rl. rewrite exp_Ropp. apply Rinv_le_contravar; [rl|exact H12].
Qed.
Lemma one_scale rr h z z' : 12 < h < 35 -> 6300 < rr -> 550 <= z -> z < z' ->
  0 <= exp (- ((z - 126.522) / h)) - exp (- ((z' - 126.522) / h)) <= / 49152 * ((z' - z) * ((rr + 550) * (rr + 550)) / ((rr + z) * (rr + z'))).
Proof.
  intros H R A B. assert (IH : 0 < / h) by (apply Rinv_0_lt_compat; rl). assert (P : 0 < (rr + z) * (rr + z')) by (apply Rmult_lt_0_compat; rl).
  assert (SP : forall y, exp (- ((y - 126.522) / h)) = exp (- (423.478 / h)) * exp (- (y - 550) / h)). { intros y. rewrite <- exp_plus. f_equal. replace 126.522 with (550 - 423.478) by rl. generalize 423.478. intros w. field. rl. }
  assert (C : 0 < exp (- (423.478 / h)) <= / 4096). { split; [apply exp_pos|]. apply Rle_trans with (exp (- 12)); [|exact exp_12]. left. apply exp_increasing. assert (12 < 423.478 / h). { apply (Rmult_lt_reg_r h); [rl|]. unfold Rdiv. rewrite Rmult_assoc, Rinv_l by rl. rl. } rl. }
  pose proof (slower rr 550 h z z' ltac:(rl) ltac:(rl) A B) as S. assert (E : 0 < exp (- (z - 550) / h) - exp (- (z' - 550) / h)).
  { assert (exp (- (z' - 550) / h) < exp (- (z - 550) / h)); [|rl]. apply exp_increasing. assert (0 < (z' - z) * / h) by (apply Rmult_lt_0_compat; rl). unfold Rdiv. rl. }
  rewrite (SP z), (SP z'), <- Rmult_minus_distr_l. set (e := exp (- (z - 550) / h) - exp (- (z' - 550) / h)) in *. set (c := exp (- (423.478 / h))) in *. clearbody c e. clear SP. split; [apply Rmult_le_pos; rl|].
  set (w := (z' - z) * ((rr + 550) * (rr + 550))) in *. set (p := (rr + z) * (rr + z')) in *. clearbody w p. assert (X : 12 * e * p <= w). { apply Rle_trans with (h * e * p); [|rl]. apply Rmult_le_compat_r; [rl|]. apply Rmult_le_compat_r; rl. }
  assert (Y : e <= / 12 * (w / p)). { apply (Rmult_le_reg_r (12 * p)); [rl|]. replace (/ 12 * (w / p) * (12 * p)) with w by (field; rl). rl. }
  assert (WP : 0 <= w / p) by rl. apply Rle_trans with (/ 4096 * e); [apply Rmult_le_compat_r; rl|]. rl.
Qed.
Lemma corr_slow i z z' gs rr ti : 970 < gs -> 6300 < rr -> 0 < ti <= 5000 -> Rabs (sw i 0 * (f107A i - 150)) <= 10000 -> 550 <= z -> z < z' -> z' <= 2500 ->
  corr code_tables i z' <= corr code_tables i z * exp (32 * glb code_tables gs rr / (r100gas * ti) * dz code_tables z z' rr).
Proof.
  intros G R T F A B C. destruct code_o2 as (C1 & C2 & C3 & C4 & C5 & C6 & C7 & C8 & _). destruct code_layers as (_ & C9 & _).
  set (r := rc32 code_tables i). assert (RB : Rabs r <= 233).
  { unfold r, rc32. rewrite C1, C2, C3. replace (1 * Ropp 0.74623 * (1 + sw i 0 * 0.0310302 * (f107A i - 150))) with (Ropp 0.74623 + Ropp (0.74623 * 0.0310302) * (sw i 0 * (f107A i - 150))) by rl.
    set (q := sw i 0 * (f107A i - 150)) in *. clearbody q. apply Rabs_le. revert F. unfold Rabs. destruct (Rcase_abs q); intros; split; rl. }
  unfold corr, ccor2. fold r. rewrite C4, C5, C6, C7, C8. cbn zeta. replace (110 * 1.1502) with 126.522 by rl.
  assert (H1 : forall y, (y - 126.522) / (Ropp 10 * 3.44689) = - ((y - 126.522) / 34.4689)) by (intros y; replace (Ropp 10 * 3.44689) with (Ropp 34.4689) by rl; unfold Rdiv; rewrite Rinv_opp; ring).
  assert (H2 : forall y, (y - 126.522) / (Ropp 10 * 1.2884) = - ((y - 126.522) / 12.884)) by (intros y; replace (Ropp 10 * 1.2884) with (Ropp 12.884) by rl; unfold Rdiv; rewrite Rinv_opp; ring).
  rewrite !H1, !H2. assert (CL : forall y, 550 <= y <= 2500 -> rgt (- ((y - 126.522) / 34.4689)) 70 = false /\ rgt (- ((y - 126.522) / 12.884)) 70 = false /\ rlt (- ((y - 126.522) / 34.4689)) (-70) = false).
  { intros y Y. repeat split; rdec; first [reflexivity|exfalso; rl]. }
  destruct (CL z ltac:(rl)) as (-> & -> & ->). destruct (CL z' ltac:(rl)) as (-> & -> & ->). cbn [orb andb].
  destruct (one_scale rr 34.4689 z z' ltac:(rl) R A B) as [L1 U1]. destruct (one_scale rr 12.884 z z' ltac:(rl) R A B) as [L2 U2].
  pose proof (exp_pos (- ((z - 126.522) / 34.4689))) as P1. pose proof (exp_pos (- ((z - 126.522) / 12.884))) as P2. pose proof (exp_pos (- ((z' - 126.522) / 34.4689))) as P3. pose proof (exp_pos (- ((z' - 126.522) / 12.884))) as P4.
  set (e1 := exp (- ((z - 126.522) / 34.4689))) in *. set (e2 := exp (- ((z - 126.522) / 12.884))) in *. set (e1' := exp (- ((z' - 126.522) / 34.4689))) in *. set (e2' := exp (- ((z' - 126.522) / 12.884))) in *. clearbody e1 e2 e1' e2'. clear H1 H2 CL.
  rewrite <- exp_plus. match goal with |- exp ?a <= exp ?b => cut (a <= b); [intros [L| ->]; [left; apply exp_increasing, L|right; reflexivity]|] end.
  set (w := (z' - z) * ((rr + 550) * (rr + 550)) / ((rr + z) * (rr + z'))) in *. assert (WP : 0 <= w) by rl.
  (* the growth of the correction *)
  assert (GR : r / (1 + 0.5 * (e1' + e2')) - r / (1 + 0.5 * (e1 + e2)) <= 233 * (/ 49152 * w)).
  { set (u := 1 + 0.5 * (e1 + e2)). set (u' := 1 + 0.5 * (e1' + e2')). assert (U : 1 < u') by (unfold u'; rl). assert (UU : 1 < u) by (unfold u; rl). replace (r / u' - r / u) with (r * ((u - u') / (u * u'))) by (field; split; rl).
    assert (UV : 1 <= u * u') by (apply Rle_trans with (1 * 1); [rl|apply Rmult_le_compat; rl]). assert (D0 : 0 <= u - u' <= / 49152 * w) by (unfold u, u'; rl).
    assert (Q : 0 <= (u - u') / (u * u') <= / 49152 * w). { split; [apply Rmult_le_pos; [apply D0|left; apply Rinv_0_lt_compat; rl]|]. apply (Rmult_le_reg_r (u * u')); [rl|]. unfold Rdiv. rewrite Rmult_assoc, Rinv_l by rl. assert (/ 49152 * w * 1 <= / 49152 * w * (u * u')) by (apply Rmult_le_compat_l; rl). rl. }
    apply Rle_trans with (Rabs r * ((u - u') / (u * u'))); [apply Rmult_le_compat_r; [apply Q|apply Rle_abs]|]. apply Rmult_le_compat; [apply Rabs_pos|apply Q|exact RB|apply Q]. }
  (* the fall of the density *)
  assert (FL : 32 * glb code_tables gs rr / (r100gas * ti) * dz code_tables z z' rr = 32 * gs / (r100gas * ti) * (rr * rr / ((rr + 550) * (rr + 550))) * w).
  { unfold glb, dz, w. rewrite zeta_step by rl. assert (r100gas <> 0) by (unfold r100gas; rl). rewrite C9. field. repeat split; rl. }
  rewrite FL. assert (K : 0.0052 <= 32 * gs / (r100gas * ti) * (rr * rr / ((rr + 550) * (rr + 550)))).
  { assert (RG : 0 < r100gas <= 832) by (unfold r100gas; rl). assert (X : 0.0074 <= 32 * gs / (r100gas * ti)).
    { assert (PT : 0 < r100gas * ti) by (apply Rmult_lt_0_compat; rl). apply (Rmult_le_reg_r (r100gas * ti)); [exact PT|]. unfold Rdiv. rewrite Rmult_assoc, Rinv_l by rl. assert (r100gas * ti <= 832 * 5000) by (apply Rmult_le_compat; rl). rl. }
    assert (Y : 0.8 <= rr * rr / ((rr + 550) * (rr + 550))).
    { assert (PT : 0 < (rr + 550) * (rr + 550)) by (apply Rmult_lt_0_compat; rl). apply (Rmult_le_reg_r ((rr + 550) * (rr + 550))); [exact PT|]. unfold Rdiv. rewrite (Rmult_assoc (rr * rr)), Rinv_l by rl.
      assert (6300 * rr <= rr * rr) by (apply Rmult_le_compat_r; rl). assert (6300 * 6300 <= 6300 * rr) by rl. rl. }
    apply Rle_trans with (0.0074 * 0.8); [rl|]. apply Rmult_le_compat; rl. }
  assert (0.0052 * w <= 32 * gs / (r100gas * ti) * (rr * rr / ((rr + 550) * (rr + 550))) * w) by (apply Rmult_le_compat_r; assumption). rl.
Qed.

(* ---- the whole call ---- *)
Lemma temperatures_high T i z z' s a s1 : 300 <= z -> 300 <= z' -> zn1 T 0 < z -> zn1 T 0 < z' -> temperatures T (with_alt i z) s = Ok (a, s1) -> temperatures T (with_alt i z') s = Ok (a, s1).
Proof.
  intros H H' A A'. unfold temperatures. cbn [alt with_alt].
  assert (B : forall y, 300 <= y -> zn1 T 0 < y -> rgt y (zn1 T 0) = true /\ rgt y (zn1 T 4) = true /\ rle 300 y = true) by (clear; intros y Y Z; cbn [zn1] in *; repeat split; rdec; first [reflexivity|exfalso; rl]).
  destruct (B z H A) as (-> & -> & ->). destruct (B z' H' A') as (-> & -> & ->). intros E. exact E.
Qed.
Definition all_down (o o' : output) : Prop := down (d0 o) (d0 o') /\ down (d1 o) (d1 o') /\ down (d2 o) (d2 o') /\ down (d3 o) (d3 o') /\ down (d4 o) (d4 o') /\ down (d5 o) (d5 o') /\ down (d6 o) (d6 o') /\ down (d7 o) (d7 o') /\ down (d8 o) (d8 o').
Lemma down_scale k v v' : 0 < k -> down v v' -> down (v * k) (v' * k).
Proof. intros K [A B]. split; [apply Rmult_lt_0_compat; assumption|apply Rmult_lt_compat_r; assumption]. Qed.
Lemma gtd7_falls i z z' o oc tz o' oc' tz' s r s1 r' s1' : 550 <= z -> z < z' -> z' <= 2500 -> Rabs (sw i 0 * (f107A i - 150)) <= 10000 ->
  gtd7 code_tables (with_alt i z) 48 o oc tz s = Ok (r, s1) -> gtd7 code_tables (with_alt i z') 48 o' oc' tz' s = Ok (r', s1') ->
  0 < t1 r -> t1 r < t1 r' -> t1 r' < t0 r -> t0 r <= 5000 -> 0 < tlb (snd s1) -> all_down r r'.
Proof.
  intros Z1 Z2 Z3 F E E' TP TG TI TM TL. destruct code_layers as (CZ & CL & _). destruct code_o2 as (_ & _ & _ & _ & _ & _ & _ & _ & CM & CS & CT & CU).
  set (xlat := if rlt (Rabs (sw i 1)) 0 then 45 else glat i). destruct (glatf_bounds xlat) as [GB RB].
  unfold gtd7 in E, E'. cbn [alt with_alt sw glat] in E, E'. fold xlat in E, E'. destruct (glatf xlat) as [g rr]. cbn [fst snd] in GB, RB.
  apply bind_inv in E. destruct E as (u & s2 & E1 & E). injection E1 as _ <-. cbn zeta in E. apply bind_inv in E. destruct E as (ds & s3 & G & E). apply bind_inv in E. destruct E as (u2 & s4 & W & E).
  apply bind_inv in E'. destruct E' as (u' & s2' & E1 & E'). injection E1 as _ <-. cbn zeta in E'. apply bind_inv in E'. destruct E' as (ds' & s3' & G' & E'). apply bind_inv in E'. destruct E' as (u2' & s4' & W' & E').
  assert (B : forall y, z <= y -> Rmax y (zn2 0) = y /\ rle (zn2 0) y = true /\ rlt y zmix = false). { clear - Z1. intros y Y. split; [apply Rmax_left; cbn [zn2]; rl|]. unfold zmix. cbn [zn2]. split; rdec; first [reflexivity|exfalso; rl]. }
  destruct (B z ltac:(rl)) as (M1 & M2 & M3). destruct (B z' ltac:(rl)) as (M1' & M2' & M3'). rewrite M1, M3 in G. rewrite M1', M3' in G'. rewrite M2 in E. rewrite M2' in E'. cbn [andb] in G, G'.
  injection E as <- <-. injection E' as <- <-. cbn [t0 t1 set_t0 set_t1] in TP, TG, TI, TM. injection W as _ <-. cbn [snd] in TL. change (0 < tlb (snd s3)) in TL. clear u u2 u' u2' W' s4' M1 M2 M3 M1' M2' M3' B.
  change (with_alt (with_alt i z) z) with (with_alt i z) in G. change (with_alt (with_alt i z') z') with (with_alt i z') in G'.
  enough (K : all_down ds ds') by exact K.
  unfold gts7 in G, G'. cbn zeta in G, G'. apply bind_inv in G. destruct G as (ti & s5 & T1 & G). apply bind_inv in G'. destruct G' as (ti' & s5' & T1' & G').
  apply (temperatures_high code_tables i z z') in T1; [|rl|rl|rewrite CZ; rl|rewrite CZ; rl]. rewrite T1 in T1'. injection T1' as <- <-. destruct (k_temperatures _ _ _ _ _ T1) as [_ RE]. cbn [snd] in RE. change (re (set_grav (snd s) g rr)) with rr in RE.
  assert (GS : gsurf (snd s5) = g) by (rewrite (ktemperatures gsurf ltac:(reflexivity) ltac:(reflexivity) ltac:(reflexivity) ltac:(reflexivity) code_tables _ _ _ _ T1); reflexivity).
  apply bind_inv in G. destruct G as (m & s6 & Q & G). injection Q as <- <-. apply bind_inv in G'. destruct G' as (m & s6 & Q & G'). injection Q as <- <-. cbn [Z.eqb] in G, G'. cbn [mass_index Nat.eqb] in G, G'.
  apply bind_inv in G. destruct G as (o1 & s7 & S1 & G). apply bind_inv in G'. destruct G' as (o1' & s7' & S1' & G').
  apply bind_inv in G. destruct G as (o2 & s8 & D & G). apply bind_inv in D. destruct D as (v & s9 & D & D2). injection D2 as <- <-.
  apply bind_inv in G'. destruct G' as (o2' & s8' & D' & G'). apply bind_inv in D'. destruct D' as (v' & s9' & D' & D2). injection D2 as <- <-.
  set (x := xg0 (snd s5)) in *. set (tl := tlb (snd s5)) in *.
  destruct (densu_0 _ z _ _ _ _ _ _ _ ltac:(rl) ltac:(rewrite CZ; rl) D) as (-> & V). destruct (densu_0 _ z' _ _ _ _ _ _ _ ltac:(rl) ltac:(rewrite CZ; rl) D') as (-> & V').
  rewrite (species_re _ _ _ _ _ _ _ _ _ _ S1), RE in V. rewrite (species_re _ _ _ _ _ _ _ _ _ _ S1'), RE in V'.
  pose proof (kspecies tlb ltac:(reflexivity) ltac:(reflexivity) ltac:(reflexivity) ltac:(reflexivity) _ _ _ _ _ _ _ _ _ _ S1) as KT. injection G as <- <-. injection G' as <- _. rewrite KT in TL. fold tl in TL. cbn [meters with_alt] in *.
  assert (O1 : t0 o1 = ti) by exact (st_species _ _ _ _ _ _ _ _ _ _ Logic.I S1).
  assert (T0 : ti <= 5000 /\ 0 < prof 120 ti tl x rr z /\ prof 120 ti tl x rr z < prof 120 ti tl x rr z' /\ prof 120 ti tl x rr z' < ti).
  { rewrite CL in V, V'. clear - V V' O1 TP TG TI TM. destruct (meters i); cbn [scale_units t0 t1 set_t1] in *; rewrite V in TP, TG; rewrite V' in TG, TI; rewrite O1 in TI, TM; auto. }
  destruct T0 as (TM2 & TP2 & TG2 & TI2).
  assert (DN : done o1 o1').
  { refine (proj1 (rel_species code_tables code_pos i z z' g rr tl ti x ltac:(rl) ltac:(rl) Z1 Z2 ltac:(rewrite CZ; rl) ltac:(rewrite CL; rl) _ _ _ TL ltac:(unfold tho; rewrite CT, CU; rl) CM CS _ _ _ s5 s5 o1 s7 o1' s7' _ _ S1 S1')).
    - unfold tb. rewrite CL. exact TP2.
    - unfold tb. rewrite CL. exact TG2.
    - unfold tb. rewrite CL. exact TI2.
    - apply corr_slow; try assumption. split; [|exact TM2]. rl.
    - split; [exact RE|]. split; [exact GS|reflexivity].
    - split; [reflexivity|]. exists (dd (snd s5)). destruct (snd s5). reflexivity. }
  destruct DN as ((P2 & P0 & P1 & P3 & P4 & P6 & P7) & P5 & P8). specialize (P2 ltac:(lia)). specialize (P0 ltac:(lia)). specialize (P1 ltac:(lia)). specialize (P3 ltac:(lia)). specialize (P4 ltac:(lia)). specialize (P6 ltac:(lia)). specialize (P7 ltac:(lia)).
  unfold all_down. destruct (meters i); cbn [scale_units set_t1 d0 d1 d2 d3 d4 d5 d6 d7 d8].
  - assert (K6 : 0 < 10 ^ 6) by (apply pow_lt; rl). repeat (split; [first [apply down_scale; assumption|unfold Rdiv; apply down_scale; [rl|apply down_scale; assumption]]|]). apply down_scale; assumption.
  - repeat (split; [assumption|]). assumption.
Qed.
(* and the density the drag computation uses *)
Lemma gtd7d_falls i z z' o oc tz o' oc' tz' s r s1 r' s1' : 550 <= z -> z < z' -> z' <= 2500 -> Rabs (sw i 0 * (f107A i - 150)) <= 10000 ->
  gtd7d code_tables (with_alt i z) 48 o oc tz s = Ok (r, s1) -> gtd7d code_tables (with_alt i z') 48 o' oc' tz' s = Ok (r', s1') ->
  0 < t1 r -> t1 r < t1 r' -> t1 r' < t0 r -> t0 r <= 5000 -> 0 < tlb (snd s1) -> all_down r r'.
Proof.
  intros Z1 Z2 Z3 F E E' TP TG TI TM TL. unfold gtd7d in E, E'. apply bind_inv in E. destruct E as (o1 & s2 & G & E). injection E as <- <-. apply bind_inv in E'. destruct E' as (o1' & s2' & G' & E'). injection E' as <- <-. cbn [t0 t1 set_d5] in *.
  destruct (gtd7_falls _ _ _ _ _ _ _ _ _ _ _ _ _ _ Z1 Z2 Z3 F G G' TP TG TI TM TL) as (P0 & P1 & P2 & P3 & P4 & _ & P6 & P7 & P8). unfold all_down. cbn [set_d5 d0 d1 d2 d3 d4 d5 d6 d7 d8 Z.eqb Pos.eqb meters with_alt].
  assert (P5 : down (1.66 / 10 ^ 24 * (4 * d0 o1 + 16 * d1 o1 + 28 * d2 o1 + 32 * d3 o1 + 40 * d4 o1 + d6 o1 + 14 * d7 o1 + 16 * d8 o1)) (1.66 / 10 ^ 24 * (4 * d0 o1' + 16 * d1 o1' + 28 * d2 o1' + 32 * d3 o1' + 40 * d4 o1' + d6 o1' + 14 * d7 o1' + 16 * d8 o1'))).
  { unfold down in *. split; [apply Rmult_lt_0_compat; [|rl]|apply Rmult_lt_compat_l; [|rl]]; (apply Rmult_lt_0_compat; [rl|apply Rinv_0_lt_compat; apply pow_lt; rl]). }
  repeat (split; [first [assumption|destruct (meters i); [unfold Rdiv; apply down_scale; [rl|exact P5]|exact P5]]|]). assumption.
Qed.

(* the model with its variations switched off gives a case *)
Lemma off_case : exists r s1 r' s1', gtd7 code_tables (with_alt (polar 0) 600) 48 zero_out zero_out 0 (statics0, zero_inst) = Ok (r, s1) /\ gtd7 code_tables (with_alt (polar 0) 800) 48 zero_out zero_out 0 (statics0, zero_inst) = Ok (r', s1') /\
  0 < t1 r /\ t1 r < t1 r' /\ t1 r' < t0 r /\ t0 r <= 5000 /\ 0 < tlb (snd s1).
Proof.
  destruct (run_defined (with_alt (polar 0) 600) zero_inst 48 zero_out zero_out 0) as (r & s1 & E); [cbn [glat polar with_alt]; rl|cbn [lst polar with_alt]; rl|discriminate|].
  destruct (run_defined (with_alt (polar 0) 800) zero_inst 48 zero_out zero_out 0) as (r' & s1' & E'); [cbn [glat polar with_alt]; rl|cbn [lst polar with_alt]; rl|discriminate|].
  exists r, s1, r', s1'. split; [exact E|]. split; [exact E'|]. destruct code_layers as (CZ & CL & CP0 & CP1 & _). destruct code_more as (M1 & M3 & _ & MS & MD).
  destruct (profile_above code_tables (polar 0) (statics0, zero_inst)) as (ti & tl & x & rr & RP & O & H); [rewrite CZ; rl|]. destruct O as (-> & -> & ->); [intros k _; reflexivity|].
  destruct (H 600 48%Z _ _ _ _ _ ltac:(rewrite CZ; rl) ltac:(discriminate) E) as (A1 & A2 & A3). destruct (H 800 48%Z _ _ _ _ _ ltac:(rewrite CZ; rl) ltac:(discriminate) E') as (B1 & B2 & _).
  rewrite A1, A2, A3, B2, CP0, CP1, CL, M1, M3, MS, MD. clear - RP. unfold prof. set (ti := 1041.3 * 0.986573). set (tl := 386 * 0.944846). set (q := 16.6728 * 0.956827 / (ti - tl)). assert (T : 1000 < ti < 1100 /\ 300 < tl < 400) by (unfold ti, tl; rl).
  assert (Q : 0 < q) by (unfold q; apply Rdiv_lt_0_compat; rl). clearbody q ti tl.
  pose proof (zeta_grows rr 600 800 120 RP ltac:(rl) ltac:(rl) ltac:(rl)) as Z. assert (ZP : 0 < zeta rr 600 120) by (unfold zeta; apply Rdiv_lt_0_compat; [apply Rmult_lt_0_compat; rl|rl]).
  assert (E1 : exp (- q * zeta rr 600 120) < 1). { rewrite <- exp_0 at 1. apply exp_increasing. assert (0 < q * zeta rr 600 120) by (apply Rmult_lt_0_compat; assumption). rl. }
  assert (E2 : exp (- q * zeta rr 800 120) < exp (- q * zeta rr 600 120)). { apply exp_increasing. assert (0 < q * (zeta rr 800 120 - zeta rr 600 120)) by (apply Rmult_lt_0_compat; rl). rl. }
  pose proof (exp_pos (- q * zeta rr 800 120)) as P2. set (a := exp (- q * zeta rr 600 120)) in *. set (b := exp (- q * zeta rr 800 120)) in *. clearbody a b. clear Z ZP.
  assert (0 < (ti - tl) * b) by (apply Rmult_lt_0_compat; rl). assert ((ti - tl) * b < (ti - tl) * a) by (apply Rmult_lt_compat_l; rl). assert ((ti - tl) * a < (ti - tl) * 1) by (apply Rmult_lt_compat_l; rl). repeat split; rl.
Qed.

(* what the call does not write *)
Lemma mixing_left T i mass ds o tz s r s1 : mass <> 0%Z -> mixing T i mass ds o tz s = Ok (r, s1) -> (mass <> 4%Z -> mass <> 48%Z -> d0 r = d0 o) /\ (mass <> 48%Z -> d5 r = d5 o).
Proof.
  intros N E. unfold mixing in E. apply bind_inv in E. destruct E as (m & s2 & _ & E). rewrite (proj2 (Z.eqb_neq _ _) N) in E. cbn zeta in E. apply bind_inv in E. destruct E as (v & s3 & _ & E). injection E as <- _. cbn [d0 d5].
  split; [intros N4 N48; rewrite (proj2 (Z.eqb_neq _ _) N4), (proj2 (Z.eqb_neq _ _) N48); reflexivity|intros N48; rewrite (proj2 (Z.eqb_neq _ _) N48); reflexivity].
Qed.
Lemma left_over T i mass o oc tz s r s1 : mass <> 0%Z -> alt i < 72.5 -> gtd7 T i mass o oc tz s = Ok (r, s1) -> (mass <> 4%Z -> mass <> 48%Z -> d0 r = d0 o) /\ (mass <> 48%Z -> d5 r = d5 o).
Proof. intros N A E. destruct (below_inv _ _ _ _ _ _ _ _ _ A E) as (? & ds & ? & ? & _ & M & _). exact (mixing_left _ _ _ _ _ _ _ _ _ N M). Qed.
