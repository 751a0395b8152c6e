From Coq Require Import List ZArith QArith Qabs Bool Lia Lqa.
From Verif Require Import Base Eop_model EopInterp_model EopInterp_proofs FrameTime_model.
Import ListNotations.
Local Open Scope Q_scope.

(* ---- specification ---- *)
(* seconds between two modified Julian dates *)
Definition seconds (a b : Q) : Q := (a - b) * 86400.
(* a clock reading: day and nanoseconds of the day *)
Definition shows (d : Z * Z) (x : Q) : Prop := inject_Z (fst d * 86400000000000 + snd d) == x * 86400000000000.
(* terrestrial time of a TAI date, to the nanosecond *)
Definition near_tt (x tt : Q) : Prop := Qabs (seconds tt x - (32184 # 1000)) < 1 # 1000000000.
(* the library's conversion takes the leap seconds off *)
Definition leaps {A M} (S : sofa A M) (leap : Z * Z -> Q) : Prop :=
  forall d x, shows d x -> fst (tai2utc S d) + inject_Z (snd (tai2utc S d)) == x - leap d / 86400.
(* what the frame of a date is made of, from the terrestrial time [tt], UT1 and the corrections *)
Definition built_from {A M} (S : sofa A M) (tt ut1 xp yp dx dy : Q) (f : frame A M) : Prop :=
  let jd0 := 24000005 # 10 in
  let (X, Y) := xy06 S jd0 tt in
  f_rc2i f = c2ixys_e S (X + arcsec2rad S dx) (Y + arcsec2rad S dy) (s06 S jd0 tt X Y) /\
  f_era f = era00 S jd0 ut1 /\
  f_rpom f = pom00_e S (arcsec2rad S xp) (arcsec2rad S yp) (sp00 S jd0 tt).

(* ---- dates ---- *)
Lemma trunc_close x : Qabs (x - inject_Z (modf_int x)) < 1 /\ (0 <= x -> inject_Z (modf_int x) <= x) /\ (0 <= x -> (0 <= modf_int x)%Z) /\ (inject_Z (modf_int x) - x < 1 /\ x - inject_Z (modf_int x) < 1).
Proof.
  unfold modf_int. destruct x as [n d]. cbn [Qnum Qden].
  pose proof (Z.quot_rem' n (Zpos d)) as E. set (q := Z.quot n (Zpos d)) in *. set (r := Z.rem n (Zpos d)) in *.
  assert (B : (Z.abs r < Zpos d)%Z) by (unfold r; pose proof (Z.rem_bound_abs n (Zpos d) ltac:(discriminate)); lia).
  assert (X : (n # d) - inject_Z q == r # d).
  { unfold Qeq, Qminus, Qplus, Qopp, inject_Z. cbn [Qnum Qden]. rewrite !Pos.mul_1_r. nia. }
  assert (P1 : (r # d) < 1) by (unfold Qlt; cbn [Qnum Qden]; lia).
  assert (P2 : -1 < (r # d)) by (unfold Qlt; cbn [Qnum Qden]; lia).
  assert (SG : 0 <= (n # d) -> 0 <= (r # d) /\ (0 <= q)%Z).
  { intros N. unfold Qle in N |- *. cbn [Qnum Qden] in N |- *. assert (0 <= n)%Z by lia. split; [unfold r; pose proof (Z.rem_nonneg n (Zpos d) ltac:(discriminate) ltac:(assumption)); lia|unfold q; apply Z.quot_pos; lia]. }
  split; [rewrite X; apply Qabs_Qlt_condition; lra|]. split; [intros N; destruct (SG N); lra|]. split; [intros N; apply (SG N)|lra].
Qed.
Lemma cast_ok bits x z : cast bits x = Ok z -> z = modf_int x.
Proof. unfold cast. destruct (_ && _); [|discriminate]. intros E. injection E as <-. reflexivity. Qed.
Lemma tai_date_ok x d : tai_date x = Ok d -> exists v, shows d v /\ Qabs (seconds v x) < 1 # 1000000000 /\ (0 <= x -> v <= x).
Proof.
  unfold tai_date. intros H. apply obind_inv in H. destruct H as (im & E1 & H). apply cast_ok in E1. apply obind_inv in H. destruct H as (is_ & E2 & H). apply cast_ok in E2. injection H as <-. cbv zeta in E2.
  set (y := (x - inject_Z im) * 86400 * 1000000000) in *.
  destruct (trunc_close y) as (_ & C1 & _ & C2 & C3). rewrite <- E2 in C1, C2, C3.
  exists (inject_Z im + inject_Z is_ / 86400000000000). split; [|split].
  - unfold shows. cbn [fst snd]. rewrite inject_Z_plus, inject_Z_mult. change (inject_Z 86400000000000) with (86400000000000 # 1). field.
  - unfold seconds. assert (X : (inject_Z im + inject_Z is_ / 86400000000000 - x) * 86400 == (inject_Z is_ - y) / 1000000000) by (unfold y; field).
    rewrite X. apply Qabs_Qlt_condition. split; [apply Qlt_shift_div_l; [reflexivity|]|apply Qlt_shift_div_r; [reflexivity|]]; lra.
  - intros N. assert (Y : 0 <= y).
    { destruct (trunc_close x) as (_ & D & _). rewrite <- E1 in D. specialize (D N). unfold y. lra. }
    specialize (C1 Y). assert (X : inject_Z im + inject_Z is_ / 86400000000000 == x - (y - inject_Z is_) / 86400000000000) by (unfold y; field).
    rewrite X. assert (0 <= (y - inject_Z is_) / 86400000000000) by (apply Qle_shift_div_l; [reflexivity|lra]). lra.
Qed.
Lemma as_mjd_shows d : shows d (as_mjd d).
Proof. unfold shows, as_mjd, day_ns. rewrite inject_Z_plus, inject_Z_mult. change (inject_Z 86400000000000) with (86400000000000 # 1). field. Qed.
Lemma shows_unique d x y : shows d x -> shows d y -> x == y.
Proof. unfold shows. intros A B. lra. Qed.
Lemma add_ns_shows d x ns : shows d x -> shows (add_ns d ns) (x + inject_Z ns / 86400000000000).
Proof.
  unfold shows. intros A. unfold add_ns. cbn [fst snd]. unfold day_ns.
  pose proof (Z.div_mod (snd d + ns) 86400000000000 ltac:(discriminate)) as E.
  replace ((fst d + (snd d + ns) / 86400000000000) * 86400000000000 + (snd d + ns) mod 86400000000000)%Z with (fst d * 86400000000000 + snd d + ns)%Z by lia.
  rewrite inject_Z_plus, A. field.
Qed.

(* the terrestrial time used for a TAI date *)
Definition tt_used (x : Q) (tt : Q) : Prop := exists d, tai_date x = Ok d /\ tt = as_mjd (add_ns d 32184000000).
Lemma tt_used_ok x tt : tt_used x tt -> near_tt x tt.
Proof.
  unfold near_tt. intros (d & D & ->). destruct (tai_date_ok x d D) as (v & V & B & _).
  pose proof (shows_unique _ _ _ (as_mjd_shows (add_ns d 32184000000)) (add_ns_shows d v 32184000000 V)) as E. unfold seconds in *.
  assert (X : (as_mjd (add_ns d 32184000000) - x) * 86400 - (32184 # 1000) == (v - x) * 86400) by (rewrite E; change (inject_Z 32184000000) with (32184000000 # 1); field).
  rewrite X. exact B.
Qed.
Lemma tai_date_total x : Qabs x < 2147483648 -> exists d, tai_date x = Ok d.
Proof.
  intros B. apply Qabs_Qlt_condition in B. unfold tai_date, cast. destruct (trunc_close x) as (_ & _ & _ & C2 & C3). set (z := modf_int x) in *.
  assert (Z1 : (-2147483649 < z < 2147483649)%Z).
  { split; [assert (inject_Z (-2147483649) < inject_Z z) by (change (inject_Z (-2147483649)) with (-2147483649 # 1); lra)|assert (inject_Z z < inject_Z 2147483649) by (change (inject_Z 2147483649) with (2147483649 # 1); lra)]; rewrite <- Zlt_Qlt in *; assumption. }
  assert (Z2 : (-2147483648 <= z < 2147483648)%Z).
  { (* the integer part lies between zero and the number *)
    unfold z, modf_int in *. destruct x as [n d]. cbn [Qnum Qden] in *. unfold Qlt in B. cbn [Qnum Qden] in B.
    pose proof (Z.quot_rem' n (Zpos d)) as E. pose proof (Z.rem_bound_abs n (Zpos d) ltac:(discriminate)).
    destruct (Z_le_gt_dec 0 n) as [N|N].
    - pose proof (Z.rem_nonneg n (Zpos d) ltac:(discriminate) N). pose proof (Z.quot_pos n (Zpos d) N ltac:(lia)). nia.
    - pose proof (Z.rem_nonpos n (Zpos d) ltac:(discriminate) ltac:(lia)). nia. }
  change (2 ^ (32 - 1))%Z with 2147483648%Z.
  replace (Z.leb (- (2147483648)) z && Z.ltb z 2147483648) with true by (symmetry; apply andb_true_intro; split; [apply Z.leb_le|apply Z.ltb_lt]; lia).
  cbn [obind]. cbv zeta. set (y := (x - inject_Z z) * 86400 * 1000000000). destruct (trunc_close y) as (_ & _ & _ & D2 & D3). set (w := modf_int y) in *.
  assert (YB : -86400000000000 < y /\ y < 86400000000000) by (unfold y; lra).
  assert (WB : (-86400000000001 < w < 86400000000001)%Z).
  { split; [assert (inject_Z (-86400000000001) < inject_Z w) by (change (inject_Z (-86400000000001)) with (-86400000000001 # 1); lra)|assert (inject_Z w < inject_Z 86400000000001) by (change (inject_Z 86400000000001) with (86400000000001 # 1); lra)]; rewrite <- Zlt_Qlt in *; assumption. }
  change (2 ^ (64 - 1))%Z with 9223372036854775808%Z.
  replace (Z.leb (- (9223372036854775808)) w && Z.ltb w 9223372036854775808) with true by (symmetry; apply andb_true_intro; split; [apply Z.leb_le|apply Z.ltb_lt]; lia).
  cbn [obind]. eexists. reflexivity.
Qed.

(* ---- the frame ---- *)
Lemma frame_ok A M L (S : sofa A M) leap t f x r val om o : respects L -> leaps S leap -> contents t f -> Qabs x < 2147483648 ->
  r_omega r = Some om -> (forall tt, near_tt x tt -> succeeds L t f tt 5 (val tt)) ->
  exists d tt ut1 xp yp dx dy o', gcrs2itrs L S t r x o = Ok (0%Z, o') /\
    near_tt x tt /\
    Qabs (seconds ut1 x - (val tt Ut1 + zonal_dut L tt + ocean_dut L tt - leap d)) < 1 # 1000000000 /\
    (exists v, shows d v /\ Qabs (seconds v x) < 1 # 1000000000) /\
    xp == val tt Xp + ocean_x L tt + libration_x L tt /\ yp == val tt Yp + ocean_y L tt + libration_y L tt /\
    dx == val tt Dx /\ dy == val tt Dy /\ f_lod o' == val tt Lod + zonal_lod L tt + ocean_lod L tt /\
    built_from S tt ut1 xp yp dx dy o'.
Proof.
  intros R LP C B O SU. destruct (tai_date_total x B) as (d & D). set (tt := as_mjd (add_ns d 32184000000)).
  assert (TU : tt_used x tt) by (exists d; split; [exact D|reflexivity]).
  destruct (interpolate_ok L t f tt r 5 (val tt) om R C (SU tt (tt_used_ok x tt TU)) O) as (r' & I & _ & (xp & XP & XPE) & (yp & YP & YPE) & (dut & DU & DUE) & (lod & LO & LOE) & (dx & DX & DXE) & (dy & DY & DYE) & _).
  destruct (tai_date_ok x d D) as (v & V & VB & _). pose proof (LP d v V) as U. destruct (tai2utc S d) as [utc um] eqn:TU2. cbn [fst snd] in U.
  unfold gcrs2itrs. rewrite D. cbn [obind]. change (32184 * 1000000)%Z with 32184000000%Z. fold tt. rewrite I. cbn [obind fst snd Z.eqb negb].
  rewrite XP, YP, DU, LO, DX, DY. unfold rd, of_option. cbn [obind]. destruct (xy06 S mjd0_jd tt) as [X Y] eqn:XY. rewrite TU2. cbn [obind].
  exists d, tt, (utc + dut / 86400 + inject_Z um), xp, yp, dx, dy. eexists. split; [reflexivity|].
  split; [exact (tt_used_ok x tt TU)|]. split.
  { unfold seconds in *. assert (X1 : (utc + dut / 86400 + inject_Z um - x) * 86400 - (val tt Ut1 + zonal_dut L tt + ocean_dut L tt - leap d) == (v - x) * 86400).
    { rewrite <- DUE. assert (XX : (utc + dut / 86400 + inject_Z um - x) * 86400 == (utc + inject_Z um - x) * 86400 + dut) by field. rewrite XX, U. field. }
    rewrite X1. exact VB. }
  split; [exists v; split; assumption|]. split; [exact XPE|]. split; [exact YPE|]. split; [exact DXE|]. split; [exact DYE|]. split; [exact LOE|].
  unfold built_from. change (24000005 # 10) with mjd0_jd. rewrite XY. cbn [f_rc2i f_era f_rpom]. auto.
Qed.
(* nothing of the local variable remains *)
Lemma frame_junk A M L (S : sofa A M) t f x r r' val om om' o o' : contents t f -> r_omega r = Some om -> r_omega r' = Some om' ->
  (forall tt, near_tt x tt -> succeeds L t f tt 5 (val tt)) -> gcrs2itrs L S t r x o = gcrs2itrs L S t r' x o'.
Proof.
  intros C O O' SU. unfold gcrs2itrs. destruct (tai_date x) as [d|] eqn:D; [|reflexivity]. cbn [obind]. change (32184 * 1000000)%Z with 32184000000%Z. set (tt := as_mjd (add_ns d 32184000000)).
  assert (TU : tt_used x tt) by (exists d; split; [exact D|reflexivity]). unfold interpolate. rewrite !(lagrange_ok L t f tt _ 5 (val tt) C (SU tt (tt_used_ok x tt TU))). cbn [obind snd r_dut r_lod r_omega r_xp r_yp r_dx r_dy].
  destruct (rg_zont2 L (jc2000 tt)) as [[a b] c]. rewrite O, O'. cbn [plus_eq obind]. destruct (pmut1_oceans L (jc2000 tt)) as [[[e g] h] k]. cbn [plus_eq obind]. destruct (pm_gravi L (jc2000 tt)) as [p q]. cbn [plus_eq obind fst snd Z.eqb negb r_lod r_dx r_dy r_dut r_xp r_yp]. reflexivity.
Qed.
(* the variable as declared *)
Lemma frame_unwritten A M L (S : sofa A M) t f x r val o : contents t f -> r_omega r = None ->
  (forall tt, near_tt x tt -> succeeds L t f tt 5 (val tt)) -> gcrs2itrs L S t r x o = UB.
Proof.
  intros C O SU. unfold gcrs2itrs. destruct (tai_date x) as [d|] eqn:D; [|reflexivity]. cbn [obind]. change (32184 * 1000000)%Z with 32184000000%Z. set (tt := as_mjd (add_ns d 32184000000)).
  assert (TU : tt_used x tt) by (exists d; split; [exact D|reflexivity]). rewrite (omega_unwritten L t f tt r 5 (val tt) C (SU tt (tt_used_ok x tt TU)) O). reflexivity.
Qed.
Lemma frame_code A M L (S : sofa A M) t r x o c o' : gcrs2itrs L S t r x o = Ok (c, o') -> c = 0%Z.
Proof.
  unfold gcrs2itrs. intros H. apply obind_inv in H. destruct H as (d & _ & H). apply obind_inv in H. destruct H as ((c1 & r1) & I & H). apply interpolate_code in I. subst c1. cbn [fst snd Z.eqb negb] in H.
  apply obind_inv in H. destruct H as (xl & _ & H). destruct (xy06 S mjd0_jd _) as [X Y]. apply obind_inv in H. destruct H as (dx & _ & H). apply obind_inv in H. destruct H as (dy & _ & H). destruct (tai2utc S d) as [u v].
  apply obind_inv in H. destruct H as (du & _ & H). apply obind_inv in H. destruct H as (xp & _ & H). apply obind_inv in H. destruct H as (yp & _ & H). injection H as <- _. reflexivity.
Qed.
Lemma frame_far A M L (S : sofa A M) t r x o : 2147483648 <= x -> gcrs2itrs L S t r x o = UB.
Proof.
  intros B. unfold gcrs2itrs. replace (tai_date x) with (@UB date); [reflexivity|]. symmetry. unfold tai_date, cast. destruct (trunc_close x) as (_ & _ & _ & _ & C3). set (z := modf_int x) in *.
  assert (Z1 : (2147483647 < z)%Z) by (assert (H : inject_Z 2147483647 < inject_Z z) by (change (inject_Z 2147483647) with (2147483647 # 1); lra); rewrite <- Zlt_Qlt in H; exact H).
  change (2 ^ (32 - 1))%Z with 2147483648%Z. replace (Z.ltb z 2147483648) with false by (symmetry; apply Z.ltb_ge; lia). rewrite andb_false_r. reflexivity.
Qed.

(* ---- examples ---- *)
(* a library that interpolates linearly between two dates; the tides are proportional to the time *)
Definition linear : iers := Iers
  (fun ms vs x _ _ => match ms, vs with
     | [Some a; Some b], [Some u; Some v] => if Qle_bool a x && Qle_bool x b then Ok (0%Z, Some (u + (v - u) * (x - a) / (b - a)), 0%Z) else Ok (1%Z, None, (-1)%Z)
     | _, _ => Ok (1%Z, None, (-1)%Z) end)
  (fun c => let c := Qred c in (c, 2 * c, 3 * c)) (fun c => let c := Qred c in (4 * c, 5 * c, 6 * c, 7 * c)) (fun c => let c := Qred c in (8 * c, 9 * c)).
Lemma linear_respects : respects linear.
Proof. intros a b E. cbn [rg_zont2 pmut1_oceans pm_gravi linear]. apply Qred_complete in E. rewrite E. auto. Qed.
Definition between (tt : Q) (c : column) : Q :=
  match two_map c 0, two_map c 1 with Some u, Some v => u + (v - u) * (tt - 59000) / (59001 - 59000) | _, _ => 0 end.
Lemma linear_succeeds tt : 59000 <= tt -> tt <= 59001 -> succeeds linear two_table two_map tt 5 (between tt).
Proof.
  intros A B c idx _. exists 0%Z. assert (E : cells_of two_table two_map Mjd = [Some 59000; Some 59001]) by (vm_compute; reflexivity). rewrite E.
  cbn [lagint linear]. apply Qle_bool_iff in A, B. destruct c; cbv [cells_of map seq]; change (t_sz two_table) with 2%nat; cbn [map seq]; unfold between;
  match goal with |- context [two_map ?k 0] => destruct (two_map k 0) as [u|] eqn:U; [|vm_compute in U; discriminate]; destruct (two_map k 1) as [v|] eqn:V; [|vm_compute in V; discriminate] end;
  rewrite A, B; reflexivity.
Qed.
(* constants for the routines; UTC is 37 s behind TAI *)
Definition toy : sofa Q (list Q) := Sofa Q (list Q) (fun a b => (a, b)) (fun a b c d => a + b + c + d) (fun a b c => [a; b; c]) (fun _ b => b) (fun _ b => b) (fun a b c => [a; b; c])
  (fun a => a / 206265) (fun d => (inject_Z (snd d) / inject_Z day_ns - (37 # 86400), fst d)).
Lemma toy_leaps : leaps toy (fun _ => 37).
Proof.
  intros d x H. cbn [tai2utc toy fst snd]. pose proof (shows_unique d x _ H (as_mjd_shows d)) as E. rewrite E. unfold as_mjd. field. discriminate.
Qed.
Definition noon : Q := 59000 + (1 # 2).
Lemma noon_succeeds tt : near_tt noon tt -> succeeds linear two_table two_map tt 5 (between tt).
Proof.
  unfold near_tt, seconds, noon. intros H. apply Qabs_Qlt_condition in H. apply linear_succeeds; lra.
Qed.
Definition start : frame Q (list Q) := Frame [] 0 [] 0.
(* ten days after the table: success is reported and the polar motion comes from the local variable *)
Definition junk (v : Q) : eop_record := EopRec (Some v) (Some v) (Some v) (Some v) (Some v) (Some v) (Some v) (Some v).
