From Coq Require Import List ZArith QArith Qabs Lqa.
From Verif Require Import Base Eop_model Eop_proofs EopInterp_model EopInterp_proofs FrameTime_model FrameTime_proofs.
Import ListNotations.
Local Open Scope Q_scope.

(* C96: for a date that the table covers the matrices are those of terrestrial time, TAI + 32.184 s to
   the nanosecond, and the rotation angle is that of UT1 = TAI - leap seconds + (UT1 - UTC), with the
   corrections of the table *)
Theorem frame_of_date_partial : forall A M L (S : sofa A M) leap t f x r val om o, respects L -> leaps S leap -> contents t f -> Qabs x < 2147483648 ->
  r_omega r = Some om -> (forall tt, near_tt x tt -> succeeds L t f tt 5 (val tt)) ->
  exists d tt ut1 xp yp dx dy o', gcrs2itrs L S t r x o = Ok (0%Z, o') /\
    near_tt x tt /\
    Qabs (seconds ut1 x - (val tt Ut1 + zonal_dut L tt + ocean_dut L tt - leap d)) < 1 # 1000000000 /\
    (exists v, shows d v /\ Qabs (seconds v x) < 1 # 1000000000) /\
    xp == val tt Xp + ocean_x L tt + libration_x L tt /\ yp == val tt Yp + ocean_y L tt + libration_y L tt /\
    dx == val tt Dx /\ dy == val tt Dy /\ f_lod o' == val tt Lod + zonal_lod L tt + ocean_lod L tt /\
    built_from S tt ut1 xp yp dx dy o'.
Proof. exact frame_ok. Qed.
Print Assumptions frame_of_date_partial.
Example frame_case : respects linear /\ leaps toy (fun _ => 37) /\ contents two_table two_map /\ Qabs noon < 2147483648 /\
  (forall tt, near_tt noon tt -> succeeds linear two_table two_map tt 5 (between tt)) /\
  exists o', gcrs2itrs linear toy two_table zeros noon start = Ok (0%Z, o') /\ f_era o' < noon - (25 # 86400) /\ noon - (30 # 86400) < f_era o'.
Proof.
  split; [exact linear_respects|]. split; [exact toy_leaps|]. split; [exact (proj1 (proj2 two_ok))|]. split; [reflexivity|]. split; [exact noon_succeeds|].
  eexists. split; [vm_compute; reflexivity|]. vm_compute. split; reflexivity.
Qed.
(* C96: ... whatever the local record and the caller's variables held *)
Theorem frame_memory_free : forall A M L (S : sofa A M) t f x r r' val om om' o o', contents t f -> r_omega r = Some om -> r_omega r' = Some om' ->
  (forall tt, near_tt x tt -> succeeds L t f tt 5 (val tt)) -> gcrs2itrs L S t r x o = gcrs2itrs L S t r' x o'.
Proof. exact frame_junk. Qed.
Print Assumptions frame_memory_free.
(* C96: as declared the record holds nothing, and the correction of the rotation rate is added to it *)
Theorem frame_unwritten_rate : forall A M L (S : sofa A M) t f x r val o, contents t f -> r_omega r = None ->
  (forall tt, near_tt x tt -> succeeds L t f tt 5 (val tt)) -> gcrs2itrs L S t r x o = UB.
Proof. exact frame_unwritten. Qed.
Print Assumptions frame_unwritten_rate.
(* C96: no failure is ever reported *)
Theorem frame_never_reports : forall A M L (S : sofa A M) t r x o c o', gcrs2itrs L S t r x o = Ok (c, o') -> c = 0%Z.
Proof. exact frame_code. Qed.
Print Assumptions frame_never_reports.
(* C96: ten days after the last entry: every interpolation fails, success is reported and the frame is
   made of what the stack held *)
Theorem frame_outside_refuted : exists L (S : sofa Q (list Q)) t x o1 o2, built t /\ (exists r, interpolate_lagrange L t x (junk 0) 5 = Ok (1%Z, r)) /\
  gcrs2itrs L S t (junk 0) x start = Ok (0%Z, o1) /\ gcrs2itrs L S t (junk 1) x start = Ok (0%Z, o2) /\ ~ f_era o1 == f_era o2 /\ ~ f_lod o1 == f_lod o2.
Proof.
  exists linear, toy, two_table, 59011. do 2 eexists. split; [exact (proj1 two_ok)|]. split; [eexists; vm_compute; reflexivity|].
  split; [vm_compute; reflexivity|]. split; [vm_compute; reflexivity|]. split; vm_compute; discriminate.
Qed.
Print Assumptions frame_outside_refuted.
(* C96: a date that does not fit an int *)
Theorem frame_date_overflow : forall A M L (S : sofa A M) t r x o, 2147483648 <= x -> gcrs2itrs L S t r x o = UB.
Proof. exact frame_far. Qed.
Print Assumptions frame_date_overflow.
