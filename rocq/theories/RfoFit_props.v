From Coq Require Import List ZArith QArith.
From Verif Require Import Base RfoFit_model RfoFit_proofs.
Import ListNotations.
Local Open Scope Z_scope.

(* C83: when the epochs of every file fall into complete groups, the polynomial returned has the least
   sum of squares against the averages of the groups, at the middle of their dates, counted in seconds
   from the reference epoch of the first file.  Missing: an incomplete last group, groups of one. *)
Theorem offset_fit_partial : forall solve none use_tai every order start fin num_days x xs gss,
  solver solve -> (2 <= every)%nat -> (1 <= order)%nat -> Forall2 (complete every start fin) (x :: xs) gss ->
  fits (group_count gss) every num_days ->
  exists pts, all_points use_tai (x_ref x) (x :: xs) gss pts /\
  (enough_dates (order + 1) pts -> exists cf,
    fit_offsets solve none use_tai every order start fin num_days (x :: xs) = Ok (0, Some (Some (x_ref x), cf)) /\
    length cf = (order + 1)%nat /\ forall z, length z = (order + 1)%nat -> (cost pts cf <= cost pts z)%Q).
Proof. exact fit_least_squares. Qed.
Print Assumptions offset_fit_partial.

Definition ten : Z := 10000000000.
Definition day_of (f : Z) (n : nat) (term : Z) : rinex :=
  Rnx f 0 (map (fun k => Blk (ten * Z.of_nat k) (ten * Z.of_nat k + 5) [[7%Q; inject_Z (Z.of_nat (k * k))]]) (seq 0 n)) term.
Example offset_fit_runs : exists cf, fit_offsets elimination 0 true 2 1 0 (ten * 1000) 1 [day_of 1 6 (-1)] = Ok (0, Some (Some 0, cf)) /\
  Forall2 Qeq cf [(-10 # 3)%Q; (1 # 2)%Q] /\
  Forall2 (complete 2 0 (ten * 1000)) [day_of 1 6 (-1)] [[firstn 2 (x_blocks (day_of 1 6 (-1))); firstn 2 (skipn 2 (x_blocks (day_of 1 6 (-1)))); skipn 4 (x_blocks (day_of 1 6 (-1)))]] /\
  fits 3 2 1 /\ solver elimination.
Proof.
  eexists. split; [vm_compute; reflexivity|]. split; [repeat (apply Forall2_cons; [vm_compute; reflexivity|]); apply Forall2_nil|].
  split; [|split; [vm_compute; discriminate | exact elimination_solver]].
  repeat constructor; try discriminate; unfold has_offset; do 3 eexists; (split; [reflexivity|]); (split; [discriminate|]); vm_compute; reflexivity.
Qed.

(* C83: the lines a file adds to the equations, one for each group, after those of the files before *)
Theorem offset_points_partial : forall none use_tai every order cap f_idx start fin tref rows file_ref bs gs,
  (2 <= every)%nat -> (1 <= order)%nat ->
  wanted start fin bs = concat gs -> Forall (fun g => length g = every) gs -> gs <> [] ->
  Forall (fun b => exists v, has_offset f_idx b v) (concat gs) ->
  (length rows + length gs <= cap)%nat ->
  exists rs, parse_rinex_rfos none use_tai every order cap f_idx start fin tref rows file_ref (-1) bs = Ok (0, reference tref file_ref, rows ++ rs) /\
  Forall2 (point_of use_tai f_idx (reference tref file_ref) order) gs rs.
Proof. exact parse_groups. Qed.
Print Assumptions offset_points_partial.

Example offset_points_skip : wanted 5 30 [Blk 1 1 []; Blk 5 6 []; Blk 20 21 []; Blk 30 31 []; Blk 10 11 []] = [Blk 5 6 []; Blk 20 21 []].
Proof. reflexivity. Qed.

(* C83: a file that cannot be read to its end fails the fit, with a code that says so and no polynomial *)
Theorem offset_fit_reports : forall solve none use_tai every order start fin num_days x xs r,
  to_the_end fin (x_blocks x) = true -> 0 < x_term x ->
  fit_offsets solve none use_tai every order start fin num_days (x :: xs) = Ok r -> r = (1, None).
Proof. exact fit_reports. Qed.
Print Assumptions offset_fit_reports.

Example offset_fit_reports_runs : fit_offsets elimination 0 true 2 1 0 (ten * 1000) 1 [day_of 1 5 3] = Ok (1, None).
Proof. vm_compute. reflexivity. Qed.

(* C83: two epochs or more left after the last complete group: values beyond the buffer are read *)
Theorem offset_remainder_undefined : forall solve none use_tai every order start fin num_days x xs gs rest,
  (2 <= every)%nat -> (1 <= order)%nat -> x_term x = -1 ->
  wanted start fin (x_blocks x) = concat gs ++ rest -> Forall (fun g => length g = every) gs -> (2 <= length rest < every)%nat ->
  Forall (fun b => exists v, has_offset (x_f x) b v) (concat gs ++ rest) ->
  fits (length gs) every num_days ->
  fit_offsets solve none use_tai every order start fin num_days (x :: xs) = UB.
Proof. exact fit_left. Qed.
Print Assumptions offset_remainder_undefined.

Theorem offset_remainder_refuted : exists x, x_term x = -1 /\ length (x_blocks x) = 8%nat /\ fit_offsets elimination 0 true 3 1 0 (ten * 1000) 1 [x] = UB.
Proof. exists (day_of 1 8 (-1)). split; [reflexivity|]. split; [reflexivity|]. vm_compute. reflexivity. Qed.
Print Assumptions offset_remainder_refuted.

(* C83: one epoch left: its average is divided by zero and success is reported *)
Theorem offset_single_remainder_undefined : forall solve none use_tai every order start fin num_days x gs b,
  (2 <= every)%nat -> (1 <= order)%nat -> x_term x = -1 ->
  wanted start fin (x_blocks x) = concat gs ++ [b] -> Forall (fun g => length g = every) gs ->
  Forall (fun b => exists v, has_offset (x_f x) b v) (concat gs ++ [b]) ->
  fits (S (length gs)) every num_days ->
  fit_offsets solve none use_tai every order start fin num_days [x] = Ok (0, None).
Proof. exact fit_left_one. Qed.
Print Assumptions offset_single_remainder_undefined.

Theorem offset_single_remainder_refuted : exists x, x_term x = -1 /\ length (x_blocks x) = 7%nat /\ fit_offsets elimination 0 true 3 1 0 (ten * 1000) 1 [x] = Ok (0, None).
Proof. exists (day_of 1 7 (-1)). split; [reflexivity|]. split; [reflexivity|]. vm_compute. reflexivity. Qed.
Print Assumptions offset_single_remainder_refuted.

(* C83: a file with no epoch inside the range adds an offset of zero at the date of an epoch never set,
   in days where the other lines are in seconds *)
Theorem offset_no_data_adds : forall none use_tai every order cap f_idx start fin tref rows file_ref bs,
  (2 <= every)%nat -> wanted start fin bs = [] -> (length rows < cap)%nat ->
  exists v a, parse_rinex_rfos none use_tai every order cap f_idx start fin tref rows file_ref (-1) bs = Ok (0, reference tref file_ref, rows ++ [Row (Some v) a]) /\
  (v == 0)%Q /\ a = design order (days_from none (reference tref file_ref)).
Proof. exact parse_empty. Qed.
Print Assumptions offset_no_data_adds.

Theorem offset_no_data_refuted : exists r1 r2, fit_offsets elimination (-1) true 2 1 0 (ten * 1000) 1 [day_of 1 6 (-1)] = Ok (0, Some (Some 0, r1)) /\
  fit_offsets elimination (-1) true 2 1 0 (ten * 1000) 1 [day_of 1 6 (-1); Rnx 1 0 [] (-1)] = Ok (0, Some (Some 0, r2)) /\ ~ Forall2 Qeq r1 r2.
Proof.
  do 2 eexists. split; [vm_compute; reflexivity|]. split; [vm_compute; reflexivity|].
  intro F. inversion F as [|? ? ? ? E _]. discriminate E.
Qed.
Print Assumptions offset_no_data_refuted.

(* C83: when every epoch is its own group the date used is not the epoch's *)
Theorem offset_every_epoch_refuted : exists none b r, b_tl1 b = b_proper b /\ parse_rinex_rfos none true 1 1 10 0 0 1000 None [] 0 (-1) [b] = Ok (0, 0, [r]) /\
  ~ point_of true 0 0 1 [b] r.
Proof. exact one_refuted. Qed.
Print Assumptions offset_every_epoch_refuted.

(* C83: one group more than the lines set aside is written outside the matrices *)
Theorem offset_room_overflow : forall none use_tai every order cap f_idx start fin tref rows file_ref term bs gs g more,
  (2 <= every)%nat -> (1 <= order)%nat ->
  wanted start fin bs = concat gs ++ g ++ more -> Forall (fun g => length g = every) (gs ++ [g]) ->
  Forall (fun b => exists v, has_offset f_idx b v) (concat gs ++ g) ->
  (length rows + length gs = cap)%nat ->
  parse_rinex_rfos none use_tai every order cap f_idx start fin tref rows file_ref term bs = UB.
Proof. exact parse_overflow. Qed.
Print Assumptions offset_room_overflow.

(* an epoch each second for 200 seconds *)
Definition dense : rinex := Rnx 0 0 (map (fun k => Blk (1000000000 * Z.of_nat k) 0 [[3%Q]]) (seq 0 200)) (-1).
Theorem offset_room_refuted : exists x, x_term x = -1 /\ fit_offsets elimination 0 true 2 1 0 200000000000 (200 # 86400) [x] = UB.
Proof. exists dense. split; [reflexivity|]. vm_compute. reflexivity. Qed.
Print Assumptions offset_room_refuted.
