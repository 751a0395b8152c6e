(* The properties of the altitude search of the NRLMSISE-00 model. *)
From Coq Require Import Reals ZArith Lra.
Require Import Verif.Base Verif.Ghp7_model Verif.Ghp7_proofs.
Local Open Scope R_scope.

(* C93: for a pressure that is not negative the call ends within twelve rounds and leaves in *out the
   atmosphere at the altitude it was given; the code is 0 exactly when the ideal gas pressure of that
   atmosphere is the pressure asked for, within 0.00043 decades, and 1 otherwise.  Missing: a search
   over the altitude. *)
Theorem pressure_altitude_partial : forall gtd7 gsurf re r100gas i press, 0 <= press ->
  exists c, ghp7 gtd7 gsurf re r100gas i press = Ok (c, gtd7 i)
    /\ (c = 0%Z /\ within press (mbar i (gtd7 i)) \/ c = 1%Z /\ ~ within press (mbar i (gtd7 i))).
Proof. exact ghp7_code_ok. Qed.
Print Assumptions pressure_altitude_partial.

(* C93: whatever the atmosphere, an altitude that has the pressure asked for is not found unless the
   altitude of the call already has it *)
Theorem pressure_altitude_not_searched : forall gtd7 gsurf re r100gas i press z, 0 < press ->
  mbar (raise i z) (gtd7 (raise i z)) = press -> ~ within press (mbar i (gtd7 i)) ->
  ghp7 gtd7 gsurf re r100gas i press = Ok (1%Z, gtd7 i).
Proof. exact ghp7_no_search. Qed.
Print Assumptions pressure_altitude_not_searched.

(* C93: there is an atmosphere with the pressure at another altitude, and the call fails *)
Theorem pressure_altitude_refuted : exists gtd7 i press z gsurf re r100gas,
  0 < press /\ mbar (raise i z) (gtd7 (raise i z)) = press
  /\ ghp7 gtd7 gsurf re r100gas i press = Ok (1%Z, gtd7 i).
Proof. exact not_searched_ok. Qed.
Print Assumptions pressure_altitude_refuted.

(* C93: a negative pressure is not an error code: an altitude never assigned is read *)
Theorem negative_pressure_refuted : exists gtd7 i press gsurf re r100gas,
  ghp7 gtd7 gsurf re r100gas i press = UB.
Proof. exists ex_atmosphere, ex_input, (-1), 980, 6378, 83145. apply ghp7_negative. lra. Qed.
Print Assumptions negative_pressure_refuted.

(* the pressure at the altitude of the call is accepted, half of it, found five km higher, is not *)
Example pressure_here : ghp7 ex_atmosphere 980 6378 83145 ex_input 1 = Ok (0%Z, ex_atmosphere ex_input).
Proof.
  destruct (pressure_altitude_partial ex_atmosphere 980 6378 83145 ex_input 1) as (c & E & [[-> _]|[_ N]]); [lra | exact E |].
  exfalso. exact (N ex_same).
Qed.
Example pressure_above : mbar (raise ex_input 5) (ex_atmosphere (raise ex_input 5)) = 1 / 2
  /\ ~ within (1 / 2) (mbar ex_input (ex_atmosphere ex_input)).
Proof. exact (conj ex_pressure_up ex_far). Qed.
