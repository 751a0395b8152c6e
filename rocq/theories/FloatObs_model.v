(* Model, in binary64 (Flocq's, round to nearest even), of the observed range rate of test/rinex_pod.cpp; PodObs_model.v
   has it over the real numbers.  The elapsed proper time in seconds, to_fractional_seconds() (external), is an
   argument; no fused operations. *)
From Coq Require Import ZArith.
From Verif Require Import FloatTime_model FloatAngle_model FloatRel_model.
Local Open Scope Z_scope.

(* what is kept of an observation (rinex_pod.cpp:75-84): cycles on 2 GHz, ionospheric correction in cycles, relativity *)
Record obs := Obs { o_L1 : double; o_iono : double; o_rel : double }.
(* rinex_pod.cpp:883-886 *)
Definition NdopDt (Dtau : double) (p o : obs) : double := ddiv (dsub (o_L1 o) (o_L1 p)) Dtau.
(* rinex_pod.cpp:896-898 *)
Definition Dion (feN Dtau : double) (p o : obs) : double := ddiv (dmul (ddiv light feN) (dsub (o_iono o) (o_iono p))) Dtau.
(* rinex_pod.cpp:910-911 *)
Definition Drel (Dtau : double) (p o : obs) : double := ddiv (dsub (o_rel o) (o_rel p)) Dtau.
(* rinex_pod.cpp:929-930 *)
Definition Uobs (feN frT Dtau : double) (p o : obs) : double :=
  dadd (dadd (dmul (ddiv light feN) (dsub (dsub feN frT) (NdopDt Dtau p o))) (Dion feN Dtau p o)) (Drel Dtau p o).
(* rinex_pod.cpp:65-69: the delay of the troposphere, hydrostatic and wet *)
Record tropo := Tropo { t_Lhz : double; t_mfh : double; t_mfw : double }.
Definition tropo_sum (d : tropo) (Lwz : double) : double := dadd (dmul (t_Lhz d) (t_mfh d)) (dmul Lwz (t_mfw d)).
(* rinex_pod.cpp:903-906 *)
Definition Dtropo (Dtau cWzd : double) (tp to : tropo) : double := ddiv (dsub (tropo_sum to cWzd) (tropo_sum tp cWzd)) Dtau.
(* rinex_pod.cpp:932-934; rho is the norm of the vector from the beacon *)
Definition Utheo (feN frT Dtau : double) (p o : obs) (sp so : dvec) (tp to : tropo) (cWzd DfefeN : double) : double :=
  dsub (dadd (dmul (ddiv one Dtau) (dsub (norm so) (norm sp))) (Dtropo Dtau cWzd tp to))
       (dmul (dmul (ddiv light feN) (dadd (NdopDt Dtau p o) frT)) DfefeN).
(* rinex_pod.cpp:936 *)
Definition residual (feN frT Dtau : double) (p o : obs) (sp so : dvec) (tp to : tropo) (cWzd DfefeN : double) : double :=
  dadd (Uobs feN frT Dtau p o) (Utheo feN frT Dtau p o sp so tp to cWzd DfefeN).
