(* Model, in binary64, of the nominal frequencies of a beacon and of the ratio of the two fundamental frequencies
   (SysInfo_model.v has them over the rationals).  Flocq's arithmetic stands for the processor's; no fused operations. *)
From Coq Require Import ZArith QArith.
From Verif Require Import FloatTime_model FloatAngle_model.
Local Open Scope Z_scope.

(* doris_system_info.hpp:24-36 *)
Definition FREQ1_MHZ : double := of_decimal (203625 # 100).
Definition FREQ2_MHZ : double := of_decimal (40125 # 100).
Definition GAMMA_SQRT : double := ddiv FREQ1_MHZ FREQ2_MHZ.
Definition GAMMA : double := dmul GAMMA_SQRT GAMMA_SQRT.
(* doris_system_info.hpp:38-56; std::pow(2, 26) is exact.  [k] is an int *)
Definition USO_F0 : double := of_int 5000000.
Definition fac1 : double := dmul USO_F0 (of_decimal (75 # 100)).
Definition fac2 (k : Z) : double := ddiv (dmul USO_F0 (dmul (of_int 87) (of_int k))) (dmul (of_int 5) (of_int (2 ^ 26))).
Definition s1_freq (k : Z) : double := dadd (dmul (of_int 543) fac1) (dmul (of_int 543) (fac2 k)).
Definition u2_freq (k : Z) : double := dadd (dmul (of_int 107) fac1) (dmul (of_int 107) (fac2 k)).
(* doris_observation_equations.hpp:16-19 *)
Definition iono_correction (L1 L2 : double) : double := ddiv (dsub L1 (dmul GAMMA_SQRT L2)) (dsub GAMMA one).
