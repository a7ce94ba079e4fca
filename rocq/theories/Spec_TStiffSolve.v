(* Loads and defects of a T-stiffened panel. Definitions only. *)
From Coq Require Import Reals List Arith.
From Verif Require Import Base_Sum Model_Types Model_Shell Model_New Model_TStiff.
Import ListNotations.
Open Scope R_scope.

(* no part is pulled, and one with five terms or more in each direction is compressed *)
Definition compressed_tstiff (D : tstiff) : Prop :=
  ts_Nskin D <= 0 /\ ts_Nbase D <= 0 /\ ts_Nflange D <= 0 /\
  ((ts_Nskin D < 0 /\ (5 <= ts_m D)%nat /\ (5 <= ts_n D)%nat) \/ (ts_Nbase D < 0 /\ (5 <= ts_mb D)%nat /\ (5 <= ts_nb D)%nat) \/
   (ts_Nflange D < 0 /\ (5 <= ts_mf D)%nat /\ (5 <= ts_nf D)%nat)).
(* the same arguments with another defect_a *)
Definition with_defect (D : tstiff) (d : R) : tstiff :=
  mkTs (ts_a D) (ts_b D) (ts_ys D) (ts_bb D) (ts_bf D) d (ts_rho D) (ts_plyt D) (ts_prop D) (ts_stack_skin D) (ts_stack_base D) (ts_stack_flange D) (ts_r D)
    (ts_m D) (ts_n D) (ts_mb D) (ts_nb D) (ts_mf D) (ts_nf D) (ts_points D) (ts_Nskin D) (ts_Nbase D) (ts_Nflange D) (ts_e D).
