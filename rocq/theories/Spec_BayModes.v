(* Modes of stiffened bays. Definitions only. *)
From Coq Require Import Reals List Arith.
From Verif Require Import Base_Sum Model_Types Model_Coo Model_Result Model_Num Model_DB Model_Shell Model_Multi Model_Bay
  Spec_Algebra Spec_Kinematics Spec_Integral Spec_Panel Spec_Shell Spec_Modes Spec_Bay Spec_BayWork Spec_BayResponse.
Import ListNotations.
Open Scope R_scope.

(* the skin, the pads and the flanges of 2D stiffeners have a mass; there are no 1D stiffeners, whose mass matrix is not a
   kinetic energy (C49) *)
Record heavy (B : bay) : Prop := {
  hv_skin : forall p, In p (by_panels B) -> 0 <= pn_rho p * suml (rebuilt_plyts p) (fun t => t);
  hv_s1 : by_s1 B = [];
  hv_s2 : forall s p, In s (by_s2 B) -> s2_base s = Some p \/ s2_flange s = Some p -> 0 <= pn_rho p * suml (pn_plyts p) (fun t => t) }.
(* the complex constants x + i y displace some point of the bay *)
Definition moves (B : bay) (x y : nat -> R) : Prop := ~ (bay_motionless B x /\ bay_motionless B y).
(* the real mode x of the eigenvalue l: K x = l M x *)
Definition real_mode (N : nat) (K M : nat -> nat -> R) (l : R) (x : nat -> R) : Prop := forall i, (i < N)%nat -> row N K x i = l * row N M x i.
(* a real mode of buckling: (K + l G) x = 0 *)
Definition real_buckle (N : nat) (K G : nat -> nat -> R) (l : R) (x : nat -> R) : Prop := forall i, (i < N)%nat -> row N K x i + l * row N G x i = 0.
(* neither the stiffness nor the mass couples the two modes *)
Definition uncoupled (N : nat) (K M : nat -> nat -> R) (x y : nat -> R) : Prop := bilinear N K x y = 0 /\ bilinear N M x y = 0.
