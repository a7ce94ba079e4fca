(* The response of a panel to loads. Definitions only. *)
From Coq Require Import Reals List Arith Permutation.
From Verif Require Import Base_Sum Model_Types Model_Result Model_DB Model_Shell Model_Field Model_Fext
  Spec_Algebra Spec_Kinematics Spec_Panel Spec_Shell Spec_Field Spec_Fext Spec_Modes Spec_Pull.
Import ListNotations.
Open Scope R_scope.

(* U 0, U 1, U 2 are the displacements u, v, w that uvw evaluates for the panel, once built, and its slice of c, which starts at o *)
Definition displaces (E : env) (p : panel) (o : nat) (c : list R) (U : displacements) : Prop :=
  exists q sched nc, rebuild E p = (q, Ok tt) /\ (forall l, Permutation (sched l) l) /\ uvw_is sched vec_basis nc q (skipn o c) U.
(* K comes from calc_kC, with the arguments A, and f, of length N, from calc_fext for the loads L at the level inc *)
Definition load_vector (E : env) (A : kargs) (p : panel) (N : nat) (K : nat -> nat -> R) (L : loads) (inc : R) (f : list R) : Prop :=
  exists p1 p2 sz, calc_kC E A p = (p1, Ok K) /\ calc_fext E vec_basis L inc sz (ka_col0 A) p1 = (p2, Ok f) /\ length f = N.
(* c solves K c = f and displaces the panel by U *)
Definition response (E : env) (A : kargs) (p : panel) (N : nat) (K : nat -> nat -> R) (L : loads) (inc : R) (c : list R) (U : displacements) : Prop :=
  exists f, load_vector E A p N K L inc f /\ solves N K (vec c) (vec f) /\ displaces E p (ka_col0 A) c U.
(* work of the loads L at the level inc in the displacements U *)
Definition load_work (E : env) (p : panel) (L : loads) (inc : R) (U : displacements) : R :=
  constant_work (e_rule E) (pn_sh p) L U + inc * incremented_work (e_rule E) (pn_sh p) L U.
(* no load along a line *)
Definition at_points (L : loads) : Prop := ld_distr L = [] /\ ld_distr_inc L = [] /\ ld_dpd L = [] /\ ld_dpd_inc L = [].
(* the force P at the point (x, y) in the direction j: 0, 1, 2 for u, v, w *)
Definition one_force (j : nat) (x y P : R) : loads :=
  fst (add_point_load x y (if (j =? 0)%nat then P else 0) (if (j =? 1)%nat then P else 0) (if (j =? 2)%nat then P else 0) true no_loads).
