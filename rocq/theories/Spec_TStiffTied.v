(* A T-stiffened panel whose laminates resist every strain. Definitions only. *)
From Coq Require Import Reals List Arith.
From Verif Require Import Base_Sum Model_Types Model_Result Model_Num Model_DB Model_Shell Model_Multi Model_TStiff
  Spec_Algebra Spec_Kinematics Spec_Panel Spec_Shell Spec_Bardell Spec_Multi Spec_MultiConn Spec_Rigid Spec_TStiff.
Import ListNotations.
Open Scope R_scope.

(* the laminates of the skin, the base and the flange have the form of an ABD matrix, and every strain costs energy *)
Definition resistant (E : env) (D : tstiff) : Prop :=
  List.Forall (fun st => is_ABD (lam_matrix false (laminate_of E D st)) /\ definite 6 (lam_matrix false (laminate_of E D st)))
    [ts_stack_skin D; ts_stack_base D; ts_stack_flange D].
