(* A compressed T-stiffened panel with five terms in each direction: an example. *)
From Coq Require Import Reals List Arith Bool Lia Lra.
From Verif Require Import Base_Sum Model_Types Model_Coo Model_Result Model_Num Model_DB Model_Shell Model_Multi Model_New Model_TStiff
  Spec_Algebra Spec_Kinematics Spec_Panel Spec_Shell Spec_Bardell Spec_Integral Spec_Modes Spec_Multi Spec_MultiConn Spec_Rigid Spec_Tied Spec_TStiff Spec_TStiffTied Spec_TStiffSolve
  Ex_Panel Ex_Exact Prop_TStiff Prop_TStiffTied.
From Coq Require Import List.
Import ListNotations.
Open Scope R_scope.

Definition press_ts : tstiff := mkTs 4 3 1 1 (1/2) 0 1 (1/8) [1; 2; 3] [0] [0] [0] None 5 5 5 5 5 5 None (-5) (-4) 0 true.
Lemma press_ts_ok d : 0 <= d < 1 -> let D := with_defect press_ts d in well_sized D /\ material_given exact_env D 5 /\ resistant exact_env D /\ ts_r D <> Some 0 /\ compressed_tstiff D.
Proof.
  intros H D. split; [unfold well_sized; cbn; repeat split; lra|]. split.
  - split; [discriminate|]. split; [|repeat constructor; cbn; lia]. exact (proj1 (proj2 (proj1 (proj2 (C72_case d H))))).
  - split; [exact (proj1 (proj2 (proj2 (C100_case d H))))|]. split; [discriminate|]. unfold compressed_tstiff. cbn. repeat split; try lra. left. repeat split; [lra|lia|lia].
Qed.
