(* The two panels of the examples store energy and have a mass. *)
From Coq Require Import Reals List Arith Bool Lia Lra.
From Verif Require Import Base_Sum Model_Types Model_Coo Model_Result Model_Num Model_DB Model_Shell Model_Multi
  Spec_Algebra Spec_Kinematics Spec_Integral Spec_Panel Spec_Shell Spec_Modes
  Proof_Shell Proof_Multi Ex_Panel Ex_Exact Ex_Fint Ex_Multi.
From Coq Require Import List.
Import ListNotations.
Open Scope R_scope.

Lemma ready_fields : pn_N_cte ready_panel = (0, 0, 0) /\ chosen_model ready_panel = PlateModel /\ pn_sh ready_panel = one_shell /\
  lam_matrix (pn_ortho ready_panel) (rebuilt_lam exact_env ready_panel) = ex_ABD /\ pn_rho ready_panel = 1300 /\ pn_plyts ready_panel = [1/8].
Proof.
  pose proof (f_equal fst ready_is) as H. cbn [fst] in H. rewrite <- H. repeat split.
Qed.
Lemma ready_geometry : geometry_ok (chosen_model ready_panel) (kernel_view ready_panel).
Proof.
  destruct ready_fields as (_ & -> & A & _). unfold geometry_ok, kernel_view. cbn [sh_a sh_b]. rewrite A. cbn. split; [lra|]. split; [lra|discriminate].
Qed.
Lemma ready_elastic : elastic exact_env ready_panel.
Proof.
  destruct ready_fields as (A & _ & B & C & _). split; [exact A|]. split; [exact ready_geometry|]. rewrite C. split; [exact ex_ABD_is|]. split; [exact ex_ABD_psd|]. rewrite B. cbn. lra.
Qed.
Lemma ready_massive : massive ready_panel.
Proof.
  destruct ready_fields as (_ & _ & B & _ & C & D). split; [exact ready_geometry|]. rewrite B, C, D. cbn. lra.
Qed.
