(* Work of the pressure of a supersonic flow on the skin of a T-stiffened panel. Definitions only. *)
From Coq Require Import Reals List Arith Bool.
From Verif Require Import Base_Sum Model_Types Model_Coo Model_Result Model_Num Model_DB Model_Shell Model_Fext Model_Multi Model_New Model_TStiff
  Spec_Kinematics Spec_Integral Spec_Bardell Spec_Panel Spec_Shell Spec_Fext Spec_Aero Spec_Flow Spec_Conn Spec_Multi Spec_MultiConn Spec_Cylinder Spec_TStiff.
Import ListNotations.
Open Scope R_scope.

(* a flow of density rho, speed V and Mach number M over the panels: the work of the pressure that the
   displacements d cause, in the displacements c *)
Definition skin_work (along_x : bool) (rho V M : R) (h : nat -> xpanel) (ids : list nat) (c d : nat -> R) (W : R) : Prop :=
  exists Ws, Forall2 (fun i W => panel_integral (pn_sh (xp (h i)))
      (pressure_work exact_basis (pn_sh (xp (h i))) along_x (piston_beta rho V M) (piston_gamma rho V M (default 0 (pn_r (xp (h i))))) (own (start h i) c) (own (start h i) d)) W) ids Ws /\
    W = suml Ws (fun W => W).

(* the panels number 1, ..., 9 have the places, sizes and boundary conditions they were created with, lie
   in the flow and have not been used for an aerodynamic matrix yet *)
Definition skin_in_flow (E : env) (D : tstiff) (k : nat) (along_x : bool) (rho V M : R) (w : world) : Prop :=
  laid_out (w_panel w) (seq k 15) 0 /\
  forall i, (1 <= i <= 9)%nat -> let p := xp (w_panel w (k + (i - 1))) in
    pn_sh p = pn_sh (np_panel (panel_no D i)) /\ flown E p along_x /\
    pn_beta p = None /\ pn_rho_air p = Some rho /\ pn_V p = Some V /\ pn_Mach p = Some M.
