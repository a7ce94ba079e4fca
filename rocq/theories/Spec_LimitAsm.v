(* Motions of an assembly. Definitions only. *)
From Coq Require Import Reals List Arith.
From Verif Require Import Base_Sum Model_Types Model_Result Model_Num Model_DB Model_Shell Model_Multi Spec_Algebra Spec_Kinematics Spec_Panel Spec_Shell Spec_Multi Spec_MultiConn Spec_Tied Spec_Modes.
Import ListNotations.
Open Scope R_scope.

(* the constants displace some point of a panel *)
Definition asm_displaced (w : world) (s : assembly) (c : nat -> R) : Prop := exists i, In i (as_panels s) /\ ~ undisplaced (w_panel w) c i.
(* the same panels in the same order, of the same geometry and with their material given, maybe after other calls *)
Definition same_layout (w : world) (s : assembly) (w' : world) (s' : assembly) : Prop :=
  as_panels s' = as_panels s /\ assembled w' s' /\
  forall i, In i (as_panels s) -> let p := xp (w_panel w i) in let q := xp (w_panel w' i) in
    pn_sh q = pn_sh p /\ kernel_view q = kernel_view p /\ chosen_model q = chosen_model p /\ complete q /\ xp_start (w_panel w' i) = xp_start (w_panel w i).
(* no panel is pulled or sheared, and one is compressed along x *)
Definition compressed_assembly (w : world) (s : assembly) : Prop :=
  (forall i, In i (as_panels s) -> exists Nxx Nyy, pn_N (xp (w_panel w i)) = (Nxx, Nyy, 0) /\ Nxx <= 0 /\ Nyy <= 0) /\
  exists i Nxx Nyy, In i (as_panels s) /\ pn_N (xp (w_panel w i)) = (Nxx, Nyy, 0) /\ Nxx < 0 /\
    (5 <= sh_m (geometry (w_panel w) i))%nat /\ (5 <= sh_n (geometry (w_panel w) i))%nat.
