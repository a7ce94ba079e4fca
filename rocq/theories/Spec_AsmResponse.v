(* The response of an assembly to loads. Definitions only. *)
From Coq Require Import Reals List Arith Permutation.
From Verif Require Import Base_Sum Model_Types Model_Result Model_Num Model_DB Model_Bardell Model_Shell Model_Field Model_Fext Model_Multi
  Spec_Algebra Spec_Kinematics Spec_Panel Spec_Shell Spec_Bardell Spec_Integral Spec_Field Spec_Fext Spec_Modes Spec_Multi Spec_MultiConn Spec_Rigid Spec_Tied Spec_Pull Spec_Response.
Import ListNotations.
Open Scope R_scope.

(* panels with their material given that resist every strain, one after the other, with the connections at the place k *)
Definition stiff_assembly (E : env) (k : nat) (arg : option nat) (w : world) (s : assembly) : Prop :=
  let h := w_panel w in let ids := as_panels s in
  assembled w s /\ as_kC_conn s = None /\ (match arg with Some k' => Some k' | None => as_conn s end) = Some k /\
  w_conn w k <> [] /\ List.Forall (usable h ids) (w_conn w k) /\
  exists M, (forall i, In i ids -> stiff_panel E h i /\ (sh_m (geometry h i) <= M)%nat /\ (sh_n (geometry h i) <= M)%nat) /\
    (M <= 30)%nat /\ tables_integrate (e_tables E) exact_basis M.
(* every panel is held, or connected to one that is *)
Definition all_tied (k : nat) (w : world) (s : assembly) : Prop := forall i, In i (as_panels s) -> tied (w_panel w) (w_conn w k) i.

(* the loads that calls of the load methods leave *)
Definition added (L : loads) : Prop := exists calls outs, run_calls calls no_loads = (L, outs).
(* the panels of w with the loads L *)
Definition reloaded (L : nat -> loads) (w : world) : world :=
  mkWorld (fun i => let x := w_panel w i in mkXp (xp x) (xp_group x) (L i) (xp_start x) (xp_end x)) (w_conn w).
(* work of the loads of all panels in the displacements U of each *)
Definition asm_work (E : env) (w : world) (s : assembly) (L : nat -> loads) (inc : R) (U : nat -> displacements) : R :=
  suml (as_panels s) (fun i => load_work E (xp (w_panel w i)) (L i) inc (U i)).
(* U i are the displacements that uvw evaluates for panel i and its slice of c *)
Definition asm_shows (E : env) (w : world) (s : assembly) (c : list R) (U : nat -> displacements) : Prop :=
  forall i, In i (as_panels s) -> displaces E (xp (w_panel w i)) (start (w_panel w) i) c (U i).
(* K comes from calc_kC; c solves K c = f, with f from calc_fext for the loads L, and displaces the panels by U *)
Definition asm_response (E : env) (arg : option nat) (w : world) (s : assembly) (K : nat -> nat -> R) (L : nat -> loads) (inc : R)
    (c : list R) (U : nat -> displacements) : Prop :=
  (forall i, In i (as_panels s) -> added (L i)) /\ exists w' s' w'' s'' f, asm_kC E exact_basis arg None true w s = (w', s', Ok (Some K)) /\
  asm_fext E vec_basis inc (reloaded L w') s' = (w'', s'', Ok f) /\
  solves (total_width (w_panel w) (as_panels s)) K (vec c) f /\ asm_shows E w s c U.
(* the force P on panel i, at the point (x, y) in the direction j; no other load *)
Definition force_on (i j : nat) (x y P : R) : nat -> loads := fun i' => if (i' =? i)%nat then one_force j x y P else no_loads.
