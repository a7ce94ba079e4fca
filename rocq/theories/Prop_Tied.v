(* C98: an assembly of panels, flat or curved, resists everything but motions that strain no panel and open no connection,
   and those as well once every panel is tied to one that is held. *)
From Coq Require Import Reals List Arith Bool Lia Lra.
From Verif Require Import Base_Sum Model_Types Model_Coo Model_Result Model_Num Model_DB Model_Shell Model_Field Model_Fext Model_Multi
  Spec_Algebra Spec_Kinematics Spec_Integral Spec_Bardell Spec_Panel Spec_Shell Spec_Multi Spec_MultiConn Spec_ConnScale Spec_Modes Spec_Rigid Spec_Tied
  Proof_Tied Ex_Tied.
From Coq Require Import List.
Import ListNotations.
Open Scope R_scope.

(* the strain energy of the assembly and of its connections is zero exactly for these motions *)
Theorem C98_nothing_else : forall E M k arg w s,
  let h := w_panel w in let ids := as_panels s in let size := total_width h ids in
  assembled w s -> as_kC_conn s = None -> (match arg with Some k' => Some k' | None => as_conn s end) = Some k ->
  w_conn w k <> [] -> List.Forall (usable h ids) (w_conn w k) ->
  (forall i, In i ids -> stiff_panel E h i /\ (sh_m (geometry h i) <= M)%nat /\ (sh_n (geometry h i) <= M)%nat) ->
  (M <= 30)%nat -> tables_integrate (e_tables E) exact_basis M ->
  exists w' s' K, asm_kC E exact_basis arg None true w s = (w', s', Ok (Some K)) /\
  forall c, quad size K c = 0 <->
    (forall i, In i ids -> moves_rigidly h c i) /\ List.Forall (fun cn => no_jump exact_basis h cn c) (w_conn w k).
Proof. intros E M k arg w s h ids size. exact (assembly_null E M k arg w s). Qed.
Print Assumptions C98_nothing_else.

(* every panel is held or connected to one that is: two solutions of K c = f displace every point of every panel by the
   same amount *)
Theorem C98_unique_response : forall E M k arg w s,
  let h := w_panel w in let ids := as_panels s in let size := total_width h ids in
  assembled w s -> as_kC_conn s = None -> (match arg with Some k' => Some k' | None => as_conn s end) = Some k ->
  w_conn w k <> [] -> List.Forall (usable h ids) (w_conn w k) ->
  (forall i, In i ids -> stiff_panel E h i /\ (sh_m (geometry h i) <= M)%nat /\ (sh_n (geometry h i) <= M)%nat) ->
  (M <= 30)%nat -> tables_integrate (e_tables E) exact_basis M ->
  (forall i, In i ids -> tied h (w_conn w k) i) ->
  exists w' s' K, asm_kC E exact_basis arg None true w s = (w', s', Ok (Some K)) /\
  forall c d f, (forall r, (r < size)%nat -> row size K c r = f r) -> (forall r, (r < size)%nat -> row size K d r = f r) ->
  forall i, In i ids -> same_motion h c d i.
Proof.
  intros E M k arg w s h ids size HA Hc Harg Hl HU HS HM HT HD.
  destruct (assembly_null E M k arg w s HA Hc Harg Hl HU HS HM HT) as (w' & s' & K & HR & HK). exists w', s', K. split; [exact HR|].
  intros c d f. exact (tied_unique E M k arg w s HA Hc Harg Hl HU HS HM HT K c d f HK HD).
Qed.
Print Assumptions C98_unique_response.

(* three panels: a plate held along an edge, a curved panel beside it, and a plate bonded onto that one *)
Example C98_case :
  let w := three_world in let s := three_asm in let h := w_panel w in let ids := as_panels s in
  assembled w s /\ as_kC_conn s = None /\ as_conn s = Some 0%nat /\ w_conn w 0%nat <> [] /\ List.Forall (usable h ids) (w_conn w 0%nat) /\
  (forall i, In i ids -> stiff_panel Ex_Exact.exact_env h i /\ (sh_m (geometry h i) <= 4)%nat /\ (sh_n (geometry h i) <= 4)%nat) /\
  tables_integrate (e_tables Ex_Exact.exact_env) exact_basis 4 /\ forall i, In i ids -> tied h (w_conn w 0%nat) i.
Proof. exact three_case. Qed.
