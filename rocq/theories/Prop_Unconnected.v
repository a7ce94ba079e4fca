(* C104: an assembly whose list of connections is empty should be its panels side by side; calc_kC and calc_fint fail. *)
From Coq Require Import Reals List Arith Bool Lia Lra.
From Verif Require Import Base_Sum Model_Types Model_Coo Model_Result Model_Num Model_DB Model_Bardell Model_Shell Model_Fext Model_Multi
  Spec_Algebra Spec_Kinematics Spec_Panel Spec_Shell Spec_Bardell Spec_Fext Spec_Multi Spec_MultiConn Spec_Modes Spec_Rigid Spec_Tied
  Proof_Multi Proof_MultiConn Proof_MultiTop Proof_Modes Ex_Exact Ex_Multi Ex_Tied.
From Coq Require Import List.
Import ListNotations.
Open Scope R_scope.

Lemma touched_same {A} (call : nat -> nat -> method A) ids w w' k : touched call ids w w' -> w_conn w k = [] -> w_conn w' k = [].
Proof. intros [T _ _] H. rewrite T. exact H. Qed.
Lemma no_connections E Bs k arg w s : as_kC_conn s = None -> (match arg with Some k' => Some k' | None => as_conn s end) = Some k -> w_conn w k = [] ->
  get_kC_conn E Bs arg true w s = (w, s, Err AttributeError).
Proof. intros Hc Harg Hl. unfold get_kC_conn, abind, aself. rewrite Harg, Hc. unfold asm_size, abind, aself, aworld, aret. cbn. rewrite Hl. cbn. reflexivity. Qed.

(* the panels have their stiffness matrices Ks, and the assembly has none *)
Theorem C104_refuted : forall E Bs k arg w s c fin Ks, assembled w s -> as_kC_conn s = None ->
  (match arg with Some k' => Some k' | None => as_conn s end) = Some k -> w_conn w k = [] ->
  (forall l, c = Some (CVec l) -> length l = total_width (w_panel w) (as_panels s)) ->
  Forall2 (own_kC E (w_panel w) fin c) (as_panels s) Ks ->
  snd (asm_kC E Bs arg c fin w s) = Err AttributeError.
Proof.
  intros E Bs k arg w s c fin Ks HA Hc Harg Hl Hlen HF. destruct (asm_kC_diagonal E w s HA Bs arg c fin Ks Hlen HF) as (w1 & T1 & ->).
  rewrite (no_connections E Bs k arg w1 s Hc Harg (touched_same _ _ _ _ k T1 Hl)). reflexivity.
Qed.
Print Assumptions C104_refuted.
(* nor internal forces *)
Theorem C104_internal_force_refuted : forall E Bs k w s c vs, assembled w s -> as_kC_conn s = None -> as_conn s = Some k -> w_conn w k = [] ->
  length c = total_width (w_panel w) (as_panels s) -> Forall2 (own_fint E (w_panel w) c) (as_panels s) vs ->
  snd (asm_fint E Bs c w s) = Err AttributeError.
Proof.
  intros E Bs k w s c vs HA Hc Harg Hl Hlen HF. destruct (asm_fint_stacked E w s HA Bs c vs Hlen HF) as (w1 & T1 & ->).
  rewrite (no_connections E Bs k None w1 s Hc Harg (touched_same _ _ _ _ k T1 Hl)). reflexivity.
Qed.
Print Assumptions C104_internal_force_refuted.

(* what holds: once get_kC_conn was called with finalize=False, which keeps the number 0, calc_kC gives the matrices of the
   panels along the diagonal, and calc_fint their internal forces one after the other *)
Theorem C104_after_unfinalized_partial : forall E Bs k arg w s, assembled w s -> as_kC_conn s = None ->
  (match arg with Some k' => Some k' | None => as_conn s end) = Some k -> w_conn w k = [] ->
  exists s', get_kC_conn E Bs arg false w s = (w, s', Ok CZero) /\ as_panels s' = as_panels s /\ as_conn s' = as_conn s /\
  (forall c fin Ks, (forall l, c = Some (CVec l) -> length l = total_width (w_panel w) (as_panels s)) ->
    Forall2 (own_kC E (w_panel w) fin c) (as_panels s) Ks ->
    exists w', asm_kC E Bs arg c fin w s' = (w', s', Ok (Some (diagonal (w_panel w) (as_panels s) Ks)))) /\
  (forall c vs, as_conn s = Some k -> length c = total_width (w_panel w) (as_panels s) -> Forall2 (own_fint E (w_panel w) c) (as_panels s) vs ->
    exists w' f, asm_fint E Bs c w s' = (w', s', Ok f) /\ forall r, f r = stacked (w_panel w) (as_panels s) vs r).
Proof.
  intros E Bs k arg w s HA Hc Harg Hl. exists (mkAsm (as_panels s) (as_conn s) (Some CZero) (as_cores s)).
  split. { unfold get_kC_conn, abind, aself. rewrite Harg, Hc. unfold asm_size, abind, aself, aworld, aret. cbn. rewrite Hl. cbn. reflexivity. }
  split; [reflexivity|]. split; [reflexivity|]. set (s' := mkAsm _ _ _ _).
  assert (HA' : assembled w s') by exact HA. split.
  - intros c fin Ks Hlen HF. destruct (asm_kC_diagonal E w s' HA' Bs arg c fin Ks Hlen HF) as (w1 & T1 & ->). exists w1.
    unfold get_kC_conn, abind, aself. replace (match arg with Some k0 => Some k0 | None => as_conn s' end) with (Some k) by (symmetry; exact Harg). cbn. reflexivity.
  - intros c vs Hk Hlen HF. destruct (asm_fint_stacked E w s' HA' Bs c vs Hlen HF) as (w1 & T1 & ->). exists w1.
    unfold get_kC_conn, abind, aself. replace (as_conn s') with (Some k) by (symmetry; exact Hk). cbn [as_kC_conn s' aret conn_times].
    replace (length c =? _)%nat with true by (symmetry; apply Nat.eqb_eq; exact Hlen). cbn [rmap rbind]. eexists. split; [reflexivity|]. intro r. unfold vadd. cbn [as_panels]. apply Rplus_0_r.
Qed.
Print Assumptions C104_after_unfinalized_partial.
(* without any list, RuntimeError says that connections are missing *)
Theorem C104_no_list : forall E Bs w s fin c Ks, assembled w s -> as_conn s = None ->
  (forall l, c = Some (CVec l) -> length l = total_width (w_panel w) (as_panels s)) ->
  Forall2 (own_kC E (w_panel w) fin c) (as_panels s) Ks -> snd (asm_kC E Bs None c fin w s) = Err RuntimeError.
Proof.
  intros E Bs w s fin c Ks HA Hc Hlen HF. destruct (asm_kC_diagonal E w s HA Bs None c fin Ks Hlen HF) as (w1 & _ & ->).
  unfold get_kC_conn, abind, aself. rewrite Hc. reflexivity.
Qed.
Print Assumptions C104_no_list.

(* the three panels of C98 without their connections *)
Example C104_case : exists Ks, let w := mkWorld (w_panel three_world) (fun _ => []) in
  assembled w three_asm /\ as_kC_conn three_asm = None /\ as_conn three_asm = Some 0%nat /\ w_conn w 0%nat = [] /\
  Forall2 (own_kC exact_env (w_panel w) true None) (as_panels three_asm) Ks.
Proof.
  destruct three_case as (A1 & A2 & A3 & A4 & A5 & A6 & A7 & A8).
  destruct (own_kC_each exact_env 4 three_world three_asm A1) as (Ks & HF).
  { intros i Hi. destruct (A6 i Hi) as ((S1 & _) & S2). split; assumption. }
  { intros i Hi. apply (A6 i Hi). }
  exists Ks. split; [exact A1|]. split; [exact A2|]. split; [exact A3|]. split; [reflexivity|exact HF].
Qed.
