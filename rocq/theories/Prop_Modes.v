(* C94: vibration frequencies and buckling loads are real. *)
From Coq Require Import Reals List Arith Bool Lia Lra.
From Verif Require Import Base_Sum Model_Types Model_Coo Model_Result Model_Num Model_DB Model_Shell Model_Bardell Model_Fext Model_Multi
  Spec_Algebra Spec_Kinematics Spec_Integral Spec_Bardell Spec_Panel Spec_Shell Spec_Conn Spec_Multi Spec_MultiConn Spec_Modes
  Proof_Shell Proof_AnaApi Proof_Multi Proof_MultiTop Proof_Modes Ex_Panel Ex_Exact Ex_Multi Ex_Modes Prop_Stiffness.
From Coq Require Import List.
Import ListNotations.
Open Scope R_scope.

(* a panel: the stiffness and the mass of the closed forms, at the same place of matrices of the size N *)
Theorem C94_panel_vibrations : forall E A p p' K sz nxo nyo q q' M N,
  elastic E p -> calc_kC E A p = (p', Ok K) ->
  ka_c A = None -> ka_F A = None -> ka_NL A = false -> ka_c_cte A = None -> ka_fin A = true -> ka_row0 A = ka_col0 A ->
  (ka_col0 A + ndof (pn_sh p) <= N)%nat -> tables_integrate (e_tables E) (e_basis E) (Nat.max (sh_m (pn_sh p)) (sh_n (pn_sh p))) ->
  massive q -> pn_sh q = pn_sh p -> calc_kM E sz (ka_row0 A) (ka_col0 A) None None nxo nyo true q = (q', Ok M) ->
  forall lr li x y, vibration N K M lr li x y -> energy N M x y <> 0 -> li = 0 /\ 0 <= lr.
Proof.
  intros E A p p' K sz nxo nyo q q' M N HE HK H1 H2 H3 H4 H5 H6 HN HT HM Hq HQ lr li x y. rewrite H6 in HQ.
  apply vibration_real.
  - exact (C17_kC_symmetric E A p p' K HK H5).
  - exact (C17_kM_symmetric E sz _ _ _ _ _ _ q q' M HQ).
  - exact (elastic_psd E A p p' K N HE HK H1 H2 H3 H4 H5 H6 HN HT).
  - rewrite <- Hq in HN, HT. exact (massive_psd E sz _ nxo nyo q q' M N HM HQ HN HT).
Qed.
Print Assumptions C94_panel_vibrations.

(* whichever way the matrices were calculated: under a load whose stiffness is G the mode with strain energy
   has a real, non-zero factor *)
Theorem C94_panel_buckling : forall E A p p' K A' q q' G N,
  calc_kC E A p = (p', Ok K) -> ka_fin A = true -> calc_kG E A' q = (q', Ok G) -> ka_fin A' = true ->
  forall lr li x y, buckling N K G lr li x y -> energy N K x y <> 0 -> li = 0 /\ lr <> 0.
Proof.
  intros E A p p' K A' q q' G N HK H1 HG H2 lr li x y. apply buckling_real; [exact (C17_kC_symmetric E A p p' K HK H1)|exact (C17_kG_symmetric E A' q q' G HG H2)].
Qed.
Print Assumptions C94_panel_buckling.

(* an assembly with its connections. The mass may be calculated before or after the stiffness (wm) *)
Theorem C94_assembly_vibrations : forall E Bs M k w s arg, assembled w s -> as_kC_conn s = None ->
  (match arg with Some k' => Some k' | None => as_conn s end) = Some k ->
  let h := w_panel w in let ids := as_panels s in let size := total_width h ids in
  w_conn w k <> [] -> List.Forall (usable h ids) (w_conn w k) ->
  (forall i, In i ids -> sound E h i /\ (sh_m (geometry h i) <= M)%nat /\ (sh_n (geometry h i) <= M)%nat) ->
  tables_integrate (e_tables E) Bs M -> tables_integrate (e_tables E) (e_basis E) M ->
  (forall i, In i ids -> elastic E (xp (h i))) ->
  exists w' s' K, asm_kC E Bs arg None true w s = (w', s', Ok (Some K)) /\
  forall wm sm wm' sm' Mm, assembled wm sm -> as_panels sm = ids ->
    (forall i, In i ids -> massive (xp (w_panel wm i)) /\ pn_sh (xp (w_panel wm i)) = pn_sh (xp (h i))) ->
    asm_kM E true wm sm = (wm', sm', Ok (Some Mm)) ->
    forall lr li x y, vibration size K Mm lr li x y -> energy size Mm x y <> 0 -> li = 0 /\ 0 <= lr.
Proof.
  intros E Bs M k w s arg HA Hc Harg h ids size Hl HU HS HT HT' HE.
  destruct (asm_kC_facts E Bs M k w s arg HA Hc Harg Hl HU HS HT HT' HE) as (w' & s' & K & HR & SK & PK & _).
  exists w', s', K. split; [exact HR|]. intros wm sm wm' sm' Mm HAm Hids HM HRm lr li x y.
  destruct (asm_kM_facts E wm sm wm' sm' Mm M HAm HT') as [SM PM]; [|exact HRm|].
  { rewrite Hids. intros i Hi. destruct (HM i Hi) as [A B]. split; [exact A|]. unfold geometry. destruct (HS i Hi) as (_ & S1 & S2). unfold geometry in S1, S2.
    cbn [kernel_view sh_m sh_n] in *. unfold h in B. rewrite B. split; [exact S1|exact S2]. }
  assert (EW : total_width (w_panel wm) (as_panels sm) = size).
  { rewrite Hids. unfold size, h, total_width. f_equal. apply map_ext_in. intros i Hi. unfold width. destruct (HM i Hi) as [_ B]. unfold h in B. rewrite B. reflexivity. }
  rewrite EW in PM. exact (vibration_real size K Mm lr li x y SK SM PK PM).
Qed.
Print Assumptions C94_assembly_vibrations.

Theorem C94_assembly_buckling : forall E Bs M k w s arg, assembled w s -> as_kC_conn s = None ->
  (match arg with Some k' => Some k' | None => as_conn s end) = Some k ->
  let h := w_panel w in let ids := as_panels s in let size := total_width h ids in
  w_conn w k <> [] -> List.Forall (usable h ids) (w_conn w k) ->
  (forall i, In i ids -> sound E h i /\ (sh_m (geometry h i) <= M)%nat /\ (sh_n (geometry h i) <= M)%nat) ->
  tables_integrate (e_tables E) Bs M -> tables_integrate (e_tables E) (e_basis E) M ->
  (forall i, In i ids -> elastic E (xp (h i))) ->
  exists w' s' K, asm_kC E Bs arg None true w s = (w', s', Ok (Some K)) /\
  forall c wg sg wg' sg' G, asm_kG E c true wg sg = (wg', sg', Ok (Some G)) ->
    forall lr li x y, buckling size K G lr li x y -> energy size K x y <> 0 -> li = 0 /\ lr <> 0.
Proof.
  intros E Bs M k w s arg HA Hc Harg h ids size Hl HU HS HT HT' HE.
  destruct (asm_kC_facts E Bs M k w s arg HA Hc Harg Hl HU HS HT HT' HE) as (w' & s' & K & HR & SK & PK & _).
  exists w', s', K. split; [exact HR|]. intros c wg sg wg' sg' G HG lr li x y. exact (buckling_real size K G lr li x y SK (asm_kG_sym E c wg sg wg' sg' G HG)).
Qed.
Print Assumptions C94_assembly_buckling.

(* two panels of one term each, joined along an edge *)
Example C94_case : let w := ready_world lists in
  assembled w two_asm /\ as_kC_conn two_asm = None /\ w_conn w 0 <> [] /\ List.Forall (usable (w_panel w) [0; 1]%nat) (w_conn w 0) /\
  (forall i, In i [0; 1]%nat -> sound exact_env (w_panel w) i /\ (sh_m (geometry (w_panel w) i) <= 1)%nat /\ (sh_n (geometry (w_panel w) i) <= 1)%nat) /\
  tables_integrate (e_tables exact_env) exact_basis 1 /\
  (forall i, In i [0; 1]%nat -> elastic exact_env (xp (w_panel w i)) /\ massive (xp (w_panel w i))) /\
  exists wm Mm, asm_kM exact_env true w two_asm = (wm, two_asm, Ok (Some Mm)).
Proof.
  cbv zeta. split; [apply ready_assembled|]. split; [reflexivity|]. split; [rewrite ready_conn; discriminate|].
  split. { apply ready_usable. apply List.Forall_cons; [apply ssy_usable|apply List.Forall_nil]. }
  split; [apply (ready_soundly lists)|]. split; [apply two_tables|]. split.
  - intros i _. rewrite ready_xp. split; [exact ready_elastic|exact ready_massive].
  - destruct (ready_kM lists true) as (Ms & HF). destruct (asm_kM_diagonal exact_env (ready_world lists) two_asm (ready_assembled lists) true Ms HF) as (wm & HR & _). eauto.
Qed.
