(* C40 continued: the stiffness of the connections with the shape functions and tables that are shipped,
   and the movements that meet no stiffness. *)
From Coq Require Import Reals List Arith Bool Lia Lra.
From Coquelicot Require Import Coquelicot.
From Verif Require Import Base_Sum Model_Types Model_Coo Model_Result Model_Num Model_DB Model_Bardell Model_Shell Model_Field Model_Fext Model_Conn Model_Multi
  Spec_Algebra Spec_Quadrature Spec_Integral Spec_Kinematics Spec_Panel Spec_Shell Spec_Bardell Spec_Fext Spec_Rounded Spec_Conn Spec_Multi Spec_MultiConn Spec_ConnScale
  Proof_AnaApi Proof_Bardell Proof_Multi Proof_MultiConn Proof_MultiSign Proof_MultiTop Proof_MultiHist Proof_MultiApi Proof_ConnNearApi Proof_ConnZero
  Ex_Panel Ex_Exact Ex_Fint Ex_Multi.
From Coq Require Import List.
Import ListNotations.
Open Scope R_scope.

Section C40.
Variables (E : env) (Bs : basis) (M k : nat) (arg : option nat) (w : world) (s : assembly).
Let h := w_panel w.
Let ids := as_panels s.
Let size := total_width h ids.

(* with the literals of bardell.cpp, bardell_12.cpp and bardell_functions.cpp: the matrix K that is
   computed differs in no entry from a matrix X by more than 4e-12 of the springs' stiffness, where X is
   the work done in the jumps of fields built with Bardell's functions *)
Theorem C40_with_shipped_data :
  assembled w s -> as_kC_conn s = None -> (match arg with Some k' => Some k' | None => as_conn s end) = Some k ->
  w_conn w k <> [] -> List.Forall (usable h ids) (w_conn w k) -> List.Forall (on_panels h) (w_conn w k) ->
  (forall i, In i ids -> sound E h i /\ (sh_m (geometry h i) <= 12)%nat /\ (sh_n (geometry h i) <= 12)%nat /\ unit_edges (geometry h i)) ->
  e_tables E = code_tables ->
  exists w' s' K X, get_kC_conn E code_basis arg true w s = (w', s', Ok (CMat size K)) /\
    (forall c d, exists Ws, Forall2 (fun cn => conn_work E exact_basis h cn c d) (w_conn w k) Ws /\ bilinear size X c d = suml Ws (fun W => W)) /\
    (forall c, 0 <= quad size X c) /\
    (forall r t, K r t = K t r /\ X r t = X t r) /\
    forall r t, Rabs (K r t - X r t) <= 4 / 10 ^ 12 * suml (w_conn w k) (conn_scale E h).
Proof. exact (conn_stiffness_near E k arg w s). Qed.

(* a vector meets no stiffness exactly when no connected pair of panels jumps anywhere it is connected *)
Theorem C40_no_stiffness_exactly_without_jumps :
  assembled w s -> as_kC_conn s = None -> (match arg with Some k' => Some k' | None => as_conn s end) = Some k ->
  w_conn w k <> [] -> List.Forall (usable h ids) (w_conn w k) ->
  (forall i, In i ids -> sound E h i /\ (sh_m (geometry h i) <= M)%nat /\ (sh_n (geometry h i) <= M)%nat) ->
  tables_integrate (e_tables E) Bs M -> continuous_basis Bs M ->
  exists w' s' K, get_kC_conn E Bs arg true w s = (w', s', Ok (CMat size K)) /\
    forall c, quad size K c = 0 <-> List.Forall (fun cn => no_jump Bs h cn c) (w_conn w k).
Proof. exact (no_work_iff E Bs M k arg w s). Qed.
End C40.
Print Assumptions C40_with_shipped_data.
Print Assumptions C40_no_stiffness_exactly_without_jumps.

(* both bases are continuous *)
Example C40_continuous : continuous_basis exact_basis 30 /\ continuous_basis code_basis 30.
Proof. split; [apply exact_continuous; lia|apply code_continuous]. Qed.

(* two panels 2 by 3 connected along y = 0: the shipped data give the stiffness 16 * 26 / 35 of the first
   amplitude up to 1e-8 *)
Example C40_shipped_case : exists w' s' K, get_kC_conn ex_env code_basis None true (two_world lists) two_asm = (w', s', Ok (CMat 6 K)) /\
  Rabs (K 0%nat 0%nat - 16 * (26 / 35)) <= / 10 ^ 8.
Proof.
  destruct (C40_with_shipped_data ex_env 0 None (two_world lists) two_asm) as (w' & s' & K & X & R1 & R2 & _ & _ & R5).
  - apply two_assembled.
  - reflexivity.
  - reflexivity.
  - rewrite two_conn. discriminate.
  - rewrite two_conn. apply List.Forall_cons; [apply ssy_usable|apply List.Forall_nil].
  - rewrite two_conn. apply List.Forall_cons; [|apply List.Forall_nil]. unfold on_panels, ssy. cbn [cn_func cn_y1 cn_y2 cn_p1 cn_p2]. rewrite !two_geometry. cbn. lra.
  - intros i Hi. split; [exact (two_sound lists i)|]. rewrite two_geometry. cbn. split; [lia|]. split; [lia|]. intro d. unfold unit_flags. destruct d as [|[|d]]; cbn; rewrite ?Rabs_R0, ?Rabs_R1; lra.
  - reflexivity.
  - assert (ES : total_width (th lists) (as_panels two_asm) = 6%nat).
    { unfold total_width, width. cbn [as_panels two_asm map]. rewrite !two_panel. reflexivity. }
    rewrite ES in R1, R2. exists w', s', K. split; [exact R1|].
    destruct (R2 (unit 0) (unit 0)) as (Ws & F & B). rewrite two_conn in F. rewrite unit_form in B by lia.
    inversion F as [|? u ? ? F1 F2]; subst. inversion F2; subst.
    change (conn_work exact_env exact_basis (th lists) (ssy 0 1 0 0) (unit 0) (unit 0) u) in F1. apply ssy_work in F1. destruct F0_ends as [E0 _]. rewrite E0 in F1.
    cbn [suml] in B. specialize (R5 0%nat 0%nat). rewrite B, F1 in R5. replace (16 * 1 ^ 2 * (26 / 35) + 0) with (16 * (26 / 35)) in R5 by ring.
    eapply Rle_trans; [exact R5|]. rewrite two_conn. cbn [suml lists]. unfold conn_scale, pair_scale, ssy. cbn [cn_func cn_p1 cn_p2]. rewrite !two_geometry.
    unfold penalty_of. change (lam_of ex_env) with (lam_of exact_env). rewrite !two_lam. unfold thickness.
    unfold penalty, side_scale. cbn. unfold A22, D22, ex_ABD. cbn. lra.
Qed.

(* the same panels with exact data: the first amplitude of one panel alone meets stiffness, the first
   amplitudes of both together do not *)
Example C40_no_stiffness_case : exists w' s' K, get_kC_conn exact_env exact_basis None true (two_world lists) two_asm = (w', s', Ok (CMat 6 K)) /\
  quad 6 K (unit 0) <> 0 /\ quad 6 K (fun i => unit 0 i + unit 3 i) = 0.
Proof.
  destruct (C40_no_stiffness_exactly_without_jumps exact_env exact_basis 1 0 None (two_world lists) two_asm) as (w' & s' & K & R1 & R2).
  - apply two_assembled.
  - reflexivity.
  - reflexivity.
  - rewrite two_conn. discriminate.
  - rewrite two_conn. apply List.Forall_cons; [apply ssy_usable|apply List.Forall_nil].
  - exact (two_soundly lists).
  - exact two_tables.
  - apply exact_continuous. lia.
  - assert (ES : total_width (th lists) (as_panels two_asm) = 6%nat).
    { unfold total_width, width. cbn [as_panels two_asm map]. rewrite !two_panel. reflexivity. }
    rewrite ES in R1, R2. exists w', s', K. split; [exact R1|]. destruct F0_ends as [E0 _]. split.
    + intro H. apply R2 in H. rewrite two_conn in H. inversion H as [|? ? H1 _]; subst. unfold no_jump, ssy in H1. cbn [cn_func cn_p1 cn_p2 cn_y1 cn_y2] in H1.
      specialize (H1 0 0 0 eq_refl eq_refl). rewrite !two_geometry in H1. cbn [sh_a one_shell] in H1. assert (H2 := H1 ltac:(lra)). clear H1. inversion H2 as [|? ? H3 _]; subst.
      cbn [snd] in H3. revert H3. rewrite !two_moves by lia. unfold unit. cbn. rewrite E0. replace (F0 (natural 0 2)) with 1 by (unfold F0, natural; field).
      lra.
    + apply R2. rewrite two_conn. apply List.Forall_cons; [|apply List.Forall_nil]. unfold no_jump, ssy. cbn [cn_func cn_p1 cn_p2 cn_y1 cn_y2].
      intros y1 y2 x H1 H2 Hx. injection H1 as <-. injection H2 as <-. rewrite !two_geometry. cbn [sh_a sh_b one_shell].
      replace (x * (2 / 2)) with x by field. repeat (apply List.Forall_cons; [cbn [snd]; first [rewrite !two_moves by lia | rewrite !two_turn by lia]; unfold unit; cbn [Nat.eqb Nat.mul Nat.add]; lra|]); try apply List.Forall_nil.
Qed.
