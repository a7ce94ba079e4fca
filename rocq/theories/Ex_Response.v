(* Plates under a force: an example. *)
From Coq Require Import Reals List Arith Bool Lia Lra Permutation.
From Verif Require Import Proof_Rigid Base_Sum Model_Types Model_Coo Model_Result Model_Num Model_DB Model_Bardell Model_Shell Model_Field Model_Fext
  Spec_Algebra Spec_Kinematics Spec_Quadrature Spec_Panel Spec_Shell Spec_Bardell Spec_Integral Spec_Field Spec_Fext Spec_Modes Spec_Rigid Spec_Refine Spec_Pull Spec_Response
  Proof_Shell Proof_AnaApi Proof_MultiConn Proof_Ana Proof_Fext Proof_FextApi Proof_Total Proof_Response Ex_Panel Ex_Exact.
From Coq Require Import List.
Import ListNotations.
Open Scope R_scope.

Lemma force_points j x y P : at_points (one_force j x y P).
Proof. repeat split. Qed.
Lemma force_work E p j x y P inc U : (j < 3)%nat -> load_work E p (one_force j x y P) inc U = P * U j x y.
Proof.
  intro Hj. unfold load_work, constant_work, incremented_work. destruct j as [|[|[|j]]]; [| | |lia]; cbn; unfold point_work, work_at; cbn; ring.
Qed.

Definition plate_env : env := mkEnv code_rule exact_basis exact_tables (fun stack ts props rhos off =>
  mkLam (fun i j => hd 0 (hd [] props) * ex_ABD i j) (fold_left Rplus ts 0) 0).
Definition propped : edge := mkEdge 0 0 0 1.
Definition cantilever : edge := mkEdge 0 0 1 1.
Definition plate (m n : nat) (e : edge) (E11 : R) : panel :=
  mkPanel (mkShell 2 3 0 m n (-1) 1 (-1) 1 0 0 e e e free_edge free_edge free_edge) None (Some (Known PlateModel)) 7 7 [0; 90] (Some (1/8)) [1/8; 1/8] [E11; 2; 3] [[E11; 2; 3]; [E11; 2; 3]] (1300) [1300; 1300] (1/10) false
    (Some ex_lam) None None (1, 2, 3) (0, 0, 0) (Some true) None None (Some 1) (Some 2) (Some 3) None None None None None.
Definition plate_args : kargs := mkKargs (SStr 2) 2 2 true None None None None None false.
Lemma scaled_laminate m n e k i j : lam_matrix (pn_ortho (plate m n e k)) (rebuilt_lam plate_env (plate m n e k)) i j = k * ex_ABD i j.
Proof. reflexivity. Qed.

Lemma plate_ready m n e k : (0 < m <= 30)%nat -> (0 < n <= 30)%nat -> 0 < k -> e = propped \/ e = cantilever -> let z := plate m n e k in exists K,
  let N := (2 + ndof (pn_sh z))%nat in stiffness plate_env plate_args z N K /\ elastic plate_env z /\
  definite 6 (lam_matrix (pn_ortho z) (rebuilt_lam plate_env z)) /\ 0 < sh_a (pn_sh z) * sh_b (pn_sh z) /\
  anchored (curvature (chosen_model z) (kernel_view z)) (kernel_view z) /\
  forall j x y P inc, exists f, load_vector plate_env plate_args z N K (one_force j x y P) inc f.
Proof.
  intros Hm Hn Hk He z.
  assert (HC : complete z) by (unfold complete, z, plate; cbn; repeat split; try discriminate; right; discriminate).
  assert (HR : exists p' K, calc_kC plate_env plate_args z = (p', Ok K)).
  { apply calc_kC_ok; try reflexivity; try exact HC; try (cbn; lia); try discriminate. }
  destruct HR as (p1 & K & HR). exists K. intro N.
  split. { split; [exists p1; exact HR|]. repeat (split; [reflexivity|]). apply exact_tables_integrate. cbn. lia. }
  split.
  { split; [reflexivity|]. split; [unfold geometry_ok, kernel_view, chosen_model; cbn; split; [lra|split; [lra|discriminate]]|]. split; [|split; [|cbn; lra]].
    - destruct ex_ABD_is as [S1 S2]. split; intros i j Hi Hj; unfold z; rewrite !scaled_laminate; [rewrite (S1 i j Hi Hj)|pose proof (S2 i j Hi Hj) as S; rewrite S]; reflexivity.
    - intro v. assert (HF : form 6 (lam_matrix (pn_ortho z) (rebuilt_lam plate_env z)) v v = k * form 6 ex_ABD v v).
      { unfold form. rewrite <- sumn_scal. apply sumn_ext; intros i Hi. rewrite <- sumn_scal. apply sumn_ext; intros j Hj. unfold z. rewrite scaled_laminate. ring. }
      rewrite HF. apply Rmult_le_pos; [lra|apply ex_ABD_psd]. }
  split.
  { intros v (q & Hq & Hv). assert (HF : form 6 (lam_matrix (pn_ortho z) (rebuilt_lam plate_env z)) v v = k * form 6 ex_ABD v v).
    { unfold form. rewrite <- sumn_scal. apply sumn_ext; intros i Hi. rewrite <- sumn_scal. apply sumn_ext; intros j Hj. unfold z. rewrite scaled_laminate. ring. }
    rewrite HF. apply Rmult_lt_0_compat; [exact Hk|]. unfold form, ex_ABD. cbn.
    assert (0 < v q * v q) by nra. do 6 (destruct q as [|q]; [nra|]). lia. }
  split; [cbn; lra|].
  split. { destruct He as [->| ->]; apply edge_anchored; cbn; lra. }
  intros j x y P inc. pose proof (calc_kC_kept _ _ _ _ _ HR) as HK. pose proof (kp_sh _ _ _ HK) as Hsh. pose proof (kp_complete _ _ _ HK HC) as HC1.
  destruct (calc_fext_ok plate_env vec_basis (one_force j x y P) inc (SStr 2) 2 p1 HC1) as (p2 & f & HF); rewrite ?Hsh; try (cbn; lia).
  { constructor. }
  exists f, p1, p2, (SStr 2). split; [exact HR|]. split; [exact HF|]. rewrite (proj1 (proj2 (calc_fext_spec _ _ _ _ _ _ _ _ _ HF))), Hsh. unfold size_value, N. unfold ndof, DOF. lia.
Qed.
Lemma plates_compare : let p := plate 4 4 propped 1 in let q := plate 6 5 cantilever 1 in let r := plate 4 4 propped 2 in
  chosen_model q = chosen_model p /\ same_laminate plate_env p q /\ freer (kernel_view p) (kernel_view q) /\
  chosen_model r = chosen_model p /\ stiffer_laminate plate_env p r /\ kernel_view r = kernel_view p.
Proof.
  cbv zeta. split; [reflexivity|]. split; [intros i j _ _; reflexivity|]. split.
  { unfold freer. cbn [kernel_view plate pn_sh sh_a sh_b sh_r sh_m sh_n pn_r]. repeat (split; [reflexivity || lia|]).
    intros d Hd. assert (HX : more_held propped cantilever) by (intros i Hi; destruct i as [|[|[|[|i]]]]; [left|left|right|left|lia]; reflexivity).
    assert (HY : more_held free_edge free_edge) by (intros i Hi; left; reflexivity).
    destruct d as [|[|[|d]]]; [| | |lia]; split; (exact HX || exact HY). }
  split; [reflexivity|]. split; [|reflexivity].
  intro x. unfold form. cbn -[ex_ABD]. unfold ex_ABD. cbn. nra.
Qed.
