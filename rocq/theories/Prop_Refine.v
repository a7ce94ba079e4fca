(* C96: more terms or fewer supports never raise a frequency or a buckling load; a stiffer laminate never lowers one. *)
From Coq Require Import Reals List Arith Bool Lia Lra.
From Verif Require Import Base_Sum Model_Types Model_Coo Model_Result Model_Num Model_DB Model_Bardell Model_Shell
  Spec_Algebra Spec_Kinematics Spec_Integral Spec_Bardell Spec_Panel Spec_Shell Spec_Modes Spec_Refine
  Proof_Shell Proof_Total Proof_Api Proof_AnaApi Proof_BardellInt Proof_Modes Proof_Refine Ex_Panel Ex_Exact Prop_Stiffness.
From Coq Require Import List.
Import ListNotations.
Open Scope R_scope.

(* q has the terms of p and more, and no support that p does not have. Every state of p is a state of q, with the same
   displacements and the same strain energy, work of the load and kinetic energy *)
Theorem C96_states : forall E p q o o' N N' K G M K' G' M', matrices E p o N K G M -> matrices E q o' N' K' G' M' ->
  same_material p q -> same_laminate E p q -> freer (kernel_view p) (kernel_view q) ->
  forall c, exists c', same_field (kernel_view p) (kernel_view q) (own o c) (own o' c') /\
  quad N' K' c' = quad N K c /\ quad N' G' c' = quad N G c /\ quad N' M' c' = quad N M c.
Proof. intros E p q o o' N N' K G M K' G' M' H H' HM HL HF c. exact (freer_same E p q o o' N N' K G M K' G' M' H H' HM HF HL c). Qed.
Print Assumptions C96_states.

(* the lower bounds of the frequencies and the stable loads of q are those of p: the values of q are not above those of p *)
Theorem C96_frequencies : forall E p q o o' N N' K G M K' G' M', matrices E p o N K G M -> matrices E q o' N' K' G' M' ->
  same_material p q -> same_laminate E p q -> freer (kernel_view p) (kernel_view q) ->
  forall l, (frequencies_above N' K' M' l -> frequencies_above N K M l) /\ (stable N' K' G' l -> stable N K G l).
Proof.
  intros E p q o o' N N' K G M K' G' M' H H' HM HL HF l.
  split; intros HB c; destruct (C96_states E p q o o' N N' K G M K' G' M' H H' HM HL HF c) as (c' & _ & A1 & A2 & A3); specialize (HB c').
  - rewrite A1, A3 in HB. exact HB.
  - rewrite A1, A2 in HB. exact HB.
Qed.
Print Assumptions C96_frequencies.

(* a lower bound of the frequencies bounds each of them *)
Theorem C96_bound : forall E p o N K G M l, matrices E p o N K G M -> frequencies_above N K M l ->
  forall lr li x y, vibration N K M lr li x y -> 0 < energy N M x y -> l <= lr.
Proof.
  intros E p o N K G M l ((A & p1 & HA & HK) & _ & (sz & nxo & nyo & p2 & HM) & _) HB lr li x y HV He.
  destruct (pair_energy N K M lr li x y (C17_kC_symmetric E A p p1 K HK ltac:(apply HA)) (C17_kM_symmetric E sz _ _ _ _ _ _ p p2 M HM) HV) as [HE _].
  apply (Rmult_le_reg_r (energy N M x y)); [exact He|]. rewrite <- HE. unfold energy in *. pose proof (HB x). pose proof (HB y). lra.
Qed.
Print Assumptions C96_bound.

(* two panels that differ in the laminate, the second stiffer *)
Theorem C96_stiffer_laminate : forall E p q o o' N N' K G M K' G' M', matrices E p o N K G M -> matrices E q o' N' K' G' M' ->
  same_material p q -> stiffer_laminate E p q -> kernel_view q = kernel_view p -> 0 <= sh_a (pn_sh p) * sh_b (pn_sh p) ->
  forall l, (frequencies_above N K M l -> frequencies_above N' K' M' l) /\ (stable N K G l -> stable N' K' G' l).
Proof.
  intros E p q o o' N N' K G M K' G' M' H H' HM HL HV Hab l.
  split; intros HB c'; destruct (stiffer_same E p q o o' N N' K G M K' G' M' H H' HM HV HL Hab (place o (own o' c')) c' (fun k => eq_sym (own_place o _ k))) as (A1 & A2 & A3);
    specialize (HB (place o (own o' c'))).
  - rewrite A3. lra.
  - rewrite A2. lra.
Qed.
Print Assumptions C96_stiffer_laminate.

(* plates of 2 x 3 with m x n terms, the edges along y given by e, of a laminate whose stiffness is proportional to E11 *)
Definition prop_env : env := mkEnv code_rule exact_basis exact_tables (fun stack ts props rhos off =>
  mkLam (fun i j => hd 0 (hd [] props) * ex_ABD i j) (fold_left Rplus ts 0) 0).
Definition model (m n : nat) (e : edge) (E11 : R) : panel :=
  mkPanel (mkShell 2 3 0 m n (-1) 1 (-1) 1 0 0 e e e e e e) None (Some (Known PlateModel)) 7 7 [0; 90] (Some (1/8)) [1/8; 1/8] [E11; 2; 3] [[E11; 2; 3]; [E11; 2; 3]] (1300) [1300; 1300] (1/10) false
    (Some ex_lam) None None (1, 2, 3) (0, 0, 0) (Some true) None None (Some 1) (Some 2) (Some 3) None None None None None.
Lemma model_matrices m n e E11 : (m <= 30)%nat -> (n <= 30)%nat -> exists K G M, matrices prop_env (model m n e E11) 2 (ndof (pn_sh (model m n e E11)) + 5) K G M.
Proof.
  intros Hm Hn. set (p := model m n e E11). set (A := mkKargs (SStr 5) 2 2 true None None None None None false).
  assert (HC : complete p) by (unfold complete, p, model; cbn; repeat split; try discriminate; right; discriminate).
  assert (H1 : exists p' K, calc_kC prop_env A p = (p', Ok K)).
  { apply calc_kC_ok; try reflexivity; try exact HC; try (cbn; lia); try discriminate. }
  assert (H2 : exists p' K, calc_kG prop_env A p = (p', Ok K)) by (apply calc_kG_ok; try reflexivity; try exact HC; cbn; lia).
  assert (H3 : exists p' K, calc_kM prop_env (SStr 5) 2 2 None None None None true p = (p', Ok K)) by (eapply calc_kM_ok; try reflexivity; cbn; lia).
  destruct H1 as (p1 & K & H1). destruct H2 as (p2 & G & H2). destruct H3 as (p3 & M & H3). exists K, G, M.
  split; [exists A, p1; split; [repeat split|exact H1]|]. split; [exists A, p2; split; [repeat split|exact H2]|]. split; [exists (SStr 5), None, None, p3; exact H3|].
  split; [lia|]. split; [reflexivity|]. split; [unfold geometry_ok, kernel_view, chosen_model; cbn; split; [lra|split; [lra|discriminate]]|].
  split; [|apply exact_tables_integrate; cbn; lia].
  destruct ex_ABD_is as [S1 S2]. split; intros i j Hi Hj; cbn -[ex_ABD]; [rewrite (S1 i j Hi Hj)|pose proof (S2 i j Hi Hj) as S; cbn -[ex_ABD] in S; rewrite S]; reflexivity.
Qed.
Example C96_case : let p := model 4 4 ss 1 in let q := model 6 5 free 1 in let r := model 4 4 ss 2 in
  (exists K G M, matrices prop_env p 2 53 K G M) /\ (exists K G M, matrices prop_env q 2 95 K G M) /\ (exists K G M, matrices prop_env r 2 53 K G M) /\
  same_material p q /\ same_laminate prop_env p q /\ freer (kernel_view p) (kernel_view q) /\
  same_material p r /\ stiffer_laminate prop_env p r /\ kernel_view r = kernel_view p /\ 0 <= sh_a (pn_sh p) * sh_b (pn_sh p).
Proof.
  cbv zeta. split; [apply (model_matrices 4 4 ss 1); lia|]. split; [apply (model_matrices 6 5 free 1); lia|]. split; [apply (model_matrices 4 4 ss 2); lia|].
  split; [repeat split|]. split; [intros i j _ _; reflexivity|]. split.
  { unfold freer. cbn [kernel_view model pn_sh sh_a sh_b sh_r sh_m sh_n pn_r]. repeat (split; [reflexivity || lia|]).
    intros d Hd. assert (HX : more_held ss free) by (intros i Hi; destruct i as [|[|[|[|i]]]]; [right|left|right|left|lia]; reflexivity).
    destruct d as [|[|[|d]]]; [| | |lia]; split; exact HX. }
  split; [repeat split|]. split; [|split; [reflexivity|cbn; lra]].
  intro x. unfold form. cbn -[ex_ABD]. unfold ex_ABD. cbn. nra.
Qed.
