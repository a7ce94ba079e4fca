(* A panel of one term whose laminate depends on the ply thickness and the lamina properties. *)
From Coq Require Import Reals List Arith Bool Lia Lra.
From Verif Require Import Base_Sum Model_Types Model_Coo Model_Result Model_Num Model_DB Model_Bardell Model_PlateAna Model_Shell Model_Fext
  Spec_Panel Spec_Shell Spec_Rebuild Proof_Shell Proof_FieldEdge Proof_Total Proof_Hist Ex_Panel.
Import ListNotations.
Open Scope R_scope.

Definition thin_lib : lamlib := fun stack ts props rhos off =>
  mkLam (fun i j => if ((i =? 0) && (j =? 0))%nat%bool then nth 0 ts 0 * nth 0 (nth 0 props []) 0 else 0) 1 1.
Definition thin_env : env := mkEnv code_rule code_basis code_tables thin_lib.
Definition thin_shell : shell := mkShell 2 2 0 1 1 (-1) 1 (-1) 1 0 0 free free free free free free.
Definition thin_panel (t e : R) : panel :=
  mkPanel thin_shell None None 1 1 [0] (Some t) [] [e] [] 1300 [] 0 false None None None
    (0, 0, 0) (0, 0, 0) (Some true) None None None None None None None None None None.
Definition thin_args : kargs := mkKargs SNone 0 0 true None None None None None false.

Definition thin_k : R := t_fpfp code_tables 0 0 free free * t_ff code_tables 0 0 free free.
Lemma thin_k_pos : thin_k <> 0.
Proof. unfold thin_k. cbn -[IZR Rmult Rdiv pow]. unfold lit_val. cbn -[IZR Rmult Rdiv pow]. apply Rgt_not_eq. apply Rmult_gt_0_compat; lra. Qed.
Lemma thin_complete t e : complete (thin_panel t e).
Proof. repeat split; try discriminate; right; discriminate. Qed.
Lemma thin_runs t e : exists p' K, calc_kC thin_env thin_args (thin_panel t e) = (p', Ok K) /\ K 0%nat 0%nat = t * e * thin_k.
Proof.
  destruct (calc_kC_ok thin_env thin_args (thin_panel t e)) as (p' & K & H); try exact I; try reflexivity; try discriminate; try (cbn; lia).
  - apply thin_complete.
  - exists p', K. split; [exact H|].
    destruct (calc_kC_inv _ _ _ _ _ H) as (mdl & kC & kG & R).
    destruct (kr_rebuild _ _ _ _ _ _ _ _ R) as (p1 & ER & S).
    destruct (rebuild_inv _ _ _ _ ER) as (A1 & A2 & A3 & A4 & A5 & A6 & A7 & A8 & _).
    pose proof (kr_kC _ _ _ _ _ _ _ _ R) as C. cbv zeta in C.
    destruct C as [(_ & _ & _ & F & HF & HC)|([C|[C|C]] & _)]; try (exfalso; apply C; reflexivity); try discriminate C.
    pose proof (kr_kG _ _ _ _ _ _ _ _ R) as G. cbn [thin_panel pn_N_cte thin_args ka_c_cte] in G.
    assert (HG : kG = []).
    { destruct G as [(_ & _ & G)|[(_ & G & _)|(l & G & _)]]; [exact G| |discriminate G].
      exfalso. cbn in G. destruct (Req_EM_T 0 0); [discriminate G|lra]. }
    pose proof (kr_model _ _ _ _ _ _ _ _ R) as HM. rewrite (sr_model _ _ S), A3 in HM. cbn in HM.
    assert (Hm : mdl = PlateModel) by congruence. subst mdl kG.
    rewrite (sr_ABD _ _ S), A8 in HF. inversion HF; subst F.
    assert (Hv : kernel_view p' = mkShell 2 2 0 1 1 (-1) 1 (-1) 1 (default 0 (pn_beta p')) (default 0 (pn_gamma p')) free free free free free free).
    { unfold kernel_view. rewrite (kr_r _ _ _ _ _ _ _ _ R), (si_sh _ _ (sr_in _ _ S)), (si_sh _ _ A1). reflexivity. }
    rewrite (kr_K _ _ _ _ _ _ _ _ R), HC, Hv. unfold fk0, plate_fk0. unfold finalized, thin_args, ka_fin.
    cbn -[Rmult Rplus Rdiv IZR t_ff t_fpfp t_ffp]. unfold thin_k. lra.
Qed.

(* the finished panel of one calculation, used again *)
Lemma thin_again t e : exists p' K, calc_kC thin_env thin_args (thin_panel t e) = (p', Ok K) /\ K 0%nat 0%nat = t * e * thin_k /\
  forall t', snd (calc_kC thin_env thin_args (with_plyt p' t')) = Ok K.
Proof.
  destruct (thin_runs t e) as (p' & K & H & HK). exists p', K. split; [exact H|split; [exact HK|]]. intro t'.
  destruct (kC_lists _ _ _ _ _ H) as (_ & _ & _ & Hp & Hl & HA).
  rewrite (kC_alike0 thin_env thin_args p' (with_plyt p' t') (plyt_ignored p' t' Hp)).
  rewrite (kC_alike thin_env thin_args _ _ HA), H. reflexivity.
Qed.
