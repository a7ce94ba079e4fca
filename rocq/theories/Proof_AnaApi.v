(* Matrices returned by the Shell methods when the closed-form kernels are used: energies, rounded
   tables, agreement with the numerical integration, entries skipped by the loops. *)
From Coq Require Import Reals List Arith Bool Lia Lra.
From Coquelicot Require Import Coquelicot.
From Verif Require Import Base_Sum Model_Types Model_Coo Model_Result Model_Num Model_DB Model_Shell Model_Bardell
  Spec_Algebra Spec_Kinematics Spec_Quadrature Spec_Panel Spec_Shell Spec_Bardell Spec_Integral
  Proof_Coo Proof_Num Proof_Energy Proof_Shell Proof_Total Proof_Api Proof_Bardell Proof_BardellInt
  Proof_AnaKer Proof_Ana Proof_Ana2 Proof_Ana3.
Import ListNotations.
Open Scope R_scope.

Lemma bilinear_ext N K K' c d : (forall r t, K r t = K' r t) -> bilinear N K c d = bilinear N K' c d.
Proof. intro H. unfold bilinear. apply sumn_ext; intros. apply sumn_ext; intros. rewrite H. reflexivity. Qed.

Lemma panel_integral_plus s f g I J : panel_integral s f I -> panel_integral s g J ->
  panel_integral s (fun x y => f x y + g x y) (I + J).
Proof.
  unfold panel_integral. intros Hf Hg.
  eapply sqi_ext; [|apply (sqi_plus _ _ _ _ Hf Hg)]. intros; cbv beta; ring.
Qed.

Lemma membrane_work_0 Bs s c d xi eta : membrane_work Bs s 0 0 0 c d xi eta = 0.
Proof. unfold membrane_work. ring. Qed.

(* ------------------------------------------------- energies *)
Theorem calc_kC_exact E A p p' K N c d :
  calc_kC E A p = (p', Ok K) -> ka_c A = None -> ka_F A = None -> ka_NL A = false -> ka_c_cte A = None ->
  ka_fin A = true -> ka_row0 A = ka_col0 A ->
  geometry_ok (chosen_model p) (kernel_view p) -> (ka_col0 A + ndof (pn_sh p) <= N)%nat ->
  is_ABD (lam_matrix (pn_ortho p) (rebuilt_lam E p)) ->
  tables_integrate (e_tables E) (e_basis E) (Nat.max (sh_m (pn_sh p)) (sh_n (pn_sh p))) ->
  let '(Nxx, Nyy, Nxy) := pn_N_cte p in
  panel_integral (kernel_view p) (fun xi eta =>
    let eps v := lin_strain (curvature (chosen_model p) (kernel_view p)) (e_basis E) (kernel_view p) (own (ka_col0 A) v) xi eta in
    form 6 (lam_matrix (pn_ortho p) (rebuilt_lam E p)) (eps c) (eps d) +
    membrane_work (e_basis E) (kernel_view p) Nxx Nyy Nxy (own (ka_col0 A) c) (own (ka_col0 A) d) xi eta)
   (bilinear N K c d).
Proof.
  intros H H1 H2 H3 H4 Hf Hrc Hg HN HF HT.
  pose proof (calc_kC_analytic _ _ _ _ _ H H1 H2 H3 H4) as HA.
  destruct (pn_N_cte p) as [[Nxx Nyy] Nxy] eqn:EN. destruct HA as (kC & kGc & HK & _ & HkC & HkG).
  rewrite Hf in HK. cbn [finalized] in HK. subst K. rewrite Hrc in *.
  rewrite (bilinear_ext N _ (fun r t => finalize_symmetric (dense kC) r t + finalize_symmetric (dense kGc) r t)) by (intros; apply finalize_plus).
  rewrite bilinear_plus. cbv zeta. apply panel_integral_plus.
  - subst kC. apply fk0_energy; assumption.
  - destruct HkG as [(Hz & ->)| ->].
    + assert (HX : Nxx = 0 /\ Nyy = 0 /\ Nxy = 0) by (inversion Hz; auto). destruct HX as (HX & HY & HXY).
      assert (Z : bilinear N (finalize_symmetric (dense [])) c d = 0).
      { unfold bilinear. apply sumn_0; intros. apply sumn_0; intros. unfold finalize_symmetric. destruct (_ <=? _)%nat; cbn; ring. }
      rewrite Z. unfold panel_integral. eapply sqi_ext; [|apply sqi_0].
      intros; cbv beta. rewrite HX, HY, HXY, membrane_work_0. ring.
    + apply fkG0_energy; assumption.
Qed.

Theorem calc_kG_exact E A p p' K N c d :
  calc_kG E A p = (p', Ok K) -> ka_c A = None -> ka_NL A = false ->
  ka_fin A = true -> ka_row0 A = ka_col0 A ->
  geometry_ok (chosen_model p) (kernel_view p) -> (ka_col0 A + ndof (pn_sh p) <= N)%nat ->
  tables_integrate (e_tables E) (e_basis E) (Nat.max (sh_m (pn_sh p)) (sh_n (pn_sh p))) ->
  let '(Nxx, Nyy, Nxy) := pn_N p in
  panel_integral (kernel_view p) (fun xi eta =>
    membrane_work (e_basis E) (kernel_view p) Nxx Nyy Nxy (own (ka_col0 A) c) (own (ka_col0 A) d) xi eta)
   (bilinear N K c d).
Proof.
  intros H H1 H3 Hf Hrc Hg HN HT.
  pose proof (calc_kG_analytic _ _ _ _ _ H H1 H3) as HA.
  destruct (pn_N p) as [[Nxx Nyy] Nxy] eqn:EN. destruct HA as (kG & HK & _ & HkG).
  rewrite Hf in HK. cbn [finalized] in HK. subst K kG. rewrite Hrc in *. apply fkG0_energy; assumption.
Qed.

Lemma calc_kM_analytic E sz row0 col0 nxo nyo fin p p' K :
  calc_kM E sz row0 col0 None None nxo nyo fin p = (p', Ok K) ->
  K = finalized fin (fkM (chosen_model p) (e_tables E) (kernel_view p) (pn_rho p) (fold_left Rplus (pn_plyts p) 0) (pn_offset p) row0 col0).
Proof.
  intro H. apply calc_kM_inv in H. destruct H as (mdl & kM & R).
  destruct R as [Hs Hm Hr HK Hsh _ HkM]. cbv zeta in HkM.
  assert (Hv : kernel_view p' = kernel_view p).
  { destruct Hs as [S1 S2 S3 S4 S5 S6 S7 S8 S9 S9' S10 S11 S12].
    apply view_eq; try assumption. apply S1. }
  rewrite Hv in HkM.
  assert (mdl = chosen_model p).
  { assert (HH := sr_model _ _ Hs). unfold chosen_model. rewrite <- HH, Hm. reflexivity. }
  subst mdl. destruct HkM as [(_ & _ & _ & ->)|([Hq|Hq] & _)]; congruence.
Qed.

Theorem calc_kM_exact E sz row0 col0 nxo nyo p p' K N c d :
  calc_kM E sz row0 col0 None None nxo nyo true p = (p', Ok K) ->
  row0 = col0 -> geometry_ok (chosen_model p) (kernel_view p) -> (col0 + ndof (pn_sh p) <= N)%nat ->
  tables_integrate (e_tables E) (e_basis E) (Nat.max (sh_m (pn_sh p)) (sh_n (pn_sh p))) ->
  panel_integral (kernel_view p) (fun xi eta =>
    kinetic (e_basis E) (kernel_view p) twelfth (fold_left Rplus (pn_plyts p) 0) (pn_rho p) (pn_offset p) (own col0 c) (own col0 d) xi eta)
   (bilinear N K c d).
Proof.
  intros H -> Hg HN HT. apply calc_kM_analytic in H. subst K. cbn [finalized]. apply fkM_energy; assumption.
Qed.

(* ------------------------------------------------- definiteness *)
Lemma panel_integral_ge0 s g I : 0 <= sh_a s * sh_b s -> (forall x y, 0 <= g x y) -> panel_integral s g I -> 0 <= I.
Proof.
  intros Hab Hg [H1 H2].
  assert (0 <= sh_a s / 2 * (sh_b s / 2)) by nra.
  rewrite <- (is_RInt_unique _ _ _ _ H2). apply RInt_ge_0; [lra|exists I; exact H2|].
  intros x _. apply RInt_ge_0; [lra|apply H1|]. intros y _. apply Rmult_le_pos; [assumption|apply Hg].
Qed.

Theorem calc_kC_exact_psd E A p p' K N :
  calc_kC E A p = (p', Ok K) -> ka_c A = None -> ka_F A = None -> ka_NL A = false -> ka_c_cte A = None ->
  pn_N_cte p = (0, 0, 0) -> ka_fin A = true -> ka_row0 A = ka_col0 A ->
  geometry_ok (chosen_model p) (kernel_view p) -> (ka_col0 A + ndof (pn_sh p) <= N)%nat ->
  is_ABD (lam_matrix (pn_ortho p) (rebuilt_lam E p)) -> psd_form 6 (lam_matrix (pn_ortho p) (rebuilt_lam E p)) ->
  tables_integrate (e_tables E) (e_basis E) (Nat.max (sh_m (pn_sh p)) (sh_n (pn_sh p))) ->
  0 <= sh_a (pn_sh p) * sh_b (pn_sh p) ->
  psd N K.
Proof.
  intros H H1 H2 H3 H4 HN Hf Hrc Hg Hfit HF HP HT Hab c. unfold quad.
  pose proof (calc_kC_exact _ _ _ _ _ N c c H H1 H2 H3 H4 Hf Hrc Hg Hfit HF HT) as HE. rewrite HN in HE.
  eapply panel_integral_ge0; [exact Hab| |exact HE]. intros x y. cbv beta zeta. rewrite membrane_work_0, Rplus_0_r. apply HP.
Qed.

Theorem calc_kM_exact_psd E sz row0 col0 nxo nyo p p' K N :
  calc_kM E sz row0 col0 None None nxo nyo true p = (p', Ok K) ->
  row0 = col0 -> geometry_ok (chosen_model p) (kernel_view p) -> (col0 + ndof (pn_sh p) <= N)%nat ->
  tables_integrate (e_tables E) (e_basis E) (Nat.max (sh_m (pn_sh p)) (sh_n (pn_sh p))) ->
  0 <= sh_a (pn_sh p) * sh_b (pn_sh p) -> 0 <= pn_rho p * fold_left Rplus (pn_plyts p) 0 ->
  psd N K.
Proof.
  intros H Hrc Hg Hfit HT Hab Hrh c. unfold quad.
  pose proof (calc_kM_exact _ _ _ _ _ _ _ _ _ N c c H Hrc Hg Hfit HT) as HE.
  eapply panel_integral_ge0; [exact Hab| |exact HE]. intros x y. cbv beta. apply kinetic_ge0. exact Hrh.
Qed.

(* ------------------------------------------------- the stored (rounded) tables *)
Lemma exact_tables_integrate n : (n <= 30)%nat -> tables_integrate exact_tables exact_basis n.
Proof.
  intros Hn i k e e' Hi Hk. cbv zeta.
  destruct (integrals_exist i k e e') as (A & B & C & D & G & L); try lia.
  repeat split; apply (RInt_correct (V := R_CompleteNormedModule)); assumption.
Qed.
Lemma code_tables_symmetric n : tables_symmetric code_tables n.
Proof. intros i k e e' _ _. apply code_tables_sym. Qed.
Lemma exact_tables_symmetric n : (n <= 30)%nat -> tables_symmetric exact_tables n.
Proof. intro Hn. apply (tables_integrate_symmetric _ exact_basis). apply exact_tables_integrate; exact Hn. Qed.

Lemma code_one_d_close n : (n <= 30)%nat -> one_d_close (5 / 10 ^ 15) (tab code_tables) (tab exact_tables) n.
Proof.
  intros Hn p q i k e e' Hi Hk.
  destruct (code_tables_close i k e e') as (A & B & C & D & G & L); try lia.
  destruct (code_tables_close k i e' e) as (A' & B' & C' & D' & G' & L'); try lia. cbv zeta in *.
  destruct p as [|[|p]]; destruct q as [|[|q]]; cbn [tab]; assumption.
Qed.

Theorem calc_kC_rounded E A p p' K :
  calc_kC E A p = (p', Ok K) -> ka_c A = None -> ka_F A = None -> ka_NL A = false -> ka_c_cte A = None ->
  pn_N_cte p = (0, 0, 0) -> ka_fin A = true -> ka_row0 A = ka_col0 A ->
  geometry_ok (chosen_model p) (kernel_view p) ->
  is_ABD (lam_matrix (pn_ortho p) (rebuilt_lam E p)) ->
  e_tables E = code_tables -> (sh_m (pn_sh p) <= 30)%nat -> (sh_n (pn_sh p) <= 30)%nat ->
  forall r t, exists I : nat -> nat -> R,
  (forall a b, (a < 6)%nat -> (b < 6)%nat -> panel_integral (kernel_view p) (fun xi eta =>
    let eps v := lin_strain (curvature (chosen_model p) (kernel_view p)) exact_basis (kernel_view p) (own (ka_col0 A) v) xi eta in
    eps (unitv r) a * eps (unitv t) b) (I a b)) /\
  Rabs (K r t - sumn 6 (fun a => sumn 6 (fun b => lam_matrix (pn_ortho p) (rebuilt_lam E p) a b * I a b))) <=
  11 / 10 ^ 15 * sumn 6 (fun a => sumn 6 (fun b => Rabs (lam_matrix (pn_ortho p) (rebuilt_lam E p) a b) * Rabs (I a b))).
Proof.
  intros H H1 H2 H3 H4 HN Hf Hrc Hg HF HE Hm Hn r t.
  pose proof (calc_kC_analytic _ _ _ _ _ H H1 H2 H3 H4) as HA. rewrite HN in HA.
  destruct HA as (kC & kGc & HK & _ & HkC & HkG).
  set (F := lam_matrix (pn_ortho p) (rebuilt_lam E p)) in *. set (s := kernel_view p) in *.
  set (mdl := chosen_model p) in *.
  assert (HB : block_form (ka_col0 A) (sh_m s) (sh_n s) (V_ana code_tables s (sh_a s * sh_b s / 4) 6 (Fsym F) (opB (curvature mdl s) s))
    (dense kC)).
  { rewrite HkC, Hrc, HE. apply fk0_dense. exact Hg. }
  assert (HK' : K r t = finalize_symmetric (dense kC) r t).
  { rewrite HK, Hf. cbn [finalized]. rewrite finalize_plus. 
    assert (Z : finalize_symmetric (dense kGc) r t = 0).
    { destruct HkG as [(_ & ->)| ->].
      - unfold finalize_symmetric. destruct (_ <=? _)%nat; reflexivity.
      - rewrite HE, Hrc. rewrite (ana_full code_tables s (sh_a s * sh_b s / 4) 2 (Nmat 0 0 0) (opG s) (ka_col0 A)).
        + unfold fullmat. destruct (_ && _)%bool; [|reflexivity]. unfold V_ana, V_gen. cbn [sumn Nmat].
          repeat match goal with |- context [opG ?s ?a ?b] => destruct (opG s a b) as [? [? ?]] end. ring.
        + apply code_tables_symmetric.
        + intros; apply Nmat_sym.
        + apply fkG0_dense. exact Hg. }
    rewrite Z. ring. }
  destruct (ana_rounded (5 / 10 ^ 15) code_tables exact_tables exact_basis s 6 (Fsym F) (opB (curvature mdl s) s) (ka_col0 A) (dense kC)
     ltac:(lra) (code_tables_symmetric _)
     (exact_tables_integrate (Nat.max (sh_m s) (sh_n s)) (Nat.max_lub _ _ _ Hm Hn))
     (code_one_d_close (Nat.max (sh_m s) (sh_n s)) (Nat.max_lub _ _ _ Hm Hn)) (Fsym_sym F) HB r t) as (I & HI & HR).
  exists I. split.
  - intros a b Ha Hb. eapply panel_integral_ext; [|apply (HI a b)]. intros; cbv beta zeta. rewrite !cfield_opB by assumption. reflexivity.
  - rewrite HK'.
    rewrite (sumn_ext 6 (fun a => sumn 6 (fun b => F a b * I a b)) (fun a => sumn 6 (fun b => Fsym F a b * I a b))).
    2:{ intros a Ha. apply sumn_ext; intros b Hb. rewrite Fsym_id by assumption. reflexivity. }
    rewrite (sumn_ext 6 (fun a => sumn 6 (fun b => Rabs (F a b) * Rabs (I a b))) (fun a => sumn 6 (fun b => Rabs (Fsym F a b) * Rabs (I a b)))).
    2:{ intros a Ha. apply sumn_ext; intros b Hb. rewrite Fsym_id by assumption. reflexivity. }
    eapply Rle_trans; [exact HR|]. apply Rmult_le_compat_r; [|lra].
    apply sumn_ge0; intros a _. apply sumn_ge0; intros b _. apply Rmult_le_pos; apply Rabs_pos.
Qed.

(* ------------------------------------------------- entries below the diagonal *)
Definition skip_form (o m n : nat) (K : nat -> nat -> R) : Prop := exists V,
  (forall i k j l d e, (i < m)%nat -> (k < m)%nat -> (j < n)%nat -> (l < n)%nat ->
     (d < DOF)%nat -> (e < DOF)%nat -> V i k j l d e = V k i l j e d) /\ block_form o m n V K.

Lemma skip_form_plus o m n K K' : skip_form o m n K -> skip_form o m n K' -> skip_form o m n (fun r t => K r t + K' r t).
Proof.
  intros (V & S & B) (V' & S' & B'). exists (fun i k j l d e => V i k j l d e + V' i k j l d e). split.
  - intros. rewrite S, S' by assumption. reflexivity.
  - intros r t. rewrite (B r t), (B' r t). destruct (_ && _)%bool; [|ring]. destruct (skipped _ _ _ _ _ _ _ _ _); ring.
Qed.
Lemma skip_form_0 o m n : skip_form o m n (fun _ _ => 0).
Proof.
  exists (fun _ _ _ _ _ _ => 0). split; [reflexivity|]. intros r t.
  destruct (_ && _)%bool; [|reflexivity]. destruct (skipped _ _ _ _ _ _ _ _ _); reflexivity.
Qed.
Lemma skip_form_ext o m n K K' : (forall r t, K r t = K' r t) -> skip_form o m n K -> skip_form o m n K'.
Proof. intros E (V & S & B). exists V. split; [exact S|]. intros r t. rewrite <- E. apply B. Qed.
Lemma skip_form_mirror o m n K r t : skip_form o m n K -> (t < r)%nat -> K r t = 0 \/ K r t = K t r.
Proof.
  intros (V & S & B) Hrt. destruct (block_computed o m n V K S B r t) as [H|H]; [auto|right].
  rewrite H. unfold finalize_symmetric. destruct (Nat.leb_spec r t); [lia|reflexivity].
Qed.
Lemma skip_form_ana T s J q M op o K :
  tables_symmetric T (Nat.max (sh_m s) (sh_n s)) -> (forall a b, M a b = M b a) ->
  block_form o (sh_m s) (sh_n s) (V_ana T s J q M op) K -> skip_form o (sh_m s) (sh_n s) K.
Proof.
  intros HT HM HK. exists (V_ana T s J q M op). split; [|exact HK].
  intros i k j l d e Hi Hk Hj Hl _ _. apply (V_gen_sym _ _ _ _ _ _ _ _ _ _ _ _ _ (sh_m s) (sh_n s)); auto;
    apply tab_sym; (eapply tables_symmetric_le; [|exact HT]); lia.
Qed.
Lemma skip_form_gram {P} (pts : list P) W q M S o m n K :
  (forall x a b, M x a b = M x b a) ->
  (forall r s, K r s = if (inblk o m n r && inblk o m n s)%bool then
     if skipped true o o m m (ix o m r) (ix o m s) (jx o m r) (jx o m s) then 0
     else gramV pts W q M S (ix o m r) (ix o m s) (jx o m r) (jx o m s) (cx o r) (cx o s) else 0) ->
  skip_form o m n K.
Proof.
  intros HM HK. exists (gramV pts W q M S). split; [|exact HK].
  intros i k j l d e _ _ _ _ _ _. unfold gramV. apply suml_ext; intros x _. f_equal. rewrite sumn_swap.
  apply sumn_ext; intros a _. apply sumn_ext; intros b _. rewrite (HM x a b). ring.
Qed.

Lemma skip_fkC_num mdl Q Bs cs Fi s o nx ny NL kC : geometry_ok mdl s ->
  fkC_num mdl Q Bs cs Fi s o o nx ny NL = Ok kC -> skip_form o (sh_m s) (sh_n s) (dense kC).
Proof.
  intros Hg H. destruct (fkC_num_dense _ _ _ _ _ _ _ _ _ _ _ Hg H) as (F & _ & HK).
  eapply skip_form_gram; [|exact HK]. intros x a b. apply Fsym_sym.
Qed.
Lemma skip_fkG_num mdl Q Bs cs Fi s o nx ny NL Nxx Nyy Nxy kG : geometry_ok mdl s ->
  fkG_num mdl Q Bs cs Fi s o o nx ny NL Nxx Nyy Nxy = Ok kG -> skip_form o (sh_m s) (sh_n s) (dense kG).
Proof.
  intros Hg H. eapply skip_form_gram; [|exact (fkG_num_dense _ _ _ _ _ _ _ _ _ _ _ _ _ _ Hg H)].
  intros x a b. apply Nmat_sym.
Qed.
Lemma skip_fkM_num mdl Q Bs off H s o nx ny kM : geometry_ok mdl s ->
  fkM_num mdl Q Bs s off H o o nx ny = Ok kM -> skip_form o (sh_m s) (sh_n s) (dense kM).
Proof.
  intros Hg E. eapply skip_form_gram; [|exact (fkM_num_dense _ _ _ _ _ _ _ _ _ _ Hg E)].
  intros x a b. apply Mmat_sym.
Qed.

Section Mirror.
Variables (E : env) (p : panel).
Hypothesis HT : tables_symmetric (e_tables E) (Nat.max (sh_m (pn_sh p)) (sh_n (pn_sh p))).
Hypothesis Hg : geometry_ok (chosen_model p) (kernel_view p).

Theorem calc_kC_mirror A p' K :
  calc_kC E A p = (p', Ok K) -> ka_fin A = false -> ka_row0 A = ka_col0 A ->
  forall r t, (t < r)%nat -> K r t = 0 \/ K r t = K t r.
Proof using HT Hg.
  intros H Hf Hrc r t. apply calc_kC_inv in H. destruct H as (mdl & kC & kGc & R).
  destruct R as [(p1 & Hp1 & Hs) Hm Hr HK Hsh _ HkC HkG]. cbv zeta in *.
  destruct (rebuilt_facts E A _ _ _ _ Hp1 Hs Hm Hr) as (-> & Hv & HF & Hx & Hy & HABD & _).
  rewrite HF, Hx, Hy, Hv, Hrc in *. rewrite HK, Hf. cbn [finalized].
  intro Hlt. refine (skip_form_mirror (ka_col0 A) (sh_m (kernel_view p)) (sh_n (kernel_view p)) _ r t _ Hlt).
  eapply skip_form_ext; [intros; symmetry; apply dense_app|]. apply skip_form_plus.
  - destruct HkC as [(_ & _ & _ & F & _ & ->)|(_ & cl & _ & HkC)].
    + eapply skip_form_ana; [exact HT| |apply fk0_dense; exact Hg]. intros; apply Fsym_sym.
    + eapply skip_fkC_num; eassumption.
  - destruct (pn_N_cte p) as [[Nxx Nyy] Nxy]. destruct HkG as [(_ & _ & ->)|[(_ & _ & _ & ->)|(l & _ & _ & HkG)]].
    + apply (skip_form_ext _ _ _ (fun _ _ => 0)); [reflexivity|apply skip_form_0].
    + eapply skip_form_ana; [exact HT| |apply fkG0_dense; exact Hg]. intros; apply Nmat_sym.
    + eapply skip_fkG_num; eassumption.
Qed.

Theorem calc_kG_mirror A p' K :
  calc_kG E A p = (p', Ok K) -> ka_fin A = false -> ka_row0 A = ka_col0 A ->
  forall r t, (t < r)%nat -> K r t = 0 \/ K r t = K t r.
Proof using HT Hg.
  intros H Hf Hrc r t. apply calc_kG_inv in H. destruct H as (mdl & kG & R).
  destruct R as [(p1 & Hp1 & Hs) Hm Hr HK Hsh _ HkG]. cbv zeta in *.
  destruct (rebuilt_facts E A _ _ _ _ Hp1 Hs Hm Hr) as (-> & Hv & HF & Hx & Hy & HABD & _).
  rewrite HF, Hx, Hy, Hv, Hrc in *. rewrite HK, Hf. cbn [finalized].
  intro Hlt. refine (skip_form_mirror (ka_col0 A) (sh_m (kernel_view p)) (sh_n (kernel_view p)) _ r t _ Hlt).
  destruct (pn_N p) as [[Nxx Nyy] Nxy]. destruct HkG as [(_ & _ & ->)|(_ & l & _ & HkG)].
  - eapply skip_form_ana; [exact HT| |apply fkG0_dense; exact Hg]. intros; apply Nmat_sym.
  - eapply skip_fkG_num; eassumption.
Qed.

Theorem calc_kM_mirror sz o ho ro nxo nyo p' K :
  calc_kM E sz o o ho ro nxo nyo false p = (p', Ok K) ->
  forall r t, (t < r)%nat -> K r t = 0 \/ K r t = K t r.
Proof using HT Hg.
  intros H r t. apply calc_kM_inv in H. destruct H as (mdl & kM & R).
  destruct R as [Hs Hm Hr HK Hsh _ HkM]. cbv zeta in HkM.
  assert (Hv : kernel_view p' = kernel_view p).
  { destruct Hs as [S1 S2 S3 S4 S5 S6 S7 S8 S9 S9' S10 S11 S12].
    apply view_eq; try assumption. apply S1. }
  rewrite Hv in HkM.
  assert (mdl = chosen_model p).
  { assert (HH := sr_model _ _ Hs). unfold chosen_model. rewrite <- HH, Hm. reflexivity. }
  subst mdl. rewrite HK. cbn [finalized].
  intro Hlt. refine (skip_form_mirror o (sh_m (kernel_view p)) (sh_n (kernel_view p)) _ r t _ Hlt).
  destruct HkM as [(_ & _ & _ & ->)|(_ & h & rho & hx & hy & _ & _ & HkM)].
  - eapply skip_form_ana; [exact HT| |apply fkM_dense; exact Hg]. intros; apply Mmat_sym.
  - eapply skip_fkM_num; eassumption.
Qed.
End Mirror.

(* ------------------------------------------------- analytical = numerical *)
Lemma one_d_unique tx ty Bs n : one_d_integrates tx Bs n -> one_d_integrates ty Bs n ->
  forall p q i k e e', (i < n)%nat -> (k < n)%nat -> tx p q i k e e' = ty p q i k e e'.
Proof.
  intros Hx Hy p q i k e e' Hi Hk.
  rewrite <- (is_RInt_unique (V := R_CompleteNormedModule) _ _ _ _ (Hx p q i k e e' Hi Hk)).
  apply (is_RInt_unique (V := R_CompleteNormedModule)). apply Hy; assumption.
Qed.

Lemma V_gen_ext tx ty tx' ty' s J q M op i k j l d e :
  (forall p q e e', tx p q i k e e' = tx' p q i k e e') -> (forall p q e e', ty p q j l e e' = ty' p q j l e e') ->
  V_gen tx ty s J q M op i k j l d e = V_gen tx' ty' s J q M op i k j l d e.
Proof.
  intros Hx Hy. unfold V_gen. f_equal. apply sumn_ext; intros a _. apply sumn_ext; intros b _.
  destruct (op a d) as [ba [pa qa]]. destruct (op b e) as [bb [pb qb]]. rewrite Hx, Hy. reflexivity.
Qed.

Lemma block_form_agree Q Bs T s nx ny J q M op o K K' :
  rule_integrates Q nx Bs (sh_m s) -> rule_integrates Q ny Bs (sh_n s) ->
  tables_integrate T Bs (Nat.max (sh_m s) (sh_n s)) ->
  block_form o (sh_m s) (sh_n s) (V_gen (rule_1d Q nx Bs) (rule_1d Q ny Bs) s J q M op) K ->
  block_form o (sh_m s) (sh_n s) (V_ana T s J q M op) K' -> forall r t, K r t = K' r t.
Proof.
  intros HQx HQy HT HK HK' r t. rewrite (HK r t), (HK' r t).
  destruct (inblk o (sh_m s) (sh_n s) r) eqn:Er; [destruct (inblk o (sh_m s) (sh_n s) t) eqn:Et|]; cbn [andb]; try reflexivity.
  destruct (inblk_bounds _ _ _ _ Er) as (Ri & Rj & Rc & _). destruct (inblk_bounds _ _ _ _ Et) as (Ti & Tj & Tc & _).
  destruct (skipped _ _ _ _ _ _ _ _ _); [reflexivity|].
  apply V_gen_ext; intros.
  - apply (one_d_unique _ _ Bs (sh_m s)); auto. apply tab_integrates. eapply tables_integrate_le; [|exact HT]; lia.
  - apply (one_d_unique _ _ Bs (sh_n s)); auto. apply tab_integrates. eapply tables_integrate_le; [|exact HT]; lia.
Qed.

Lemma finalized_ext fin A B : (forall r t, dense A r t = dense B r t) -> forall r t, finalized fin A r t = finalized fin B r t.
Proof. intros H r t. unfold finalized. destruct fin; [|apply H]. unfold finalize_symmetric. destruct (r <=? t)%nat; apply H. Qed.

Section Agree.
Variables (E : env) (p : panel).
Hypothesis Hg : geometry_ok (chosen_model p) (kernel_view p).
Hypothesis HT : tables_integrate (e_tables E) (e_basis E) (Nat.max (sh_m (pn_sh p)) (sh_n (pn_sh p))).
Hypothesis Hw : whole_window (kernel_view p).

Definition rule_good (nx ny : nat) : Prop :=
  length (e_rule E nx) = nx /\ length (e_rule E ny) = ny /\
  rule_integrates (e_rule E) nx (e_basis E) (sh_m (pn_sh p)) /\ rule_integrates (e_rule E) ny (e_basis E) (sh_n (pn_sh p)).

Theorem calc_kC_agree Aa An pa pn Ka Kn :
  calc_kC E Aa p = (pa, Ok Ka) -> calc_kC E An p = (pn, Ok Kn) ->
  ka_c Aa = None -> ka_F Aa = None -> ka_NL Aa = false -> ka_c_cte Aa = None ->
  ka_c An <> None \/ ka_F An <> None -> ka_NL An = false -> ka_c_cte An = None -> pn_N_cte p = (0, 0, 0) ->
  (forall i j, (i < points_x An p)%nat -> (j < points_y An p)%nat -> forall a b,
     laminate_at (laminate_used E An p) i j a b = lam_matrix (pn_ortho p) (rebuilt_lam E p) a b) ->
  ka_fin Aa = ka_fin An -> ka_row0 Aa = ka_col0 Aa -> ka_row0 An = ka_col0 Aa -> ka_col0 An = ka_col0 Aa ->
  rule_good (points_x An p) (points_y An p) ->
  forall r t, Kn r t = Ka r t.
Proof using Hg HT Hw.
  intros Ha Hn A1 A2 A3 A4 N1 N3 N4 HN HF Hfin R1 R2 R3 (Lx & Ly & Qx & Qy).
  pose proof (calc_kC_analytic _ _ _ _ _ Ha A1 A2 A3 A4) as HA. rewrite HN in HA.
  destruct HA as (kC & kGc & HKa & _ & HkC & HkG).
  destruct (calc_kC_numeric _ _ _ _ _ Hn) as (kN & cl & HKn & _ & _ & HkN); try assumption.
  { destruct N1 as [N1|N1]; [left; exact N1|right; left; exact N1]. }
  rewrite N3, R2, R3 in HkN. rewrite HKn, HKa, <- Hfin. apply finalized_ext. intros r t. rewrite dense_app.
  assert (Z : dense kGc r t = 0).
  { destruct HkG as [(_ & ->)| ->]; [reflexivity|]. rewrite R1.
    rewrite (fkG0_dense (chosen_model p) (e_tables E) (kernel_view p) 0 0 0 (ka_col0 Aa) Hg r t).
    destruct (_ && _)%bool; [|reflexivity]. destruct (skipped _ _ _ _ _ _ _ _ _); [reflexivity|].
    unfold V_ana, V_gen. cbn [sumn Nmat].
    repeat match goal with |- context [opG ?s ?a ?b] => destruct (opG s a b) as [? [? ?]] end. ring. }
  rewrite Z, Rplus_0_r. destruct Hw as [Wx Wy].
  refine (block_form_agree (e_rule E) (e_basis E) (e_tables E) (kernel_view p) (points_x An p) (points_y An p)
     (sh_a (kernel_view p) * sh_b (kernel_view p) / 4) 6 (Fsym (lam_matrix (pn_ortho p) (rebuilt_lam E p)))
     (opB (curvature (chosen_model p) (kernel_view p)) (kernel_view p)) (ka_col0 Aa) _ _ Qx Qy HT _ _ r t).
  - eapply fkC_num_rule; try eassumption. unfold whole_panel. auto.
  - rewrite HkC, R1. apply fk0_dense. exact Hg.
Qed.

Theorem calc_kG_agree Aa An pa pn Ka Kn :
  calc_kG E Aa p = (pa, Ok Ka) -> calc_kG E An p = (pn, Ok Kn) ->
  ka_c Aa = None -> ka_NL Aa = false ->
  ka_c An <> None \/ ka_NL An = true -> (forall k, given_vector (ka_c An) k = 0) ->
  ka_fin Aa = ka_fin An -> ka_row0 Aa = ka_col0 Aa -> ka_row0 An = ka_col0 Aa -> ka_col0 An = ka_col0 Aa ->
  rule_good (points_x An p) (points_y An p) ->
  forall r t, Kn r t = Ka r t.
Proof using Hg HT Hw.
  intros Ha Hn A1 A3 N1 HN Hfin R1 R2 R3 (Lx & Ly & Qx & Qy).
  pose proof (calc_kG_analytic _ _ _ _ _ Ha A1 A3) as HA.
  pose proof (calc_kG_numeric _ _ _ _ _ Hn N1) as HB.
  destruct (pn_N p) as [[Nxx Nyy] Nxy]. destruct HA as (kG & HKa & _ & HkG). destruct HB as (kN & cl & HKn & Hcl & _ & HkN).
  rewrite R2, R3 in HkN. rewrite HKn, HKa, <- Hfin. apply finalized_ext. intros r t.
  destruct Hw as [Wx Wy].
  refine (block_form_agree (e_rule E) (e_basis E) (e_tables E) (kernel_view p) (points_x An p) (points_y An p)
     (sh_a (kernel_view p) * sh_b (kernel_view p) / 4) 2 (Nmat Nxx Nyy Nxy) (opG (kernel_view p)) (ka_col0 Aa) _ _ Qx Qy HT _ _ r t).
  - eapply (fkG_num_rule (e_rule E) (e_basis E) (kernel_view p) _ _ (chosen_model p) (vec cl) (laminate_used E An p)).
    + exact Hg.
    + unfold whole_panel; auto.
    + intro k. rewrite Hcl. apply HN.
    + exact HkN.
  - rewrite HkG, R1. apply fkG0_dense. exact Hg.
Qed.

Theorem calc_kM_agree sza szn o ho ro nxa nya nxo nyo fin pa pn Ka Kn :
  calc_kM E sza o o None None nxa nya fin p = (pa, Ok Ka) -> calc_kM E szn o o (Some ho) (Some ro) nxo nyo fin p = (pn, Ok Kn) ->
  (forall i j, snd ho i j = fold_left Rplus (pn_plyts p) 0) -> (forall i j, snd ro i j = pn_rho p) ->
  rule_good (default (pn_nx p) nxo) (default (pn_ny p) nyo) ->
  forall r t, Kn r t = Ka r t.
Proof using Hg HT Hw.
  intros Ha Hn Hh Hr (Lx & Ly & Qx & Qy). apply calc_kM_analytic in Ha.
  apply calc_kM_inv in Hn. destruct Hn as (mdl & kM & R).
  destruct R as [Hs Hm Hrr HK Hsh _ HkM]. cbv zeta in HkM.
  assert (Hv : kernel_view pn = kernel_view p).
  { destruct Hs as [S1 S2 S3 S4 S5 S6 S7 S8 S9 S9' S10 S11 S12].
    apply view_eq; try assumption. apply S1. }
  rewrite Hv in HkM.
  assert (mdl = chosen_model p).
  { assert (HH := sr_model _ _ Hs). unfold chosen_model. rewrite <- HH, Hm. reflexivity. }
  subst mdl. destruct HkM as [(Hc & _)|(_ & h & rho & hx & hy & Hh' & Hr' & HkM)]; [discriminate|].
  subst ho ro. cbn [snd] in *.
  rewrite HK, Ha. apply finalized_ext. intros r t. destruct Hw as [Wx Wy].
  refine (block_form_agree (e_rule E) (e_basis E) (e_tables E) (kernel_view p) (default (pn_nx p) nxo) (default (pn_ny p) nyo)
     (sh_a (kernel_view p) * sh_b (kernel_view p) / 4) 5 (Mmat (fold_left Rplus (pn_plyts p) 0) (pn_rho p)) (opM (pn_offset p) (kernel_view p)) o _ _ Qx Qy HT _ _ r t).
  - apply (fkM_num_rule (e_rule E) (e_basis E) (kernel_view p) _ _ (chosen_model p) (pn_offset p) _ _ (HPts hx hy h rho) o kM Hg).
    + unfold whole_panel; auto.
    + intros i j _ _. cbn [hrho_at]. rewrite Hh, Hr. reflexivity.
    + exact HkM.
  - apply fkM_dense. exact Hg.
Qed.
End Agree.
