(* The lowest buckling load and the lowest frequency of an assembly of stiff panels that are held or connected to held ones. *)
From Coq Require Import Reals List Arith Bool Lia Lra Permutation FunctionalExtensionality Classical.
From Coquelicot Require Import Coquelicot.
From Verif Require Import Proof_Num.
From Verif Require Import Proof_Rigid Base_Sum Model_Types Model_Coo Model_Result Model_Num Model_DB Model_Bardell Model_Shell Model_Field Model_Fext Model_Multi
  Spec_Algebra Spec_Kinematics Spec_Quadrature Spec_Panel Spec_Shell Spec_Bardell Spec_Integral Spec_Field Spec_Fext Spec_Modes Spec_Conn Spec_Multi Spec_MultiConn Spec_Rigid Spec_Tied Spec_Pull Spec_Response Spec_AsmResponse
  Proof_Shell Proof_AnaApi Proof_Modes Proof_Multi Proof_MultiConn Proof_MultiTop Proof_Ana Proof_FieldApi Proof_FieldEdge Proof_Fext Proof_FextApi Proof_Pull Proof_Refine Proof_MultiApi Proof_Total Proof_Tied Proof_Solve Proof_Indep Proof_Response Prop_Stiffness.
From Verif Require Import Spec_BayResponse Spec_BayModes Spec_Limit Spec_LimitAsm Proof_ConnZero Proof_MultiSign Proof_Api Proof_AnaApi Proof_Ana Proof_Total Proof_Limit Proof_LimitPanel Proof_AsmResponse.
From Coq Require Import List.
Import ListNotations.
Open Scope R_scope.


Lemma membrane_neg s Nxx Nyy c W : (sh_m s <= 30)%nat -> (sh_n s <= 30)%nat -> 0 < sh_a s * sh_b s -> Nxx <= 0 -> Nyy <= 0 -> panel_integral s (membrane_work exact_basis s Nxx Nyy 0 c c) W ->
  W <= 0 /\ (Nxx < 0 -> forall xi eta, -1 <= xi <= 1 -> -1 <= eta <= 1 -> d_wx exact_basis s c xi eta <> 0 -> W < 0).
Proof.
  intros Hm' Hn' Hab Hx Hy HI.
  assert (HI' : panel_integral s (fun u v => - membrane_work exact_basis s Nxx Nyy 0 c c u v) (- W)).
  { replace (- W) with (-1 * W) by ring. unfold panel_integral in *. eapply sqi_ext; [|apply (sqi_scal (-1)); exact HI]. intros; cbv beta. ring. }
  assert (Hp : forall u v, 0 <= - membrane_work exact_basis s Nxx Nyy 0 c c u v).
  { intros u v. unfold membrane_work. pose proof (Rle_0_sqr (d_wx exact_basis s c u v)) as S1. pose proof (Rle_0_sqr (d_wy exact_basis s c u v)) as S2. unfold Rsqr in *. nra. }
  pose proof (panel_integral_ge0 s _ _ (Rlt_le _ _ Hab) Hp HI') as H0. split; [lra|]. intros Hx' xi eta Hxi Heta Hd.
  destruct (Req_dec W 0) as [HZ|HZ]; [exfalso|lra]. rewrite HZ, Ropp_0 in HI'.
  assert (HQ' : 0 < sh_a s / 2 * (sh_b s / 2)) by nra.
  assert (HF := zero_square _ xi eta HI'). cbv beta in HF.
  assert (HE : sh_a s / 2 * (sh_b s / 2) * - membrane_work exact_basis s Nxx Nyy 0 c c xi eta = 0).
  { apply HF; [|exact Hxi|exact Heta|].
    - intros u v. apply Rmult_le_pos; [lra|apply Hp].
    - apply continuity_2d_pt_mult; [apply continuity_2d_pt_const|]. unfold membrane_work, d_wx, d_wy.
      apply continuity_2d_pt_opp. repeat first [apply continuity_2d_pt_plus|apply continuity_2d_pt_mult|apply continuity_2d_pt_const|apply cont_fld_exact; assumption]. }
  apply Rmult_integral in HE. destruct HE as [HE|HE]; [lra|]. revert HE. unfold membrane_work.
  assert (S1 : 0 < d_wx exact_basis s c xi eta * d_wx exact_basis s c xi eta) by nra. pose proof (Rle_0_sqr (d_wy exact_basis s c xi eta)) as S2. unfold Rsqr in *. nra.
Qed.
Lemma kinetic_pos s h rho off c W : (sh_m s <= 30)%nat -> (sh_n s <= 30)%nat -> 0 < sh_a s * sh_b s -> 0 < rho * h -> panel_integral s (kinetic exact_basis s twelfth h rho off c c) W ->
  ~ motionless s c -> 0 < W.
Proof.
  intros Hm Hn Hab Hr HI Hd. pose proof (panel_integral_ge0 s _ _ (Rlt_le _ _ Hab) (fun a b => kinetic_ge0 exact_basis s h rho off c a b (Rlt_le _ _ Hr)) HI) as H0.
  destruct (Req_dec W 0) as [HZ|HZ]; [exfalso|lra]. rewrite HZ in HI. apply Hd. intros xi eta Hxi Heta.
  assert (HQ' : 0 < sh_a s / 2 * (sh_b s / 2)) by nra.
  assert (HF := zero_square _ xi eta HI). cbv beta in HF.
  assert (HE : sh_a s / 2 * (sh_b s / 2) * kinetic exact_basis s twelfth h rho off c c xi eta = 0).
  { apply HF; [|exact Hxi|exact Heta|].
    - intros u v. apply Rmult_le_pos; [lra|apply kinetic_ge0; lra].
    - apply continuity_2d_pt_mult; [apply continuity_2d_pt_const|]. unfold kinetic, d_u, d_v, d_w, d_wx, d_wy.
      repeat first [apply continuity_2d_pt_plus|apply continuity_2d_pt_mult|apply continuity_2d_pt_const|apply cont_fld_exact; assumption]. }
  apply Rmult_integral in HE. destruct HE as [HE|HE]; [lra|]. unfold kinetic in HE. cbv zeta in HE.
  set (u := d_u exact_basis s c xi eta) in *. set (v := d_v exact_basis s c xi eta) in *. set (w := d_w exact_basis s c xi eta) in *.
  set (wx := d_wx exact_basis s c xi eta) in *. set (wy := d_wy exact_basis s c xi eta) in *.
  assert (Hh : 0 < h * h) by (assert (h <> 0) by (intros ->; lra); nra).
  assert (Ht : 0 < h * h * twelfth) by (unfold twelfth; nra).
  assert (HA : (u + off * wx) * (u + off * wx) + (v + off * wy) * (v + off * wy) + w * w + h * h * twelfth * (wx * wx + wy * wy) = 0).
  { apply (Rmult_eq_reg_l (rho * h)); [|lra]. rewrite Rmult_0_r, <- HE. ring. }
  assert (Sq : forall a, 0 <= a * a) by (intro; nra).
  pose proof (Sq (u + off * wx)). pose proof (Sq (v + off * wy)). pose proof (Sq w). pose proof (Sq wx). pose proof (Sq wy).
  assert (P : 0 <= h * h * twelfth * (wx * wx + wy * wy)) by (apply Rmult_le_pos; lra).
  assert (Z0 : forall a, a * a = 0 -> a = 0) by (intros a Ha; apply Rmult_integral in Ha; tauto).
  assert (P0 : h * h * twelfth * (wx * wx + wy * wy) = 0) by lra. apply Rmult_integral in P0. destruct P0 as [P0|P0]; [lra|].
  assert (X : wx = 0) by (apply Z0; lra). assert (Y : wy = 0) by (apply Z0; lra). assert (Wz : w = 0) by (apply Z0; lra).
  assert (Uz : u + off * wx = 0) by (apply Z0; lra). assert (Vz : v + off * wy = 0) by (apply Z0; lra). rewrite X in Uz. rewrite Y in Vz. repeat split; lra.
Qed.

Lemma suml_lt0 {X} (l : list X) f x : (forall y, In y l -> f y <= 0) -> In x l -> f x < 0 -> suml l f < 0.
Proof.
  intros H Hx Hn. assert (H0 : forall m, (forall y, In y m -> f y <= 0) -> suml m f <= 0).
  { induction m as [|y m IH]; intro Hm; cbn [suml]; [lra|]. pose proof (Hm y (or_introl eq_refl)). pose proof (IH (fun y' Hy => Hm y' (or_intror Hy))). lra. }
  induction l as [|y l IH]; [destruct Hx|]. cbn [suml]. pose proof (H y (or_introl eq_refl)) as Hy. pose proof (H0 l (fun y' Hy' => H y' (or_intror Hy'))) as HL.
  destruct Hx as [->|Hx]; [lra|]. pose proof (IH (fun y' Hy' => H y' (or_intror Hy')) Hx). lra.
Qed.
Lemma forall2_pick {A B} (P : A -> B -> Prop) l m x : Forall2 P l m -> In x l -> exists y, In (x, y) (combine l m).
Proof. intro H. induction H as [|a b l m _ _ IH]; [intros []|]. intros [->|Hx]; [exists b; left; reflexivity|]. destruct (IH Hx) as (y & Hy). exists y. right. exact Hy. Qed.

Section Asm.
Variables (E : env) (k : nat) (arg : option nat) (w : world) (s : assembly).
Notation h := (w_panel w). Notation ids := (as_panels s). Notation size := (total_width (w_panel w) (as_panels s)).
Hypothesis HG : stiff_assembly E k arg w s.
Hypothesis HT : all_tied k w s.

Lemma all_still c : ~ asm_displaced w s c -> forall i, In i ids -> undisplaced h c i.
Proof using. intros H i Hi. apply NNPP. intro HC. apply H. exists i. split; assumption. Qed.
Lemma fields_zero c : ~ asm_displaced w s c -> forall i, In i ids -> forall e p q x y, (e < 3)%nat -> fld exact_basis (geometry h i) (own (start h i) c) e p q x y = 0.
Proof using HG.
  intros H i Hi e p q x y He. destruct HG as (_ & _ & _ & _ & _ & M & HS & HM & _). destruct (HS i Hi) as (_ & S2 & S3).
  apply (Proof_Response.unmoved_vec (geometry h i) (own (start h i) c)); [lia|lia|exact (all_still c H i Hi)|exact exact_flagged|exact He].
Qed.
Lemma moves_zero c : ~ asm_displaced w s c -> forall i, In i ids -> forall e x y, Spec_MultiConn.moves exact_basis h i c e x y = 0.
Proof using HG.
  intros H i Hi e x y. unfold Spec_MultiConn.moves, ritz_field. cbv zeta. unfold d_u, d_v, d_w, d_wx, d_wy.
  destruct e as [|[|[|[|e]]]]; rewrite (fields_zero c H i Hi) by lia; ring.
Qed.
Lemma asm_moving w' s' K : asm_kC E exact_basis arg None true w s = (w', s', Ok (Some K)) -> symmetric K /\ psd size K /\ forall z, asm_displaced w s z <-> quad size K z <> 0.
Proof using HG HT.
  intro HR. destruct (asm_facts E k arg w s HG) as (w1 & s1 & K1 & HR1 & SK & PK & _ & _ & HZ). rewrite HR in HR1. injection HR1 as <- <- <-.
  split; [exact SK|]. split; [exact PK|]. intro z. split.
  - intros (i & Hi & HD) HQ. apply HD. apply HZ in HQ. destruct HQ as [Q1 Q2]. destruct HG as (HA & Hc & Harg & Hl & HU & M & HS & HM & HTb).
    exact (tied_rest E M k arg w s HA Hc Harg Hl HU HS HM HTb z Q1 Q2 i (HT i Hi) Hi).
  - intro HQ. apply NNPP. intro HD. apply HQ. apply HZ. split.
    + intros i Hi. exists 0, 0, 0, 0, 0, 0. intros xi eta Hx Hy. cbv zeta. destruct (all_still z HD i Hi xi eta Hx Hy) as (-> & -> & ->). unfold motion. repeat split; try field; unfold Rdiv; ring.
    + apply List.Forall_forall. intros cn Hcn. destruct HG as (_ & _ & _ & _ & HU & _). rewrite List.Forall_forall in HU. destruct (HU cn Hcn) as (U1 & U2 & U3 & _).
      pose proof (moves_zero z HD _ U1) as Z1. pose proof (moves_zero z HD _ U2) as Z2. unfold no_jump. cbv zeta. unfold has_keys, pair_keys in U3.
      destruct (cn_func cn); try contradiction; intros; repeat (apply List.Forall_cons || apply List.Forall_nil); cbn [snd]; rewrite ?Z1, ?Z2; ring.
Qed.

(* ------------------------------------------------- the matrices of the panels *)
Section Given.
Variables (wg : world) (sg : assembly).
Hypothesis HL : same_layout w s wg sg.
Notation hg := (w_panel wg).
Lemma layout_width i : In i ids -> width (hg i) = width (h i).
Proof using HL. intro Hi. destruct HL as (_ & _ & H). destruct (H i Hi) as (H1 & _). unfold width. rewrite H1. reflexivity. Qed.
Lemma layout_total : total_width hg (as_panels sg) = size.
Proof using HL. destruct HL as (H0 & _). rewrite H0. unfold total_width. f_equal. apply map_ext_in. intros i Hi. exact (layout_width i Hi). Qed.
Lemma layout_view i : In i ids -> geometry hg i = geometry h i.
Proof using HL. intro Hi. destruct HL as (_ & _ & H). destruct (H i Hi) as (_ & H1 & _). exact H1. Qed.
Lemma layout_start i : In i ids -> start hg i = start h i.
Proof using HL. intro Hi. destruct HL as (_ & _ & H). destruct (H i Hi) as (_ & _ & _ & _ & H1). unfold start. rewrite H1. reflexivity. Qed.
Lemma own_kG_each : exists Ks, Forall2 (own_kG E hg true None) (as_panels sg) Ks.
Proof using HL.
  apply exists_list. intros i Hi. destruct HL as (H0 & (_ & ND & L) & H). rewrite H0 in Hi. destruct (H i Hi) as (_ & _ & _ & C & _). rewrite <- H0 in Hi.
  destruct (in_split _ _ Hi) as (l1 & l2 & Hids). destruct (laid_at hg (as_panels sg) 0 l1 i l2 L Hids) as (LA & _).
  destruct (calc_kG_ok E (alone true (part (0 + total_width hg l1) (width (hg i)) None)) (xp (hg i)) C) as (p' & K & HK); try (cbn; lia); try exact I; try reflexivity.
  exists K, (0 + total_width hg l1)%nat, p'. split; [exact LA|exact HK].
Qed.
Lemma own_geo i K0 c d : In i ids -> own_kG E hg true None i K0 ->
  panel_integral (geometry h i) (membrane_work exact_basis (geometry h i) (fst (fst (pn_N (xp (hg i))))) (snd (fst (pn_N (xp (hg i))))) (snd (pn_N (xp (hg i)))) (own (start h i) c) (own (start h i) d))
    (bilinear (width (hg i)) K0 (own (start hg i) c) (own (start hg i) d)).
Proof using HG HL.
  intros Hi (a & p' & Ha & HR). destruct HG as (_ & _ & _ & _ & _ & M & HS & HM & HTb). destruct (HS i Hi) as ((_ & (_ & S1 & _) & _) & S2 & S3).
  pose proof (layout_view i Hi) as HV. pose proof (layout_start i Hi) as HV2. destruct HL as (_ & _ & H). destruct (H i Hi) as (L1 & L2 & L3 & _).
  pose proof (calc_kG_analytic _ _ _ _ _ HR eq_refl eq_refl) as HA. destruct (pn_N (xp (hg i))) as [[Nxx Nyy] Nxy]. destruct HA as (kG & HK & _ & HkG). cbn [alone ka_fin finalized ka_row0 ka_col0 fst snd] in *. subst K0 kG.
  rewrite L3. change (kernel_view (xp (hg i))) with (geometry hg i). rewrite HV, HV2.
  refine (fkG0_energy _ _ exact_basis _ Nxx Nyy Nxy 0 (width (hg i)) (own (start h i) c) (own (start h i) d) S1 _ _).
  - apply (tables_integrate_le _ _ M); [|exact HTb]. apply Nat.max_lub; assumption.
  - rewrite layout_width, width_ndof by exact Hi. cbn. lia.
Qed.
Lemma geo_forms wg' sg' G : asm_kG E None true wg sg = (wg', sg', Ok (Some G)) -> symmetric G /\ exists Ks, Forall2 (own_kG E hg true None) (as_panels sg) Ks /\
  forall c d, bilinear size G c d = own_forms hg (as_panels sg) Ks c d.
Proof using HL.
  intro HR. split; [exact (asm_kG_sym E None wg sg wg' sg' G HR)|]. destruct own_kG_each as (Ks & HF). exists Ks. split; [exact HF|].
  destruct HL as (H0 & HA & _). destruct (asm_kG_diagonal E wg sg HA None true Ks ltac:(discriminate) HF) as (w2 & HR2 & _). rewrite HR in HR2. apply (f_equal snd) in HR2. cbn [snd] in HR2. injection HR2 as ->.
  intros c d. rewrite <- layout_total. apply diagonal_forms; [apply HA|symmetry; exact (forall2_len _ _ _ HF)].
Qed.
Lemma geo_still wg' sg' G z d : asm_kG E None true wg sg = (wg', sg', Ok (Some G)) -> ~ asm_displaced w s z -> bilinear size G z d = 0.
Proof using HG HL.
  intros HR HD. destruct (geo_forms _ _ _ HR) as (_ & Ks & HF & HB). rewrite HB. unfold own_forms. apply suml_0. intros [i K0] Hi. destruct (forall2_in _ _ _ _ _ HF Hi) as (Hin & HO). cbn [fst snd].
  destruct HL as (H0 & _). rewrite H0 in Hin. pose proof (own_geo i K0 z d Hin HO) as HI. change (default 0%nat (xp_start (hg i))) with (start hg i).
  refine (integral_zero _ _ _ _ HI). intros x y. unfold membrane_work, d_wx, d_wy. rewrite !(fields_zero z HD i Hin) by lia. ring.
Qed.
Lemma sized i : In i ids -> (sh_m (geometry h i) <= 30)%nat /\ (sh_n (geometry h i) <= 30)%nat /\ 0 < sh_a (geometry h i) * sh_b (geometry h i).
Proof using HG.
  intro Hi. destruct HG as (_ & _ & _ & _ & _ & M & HS & HM & _). destruct (HS i Hi) as (((_ & S4 & S5 & _) & _) & S2 & S3). split; [lia|]. split; [lia|]. apply Rmult_lt_0_compat; assumption.
Qed.
Lemma geo_pushed wg' sg' G : compressed_assembly wg sg -> asm_kG E None true wg sg = (wg', sg', Ok (Some G)) -> exists x, quad size G x < 0.
Proof using HG HL.
  intros (P1 & i & Nxx & Nyy & Hi & HN & Hx & Hm & Hn) HR. destruct (geo_forms _ _ _ HR) as (_ & Ks & HF & HB). destruct HL as (H0 & _). rewrite H0 in *.
  exists (bubble (sh_m (geometry h i)) (start h i)). set (c := bubble _ _). unfold quad. rewrite HB. unfold own_forms. destruct (forall2_pick _ _ _ i HF Hi) as (Ki & HKi).
  assert (HA : forall j Kj, In (j, Kj) (combine ids Ks) -> bilinear (width (hg j)) Kj (own (start hg j) c) (own (start hg j) c) <= 0 /\ (j = i -> bilinear (width (hg j)) Kj (own (start hg j) c) (own (start hg j) c) < 0)).
  { intros j Kj Hj. destruct (forall2_in _ _ _ _ _ HF Hj) as (Hin & HO). pose proof (own_geo j Kj c c Hin HO) as HI. destruct (sized j Hin) as (J1 & J2 & J3). destruct (P1 j Hin) as (Nx & Ny & R1 & R2 & R3). rewrite R1 in HI. cbn [fst snd] in HI.
    destruct (membrane_neg _ _ _ _ _ J1 J2 J3 R2 R3 HI) as [Q1 Q2]. split; [exact Q1|]. intros ->. rewrite HN in R1. injection R1 as <- <-. refine (Q2 Hx (1/2) 0 ltac:(lra) ltac:(lra) _).
    rewrite (layout_view i Hin) in Hm, Hn. apply (bubble_slope (md_args 0 (start h i) None false) (xp (h i))); [exact Hm|exact Hn|]. intro HC. change (sh_a (geometry h i)) with (sh_a (pn_sh (xp (h i)))) in J3. rewrite HC in J3. lra. }
  apply (suml_lt0 _ _ (i, Ki)); [|exact HKi|].
  - intros [j Kj] Hj. exact (proj1 (HA j Kj Hj)).
  - exact (proj2 (HA i Ki HKi) eq_refl).
Qed.
Theorem asm_first_load w' s' K wg' sg' G : asm_kC E exact_basis arg None true w s = (w', s', Ok (Some K)) -> asm_kG E None true wg sg = (wg', sg', Ok (Some G)) ->
  (exists x, quad size G x < 0) -> exists l z, first_load (asm_displaced w s) size K G l z.
Proof using HG HT HL.
  intros HK HR HX. destruct (asm_moving _ _ _ HK) as (SK & PK & HM). destruct (geo_forms _ _ _ HR) as (SG & _).
  apply (first_load_of (asm_displaced w s) size K G SK SG PK HM); [|exact HX]. intros z d Hz. exact (geo_still _ _ _ z d HR Hz).
Qed.

(* ------------------------------------------------- masses *)
Lemma own_kM_each wm' sm' M : asm_kM E true wg sg = (wm', sm', Ok (Some M)) -> symmetric M /\ exists Ks, Forall2 (own_kM E hg true) (as_panels sg) Ks /\
  forall c d, bilinear size M c d = own_forms hg (as_panels sg) Ks c d.
Proof using HL.
  intro H. split; [exact (asm_kM_sym E wg sg wm' sm' M H)|]. pose proof HL as (_ & HA & _).
  assert (HF : exists Ms, Forall2 (own_kM E hg true) (as_panels sg) Ms).
  { apply exists_list. intros i Hi. pose proof H as H0. unfold asm_kM in H0. unfold abind at 1 in H0. rewrite asm_size_total in H0. unfold abind at 1, aself at 1 in H0. unfold abind at 1 in H0.
    destruct (sum_panels _ _ _ wg sg) as [[w2 s2] [a|]] eqn:ES; [|discriminate H0].
    destruct (sum_panels_each _ _ _ _ _ _ _ _ (proj1 (proj2 HA)) ES i Hi) as (o & p' & K & Ho & HK).
    apply calc_kM_inv in HK. destruct HK as (mdl & kM & R). destruct R as [R1 R2 _ _ _ _ R3].
    assert (R4 : pn_lam (xp (hg i)) <> None) by (destruct R3 as [(_ & _ & R3 & _)|([R3|R3] & _)]; [exact R3|congruence|congruence]).
    destruct (pn_lam (xp (hg i))) as [lam|] eqn:EL; [|contradiction R4; reflexivity]. rewrite (sr_model _ _ R1) in R2.
    destruct (calc_kM_ok E SNone 0 0 None None None None true (xp (hg i)) mdl lam R2 EL) as (p1 & K1 & HK1); try exact I; try (cbn; lia).
    exists K1, p1. exact HK1. }
  destruct HF as (Ks & HF). exists Ks. split; [exact HF|]. destruct (asm_kM_diagonal E wg sg HA true Ks HF) as (w2 & HR2 & _). rewrite H in HR2. apply (f_equal snd) in HR2. cbn [snd] in HR2. injection HR2 as ->.
  intros c d. rewrite <- layout_total. apply diagonal_forms; [apply HA|symmetry; exact (forall2_len _ _ _ HF)].
Qed.
Lemma own_mass i K0 c d : In i ids -> own_kM E hg true i K0 ->
  panel_integral (geometry h i) (kinetic exact_basis (geometry h i) twelfth (fold_left Rplus (pn_plyts (xp (hg i))) 0) (pn_rho (xp (hg i))) (pn_offset (xp (hg i))) (own (start h i) c) (own (start h i) d))
    (bilinear (width (hg i)) K0 (own (start hg i) c) (own (start hg i) d)).
Proof using HG HL.
  intros Hi (p' & HR). destruct HG as (_ & _ & _ & _ & _ & M & HS & HM & HTb). destruct (HS i Hi) as ((_ & (_ & S1 & _) & _) & S2 & S3).
  pose proof (layout_view i Hi) as HV. pose proof (layout_start i Hi) as HV2. destruct HL as (_ & _ & H). destruct (H i Hi) as (L1 & L2 & L3 & _).
  rewrite (calc_kM_analytic _ _ _ _ _ _ _ _ _ _ HR). cbn [finalized]. rewrite L3. change (kernel_view (xp (hg i))) with (geometry hg i). rewrite HV, HV2.
  refine (fkM_energy (chosen_model (xp (h i))) (e_tables E) exact_basis (geometry h i) (pn_rho (xp (hg i))) _ _ 0 (width (hg i)) (own (start h i) c) (own (start h i) d) S1 _ _).
  - apply (tables_integrate_le _ _ M); [|exact HTb]. apply Nat.max_lub; assumption.
  - rewrite layout_width, width_ndof by exact Hi. cbn. lia.
Qed.
Theorem asm_first_frequency w' s' K wm' sm' M : asm_kC E exact_basis arg None true w s = (w', s', Ok (Some K)) -> asm_kM E true wg sg = (wm', sm', Ok (Some M)) ->
  (forall i, In i ids -> 0 <= pn_rho (xp (hg i)) * fold_left Rplus (pn_plyts (xp (hg i))) 0) ->
  (exists i, In i ids /\ 0 < pn_rho (xp (hg i)) * fold_left Rplus (pn_plyts (xp (hg i))) 0 /\ (5 <= sh_m (geometry h i))%nat /\ (5 <= sh_n (geometry h i))%nat) ->
  exists l z, first_frequency (asm_displaced w s) size K M l z.
Proof using HG HT HL.
  intros HK HR HP (i & Hi & Hr & Hm & Hn). destruct (asm_moving _ _ _ HK) as (SK & PK & HMv). destruct (own_kM_each _ _ _ HR) as (SM & Ks & HF & HB). pose proof HL as (H0 & _). rewrite H0 in HF, HB.
  assert (HJ : forall c j Kj, In (j, Kj) (combine ids Ks) -> 0 <= bilinear (width (hg j)) Kj (own (start hg j) c) (own (start hg j) c)).
  { intros c j Kj Hj. destruct (forall2_in _ _ _ _ _ HF Hj) as (Hin & HO). destruct (sized j Hin) as (J1 & J2 & J3).
    refine (panel_integral_ge0 _ _ _ (Rlt_le _ _ J3) _ (own_mass j Kj c c Hin HO)). intros. apply kinetic_ge0. exact (HP j Hin). }
  apply (first_frequency_of (asm_displaced w s) size K M SK SM PK); [|exact HMv| |].
  - intro c. unfold quad. rewrite HB. apply suml_ge0. intros [j Kj] Hj. exact (HJ c j Kj Hj).
  - intros z d Hz. rewrite HB. unfold own_forms. apply suml_0. intros [j Kj] Hj. destruct (forall2_in _ _ _ _ _ HF Hj) as (Hin & HO).
    refine (integral_zero _ _ _ _ (own_mass j Kj z d Hin HO)). intros x y. unfold kinetic, d_u, d_v, d_w, d_wx, d_wy. cbv zeta. rewrite !(fields_zero z Hz j Hin) by lia. ring.
  - exists (bubble (sh_m (geometry h i)) (start h i)). set (c := bubble _ _). unfold quad. rewrite HB. unfold own_forms. destruct (forall2_pick _ _ _ i HF Hi) as (Ki & HKi).
    set (F := fun iK : nat * matrix => _). assert (HN : suml (combine ids Ks) (fun x => - F x) < 0).
    { apply (suml_lt0 _ _ (i, Ki)); [|exact HKi|].
      - intros [j Kj] Hj. pose proof (HJ c j Kj Hj) as H. change (- bilinear (width (hg j)) Kj (own (start hg j) c) (own (start hg j) c) <= 0). lra.
      - destruct (forall2_in _ _ _ _ _ HF HKi) as (Hin & HO). destruct (sized i Hin) as (J1 & J2 & J3).
        pose proof (kinetic_pos _ _ _ _ _ _ J1 J2 J3 Hr (own_mass i Ki c c Hin HO) (bubble_moves (md_args 0 (start h i) None false) (xp (h i)) Hm Hn)) as H. change (- bilinear (width (hg i)) Ki (own (start hg i) c) (own (start hg i) c) < 0). lra. }
    assert (HS' : forall l, suml l (fun x => - F x) = - suml l F) by (induction l as [|x l IH]; cbn [suml]; [ring|rewrite IH; ring]). rewrite HS' in HN. lra.
Qed.
End Given.
End Asm.
