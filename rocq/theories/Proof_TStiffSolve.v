(* The eigenvalue problems of a T-stiffened panel. *)
From Coq Require Import Reals List Arith Bool Lia Lra.
From Verif Require Import Proof_Num.
From Verif Require Import Base_Sum Model_Types Model_Coo Model_Result Model_Num Model_DB Model_Shell Model_Fext Model_Multi Model_New Model_Cylinder Model_TStiff Model_TStiffSolve
  Spec_Algebra Spec_Kinematics Spec_Panel Spec_Shell Spec_Bardell Spec_Integral Spec_Modes Spec_Multi Spec_MultiConn Spec_Tied Spec_TStiff Spec_TStiffTied Spec_AsmResponse Spec_Limit Spec_LimitAsm Spec_TStiffSolve
  Proof_Multi Proof_MultiConn Proof_MultiTop Proof_Modes Proof_Ana Proof_Total Proof_Tied Proof_ConnZero Proof_MultiSign Proof_TStiff Proof_TStiffWork Proof_TStiffTied Proof_AsmResponse Proof_LimitPanel Proof_LimitAsm Proof_LimitCyl.
From Verif Require Proof_BayResponse.
From Verif Require Import Proof_MultiApi Proof_TStiff Proof_TStiffWork.
From Coq Require Import List.
Import ListNotations.
Open Scope R_scope.

Lemma forms_pair {A B C} (P : A -> B -> Prop) (Q : A -> C -> Prop) (f : A * B -> R) (g : A * C -> R) l m m2 : Forall2 P l m -> Forall2 Q l m2 ->
  (forall x y z, In x l -> P x y -> Q x z -> f (x, y) = g (x, z)) -> suml (combine l m) f = suml (combine l m2) g.
Proof.
  intros H. revert m2. induction H as [|a b l m Hp _ IH]; intros m2 H2 HE; inversion H2; subst; [reflexivity|]. cbn [combine suml].
  rewrite (HE a b y) by (auto; left; reflexivity). f_equal. apply IH; [assumption|]. intros; apply HE; auto. right; assumption.
Qed.
Section Same.
Variables (E : env) (k : nat) (arg : option nat) (w : world) (s : assembly).
Notation ids := (as_panels s). Notation size := (total_width (w_panel w) (as_panels s)).
Hypothesis HG : stiff_assembly E k arg w s.
Variables (wg wh : world) (sg sh : assembly).
Hypothesis HL : same_layout w s wg sg.
Hypothesis HL2 : same_layout w s wh sh.
Lemma geo_same wg' sg' G wh' sh' G2 c : (forall i, In i ids -> pn_N (xp (w_panel wh i)) = pn_N (xp (w_panel wg i))) ->
  asm_kG E None true wg sg = (wg', sg', Ok (Some G)) -> asm_kG E None true wh sh = (wh', sh', Ok (Some G2)) -> quad size G c = quad size G2 c.
Proof using HG HL HL2.
  intros HN R1 R2. destruct (geo_forms E w s wg sg HL _ _ _ R1) as (_ & Ks & F1 & B1). destruct (geo_forms E w s wh sh HL2 _ _ _ R2) as (_ & Ks2 & F2 & B2).
  unfold quad. rewrite B1, B2. unfold own_forms. rewrite (proj1 HL) in *. rewrite (proj1 HL2) in *. apply (forms_pair _ _ _ _ _ _ _ F1 F2). intros i K1 K2 Hi O1 O2.
  pose proof (own_geo E k arg w s HG wg sg HL i K1 c c Hi O1) as I1. pose proof (own_geo E k arg w s HG wh sh HL2 i K2 c c Hi O2) as I2. rewrite (HN i Hi) in I2.
  exact (Proof_BayResponse.integral_once _ _ _ _ I1 I2).
Qed.
Lemma mass_same wg' sg' M wh' sh' M2 c : (forall i, In i ids -> let p := xp (w_panel wg i) in let q := xp (w_panel wh i) in pn_rho q = pn_rho p /\ pn_plyts q = pn_plyts p /\ pn_offset q = pn_offset p) ->
  asm_kM E true wg sg = (wg', sg', Ok (Some M)) -> asm_kM E true wh sh = (wh', sh', Ok (Some M2)) -> quad size M c = quad size M2 c.
Proof using HG HL HL2.
  intros HN R1 R2. destruct (own_kM_each E w s wg sg HL _ _ _ R1) as (_ & Ks & F1 & B1). destruct (own_kM_each E w s wh sh HL2 _ _ _ R2) as (_ & Ks2 & F2 & B2).
  unfold quad. rewrite B1, B2. unfold own_forms. rewrite (proj1 HL) in *. rewrite (proj1 HL2) in *. apply (forms_pair _ _ _ _ _ _ _ F1 F2). intros i K1 K2 Hi O1 O2.
  pose proof (own_mass E k arg w s HG wg sg HL i K1 c c Hi O1) as I1. pose proof (own_mass E k arg w s HG wh sh HL2 i K2 c c Hi O2) as I2. destruct (HN i Hi) as (N1 & N2 & N3). rewrite N1, N2, N3 in I2.
  exact (Proof_BayResponse.integral_once _ _ _ _ I1 I2).
Qed.
End Same.

(* a connection more, anywhere in the list *)
Section More.
Variables (E : env) (k k2 : nat) (arg arg2 : option nat) (w w2 : world) (s s2 : assembly) (pre extra post : list conn).
Hypothesis HG : stiff_assembly E k arg w s.
Hypothesis HG2 : stiff_assembly E k2 arg2 w2 s2.
Hypothesis Hp : w_panel w2 = w_panel w.
Hypothesis Hi : as_panels s2 = as_panels s.
Hypothesis Hcn : w_conn w k = pre ++ post.
Hypothesis Hcn2 : w_conn w2 k2 = pre ++ extra ++ post.
Notation size := (total_width (w_panel w) (as_panels s)).
Lemma quad_among w' s' K w2' s2' K2 d : asm_kC E exact_basis arg None true w s = (w', s', Ok (Some K)) -> asm_kC E exact_basis arg2 None true w2 s2 = (w2', s2', Ok (Some K2)) ->
  quad size K d <= quad size K2 d.
Proof using All.
  intros HR HR2. destruct HG as (HA & Hc & Harg & Hl & HU & M & HS & HM & HT). destruct HG2 as (HA2 & Hc2 & Harg2 & Hl2 & HU2 & M2 & HS2 & HM2 & HT2).
  assert (HE : forall i, In i (as_panels s) -> elastic E (xp (w_panel w i))) by (intros i Hj; apply (HS i Hj)).
  assert (HS' : forall i, In i (as_panels s) -> sound E (w_panel w) i /\ (sh_m (geometry (w_panel w) i) <= M)%nat /\ (sh_n (geometry (w_panel w) i) <= M)%nat).
  { intros i Hj. destruct (HS i Hj) as ((S1 & _) & S2). split; assumption. }
  assert (HS2' : forall i, In i (as_panels s2) -> sound E (w_panel w2) i /\ (sh_m (geometry (w_panel w2) i) <= M2)%nat /\ (sh_n (geometry (w_panel w2) i) <= M2)%nat).
  { intros i Hj. destruct (HS2 i Hj) as ((S1 & _) & S2). split; assumption. }
  destruct (own_kC_each E M w s HA HS' HE) as (Ks & HF).
  assert (HN : forall n l, None = Some (CVec l) -> length l = n) by discriminate.
  destruct (asm_kC_energy E exact_basis M k w s HA Hc Hl HU HS' HT arg None true Ks Harg (HN _) HF) as (wx & sx & Kx & KC & HRx & _ & _ & HW).
  rewrite HR in HRx. injection HRx as <- <- <-.
  assert (HF2 : Forall2 (own_kC E (w_panel w2) true None) (as_panels s2) Ks) by (rewrite Hp, Hi; exact HF).
  destruct (asm_kC_energy E exact_basis M2 k2 w2 s2 HA2 Hc2 Hl2 HU2 HS2' HT2 arg2 None true Ks Harg2 (HN _) HF2) as (wx & sx & Kx & KC2 & HRx & _ & _ & HW2).
  rewrite HR2 in HRx. injection HRx as <- <- <-.
  destruct (HW d d) as (Ws & W1 & _ & W3). destruct (HW2 d d) as (Ws2 & V1 & _ & V3).
  rewrite Hp, Hi in V3. rewrite Hp, Hcn2 in V1. rewrite Hcn in W1. unfold quad. rewrite W3, V3.
  apply Forall2_app_inv_l in V1. destruct V1 as (Wa & Wb & Va & Vb & ->). apply Forall2_app_inv_l in Vb. destruct Vb as (Wc & Wd & Vc & Vd & ->).
  apply Forall2_app_inv_l in W1. destruct W1 as (Wp & Wq & Vp & Vq & ->). rewrite !suml_app. rewrite (works_once _ _ _ _ _ _ _ _ Vp Va), (works_once _ _ _ _ _ _ _ _ Vq Vd).
  assert (HX : 0 <= suml Wc (fun W => W)).
  { rewrite Hcn2 in HU2. apply Forall_app in HU2. destruct HU2 as [_ HU2]. apply Forall_app in HU2. destruct HU2 as [HU2 _]. rewrite Hp in *. exact (works_nonneg E exact_basis (w_panel w) (as_panels s2) d extra Wc HS2' HU2 Vc). }
  lra.
Qed.
End More.

(* ------------------------------------------------- the T-stiffened panel *)
Section TS.
Variables (D : tstiff) (k q : nat) (w : world).
Notation W := (fst (create_tstiff D k q w)).
Notation S0 := (snd (create_tstiff D k q w)).
Notation p i := (k + (i - 1))%nat.
Lemma part_inputs i : (1 <= i <= 15)%nat -> let x := np_panel (panel_no D i) in
  pn_N x = (match group_no i with 0%nat => ts_Nskin D | 1%nat => ts_Nbase D | _ => ts_Nflange D end, 0, 0) /\ pn_rho x = ts_rho D /\ rebuilt_plyts x = map (fun _ => ts_plyt D) (stack_no D i) /\
  sh_m (pn_sh x) = (match group_no i with 0%nat => ts_m D | 1%nat => ts_mb D | _ => ts_mf D end) /\ sh_n (pn_sh x) = (match group_no i with 0%nat => ts_n D | 1%nat => ts_nb D | _ => ts_nf D end).
Proof using Type.
  revert i. apply (fifteen (fun i => let x := np_panel (panel_no D i) in
  pn_N x = (match group_no i with 0%nat => ts_Nskin D | 1%nat => ts_Nbase D | _ => ts_Nflange D end, 0, 0) /\ pn_rho x = ts_rho D /\ rebuilt_plyts x = map (fun _ => ts_plyt D) (stack_no D i) /\
  sh_m (pn_sh x) = (match group_no i with 0%nat => ts_m D | 1%nat => ts_mb D | _ => ts_mf D end) /\ sh_n (pn_sh x) = (match group_no i with 0%nat => ts_n D | 1%nat => ts_nb D | _ => ts_nf D end)));
  unfold panel_no; cbn [Nat.sub nth ts_panels]; unfold skin, tbase, tflange; cbn [np_panel]; destruct (ts_points D) as [[[[? ?] [? ?]] [? ?]]|]; repeat split; reflexivity.
Qed.
Lemma ts_compressed : compressed_tstiff D -> compressed_assembly W S0.
Proof using Type.
  intros (N1 & N2 & N3 & N4). split.
  - intros i Hi. apply asm_ids in Hi. destruct Hi as (j & Hj & ->). destruct (ts_world D k q w j Hj) as (-> & _). destruct (part_inputs j Hj) as (-> & _). eexists. eexists. split; [reflexivity|]. split; [|lra].
    destruct (group_no j) as [|[|g]]; assumption.
  - assert (HX : exists i, (1 <= i <= 15)%nat /\ fst (fst (pn_N (np_panel (panel_no D i)))) < 0 /\ (5 <= sh_m (pn_sh (np_panel (panel_no D i))))%nat /\ (5 <= sh_n (pn_sh (np_panel (panel_no D i))))%nat).
    { destruct N4 as [N4|[N4|N4]]; [exists 1%nat|exists 10%nat|exists 11%nat]; (split; [lia|]); [destruct (part_inputs 1 ltac:(lia)) as (-> & _ & _ & -> & ->)|destruct (part_inputs 10 ltac:(lia)) as (-> & _ & _ & -> & ->)|destruct (part_inputs 11 ltac:(lia)) as (-> & _ & _ & -> & ->)]; exact N4. }
    destruct HX as (i & Hi & H1 & H2 & H3). destruct (ts_world D k q w i Hi) as (EW & _). destruct (part_inputs i Hi) as (EN & _). rewrite EN in H1. cbn [fst] in H1.
    exists (p i). eexists. eexists. unfold geometry. rewrite EW, EN. split; [apply asm_ids; exists i; auto|]. split; [reflexivity|]. split; [exact H1|]. split; [exact H2|exact H3].
Qed.
Lemma ts_masses : 0 < ts_rho D -> 0 < ts_plyt D -> forall i, (1 <= i <= 15)%nat -> stack_no D i <> [] -> 0 < pn_rho (xp (w_panel W (p i))) * suml (rebuilt_plyts (xp (w_panel W (p i)))) (fun t => t).
Proof using Type.
  intros Hr Ht i Hi HS. destruct (ts_world D k q w i Hi) as (-> & _). destruct (part_inputs i Hi) as (_ & -> & -> & _). apply Rmult_lt_0_compat; [exact Hr|].
  assert (HP : forall l : list R, 0 <= suml (map (fun _ => ts_plyt D) l) (fun t => t)) by (induction l as [|x l IH]; cbn; lra).
  destruct (stack_no D i) as [|x l]; [congruence|]. cbn. pose proof (HP l). lra.
Qed.
End TS.

(* ------------------------------------------------- a third of the length bonded or not *)
Section Debond.
Variables (D : tstiff) (k q : nat) (w : world).
Hypothesis Ha : 0 < ts_a D.
Notation D1 := (with_defect D (33 / 100)). Notation D0 := (with_defect D 0).
Lemma third : defect D1 = 33 / 100 * ts_a D /\ defect D0 = 33 / 100 * ts_a D.
Proof using Ha. unfold defect. cbn [with_defect ts_defect_a ts_a]. split; destruct (Req_EM_T _ _); lra. Qed.
Lemma third_has : has_defect D1 = true /\ has_defect D0 = false.
Proof using Ha. unfold has_defect. cbn [with_defect ts_defect_a ts_a]. split; destruct (Rlt_dec _ _); try reflexivity; lra. Qed.
Lemma third_panels : ts_panels D0 = ts_panels D1.
Proof using Ha.
  destruct third as [T1 T0]. unfold ts_panels, aup, alow. rewrite T1, T0. reflexivity.
Qed.
Lemma third_conns : exists pre extra post, valid_conns D1 k = pre ++ post /\ valid_conns D0 k = pre ++ extra ++ post.
Proof using Ha.
  destruct third as [T1 T0]. destruct third_has as [H1 H0]. exists (firstn 13 (valid_conns D0 k)), [snd (sb k true 5 12)], (skipn 14 (valid_conns D0 k)).
  unfold valid_conns. rewrite H1, H0. unfold ts_conns, alow. rewrite T1, T0. split; reflexivity.
Qed.
Lemma third_worlds : w_panel (fst (create_tstiff D0 k q w)) = w_panel (fst (create_tstiff D1 k q w)) /\ as_panels (snd (create_tstiff D0 k q w)) = as_panels (snd (create_tstiff D1 k q w)).
Proof using Ha. unfold create_tstiff. rewrite third_panels. destruct (new_assembly _ _ _) as [w2 s]. cbn [fst snd w_panel put_conn]. split; reflexivity. Qed.
Variables (E : env).
Hypothesis HG1 : stiff_assembly E q (Some q) (fst (create_tstiff D1 k q w)) (snd (create_tstiff D1 k q w)).
Hypothesis HG0 : stiff_assembly E q (Some q) (fst (create_tstiff D0 k q w)) (snd (create_tstiff D0 k q w)).
Notation W1 := (fst (create_tstiff D1 k q w)). Notation S1 := (snd (create_tstiff D1 k q w)).
Notation W0 := (fst (create_tstiff D0 k q w)). Notation S0 := (snd (create_tstiff D0 k q w)).
Notation size := (total_width (w_panel W1) (as_panels S1)).
Lemma third_layout w' s' : same_layout W0 S0 w' s' -> same_layout W1 S1 w' s'.
Proof using Ha. destruct third_worlds as [HP HI]. unfold same_layout. rewrite HP, HI. auto. Qed.
Lemma third_stiffer wa sa K1 wb sb K0 c : asm_kC E exact_basis (Some q) None true W1 S1 = (wa, sa, Ok (Some K1)) -> asm_kC E exact_basis (Some q) None true W0 S0 = (wb, sb, Ok (Some K0)) ->
  quad size K1 c <= quad size K0 c.
Proof using All.
  intros R1 R0. destruct third_worlds as [HP HI]. destruct third_conns as (pre & extra & post & C1 & C0).
  refine (quad_among E q q (Some q) (Some q) W1 W0 S1 S0 pre extra post HG1 HG0 HP HI _ _ wa sa K1 wb sb K0 c R1 R0); rewrite ts_conn; assumption.
Qed.
Lemma third_geo wa sa K1 wb sb K0 wc sc G1 wd sd G0 c : asm_kC E exact_basis (Some q) None true W1 S1 = (wa, sa, Ok (Some K1)) -> asm_kC E exact_basis (Some q) None true W0 S0 = (wb, sb, Ok (Some K0)) ->
  asm_kG E None true wa sa = (wc, sc, Ok (Some G1)) -> asm_kG E None true wb sb = (wd, sd, Ok (Some G0)) -> quad size G1 c = quad size G0 c.
Proof using All.
  intros R1 R0 Q1 Q0. destruct (kC_layout E q (Some q) W1 S1 HG1 _ _ _ R1) as (L1 & N1). destruct (kC_layout E q (Some q) W0 S0 HG0 _ _ _ R0) as (L0 & N0).
  refine (geo_same E q (Some q) W1 S1 HG1 wa wb sa sb L1 (third_layout _ _ L0) _ _ _ _ _ _ c _ Q1 Q0). intros i _. rewrite (proj1 (N1 i)), (proj1 (N0 i)), (proj1 third_worlds). reflexivity.
Qed.
Lemma third_mass wa sa K1 wb sb K0 wc sc M1 wd sd M0 c : asm_kC E exact_basis (Some q) None true W1 S1 = (wa, sa, Ok (Some K1)) -> asm_kC E exact_basis (Some q) None true W0 S0 = (wb, sb, Ok (Some K0)) ->
  asm_kM E true wa sa = (wc, sc, Ok (Some M1)) -> asm_kM E true wb sb = (wd, sd, Ok (Some M0)) -> quad size M1 c = quad size M0 c.
Proof using All.
  intros R1 R0 Q1 Q0. destruct (kC_layout E q (Some q) W1 S1 HG1 _ _ _ R1) as (L1 & _). destruct (kC_layout E q (Some q) W0 S0 HG0 _ _ _ R0) as (L0 & _).
  refine (mass_same E q (Some q) W1 S1 HG1 wa wb sa sb L1 (third_layout _ _ L0) _ _ _ _ _ _ c _ Q1 Q0). intros i Hi.
  destruct (kC_mass E q (Some q) W1 S1 HG1 _ _ _ R1 i Hi) as (A1 & A2 & A3). rewrite <- (proj2 third_worlds) in Hi. destruct (kC_mass E q (Some q) W0 S0 HG0 _ _ _ R0 i Hi) as (B1 & B2 & B3).
  rewrite (proj1 third_worlds) in B1, B2, B3. cbv zeta. repeat split; congruence.
Qed.
End Debond.
Lemma lb_inv D E k q w K G : tstiff_lb D E exact_basis k q w = Ok (mkLb (Some K) (Some G)) -> exists wa sa wc sc,
  asm_kC E exact_basis (Some q) None true (fst (create_tstiff D k q w)) (snd (create_tstiff D k q w)) = (wa, sa, Ok (Some K)) /\ asm_kG E None true wa sa = (wc, sc, Ok (Some G)).
Proof.
  unfold tstiff_lb. destruct (create_tstiff D k q w) as [w1 s]. cbn [fst snd]. destruct (asm_kC E exact_basis (Some q) None true w1 s) as [[wa sa] [o|e]]; [|discriminate].
  destruct (asm_kG E None true wa sa) as [[wc sc] [g|e]] eqn:EG; [|discriminate]. intro H. injection H as -> ->. exists wa, sa, wc, sc. split; [reflexivity|exact EG].
Qed.
Lemma freq_inv D E k q w K M : tstiff_freq D E exact_basis k q w = Ok (mkFreq (Some K) (Some M)) -> exists wa sa wc sc,
  asm_kC E exact_basis (Some q) None true (fst (create_tstiff D k q w)) (snd (create_tstiff D k q w)) = (wa, sa, Ok (Some K)) /\ asm_kM E true wa sa = (wc, sc, Ok (Some M)).
Proof.
  unfold tstiff_freq. destruct (create_tstiff D k q w) as [w1 s]. cbn [fst snd]. destruct (asm_kC E exact_basis (Some q) None true w1 s) as [[wa sa] [o|e]]; [|discriminate].
  destruct (asm_kM E true wa sa) as [[wc sc] [g|e]] eqn:EG; [|discriminate]. intro H. injection H as -> ->. exists wa, sa, wc, sc. split; [reflexivity|exact EG].
Qed.
