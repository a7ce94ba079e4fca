(* C112: the eigenvalue problems of a T-stiffened panel. *)
From Coq Require Import Reals List Arith Bool Lia Lra.
From Verif Require Import Base_Sum Model_Types Model_Coo Model_Result Model_Num Model_DB Model_Shell Model_Multi Model_New Model_Cylinder Model_TStiff Model_TStiffSolve
  Spec_Algebra Spec_Kinematics Spec_Panel Spec_Shell Spec_Bardell Spec_Integral Spec_Modes Spec_Multi Spec_MultiConn Spec_Tied Spec_TStiff Spec_TStiffTied Spec_AsmResponse Spec_Limit Spec_LimitAsm Spec_TStiffSolve
  Proof_Num Proof_AnaApi Proof_TStiff Proof_TStiffWork Proof_TStiffTied Proof_LimitPanel Proof_LimitCyl Proof_TStiffSolve Ex_Exact Ex_TStiffSolve.
From Coq Require Import List.
Import ListNotations.
Open Scope R_scope.

(* the matrices of the compression analysis have a lowest buckling load *)
Theorem C112_buckling : forall D k q w E M, well_sized D -> material_given E D M -> resistant E D -> ts_r D <> Some 0 -> (M <= 30)%nat ->
  tables_integrate (e_tables E) exact_basis M -> compressed_tstiff D ->
  let W := fst (create_tstiff D k q w) in let s := snd (create_tstiff D k q w) in
  exists K G l z, tstiff_lb D E exact_basis k q w = Ok (mkLb (Some K) (Some G)) /\ first_load (asm_displaced W s) (total_width (w_panel W) (as_panels s)) K G l z.
Proof.
  intros D k q w E M HD HM HS HR H30 HT HC W s. destruct (ts_built D k q w E M HD HM HS HR H30 HT) as [HG HA].
  destruct (in_turn E q (Some q) _ _ HG HA (ts_compressed D k q w HC)) as (w1 & s1 & K & w2 & s2 & G & l & z & R1 & R2 & F).
  exists K, G, l, z. split; [|exact F]. unfold tstiff_lb. rewrite (surjective_pairing (create_tstiff D k q w)), R1, R2. reflexivity.
Qed.
Print Assumptions C112_buckling.
(* the matrices of the frequency analysis have a lowest frequency *)
Theorem C112_frequency : forall D k q w E M, well_sized D -> material_given E D M -> resistant E D -> ts_r D <> Some 0 -> (M <= 30)%nat ->
  tables_integrate (e_tables E) exact_basis M -> 0 < ts_rho D -> 0 < ts_plyt D -> (5 <= ts_m D)%nat -> (5 <= ts_n D)%nat ->
  let W := fst (create_tstiff D k q w) in let s := snd (create_tstiff D k q w) in
  exists K Ma l z, tstiff_freq D E exact_basis k q w = Ok (mkFreq (Some K) (Some Ma)) /\ first_frequency (asm_displaced W s) (total_width (w_panel W) (as_panels s)) K Ma l z.
Proof.
  intros D k q w E M HD HM HS HR H30 HT Hr Ht Hm Hn W s. destruct (ts_built D k q w E M HD HM HS HR H30 HT) as [HG HA].
  assert (HN : forall i, stack_no D i <> []).
  { intro i. destruct HM as (_ & HF & _). rewrite List.Forall_forall in HF. apply HF. unfold stack_no. destruct (group_no i) as [|[|g]]; cbn; tauto. }
  destruct (freq_in_turn E q (Some q) _ _ HG HA) as (w1 & s1 & K & w2 & s2 & Ma & l & z & R1 & R2 & F).
  - intros i Hi. apply asm_ids in Hi. destruct Hi as (j & Hj & ->). apply Rlt_le. exact (ts_masses D k q w Hr Ht j Hj (HN j)).
  - exists (k + (1 - 1))%nat. split; [apply asm_ids; exists 1%nat; split; [lia|reflexivity]|]. split; [exact (ts_masses D k q w Hr Ht 1 ltac:(lia) (HN 1%nat))|].
    unfold geometry. destruct (ts_world D k q w 1 ltac:(lia)) as (-> & _). destruct (part_inputs D 1 ltac:(lia)) as (_ & _ & _ & P1 & P2). split; [change (5 <= sh_m (pn_sh (np_panel (panel_no D 1))))%nat; rewrite P1; exact Hm|change (5 <= sh_n (pn_sh (np_panel (panel_no D 1))))%nat; rewrite P2; exact Hn].
  - exists K, Ma, l, z. split; [|exact F]. unfold tstiff_freq. rewrite (surjective_pairing (create_tstiff D k q w)), R1, R2. reflexivity.
Qed.
Print Assumptions C112_frequency.
(* with defect_a = 0 the panel is divided as with defect_a = 0.33: debonding that third lowers the load and the frequency, or keeps them *)
Theorem C112_debonding_lowers_both : forall D k q w E M, ts_defect_a D = 0 -> well_sized D -> material_given E D M -> resistant E D -> ts_r D <> Some 0 -> (M <= 30)%nat ->
  tables_integrate (e_tables E) exact_basis M ->
  let D1 := with_defect D (33 / 100) in let W := fst (create_tstiff D k q w) in let s := snd (create_tstiff D k q w) in
  let W1 := fst (create_tstiff D1 k q w) in let s1 := snd (create_tstiff D1 k q w) in let size := total_width (w_panel W) (as_panels s) in let size1 := total_width (w_panel W1) (as_panels s1) in
  size1 = size /\
  (forall K G l z K1 G1 l1 z1, tstiff_lb D E exact_basis k q w = Ok (mkLb (Some K) (Some G)) -> tstiff_lb D1 E exact_basis k q w = Ok (mkLb (Some K1) (Some G1)) ->
    first_load (asm_displaced W s) size K G l z -> first_load (asm_displaced W1 s1) size1 K1 G1 l1 z1 -> l1 <= l) /\
  (forall K Ma l z K1 M1 l1 z1, tstiff_freq D E exact_basis k q w = Ok (mkFreq (Some K) (Some Ma)) -> tstiff_freq D1 E exact_basis k q w = Ok (mkFreq (Some K1) (Some M1)) ->
    first_frequency (asm_displaced W s) size K Ma l z -> first_frequency (asm_displaced W1 s1) size1 K1 M1 l1 z1 -> l1 <= l).
Proof.
  intros D k q w E M H0 HD HM HS HR H30 HT. assert (ED : D = with_defect D 0) by (destruct D; cbn in *; subst; reflexivity).
  assert (Ha : 0 < ts_a D) by apply HD.
  assert (HD1 : well_sized (with_defect D (33/100))) by (unfold well_sized in *; cbn; repeat split; try lra; tauto).
  destruct (ts_built (with_defect D (33/100)) k q w E M HD1 HM HS HR H30 HT) as [HG1 _]. pose proof (proj1 (ts_built D k q w E M HD HM HS HR H30 HT)) as HG0. rewrite ED in HG0.
  destruct (third_worlds D k q w Ha) as [HP HI]. intros D1 W s W1 s1 size size1. assert (EZ : size1 = size) by (unfold size, size1, W, s, W1, s1, D1; rewrite <- HP, <- HI, <- ED; reflexivity).
  split; [exact EZ|]. split.
  - intros K G l z K1 G1 l1 z1 R0 R1 F0 F1. rewrite ED in R0. apply lb_inv in R0. destruct R0 as (wb & sb & wd & sd & Eb & Ed). apply lb_inv in R1. destruct R1 as (wa & sa & wc & sc & Ea & Ec).
    refine (stable_below _ _ _ _ _ _ _ F0 _). intro c. rewrite <- EZ. pose proof (fl_limit _ _ _ _ _ _ F1 c) as L1.
    pose proof (third_stiffer D k q w Ha E HG1 HG0 _ _ _ _ _ _ c Ea Eb) as L2. pose proof (third_geo D k q w Ha E HG1 HG0 _ _ _ _ _ _ _ _ _ _ _ _ c Ea Eb Ec Ed) as L3.
    change (total_width (w_panel (fst (create_tstiff (with_defect D (33 / 100)) k q w))) (as_panels (snd (create_tstiff (with_defect D (33 / 100)) k q w)))) with size1 in L2, L3. rewrite <- L3. lra.
  - intros K G l z K1 G1 l1 z1 R0 R1 F0 F1. rewrite ED in R0. apply freq_inv in R0. destruct R0 as (wb & sb & wd & sd & Eb & Ed). apply freq_inv in R1. destruct R1 as (wa & sa & wc & sc & Ea & Ec).
    refine (frequencies_below _ _ _ _ _ _ _ F0 _). intro c. rewrite <- EZ. pose proof (ff_quotient _ _ _ _ _ _ F1 c) as L1.
    pose proof (third_stiffer D k q w Ha E HG1 HG0 _ _ _ _ _ _ c Ea Eb) as L2. pose proof (third_mass D k q w Ha E HG1 HG0 _ _ _ _ _ _ _ _ _ _ _ _ c Ea Eb Ec Ed) as L3.
    change (total_width (w_panel (fst (create_tstiff (with_defect D (33 / 100)) k q w))) (as_panels (snd (create_tstiff (with_defect D (33 / 100)) k q w)))) with size1 in L2, L3. rewrite <- L3. lra.
Qed.
Print Assumptions C112_debonding_lowers_both.

(* a panel of 4 x 3 with a stiffener, bonded along its length and debonded along a third: both buckle and vibrate *)
Example C112_case : forall k q w, let D := press_ts in let D1 := with_defect D (33 / 100) in
  (forall d, 0 <= d < 1 -> well_sized (with_defect D d) /\ material_given exact_env (with_defect D d) 5 /\ resistant exact_env (with_defect D d) /\ compressed_tstiff (with_defect D d)) /\ ts_defect_a D = 0 /\
  (exists K G, tstiff_lb D exact_env exact_basis k q w = Ok (mkLb (Some K) (Some G))) /\ (exists K G, tstiff_lb D1 exact_env exact_basis k q w = Ok (mkLb (Some K) (Some G))) /\
  (exists K Ma, tstiff_freq D exact_env exact_basis k q w = Ok (mkFreq (Some K) (Some Ma))) /\ (exists K Ma, tstiff_freq D1 exact_env exact_basis k q w = Ok (mkFreq (Some K) (Some Ma))).
Proof.
  intros k q w. cbv zeta. assert (HT : tables_integrate (e_tables exact_env) exact_basis 5) by (apply exact_tables_integrate; lia).
  assert (HB : forall d, 0 <= d < 1 -> exists K G, tstiff_lb (with_defect press_ts d) exact_env exact_basis k q w = Ok (mkLb (Some K) (Some G))).
  { intros d H. destruct (press_ts_ok d H) as (A1 & A2 & A3 & A4 & A5). pose proof (C112_buckling (with_defect press_ts d) k q w exact_env 5 A1 A2 A3 A4 ltac:(lia) HT A5) as HX. cbv zeta in HX.
    destruct HX as (K & G & l & z & R & _). exists K, G. exact R. }
  assert (HF : forall d, 0 <= d < 1 -> exists K G, tstiff_freq (with_defect press_ts d) exact_env exact_basis k q w = Ok (mkFreq (Some K) (Some G))).
  { intros d H. destruct (press_ts_ok d H) as (A1 & A2 & A3 & A4 & A5).
    assert (P : 0 < ts_rho (with_defect press_ts d) /\ 0 < ts_plyt (with_defect press_ts d) /\ (5 <= ts_m (with_defect press_ts d))%nat /\ (5 <= ts_n (with_defect press_ts d))%nat) by (cbn; repeat split; try lra; lia).
    destruct P as (P1 & P2 & P3 & P4). pose proof (C112_frequency (with_defect press_ts d) k q w exact_env 5 A1 A2 A3 A4 ltac:(lia) HT P1 P2 P3 P4) as HX. cbv zeta in HX.
    destruct HX as (K & G & l & z & R & _). exists K, G. exact R. }
  assert (E0 : with_defect press_ts 0 = press_ts) by reflexivity.
  split; [intros d H; destruct (press_ts_ok d H) as (A1 & A2 & A3 & A4 & A5); auto|]. split; [reflexivity|].
  pose proof (HB 0 ltac:(lra)) as B0. pose proof (HF 0 ltac:(lra)) as F0. rewrite E0 in B0, F0. split; [exact B0|]. split; [apply HB; lra|]. split; [exact F0|apply HF; lra].
Qed.
