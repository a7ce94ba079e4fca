(* A T-stiffened panel has a unique response. *)
From Coq Require Import Reals List Arith Bool Lia Lra.
From Verif Require Import Base_Sum Model_Types Model_Coo Model_Result Model_Num Model_DB Model_Shell Model_Fext Model_Multi Model_New Model_TStiff
  Spec_Algebra Spec_Kinematics Spec_Integral Spec_Panel Spec_Shell Spec_Bardell Spec_Multi Spec_MultiConn Spec_ConnScale Spec_Modes Spec_Rigid Spec_Tied Spec_AsmResponse Spec_Cylinder Spec_TStiff Spec_TStiffTied
  Proof_Rigid Proof_Tied Proof_TStiff Proof_TStiffWork Proof_TStiffLoad Proof_Support Proof_SupportTop.
From Coq Require Import List.
Import ListNotations.
Open Scope R_scope.

Lemma definite_psd n M : definite n M -> psd_form n M.
Proof.
  intros H e. destruct (Classical_Prop.classic (exists k, (k < n)%nat /\ e k <> 0)) as [X|X]; [left; apply H; exact X|].
  right. symmetry. unfold form. apply sumn_0; intros i Hi. apply sumn_0; intros j Hj.
  assert (Z : e i = 0). { apply Classical_Prop.NNPP. intro Q. apply X. exists i. auto. } rewrite Z. ring.
Qed.
Section Asm.
Variables (D : tstiff) (k q : nat) (w : world) (E : env) (M : nat).
Hypothesis HD : well_sized D.
Hypothesis HM : material_given E D M.
Hypothesis HS : resistant E D.
Hypothesis HR : ts_r D <> Some 0.
Hypothesis H30 : (M <= 30)%nat.
Notation W := (fst (create_tstiff D k q w)).
Notation S0 := (snd (create_tstiff D k q w)).
Notation p i := (k + (i - 1))%nat.
Notation h := (w_panel W).
Lemma radius_all i : (1 <= i <= 15)%nat -> pn_r (np_panel (panel_no D i)) <> Some 0 /\ pn_ortho (np_panel (panel_no D i)) = false.
Proof using HR.
  revert i. apply (fifteen (fun i => pn_r (np_panel (panel_no D i)) <> Some 0 /\ pn_ortho (np_panel (panel_no D i)) = false));
  unfold panel_no; cbn [Nat.sub nth ts_panels]; unfold skin, tbase, tflange; cbn [np_panel]; destruct (ts_points D) as [[[[? ?] [? ?]] [? ?]]|]; (split; [first [exact HR|cbn; congruence]|reflexivity]).
Qed.
Lemma ts_plate i : (1 <= i <= 15)%nat -> stiff_panel E h (p i) /\ (sh_m (geometry h (p i)) <= M)%nat /\ (sh_n (geometry h (p i)) <= M)%nat.
Proof using All.
  intro Hi. destruct (ts_geom D k q w i Hi) as (G1 & G2 & G3 & G4). destruct (Proof_TStiffWork.terms_no D E M HM i Hi) as [T1 T2]. rewrite G3, G4. split; [|lia].
  pose proof (ts_sound D k q w E M HD HM i Hi) as SO. split; [exact SO|].
  pose proof (ts_lam D k q w E i Hi) as TL. unfold lam_of in TL. destruct (ts_world D k q w i Hi) as (EX & _). rewrite EX in *.
  destruct (radius_all i Hi) as [F1 F2]. destruct (panel_data D i Hi) as (P1 & _). destruct (len_pos D HD i Hi) as [L1 L2].
  assert (ST : is_ABD (lam_matrix false (laminate_of E D (stack_no D i))) /\ definite 6 (lam_matrix false (laminate_of E D (stack_no D i)))).
  { unfold resistant in HS. rewrite List.Forall_forall in HS. apply HS. unfold stack_no. destruct (group_no i) as [|[|g]]; cbn; tauto. }
  rewrite F2, TL. destruct ST as [ST1 ST2]. split; [|exact ST2].
  unfold elastic. rewrite F2, TL. split; [apply cte_zero; exact Hi|]. split; [|split; [exact ST1|split; [apply definite_psd; exact ST2|unfold len, wid in *; nra]]].
  unfold geometry_ok, kernel_view. cbn [sh_a sh_b sh_r]. unfold len, wid in *. split; [lra|]. split; [lra|].
  unfold chosen_model. rewrite P1. destruct (pn_r (np_panel (panel_no D i))); [intros _; congruence|discriminate].
Qed.
Lemma corner_anchored : anchored (curve h (p 1)) (geometry h (p 1)).
Proof using HD.
  clear H30.
  assert (Hi : (1 <= 1 <= 15)%nat) by lia. destruct (ts_geom D k q w 1 Hi) as (G1 & G2 & _). destruct (len_pos D HD 1 Hi) as [L1 L2].
  intros u0 v0 w0 th al be HA.
  assert (X : forall d, (d < 3)%nat -> e2t (xedge (geometry h (p 1)) d) = 0).
  { intros d Hd. unfold geometry. destruct (ts_world D k q w 1 Hi) as (-> & _). destruct (view_edges (np_panel (panel_no D 1)) d Hd) as [-> _]. rewrite (flags_x2 D d Hd 1 Hi). reflexivity. }
  assert (Y : e2t (yedge (geometry h (p 1)) 2) = 0).
  { unfold geometry. destruct (ts_world D k q w 1 Hi) as (-> & _). destruct (view_edges (np_panel (panel_no D 1)) 2 ltac:(lia)) as [_ ->]. rewrite (flags_y2 D 2 ltac:(lia) 1 Hi). reflexivity. }
  destruct (HA 0%nat 0 ltac:(lia) ltac:(lra)) as (_ & A2 & _). specialize (A2 (X 0%nat ltac:(lia))). destruct (HA 0%nat 1 ltac:(lia) ltac:(lra)) as (_ & A3 & _). specialize (A3 (X 0%nat ltac:(lia))).
  destruct (HA 1%nat 0 ltac:(lia) ltac:(lra)) as (_ & B2 & _). specialize (B2 (X 1%nat ltac:(lia))).
  destruct (HA 2%nat 0 ltac:(lia) ltac:(lra)) as (_ & C3 & _ & C5 & _). specialize (C3 (X 2%nat ltac:(lia))). specialize (C5 Y).
  destruct (HA 2%nat 1 ltac:(lia) ltac:(lra)) as (_ & C4 & _ & C6 & _). specialize (C4 (X 2%nat ltac:(lia))). specialize (C6 Y). clear HA.
  cbn [motion] in *. rewrite G1, G2 in *.
  assert (E5 : be = 0) by nra. subst be. assert (E4 : al = 0) by nra. subst al. assert (E0 : w0 = 0) by lra. subst w0. assert (E3 : th = 0) by nra. subst th. repeat split; lra.
Qed.
Lemma ts_tied i : (1 <= i <= 15)%nat -> tied h (w_conn W q) (p i).
Proof using HD.
  clear H30.
  rewrite ts_conn. destruct (sizes D HD) as (S1 & S2 & S3 & S4 & S5 & S6 & S7 & E1 & E2 & E3 & E4 & E5).
  assert (G : forall i, (1 <= i <= 15)%nat -> sh_a (geometry h (p i)) = snd (fst (place D i)) /\ sh_b (geometry h (p i)) = snd (snd (place D i))).
  { intros j Hj. destruct (ts_geom D k q w j Hj) as (-> & -> & _). destruct (panel_place D j Hj) as (_ & -> & _ & ->). split; reflexivity. }
  assert (IN : forall cn, In (false, cn) (ts_conns D k) -> In cn (valid_conns D k)) by (intros cn H; apply (in_conns D k false); [exact H|discriminate]).
  assert (NX : forall cn i j, cn_p1 cn = p i -> cn_p2 cn = p j -> In (false, cn) (ts_conns D k) -> on_panels h cn -> tied h (valid_conns D k) (p i) -> tied h (valid_conns D k) (p j)).
  { intros cn i0 j0 E1' E2' H1 H2 H3. rewrite <- E2'. apply tied_second; [apply IN; exact H1|exact H2|rewrite E1'; exact H3]. }
  assert (SY : forall i j y, (1 <= i <= 15)%nat -> (1 <= j <= 15)%nat -> In (ssy k i j y) (ts_conns D k) -> 0 <= y <= snd (snd (place D j)) -> 0 <= snd (snd (place D i)) -> tied h (valid_conns D k) (p i) -> tied h (valid_conns D k) (p j)).
  { intros i0 j0 y Hi Hj H1 H2 H3. apply (NX (snd (ssy k i0 j0 y)) i0 j0); [reflexivity|reflexivity|exact H1|]. unfold ssy, on_panels. cbn [snd cn_func cn_y1 cn_y2 cn_p1 cn_p2].
    destruct (G i0 Hi) as [_ ->]. destruct (G j0 Hj) as [_ ->]. split; [lra|exact H2]. }
  assert (SX : forall i j x, (1 <= i <= 15)%nat -> (1 <= j <= 15)%nat -> In (ssx k i j x) (ts_conns D k) -> 0 <= x <= snd (fst (place D j)) -> 0 <= snd (fst (place D i)) -> tied h (valid_conns D k) (p i) -> tied h (valid_conns D k) (p j)).
  { intros i0 j0 y Hi Hj H1 H2 H3. apply (NX (snd (ssx k i0 j0 y)) i0 j0); [reflexivity|reflexivity|exact H1|]. unfold ssx, on_panels. cbn [snd cn_func cn_x1 cn_x2 cn_p1 cn_p2].
    destruct (G i0 Hi) as [-> _]. destruct (G j0 Hj) as [-> _]. split; [lra|exact H2]. }
  assert (BF : forall i j y, (1 <= i <= 15)%nat -> (1 <= j <= 15)%nat -> In (bfy k i j y) (ts_conns D k) -> 0 <= y <= snd (snd (place D i)) -> 0 <= snd (snd (place D j)) -> tied h (valid_conns D k) (p i) -> tied h (valid_conns D k) (p j)).
  { intros i0 j0 y Hi Hj H1 H2 H3. apply (NX (snd (bfy k i0 j0 y)) i0 j0); [reflexivity|reflexivity|exact H1|]. unfold bfy, on_panels. cbn [snd cn_func cn_y1 cn_y2 cn_p1 cn_p2].
    destruct (G i0 Hi) as [_ ->]. destruct (G j0 Hj) as [_ ->]. split; [exact H2|lra]. }
  assert (SBB : forall i j, In (sb k false i j) (ts_conns D k) -> tied h (valid_conns D k) (p i) -> tied h (valid_conns D k) (p j)).
  { intros i0 j0 H1. apply (NX (snd (sb k false i0 j0)) i0 j0); [reflexivity|reflexivity|exact H1|exact I]. }
  Ltac find := cbn [In ts_conns]; repeat first [left; reflexivity|right].
  pose proof (tied_held h (valid_conns D k) (p 1) corner_anchored) as T1.
  assert (T2 : tied h (valid_conns D k) (p 2)) by (apply (SY 1 2 (ts_bb D))%nat; [lia|lia|find|cbn; lra|cbn; lra|exact T1]).
  assert (T4 : tied h (valid_conns D k) (p 4)) by (apply (SX 1 4 (defect D))%nat; [lia|lia|find|cbn; lra|cbn; lra|exact T1]).
  assert (T3 : tied h (valid_conns D k) (p 3)) by (apply (SY 2 3 (bright D))%nat; [lia|lia|find|cbn; lra|cbn; lra|exact T2]).
  assert (T5 : tied h (valid_conns D k) (p 5)) by (apply (SX 2 5 (defect D))%nat; [lia|lia|find|cbn; lra|cbn; lra|exact T2]).
  assert (T6 : tied h (valid_conns D k) (p 6)) by (apply (SX 3 6 (defect D))%nat; [lia|lia|find|cbn; lra|cbn; lra|exact T3]).
  assert (T7 : tied h (valid_conns D k) (p 7)) by (apply (SX 4 7 (alow D))%nat; [lia|lia|find|cbn; lra|cbn; lra|exact T4]).
  assert (T8 : tied h (valid_conns D k) (p 8)) by (apply (SX 5 8 (alow D))%nat; [lia|lia|find|cbn; lra|cbn; lra|exact T5]).
  assert (T9 : tied h (valid_conns D k) (p 9)) by (apply (SX 6 9 (alow D))%nat; [lia|lia|find|cbn; lra|cbn; lra|exact T6]).
  assert (T10 : tied h (valid_conns D k) (p 10)) by (apply (SBB 2 10)%nat; [find|exact T2]).
  assert (T12 : tied h (valid_conns D k) (p 12)) by (apply (SX 10 12 (defect D))%nat; [lia|lia|find|cbn; lra|cbn; lra|exact T10]).
  assert (T14 : tied h (valid_conns D k) (p 14)) by (apply (SX 12 14 (alow D))%nat; [lia|lia|find|cbn; lra|cbn; lra|exact T12]).
  assert (T11 : tied h (valid_conns D k) (p 11)) by (apply (BF 10%nat 11%nat (ts_bb D / 2)%R); [lia|lia|find|cbn; lra|cbn; lra|exact T10]).
  assert (T13 : tied h (valid_conns D k) (p 13)) by (apply (BF 12%nat 13%nat (ts_bb D / 2)%R); [lia|lia|find|cbn; lra|cbn; lra|exact T12]).
  assert (T15 : tied h (valid_conns D k) (p 15)) by (apply (BF 14%nat 15%nat (ts_bb D / 2)%R); [lia|lia|find|cbn; lra|cbn; lra|exact T14]).
  revert i. apply (fifteen (fun i => tied h (valid_conns D k) (p i))); assumption.
Qed.
Lemma conns_some : valid_conns D k <> [].
Proof using Type. intro Z. assert (IN : In (snd (ssy k 1 2 (ts_bb D))) (valid_conns D k)) by (apply (in_conns D k false); [left; reflexivity|discriminate]). rewrite Z in IN. exact IN. Qed.
Lemma asm_size : total_width h (seq k 15) = total_width h (as_panels S0).
Proof using Type. rewrite create_asm. reflexivity. Qed.
Lemma asm_fresh : as_kC_conn S0 = None.
Proof using Type. rewrite create_asm. reflexivity. Qed.
Lemma asm_ids i : In i (as_panels S0) <-> exists j, (1 <= j <= 15)%nat /\ i = p j.
Proof using Type. clear H30. rewrite create_asm. cbn [as_panels]. rewrite in_seq. split; [intro H; exists (i - k + 1)%nat; lia|intros (j & H & ->); lia]. Qed.
Lemma asm_usable : List.Forall (usable h (as_panels S0)) (w_conn W q).
Proof using HD HM. clear H30. rewrite create_asm. cbn [as_panels]. rewrite ts_conn. apply List.Forall_forall. intros cn Hc. exact (meets_usable D k q w E M HD HM cn Hc). Qed.
Hypothesis HT : tables_integrate (e_tables E) exact_basis M.
Theorem ts_unique : exists w' s' K, asm_kC E exact_basis (Some q) None true W S0 = (w', s', Ok (Some K)) /\
  let size := total_width h (seq k 15) in
  (forall c, quad size K c = 0 -> forall i, (1 <= i <= 15)%nat -> undisplaced h c (p i)) /\
  (forall c d f, (forall r, (r < size)%nat -> row size K c r = f r) -> (forall r, (r < size)%nat -> row size K d r = f r) -> forall i, (1 <= i <= 15)%nat -> same_motion h c d (p i)).
Proof using All.
  pose proof (ts_assembled D k q w) as HA. pose proof asm_fresh as C1. pose proof asm_usable as C3. pose proof asm_ids as IDS0. pose proof asm_size as SZ.
  assert (C2 : w_conn W q <> []) by (rewrite ts_conn; exact conns_some).
  assert (IDS : forall i, In i (as_panels S0) -> exists j, (1 <= j <= 15)%nat /\ i = p j) by (intro i; apply IDS0).
  assert (C4 : forall i, In i (as_panels S0) -> stiff_panel E h i /\ (sh_m (geometry h i) <= M)%nat /\ (sh_n (geometry h i) <= M)%nat).
  { intros i Hi. destruct (IDS i Hi) as (j & Hj & ->). exact (ts_plate j Hj). }
  assert (C5 : forall i, In i (as_panels S0) -> tied h (w_conn W q) i).
  { intros i Hi. destruct (IDS i Hi) as (j & Hj & ->). exact (ts_tied j Hj). }
  destruct (assembly_null E M q (Some q) W S0 HA C1 eq_refl C2 C3 C4 H30 HT) as (w' & s' & K & HK & HN).
  assert (PI : forall i, (1 <= i <= 15)%nat -> In (p i) (as_panels S0)) by (intros i Hi; apply IDS0; exists i; auto).
  exists w', s', K. split; [exact HK|]. cbv zeta. rewrite SZ. clear SZ. split.
  - intros c HQ i Hi. apply HN in HQ. destruct HQ as [Q1 Q2].
    pose proof (tied_rest E M q (Some q) W S0 HA C1 eq_refl C2 C3 C4 H30 HT c Q1 Q2 (p i) (C5 _ (PI i Hi)) (PI i Hi)) as T.
    intros xi eta Hx Hy. destruct (T xi eta Hx Hy) as (A1 & A2 & A3). cbv zeta in *. repeat split; lra.
  - intros c d f F1 F2 i Hi. exact (tied_unique E M q (Some q) W S0 HA C1 eq_refl C2 C3 C4 H30 HT K c d f HN C5 F1 F2 (p i) (PI i Hi)).
Qed.
Theorem ts_built : stiff_assembly E q (Some q) W S0 /\ all_tied q W S0.
Proof using All.
  assert (C2 : w_conn W q <> []) by (rewrite ts_conn; exact conns_some).
  split.
  - split; [exact (ts_assembled D k q w)|]. split; [exact asm_fresh|]. split; [reflexivity|]. split; [exact C2|]. split; [exact asm_usable|]. exists M. split; [|split; [exact H30|exact HT]].
    intros i Hi. apply asm_ids in Hi. destruct Hi as (j & Hj & ->). exact (ts_plate j Hj).
  - intros i Hi. apply asm_ids in Hi. destruct Hi as (j & Hj & ->). exact (ts_tied j Hj).
Qed.
End Asm.
