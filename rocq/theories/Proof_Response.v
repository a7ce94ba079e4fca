(* The response of a panel to loads: existence, reciprocity, least energy, comparison. *)
From Coq Require Import Reals List Arith Bool Lia Lra Permutation.
From Verif Require Import Proof_Rigid Base_Sum Model_Types Model_Coo Model_Result Model_Num Model_DB Model_Bardell Model_Shell Model_Field Model_Fext
  Spec_Algebra Spec_Kinematics Spec_Quadrature Spec_Panel Spec_Shell Spec_Bardell Spec_Integral Spec_Field Spec_Fext Spec_Modes Spec_Rigid Spec_Refine Spec_Pull Spec_Response
  Proof_Shell Proof_AnaApi Proof_Modes Proof_Pd Proof_MultiConn Proof_Ana Proof_FieldApi Proof_FieldEdge Proof_Fext Proof_Pull Proof_Refine Proof_Solve Proof_Indep Prop_Stiffness Prop_Rigid.
From Coq Require Import List.
Import ListNotations.
Open Scope R_scope.

(* ------------------------------------------------- vectors and displacements *)
Lemma disp_at E p o c U : displaces E p o c U -> same_disp (Uof vec_basis (kernel_view p) o (vec c)) U.
Proof.
  intros (q & sched & nc & HR & Hs & HU). destruct (rebuild_kept _ _ _ HR) as (HK & _). rewrite <- (kp_view _ _ _ HK). exact (uvw_slice _ _ _ _ _ _ _ Hs HU).
Qed.
Lemma vector_work E A p N K L inc f : load_vector E A p N K L inc f -> forall d, dot N (vec f) d = load_work E p L inc (Uof vec_basis (kernel_view p) (ka_col0 A) d).
Proof.
  intros (p1 & p2 & sz & H1 & H2 & HN) d. apply calc_fext_spec in H2. destruct H2 as (HR & _ & HD). destruct (rebuild_kept _ _ _ HR) as (HK2 & _).
  pose proof (calc_kC_kept _ _ _ _ _ H1) as HK. rewrite <- HN, HD, (kp_view _ _ _ HK2), (kp_view _ _ _ HK). reflexivity.
Qed.
Lemma load_work_ext E p L inc U V : same_disp U V -> load_work E p L inc U = load_work E p L inc V.
Proof. intro H. unfold load_work. rewrite (constant_work_ext _ _ _ _ _ H), (incremented_work_ext _ _ _ _ _ H). reflexivity. Qed.
Lemma shown_work E A p N K L inc f d V : load_vector E A p N K L inc f -> displaces E p (ka_col0 A) d V -> dot N (vec f) (vec d) = load_work E p L inc V.
Proof. intros H HV. rewrite (vector_work _ _ _ _ _ _ _ _ H). apply load_work_ext. exact (disp_at _ _ _ _ _ HV). Qed.
Lemma work_zero E p L inc : load_work E p L inc (fun _ _ _ => 0) = 0.
Proof.
  assert (W : forall x y f g h, work_at (fun _ _ _ => 0) x y f g h = 0) by (intros; unfold work_at; ring).
  assert (D : forall l t, density (fun _ _ _ => 0) l t = 0) by (intros l t; unfold density; destruct (dl_x l), (dl_y l); rewrite ?W; reflexivity).
  assert (Z : forall Q s l, line_work Q s (fun _ _ _ => 0) l = 0).
  { intros Q s l. unfold line_work, along_side. destruct (dl_x l); apply suml_0; intros t _; rewrite D; ring. }
  assert (P : forall l, suml l (point_work (fun _ _ _ => 0)) = 0) by (intro l; apply suml_0; intros t _; apply W).
  assert (Z' : forall Q s l, suml l (line_work Q s (fun _ _ _ => 0)) = 0) by (intros Q s l; apply suml_0; intros t _; apply Z).
  unfold load_work, constant_work, incremented_work. rewrite !P, !Z'. ring.
Qed.
(* the vector f of a solution and the displacement d *)
Lemma solved_dot N K c f d : symmetric K -> solves N K c f -> bilinear N K c d = dot N f d.
Proof. intros HS H. rewrite (bilinear_swap _ _ _ _ HS), bilinear_row. unfold dot. apply sumn_ext; intros i Hi. rewrite (H i Hi). ring. Qed.

Lemma respond E A p N K L inc c U d V : symmetric K -> response E A p N K L inc c U -> displaces E p (ka_col0 A) d V ->
  bilinear N K (vec c) (vec d) = load_work E p L inc V.
Proof. intros HS (f & HF & HC & _) HV. rewrite (solved_dot _ _ _ _ _ HS HC). exact (shown_work _ _ _ _ _ _ _ _ _ _ HF HV). Qed.
Lemma respond_shows E A p N K L inc c U : response E A p N K L inc c U -> displaces E p (ka_col0 A) c U.
Proof. intros (f & _ & _ & H). exact H. Qed.

(* ------------------------------------------------- existence *)
Lemma unmoved_vec s c : (sh_m s <= 30)%nat -> (sh_n s <= 30)%nat -> 
  (forall xi eta, -1 <= xi <= 1 -> -1 <= eta <= 1 -> d_u exact_basis s c xi eta = 0 /\ d_v exact_basis s c xi eta = 0 /\ d_w exact_basis s c xi eta = 0) ->
  forall Bs d p q x y, flagged Bs 30 -> (d < 3)%nat -> fld Bs s c d p q x y = 0.
Proof.
  intros Hm Hn H Bs d p q x y HB Hd. apply still_fld; try assumption. apply still_coefs; try assumption.
  intros xi eta Hx Hy. destruct (H xi eta Hx Hy) as (H0 & H1 & H2). destruct d as [|[|[|d]]]; [exact H0|exact H1|exact H2|lia].
Qed.
Lemma unmoved_work E A p N K L inc f d : load_vector E A p N K L inc f -> (sh_m (pn_sh p) <= 30)%nat -> (sh_n (pn_sh p) <= 30)%nat ->
  (forall xi eta, -1 <= xi <= 1 -> -1 <= eta <= 1 -> let s := kernel_view p in let c := own (ka_col0 A) d in
    d_u exact_basis s c xi eta = 0 /\ d_v exact_basis s c xi eta = 0 /\ d_w exact_basis s c xi eta = 0) -> dot N (vec f) d = 0.
Proof.
  intros HF Hm Hn H. rewrite (vector_work _ _ _ _ _ _ _ _ HF). rewrite <- (work_zero E p L inc). apply load_work_ext. intros k x y Hk.
  assert (Z : forall dd pp qq X Y, (dd < 3)%nat -> fld vec_basis (kernel_view p) (own (ka_col0 A) d) dd pp qq X Y = 0).
  { intros. apply unmoved_vec; try assumption. apply vec_flagged. }
  unfold Uof, uvw_at. change (slice_of (ka_col0 A) d) with (own (ka_col0 A) d).
  unfold d_u, d_v, d_w. destruct k as [|[|[|k]]]; [| | |lia]; apply Z; lia.
Qed.
Lemma vec_map c N i : (i < N)%nat -> vec (map c (seq 0 N)) i = c i.
Proof. intro H. unfold vec. apply nth_seq_map. exact H. Qed.
Lemma solves_list N K c f : solves N K c f -> solves N K (vec (map c (seq 0 N))) f.
Proof. intros H i Hi. rewrite <- (H i Hi). apply row_ext. intros k Hk. apply vec_map. exact Hk. Qed.
Lemma shown_ok E A p p1 K N c : calc_kC E A p = (p1, Ok K) -> (sh_m (pn_sh p) <= 30)%nat -> (sh_n (pn_sh p) <= 30)%nat -> length c = N ->
  (ka_col0 A + ndof (pn_sh p) <= N)%nat -> exists U, displaces E p (ka_col0 A) c U.
Proof.
  intros H Hm Hn Hl HN. apply calc_kC_inv in H. destruct H as (mdl & kC & kGc & [(q & HR & _) _ _ _ _ _ _ _]). destruct (rebuild_kept _ _ _ HR) as (HK & _). pose proof (kp_sh _ _ _ HK) as Hsh.
  pose proof HR as HB. apply rebuild_inv in HB. destruct HB as (_ & _ & HM & _).
  eexists. exists q, (fun l => l), 1%nat. split; [exact HR|]. split; [intro; apply Permutation_refl|].
  apply (uvw_is_ok _ _ _ _ _ _ (fun l => Permutation_refl l) HM); [discriminate| | |]; rewrite Hsh; try assumption.
  rewrite skipn_length. unfold ndof, DOF in HN. lia.
Qed.

Section Exists.
Variables (E : env) (A : kargs) (p : panel) (N : nat) (K : nat -> nat -> R).
Hypothesis HS : stiffness E A p N K.
Hypothesis HE : elastic E p.
Lemma stiff_sym : symmetric K.
Proof using HS. destruct HS as ((p' & R0) & _ & _ & _ & _ & A5 & _). exact (C17_kC_symmetric E _ _ _ _ R0 A5). Qed.
Lemma stiff_psd : psd N K.
Proof using HS HE.
  destruct HS as ((p' & R0) & A1 & A2 & A3 & A4 & A5 & A6 & A7 & A8). destruct HE as (E1 & E2 & E3 & E4 & E5).
  intro v. pose proof (kC_energy E A p p' K N R0 A1 A2 A3 A4 A5 A6 E1 E2 A7 E3 A8 v v) as HI. unfold quad.
  eapply panel_integral_ge0; [exact E5| |exact HI]. intros x y. apply E4.
Qed.
Lemma responds_exist L inc f : definite 6 (lam_matrix (pn_ortho p) (rebuilt_lam E p)) -> 0 < sh_a (pn_sh p) * sh_b (pn_sh p) ->
  (sh_m (pn_sh p) <= 30)%nat -> (sh_n (pn_sh p) <= 30)%nat -> anchored (curvature (chosen_model p) (kernel_view p)) (kernel_view p) ->
  load_vector E A p N K L inc f -> exists c U, length c = N /\ response E A p N K L inc c U.
Proof using HS HE.
  intros HD Hab Hm Hn HA HF.
  destruct (psd_solves N K (vec f) stiff_sym stiff_psd) as [c Hc].
  { intros d HQ. apply (unmoved_work _ _ _ _ _ _ _ _ _ HF Hm Hn). intros xi eta Hx Hy.
    destruct (C95_nothing_else E A p K N HS HE HD Hab Hm Hn d HQ) as (u0 & v0 & w0 & th & al & be & HR).
    destruct HE as (_ & (G1 & G2 & _) & _).
    destruct (anchored_still _ (kernel_view p) _ u0 v0 w0 th al be Hm Hn G1 G2 HA HR) as (-> & -> & -> & -> & -> & ->).
    destruct (HR xi eta Hx Hy) as (R1 & R2 & R3). cbv zeta. rewrite R1, R2, R3. unfold Spec_Rigid.motion. clear. repeat split; unfold Rdiv; ring. }
  destruct HS as ((p1 & R0) & _ & _ & _ & _ & _ & _ & A7 & _).
  assert (Hl : length (map c (seq 0 N)) = N) by (rewrite map_length, seq_length; reflexivity).
  destruct (shown_ok E A p p1 K N (map c (seq 0 N)) R0 Hm Hn Hl A7) as (U & HU). exists (map c (seq 0 N)), U. split; [exact Hl|].
  exists f. split; [exact HF|]. split; [apply solves_list; exact Hc|exact HU].
Qed.
Lemma responds_once L inc c U c' U' : definite 6 (lam_matrix (pn_ortho p) (rebuilt_lam E p)) -> 0 < sh_a (pn_sh p) * sh_b (pn_sh p) ->
  (sh_m (pn_sh p) <= 30)%nat -> (sh_n (pn_sh p) <= 30)%nat -> anchored (curvature (chosen_model p) (kernel_view p)) (kernel_view p) ->
  response E A p N K L inc c U -> response E A p N K L inc c' U' -> same_disp U U'.
Proof using HS HE.
  intros HD Hab Hm Hn HA HR HR'. pose proof (disp_at _ _ _ _ _ (respond_shows _ _ _ _ _ _ _ _ _ HR)) as D. pose proof (disp_at _ _ _ _ _ (respond_shows _ _ _ _ _ _ _ _ _ HR')) as D'.
  destruct HR as (f & HF & HC & _). destruct HR' as (f' & HF' & HC' & _).
  assert (HQ : quad N K (fun i => vec c i - vec c' i) = 0).
  { assert (B : forall d, bilinear N K (vec c) d = bilinear N K (vec c') d).
    { intro d. rewrite (solved_dot _ _ _ _ _ stiff_sym HC), (solved_dot _ _ _ _ _ stiff_sym HC'), (vector_work _ _ _ _ _ _ _ _ HF), (vector_work _ _ _ _ _ _ _ _ HF'). reflexivity. }
    rewrite (quad_diff _ _ _ _ stiff_sym). unfold quad. pose proof (B (vec c)) as B1. pose proof (B (vec c')) as B2. rewrite (bilinear_swap _ _ (vec c') (vec c) stiff_sym) in *. lra. }
  destruct (C95_nothing_else E A p K N HS HE HD Hab Hm Hn _ HQ) as (u0 & v0 & w0 & th & al & be & HM).
  destruct HE as (_ & (G1 & G2 & _) & _).
  destruct (anchored_still _ (kernel_view p) _ u0 v0 w0 th al be Hm Hn G1 G2 HA HM) as (-> & -> & -> & -> & -> & ->).
  intros k x y Hk. rewrite <- (D k x y Hk), <- (D' k x y Hk).
  assert (Z : forall dd pp qq X Y, (dd < 3)%nat -> fld vec_basis (kernel_view p) (own (ka_col0 A) (fun i => vec c i - vec c' i)) dd pp qq X Y = 0).
  { intros. apply unmoved_vec; try assumption; [|apply vec_flagged]. intros xi eta Hx Hy. destruct (HM xi eta Hx Hy) as (R1 & R2 & R3). rewrite R1, R2, R3. unfold Spec_Rigid.motion. clear. repeat split; unfold Rdiv; ring. }
  assert (Z' : forall dd pp qq X Y, (dd < 3)%nat -> fld vec_basis (kernel_view p) (own (ka_col0 A) (vec c)) dd pp qq X Y = fld vec_basis (kernel_view p) (own (ka_col0 A) (vec c')) dd pp qq X Y).
  { intros dd pp qq X Y Hdd. apply Rminus_diag_uniq. rewrite <- (Z dd pp qq X Y Hdd). unfold fld, ritz. rewrite <- sumn_minus. apply sumn_ext; intros. rewrite <- sumn_minus. apply sumn_ext; intros. unfold own. ring. }
  unfold Uof, uvw_at. change (slice_of (ka_col0 A) (vec c)) with (own (ka_col0 A) (vec c)). change (slice_of (ka_col0 A) (vec c')) with (own (ka_col0 A) (vec c')).
  unfold d_u, d_v, d_w. destruct k as [|[|[|k]]]; [| | |lia]; apply Z'; lia.
Qed.
Lemma least L inc c U d V : response E A p N K L inc c U -> displaces E p (ka_col0 A) d V ->
  quad N K (vec c) - 2 * load_work E p L inc U <= quad N K (vec d) - 2 * load_work E p L inc V.
Proof using HS HE.
  intros HR HV. rewrite <- (respond _ _ _ _ _ _ _ _ _ _ _ stiff_sym HR HV), <- (respond _ _ _ _ _ _ _ _ _ _ _ stiff_sym HR (respond_shows _ _ _ _ _ _ _ _ _ HR)).
  pose proof (stiff_psd (fun i => vec d i - vec c i)) as HP. rewrite (quad_diff _ _ _ _ stiff_sym) in HP. unfold quad in *. lra.
Qed.
Lemma own_work L inc c U : response E A p N K L inc c U -> load_work E p L inc U = quad N K (vec c).
Proof using HS. intros HR. symmetry. exact (respond _ _ _ _ _ _ _ _ _ _ _ stiff_sym HR (respond_shows _ _ _ _ _ _ _ _ _ HR)). Qed.
(* for any vector d, shown or not *)
Lemma least_any L inc c U d : response E A p N K L inc c U ->
  - load_work E p L inc U <= quad N K d - 2 * load_work E p L inc (Uof vec_basis (kernel_view p) (ka_col0 A) d).
Proof using HS HE.
  intros HR. rewrite (own_work _ _ _ _ HR). destruct HR as (f & HF & HC & _). rewrite <- (vector_work _ _ _ _ _ _ _ _ HF), <- (solved_dot _ _ _ _ _ stiff_sym HC).
  pose proof (stiff_psd (fun i => d i - vec c i)) as HP. rewrite (quad_diff _ _ _ _ stiff_sym) in HP. unfold quad in *. lra.
Qed.
End Exists.

(* ------------------------------------------------- more terms, fewer supports, another laminate *)
Lemma keep_any Bs e e' p i x : flagged Bs 30 -> (i < 30)%nat -> more_held e e' -> keep e e' i * shape Bs p i x e' = shape Bs p i x e.
Proof. intros HB Hi H. rewrite (HB p i x e Hi), (HB p i x e' Hi), <- (keep_flag e e' i H). ring. Qed.
Lemma embed_any Bs s s' c d p q x y : flagged Bs 30 -> freer s s' -> (sh_m s' <= 30)%nat -> (sh_n s' <= 30)%nat -> (d < 3)%nat ->
  fld Bs s' (embed s s' c) d p q x y = fld Bs s c d p q x y.
Proof.
  intros HB HF Hm30 Hn30 Hd. pose proof HF as HF'. destruct HF as (_ & _ & _ & Hm & Hn & HE). destruct (HE d Hd) as [HX HY]. unfold fld, ritz.
  rewrite (sumn_shrink (sh_n s) (sh_n s')); [|exact Hn|].
  2:{ intros j Hj Hj'. apply sumn_0; intros i Hi. rewrite embed_at by assumption. replace (j <? sh_n s)%nat with false by (symmetry; apply Nat.ltb_ge; lia). rewrite andb_false_r. ring. }
  apply sumn_ext; intros j Hj.
  rewrite (sumn_shrink (sh_m s) (sh_m s')); [|exact Hm|].
  2:{ intros i Hi Hi'. rewrite embed_at by assumption. replace (i <? sh_m s)%nat with false by (symmetry; apply Nat.ltb_ge; lia). cbn [andb]. ring. }
  apply sumn_ext; intros i Hi. rewrite embed_at by (assumption || lia).
  replace (i <? sh_m s)%nat with true by (symmetry; apply Nat.ltb_lt; exact Hi). replace (j <? sh_n s)%nat with true by (symmetry; apply Nat.ltb_lt; exact Hj). cbn [andb].
  rewrite <- (keep_any Bs _ _ p i x HB ltac:(lia) HX), <- (keep_any Bs _ _ q j y HB ltac:(lia) HY). ring.
Qed.
Lemma points_work E p q L inc U V : at_points L -> same_disp U V -> load_work E p L inc U = load_work E q L inc V.
Proof.
  intros (H1 & H2 & H3 & H4) HU. rewrite (load_work_ext E p L inc U V HU). unfold load_work, constant_work, incremented_work. rewrite H1, H2, H3, H4. reflexivity.
Qed.

Lemma strain_cext kp B t c d : (forall k, c k = d k) -> forall x y k, lin_strain kp B t c x y k = lin_strain kp B t d x y k.
Proof.
  intros H x y k. unfold lin_strain, d_ux, d_uy, d_vx, d_vy, d_w, d_wxx, d_wyy, d_wxy. destruct k as [|[|[|[|[|[|k]]]]]]; rewrite ?(fields_ext B t c d H); reflexivity.
Qed.

Section Compare.
Variables (E : env) (A B : kargs) (p q : panel) (N N' : nat) (K K' : nat -> nat -> R).
Hypothesis HK : stiffness E A p N K.
Hypothesis HK' : stiffness E B q N' K'.
Hypothesis HE : elastic E p.
Hypothesis HE' : elastic E q.
Hypothesis Hmod : chosen_model q = chosen_model p.
Notation s := (kernel_view p). Notation s' := (kernel_view q).
Notation o := (ka_col0 A). Notation o' := (ka_col0 B).
Lemma energy_p c d : panel_integral s (fun xi eta => form 6 (lam_matrix (pn_ortho p) (rebuilt_lam E p)) (lin_strain (curvature (chosen_model p) s) exact_basis s (own o c) xi eta) (lin_strain (curvature (chosen_model p) s) exact_basis s (own o d) xi eta)) (bilinear N K c d).
Proof using HK HE.
  destruct HK as ((p' & R0) & A1 & A2 & A3 & A4 & A5 & A6 & A7 & A8). destruct HE as (E1 & E2 & E3 & E4 & E5).
  exact (kC_energy E A p p' K N R0 A1 A2 A3 A4 A5 A6 E1 E2 A7 E3 A8 c d).
Qed.
Lemma energy_q c d : panel_integral s' (fun xi eta => form 6 (lam_matrix (pn_ortho q) (rebuilt_lam E q)) (lin_strain (curvature (chosen_model q) s') exact_basis s' (own o' c) xi eta) (lin_strain (curvature (chosen_model q) s') exact_basis s' (own o' d) xi eta)) (bilinear N' K' c d).
Proof using HK' HE'.
  destruct HK' as ((p' & R0) & A1 & A2 & A3 & A4 & A5 & A6 & A7 & A8). destruct HE' as (E1 & E2 & E3 & E4 & E5).
  exact (kC_energy E B q p' K' N' R0 A1 A2 A3 A4 A5 A6 E1 E2 A7 E3 A8 c d).
Qed.
Lemma freer_compliance (HF : freer s s') (HL : same_laminate E p q) L inc c U c' U' : (sh_m (pn_sh q) <= 30)%nat -> (sh_n (pn_sh q) <= 30)%nat -> at_points L ->
  response E A p N K L inc c U -> response E B q N' K' L inc c' U' -> load_work E p L inc U <= load_work E q L inc U'.
Proof using All.
  intros Hm Hn HP HR HR'. set (e := place o' (embed s s' (own o (vec c)))).
  assert (HX : forall Bs d p0 q0 x y, flagged Bs 30 -> (d < 3)%nat -> fld Bs s' (own o' e) d p0 q0 x y = fld Bs s (own o (vec c)) d p0 q0 x y).
  { intros Bs d p0 q0 x y HB Hd. unfold e. rewrite (fields_ext Bs s' _ _ (own_place o' _)). apply embed_any; assumption. }
  pose proof HF as (Ea & Eb & Er & _).
  assert (Ec : curvature (chosen_model q) s' = curvature (chosen_model p) s) by (rewrite Hmod; unfold curvature; rewrite Er; reflexivity).
  assert (HQ : quad N' K' e = quad N K (vec c)).
  { refine (integral_unique s s' _ _ _ _ Ea Eb _ (energy_p (vec c) (vec c)) (energy_q e e)). intros x y. cbv beta. rewrite Ec.
    unfold form. apply sumn_ext; intros i Hi. apply sumn_ext; intros j Hj. rewrite (HL i j Hi Hj).
    assert (HS : forall k, lin_strain (curvature (chosen_model p) s) exact_basis s' (own o' e) x y k = lin_strain (curvature (chosen_model p) s) exact_basis s (own o (vec c)) x y k).
    { intro k. unfold lin_strain, d_ux, d_uy, d_vx, d_vy, d_w, d_wxx, d_wyy, d_wxy. destruct k as [|[|[|[|[|[|k]]]]]]; rewrite ?(HX exact_basis), ?Ea, ?Eb by (exact exact_flagged || lia); reflexivity. }
    rewrite !HS. reflexivity. }
  assert (HW : load_work E q L inc (Uof vec_basis s' o' e) = load_work E p L inc U).
  { apply points_work; [exact HP|]. intros k x y Hk. rewrite <- (disp_at _ _ _ _ _ (respond_shows _ _ _ _ _ _ _ _ _ HR) k x y Hk).
    unfold Uof, uvw_at. change (slice_of o' e) with (own o' e). change (slice_of o (vec c)) with (own o (vec c)). cbn [Nat.add]. rewrite Ea, Eb.
    unfold d_u, d_v, d_w. destruct k as [|[|[|k]]]; [| | |lia]; apply HX; exact vec_flagged || lia. }
  pose proof (least_any E B q N' K' HK' HE' L inc c' U' e HR') as HM. rewrite HQ, HW in HM. rewrite <- (own_work E A p N K HK L inc c U HR) in HM. lra.
Qed.
Lemma stiffer_compliance (HV : s' = s) (HL : stiffer_laminate E p q) L inc c U c' U' :
  response E A p N K L inc c U -> response E B q N' K' L inc c' U' -> load_work E q L inc U' <= load_work E p L inc U.
Proof using All.
  intros HR HR'. set (e := place o (own o' (vec c'))).
  assert (HX : forall k, own o e k = own o' (vec c') k) by (intro; apply own_place).
  assert (Ec : curvature (chosen_model q) s' = curvature (chosen_model p) s) by (rewrite Hmod, HV; reflexivity).
  assert (HQ : quad N K e <= quad N' K' (vec c')).
  { destruct HE as (_ & _ & _ & _ & Hab).
    refine (integral_le s s' _ _ _ _ ltac:(rewrite HV; reflexivity) ltac:(rewrite HV; reflexivity) Hab _ (energy_p e e) (energy_q (vec c') (vec c'))). intros x y. cbv beta. rewrite Ec.
    assert (HS : forall k, lin_strain (curvature (chosen_model p) s) exact_basis s' (own o' (vec c')) x y k = lin_strain (curvature (chosen_model p) s) exact_basis s (own o e) x y k).
    { intro k. rewrite HV. apply strain_cext. intro; symmetry; apply HX. }
    pose proof (HL (lin_strain (curvature (chosen_model p) s) exact_basis s (own o e) x y)) as HP.
    unfold form in *. set (z := lin_strain (curvature (chosen_model p) s) exact_basis s (own o e) x y) in *.
    apply Rminus_le. apply Ropp_le_cancel. rewrite Ropp_0. eapply Rle_trans; [exact HP|]. right. rewrite Ropp_minus_distr. rewrite <- sumn_minus.
    apply sumn_ext; intros i Hi. rewrite <- sumn_minus. apply sumn_ext; intros j Hj. rewrite !HS. fold z. ring. }
  assert (HW : load_work E p L inc (Uof vec_basis s o e) = load_work E q L inc U').
  { transitivity (load_work E p L inc U').
    - apply load_work_ext. intros k x y Hk. rewrite <- (disp_at _ _ _ _ _ (respond_shows _ _ _ _ _ _ _ _ _ HR') k x y Hk). rewrite HV. apply uvw_at_cext. exact HX.
    - unfold load_work. change (constant_work (e_rule E) (pn_sh p)) with (constant_work (e_rule E) s). change (incremented_work (e_rule E) (pn_sh p)) with (incremented_work (e_rule E) s).
      change (constant_work (e_rule E) (pn_sh q)) with (constant_work (e_rule E) s'). change (incremented_work (e_rule E) (pn_sh q)) with (incremented_work (e_rule E) s'). rewrite HV. reflexivity. }
  pose proof (least_any E A p N K HK HE L inc c U e HR) as HM. rewrite HW in HM. rewrite (own_work E B q N' K' HK' L inc c' U' HR') in *. lra.
Qed.
End Compare.
