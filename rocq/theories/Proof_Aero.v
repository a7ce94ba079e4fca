(* The aerodynamic matrix: integration by parts, entries and work. *)
From Coq Require Import Reals List Arith Bool Lia Lra.
From Coquelicot Require Import Coquelicot.
From Verif Require Import Base_Sum Model_Types Model_Coo Model_Result Model_PlateNumKer Model_CylNumKer
  Model_Num Model_DB Model_Shell Spec_Algebra Spec_Kinematics Spec_Quadrature Spec_Panel Spec_Shell Spec_Bardell
  Spec_Integral Spec_Aero
  Proof_Coo Proof_Num Proof_Energy Proof_Total Proof_Shell Proof_Api Proof_AnaKer Proof_Ana Proof_Ana2 Proof_Ana3
  Proof_Poly Proof_Bardell Proof_FieldEdge.
Import ListNotations.
Open Scope R_scope.

(* row 0: slope along the flow, row 1: deflection *)
Definition opA (fx : bool) (s : shell) : sop := fun k d =>
  match d with
  | 2%nat => match k with
             | 0%nat => if fx then (2 / sh_a s, (1%nat, 0%nat)) else (2 / sh_b s, (0%nat, 1%nat))
             | 1%nat => (1, (0%nat, 0%nat)) | _ => (0, (0%nat, 0%nat)) end
  | _ => (0, (0%nat, 0%nat))
  end.
Definition Mneg (be ga : R) (a b : nat) : R :=
  match a, b with 0%nat, 1%nat => - be | 1%nat, 1%nat => ga | _, _ => 0 end.
Definition Mpos (be ga : R) (a b : nat) : R :=
  match a, b with 1%nat, 0%nat => be | 1%nat, 1%nat => ga | _, _ => 0 end.

Lemma bardell_continuous i x : (i < 30)%nat -> continuous (bardell i) x.
Proof. intro Hi. apply (ex_derive_continuous (V := R_NormedModule) (bardell i)). exists (qeval (bz1 i) x). apply bardell_derive. exact Hi. Qed.
Lemma bz1_continuous i x : continuous (qeval (bz1 i)) x.
Proof. destruct (bz1 i) as [D l]. apply (ex_derive_continuous (V := R_NormedModule) (qeval (D, l))). eexists. apply qeval_derive. Qed.

(* integration by parts for functions that vanish at both ends *)
Lemma by_parts e i k u v : (i < 30)%nat -> (k < 30)%nat -> held e ->
  is_RInt (fun x => bfp exact_basis i x e * bf exact_basis k x e) (-1) 1 u ->
  is_RInt (fun x => bf exact_basis i x e * bfp exact_basis k x e) (-1) 1 v -> u = - v.
Proof.
  intros Hi Hk [H1 H2] Hu Hv.
  pose proof (is_RInt_plus _ _ _ _ _ _ Hu Hv) as Hs.
  assert (Hd : is_RInt (fun x => flag e i * flag e k * (qeval (bz1 i) x * bardell k x + bardell i x * qeval (bz1 k) x)) (-1) 1
     (minus (flag e i * flag e k * (bardell i 1 * bardell k 1)) (flag e i * flag e k * (bardell i (-1) * bardell k (-1))))).
  { apply (is_RInt_derive (fun x => flag e i * flag e k * (bardell i x * bardell k x))).
    - intros x _. apply (is_derive_scal (fun x => bardell i x * bardell k x)).
      eapply is_derive_ext; [intro; reflexivity|].
      pose proof (is_derive_mult (bardell i) (bardell k) x _ _ (bardell_derive i x Hi) (bardell_derive k x Hk) Rmult_comm) as D.
      exact D.
    - intros x _. apply (continuous_mult (fun _ => flag e i * flag e k)); [apply continuous_const|].
      apply (continuous_plus (V := R_NormedModule)).
      + apply (continuous_mult (K := R_AbsRing)); [apply bz1_continuous|apply bardell_continuous; exact Hk].
      + apply (continuous_mult (K := R_AbsRing)); [apply bardell_continuous; exact Hi|apply bz1_continuous]. }
  assert (E : plus u v = minus (flag e i * flag e k * (bardell i 1 * bardell k 1)) (flag e i * flag e k * (bardell i (-1) * bardell k (-1)))).
  { rewrite <- (@is_RInt_unique R_CompleteNormedModule _ _ _ _ Hs), <- (@is_RInt_unique R_CompleteNormedModule _ _ _ _ Hd).
    apply RInt_ext. intros x _. cbn [exact_basis bf bfp]. rewrite !Derive_bardell by assumption.
    unfold plus; cbn. ring. }
  unfold minus, plus, opp in E; cbn in E.
  destruct (exact_end e i Hi) as (A1 & A2 & _). destruct (exact_end e k Hk) as (B1 & B2 & _).
  replace (flag e i * flag e k * (bardell i 1 * bardell k 1)) with ((flag e i * bardell i 1) * (flag e k * bardell k 1)) in E by ring.
  replace (flag e i * flag e k * (bardell i (-1) * bardell k (-1))) with ((flag e i * bardell i (-1)) * (flag e k * bardell k (-1))) in E by ring.
  rewrite A1, A2, B1, B2 in E. unfold end_val in E.
  assert (Z1 : flag e 0 = 0) by exact H1. assert (Z2 : flag e 2 = 0) by exact H2. rewrite Z1, Z2 in E.
  destruct (i =? 2)%nat, (k =? 2)%nat, (i =? 0)%nat, (k =? 0)%nat; lra.
Qed.

Section Aero.
Variables (Q : rule) (s : shell) (nx ny : nat) (fx : bool) (be ga : R).
Notation Bs := exact_basis.
Notation tx := (rule_1d Q nx Bs).
Notation ty := (rule_1d Q ny Bs).
Notation J := (sh_a s * sh_b s / 4).
Notation m := (sh_m s).
Notation n := (sh_n s).

Hypotheses (Hm : (m <= 30)%nat) (Hn : (n <= 30)%nat) (He : held_along_flow s fx).
Hypotheses (HQx : rule_integrates Q nx Bs m) (HQy : rule_integrates Q ny Bs n).

Lemma parts_x i k : fx = true -> (i < m)%nat -> (k < m)%nat -> tx 1%nat 0%nat i k (sh_xw s) (sh_xw s) = - tx 0%nat 1%nat i k (sh_xw s) (sh_xw s).
Proof using Hm Hn He HQx HQy.
  intros -> Hi Hk. apply (by_parts (sh_xw s) i k); try lia; [exact He|apply (HQx 1%nat 0%nat)|apply (HQx 0%nat 1%nat)]; assumption.
Qed.
Lemma parts_y j l : fx = false -> (j < n)%nat -> (l < n)%nat -> ty 1%nat 0%nat j l (sh_yw s) (sh_yw s) = - ty 0%nat 1%nat j l (sh_yw s) (sh_yw s).
Proof using Hm Hn He HQx HQy.
  intros -> Hi Hk. apply (by_parts (sh_yw s) j l); try lia; [exact He|apply (HQy 1%nat 0%nat)|apply (HQy 0%nat 1%nat)]; assumption.
Qed.

Lemma V_parts i k j l d e : (i < m)%nat -> (k < m)%nat -> (j < n)%nat -> (l < n)%nat -> (d < DOF)%nat -> (e < DOF)%nat ->
  V_gen tx ty s J 2 (Mneg be ga) (opA fx s) i k j l d e = V_gen tx ty s J 2 (Mpos be ga) (opA fx s) i k j l d e.
Proof using Hm Hn He HQx HQy.
  intros Hi Hk Hj Hl Hd Hd'. unfold V_gen. f_equal.
  destruct (lt3 d Hd) as [->|[->| ->]]; destruct (lt3 e Hd') as [->|[->| ->]]; cbn [sumn opA Mneg Mpos]; try (clear He; destruct fx; ring).
  assert (PX := parts_x i k). assert (PY := parts_y j l). clear He. destruct fx; cbn [xedge yedge].
  - rewrite (PX eq_refl Hi Hk). ring.
  - rewrite (PY eq_refl Hj Hl). ring.
Qed.
Lemma V_skew i k j l d e : ga = 0 -> (i < m)%nat -> (k < m)%nat -> (j < n)%nat -> (l < n)%nat -> (d < DOF)%nat -> (e < DOF)%nat ->
  V_gen tx ty s J 2 (Mpos be ga) (opA fx s) i k j l d e = - V_gen tx ty s J 2 (Mpos be ga) (opA fx s) k i l j e d.
Proof using Hm Hn He HQx HQy.
  intros Hga Hi Hk Hj Hl Hd Hd'. rewrite <- (V_parts k i l j e d) by assumption. subst ga. unfold V_gen.
  destruct (lt3 d Hd) as [->|[->| ->]]; destruct (lt3 e Hd') as [->|[->| ->]]; cbn [sumn opA Mneg Mpos]; try (clear He; destruct fx; ring).
  pose proof (rule_1d_sym Q nx Bs m) as Sx. pose proof (rule_1d_sym Q ny Bs n) as Sy.
  clear He. destruct fx; cbn [xedge yedge].
  - rewrite (Sx 1%nat 0%nat k i), (Sy 0%nat 0%nat l j) by assumption. ring.
  - rewrite (Sx 0%nat 0%nat k i), (Sy 1%nat 0%nat l j) by assumption. ring.
Qed.
End Aero.

(* ------------------------------------------------- the matrices *)
Lemma block_form_ext' o m n V V' K :
  (forall i k j l d e, (i < m)%nat -> (k < m)%nat -> (j < n)%nat -> (l < n)%nat -> (d < DOF)%nat -> (e < DOF)%nat -> V i k j l d e = V' i k j l d e) ->
  block_form o m n V K -> block_form o m n V' K.
Proof.
  intros HV HK r t. rewrite (HK r t). destruct (inblk o m n r && inblk o m n t)%bool eqn:E; [|reflexivity].
  apply andb_true_iff in E. destruct E as [Er Et].
  destruct (inblk_bounds _ _ _ _ Er) as (A & B & Hc & _). destruct (inblk_bounds _ _ _ _ Et) as (A' & B' & Hc' & _).
  destruct (skipped _ _ _ _ _ _ _ _ _); [reflexivity|]. apply HV; assumption.
Qed.

Lemma block_upper o m n V K : block_form o m n V K -> forall r s, (r <= s)%nat -> K r s = fullmat o m n V r s.
Proof.
  intros HK r s Hrs. rewrite (HK r s). unfold fullmat.
  destruct (inblk o m n r && inblk o m n s)%bool eqn:E; [|reflexivity].
  apply andb_true_iff in E. destruct E as [Er Es].
  destruct (inblk_bounds _ _ _ _ Er) as (Hi & Hj & Hc & Hr).
  destruct (inblk_bounds _ _ _ _ Es) as (Hi' & Hj' & Hc' & Hs).
  unfold skipped. cbn [andb].
  destruct (Nat.ltb_spec (dofpos o m (ix o m s) (jx o m s)) (dofpos o m (ix o m r) (jx o m r))) as [Hlt|]; [|reflexivity].
  exfalso. unfold dofpos, DOF in *. nia.
Qed.

Lemma skew_full o m n V K : block_form o m n V K ->
  (forall i k j l d e, (i < m)%nat -> (k < m)%nat -> (j < n)%nat -> (l < n)%nat -> (d < DOF)%nat -> (e < DOF)%nat -> V i k j l d e = - V k i l j e d) ->
  forall r s, make_skew K r s = fullmat o m n V r s.
Proof.
  intros HK HV r s. unfold make_skew. destruct (Nat.leb_spec r s) as [H|H].
  - apply (block_upper o m n V K HK r s H).
  - rewrite (block_upper o m n V K HK s r) by lia. unfold fullmat. rewrite (andb_comm (inblk o m n s)).
    destruct (inblk o m n r && inblk o m n s)%bool eqn:E; [|ring].
    apply andb_true_iff in E. destruct E as [Er Es].
    destruct (inblk_bounds _ _ _ _ Er) as (Hi & Hj & Hc & Hr).
    destruct (inblk_bounds _ _ _ _ Es) as (Hi' & Hj' & Hc' & Hs).
    rewrite (HV (ix o m r)) by assumption. reflexivity.
Qed.

Lemma fkAx_rule mdl Q Bs s o nx ny : sh_a s <> 0 /\ sh_b s <> 0 -> whole_panel Q s nx ny ->
  block_form o (sh_m s) (sh_n s) (V_gen (rule_1d Q nx Bs) (rule_1d Q ny Bs) s (sh_a s * sh_b s / 4) 2 (Mneg (sh_beta s) (sh_gamma s)) (opA true s))
    (dense (fkAx_num mdl Q Bs s o o nx ny)).
Proof.
  intros (Ha & Hb) (Hx & Hy & Lx & Ly).
  eapply block_form_ext with (V := gramV (points Q s nx ny) pt_W 2 (fun _ => Mneg (sh_beta s) (sh_gamma s)) (fun p => S_of (opA true s) Bs s (p_xi p) (p_eta p))).
  { intros i k j l d e Hd He. apply gram_rule; auto. }
  destruct mdl; cbn [fkAx_num]; unfold plate_fkAx_num, cyl_fkAx_num, block_form; apply gram_dense_ikjl;
    try apply uniform_plate_kAx; try apply uniform_cyl_kAx;
    intros p i k j l d e _ Hd He;
    (destruct (lt3 d Hd) as [->|[->| ->]]; destruct (lt3 e He) as [->|[->| ->]];
      unfold plate_fkAx_num_ker, cyl_fkAx_num_ker, loc, S_of, pt_W; cbv zeta; cbn [suml Nat.eqb andb]; cbn [sumn opA Mneg shape xedge yedge]; field; auto).
Qed.
Lemma fkAy_rule mdl Q Bs s o nx ny : sh_a s <> 0 /\ sh_b s <> 0 -> whole_panel Q s nx ny ->
  block_form o (sh_m s) (sh_n s) (V_gen (rule_1d Q nx Bs) (rule_1d Q ny Bs) s (sh_a s * sh_b s / 4) 2 (Mneg (sh_beta s) 0) (opA false s))
    (dense (fkAy_num mdl Q Bs s o o nx ny)).
Proof.
  intros (Ha & Hb) (Hx & Hy & Lx & Ly).
  eapply block_form_ext with (V := gramV (points Q s nx ny) pt_W 2 (fun _ => Mneg (sh_beta s) 0) (fun p => S_of (opA false s) Bs s (p_xi p) (p_eta p))).
  { intros i k j l d e Hd He. apply gram_rule; auto. }
  assert (G : forall r t, dense (plate_fkAy_num Q Bs s o o nx ny) r t =
     if (inblk o (sh_m s) (sh_n s) r && inblk o (sh_m s) (sh_n s) t)%bool then
     if skipped true o o (sh_m s) (sh_m s) (ix o (sh_m s) r) (ix o (sh_m s) t) (jx o (sh_m s) r) (jx o (sh_m s) t) then 0
     else gramV (points Q s nx ny) pt_W 2 (fun _ => Mneg (sh_beta s) 0) (fun p => S_of (opA false s) Bs s (p_xi p) (p_eta p))
       (ix o (sh_m s) r) (ix o (sh_m s) t) (jx o (sh_m s) r) (jx o (sh_m s) t) (cx o r) (cx o t) else 0).
  { unfold plate_fkAy_num. apply gram_dense_ikjl; try apply uniform_plate_kAy.
    intros p i k j l d e _ Hd He;
    (destruct (lt3 d Hd) as [->|[->| ->]]; destruct (lt3 e He) as [->|[->| ->]];
      unfold plate_fkAy_num_ker, loc, S_of, pt_W; cbv zeta; cbn [suml Nat.eqb andb]; cbn [sumn opA Mneg shape xedge yedge]; field; auto). }
  destruct mdl; exact G.
Qed.

Lemma cfield_opA fx Bs s o v xi eta k : (k < 2)%nat ->
  cfield o (sh_m s) (sh_n s) v (S_of (opA fx s) Bs s xi eta k) =
  match k with 0%nat => if fx then d_wx Bs s (own o v) xi eta else d_wy Bs s (own o v) xi eta | _ => d_w Bs s (own o v) xi eta end.
Proof.
  intro Hk. destruct k as [|[|k]]; [|  |lia].
  - destruct fx.
    + rewrite <- (cfield_opG Bs s o v xi eta 0) by lia. apply cfield_ext. intros i j d _ _ Hd. unfold S_of.
      destruct (lt3 d Hd) as [->|[->| ->]]; reflexivity.
    + rewrite <- (cfield_opG Bs s o v xi eta 1) by lia. apply cfield_ext. intros i j d _ _ Hd. unfold S_of.
      destruct (lt3 d Hd) as [->|[->| ->]]; reflexivity.
  - unfold d_w, fld. unfold cfield, dofsum, ritz. apply sumn_ext; intros j _. apply sumn_ext; intros i _.
    cbn [sumn DOF]. unfold S_of. cbn [opA shape xedge yedge]. unfold own, dofpos, DOF.
    replace (o + 3 * (j * sh_m s + i) + 2)%nat with (o + (3 * (j * sh_m s + i) + 2))%nat by lia. ring.
Qed.

Lemma form_Mpos be ga u v : form 2 (Mpos be ga) u v = u 1%nat * (be * v 0%nat + ga * v 1%nat).
Proof. unfold form. cbn [sumn Mpos]. ring. Qed.

(* ------------------------------------------------- calc_kA *)
Record same_flow (p q : panel) : Prop := {
  sf_sh : pn_sh q = pn_sh p; sf_r : pn_r q = pn_r p; sf_model : pn_model q = pn_model p;
  sf_nx : pn_nx q = pn_nx p; sf_ny : pn_ny q = pn_ny p; sf_flow : pn_flow_x q = pn_flow_x p }.

Definition used_mach (M : R) : R := if Req_EM_T M 1 then 10001 / 10000 else M.

Lemma aero_inv p q be ga : aero_coeffs p = (q, Ok (be, ga)) ->
  same_flow p q /\
  ((pn_beta p = Some be /\ ga = match pn_gamma p with Some g => g | None => 0 end) \/
   (pn_beta p = None /\ exists M rho V, pn_Mach p = Some M /\ 1 <= M /\ pn_rho_air p = Some rho /\ pn_V p = Some V /\
      be = piston_beta rho V (used_mach M) /\ ga = piston_gamma rho V (used_mach M) (match pn_r p with Some r => r | None => 0 end))).
Proof.
  intro H. unfold aero_coeffs, mbind, mget, mret, mraise, mmod in H.
  destruct (pn_beta p) as [b|] eqn:EB.
  - apply pair_equal_spec in H. destruct H as [<- H]. apply Ok_inj in H. apply pair_equal_spec in H. destruct H as [<- <-].
    split; [constructor; reflexivity|]. left. split; [reflexivity|]. destruct (pn_gamma p); reflexivity.
  - destruct (pn_Mach p) as [M|] eqn:EM; [|discriminate]. destruct (Rlt_dec M 1) as [HM|HM]; [discriminate|].
    assert (EQ : forall rho V M' r, 1 < M' -> rho * (V * V) / sqrt (M' * M' - 1) = piston_beta rho V M' /\
       (if Req_EM_T r 0 then 0 else rho * (V * V) / sqrt (M' * M' - 1) * 1 / (2 * r * sqrt (M' * M' - 1))) = piston_gamma rho V M' r).
    { intros rho V M' r _. unfold piston_gamma, piston_beta.
      replace (V ^ 2) with (V * V) by ring. replace (M' ^ 2) with (M' * M') by ring. split; [reflexivity|].
      destruct (Req_EM_T r 0); [reflexivity|]. rewrite Rmult_1_r. reflexivity. }
    destruct (Req_EM_T M 1) as [->|N]; cbn [set_aero pn_Mach pn_rho_air pn_V pn_r] in H.
    + destruct (pn_rho_air p) as [rho|]; [|discriminate]. destruct (pn_V p) as [V|]; [|discriminate].
      apply pair_equal_spec in H. destruct H as [<- H]. apply Ok_inj in H. apply pair_equal_spec in H. destruct H as [<- <-].
      split; [constructor; reflexivity|]. right. split; [reflexivity|]. exists 1, rho, V.
      unfold used_mach. destruct (Req_EM_T 1 1) as [_|F]; [|exfalso; apply F; reflexivity].
      destruct (EQ rho V (10001 / 10000) (match pn_r p with Some r => r | None => 0 end)) as [E1 E2]; [lra|].
      split; [try exact EM; reflexivity|split; [lra|split; [reflexivity|split; [reflexivity|split; [exact E1|]]]]]. rewrite <- E2. unfold default. destruct (pn_r p); reflexivity.
    + rewrite EM in H.
      destruct (pn_rho_air p) as [rho|]; [|discriminate]. destruct (pn_V p) as [V|]; [|discriminate].
      apply pair_equal_spec in H. destruct H as [<- H]. apply Ok_inj in H. apply pair_equal_spec in H. destruct H as [<- <-].
      split; [constructor; reflexivity|]. right. split; [reflexivity|]. exists M, rho, V.
      unfold used_mach. destruct (Req_EM_T M 1) as [F|_]; [exfalso; contradiction|].
      destruct (EQ rho V M (match pn_r p with Some r => r | None => 0 end)) as [E1 E2]; [lra|].
      split; [try exact EM; reflexivity|split; [lra|split; [reflexivity|split; [reflexivity|split; [exact E1|]]]]]. rewrite <- E2. unfold default. destruct (pn_r p); reflexivity.
Qed.

Definition radius_of (p : panel) : R := match pn_r p with Some r => r | None => 0 end.

Lemma calc_kA_inv E sz row0 col0 fin p p' K : calc_kA E sz row0 col0 fin p = (p', Ok K) ->
  exists mdl be ga kA fx, pn_model p = Some (Known mdl) /\
    ((pn_beta p = Some be /\ ga = match pn_gamma p with Some g => g | None => 0 end) \/
     (pn_beta p = None /\ exists M rho V, pn_Mach p = Some M /\ 1 <= M /\ pn_rho_air p = Some rho /\ pn_V p = Some V /\
      be = piston_beta rho V (used_mach M) /\ ga = piston_gamma rho V (used_mach M) (radius_of p))) /\
    pn_beta p' = Some be /\ pn_gamma p' = Some ga /\ pn_sh p' = pn_sh p /\ pn_r p' = Some (radius_of p) /\
    pn_flow_x p = Some fx /\
    kA = (if fx then fkAx_num else fkAy_num) mdl (e_rule E) (e_basis E) (kernel_view p') row0 col0 (pn_nx p) (pn_ny p) /\
    K = (if fin then make_skew (dense kA) else dense kA) /\ pn_kA p' = Some K /\
    pn_nx p' = pn_nx p /\ pn_ny p' = pn_ny p /\ pn_model p' = pn_model p /\ pn_flow_x p' = pn_flow_x p.
Proof.
  intro H. unfold calc_kA in H.
  unfold mbind at 1 in H. destruct (the_model p) as [p1 [mdl|]] eqn:EM; [|discriminate].
  apply the_model_inv in EM. destruct EM as [-> Hm].
  unfold mbind at 1 in H. destruct (eval_size sz p) as [p2 [size|]] eqn:ES; [|discriminate].
  apply eval_size_same in ES. destruct ES as [-> [k ->]].
  unfold mbind at 1, fix_r at 1, mmod at 1 in H.
  unfold mbind at 1 in H. destruct (aero_coeffs _) as [p3 [[be ga]|]] eqn:EA; [|discriminate].
  apply aero_inv in EA. destruct EA as [[S1 S2 S3 S4 S5 S6] HC].
  cbn [set_r set_size pn_sh pn_r pn_model pn_nx pn_ny pn_flow_x pn_beta pn_gamma pn_Mach pn_rho_air pn_V] in *.
  unfold mbind at 1, mmod at 1 in H. unfold mbind at 1, mget at 1 in H. cbv zeta in H.
  set (pf := set_aero p3 _ _ _) in H.
  unfold mbind at 1 in H.
  match type of H with (let (_, _) := ?x in _) = _ => destruct x as [p5 [kA|]] eqn:EK; [|discriminate] end.
  assert (HF : pn_flow_x pf = pn_flow_x p) by exact S6.
  assert (HX : pn_nx pf = pn_nx p) by exact S4. assert (HY : pn_ny pf = pn_ny p) by exact S5.
  unfold mbind, mmod, mret in H. apply pair_equal_spec in H. destruct H as [<- H]. apply Ok_inj in H. subst K.
  exists mdl, be, ga, kA.
  assert (G : p5 = pf /\ exists fx, pn_flow_x p = Some fx /\ kA = (if fx then fkAx_num else fkAy_num) mdl (e_rule E) (e_basis E) (kernel_view pf) row0 col0 (pn_nx p) (pn_ny p)).
  { rewrite HF, HX, HY in EK. destruct (pn_flow_x p) as [[|]|]; unfold mlift, mraise in EK;
    apply pair_equal_spec in EK; destruct EK as [E1 E2]; try discriminate; apply to_shape_inv in E2; destruct E2 as [-> _].
    - split; [symmetry; exact E1|exists true; split; reflexivity].
    - split; [symmetry; exact E1|exists false; split; reflexivity]. }
  destruct G as [-> [fx [G1 G2]]]. exists fx.
  split; [exact Hm|]. split; [exact HC|].
  split; [reflexivity|]. split; [reflexivity|]. split; [exact S1|]. split; [exact S2|].
  split; [exact G1|]. split; [exact G2|]. split; [reflexivity|]. split; [reflexivity|].
  split; [exact S4|]. split; [exact S5|]. split; [exact S3|exact S6].
Qed.

Lemma view_of p' p be ga : pn_sh p' = pn_sh p -> pn_r p' = Some (radius_of p) -> pn_beta p' = Some be -> pn_gamma p' = Some ga ->
  sh_beta (kernel_view p') = be /\ sh_gamma (kernel_view p') = ga /\ sh_a (kernel_view p') = sh_a (pn_sh p) /\ sh_b (kernel_view p') = sh_b (pn_sh p) /\
  sh_m (kernel_view p') = sh_m (pn_sh p) /\ sh_n (kernel_view p') = sh_n (pn_sh p) /\
  sh_xw (kernel_view p') = sh_xw (pn_sh p) /\ sh_yw (kernel_view p') = sh_yw (pn_sh p) /\
  xregion (kernel_view p') = xregion (pn_sh p) /\ yregion (kernel_view p') = yregion (pn_sh p).
Proof.
  intros H1 H2 H3 H4. unfold kernel_view. rewrite H1, H2, H3, H4. repeat split; reflexivity.
Qed.

Lemma bilinear_unit N K r t : (r < N)%nat -> (t < N)%nat -> bilinear N K (unitv r) (unitv t) = K r t.
Proof.
  intros Hr Ht. unfold bilinear, unitv.
  rewrite (sumn_ext N _ (fun i => if (i =? r)%nat then K i t else 0)).
  - rewrite sumn_single. apply Nat.ltb_lt in Hr. rewrite Hr. reflexivity.
  - intros i _. destruct (i =? r)%nat.
    + rewrite (sumn_ext N _ (fun j => if (j =? t)%nat then K i j else 0)) by (intros j _; destruct (j =? t)%nat; ring).
      rewrite sumn_single. apply Nat.ltb_lt in Ht. rewrite Ht. reflexivity.
    + apply sumn_0. intros. ring.
Qed.

Definition aero_rule (E : env) (p : panel) : Prop :=
  length (e_rule E (pn_nx p)) = pn_nx p /\ length (e_rule E (pn_ny p)) = pn_ny p /\
  rule_integrates (e_rule E) (pn_nx p) exact_basis (sh_m (pn_sh p)) /\
  rule_integrates (e_rule E) (pn_ny p) exact_basis (sh_n (pn_sh p)).

Section KA.
Variables (E : env) (p : panel) (fx : bool).
Hypotheses (HB : e_basis E = exact_basis) (Hflow : pn_flow_x p = Some fx)
  (Ha : sh_a (pn_sh p) <> 0) (Hb : sh_b (pn_sh p) <> 0)
  (Hm : (sh_m (pn_sh p) <= 30)%nat) (Hn : (sh_n (pn_sh p) <= 30)%nat)
  (Hw : whole_window (pn_sh p)) (HQ : aero_rule E p).

Notation Vneg be ga := (V_gen (rule_1d (e_rule E) (pn_nx p) exact_basis) (rule_1d (e_rule E) (pn_ny p) exact_basis) (pn_sh p)
   (sh_a (pn_sh p) * sh_b (pn_sh p) / 4) 2 (Mneg be ga) (opA fx (pn_sh p))).
Notation Vpos be ga := (V_gen (rule_1d (e_rule E) (pn_nx p) exact_basis) (rule_1d (e_rule E) (pn_ny p) exact_basis) (pn_sh p)
   (sh_a (pn_sh p) * sh_b (pn_sh p) / 4) 2 (Mpos be ga) (opA fx (pn_sh p))).

Lemma kA_form sz o p' K fin : calc_kA E sz o o fin p = (p', Ok K) ->
  exists be ga kA, pn_beta p' = Some be /\ pn_gamma p' = Some ga /\
    K = (if fin then make_skew (dense kA) else dense kA) /\
    block_form o (sh_m (pn_sh p)) (sh_n (pn_sh p)) (Vneg be (if fx then ga else 0)) (dense kA).
Proof using All.
  intro H. destruct (calc_kA_inv _ _ _ _ _ _ _ _ H) as (mdl & be & ga & kA & fx' & Hmd & _ & Hbe & Hga & Hsh & Hr & Hf & HkA & HK & _).
  exists be, ga, kA. split; [exact Hbe|split; [exact Hga|split; [exact HK|]]].
  rewrite Hflow in Hf. injection Hf as <-. rewrite HB in HkA.
  destruct HQ as (Lx & Ly & _ & _). destruct Hw as [Wx Wy].
  assert (HW : whole_panel (e_rule E) (kernel_view p') (pn_nx p) (pn_ny p)).
  { destruct (view_of p' p be ga Hsh Hr Hbe Hga) as (_ & _ & Va & Vb & _ & _ & _ & _ & Vx & Vy).
    unfold whole_panel. rewrite Vx, Vy, Va, Vb. auto. }
  assert (HAB : sh_a (kernel_view p') <> 0 /\ sh_b (kernel_view p') <> 0).
  { unfold kernel_view. cbn. rewrite Hsh. auto. }
  assert (Hv : kernel_view p' = mkShell (sh_a (pn_sh p)) (sh_b (pn_sh p)) (radius_of p) (sh_m (pn_sh p)) (sh_n (pn_sh p))
     (sh_x1 (pn_sh p)) (sh_x2 (pn_sh p)) (sh_y1 (pn_sh p)) (sh_y2 (pn_sh p)) be ga (sh_xu (pn_sh p)) (sh_xv (pn_sh p)) (sh_xw (pn_sh p)) (sh_yu (pn_sh p)) (sh_yv (pn_sh p)) (sh_yw (pn_sh p))).
  { unfold kernel_view. rewrite Hsh, Hr, Hbe, Hga. reflexivity. }
  clear Hflow. destruct fx.
  - pose proof (fkAx_rule mdl (e_rule E) exact_basis (kernel_view p') o (pn_nx p) (pn_ny p) HAB HW) as B.
    rewrite <- HkA in B. rewrite Hv in B. exact B.
  - pose proof (fkAy_rule mdl (e_rule E) exact_basis (kernel_view p') o (pn_nx p) (pn_ny p) HAB HW) as B.
    rewrite <- HkA in B. rewrite Hv in B. exact B.
Qed.

Lemma full_work be ga o N c d : (o + ndof (pn_sh p) <= N)%nat ->
  panel_integral (pn_sh p) (pressure_work exact_basis (pn_sh p) fx be ga (own o c) (own o d))
    (bilinear N (fullmat o (sh_m (pn_sh p)) (sh_n (pn_sh p)) (Vpos be ga)) c d).
Proof using All.
  intro HN. destruct HQ as (_ & _ & Qx & Qy). unfold panel_integral.
  eapply sqi_ext; [|apply (gram_energy (rule_1d (e_rule E) (pn_nx p) exact_basis) (rule_1d (e_rule E) (pn_ny p) exact_basis) exact_basis)].
  - intros xi eta. cbv beta. rewrite form_Mpos, !cfield_opA by lia. unfold pressure_work, pressure.
    replace (sh_a (pn_sh p) / 2 * (sh_b (pn_sh p) / 2)) with (sh_a (pn_sh p) * sh_b (pn_sh p) / 4) by field. reflexivity.
  - exact Qx.
  - exact Qy.
  - unfold ndof in HN. unfold DOF. nia.
Qed.

Theorem kA_upper sz o fin p' K be ga : held_along_flow (pn_sh p) fx ->
  calc_kA E sz o o fin p = (p', Ok K) -> pn_beta p' = Some be -> pn_gamma p' = Some ga -> fx = true \/ ga = 0 ->
  forall r t, (r <= t)%nat ->
  panel_integral (pn_sh p) (pressure_work exact_basis (pn_sh p) fx be ga (own o (unitv r)) (own o (unitv t))) (K r t).
Proof using All.
  intros He H Hbe Hga Hy r t Hrt. destruct (kA_form _ _ _ _ _ H) as (be' & ga' & kA & E1 & E2 & HK & HF).
  rewrite Hbe in E1. injection E1 as <-. rewrite Hga in E2. injection E2 as <-.
  assert (HF' : block_form o (sh_m (pn_sh p)) (sh_n (pn_sh p)) (Vpos be ga) (dense kA)).
  { eapply block_form_ext'; [|exact HF]. intros i k j l d e Hi Hk Hj Hl Hd Hd'.
    destruct HQ as (_ & _ & Qx & Qy).
    replace (if fx then ga else 0) with ga by (clear -Hy; destruct Hy as [->|Z]; [reflexivity|destruct fx; congruence]).
    apply V_parts; assumption. }
  assert (EK : K r t = fullmat o (sh_m (pn_sh p)) (sh_n (pn_sh p)) (Vpos be ga) r t).
  { rewrite <- (block_upper _ _ _ _ _ HF' r t Hrt). rewrite HK. destruct fin; [|reflexivity].
    unfold make_skew. apply Nat.leb_le in Hrt. rewrite Hrt. reflexivity. }
  rewrite EK. rewrite <- (bilinear_unit (o + ndof (pn_sh p) + r + t + 1)) by lia. apply full_work. lia.
Qed.

Theorem kA_work sz o p' K be N c d : held_along_flow (pn_sh p) fx ->
  calc_kA E sz o o true p = (p', Ok K) -> pn_beta p' = Some be -> pn_gamma p' = Some 0 ->
  (o + ndof (pn_sh p) <= N)%nat ->
  panel_integral (pn_sh p) (pressure_work exact_basis (pn_sh p) fx be 0 (own o c) (own o d)) (bilinear N K c d).
Proof using All.
  intros He H Hbe Hga HN. destruct (kA_form _ _ _ _ _ H) as (be' & ga' & kA & E1 & E2 & HK & HF).
  rewrite Hbe in E1. injection E1 as <-. rewrite Hga in E2. injection E2 as <-.
  assert (HF' : block_form o (sh_m (pn_sh p)) (sh_n (pn_sh p)) (Vpos be 0) (dense kA)).
  { eapply block_form_ext'; [|exact HF]. intros i k j l d0 e0 Hi Hk Hj Hl Hd Hd'.
    destruct HQ as (_ & _ & Qx & Qy).
    replace (if fx then 0 else 0) with 0 by (clear; destruct fx; reflexivity).
    apply V_parts; assumption. }
  rewrite (bilinear_ext N K (fullmat o (sh_m (pn_sh p)) (sh_n (pn_sh p)) (Vpos be 0))).
  - apply full_work. exact HN.
  - intros r t. rewrite HK. apply skew_full; [exact HF'|]. intros i k j l d0 e0 Hi Hk Hj Hl Hd Hd'.
    destruct HQ as (_ & _ & Qx & Qy). apply V_skew; auto.
Qed.
End KA.

Lemma kA_lower E sz r0 c0 p p' K : calc_kA E sz r0 c0 true p = (p', Ok K) -> forall r t, (r < t)%nat -> K t r = - K r t.
Proof.
  intros H r t Hrt. destruct (calc_kA_inv _ _ _ _ _ _ _ _ H) as (mdl & be & ga & kA & fx' & _ & _ & _ & _ & _ & _ & _ & _ & HK & _).
  rewrite HK. unfold make_skew. destruct (Nat.leb_spec t r); [lia|]. destruct (Nat.leb_spec r t); [reflexivity|lia].
Qed.

Definition aero_known (p : panel) : Prop :=
  pn_beta p <> None \/
  exists M rho V, pn_Mach p = Some M /\ 1 <= M /\ pn_rho_air p = Some rho /\ pn_V p = Some V.

Lemma aero_ok p : aero_known p -> exists q bg, aero_coeffs p = (q, Ok bg) /\ pn_sh q = pn_sh p /\ pn_flow_x q = pn_flow_x p.
Proof.
  intro H. unfold aero_coeffs, mbind, mget, mret, mraise, mmod.
  destruct H as [H|(M & rho & V & HM & H1 & Hr & HV)].
  - destruct (pn_beta p) as [b|]; [|exfalso; apply H; reflexivity]. eexists. eexists. split; [reflexivity|split; reflexivity].
  - destruct (pn_beta p) as [b|]; [eexists; eexists; split; [reflexivity|split; reflexivity]|].
    rewrite HM. destruct (Rlt_dec M 1); [lra|].
    destruct (Req_EM_T M 1); cbn [set_aero pn_Mach pn_rho_air pn_V]; rewrite ?HM, Hr, HV; eexists; eexists; (split; [reflexivity|split; reflexivity]).
Qed.

Theorem calc_kA_ok E sz row0 col0 fin p mdl fx :
  pn_model p = Some (Known mdl) -> pn_flow_x p = Some fx -> aero_known p ->
  (row0 + ndof (pn_sh p) <= size_value sz (pn_sh p))%nat -> (col0 + ndof (pn_sh p) <= size_value sz (pn_sh p))%nat ->
  exists p' K, calc_kA E sz row0 col0 fin p = (p', Ok K).
Proof.
  intros Hm Hf Hk Hr Hc. unfold calc_kA. unfold mbind at 1, the_model at 1. rewrite Hm.
  assert (HS : exists k, eval_size sz p = (set_size p k, Ok (size_value sz (pn_sh p)))).
  { unfold size_value, eval_size, get_size, the_model, mbind, mget, mmod, mret.
    destruct sz; rewrite ?Hm; cbn [db_dofs].
    - eexists; reflexivity.
    - exists (pn_size p). destruct p. reflexivity.
    - eexists. reflexivity. }
  destruct HS as [k HS]. unfold mbind at 1. rewrite HS. unfold mbind at 1, fix_r at 1, mmod at 1.
  destruct (aero_ok (set_r (set_size p k) (Some (match pn_r (set_size p k) with Some r => r | None => 0 end))) Hk) as (q & bg & HA & Hsh & Hfl).
  unfold mbind at 1. rewrite HA. unfold mbind at 1, mmod at 1. unfold mbind at 1, mget at 1. cbv zeta.
  set (pf := set_aero q _ _ _).
  assert (Hff : pn_flow_x pf = Some fx) by (etransitivity; [exact Hfl|exact Hf]).
  assert (Hnd : ndof (kernel_view pf) = ndof (pn_sh p)) by (unfold kernel_view, ndof; cbn; rewrite Hsh; reflexivity).
  set (size := size_value sz (pn_sh p)) in *.
  rewrite Hff. unfold mbind at 1.
  destruct fx; rewrite to_shape_ok by (eapply own_fits; [(apply own_fkAx_num || apply own_fkAy_num)|rewrite Hnd; assumption|rewrite Hnd; assumption]);
    unfold mlift, mbind, mmod, mret; eexists; eexists; reflexivity.
Qed.
