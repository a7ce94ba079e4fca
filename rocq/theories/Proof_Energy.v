(* Energy identities for the numerically integrated matrices. *)
From Coq Require Import Reals List Arith Bool Lia Lra.
From Verif Require Import Base_Sum Model_Types Model_Coo Model_Result Model_PlateNumKer Model_CylNumKer
  Model_Num Model_DB Spec_Algebra Spec_Kinematics Spec_Quadrature Spec_Panel Proof_Coo Proof_Num.
Import ListNotations.
Open Scope R_scope.

Lemma window_interval p1 p2 len : len <> 0 ->
  let '(lo, hi, int) := window p1 p2 len in
  let '(xlo, xhi) := interval p1 p2 len in
  int = xhi - xlo /\ forall t, to_window lo hi t = natural (node xlo xhi t) len.
Proof.
  intro H. unfold window, interval.
  destruct (Req_EM_T p1 (-1)); [|destruct (Req_EM_T p2 (-1))];
    (split; [ring|]); intro t; unfold to_window, natural, node; field; assumption.
Qed.

(* sums over the model's points are the product rule over the region *)
Lemma suml_points Q s nx ny (g : nat -> nat -> R -> R -> R) :
  sh_a s <> 0 -> sh_b s <> 0 ->
  suml (points Q s nx ny) (fun p => p_w p * (p_intx p * p_inty p / 4) * g (p_x p) (p_y p) (p_xi p) (p_eta p)) =
  integrate Q s nx ny g.
Proof.
  intros Ha Hb. unfold points, integrate, xregion, yregion.
  assert (HX := window_interval (sh_x1 s) (sh_x2 s) _ Ha).
  assert (HY := window_interval (sh_y1 s) (sh_y2 s) _ Hb).
  destruct (window (sh_x1 s) (sh_x2 s) (sh_a s)) as [[xi1 xi2] intx].
  destruct (window (sh_y1 s) (sh_y2 s) (sh_b s)) as [[eta1 eta2] inty].
  destruct (interval (sh_x1 s) (sh_x2 s) (sh_a s)) as [xlo xhi].
  destruct (interval (sh_y1 s) (sh_y2 s) (sh_b s)) as [ylo yhi].
  destruct HX as [-> HX]. destruct HY as [-> HY].
  rewrite suml_flat_map. apply suml_ext; intros px _. rewrite suml_map. apply suml_ext; intros py _.
  cbn [p_w p_intx p_inty p_x p_y p_xi p_eta]. rewrite HX, HY. field.
Qed.

Lemma integrate_ext Q s nx ny g h :
  (forall i j xi eta, (i < nx)%nat -> (j < ny)%nat -> g i j xi eta = h i j xi eta) ->
  integrate Q s nx ny g = integrate Q s nx ny h.
Proof.
  intro H. unfold integrate. apply suml_ext; intros px Hx. apply suml_ext; intros py Hy.
  destruct px as [i x], py as [j y]. apply in_combine_l in Hx, Hy. apply in_seq in Hx, Hy.
  destruct (xregion s), (yregion s). cbn [fst snd]. rewrite H by lia. reflexivity.
Qed.

Lemma points_bounds Q s nx ny p : In p (points Q s nx ny) -> (p_x p < nx)%nat /\ (p_y p < ny)%nat.
Proof.
  unfold points. destruct (window _ _ (sh_a s)) as [[? ?] ?]. destruct (window _ _ (sh_b s)) as [[? ?] ?].
  intro H. apply in_flat_map in H. destruct H as [[i x] [Hx H]]. apply in_map_iff in H.
  destruct H as [[j y] [<- Hy]]. apply in_combine_l in Hx, Hy. apply in_seq in Hx, Hy. cbn. lia.
Qed.

Lemma ritz_0 m n d X Y : ritz m n (fun _ => 0) d X Y = 0.
Proof. unfold ritz. apply sumn_0; intros. apply sumn_0; intros. ring. Qed.

Lemma wxi_slope Bs s cs o NL p :
  2 / sh_a s * wxi_at Bs s cs o NL p = d_wx Bs s (state NL (shift o cs)) (p_xi p) (p_eta p).
Proof.
  unfold wxi_at, state, d_wx, fld. destruct NL.
  - rewrite ritz_shift. f_equal. unfold sum_terms. apply sumn_ext; intros j _. apply sumn_ext; intros i _.
    unfold plate_calc_fint_wxi_term. cbv zeta. cbn [shape xedge yedge]. ring.
  - rewrite ritz_0. reflexivity.
Qed.
Lemma weta_slope Bs s cs o NL p :
  2 / sh_b s * weta_at Bs s cs o NL p = d_wy Bs s (state NL (shift o cs)) (p_xi p) (p_eta p).
Proof.
  unfold weta_at, state, d_wy, fld. destruct NL.
  - rewrite ritz_shift. f_equal. unfold sum_terms. apply sumn_ext; intros j _. apply sumn_ext; intros i _.
    unfold plate_calc_fint_weta_term. cbv zeta. cbn [shape xedge yedge]. ring.
  - rewrite ritz_0. reflexivity.
Qed.

Lemma state_shift NL o cs : state NL (shift o cs) = shift o (state NL cs).
Proof. destruct NL; reflexivity. Qed.

Lemma sel_F_laminate nx ny Fi F : sel_F nx ny Fi = Ok F -> forall i j, F i j = laminate_at Fi i j.
Proof.
  destruct Fi as [F0|px py F0|]; cbn; [intro H; inversion H; reflexivity| |discriminate].
  destruct (_ && _)%bool; [|discriminate]. intro H; inversion H; reflexivity.
Qed.

(* entries of the numeric kC: dense values *)
Definition kC_M (F : nat -> nat -> nat -> nat -> R) (p : point) := Fsym (F (p_x p) (p_y p)).
Definition kC_S (kappa : R) Bs s cs o NL (p : point) :=
  Bop kappa Bs s (2 / sh_a s * wxi_at Bs s cs o NL p) (2 / sh_b s * weta_at Bs s cs o NL p) (p_xi p) (p_eta p).
Definition pt_W (p : point) := p_w p * (p_intx p * p_inty p / 4).

Lemma fkC_num_dense mdl Q Bs cs Fi s o nx ny NL kC : geometry_ok mdl s ->
  fkC_num mdl Q Bs cs Fi s o o nx ny NL = Ok kC ->
  exists F, sel_F nx ny Fi = Ok F /\ forall r t,
  dense kC r t =
  if (inblk o (sh_m s) (sh_n s) r && inblk o (sh_m s) (sh_n s) t)%bool then
     if skipped true o o (sh_m s) (sh_m s) (ix o (sh_m s) r) (ix o (sh_m s) t) (jx o (sh_m s) r) (jx o (sh_m s) t) then 0
     else gramV (points Q s nx ny) pt_W 6 (kC_M F) (kC_S (curvature mdl s) Bs s cs o NL)
        (ix o (sh_m s) r) (ix o (sh_m s) t) (jx o (sh_m s) r) (jx o (sh_m s) t) (cx o r) (cx o t) else 0.
Proof.
  intros (Ha & Hb & Hr) H. destruct mdl; cbn in H; unfold plate_fkC_num, cyl_fkC_num in H;
  destruct (sel_F nx ny Fi) as [F|]; cbn in H; try discriminate; inversion H; subst kC;
  exists F; (split; [reflexivity|]); intros r t.
  - apply (gram_dense_ikjl _ pt_W 6 (kC_M F) (kC_S 0 Bs s cs o NL) o (sh_m s) (sh_n s)
      (fun p => plate_fkC_num_ker Bs s (F (p_x p) (p_y p)) (p_xi p) (p_eta p) (p_w p) (p_intx p) (p_inty p)
         (wxi_at Bs s cs o NL p) (weta_at Bs s cs o NL p))).
    + apply (uniform_plate_kC Bs s (fun p => F (p_x p) (p_y p)) p_xi p_eta p_w p_intx p_inty
        (fun p => wxi_at Bs s cs o NL p) (fun p => weta_at Bs s cs o NL p)).
    + intros. apply plate_fkC_loc; assumption.
  - apply (gram_dense_ikjl _ pt_W 6 (kC_M F) (kC_S (1 / sh_r s) Bs s cs o NL) o (sh_m s) (sh_n s)
      (fun p => cyl_fkC_num_ker Bs s (F (p_x p) (p_y p)) (p_xi p) (p_eta p) (p_w p) (p_intx p) (p_inty p)
         (wxi_at Bs s cs o NL p) (weta_at Bs s cs o NL p))).
    + apply (uniform_cyl_kC Bs s (fun p => F (p_x p) (p_y p)) p_xi p_eta p_w p_intx p_inty
        (fun p => wxi_at Bs s cs o NL p) (fun p => weta_at Bs s cs o NL p)).
    + intros. apply cyl_fkC_loc; auto.
Qed.

Theorem fkC_num_energy mdl Q Bs cs Fi s o nx ny NL kC N c d :
  geometry_ok mdl s -> (o + ndof s <= N)%nat -> laminate_ok nx ny Fi ->
  fkC_num mdl Q Bs cs Fi s o o nx ny NL = Ok kC ->
  bilinear N (finalize_symmetric (dense kC)) c d =
  integrate Q s nx ny (fun i j xi eta =>
    form 6 (laminate_at Fi i j)
      (dstrain (curvature mdl s) Bs s (state NL (own o cs)) (own o c) xi eta)
      (dstrain (curvature mdl s) Bs s (state NL (own o cs)) (own o d) xi eta)).
Proof.
  intros Hg HN HF H. destruct (fkC_num_dense _ _ _ _ _ _ _ _ _ _ _ Hg H) as (F & HselF & HK).
  erewrite gram_final_bilinear; [| |intros x a b _ _ _; apply Fsym_sym|exact HK].
  2:{ unfold ndof in HN. unfold DOF. nia. }
  destruct Hg as (Ha & Hb & _).
  rewrite <- suml_points by assumption. apply suml_ext; intros p Hp.
  destruct (points_bounds _ _ _ _ _ Hp) as [Hx Hy].
  unfold pt_W. f_equal. unfold kC_M, kC_S. rewrite (sel_F_laminate _ _ _ _ HselF).
  rewrite wxi_slope, weta_slope, state_shift.
  rewrite (form_ext 6 _ (Fsym (laminate_at Fi (p_x p) (p_y p))) _
     (dstrain (curvature mdl s) Bs s (shift o (state NL cs)) (shift o c) (p_xi p) (p_eta p)) _
     (dstrain (curvature mdl s) Bs s (shift o (state NL cs)) (shift o d) (p_xi p) (p_eta p)))
    by (reflexivity || (intros; apply cfield_Bop)).
  rewrite form_Fsym by (apply HF; assumption).
  assert (E : shift o (state NL cs) = state NL (own o cs)) by (destruct NL; reflexivity).
  rewrite E. reflexivity.
Qed.

(* ------------------------------------------------------------------ geometric stiffness *)
Lemma cfield_Gop Bs s o c xi eta k :
  cfield o (sh_m s) (sh_n s) c (Gop Bs s xi eta k) =
  match k with 0%nat => d_wx Bs s (shift o c) xi eta | 1%nat => d_wy Bs s (shift o c) xi eta | _ => 0 end.
Proof.
  erewrite cfield_lin3; [|intros; unfold Gop; reflexivity..].
  unfold d_wx, d_wy, fld. rewrite !ritz_shift. cbn [shape xedge yedge].
  rewrite !(dsum_0 _ _ _ _ _ (fun _ _ => 0)) by reflexivity.
  destruct k as [|[|k]].
  - rewrite (dsum_lin1 _ _ _ _ _ (2 / sh_a s)). ring.
  - rewrite (dsum_lin1 _ _ _ _ _ (2 / sh_b s)). ring.
  - rewrite !(dsum_0 _ _ _ _ _ (fun _ _ => 0)) by reflexivity. ring.
Qed.

Lemma form_Nmat Nxx Nyy Nxy x y :
  form 2 (Nmat Nxx Nyy Nxy) x y =
  Nxx * (x 0%nat * y 0%nat) + Nyy * (x 1%nat * y 1%nat) + Nxy * (x 0%nat * y 1%nat + x 1%nat * y 0%nat).
Proof. unfold form. cbn [sumn Nmat]. ring. Qed.

Lemma Nmat_sym Nxx Nyy Nxy a b : Nmat Nxx Nyy Nxy a b = Nmat Nxx Nyy Nxy b a.
Proof. destruct a as [|[|a]]; destruct b as [|[|b]]; reflexivity. Qed.

(* strain accumulated by the code *)
Definition coded_strain (NL : bool) (kappa : R) (Bs : basis) (s : shell) (c : nat -> R) (xi eta : R) (k : nat) : R :=
  if NL then doubled_strain kappa Bs s c xi eta k else lin_strain kappa Bs s c xi eta k.

Lemma sum_terms_lin2 s (c : nat -> R) o d k1 k2 X1 Y1 X2 Y2 d2 (t : nat -> nat -> R) :
  (forall i j, t i j = k1 * (c (dofpos o (sh_m s) i j + d)%nat * (X1 i * Y1 j)) +
                       k2 * (c (dofpos o (sh_m s) i j + d2)%nat * (X2 i * Y2 j))) ->
  sum_terms s t = k1 * ritz (sh_m s) (sh_n s) (shift o c) d X1 Y1 + k2 * ritz (sh_m s) (sh_n s) (shift o c) d2 X2 Y2.
Proof.
  intro H. unfold sum_terms. rewrite !ritz_shift, <- !dsum_scal, <- sumn_plus.
  apply sumn_ext; intros j _. rewrite <- sumn_plus. apply sumn_ext; intros i _. apply H.
Qed.
Lemma sum_terms_lin3 s (c : nat -> R) o d d2 d3 k1 k2 k3 X1 Y1 X2 Y2 X3 Y3 (t : nat -> nat -> R) :
  (forall i j, t i j = k1 * (c (dofpos o (sh_m s) i j + d)%nat * (X1 i * Y1 j)) +
                       k2 * (c (dofpos o (sh_m s) i j + d2)%nat * (X2 i * Y2 j)) +
                       k3 * (c (dofpos o (sh_m s) i j + d3)%nat * (X3 i * Y3 j))) ->
  sum_terms s t = k1 * ritz (sh_m s) (sh_n s) (shift o c) d X1 Y1 +
    k2 * ritz (sh_m s) (sh_n s) (shift o c) d2 X2 Y2 + k3 * ritz (sh_m s) (sh_n s) (shift o c) d3 X3 Y3.
Proof.
  intro H. unfold sum_terms. rewrite !ritz_shift, <- !dsum_scal, <- !sumn_plus.
  apply sumn_ext; intros j _. rewrite <- !sumn_plus. apply sumn_ext; intros i _. apply H.
Qed.
Lemma sum_terms_lin4 s (c : nat -> R) o d d2 d3 d4 k1 k2 k3 k4 X1 Y1 X2 Y2 X3 Y3 X4 Y4 (t : nat -> nat -> R) :
  (forall i j, t i j = k1 * (c (dofpos o (sh_m s) i j + d)%nat * (X1 i * Y1 j)) +
                       k2 * (c (dofpos o (sh_m s) i j + d2)%nat * (X2 i * Y2 j)) +
                       k3 * (c (dofpos o (sh_m s) i j + d3)%nat * (X3 i * Y3 j)) +
                       k4 * (c (dofpos o (sh_m s) i j + d4)%nat * (X4 i * Y4 j))) ->
  sum_terms s t = k1 * ritz (sh_m s) (sh_n s) (shift o c) d X1 Y1 +
    k2 * ritz (sh_m s) (sh_n s) (shift o c) d2 X2 Y2 + k3 * ritz (sh_m s) (sh_n s) (shift o c) d3 X3 Y3 +
    k4 * ritz (sh_m s) (sh_n s) (shift o c) d4 X4 Y4.
Proof.
  intro H. unfold sum_terms. rewrite !ritz_shift, <- !dsum_scal, <- !sumn_plus.
  apply sumn_ext; intros j _. rewrite <- !sumn_plus. apply sumn_ext; intros i _. apply H.
Qed.

Section CodedStrain.
Variables (Bs : basis) (s : shell) (cs : nat -> R) (o : nat) (xi eta wxi weta : R).
Hypotheses (Ha : sh_a s <> 0) (Hb : sh_b s <> 0).
Let u_ p q := fld Bs s (shift o cs) 0 p q xi eta.
Let v_ p q := fld Bs s (shift o cs) 1 p q xi eta.
Let w_ p q := fld Bs s (shift o cs) 2 p q xi eta.

Lemma cs_exx_p : sum_terms s (plate_fkG_num_exx_term Bs s cs o xi eta wxi weta) =
  2 / sh_a s * u_ 1%nat 0%nat + (1 / 2 * (2 / sh_a s) * (2 / sh_a s * wxi)) * w_ 1%nat 0%nat.
Proof. apply sum_terms_lin2. intros. unfold plate_fkG_num_exx_term. cbv zeta. cbn [shape xedge yedge]. field; auto. Qed.
Lemma cs_exx_c : sum_terms s (cyl_fkG_num_exx_term Bs s cs o xi eta wxi weta) =
  2 / sh_a s * u_ 1%nat 0%nat + (1 / 2 * (2 / sh_a s) * (2 / sh_a s * wxi)) * w_ 1%nat 0%nat.
Proof. apply sum_terms_lin2. intros. unfold cyl_fkG_num_exx_term. cbv zeta. cbn [shape xedge yedge]. field; auto. Qed.
Lemma cs_eyy_p : sum_terms s (plate_fkG_num_eyy_term Bs s cs o xi eta wxi weta) =
  2 / sh_b s * v_ 0%nat 1%nat + (1 / 2 * (2 / sh_b s) * (2 / sh_b s * weta)) * w_ 0%nat 1%nat.
Proof. apply sum_terms_lin2. intros. unfold plate_fkG_num_eyy_term. cbv zeta. cbn [shape xedge yedge]. field; auto. Qed.
Lemma cs_eyy_c : sh_r s <> 0 -> sum_terms s (cyl_fkG_num_eyy_term Bs s cs o xi eta wxi weta) =
  2 / sh_b s * v_ 0%nat 1%nat + 1 / sh_r s * w_ 0%nat 0%nat + (1 / 2 * (2 / sh_b s) * (2 / sh_b s * weta)) * w_ 0%nat 1%nat.
Proof. intro. apply sum_terms_lin3. intros. unfold cyl_fkG_num_eyy_term. cbv zeta. cbn [shape xedge yedge]. field; auto. Qed.
Lemma cs_gxy_p : sum_terms s (plate_fkG_num_gxy_term Bs s cs o xi eta wxi weta) =
  2 / sh_b s * u_ 0%nat 1%nat + 2 / sh_a s * v_ 1%nat 0%nat
  + (2 / sh_b s * weta * (2 / sh_a s)) * w_ 1%nat 0%nat + (2 / sh_a s * wxi * (2 / sh_b s)) * w_ 0%nat 1%nat.
Proof. apply sum_terms_lin4. intros. unfold plate_fkG_num_gxy_term. cbv zeta. cbn [shape xedge yedge]. field; auto. Qed.
Lemma cs_gxy_c : sum_terms s (cyl_fkG_num_gxy_term Bs s cs o xi eta wxi weta) =
  2 / sh_b s * u_ 0%nat 1%nat + 2 / sh_a s * v_ 1%nat 0%nat
  + (2 / sh_b s * weta * (2 / sh_a s)) * w_ 1%nat 0%nat + (2 / sh_a s * wxi * (2 / sh_b s)) * w_ 0%nat 1%nat.
Proof. apply sum_terms_lin4. intros. unfold cyl_fkG_num_gxy_term. cbv zeta. cbn [shape xedge yedge]. field; auto. Qed.
Lemma cs_kxx_p : sum_terms s (plate_fkG_num_kxx_term Bs s cs o xi eta wxi weta) =
  - (2 / sh_a s * (2 / sh_a s)) * w_ 2%nat 0%nat + 0 * w_ 0%nat 0%nat.
Proof. apply sum_terms_lin2. intros. unfold plate_fkG_num_kxx_term. cbv zeta. cbn [shape xedge yedge]. field; auto. Qed.
Lemma cs_kxx_c : sum_terms s (cyl_fkG_num_kxx_term Bs s cs o xi eta wxi weta) =
  - (2 / sh_a s * (2 / sh_a s)) * w_ 2%nat 0%nat + 0 * w_ 0%nat 0%nat.
Proof. apply sum_terms_lin2. intros. unfold cyl_fkG_num_kxx_term. cbv zeta. cbn [shape xedge yedge]. field; auto. Qed.
Lemma cs_kyy_p : sum_terms s (plate_fkG_num_kyy_term Bs s cs o xi eta wxi weta) =
  - (2 / sh_b s * (2 / sh_b s)) * w_ 0%nat 2%nat + 0 * w_ 0%nat 0%nat.
Proof. apply sum_terms_lin2. intros. unfold plate_fkG_num_kyy_term. cbv zeta. cbn [shape xedge yedge]. field; auto. Qed.
Lemma cs_kyy_c : sum_terms s (cyl_fkG_num_kyy_term Bs s cs o xi eta wxi weta) =
  - (2 / sh_b s * (2 / sh_b s)) * w_ 0%nat 2%nat + 0 * w_ 0%nat 0%nat.
Proof. apply sum_terms_lin2. intros. unfold cyl_fkG_num_kyy_term. cbv zeta. cbn [shape xedge yedge]. field; auto. Qed.
Lemma cs_kxy_p : sum_terms s (plate_fkG_num_kxy_term Bs s cs o xi eta wxi weta) =
  - (2 * (2 / sh_a s * (2 / sh_b s))) * w_ 1%nat 1%nat + 0 * w_ 0%nat 0%nat.
Proof. apply sum_terms_lin2. intros. unfold plate_fkG_num_kxy_term. cbv zeta. cbn [shape xedge yedge]. field; auto. Qed.
Lemma cs_kxy_c : sum_terms s (cyl_fkG_num_kxy_term Bs s cs o xi eta wxi weta) =
  - (2 * (2 / sh_a s * (2 / sh_b s))) * w_ 1%nat 1%nat + 0 * w_ 0%nat 0%nat.
Proof. apply sum_terms_lin2. intros. unfold cyl_fkG_num_kxy_term. cbv zeta. cbn [shape xedge yedge]. field; auto. Qed.
End CodedStrain.

Lemma doubled_0 kappa Bs s c xi eta k :
  d_wx Bs s c xi eta = 0 -> d_wy Bs s c xi eta = 0 ->
  doubled_strain kappa Bs s c xi eta k = lin_strain kappa Bs s c xi eta k.
Proof.
  intros H1 H2. unfold doubled_strain, strain, vk_strain. rewrite H1, H2. destruct k as [|[|[|k]]]; ring.
Qed.

Lemma d_wx_0 Bs s xi eta : d_wx Bs s (fun _ => 0) xi eta = 0.
Proof. unfold d_wx, fld. rewrite ritz_0. ring. Qed.
Lemma d_wy_0 Bs s xi eta : d_wy Bs s (fun _ => 0) xi eta = 0.
Proof. unfold d_wy, fld. rewrite ritz_0. ring. Qed.

Definition kG_strain (mdl : model) := match mdl with PlateModel => plate_kG_strain | CylModel => cyl_kG_strain end.
Definition fint_strain (mdl : model) := match mdl with PlateModel => plate_fint_strain | CylModel => cyl_fint_strain end.

Lemma kG_strain_coded mdl Bs s cs o NL p k : geometry_ok mdl s -> (k < 6)%nat ->
  kG_strain mdl Bs s cs o NL p k =
  coded_strain NL (curvature mdl s) Bs s (shift o cs) (p_xi p) (p_eta p) k.
Proof.
  intros (Ha & Hb & Hr) Hk.
  assert (HX := wxi_slope Bs s cs o NL p). assert (HY := weta_slope Bs s cs o NL p).
  destruct mdl; cbn [kG_strain curvature]; unfold plate_kG_strain, cyl_kG_strain;
  do 6 (destruct k as [|k]; [rewrite ?cs_exx_p, ?cs_eyy_p, ?cs_gxy_p, ?cs_kxx_p, ?cs_kyy_p, ?cs_kxy_p,
      ?cs_exx_c, ?cs_eyy_c, ?cs_gxy_c, ?cs_kxx_c, ?cs_kyy_c, ?cs_kxy_c by auto;
      rewrite ?HX, ?HY; unfold coded_strain, doubled_strain, strain, vk_strain, lin_strain; destruct NL; cbn [state];
      rewrite ?d_wx_0, ?d_wy_0;
      unfold d_ux, d_uy, d_vx, d_vy, d_w, d_wx, d_wy, d_wxx, d_wyy, d_wxy; try ring; field; auto|]); lia.
Qed.

Lemma sum_terms_ext s t t' : (forall i j, t i j = t' i j) -> sum_terms s t = sum_terms s t'.
Proof. intro H. unfold sum_terms. apply sumn_ext; intros. apply sumn_ext; intros. apply H. Qed.

Lemma fint_strain_eq mdl Bs s cs o p k : geometry_ok mdl s ->
  fint_strain mdl Bs s cs o p k = kG_strain mdl Bs s cs o true p k.
Proof.
  intros (Ha & Hb & Hr). destruct mdl; cbn [fint_strain kG_strain];
  unfold plate_fint_strain, cyl_fint_strain, plate_kG_strain, cyl_kG_strain;
  do 6 (destruct k as [|k]; [apply sum_terms_ext; intros; 
    unfold plate_calc_fint_exx_term, plate_calc_fint_eyy_term, plate_calc_fint_gxy_term,
      plate_calc_fint_kxx_term, plate_calc_fint_kyy_term, plate_calc_fint_kxy_term,
      cyl_calc_fint_exx_term, cyl_calc_fint_eyy_term, cyl_calc_fint_gxy_term,
      cyl_calc_fint_kxx_term, cyl_calc_fint_kyy_term, cyl_calc_fint_kxy_term,
      plate_fkG_num_exx_term, plate_fkG_num_eyy_term, plate_fkG_num_gxy_term,
      plate_fkG_num_kxx_term, plate_fkG_num_kyy_term, plate_fkG_num_kxy_term,
      cyl_fkG_num_exx_term, cyl_fkG_num_eyy_term, cyl_fkG_num_gxy_term,
      cyl_fkG_num_kxx_term, cyl_fkG_num_kyy_term, cyl_fkG_num_kxy_term; cbv zeta; try reflexivity; field; auto|]);
  apply sum_terms_ext; intros; unfold plate_calc_fint_kxy_term, plate_fkG_num_kxy_term, cyl_calc_fint_kxy_term,
   cyl_fkG_num_kxy_term; cbv zeta; field; auto.
Qed.

(* membrane forces used by fkG_num at a point *)
Definition kG_force (Fi : finput) (p : point) (N0 : R) (k : nat) (e : nat -> R) : R :=
  N0 + sumn 6 (fun l => Fsym (laminate_at Fi (p_x p) (p_y p)) k l * e l).
Definition kG_M mdl Bs cs Fi s o NL Nxx0 Nyy0 Nxy0 (p : point) : nat -> nat -> R :=
  let e := kG_strain mdl Bs s cs o NL p in
  Nmat (kG_force Fi p Nxx0 0 e) (kG_force Fi p Nyy0 1 e) (kG_force Fi p Nxy0 2 e).

Lemma fkG_num_dense mdl Q Bs cs Fi s o nx ny NL Nxx0 Nyy0 Nxy0 kG : geometry_ok mdl s ->
  fkG_num mdl Q Bs cs Fi s o o nx ny NL Nxx0 Nyy0 Nxy0 = Ok kG ->
  forall r t,
  dense kG r t =
  if (inblk o (sh_m s) (sh_n s) r && inblk o (sh_m s) (sh_n s) t)%bool then
     if skipped true o o (sh_m s) (sh_m s) (ix o (sh_m s) r) (ix o (sh_m s) t) (jx o (sh_m s) r) (jx o (sh_m s) t) then 0
     else gramV (points Q s nx ny) pt_W 2 (kG_M mdl Bs cs Fi s o NL Nxx0 Nyy0 Nxy0) (fun p => Gop Bs s (p_xi p) (p_eta p))
        (ix o (sh_m s) r) (ix o (sh_m s) t) (jx o (sh_m s) r) (jx o (sh_m s) t) (cx o r) (cx o t) else 0.
Proof.
  intros (Ha & Hb & Hr) H r t. destruct mdl; cbn in H; unfold plate_fkG_num, cyl_fkG_num in H;
  destruct (sel_F nx ny Fi) as [F|] eqn:EF; cbn in H; try discriminate; inversion H; subst kG; clear H;
  assert (HF := sel_F_laminate _ _ _ _ EF); cbv zeta.
  - apply (gram_dense_jlik _ pt_W 2 (kG_M PlateModel Bs cs Fi s o NL Nxx0 Nyy0 Nxy0)
      (fun p => Gop Bs s (p_xi p) (p_eta p)) o (sh_m s) (sh_n s)
      (fun p => plate_fkG_num_ker Bs s (p_xi p) (p_eta p) (p_w p) (p_intx p) (p_inty p)
         (plate_fkG_num_Nxx Nxx0 Nyy0 Nxy0 (F (p_x p) (p_y p)) (plate_kG_strain Bs s cs o NL p 0) (plate_kG_strain Bs s cs o NL p 1)
             (plate_kG_strain Bs s cs o NL p 2) (plate_kG_strain Bs s cs o NL p 3) (plate_kG_strain Bs s cs o NL p 4) (plate_kG_strain Bs s cs o NL p 5))
         (plate_fkG_num_Nyy Nxx0 Nyy0 Nxy0 (F (p_x p) (p_y p)) (plate_kG_strain Bs s cs o NL p 0) (plate_kG_strain Bs s cs o NL p 1)
             (plate_kG_strain Bs s cs o NL p 2) (plate_kG_strain Bs s cs o NL p 3) (plate_kG_strain Bs s cs o NL p 4) (plate_kG_strain Bs s cs o NL p 5))
         (plate_fkG_num_Nxy Nxx0 Nyy0 Nxy0 (F (p_x p) (p_y p)) (plate_kG_strain Bs s cs o NL p 0) (plate_kG_strain Bs s cs o NL p 1)
             (plate_kG_strain Bs s cs o NL p 2) (plate_kG_strain Bs s cs o NL p 3) (plate_kG_strain Bs s cs o NL p 4) (plate_kG_strain Bs s cs o NL p 5)))).
    + apply (uniform_plate_kG Bs s p_xi p_eta p_w p_intx p_inty).
    + intros p i k j l d e _ Hd He. rewrite plate_fkG_loc by assumption. unfold kG_M, kG_force, pt_W.
      rewrite <- HF. cbn [kG_strain].
      unfold plate_fkG_num_Nxx, plate_fkG_num_Nyy, plate_fkG_num_Nxy. cbv zeta. f_equal.
      apply sumn_ext; intros a Ha'. apply sumn_ext; intros b Hb'. f_equal. f_equal.
      destruct a as [|[|a]]; destruct b as [|[|b]]; cbn [Nmat sumn Fsym]; try ring.
  - apply (gram_dense_jlik _ pt_W 2 (kG_M CylModel Bs cs Fi s o NL Nxx0 Nyy0 Nxy0)
      (fun p => Gop Bs s (p_xi p) (p_eta p)) o (sh_m s) (sh_n s)
      (fun p => cyl_fkG_num_ker Bs s (p_xi p) (p_eta p) (p_w p) (p_intx p) (p_inty p)
         (cyl_fkG_num_Nxx Nxx0 Nyy0 Nxy0 (F (p_x p) (p_y p)) (cyl_kG_strain Bs s cs o NL p 0) (cyl_kG_strain Bs s cs o NL p 1)
             (cyl_kG_strain Bs s cs o NL p 2) (cyl_kG_strain Bs s cs o NL p 3) (cyl_kG_strain Bs s cs o NL p 4) (cyl_kG_strain Bs s cs o NL p 5))
         (cyl_fkG_num_Nyy Nxx0 Nyy0 Nxy0 (F (p_x p) (p_y p)) (cyl_kG_strain Bs s cs o NL p 0) (cyl_kG_strain Bs s cs o NL p 1)
             (cyl_kG_strain Bs s cs o NL p 2) (cyl_kG_strain Bs s cs o NL p 3) (cyl_kG_strain Bs s cs o NL p 4) (cyl_kG_strain Bs s cs o NL p 5))
         (cyl_fkG_num_Nxy Nxx0 Nyy0 Nxy0 (F (p_x p) (p_y p)) (cyl_kG_strain Bs s cs o NL p 0) (cyl_kG_strain Bs s cs o NL p 1)
             (cyl_kG_strain Bs s cs o NL p 2) (cyl_kG_strain Bs s cs o NL p 3) (cyl_kG_strain Bs s cs o NL p 4) (cyl_kG_strain Bs s cs o NL p 5)))).
    + apply (uniform_cyl_kG Bs s p_xi p_eta p_w p_intx p_inty).
    + intros p i k j l d e _ Hd He. rewrite cyl_fkG_loc by assumption. unfold kG_M, kG_force, pt_W.
      rewrite <- HF. cbn [kG_strain].
      unfold cyl_fkG_num_Nxx, cyl_fkG_num_Nyy, cyl_fkG_num_Nxy. cbv zeta. f_equal.
      apply sumn_ext; intros a Ha'. apply sumn_ext; intros b Hb'. f_equal. f_equal.
      destruct a as [|[|a]]; destruct b as [|[|b]]; cbn [Nmat sumn Fsym]; try ring.
Qed.

Theorem fkG_num_energy mdl Q Bs cs Fi s o nx ny NL Nxx0 Nyy0 Nxy0 kG N c d :
  geometry_ok mdl s -> (o + ndof s <= N)%nat -> laminate_ok nx ny Fi ->
  fkG_num mdl Q Bs cs Fi s o o nx ny NL Nxx0 Nyy0 Nxy0 = Ok kG ->
  bilinear N (finalize_symmetric (dense kG)) c d =
  integrate Q s nx ny (fun i j xi eta =>
    let R k := resultant (laminate_at Fi i j) (coded_strain NL (curvature mdl s) Bs s (own o cs) xi eta) k in
    membrane_work Bs s (Nxx0 + R 0%nat) (Nyy0 + R 1%nat) (Nxy0 + R 2%nat) (own o c) (own o d) xi eta).
Proof.
  intros Hg HN HF H. assert (HK := fkG_num_dense _ _ _ _ _ _ _ _ _ _ _ _ _ _ Hg H).
  erewrite gram_final_bilinear; [| |intros x a b _ _ _; apply Nmat_sym|exact HK].
  2:{ unfold ndof in HN. unfold DOF. nia. }
  assert (Hg' := Hg). destruct Hg' as (Ha & Hb & _).
  rewrite <- suml_points by assumption. apply suml_ext; intros p Hp.
  destruct (points_bounds _ _ _ _ _ Hp) as [Hx Hy].
  unfold pt_W. f_equal. unfold kG_M. rewrite form_Nmat, !cfield_Gop.
  assert (E : forall N0 k, (k < 6)%nat -> kG_force Fi p N0 k (kG_strain mdl Bs s cs o NL p) =
    N0 + resultant (laminate_at Fi (p_x p) (p_y p))
       (coded_strain NL (curvature mdl s) Bs s (own o cs) (p_xi p) (p_eta p)) k).
  { intros N0 k Hk. unfold kG_force, resultant. f_equal. apply sumn_ext; intros l Hl.
    rewrite Fsym_ABD by (auto; apply HF; assumption). rewrite kG_strain_coded by assumption. reflexivity. }
  rewrite !E by lia. unfold membrane_work. reflexivity.
Qed.

(* ------------------------------------------------------------------ mass *)
Definition hrho_at (H : hrho) (i j : nat) : R * R :=
  match H with HConst h rho => (h, rho) | HPts _ _ h rho => (h i j, rho i j) | HOther => (0, 0) end.

Lemma cfield_Mop Bs s o off c xi eta k :
  cfield o (sh_m s) (sh_n s) c (Mop Bs s off xi eta k) =
  match k with
  | 0%nat => d_u Bs s (shift o c) xi eta + off * d_wx Bs s (shift o c) xi eta
  | 1%nat => d_v Bs s (shift o c) xi eta + off * d_wy Bs s (shift o c) xi eta
  | 2%nat => d_w Bs s (shift o c) xi eta
  | 3%nat => d_wx Bs s (shift o c) xi eta
  | 4%nat => d_wy Bs s (shift o c) xi eta
  | _ => 0 end.
Proof.
  erewrite cfield_lin3; [|intros; unfold Mop; reflexivity..].
  unfold d_u, d_v, d_w, d_wx, d_wy, fld. rewrite !ritz_shift. cbn [shape xedge yedge].
  assert (Z : forall d, sumn (sh_n s) (fun j => sumn (sh_m s) (fun i => c (dofpos o (sh_m s) i j + d)%nat * 0)) = 0).
  { intro d. apply (dsum_0 (sh_n s) (sh_m s) c o d (fun _ _ => 0)). reflexivity. }
  destruct k as [|[|[|[|[|k]]]]]; rewrite ?Z.
  - rewrite (dsum_lin1 _ _ _ _ _ off), (dsum_lin1 _ _ _ _ _ (2 / sh_a s)). ring.
  - rewrite (dsum_lin1 _ _ _ _ _ off), (dsum_lin1 _ _ _ _ _ (2 / sh_b s)). ring.
  - ring.
  - rewrite (dsum_lin1 _ _ _ _ _ (2 / sh_a s)). ring.
  - rewrite (dsum_lin1 _ _ _ _ _ (2 / sh_b s)). ring.
  - ring.
Qed.

Lemma Mmat_sym h rho a b : Mmat h rho a b = Mmat h rho b a.
Proof. destruct a as [|[|[|[|[|a]]]]]; destruct b as [|[|[|[|[|b]]]]]; reflexivity. Qed.

Lemma fkM_num_dense mdl Q Bs off H s o nx ny kM : geometry_ok mdl s ->
  fkM_num mdl Q Bs s off H o o nx ny = Ok kM ->
  forall r t,
  dense kM r t =
  if (inblk o (sh_m s) (sh_n s) r && inblk o (sh_m s) (sh_n s) t)%bool then
     if skipped true o o (sh_m s) (sh_m s) (ix o (sh_m s) r) (ix o (sh_m s) t) (jx o (sh_m s) r) (jx o (sh_m s) t) then 0
     else gramV (points Q s nx ny) pt_W 5
        (fun p => Mmat (fst (hrho_at H (p_x p) (p_y p))) (snd (hrho_at H (p_x p) (p_y p))))
        (fun p => Mop Bs s off (p_xi p) (p_eta p))
        (ix o (sh_m s) r) (ix o (sh_m s) t) (jx o (sh_m s) r) (jx o (sh_m s) t) (cx o r) (cx o t) else 0.
Proof.
  intros (Ha & Hb & Hr) E r t.
  assert (E' : plate_fkM_num Q Bs s off H o o nx ny = Ok kM) by (destruct mdl; exact E).
  unfold plate_fkM_num in E'. destruct (sel_hrho nx ny H) as [hr|] eqn:EH; cbn in E'; try discriminate.
  inversion E'; subst kM.
  assert (Hh : forall i j, hr i j = hrho_at H i j).
  { destruct H as [h rho|px py h rho|]; cbn in EH; [inversion EH; reflexivity| |discriminate].
    destruct (_ && _)%bool; [|discriminate]. inversion EH; reflexivity. }
  apply (gram_dense_ikjl _ pt_W 5 (fun p => Mmat (fst (hrho_at H (p_x p) (p_y p))) (snd (hrho_at H (p_x p) (p_y p))))
        (fun p => Mop Bs s off (p_xi p) (p_eta p)) o (sh_m s) (sh_n s)
        (fun p => plate_fkM_num_ker Bs s (p_xi p) (p_eta p) (p_w p) (p_intx p) (p_inty p)
         (fst (hr (p_x p) (p_y p))) (snd (hr (p_x p) (p_y p))) off)).
  - apply (uniform_plate_kM Bs s p_xi p_eta p_w p_intx p_inty (fun p => fst (hr (p_x p) (p_y p))) (fun p => snd (hr (p_x p) (p_y p)))).
  - intros. rewrite plate_fkM_loc by assumption. rewrite Hh. reflexivity.
Qed.

Theorem fkM_num_energy mdl Q Bs off H s o nx ny kM N c d :
  geometry_ok mdl s -> (o + ndof s <= N)%nat ->
  fkM_num mdl Q Bs s off H o o nx ny = Ok kM ->
  bilinear N (finalize_symmetric (dense kM)) c d =
  integrate Q s nx ny (fun i j xi eta =>
    kinetic Bs s twelfth (fst (hrho_at H i j)) (snd (hrho_at H i j)) off (own o c) (own o d) xi eta).
Proof.
  intros Hg HN E. assert (HK := fkM_num_dense _ _ _ _ _ _ _ _ _ _ Hg E).
  erewrite gram_final_bilinear; [| |intros x a b _ _ _; apply Mmat_sym|exact HK].
  2:{ unfold ndof in HN. unfold DOF. nia. }
  destruct Hg as (Ha & Hb & _).
  rewrite <- suml_points by assumption. apply suml_ext; intros p Hp.
  unfold pt_W. f_equal. unfold form. cbn [sumn Mmat]. rewrite !cfield_Mop. unfold kinetic.
  change (shift o) with (own o). ring.
Qed.

Lemma Fsym_id F a b : is_ABD F -> (a < 6)%nat -> (b < 6)%nat -> Fsym F a b = F a b.
Proof.
  intros [H1 H2] Ha Hb.
  destruct a as [|[|[|[|[|[|a]]]]]]; try (exfalso; lia); destruct b as [|[|[|[|[|[|b]]]]]]; try (exfalso; lia);
    cbn [Fsym]; try reflexivity; try (apply H1; lia).
  all: rewrite ?(H1 3%nat), ?(H1 4%nat), ?(H1 5%nat) by lia; try reflexivity.
  all: try (apply (H2 0%nat 0%nat); lia); try (apply (H2 0%nat 1%nat); lia); try (apply (H2 0%nat 2%nat); lia);
    try (apply (H2 1%nat 0%nat); lia); try (apply (H2 1%nat 1%nat); lia); try (apply (H2 1%nat 2%nat); lia);
    try (apply (H2 2%nat 0%nat); lia); try (apply (H2 2%nat 1%nat); lia); try (apply (H2 2%nat 2%nat); lia).
Qed.
