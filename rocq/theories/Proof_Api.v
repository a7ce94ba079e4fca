(* From the outcome of a Shell method to what it computed, in terms of the inputs only. *)
From Coq Require Import Reals List Arith Bool Lia Lra.
From Verif Require Import Base_Sum Model_Types Model_Coo Model_Result Model_Num Model_DB Model_Shell
  Spec_Algebra Spec_Kinematics Spec_Quadrature Spec_Panel Spec_Shell
  Proof_Coo Proof_Num Proof_Energy Proof_Shell.
Import ListNotations.
Open Scope R_scope.

Lemma view_eq p p' : pn_sh p' = pn_sh p -> pn_r p' = Some (default 0 (pn_r p)) ->
  pn_beta p' = pn_beta p -> pn_gamma p' = pn_gamma p -> kernel_view p' = kernel_view p.
Proof. intros H1 H2 H3 H4. unfold kernel_view. rewrite H1, H2, H3, H4. reflexivity. Qed.

(* facts about the panel after a calculation that begins with _rebuild *)
Lemma rebuilt_facts E A p p1 p' mdl :
  rebuild E p = (p1, Ok tt) -> same_rebuilt p1 p' -> pn_model p' = Some (Known mdl) ->
  pn_r p' = Some (default 0 (pn_r p)) ->
  mdl = chosen_model p /\ kernel_view p' = kernel_view p /\ the_F A p' = laminate_used E A p /\
  default (pn_nx p') (ka_nx A) = points_x A p /\ default (pn_ny p') (ka_ny A) = points_y A p /\
  pn_ABD p' = Some (lam_matrix (pn_ortho p) (rebuilt_lam E p)) /\ same_inputs p p'.
Proof.
  intros HR HS HM Hr. apply rebuild_inv in HR.
  destruct HR as (Hin & Hr1 & Hm & _ & Hnx & Hny & Hl & HABD & _ & _ & _ & _ & Hbe & Hga & _).
  destruct HS as [S1 S2 S3 S4 S5 S6 S7 S8 S9 S9' S10 S11 S12].
  assert (Hsh : pn_sh p' = pn_sh p).
  { rewrite (si_sh _ _ S1), (si_sh _ _ Hin). reflexivity. }
  split; [congruence|]. split; [apply view_eq; congruence|].
  split; [unfold the_F, laminate_used; rewrite S6, HABD; reflexivity|].
  split; [unfold points_x; rewrite S3, Hnx; reflexivity|].
  split; [unfold points_y; rewrite S4, Hny; reflexivity|].
  split; [congruence|]. eapply same_inputs_trans; eassumption.
Qed.

Definition numeric_kC (A : kargs) : Prop := ka_c A <> None \/ ka_F A <> None \/ ka_NL A = true.

Lemma any3_0 t : any3 t = false <-> t = (0, 0, 0).
Proof.
  destruct t as [[x y] z]. unfold any3.
  destruct (Req_EM_T x 0), (Req_EM_T y 0), (Req_EM_T z 0); cbn; split; intro H; subst; try reflexivity; try discriminate;
  inversion H; subst; congruence.
Qed.

Lemma vec_nil k : vec [] k = 0.
Proof. unfold vec. destruct k; reflexivity. Qed.

Lemma kC_vector_given A size cl : kC_vector A size cl -> forall k, vec cl k = given_vector (ka_c A) k.
Proof.
  intros [[-> _]|[-> [-> _]]] k; [reflexivity|apply vec_nil].
Qed.

Theorem calc_kC_numeric E A p p' K :
  calc_kC E A p = (p', Ok K) -> numeric_kC A -> ka_c_cte A = None -> pn_N_cte p = (0, 0, 0) ->
  exists kC cl, K = finalized (ka_fin A) kC /\ (forall k, vec cl k = given_vector (ka_c A) k) /\
  in_shape (size_value (ka_size A) (pn_sh p)) kC = true /\
  fkC_num (chosen_model p) (e_rule E) (e_basis E) (vec cl) (laminate_used E A p) (kernel_view p)
    (ka_row0 A) (ka_col0 A) (points_x A p) (points_y A p) (ka_NL A) = Ok kC.
Proof.
  intros H Hnum Hcte HN. apply calc_kC_inv in H. destruct H as (mdl & kC & kGc & R).
  destruct R as [(p1 & Hp1 & Hs) Hm Hr HK Hsh _ HkC HkG]. cbv zeta in *.
  destruct (rebuilt_facts E A _ _ _ _ Hp1 Hs Hm Hr) as (-> & Hv & HF & Hx & Hy & _ & _).
  rewrite HF, Hx, Hy, Hv in *.
  destruct HkC as [(H1 & H2 & H3 & _)|(_ & cl & Hcl & HkC)].
  { exfalso. destruct Hnum as [|[|]]; congruence. }
  assert (kGc = []).
  { rewrite HN in HkG. destruct HkG as [(_ & _ & ->)|[(_ & Ha & _)|(l & Hl & _)]]; [reflexivity| |congruence].
    exfalso. assert (any3 (0, 0, 0) = false) by (apply any3_0; reflexivity). congruence. }
  subst kGc. exists kC, cl. split; [rewrite HK; unfold coo_add; rewrite app_nil_r; reflexivity|].
  split; [apply (kC_vector_given _ _ _ Hcl)|]. split; [apply Hsh|exact HkC].
Qed.

Theorem calc_kC_analytic E A p p' K :
  calc_kC E A p = (p', Ok K) -> ka_c A = None -> ka_F A = None -> ka_NL A = false ->
  ka_c_cte A = None ->
  let '(Nxx, Nyy, Nxy) := pn_N_cte p in
  exists kC kGc, K = finalized (ka_fin A) (coo_add kC kGc) /\
  in_shape (size_value (ka_size A) (pn_sh p)) (coo_add kC kGc) = true /\
  kC = fk0 (chosen_model p) (e_tables E) (kernel_view p) (lam_matrix (pn_ortho p) (rebuilt_lam E p)) (ka_row0 A) (ka_col0 A) /\
  ((pn_N_cte p = (0, 0, 0) /\ kGc = []) \/
   kGc = fkG0 (chosen_model p) (e_tables E) (kernel_view p) Nxx Nyy Nxy (ka_row0 A) (ka_col0 A)).
Proof.
  intros H H1 H2 H3 H4. apply calc_kC_inv in H. destruct H as (mdl & kC & kGc & R).
  destruct R as [(p1 & Hp1 & Hs) Hm Hr HK Hsh _ HkC HkG]. cbv zeta in *.
  destruct (rebuilt_facts E A _ _ _ _ Hp1 Hs Hm Hr) as (-> & Hv & HF & Hx & Hy & HABD & _).
  rewrite Hv in *.
  destruct (pn_N_cte p) as [[Nxx Nyy] Nxy] eqn:EN. exists kC, kGc.
  split; [exact HK|].
  split.
  { unfold in_shape, coo_add in *. rewrite forallb_app. destruct Hsh as [-> ->]. reflexivity. }
  split.
  { destruct HkC as [(_ & _ & _ & F & HFe & ->)|([Hn|[Hn|Hn]] & _)]; [|congruence..].
    rewrite HABD in HFe. injection HFe as <-. reflexivity. }
  destruct HkG as [(_ & Ha & ->)|[(_ & _ & _ & ->)|(l & Hl & _)]]; [left|right; reflexivity|congruence].
  apply any3_0 in Ha. auto.
Qed.

Theorem calc_kG_numeric E A p p' K :
  calc_kG E A p = (p', Ok K) -> ka_c A <> None \/ ka_NL A = true ->
  let '(Nxx, Nyy, Nxy) := pn_N p in
  exists kG cl, K = finalized (ka_fin A) kG /\ (forall k, vec cl k = given_vector (ka_c A) k) /\
  in_shape (size_value (ka_size A) (pn_sh p)) kG = true /\
  fkG_num (chosen_model p) (e_rule E) (e_basis E) (vec cl) (laminate_used E A p) (kernel_view p)
    (ka_row0 A) (ka_col0 A) (points_x A p) (points_y A p) (ka_NL A) Nxx Nyy Nxy = Ok kG.
Proof.
  intros H Hnum. apply calc_kG_inv in H. destruct H as (mdl & kG & R).
  destruct R as [(p1 & Hp1 & Hs) Hm Hr HK Hsh _ HkG]. cbv zeta in *.
  destruct (rebuilt_facts E A _ _ _ _ Hp1 Hs Hm Hr) as (-> & Hv & HF & Hx & Hy & _ & _).
  rewrite HF, Hx, Hy, Hv in *.
  destruct (pn_N p) as [[Nxx Nyy] Nxy].
  destruct HkG as [(H1 & H2 & _)|(_ & l & Hl & HkG)].
  { exfalso. destruct Hnum; congruence. }
  exists kG, l. split; [exact HK|]. split; [|split; [exact Hsh|exact HkG]].
  intro k. destruct Hl as [[-> _]|[-> ->]]; [reflexivity|].
  cbn. unfold vec. apply nth_repeat.
Qed.

Theorem calc_kG_analytic E A p p' K :
  calc_kG E A p = (p', Ok K) -> ka_c A = None -> ka_NL A = false ->
  let '(Nxx, Nyy, Nxy) := pn_N p in
  exists kG, K = finalized (ka_fin A) kG /\ in_shape (size_value (ka_size A) (pn_sh p)) kG = true /\
  kG = fkG0 (chosen_model p) (e_tables E) (kernel_view p) Nxx Nyy Nxy (ka_row0 A) (ka_col0 A).
Proof.
  intros H H1 H2. apply calc_kG_inv in H. destruct H as (mdl & kG & R).
  destruct R as [(p1 & Hp1 & Hs) Hm Hr HK Hsh _ HkG]. cbv zeta in *.
  destruct (rebuilt_facts E A _ _ _ _ Hp1 Hs Hm Hr) as (-> & Hv & HF & Hx & Hy & _ & _).
  rewrite Hv in *.
  destruct (pn_N p) as [[Nxx Nyy] Nxy].
  destruct HkG as [(_ & _ & ->)|([Hn|Hn] & _)]; try congruence. eexists. eauto.
Qed.

(* ------------------------------------------------- energies at the level of the methods *)
Lemma own_ext o c c' : (forall k, c k = c' k) -> forall k, own o c k = own o c' k.
Proof. intros H k. apply H. Qed.

Lemma ritz_ext m n c c' d X Y : (forall k, c k = c' k) -> ritz m n c d X Y = ritz m n c' d X Y.
Proof. intro H. unfold ritz. apply sumn_ext; intros. apply sumn_ext; intros. rewrite H. reflexivity. Qed.

Lemma fld_ext Bs s c c' d p q xi eta : (forall k, c k = c' k) -> fld Bs s c d p q xi eta = fld Bs s c' d p q xi eta.
Proof. apply ritz_ext. Qed.

Lemma dstrain_ext kappa Bs s c c' v xi eta k : (forall i, c i = c' i) ->
  dstrain kappa Bs s c v xi eta k = dstrain kappa Bs s c' v xi eta k.
Proof.
  intro H. unfold dstrain, d_wx, d_wy. rewrite !(fld_ext Bs s c c') by exact H. reflexivity.
Qed.

Lemma lin_strain_ext kappa Bs s c c' xi eta k : (forall i, c i = c' i) ->
  lin_strain kappa Bs s c xi eta k = lin_strain kappa Bs s c' xi eta k.
Proof.
  intro H. unfold lin_strain, d_wx, d_wy, d_ux, d_uy, d_vx, d_vy, d_w, d_wxx, d_wyy, d_wxy.
  rewrite !(fld_ext Bs s c c') by exact H. reflexivity.
Qed.

Lemma coded_strain_ext NL kappa Bs s c c' xi eta k : (forall i, c i = c' i) ->
  coded_strain NL kappa Bs s c xi eta k = coded_strain NL kappa Bs s c' xi eta k.
Proof.
  intro H. unfold coded_strain, doubled_strain, strain, vk_strain, d_wx, d_wy.
  rewrite (lin_strain_ext kappa Bs s c c') by exact H.
  rewrite !(fld_ext Bs s c c') by exact H. reflexivity.
Qed.

Theorem calc_kC_energy E A p p' K N c d :
  calc_kC E A p = (p', Ok K) -> numeric_kC A -> ka_c_cte A = None -> pn_N_cte p = (0, 0, 0) ->
  ka_fin A = true -> ka_row0 A = ka_col0 A ->
  geometry_ok (chosen_model p) (kernel_view p) -> (ka_col0 A + ndof (pn_sh p) <= N)%nat ->
  laminate_ok (points_x A p) (points_y A p) (laminate_used E A p) ->
  bilinear N K c d =
  integrate (e_rule E) (kernel_view p) (points_x A p) (points_y A p) (fun i j xi eta =>
    let eps v := dstrain (curvature (chosen_model p) (kernel_view p)) (e_basis E) (kernel_view p)
                   (state (ka_NL A) (own (ka_col0 A) (given_vector (ka_c A)))) (own (ka_col0 A) v) xi eta in
    form 6 (laminate_at (laminate_used E A p) i j) (eps c) (eps d)).
Proof.
  intros H Hnum Hcte HN Hfin Hrc Hg Hfit HF.
  destruct (calc_kC_numeric _ _ _ _ _ H Hnum Hcte HN) as (kC & cl & -> & Hcl & _ & HkC).
  rewrite Hfin. cbn [finalized]. rewrite Hrc in HkC.
  rewrite (fkC_num_energy _ _ _ _ _ _ _ _ _ _ _ N c d Hg Hfit HF HkC).
  apply integrate_ext; intros. apply form_ext; intros; try reflexivity; apply dstrain_ext; intro k0;
  destruct (ka_NL A); cbn; [apply own_ext; exact Hcl|reflexivity|apply own_ext; exact Hcl|reflexivity].
Qed.

Theorem calc_kG_energy E A p p' K N c d :
  calc_kG E A p = (p', Ok K) -> ka_c A <> None \/ ka_NL A = true ->
  ka_fin A = true -> ka_row0 A = ka_col0 A ->
  geometry_ok (chosen_model p) (kernel_view p) -> (ka_col0 A + ndof (pn_sh p) <= N)%nat ->
  laminate_ok (points_x A p) (points_y A p) (laminate_used E A p) ->
  let '(Nxx, Nyy, Nxy) := pn_N p in
  bilinear N K c d =
  integrate (e_rule E) (kernel_view p) (points_x A p) (points_y A p) (fun i j xi eta =>
    let eps := coded_strain (ka_NL A) (curvature (chosen_model p) (kernel_view p)) (e_basis E) (kernel_view p)
                   (own (ka_col0 A) (given_vector (ka_c A))) xi eta in
    let N k := resultant (laminate_at (laminate_used E A p) i j) eps k in
    membrane_work (e_basis E) (kernel_view p) (Nxx + N 0%nat) (Nyy + N 1%nat) (Nxy + N 2%nat)
      (own (ka_col0 A) c) (own (ka_col0 A) d) xi eta).
Proof.
  intros H Hnum Hfin Hrc Hg Hfit HF.
  assert (HH := calc_kG_numeric _ _ _ _ _ H Hnum).
  destruct (pn_N p) as [[Nxx Nyy] Nxy].
  destruct HH as (kG & cl & -> & Hcl & _ & HkG).
  rewrite Hfin. cbn [finalized]. rewrite Hrc in HkG.
  rewrite (fkG_num_energy _ _ _ _ _ _ _ _ _ _ _ _ _ _ N c d Hg Hfit HF HkG).
  apply integrate_ext; intros. cbv zeta.
  assert (HR : forall k, resultant (laminate_at (laminate_used E A p) i j)
    (coded_strain (ka_NL A) (curvature (chosen_model p) (kernel_view p)) (e_basis E) (kernel_view p) (own (ka_col0 A) (vec cl)) xi eta) k =
    resultant (laminate_at (laminate_used E A p) i j)
    (coded_strain (ka_NL A) (curvature (chosen_model p) (kernel_view p)) (e_basis E) (kernel_view p)
       (own (ka_col0 A) (given_vector (ka_c A))) xi eta) k).
  { intro k. unfold resultant. apply sumn_ext; intros. f_equal. apply coded_strain_ext. intro. apply own_ext. exact Hcl. }
  rewrite !HR. reflexivity.
Qed.

(* ------------------------------------------------- quadratic forms with nonnegative weights *)
Lemma integrate_ge0 Q s nx ny g : nonneg_rule Q nx -> nonneg_rule Q ny -> window_ok s ->
  (forall i j xi eta, (i < nx)%nat -> (j < ny)%nat -> 0 <= g i j xi eta) -> 0 <= integrate Q s nx ny g.
Proof.
  intros Hx Hy [Hwx Hwy] H. unfold integrate. apply suml_ge0; intros [i x] Hix. apply suml_ge0; intros [j y] Hjy.
  destruct (xregion s) as [xlo xhi], (yregion s) as [ylo yhi]. cbn [fst snd] in *.
  assert (Hi := in_combine_l _ _ _ _ Hix). assert (Hj := in_combine_l _ _ _ _ Hjy).
  apply in_combine_r in Hix, Hjy. apply in_seq in Hi, Hj. specialize (Hx _ Hix). specialize (Hy _ Hjy).
  apply Rmult_le_pos; [|apply H; lia].
  apply Rmult_le_pos; apply Rmult_le_pos; lra.
Qed.

Lemma finalized_sym kC : symmetric (finalized true kC).
Proof. apply finalize_symmetric_sym. Qed.

Theorem calc_kC_sym E A p p' K : calc_kC E A p = (p', Ok K) -> ka_fin A = true -> symmetric K.
Proof.
  intros H Hf. apply calc_kC_inv in H. destruct H as (mdl & kC & kGc & R). rewrite (kr_K _ _ _ _ _ _ _ _ R), Hf.
  apply finalized_sym.
Qed.
Theorem calc_kG_sym E A p p' K : calc_kG E A p = (p', Ok K) -> ka_fin A = true -> symmetric K.
Proof.
  intros H Hf. apply calc_kG_inv in H. destruct H as (mdl & kC & R). rewrite (gr_K _ _ _ _ _ _ _ R), Hf.
  apply finalized_sym.
Qed.
Theorem calc_kM_sym E sz row0 col0 ho ro nxo nyo p p' K :
  calc_kM E sz row0 col0 ho ro nxo nyo true p = (p', Ok K) -> symmetric K.
Proof.
  intros H. apply calc_kM_inv in H. destruct H as (mdl & kC & R). rewrite (mr_K _ _ _ _ _ _ _ _ _ _ _ _ _ _ R).
  apply finalized_sym.
Qed.

Theorem calc_kC_psd E A p p' K N :
  calc_kC E A p = (p', Ok K) -> numeric_kC A -> ka_c_cte A = None -> pn_N_cte p = (0, 0, 0) ->
  ka_fin A = true -> ka_row0 A = ka_col0 A ->
  geometry_ok (chosen_model p) (kernel_view p) -> (ka_col0 A + ndof (pn_sh p) <= N)%nat ->
  laminate_ok (points_x A p) (points_y A p) (laminate_used E A p) ->
  (forall i j, (i < points_x A p)%nat -> (j < points_y A p)%nat -> psd_form 6 (laminate_at (laminate_used E A p) i j)) ->
  nonneg_rule (e_rule E) (points_x A p) -> nonneg_rule (e_rule E) (points_y A p) -> window_ok (kernel_view p) ->
  psd N K.
Proof.
  intros H Hn Hc HN Hf Hrc Hg Hfit HF HP Hx Hy Hw c. unfold quad.
  rewrite (calc_kC_energy _ _ _ _ _ N c c H Hn Hc HN Hf Hrc Hg Hfit HF).
  apply integrate_ge0; try assumption. intros. cbv zeta. apply HP; assumption.
Qed.

Theorem calc_kG_energy' E A p p' K N c d :
  calc_kG E A p = (p', Ok K) -> ka_c A <> None \/ ka_NL A = true ->
  ka_fin A = true -> ka_row0 A = ka_col0 A ->
  geometry_ok (chosen_model p) (kernel_view p) -> (ka_col0 A + ndof (pn_sh p) <= N)%nat ->
  laminate_ok (points_x A p) (points_y A p) (laminate_used E A p) ->
  let '(Nxx, Nyy, Nxy) := pn_N p in
  bilinear N K c d =
  integrate (e_rule E) (kernel_view p) (points_x A p) (points_y A p) (fun i j xi eta =>
    let eps k := (if ka_NL A then doubled_strain else lin_strain) (curvature (chosen_model p) (kernel_view p))
                   (e_basis E) (kernel_view p) (own (ka_col0 A) (given_vector (ka_c A))) xi eta k in
    let N k := resultant (laminate_at (laminate_used E A p) i j) eps k in
    membrane_work (e_basis E) (kernel_view p) (Nxx + N 0%nat) (Nyy + N 1%nat) (Nxy + N 2%nat)
      (own (ka_col0 A) c) (own (ka_col0 A) d) xi eta).
Proof.
  intros H Hnum Hfin Hrc Hg Hfit HF. pose proof (calc_kG_energy _ _ _ _ _ N c d H Hnum Hfin Hrc Hg Hfit HF) as Hen.
  destruct (pn_N p) as [[Nxx Nyy] Nxy]. rewrite Hen. unfold coded_strain. destruct (ka_NL A); reflexivity.
Qed.

Theorem calc_kM_energy E sz row0 col0 ho ro nxo nyo p p' K N c d :
  calc_kM E sz row0 col0 ho ro nxo nyo true p = (p', Ok K) -> ho <> None \/ ro <> None ->
  row0 = col0 -> geometry_ok (chosen_model p) (kernel_view p) -> (col0 + ndof (pn_sh p) <= N)%nat ->
  exists h rho,
  match ho with Some (_, _, t) => h = t | None => exists lam, pn_lam p = Some lam /\ h = fun _ _ => lam_h lam end /\
  match ro with Some (_, _, t) => rho = t | None => exists lam, pn_lam p = Some lam /\ rho = fun _ _ => lam_intrho lam / lam_h lam end /\
  bilinear N K c d =
  integrate (e_rule E) (kernel_view p) (default (pn_nx p) nxo) (default (pn_ny p) nyo) (fun i j xi eta =>
    kinetic (e_basis E) (kernel_view p) twelfth (h i j) (rho i j) (pn_offset p) (own col0 c) (own col0 d) xi eta).
Proof.
  intros H Hne Hrc Hg Hfit. apply calc_kM_inv in H. destruct H as (mdl & kM & R).
  destruct R as [Hs Hm Hr HK Hsh _ HkM]. cbv zeta in HkM.
  assert (Hv : kernel_view p' = kernel_view p).
  { destruct Hs as [S1 S2 S3 S4 S5 S6 S7 S8 S9 S9' S10 S11 S12].
    apply view_eq; try assumption. apply S1. }
  rewrite Hv in HkM.
  assert (mdl = chosen_model p).
  { assert (HH := sr_model _ _ Hs). unfold chosen_model. rewrite <- HH, Hm. reflexivity. }
  subst mdl.
  destruct HkM as [(? & ? & _)|(_ & h & rho & hx & hy & Hh & Hro & HkM)]; [destruct Hne; congruence|].
  exists h, rho.
  split. { destruct ho as [[[? ?] ?]|]; [congruence|]. destruct Hh as (lam & ? & ? & ?). eauto. }
  split. { destruct ro as [[[? ?] ?]|]; [congruence|]. destruct Hro as (lam & ? & ? & ?). eauto. }
  rewrite HK. cbn [finalized]. rewrite Hrc in HkM.
  rewrite (fkM_num_energy _ _ _ _ _ _ _ _ _ _ N c d Hg Hfit HkM). reflexivity.
Qed.

(* ------------------------------------------------- kinetic energy is nonnegative *)
Lemma kinetic_ge0 Bs s h rho off c xi eta : 0 <= rho * h -> 0 <= kinetic Bs s twelfth h rho off c c xi eta.
Proof.
  intro H. unfold kinetic. cbv zeta.
  assert (0 <= twelfth) by (unfold twelfth; lra).
  assert (Hh : 0 <= h * h) by apply Rle_0_sqr.
  apply Rplus_le_le_0_compat.
  - apply Rmult_le_pos; [exact H|].
    assert (Hq : forall x, 0 <= x * x) by (intro; apply Rle_0_sqr).
    apply Rplus_le_le_0_compat; [apply Rplus_le_le_0_compat|]; apply Hq.
  - apply Rmult_le_pos; [apply Rmult_le_pos; [exact H|]; apply Rmult_le_pos; assumption|].
    apply Rplus_le_le_0_compat; apply Rle_0_sqr.
Qed.

Theorem calc_kM_psd E sz row0 col0 ho ro nxo nyo p p' K N :
  calc_kM E sz row0 col0 ho ro nxo nyo true p = (p', Ok K) -> ho <> None \/ ro <> None ->
  row0 = col0 -> geometry_ok (chosen_model p) (kernel_view p) -> (col0 + ndof (pn_sh p) <= N)%nat ->
  (forall i j, match ho, ro with
   | Some (_, _, h), Some (_, _, rho) => 0 <= rho i j * h i j
   | Some (_, _, h), None => forall lam, pn_lam p = Some lam -> 0 <= lam_intrho lam / lam_h lam * h i j
   | None, Some (_, _, rho) => forall lam, pn_lam p = Some lam -> 0 <= rho i j * lam_h lam
   | None, None => True end) ->
  nonneg_rule (e_rule E) (default (pn_nx p) nxo) -> nonneg_rule (e_rule E) (default (pn_ny p) nyo) ->
  window_ok (kernel_view p) ->
  psd N K.
Proof.
  intros H Hne Hrc Hg Hfit Hpos Hx Hy Hw c. unfold quad.
  destruct (calc_kM_energy _ _ _ _ _ _ _ _ _ _ _ N c c H Hne Hrc Hg Hfit) as (h & rho & Hh & Hr & ->).
  apply integrate_ge0; try assumption. intros i j xi eta _ _. apply kinetic_ge0.
  specialize (Hpos i j).
  destruct ho as [[[? ?] h']|], ro as [[[? ?] r']|]; subst; auto.
  - destruct Hr as (lam & Hl & ->). auto.
  - destruct Hh as (lam & Hl & ->). auto.
  - destruct Hne; congruence.
Qed.

(* ------------------------------------------------- triangle actually computed *)
Lemma gram_computed {P} (pts : list P) W q M S o m n K :
  (forall x a b, In x pts -> (a < q)%nat -> (b < q)%nat -> M x a b = M x b a) ->
  (forall r s, K r s = if (inblk o m n r && inblk o m n s)%bool then
     if skipped true o o m m (ix o m r) (ix o m s) (jx o m r) (jx o m s) then 0
     else gramV pts W q M S (ix o m r) (ix o m s) (jx o m r) (jx o m s) (cx o r) (cx o s) else 0) ->
  forall r s, K r s = 0 \/ K r s = finalize_symmetric K r s.
Proof.
  intros HM HK r s. rewrite (gram_final pts W q M S o m n K HM HK). rewrite HK. unfold fullmat.
  destruct (inblk o m n r && inblk o m n s)%bool; [|auto]. destruct (skipped _ _ _ _ _ _ _ _ _); auto.
Qed.

Lemma fkC_num_computed mdl Q Bs cs Fi s o nx ny NL kC : geometry_ok mdl s ->
  fkC_num mdl Q Bs cs Fi s o o nx ny NL = Ok kC ->
  forall r t, dense kC r t = 0 \/ dense kC r t = finalize_symmetric (dense kC) r t.
Proof.
  intros Hg H. destruct (fkC_num_dense _ _ _ _ _ _ _ _ _ _ _ Hg H) as (F & _ & HK).
  eapply gram_computed; [|exact HK]. intros x a b _ _ _. apply Fsym_sym.
Qed.
Lemma fkG_num_computed mdl Q Bs cs Fi s o nx ny NL Nxx Nyy Nxy kG : geometry_ok mdl s ->
  fkG_num mdl Q Bs cs Fi s o o nx ny NL Nxx Nyy Nxy = Ok kG ->
  forall r t, dense kG r t = 0 \/ dense kG r t = finalize_symmetric (dense kG) r t.
Proof.
  intros Hg H. eapply gram_computed; [|exact (fkG_num_dense _ _ _ _ _ _ _ _ _ _ _ _ _ _ Hg H)].
  intros x a b _ _ _. apply Nmat_sym.
Qed.
Lemma fkM_num_computed mdl Q Bs off H s o nx ny kM : geometry_ok mdl s ->
  fkM_num mdl Q Bs s off H o o nx ny = Ok kM ->
  forall r t, dense kM r t = 0 \/ dense kM r t = finalize_symmetric (dense kM) r t.
Proof.
  intros Hg E. eapply gram_computed; [|exact (fkM_num_dense _ _ _ _ _ _ _ _ _ _ Hg E)].
  intros x a b _ _ _. apply Mmat_sym.
Qed.

(* ------------------------------------------------- own block *)
From Verif Require Import Proof_Total.

Lemma finalized_outside fin M row0 col0 s r t :
  own_block row0 col0 s M -> (fin = true -> row0 = col0) ->
  ~ ((row0 <= r < row0 + ndof s)%nat /\ (col0 <= t < col0 + ndof s)%nat) -> finalized fin M r t = 0.
Proof.
  intros Ho Hrc Hn. destruct fin; cbn [finalized].
  - specialize (Hrc eq_refl). subst. unfold finalize_symmetric.
    destruct (r <=? t)%nat; eapply within_dense; try exact Ho; tauto.
  - eapply within_dense; eassumption.
Qed.

Theorem calc_kC_block E A p p' K :
  calc_kC E A p = (p', Ok K) -> (ka_fin A = true -> ka_row0 A = ka_col0 A) ->
  forall r t, ~ ((ka_row0 A <= r < ka_row0 A + ndof (pn_sh p))%nat /\ (ka_col0 A <= t < ka_col0 A + ndof (pn_sh p))%nat) ->
  K r t = 0.
Proof.
  intros H Hrc r t Hn. apply calc_kC_inv in H. destruct H as (mdl & kC & kGc & R).
  destruct R as [(p1 & Hp1 & Hs) Hm Hr HK Hsh _ HkC HkG]. cbv zeta in *.
  destruct (rebuilt_facts E A _ _ _ _ Hp1 Hs Hm Hr) as (-> & Hv & HF & Hx & Hy & _ & _).
  rewrite Hv in *. rewrite HK.
  assert (Hnd : ndof (kernel_view p) = ndof (pn_sh p)) by reflexivity.
  apply (finalized_outside _ _ (ka_row0 A) (ka_col0 A) (kernel_view p)); [|assumption|rewrite Hnd; assumption].
  apply within_app.
  - destruct HkC as [(_ & _ & _ & F & _ & ->)|(_ & cl & _ & HkC)]; [apply own_fk0|eapply own_fkC_num; exact HkC].
  - destruct (pn_N_cte p) as [[Nxx Nyy] Nxy].
    destruct HkG as [(_ & _ & ->)|[(_ & _ & _ & ->)|(l & _ & _ & HkG)]];
    [intros ? ? ? []|apply own_fkG0|eapply own_fkG_num; exact HkG].
Qed.

Theorem calc_kG_block E A p p' K :
  calc_kG E A p = (p', Ok K) -> (ka_fin A = true -> ka_row0 A = ka_col0 A) ->
  forall r t, ~ ((ka_row0 A <= r < ka_row0 A + ndof (pn_sh p))%nat /\ (ka_col0 A <= t < ka_col0 A + ndof (pn_sh p))%nat) ->
  K r t = 0.
Proof.
  intros H Hrc r t Hn. apply calc_kG_inv in H. destruct H as (mdl & kG & R).
  destruct R as [(p1 & Hp1 & Hs) Hm Hr HK Hsh _ HkG]. cbv zeta in *.
  destruct (rebuilt_facts E A _ _ _ _ Hp1 Hs Hm Hr) as (-> & Hv & HF & Hx & Hy & _ & _).
  rewrite Hv in *. rewrite HK.
  apply (finalized_outside _ _ (ka_row0 A) (ka_col0 A) (kernel_view p)); [|assumption|assumption].
  destruct (pn_N p) as [[Nxx Nyy] Nxy].
  destruct HkG as [(_ & _ & ->)|(_ & l & _ & HkG)]; [apply own_fkG0|eapply own_fkG_num; exact HkG].
Qed.

Theorem calc_kM_block E sz row0 col0 ho ro nxo nyo fin p p' K :
  calc_kM E sz row0 col0 ho ro nxo nyo fin p = (p', Ok K) -> (fin = true -> row0 = col0) ->
  forall r t, ~ ((row0 <= r < row0 + ndof (pn_sh p))%nat /\ (col0 <= t < col0 + ndof (pn_sh p))%nat) ->
  K r t = 0.
Proof.
  intros H Hrc r t Hn. apply calc_kM_inv in H. destruct H as (mdl & kM & R).
  destruct R as [Hs Hm Hr HK Hsh _ HkM]. cbv zeta in HkM. rewrite HK.
  assert (Hnd : ndof (kernel_view p') = ndof (pn_sh p)).
  { unfold kernel_view, ndof. cbn. rewrite (si_sh _ _ (sr_in _ _ Hs)). reflexivity. }
  apply (finalized_outside _ _ row0 col0 (kernel_view p')); [|assumption|rewrite Hnd; assumption].
  destruct HkM as [(_ & _ & _ & ->)|(_ & h & rho & hx & hy & _ & _ & HkM)]; [apply own_fkM|eapply own_fkM_num; exact HkM].
Qed.

Theorem calc_kA_block E sz row0 col0 fin p p' K :
  calc_kA E sz row0 col0 fin p = (p', Ok K) -> (fin = true -> row0 = col0) ->
  forall r t, ~ ((row0 <= r < row0 + ndof (pn_sh p))%nat /\ (col0 <= t < col0 + ndof (pn_sh p))%nat) ->
  K r t = 0.
Proof.
  intros H Hrc r t Hn. unfold calc_kA in H.
  unfold mbind at 1 in H. destruct (the_model p) as [p1 [mdl|]] eqn:EM; [|discriminate].
  apply the_model_inv in EM. destruct EM as [-> Hm].
  unfold mbind at 1 in H. destruct (eval_size sz p) as [p2 [size|]] eqn:ES; [|discriminate].
  apply eval_size_same in ES. destruct ES as [-> [k ->]].
  unfold mbind at 1, fix_r at 1, mmod at 1 in H.
  unfold mbind at 1 in H. destruct (aero_coeffs _) as [p3 [bg|]] eqn:EA; [|discriminate].
  assert (Hsh : pn_sh p3 = pn_sh p).
  { unfold aero_coeffs, mbind, mget, mret, mraise, mmod in EA.
    cbn [set_r set_size pn_beta pn_Mach] in EA. destruct (pn_beta p); [injection EA as <- <-; reflexivity|].
    destruct (pn_Mach p) eqn:Heqo; [|discriminate]. destruct (Rlt_dec r0 1); [discriminate|].
    destruct (Req_EM_T r0 1); cbn [set_aero set_r set_size pn_Mach pn_rho_air pn_V] in EA;
    try rewrite Heqo in EA; repeat match type of EA with context [match ?x with Some _ => _ | None => _ end] => destruct x; try discriminate end; inversion EA; reflexivity. }
  unfold mbind at 1, mmod at 1 in H. unfold mbind at 1, mget at 1 in H. cbv zeta in H.
  set (pf := set_aero p3 _ _ _) in H.
  unfold mbind at 1 in H.
  match type of H with (let (_, _) := ?x in _) = _ => destruct x as [p5 [kA|]] eqn:EK; [|discriminate] end.
  assert (HA : own_block row0 col0 (kernel_view pf) kA).
  { destruct (pn_flow_x pf) as [[|]|]; unfold mlift, mraise in EK; inversion EK as [[H1 H2]];
    apply to_shape_inv in H2; destruct H2 as [-> _]; [apply own_fkAx_num|apply own_fkAy_num]. }
  unfold mbind, mmod, mret in H. injection H as _ <-.
  assert (Hnd : ndof (kernel_view pf) = ndof (pn_sh p)).
  { unfold kernel_view, ndof. cbn. rewrite Hsh. reflexivity. }
  unfold own_block in HA. rewrite Hnd in HA.
  destruct fin.
  - specialize (Hrc eq_refl). subst. unfold make_skew.
    destruct (r <=? t)%nat; [|apply Ropp_eq_0_compat]; eapply within_dense; try exact HA; tauto.
  - eapply within_dense; eassumption.
Qed.
