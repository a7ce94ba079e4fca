(* The internal force of a Shell object: virtual work, gradient, Jacobian. *)
From Coq Require Import Reals List Arith Bool Lia Lra.
From Coquelicot Require Import Coquelicot.
From Verif Require Import Base_Sum Model_Types Model_Coo Model_Result Model_Num Model_DB Model_Shell
  Spec_Algebra Spec_Kinematics Spec_Quadrature Spec_Panel Spec_Shell
  Proof_Coo Proof_Num Proof_Energy Proof_Shell Proof_Total Proof_Api Proof_Fint Proof_Fint2.
Import ListNotations.
Open Scope R_scope.

(* ------------------------------------- the same set-up before and after a calculation *)
Record same_setup (E : env) (p q : panel) : Prop := {
  ss_in : same_inputs p q;
  ss_model : chosen_model q = chosen_model p;
  ss_view : kernel_view q = kernel_view p;
  ss_lam : rebuilt_lam E q = rebuilt_lam E p;
  ss_nx : Nat.max (pn_nx q) (sh_m (pn_sh q)) = Nat.max (pn_nx p) (sh_m (pn_sh p));
  ss_ny : Nat.max (pn_ny q) (sh_n (pn_sh q)) = Nat.max (pn_ny p) (sh_n (pn_sh p)) }.

Lemma same_setup_trans E p q r : same_setup E p q -> same_setup E q r -> same_setup E p r.
Proof. intros [A1 A2 A3 A4 A5 A6] [B1 B2 B3 B4 B5 B6]. constructor; try congruence. eapply same_inputs_trans; eassumption. Qed.

Lemma same_setup_used E p q A : same_setup E p q ->
  laminate_used E A q = laminate_used E A p /\ points_x A q = points_x A p /\ points_y A q = points_y A p.
Proof.
  intros [A1 A2 A3 A4 A5 A6]. unfold laminate_used, points_x, points_y. rewrite A4, A5, A6, (si_ortho _ _ A1). auto.
Qed.

(* what a calculation that begins with _rebuild leaves behind *)
Record settled (E : env) (p q : panel) : Prop := {
  st_setup : same_setup E p q;
  st_model : pn_model q = Some (Known (chosen_model p));
  st_nx : pn_nx q = Nat.max (pn_nx p) (sh_m (pn_sh p));
  st_ny : pn_ny q = Nat.max (pn_ny p) (sh_n (pn_sh p));
  st_ABD : pn_ABD q = Some (lam_matrix (pn_ortho p) (rebuilt_lam E p));
  st_lam : pn_lam q = Some (rebuilt_lam E p) }.

Lemma map_nonnil {A B} (f : A -> B) l : l <> [] -> map f l <> [].
Proof. destruct l; cbn; congruence. Qed.

Lemma rebuild_settled E p p1 p' mdl :
  rebuild E p = (p1, Ok tt) -> same_rebuilt p1 p' -> pn_model p' = Some (Known mdl) ->
  pn_r p' = Some (default 0 (pn_r p)) -> settled E p p'.
Proof.
  intros HR HS HM Hr. pose proof (rebuilt_facts E (mkKargs SNone 0 0 true None None None None None true) _ _ _ _ HR HS HM Hr)
    as (Hmdl & Hv & _ & Hx & Hy & HABD & Hin).
  cbn in Hx, Hy.
  apply rebuild_inv in HR.
  destruct HR as (Hin1 & Hr1 & Hm & _ & Hnx & Hny & Hl & _ & Hpt & Hpr & Hrh & _ & _ & _ & _ & Hne & Hlp & _).
  destruct HS as [S1 S2 S3 S4 S5 S6 S7 S8 S9 S9' S10 S11 S12].
  assert (Hst : pn_stack p' = pn_stack p) by apply Hin.
  assert (Hsh : pn_sh p' = pn_sh p) by apply Hin.
  constructor.
  - constructor.
    + exact Hin.
    + unfold chosen_model at 1. rewrite HM. exact Hmdl.
    + exact Hv.
    + unfold rebuilt_lam. rewrite Hst, (si_offset _ _ Hin). f_equal.
      * unfold rebuilt_plyts at 1. rewrite S7, Hpt. unfold rebuilt_plyts.
        destruct (pn_plyts p); [|reflexivity]. destruct (pn_stack p); [congruence|reflexivity].
      * unfold rebuilt_props at 1. rewrite S8, Hpr. unfold rebuilt_props.
        destruct (pn_laminaprops p); [|reflexivity]. destruct (pn_stack p); [congruence|reflexivity].
      * unfold rebuilt_rhos at 1. rewrite S9, Hrh. unfold rebuilt_rhos.
        destruct (pn_rhos p); [|reflexivity]. destruct (pn_stack p); [congruence|reflexivity].
    + rewrite S3, Hnx, Hsh. lia.
    + rewrite S4, Hny, Hsh. lia.
  - rewrite HM, Hmdl. reflexivity.
  - congruence.
  - congruence.
  - exact HABD.
  - congruence.
Qed.

Lemma calc_kC_settled E A p p' K : calc_kC E A p = (p', Ok K) -> settled E p p'.
Proof.
  intro H. apply calc_kC_inv in H. destruct H as (mdl & kC & kGc & [(p1 & Hp1 & Hs) Hm Hr _ _ _ _ _]).
  eapply rebuild_settled; eassumption.
Qed.
Lemma calc_kG_settled E A p p' K : calc_kG E A p = (p', Ok K) -> settled E p p'.
Proof.
  intro H. apply calc_kG_inv in H. destruct H as (mdl & kG & [(p1 & Hp1 & Hs) Hm Hr _ _ _ _]).
  eapply rebuild_settled; eassumption.
Qed.

Lemma settled_then E p q r : same_setup E p q -> settled E q r -> settled E p r.
Proof.
  intros A [B1 B2 B3 B4 B5 B6]. assert (A' := A). destruct A' as [A1 A2 A3 A4 A5 A6].
  constructor; try congruence. eapply same_setup_trans; eassumption.
  rewrite B5, A4, (si_ortho _ _ A1). reflexivity.
Qed.

Lemma settled_same E p q r : settled E p q -> same_rebuilt q r -> pn_r r = pn_r q -> settled E p r.
Proof.
  intros [A1 A2 A3 A4 A5 A6] [S1 S2 S3 S4 S5 S6 S7 S8 S9 S9' S10 S11 S12] Hr.
  constructor; try congruence. apply (same_setup_trans _ _ _ _ A1). constructor; try congruence.
  - unfold chosen_model. rewrite S2, Hr. reflexivity.
  - unfold kernel_view. rewrite (si_sh _ _ S1), Hr, S10, S11. reflexivity.
  - unfold rebuilt_lam, rebuilt_plyts, rebuilt_props, rebuilt_rhos.
    rewrite (si_stack _ _ S1), (si_offset _ _ S1), S7, S8, S9, S9', (si_plyt _ _ S1), (si_rho _ _ S1). reflexivity.
  - rewrite S3, (si_sh _ _ S1). reflexivity.
  - rewrite S4, (si_sh _ _ S1). reflexivity.
Qed.

Lemma calc_kT_settled E A p p' K : calc_kT E A p = (p', Ok K) -> settled E p p'.
Proof.
  intro H. apply calc_kT_inv in H. cbv zeta in H. destruct H as (p1 & p2 & kC & kG & HC & HG & _ & HS & Hr).
  apply calc_kC_settled in HC. apply calc_kG_settled in HG.
  apply (settled_same _ _ p2); [|assumption|assumption].
  apply (settled_then _ _ p1); [apply HC|exact HG].
Qed.

(* ------------------------------------- calc_fint *)
Lemma calc_fint_inv E cl sz col0 nxo nyo Fo q q' u : calc_fint E cl sz col0 nxo nyo Fo q = (q', Ok u) ->
  pn_model q = Some (Known (chosen_model q)) /\
  calc_fint_num (chosen_model q) (e_rule E) (e_basis E) (vec cl) (fint_laminate Fo q) (kernel_view q) col0
    (default (pn_nx q) nxo) (default (pn_ny q) nyo) = Ok u /\
  (col0 + ndof (pn_sh q) <= length cl)%nat /\ (col0 + ndof (pn_sh q) <= size_value sz (pn_sh q))%nat /\
  same_rebuilt q q' /\ pn_r q' = Some (default 0 (pn_r q)).
Proof.
  intro H. unfold calc_fint in H. unfold mbind at 1, mget at 1 in H.
  destruct (pn_model q) as [[mdl|]|] eqn:Em; try discriminate.
  unfold mbind at 1 in H. destruct (eval_size sz q) as [q1 [size|]] eqn:ES; [|discriminate].
  apply eval_size_same in ES. destruct ES as [-> [k ->]].
  unfold mbind at 1, fix_r at 1, mmod at 1 in H. unfold mbind at 1, mget at 1 in H. cbv zeta in H.
  set (q2 := set_r _ _) in H.
  unfold mbind, mlift in H. destruct (calc_fint_num _ _ _ _ _ _ _ _ _) as [u0|] eqn:Ef; [|discriminate].
  match type of H with (if ?b then _ else _) _ = _ => destruct b eqn:Eb; [discriminate|] end.
  injection H as <- <-. apply orb_false_iff in Eb. destruct Eb as [E1 E2].
  apply Nat.ltb_ge in E1, E2.
  assert (Hcm : chosen_model q = mdl) by (unfold chosen_model; rewrite Em; reflexivity).
  rewrite Hcm. split; [reflexivity|]. split; [exact Ef|]. split; [exact E1|]. split; [exact E2|].
  split; [|reflexivity]. repeat constructor.
Qed.

Lemma ndof_view p : ndof (kernel_view p) = ndof (pn_sh p). Proof. reflexivity. Qed.

Theorem calc_fint_work E cl sz col0 nxo nyo Fo q q' u N v :
  calc_fint E cl sz col0 nxo nyo Fo q = (q', Ok u) ->
  geometry_ok (chosen_model q) (kernel_view q) -> (col0 + ndof (pn_sh q) <= N)%nat ->
  laminate_ok (default (pn_nx q) nxo) (default (pn_ny q) nyo) (fint_laminate Fo q) ->
  dot N (vdense u) v =
  integrate (e_rule E) (kernel_view q) (default (pn_nx q) nxo) (default (pn_ny q) nyo) (fun i j xi eta =>
    dot 6 (resultant (laminate_at (fint_laminate Fo q) i j)
             (doubled_strain (curvature (chosen_model q) (kernel_view q)) (e_basis E) (kernel_view q) (own col0 (vec cl)) xi eta))
          (dstrain (curvature (chosen_model q) (kernel_view q)) (e_basis E) (kernel_view q) (own col0 (vec cl)) (own col0 v) xi eta)).
Proof.
  intros H Hg HN HF. apply calc_fint_inv in H. destruct H as (_ & H & _).
  apply (fint_num_work _ _ _ _ _ _ _ _ _ _ N v Hg HN HF H).
Qed.

Lemma vec_along c t d k : length c = length d -> vec (along c t d) k = vec c k + t * vec d k.
Proof.
  intro H. unfold vec, along. revert d k H; induction c as [|x c IH]; intros [|y d] k H; try discriminate.
  - destruct k; cbn; ring.
  - destruct k; cbn; [ring|]. apply IH. injection H as H. exact H.
Qed.

Lemma fld_cext Bs s c d e p q xi eta : (forall k, c k = d k) -> fld Bs s c e p q xi eta = fld Bs s d e p q xi eta.
Proof.
  intro H. unfold fld, ritz. apply sumn_ext; intros j _. apply sumn_ext; intros i _. rewrite H. reflexivity.
Qed.
Lemma strain_cext kappa Bs s c d xi eta k : (forall k, c k = d k) -> strain kappa Bs s c xi eta k = strain kappa Bs s d xi eta k.
Proof.
  intro H. unfold strain. destruct k as [|[|[|[|[|[|k]]]]]]; cbn [lin_strain vk_strain];
  unfold d_ux, d_uy, d_vx, d_vy, d_w, d_wx, d_wy, d_wxx, d_wyy, d_wxy;
  rewrite ?(fld_cext Bs s c d) by exact H; reflexivity.
Qed.

Lemma integrate_ext' Q s nx ny f g : (forall i j xi eta, (i < nx)%nat -> (j < ny)%nat -> f i j xi eta = g i j xi eta) ->
  integrate Q s nx ny f = integrate Q s nx ny g.
Proof.
  intro H. unfold integrate. destruct (xregion s) as [xlo xhi], (yregion s) as [ylo yhi].
  apply suml_ext; intros [i x] Hx. apply suml_ext; intros [j y] Hy. f_equal.
  apply in_combine_l in Hx, Hy. apply in_seq in Hx, Hy. apply H; cbn [fst]; lia.
Qed.

Lemma derive_last (f : R -> R) (x l l' : R) : is_derive f x l -> l = l' -> is_derive f x l'.
Proof. intros H <-. exact H. Qed.

(* C30 *)
Theorem calc_fint_gradient E c d sz col0 nxo nyo Fo q q' u N :
  calc_fint E c sz col0 nxo nyo Fo q = (q', Ok u) -> length c = length d ->
  geometry_ok (chosen_model q) (kernel_view q) -> (col0 + ndof (pn_sh q) <= N)%nat ->
  laminate_ok (default (pn_nx q) nxo) (default (pn_ny q) nyo) (fint_laminate Fo q) ->
  let kappa := curvature (chosen_model q) (kernel_view q) in
  let Bs := e_basis E in let s := kernel_view q in
  let nx := default (pn_nx q) nxo in let ny := default (pn_ny q) nyo in
  let c0 := own col0 (vec c) in let d0 := own col0 (vec d) in
  is_derive (fun t => strain_energy (e_rule E) kappa Bs s nx ny (laminate_at (fint_laminate Fo q)) (own col0 (vec (along c t d)))) 0
   (dot N (vdense u) (vec d) -
    integrate (e_rule E) s nx ny (fun i j xi eta =>
      shear_work (laminate_at (fint_laminate Fo q) i j) (d_wx Bs s c0 xi eta * d_wy Bs s c0 xi eta)
        (dstrain kappa Bs s c0 d0 xi eta))).
Proof.
  intros H Hl Hg HN HF. cbv zeta. rewrite (calc_fint_work _ _ _ _ _ _ _ _ _ _ N (vec d) H Hg HN HF).
  eapply is_derive_ext; [|eapply derive_last; [apply (energy_derive (e_rule E) (curvature (chosen_model q) (kernel_view q)) (e_basis E)
    (kernel_view q) _ _ (laminate_at (fint_laminate Fo q)) (own col0 (vec c)) (own col0 (vec d)) HF)|]].
  - intro t. unfold strain_energy. f_equal. apply integrate_ext'. intros i j xi eta _ _.
    unfold form. apply sumn_ext; intros k _. apply sumn_ext; intros l _.
    rewrite !(strain_cext _ _ _ (own col0 (vec (along c t d))) (line (own col0 (vec c)) (own col0 (vec d)) t)); [reflexivity| |];
    intro j0; unfold own, line; apply vec_along; exact Hl.
  - match goal with |- ?a = ?b - ?c => enough (b = a + c) by lra end.
    rewrite <- integrate_plus. apply integrate_ext'. intros i j xi eta _ _. apply density_excess.
Qed.

Lemma doubled_cext kappa Bs s c d xi eta k : (forall k, c k = d k) -> doubled_strain kappa Bs s c xi eta k = doubled_strain kappa Bs s d xi eta k.
Proof.
  intro H. unfold doubled_strain. rewrite (strain_cext _ _ _ c d) by exact H. destruct k as [|[|[|k]]]; try reflexivity.
  unfold d_wx, d_wy. rewrite !(fld_cext Bs s c d) by exact H. reflexivity.
Qed.
Lemma dstrain_cext kappa Bs s c d v xi eta k : (forall k, c k = d k) -> dstrain kappa Bs s c v xi eta k = dstrain kappa Bs s d v xi eta k.
Proof.
  intro H. unfold dstrain. unfold d_wx, d_wy. rewrite !(fld_cext Bs s c d) by exact H. reflexivity.
Qed.

Lemma fint_laminate_settled E A p q : settled E p q -> fint_laminate (ka_F A) q = laminate_used E A p.
Proof. intros [A1 A2 A3 A4 A5]. unfold fint_laminate, laminate_used. rewrite A5. reflexivity. Qed.

(* derivative of the virtual work along a line *)
Theorem calc_fint_derivative E A p q c d v u q' N :
  settled E p q -> length c = length d ->
  (forall t, calc_fint E (along c t d) (ka_size A) (ka_col0 A) (ka_nx A) (ka_ny A) (ka_F A) q = (q' t, Ok (u t))) ->
  geometry_ok (chosen_model p) (kernel_view p) -> (ka_col0 A + ndof (pn_sh p) <= N)%nat ->
  laminate_ok (points_x A p) (points_y A p) (laminate_used E A p) ->
  let kappa := curvature (chosen_model p) (kernel_view p) in
  let Bs := e_basis E in let s := kernel_view p in
  let c0 := own (ka_col0 A) (vec c) in let d0 := own (ka_col0 A) (vec d) in let v0 := own (ka_col0 A) v in
  is_derive (fun t => dot N (vdense (u t)) v) 0
   (integrate (e_rule E) s (points_x A p) (points_y A p) (fun i j xi eta =>
    let F := laminate_at (laminate_used E A p) i j in
    form 6 F (dstrain kappa Bs s c0 v0 xi eta) (dstrain kappa Bs s c0 d0 xi eta) +
    (let N := resultant F (doubled_strain kappa Bs s c0 xi eta) in
     membrane_work Bs s (N 0%nat) (N 1%nat) (N 2%nat) v0 d0 xi eta) +
    shear_work F (cross Bs s c0 d0 xi eta) (dstrain kappa Bs s c0 v0 xi eta))).
Proof.
  intros HS Hl H Hg HN HF. cbv zeta.
  pose proof (st_setup _ _ _ HS) as HSS. destruct HSS as [A1 A2 A3 A4 A5 A6].
  eapply is_derive_ext; [|apply is_derive_integrate; intros i j xi eta Hi Hj; apply density_derive; apply HF; assumption].
  intro t. specialize (H t). cbv beta.
  rewrite (calc_fint_work _ _ _ _ _ _ _ _ _ _ N v H).
  - rewrite A2, A3. rewrite (fint_laminate_settled _ _ _ _ HS), (st_nx _ _ _ HS), (st_ny _ _ _ HS).
    apply integrate_ext'. intros i j xi eta _ _. unfold fint_density, dot, resultant. apply sumn_ext; intros k _.
    assert (Hln : forall k, own (ka_col0 A) (vec (along c t d)) k = line (own (ka_col0 A) (vec c)) (own (ka_col0 A) (vec d)) t k)
      by (intro k0; unfold own, line; apply vec_along; exact Hl).
    rewrite (dstrain_cext _ _ _ _ _ _ _ _ _ Hln). f_equal. apply sumn_ext; intros l _.
    rewrite (doubled_cext _ _ _ _ _ _ _ _ Hln). reflexivity.
  - rewrite A2, A3. exact Hg.
  - rewrite (si_sh _ _ A1). exact HN.
  - rewrite (fint_laminate_settled _ _ _ _ HS), (st_nx _ _ _ HS), (st_ny _ _ _ HS). exact HF.
Qed.

(* C31 *)
Theorem calc_kT_jacobian E A p p' K c d v u q N :
  calc_kT E A p = (p', Ok K) -> ka_c A = Some (CVec c) -> ka_fin A = true -> ka_row0 A = ka_col0 A ->
  length c = length d ->
  (forall t, calc_fint E (along c t d) (ka_size A) (ka_col0 A) (ka_nx A) (ka_ny A) (ka_F A) p' = (q t, Ok (u t))) ->
  geometry_ok (chosen_model p) (kernel_view p) -> (ka_col0 A + ndof (pn_sh p) <= N)%nat ->
  laminate_ok (points_x A p) (points_y A p) (laminate_used E A p) ->
  let kappa := curvature (chosen_model p) (kernel_view p) in
  let Bs := e_basis E in let s := kernel_view p in
  let c0 := own (ka_col0 A) (vec c) in let d0 := own (ka_col0 A) (vec d) in let v0 := own (ka_col0 A) v in
  let '(Nxx, Nyy, Nxy) := pn_N p in
  is_derive (fun t => dot N (vdense (u t)) v) 0
   (bilinear N K v (vec d)
    - integrate (e_rule E) s (points_x A p) (points_y A p) (fun i j xi eta => membrane_work Bs s Nxx Nyy Nxy v0 d0 xi eta)
    + integrate (e_rule E) s (points_x A p) (points_y A p) (fun i j xi eta =>
        shear_work (laminate_at (laminate_used E A p) i j)
          (d_wx Bs s c0 xi eta * d_wy Bs s d0 xi eta + d_wy Bs s c0 xi eta * d_wx Bs s d0 xi eta)
          (dstrain kappa Bs s c0 v0 xi eta))).
Proof.
  intros H Hc Hfin Hrc Hl Hu Hg HN HF. cbv zeta.
  pose proof (calc_kT_settled _ _ _ _ _ H) as HS.
  pose proof (calc_fint_derivative E A p p' c d v u q N HS Hl Hu Hg HN HF) as HD. cbv zeta in HD.
  apply calc_kT_inv in H. cbv zeta in H. destruct H as (p1 & p2 & kC & kG & HC & HG & -> & _).
  set (A' := mkKargs _ _ _ _ _ _ _ _ _ _) in *.
  assert (Hcte : pn_N_cte p = (0, 0, 0)).
  { apply calc_kC_inv in HC. destruct HC as (mdl & k1 & k2 & R). pose proof (kr_kG _ _ _ _ _ _ _ _ R) as Hk. cbv zeta in Hk.
    apply any3_0. destruct (pn_N_cte p) as [[x y] z].
    destruct Hk as [(_ & Hk & _)|[(_ & _ & Hk & _)|(l & Hk & _)]]; [exact Hk|discriminate Hk|discriminate Hk]. }
  pose proof (calc_kC_settled _ _ _ _ _ HC) as HS1.
  pose proof (st_setup _ _ _ HS1) as HSS.
  pose proof (calc_kC_energy E A' p p1 kC N v (vec d) HC ltac:(right; right; reflexivity) eq_refl Hcte Hfin Hrc Hg HN HF) as EC.
  destruct (same_setup_used E p p1 A' HSS) as (U1 & U2 & U3).
  pose proof (calc_kG_energy' E A' p1 p2 kG N v (vec d) HG ltac:(right; reflexivity) Hfin Hrc) as EG.
  destruct HSS as [A1 A2 A3 A4 A5 A6]. rewrite A2, A3, U1, U2, U3, (si_sh _ _ A1), (si_N _ _ A1) in EG.
  specialize (EG Hg HN HF).
  destruct (pn_N p) as [[Nxx Nyy] Nxy].
  eapply derive_last; [exact HD|].
  unfold bilinear in *. 
  replace (sumn N (fun i => sumn N (fun j => v i * (kC i j + kG i j) * vec d j))) with
    (sumn N (fun i => sumn N (fun j => v i * kC i j * vec d j)) + sumn N (fun i => sumn N (fun j => v i * kG i j * vec d j))).
  2:{ rewrite <- sumn_plus. apply sumn_ext; intros. rewrite <- sumn_plus. apply sumn_ext; intros. ring. }
  rewrite EC, EG.
  match goal with |- ?a = ?b + ?c - ?e + ?f => enough (a + e = b + c + f) by lra end.
  change (points_x A' p) with (points_x A p). change (points_y A' p) with (points_y A p).
  change (laminate_used E A' p) with (laminate_used E A p).
  rewrite <- !integrate_plus. apply integrate_ext'. intros i j xi eta _ _. cbv zeta.
  unfold A'; cbn [ka_NL ka_col0 ka_c]. rewrite Hc. cbn [state given_vector]. unfold cross, membrane_work.
  set (ds := doubled_strain _ _ _ _ _ _). change (fun k => ds k) with ds. ring.
Qed.

(* ------------------------------------- states without deflection *)
Lemma fld_flat Bs s c p q xi eta :
  (forall k, (k < sh_m s * sh_n s)%nat -> c (3 * k + 2)%nat = 0) -> fld Bs s c 2 p q xi eta = 0.
Proof.
  intro H. unfold fld, ritz. apply sumn_0. intros j Hj. apply sumn_0. intros i Hi.
  rewrite H; [ring|]. nia.
Qed.
Lemma flat_doubled kappa Bs s c xi eta k : d_wx Bs s c xi eta = 0 -> d_wy Bs s c xi eta = 0 ->
  doubled_strain kappa Bs s c xi eta k = lin_strain kappa Bs s c xi eta k.
Proof.
  intros Hx Hy. unfold doubled_strain, strain.
  destruct k as [|[|[|[|[|[|k]]]]]]; cbn [vk_strain]; rewrite ?Hx, ?Hy; lra.
Qed.
Lemma flat_dstrain kappa Bs s c v xi eta k : d_wx Bs s c xi eta = 0 -> d_wy Bs s c xi eta = 0 ->
  dstrain kappa Bs s c v xi eta k = lin_strain kappa Bs s v xi eta k.
Proof.
  intros Hx Hy. unfold dstrain. destruct k as [|[|[|[|[|[|k]]]]]]; rewrite ?Hx, ?Hy; lra.
Qed.

Lemma d_flat Bs s c xi eta : (forall k, (k < sh_m s * sh_n s)%nat -> c (3 * k + 2)%nat = 0) ->
  d_wx Bs s c xi eta = 0 /\ d_wy Bs s c xi eta = 0.
Proof. intro H. unfold d_wx, d_wy. rewrite !fld_flat by exact H. split; ring. Qed.

(* C29 *)
Theorem calc_fint_flat E A p p' K c u q N v :
  calc_kC E A p = (p', Ok K) -> numeric_kC A -> ka_NL A = false -> ka_c_cte A = None -> pn_N_cte p = (0, 0, 0) ->
  ka_fin A = true -> ka_row0 A = ka_col0 A ->
  geometry_ok (chosen_model p) (kernel_view p) -> (ka_col0 A + ndof (pn_sh p) <= N)%nat ->
  laminate_ok (points_x A p) (points_y A p) (laminate_used E A p) ->
  calc_fint E c (ka_size A) (ka_col0 A) (ka_nx A) (ka_ny A) (ka_F A) p' = (q, Ok u) ->
  (forall k, (k < sh_m (pn_sh p) * sh_n (pn_sh p))%nat -> own (ka_col0 A) (vec c) (3 * k + 2)%nat = 0) ->
  dot N (vdense u) v = bilinear N K v (vec c).
Proof.
  intros H Hnum HNL Hcte HNc Hfin Hrc Hg HN HF Hu Hflat.
  pose proof (calc_kC_settled _ _ _ _ _ H) as HS. pose proof (st_setup _ _ _ HS) as [A1 A2 A3 A4 A5 A6].
  rewrite (calc_kC_energy E A p p' K N v (vec c) H Hnum Hcte HNc Hfin Hrc Hg HN HF).
  rewrite (calc_fint_work _ _ _ _ _ _ _ _ _ _ N v Hu).
  - rewrite A2, A3. rewrite (fint_laminate_settled _ _ _ _ HS), (st_nx _ _ _ HS), (st_ny _ _ _ HS).
    apply integrate_ext'. intros i j xi eta _ _. cbv zeta. rewrite HNL. cbn [state].
    destruct (d_flat (e_basis E) (kernel_view p) (own (ka_col0 A) (vec c)) xi eta Hflat) as [Hx Hy].
    destruct (d_flat (e_basis E) (kernel_view p) (fun _ => 0) xi eta (fun _ _ => eq_refl)) as [Zx Zy].
    unfold dot, resultant, form. apply sumn_ext; intros k _. rewrite Rmult_comm, <- sumn_scal. apply sumn_ext; intros l _.
    rewrite (flat_doubled _ _ _ _ _ _ _ Hx Hy), (flat_dstrain _ _ _ _ _ _ _ _ Hx Hy), !(flat_dstrain _ _ _ _ _ _ _ _ Zx Zy). ring.
  - rewrite A2, A3. exact Hg.
  - rewrite (si_sh _ _ A1). exact HN.
  - rewrite (fint_laminate_settled _ _ _ _ HS), (st_nx _ _ _ HS), (st_ny _ _ _ HS). exact HF.
Qed.

Theorem calc_fint_tangent_at_rest E A p p' K c d u q N v :
  calc_kC E A p = (p', Ok K) -> numeric_kC A -> ka_NL A = false -> ka_c_cte A = None -> pn_N_cte p = (0, 0, 0) ->
  ka_fin A = true -> ka_row0 A = ka_col0 A ->
  geometry_ok (chosen_model p) (kernel_view p) -> (ka_col0 A + ndof (pn_sh p) <= N)%nat ->
  laminate_ok (points_x A p) (points_y A p) (laminate_used E A p) ->
  length c = length d -> (forall k, vec c k = 0) ->
  (forall t, calc_fint E (along c t d) (ka_size A) (ka_col0 A) (ka_nx A) (ka_ny A) (ka_F A) p' = (q t, Ok (u t))) ->
  is_derive (fun t => dot N (vdense (u t)) v) 0 (bilinear N K v (vec d)).
Proof.
  intros H Hnum HNL Hcte HNc Hfin Hrc Hg HN HF Hl H0 Hu.
  pose proof (calc_kC_settled _ _ _ _ _ H) as HS.
  pose proof (calc_fint_derivative E A p p' c d v u q N HS Hl Hu Hg HN HF) as HD. cbv zeta in HD.
  eapply derive_last; [exact HD|].
  rewrite (calc_kC_energy E A p p' K N v (vec d) H Hnum Hcte HNc Hfin Hrc Hg HN HF).
  apply integrate_ext'. intros i j xi eta _ _. cbv zeta. rewrite HNL. cbn [state].
  set (c0 := own (ka_col0 A) (vec c)).
  assert (Hz : forall k, c0 k = 0) by (intro k; apply H0).
  destruct (d_flat (e_basis E) (kernel_view p) c0 xi eta (fun k _ => Hz _)) as [Hx Hy].
  unfold cross. rewrite Hx, Hy.
  set (F := laminate_at _ i j).
  assert (HR : forall k, resultant F (doubled_strain (curvature (chosen_model p) (kernel_view p)) (e_basis E) (kernel_view p) c0 xi eta) k = 0).
  { intro k. unfold resultant. apply sumn_0. intros l _.
    rewrite (flat_doubled _ _ _ _ _ _ _ Hx Hy).
    replace (lin_strain _ _ _ _ _ _ l) with 0; [ring|].
    destruct l as [|[|[|[|[|[|l]]]]]]; cbn [lin_strain]; unfold d_ux, d_uy, d_vx, d_vy, d_w, d_wxx, d_wyy, d_wxy, fld, ritz;
    repeat (rewrite (sumn_0 (sh_n (kernel_view p))); [|intros j' _; apply sumn_0; intros i' _; rewrite Hz; ring]); ring. }
  rewrite !HR.
  assert (Hzz : forall k, c0 k = (fun _ : nat => 0) k) by exact Hz.
  unfold form. rewrite (sumn_ext 6 (fun i0 => sumn 6 _) (fun i0 => sumn 6 (fun j0 =>
     F i0 j0 * dstrain (curvature (chosen_model p) (kernel_view p)) (e_basis E) (kernel_view p) (fun _ => 0) (own (ka_col0 A) v) xi eta i0 *
     dstrain (curvature (chosen_model p) (kernel_view p)) (e_basis E) (kernel_view p) (fun _ => 0) (own (ka_col0 A) (vec d)) xi eta j0))).
  - unfold membrane_work, shear_work. rewrite (sumn_0 6 (fun k => F k 2%nat * _ * _)) by (intros; ring). ring.
  - intros i0 _. apply sumn_ext; intros j0 _. rewrite !(dstrain_cext _ _ _ _ _ _ _ _ _ Hzz). reflexivity.
Qed.

(* ------------------------------------- calls that succeed *)
Theorem calc_fint_ok E c sz col0 nxo nyo Fo q mdl :
  pn_model q = Some (Known mdl) ->
  laminate_shape (default (pn_nx q) nxo) (default (pn_ny q) nyo) Fo -> (Fo = None -> pn_ABD q <> None) ->
  (col0 + ndof (pn_sh q) <= length c)%nat -> (col0 + ndof (pn_sh q) <= size_value sz (pn_sh q))%nat ->
  exists q' u, calc_fint E c sz col0 nxo nyo Fo q = (q', Ok u).
Proof.
  intros Hm HF HABD Hlen Hsz. unfold calc_fint.
  unfold mbind at 1, mget at 1. rewrite Hm.
  assert (HS : exists k, eval_size sz q = (set_size q k, Ok (size_value sz (pn_sh q)))).
  { destruct sz; cbn [eval_size].
    - unfold get_size, mbind, the_model. rewrite Hm. eexists; reflexivity.
    - exists (pn_size q). destruct q; reflexivity.
    - unfold mbind, get_size, mbind, the_model. rewrite Hm. eexists; reflexivity. }
  destruct HS as [k HS]. unfold mbind at 1. rewrite HS. unfold mbind at 1, fix_r at 1, mmod at 1.
  unfold mbind at 1, mget at 1. cbv zeta. set (q2 := set_r _ _).
  assert (HE : exists F, sel_F (default (pn_nx q2) nxo) (default (pn_ny q2) nyo)
     (match Fo with Some F => F | None => match pn_ABD q2 with Some F => FMat F | None => FOther end end) = Ok F).
  { change (pn_ABD q2) with (pn_ABD q). change (pn_nx q2) with (pn_nx q). change (pn_ny q2) with (pn_ny q).
    destruct Fo as [[F|px py F|]|]; cbn [sel_F laminate_shape] in *.
    - eauto.
    - destruct HF as [<- <-]. rewrite !Nat.eqb_refl. eexists; reflexivity.
    - contradiction.
    - destruct (pn_ABD q); [eexists; reflexivity|]. exfalso. apply HABD; reflexivity. }
  destruct HE as [F HE]. unfold mbind, mlift.
  assert (HC : exists u, calc_fint_num mdl (e_rule E) (e_basis E) (vec c)
    (match Fo with Some F => F | None => match pn_ABD q2 with Some F => FMat F | None => FOther end end)
    (kernel_view q2) col0 (default (pn_nx q2) nxo) (default (pn_ny q2) nyo) = Ok u).
  { destruct mdl; cbn [calc_fint_num]; unfold plate_calc_fint, cyl_calc_fint; rewrite HE; eexists; reflexivity. }
  destruct HC as [u HC]. rewrite HC.
  match goal with |- context [if ?b then _ else _] => replace b with false end.
  - eexists; eexists; reflexivity.
  - symmetry. apply orb_false_iff. split; apply Nat.ltb_ge; assumption.
Qed.

Theorem calc_kT_ok E A p :
  complete p ->
  let size := size_value (ka_size A) (pn_sh p) in
  (ka_row0 A + ndof (pn_sh p) <= size)%nat -> (ka_col0 A + ndof (pn_sh p) <= size)%nat ->
  vector_ok size (ka_c A) -> ka_c A <> None -> pn_N_cte p = (0, 0, 0) ->
  laminate_shape (points_x A p) (points_y A p) (ka_F A) ->
  exists p' K, calc_kT E A p = (p', Ok K).
Proof.
  cbv zeta. intros Hcomp Hr Hc Hv Hcn HN HF. unfold calc_kT. cbv zeta.
  set (A' := mkKargs _ _ _ _ _ _ _ _ _ _).
  destruct (calc_kC_ok E A' p Hcomp Hr Hc Hv eq_refl HN HF (fun _ => Hcn)) as (p1 & kC & HC).
  unfold mbind at 1. rewrite HC.
  pose proof (calc_kC_settled _ _ _ _ _ HC) as HS. pose proof (st_setup _ _ _ HS) as HSS.
  destruct (same_setup_used E p p1 A' HSS) as (_ & U2 & U3). pose proof (ss_in _ _ _ HSS) as Hin.
  destruct (calc_kG_ok E A' p1) as (p2 & kG & HG).
  - apply calc_kC_inv in HC. destruct HC as (mdl & k1 & k2 & [(p0 & Hp0 & Hs) _ _ _ _ _ _ _]).
    apply rebuild_inv in Hp0. destruct Hp0 as (_ & _ & _ & _ & _ & _ & _ & _ & Hpt & Hpr & _ & _ & _ & _ & _ & Hne & _ & _).
    destruct Hcomp as (Hc1 & Hc2 & Hc3 & Hc4).
    split; [rewrite (st_model _ _ _ HS); discriminate|]. split; [rewrite (si_stack _ _ Hin); exact Hc2|].
    split; left.
    + rewrite (sr_props _ _ Hs), Hpr. unfold rebuilt_props. destruct (pn_laminaprops p); [apply map_nonnil; exact Hc2|discriminate].
    + rewrite (sr_plyts _ _ Hs), Hpt. unfold rebuilt_plyts. destruct (pn_plyts p); [apply map_nonnil; exact Hc2|discriminate].
  - rewrite (si_sh _ _ Hin). exact Hr.
  - rewrite (si_sh _ _ Hin). exact Hc.
  - rewrite (si_sh _ _ Hin). exact Hv.
  - rewrite U2, U3. exact HF.
  - unfold mbind at 1. rewrite HG. eexists; eexists; reflexivity.
Qed.

(* ------------------------------------- positivity of an integral *)
Lemma suml_pos {A} (l : list A) f : l <> [] -> (forall x, In x l -> 0 < f x) -> 0 < suml l f.
Proof.
  destruct l as [|x l]; [congruence|]. intros _ H. cbn [suml]. assert (0 < f x) by (apply H; left; reflexivity).
  assert (0 <= suml l f); [|lra]. assert (H' : forall y, In y l -> 0 < f y) by (intros; apply H; right; assumption).
  clear -H'. induction l as [|y l IH]; cbn [suml]; [lra|]. assert (0 < f y) by (apply H'; left; reflexivity).
  assert (0 <= suml l f) by (apply IH; intros; apply H'; right; assumption). lra.
Qed.
Lemma combine_nonnil {A} n (l : list A) : n <> 0%nat -> l <> [] -> combine (seq 0 n) l <> [].
Proof. destruct n; [congruence|]. destruct l; [congruence|]. discriminate. Qed.

Lemma integrate_gt0 Q s nx ny g : 0 < sh_a s -> 0 < sh_b s -> sh_x1 s = -1 -> sh_y1 s = -1 ->
  nx <> 0%nat -> ny <> 0%nat -> Q nx <> [] -> Q ny <> [] ->
  (forall t, In t (Q nx) -> -1 < fst t < 1 /\ 0 < snd t) -> (forall t, In t (Q ny) -> -1 < fst t < 1 /\ 0 < snd t) ->
  (forall i j xi eta, -1 < xi < 1 -> -1 < eta < 1 -> 0 < g i j xi eta) ->
  0 < integrate Q s nx ny g.
Proof.
  intros Ha Hb Hx1 Hy1 Hnx Hny Qx Qy HQx HQy Hg. unfold integrate, xregion, yregion, interval.
  rewrite Hx1, Hy1. destruct (Req_EM_T (-1) (-1)) as [_|H]; [|exfalso; apply H; reflexivity].
  apply suml_pos; [apply combine_nonnil; assumption|]. intros [i [x w]] Hx.
  apply suml_pos; [apply combine_nonnil; assumption|]. intros [j [y w']] Hy.
  apply in_combine_r in Hx, Hy. apply HQx in Hx. apply HQy in Hy. cbn [fst snd] in *.
  assert (E1 : natural (node 0 (sh_a s) x) (sh_a s) = x) by (unfold natural, node; field; lra).
  assert (E2 : natural (node 0 (sh_b s) y) (sh_b s) = y) by (unfold natural, node; field; lra).
  rewrite E1, E2. specialize (Hg i j x y (proj1 Hx) (proj1 Hy)).
  repeat apply Rmult_lt_0_compat; lra.
Qed.
