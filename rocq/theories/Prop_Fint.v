(* Properties of Shell.calc_fint and Shell.calc_kT. Vocabulary: Spec_*.v.
   `vdense u` is the vector returned; `dot N x y` the scalar product of vectors of N entries;
   `along c t d` the vector c + t d. *)
From Coq Require Import Reals List Arith Bool Lia Lra.
From Coquelicot Require Import Coquelicot.
From Verif Require Import Base_Sum Model_Types Model_Coo Model_Result Model_Num Model_DB Model_Bardell Model_Shell
  Spec_Algebra Spec_Kinematics Spec_Quadrature Spec_Panel Spec_Shell
  Proof_Shell Proof_Total Proof_Api Proof_Gauss Proof_Fint2 Proof_FintApi Ex_Panel Ex_Fint.
Import ListNotations.
Open Scope R_scope.

(* C29: for every state without deflection the internal force is the linear stiffness times the state,
   the stiffness having been requested with the same numbers of points and the same laminate. *)
Theorem C29_internal_force_of_flat_state :
  forall E A p p' K c u q N v,
  calc_kC E A p = (p', Ok K) -> ka_c A <> None \/ ka_F A <> None \/ ka_NL A = true -> ka_NL A = false ->
  ka_c_cte A = None -> pn_N_cte p = (0, 0, 0) ->
  ka_fin A = true -> ka_row0 A = ka_col0 A ->
  geometry_ok (chosen_model p) (kernel_view p) -> (ka_col0 A + ndof (pn_sh p) <= N)%nat ->
  laminate_ok (points_x A p) (points_y A p) (laminate_used E A p) ->
  calc_fint E c (ka_size A) (ka_col0 A) (ka_nx A) (ka_ny A) (ka_F A) p' = (q, Ok u) ->
  (forall k, (k < sh_m (pn_sh p) * sh_n (pn_sh p))%nat -> own (ka_col0 A) (vec c) (3 * k + 2)%nat = 0) ->
  dot N (vdense u) v = bilinear N K v (vec c).
Proof. exact calc_fint_flat. Qed.
Print Assumptions C29_internal_force_of_flat_state.

(* C29: the derivative of the internal force at rest, in any direction (deflection included), is the
   linear stiffness. *)
Theorem C29_internal_force_linearises_to_stiffness :
  forall E A p p' K c d u q N v,
  calc_kC E A p = (p', Ok K) -> ka_c A <> None \/ ka_F A <> None \/ ka_NL A = true -> ka_NL A = false ->
  ka_c_cte A = None -> pn_N_cte p = (0, 0, 0) ->
  ka_fin A = true -> ka_row0 A = ka_col0 A ->
  geometry_ok (chosen_model p) (kernel_view p) -> (ka_col0 A + ndof (pn_sh p) <= N)%nat ->
  laminate_ok (points_x A p) (points_y A p) (laminate_used E A p) ->
  length c = length d -> (forall k, vec c k = 0) ->
  (forall t, calc_fint E (along c t d) (ka_size A) (ka_col0 A) (ka_nx A) (ka_ny A) (ka_F A) p' = (q t, Ok (u t))) ->
  is_derive (fun t => dot N (vdense (u t)) v) 0 (bilinear N K v (vec d)).
Proof. exact calc_fint_tangent_at_rest. Qed.
Print Assumptions C29_internal_force_linearises_to_stiffness.

(* membrane state (1, 2, 0), (4, 5, 0), ... of the example panel, placed at row 2 *)
Definition flat_vec : list R := map (fun k => if (k mod 3 =? 1)%nat then 0 else INR k) (seq 0 65).
Example C29_hypotheses_met : forall r, r <> Some 0 ->
  exists p' K q u, calc_kC ex_env (ex_args false) (ex_panel r) = (p', Ok K) /\
  calc_fint ex_env flat_vec (SStr 5) 2 None None None p' = (q, Ok u) /\
  geometry_ok (chosen_model (ex_panel r)) (kernel_view (ex_panel r)) /\
  laminate_ok (points_x (ex_args false) (ex_panel r)) (points_y (ex_args false) (ex_panel r))
    (laminate_used ex_env (ex_args false) (ex_panel r)) /\
  (forall k, (k < 4 * 5)%nat -> own 2 (vec flat_vec) (3 * k + 2)%nat = 0) /\ own 2 (vec flat_vec) 0%nat = 2.
Proof.
  intros r Hr. destruct (ex_kC_runs r false) as (p' & K & HK). exists p', K.
  pose proof (calc_kC_settled _ _ _ _ _ HK) as HS. pose proof (si_sh _ _ (ss_in _ _ _ (st_setup _ _ _ HS))) as Hsh.
  destruct (calc_fint_ok ex_env flat_vec (SStr 5) 2 None None None p' _ (st_model _ _ _ HS)) as (q & u & Hu).
  - exact I.
  - intros _. rewrite (st_ABD _ _ _ HS). discriminate.
  - rewrite Hsh. cbn. lia.
  - rewrite Hsh. cbn. lia.
  - exists q, u. split; [exact HK|]. split; [exact Hu|]. split; [apply ex_geometry; exact Hr|].
    split; [intros i j _ _; apply ex_ABD_is|]. split.
    + intros k Hk. do 20 (destruct k as [|k]; [reflexivity|]). exfalso; lia.
    + unfold own, vec, flat_vec. cbn -[INR]. cbn. ring.
Qed.

(* C30, partial: the coded internal force is the gradient of the von Karman strain energy plus an
   explicit excess, the work on the strains of the shear stress due to one more w,x w,y.  What is
   missing is that the excess should not be there: see the refutation below. *)
Theorem C30_internal_force_is_gradient_partial :
  forall E c d sz col0 nxo nyo Fo q q' u N,
  calc_fint E c sz col0 nxo nyo Fo q = (q', Ok u) -> length c = length d ->
  geometry_ok (chosen_model q) (kernel_view q) -> (col0 + ndof (pn_sh q) <= N)%nat ->
  laminate_ok (default (pn_nx q) nxo) (default (pn_ny q) nyo) (fint_laminate Fo q) ->
  let kappa := curvature (chosen_model q) (kernel_view q) in
  let Bs := e_basis E in let s := kernel_view q in
  let nx := default (pn_nx q) nxo in let ny := default (pn_ny q) nyo in
  let c0 := own col0 (vec c) in let d0 := own col0 (vec d) in
  is_derive (fun t => strain_energy (e_rule E) kappa Bs s nx ny (laminate_at (fint_laminate Fo q)) (own col0 (vec (along c t d)))) 0
   (dot N (vdense u) (vec d) -
    integrate (e_rule E) s nx ny (fun i j xi eta =>
      shear_work (laminate_at (fint_laminate Fo q) i j) (d_wx Bs s c0 xi eta * d_wy Bs s c0 xi eta)
        (dstrain kappa Bs s c0 d0 xi eta))).
Proof. exact calc_fint_gradient. Qed.
Print Assumptions C30_internal_force_is_gradient_partial.

(* C30 refuted: a plate with one term per direction, a 2 x 2 rule and a diagonal laminate, all with the
   package's own functions and rules. *)
Theorem C30_internal_force_is_gradient_refuted :
  exists c d q q' u,
  calc_fint ex_env c SNone 0 None None None q = (q', Ok u) /\ length c = length d /\
  geometry_ok (chosen_model q) (kernel_view q) /\ ndof (pn_sh q) = 3%nat /\
  laminate_ok (pn_nx q) (pn_ny q) (fint_laminate None q) /\
  ~ is_derive (fun t => strain_energy code_rule (curvature (chosen_model q) (kernel_view q)) code_basis (kernel_view q)
                 (pn_nx q) (pn_ny q) (laminate_at (fint_laminate None q)) (own 0 (vec (along c t d)))) 0
      (dot 3 (vdense u) (vec d)).
Proof.
  destruct one_kT as (p' & K & HK). pose proof (calc_kT_settled _ _ _ _ _ HK) as HS.
  pose proof (st_setup _ _ _ HS) as [A1 A2 A3 A4 A5 A6].
  destruct (calc_fint_ok ex_env one_vec SNone 0 None None None p' PlateModel (st_model _ _ _ HS)) as (q & u & Hu).
  - exact I.
  - intros _. rewrite (st_ABD _ _ _ HS). discriminate.
  - rewrite (si_sh _ _ A1). cbn. lia.
  - rewrite (si_sh _ _ A1). cbn. lia.
  - assert (Hg : geometry_ok (chosen_model p') (kernel_view p')) by (rewrite A2, A3; apply one_geometry).
    assert (HL : fint_laminate None p' = FMat ex_ABD) by (unfold fint_laminate; rewrite (st_ABD _ _ _ HS); reflexivity).
    assert (HF : laminate_ok (pn_nx p') (pn_ny p') (fint_laminate None p')) by (rewrite HL; intros i j _ _; apply ex_ABD_is).
    assert (HN : (0 + ndof (pn_sh p') <= 3)%nat) by (rewrite (si_sh _ _ A1); cbn; lia).
    exists one_vec, one_vec, p', q, u. split; [exact Hu|]. split; [reflexivity|]. split; [exact Hg|].
    split; [rewrite (si_sh _ _ A1); reflexivity|]. split; [exact HF|].
    intro HD. pose proof (calc_fint_gradient ex_env one_vec one_vec SNone 0 None None None p' q u 3 Hu eq_refl Hg HN HF) as HG.
    cbv zeta in HG. change (e_rule ex_env) with code_rule in HG. change (e_basis ex_env) with code_basis in HG.
    cbn [default] in HG. apply is_derive_unique in HD. apply is_derive_unique in HG. rewrite HD in HG.
    rewrite A2, A3, HL, (st_nx _ _ _ HS), (st_ny _ _ _ HS) in HG.
    match type of HG with ?x = ?x - ?y => assert (HP : 0 < y); [|lra] end.
    apply one_integral. intros i j xi eta Hx He. apply one_shear; assumption.
Qed.
Print Assumptions C30_internal_force_is_gradient_refuted.

(* C31, partial: the derivative of the internal force at c in direction d is kT d, minus the part of
   kT due to the applied loads Nxx, Nyy, Nxy, plus an explicit excess (the shear stress due to the
   derivative of one more w,x w,y).  Missing: the excess should not be there, see below. *)
Theorem C31_tangent_is_jacobian_partial :
  forall E A p p' K c d v u q N,
  calc_kT E A p = (p', Ok K) -> ka_c A = Some (CVec c) -> ka_fin A = true -> ka_row0 A = ka_col0 A ->
  length c = length d ->
  (forall t, calc_fint E (along c t d) (ka_size A) (ka_col0 A) (ka_nx A) (ka_ny A) (ka_F A) p' = (q t, Ok (u t))) ->
  geometry_ok (chosen_model p) (kernel_view p) -> (ka_col0 A + ndof (pn_sh p) <= N)%nat ->
  laminate_ok (points_x A p) (points_y A p) (laminate_used E A p) ->
  let kappa := curvature (chosen_model p) (kernel_view p) in
  let Bs := e_basis E in let s := kernel_view p in
  let c0 := own (ka_col0 A) (vec c) in let d0 := own (ka_col0 A) (vec d) in let v0 := own (ka_col0 A) v in
  let '(Nxx, Nyy, Nxy) := pn_N p in
  is_derive (fun t => dot N (vdense (u t)) v) 0
   (bilinear N K v (vec d)
    - integrate (e_rule E) s (points_x A p) (points_y A p) (fun i j xi eta => membrane_work Bs s Nxx Nyy Nxy v0 d0 xi eta)
    + integrate (e_rule E) s (points_x A p) (points_y A p) (fun i j xi eta =>
        shear_work (laminate_at (laminate_used E A p) i j)
          (d_wx Bs s c0 xi eta * d_wy Bs s d0 xi eta + d_wy Bs s c0 xi eta * d_wx Bs s d0 xi eta)
          (dstrain kappa Bs s c0 v0 xi eta))).
Proof. exact calc_kT_jacobian. Qed.
Print Assumptions C31_tangent_is_jacobian_partial.

(* C31 refuted: the same plate, without applied loads. *)
Theorem C31_tangent_is_jacobian_refuted :
  exists A p p' K c d v u q,
  calc_kT ex_env A p = (p', Ok K) /\ ka_c A = Some (CVec c) /\ ka_fin A = true /\ ka_row0 A = ka_col0 A /\
  length c = length d /\
  (forall t, calc_fint ex_env (along c t d) (ka_size A) (ka_col0 A) (ka_nx A) (ka_ny A) (ka_F A) p' = (q t, Ok (u t))) /\
  geometry_ok (chosen_model p) (kernel_view p) /\ (ka_col0 A + ndof (pn_sh p) <= 3)%nat /\
  laminate_ok (points_x A p) (points_y A p) (laminate_used ex_env A p) /\ pn_N p = (0, 0, 0) /\
  ~ is_derive (fun t => dot 3 (vdense (u t)) v) 0 (bilinear 3 K v (vec d)).
Proof.
  destruct one_kT as (p' & K & HK). pose proof (calc_kT_settled _ _ _ _ _ HK) as HS.
  assert (HU : forall t, one_fint p' t = (fst (one_fint p' t), Ok (fint_of (one_fint p' t)))) by (intro t; apply one_fint_ok; exact HS).
  exists one_args, one_panel, p', K, one_vec, one_vec, (vec one_vec), (fun t => fint_of (one_fint p' t)), (fun t => fst (one_fint p' t)).
  assert (HN : (ka_col0 one_args + ndof (pn_sh one_panel) <= 3)%nat) by (cbn; lia).
  split; [exact HK|]. split; [reflexivity|]. split; [reflexivity|]. split; [reflexivity|]. split; [reflexivity|].
  split; [exact HU|]. split; [apply one_geometry|]. split; [exact HN|].
  split; [apply one_laminate|]. split; [reflexivity|].
  intro HD. pose proof (calc_kT_jacobian ex_env one_args one_panel p' K one_vec one_vec (vec one_vec) (fun t => fint_of (one_fint p' t))
     (fun t => fst (one_fint p' t)) 3 HK eq_refl eq_refl eq_refl eq_refl HU one_geometry HN one_laminate) as HG.
  cbv zeta in HG. change (pn_N one_panel) with (0, 0, 0) in HG. cbv iota beta in HG.
  apply is_derive_unique in HD. apply is_derive_unique in HG. rewrite HD in HG.
  match type of HG with ?x = ?x - ?z + ?y => assert (HP : 0 < y); [|assert (HZ : z = 0); [|lra]] end.
  - apply one_integral. intros i j xi eta Hx He. pose proof (one_shear xi eta Hx He) as HS1.
    change (e_basis ex_env) with code_basis. change (ka_col0 one_args) with 0%nat.
    change (laminate_at _ i j) with ex_ABD. change (curvature _ _) with 0 in *.
    match goal with |- 0 < shear_work ?F ?g ?e => replace (shear_work F g e) with (2 * shear_work F (d_wx code_basis s1 (own 0 (vec one_vec)) xi eta * d_wy code_basis s1 (own 0 (vec one_vec)) xi eta) e); [lra|] end.
    unfold shear_work. rewrite <- sumn_scal. apply sumn_ext; intros; ring.
  - rewrite (integrate_ext' _ _ _ _ _ (fun _ _ _ _ => 0 * 0)) by (intros; unfold membrane_work; ring).
    rewrite integrate_scal. ring.
Qed.
Print Assumptions C31_tangent_is_jacobian_refuted.

(* the hypotheses of the partial theorems, met about a state with deflection, in-plane motion and an
   offset in a larger vector *)
Example C30_C31_hypotheses_met : forall r, r <> Some 0 ->
  exists p' K, calc_kT ex_env (ex_args true) (ex_panel r) = (p', Ok K) /\
  (forall t, exists q u, calc_fint ex_env (along (ex_vec 65) t (ex_vec 65)) (SStr 5) 2 None None None p' = (q, Ok u)) /\
  geometry_ok (chosen_model (ex_panel r)) (kernel_view (ex_panel r)) /\
  (2 + ndof (pn_sh (ex_panel r)) <= 65)%nat /\
  laminate_ok (points_x (ex_args true) (ex_panel r)) (points_y (ex_args true) (ex_panel r))
    (laminate_used ex_env (ex_args true) (ex_panel r)).
Proof.
  intros r Hr. destruct (calc_kT_ok ex_env (ex_args true) (ex_panel r)) as (p' & K & HK); try reflexivity; try (cbn; lia).
  - apply ex_complete.
  - discriminate.
  - exists p', K. split; [exact HK|].
    pose proof (calc_kT_settled _ _ _ _ _ HK) as HS. pose proof (si_sh _ _ (ss_in _ _ _ (st_setup _ _ _ HS))) as Hsh.
    split; [|split; [apply ex_geometry; exact Hr|split; [cbn; lia|intros i j _ _; apply ex_ABD_is]]].
    intro t. apply (calc_fint_ok ex_env _ (SStr 5) 2 None None None p' _ (st_model _ _ _ HS)).
    + exact I.
    + intros _. rewrite (st_ABD _ _ _ HS). discriminate.
    + rewrite Hsh. unfold along. rewrite map_length, combine_length. cbn. lia.
    + rewrite Hsh. cbn. lia.
Qed.
