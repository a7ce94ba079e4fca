(* A plate with one term per direction on which the internal force, the energy and the tangent
   disagree. *)
From Coq Require Import Reals List Arith Bool Lia Lra.
From Coquelicot Require Import Coquelicot.
From Verif Require Import Base_Sum Model_Types Model_Coo Model_Result Model_Num Model_DB Model_Bardell Model_Shell
  Spec_Algebra Spec_Kinematics Spec_Quadrature Spec_Panel Spec_Shell Proof_Shell Proof_Total Proof_Api
  Proof_Gauss Proof_Fint2 Proof_FintApi Ex_Panel.
Import ListNotations.
Open Scope R_scope.

Definition one_shell : shell := mkShell 2 3 0 1 1 (-1) 1 (-1) 1 0 0 free free free free free free.
Definition one_panel : panel :=
  mkPanel one_shell None None 2 2 [0] (Some (1/8)) [] [1; 2; 3] [] (1300) [] 0 false None None None
    (0, 0, 0) (0, 0, 0) (Some true) None None (Some 1) (Some 2) (Some 3) None None None None None.
Definition one_vec : list R := [0; 0; 1].
Definition one_args : kargs := mkKargs SNone 0 0 true (Some (CVec one_vec)) None None None None true.

Lemma one_complete : complete one_panel.
Proof. unfold complete, one_panel; cbn. repeat split; try discriminate; right; discriminate. Qed.
Lemma one_geometry : geometry_ok (chosen_model one_panel) (kernel_view one_panel).
Proof. unfold geometry_ok; cbn. repeat split; try lra. discriminate. Qed.
Lemma one_laminate : laminate_ok (points_x one_args one_panel) (points_y one_args one_panel) (laminate_used ex_env one_args one_panel).
Proof. intros i j _ _. apply ex_ABD_is. Qed.
Lemma one_kT : exists p' K, calc_kT ex_env one_args one_panel = (p', Ok K).
Proof.
  apply calc_kT_ok; try reflexivity; try (cbn; lia).
  - apply one_complete.
  - discriminate.
Qed.

Definition one_fint (p : panel) (t : R) := calc_fint ex_env (along one_vec t one_vec) SNone 0 None None None p.
Definition fint_of (x : panel * res updates) : updates := match snd x with Ok u => u | Err _ => [] end.

Lemma one_fint_ok p t : settled ex_env one_panel p -> one_fint p t = (fst (one_fint p t), Ok (fint_of (one_fint p t))).
Proof.
  intro HS. destruct (calc_fint_ok ex_env (along one_vec t one_vec) SNone 0 None None None p PlateModel) as (q & u & H).
  - apply (st_model _ _ _ HS).
  - exact I.
  - intros _. rewrite (st_ABD _ _ _ HS). discriminate.
  - rewrite (si_sh _ _ (ss_in _ _ _ (st_setup _ _ _ HS))). cbn. lia.
  - rewrite (si_sh _ _ (ss_in _ _ _ (st_setup _ _ _ HS))). cbn. lia.
  - unfold one_fint, fint_of. rewrite H. reflexivity.
Qed.

(* slopes of the deflection of one_vec *)
Definition F0 (x : R) : R := 1/2 - 3/4 * x + 1/4 * x^3.
Definition F0' (x : R) : R := - (3/4) + 3/4 * x^2.
Lemma shape0 x : shape code_basis 0 0 x free = F0 x.
Proof. unfold shape, F0. cbn -[pow]. unfold code_f, scalar_fun. cbn -[pow]. unfold lit_fun, lit_poly, lit_val. cbn -[pow]. cbn [pow]. field. Qed.
Lemma shape0' x : shape code_basis 1 0 x free = F0' x.
Proof. unfold shape, F0'. cbn -[pow]. unfold code_fp, scalar_fun. cbn -[pow]. unfold lit_fun, lit_poly, lit_val. cbn -[pow]. cbn [pow]. field. Qed.

Notation s1 := (kernel_view one_panel).
Lemma one_wx xi eta : d_wx code_basis s1 (own 0 (vec one_vec)) xi eta = F0' xi * F0 eta.
Proof.
  unfold d_wx, fld, ritz. change (xedge s1 2) with free. change (yedge s1 2) with free.
  change (sh_m s1) with 1%nat. change (sh_n s1) with 1%nat. cbn [sumn]. rewrite shape0, shape0'.
  unfold own, vec, one_vec. cbn -[Rmult Rplus Rdiv]. field.
Qed.
Lemma one_wy xi eta : d_wy code_basis s1 (own 0 (vec one_vec)) xi eta = 2 / 3 * F0 xi * F0' eta.
Proof.
  unfold d_wy, fld, ritz. change (xedge s1 2) with free. change (yedge s1 2) with free.
  change (sh_m s1) with 1%nat. change (sh_n s1) with 1%nat. cbn [sumn]. rewrite shape0, shape0'.
  unfold own, vec, one_vec. cbn -[Rmult Rplus Rdiv]. field.
Qed.
Lemma one_lin2 xi eta : lin_strain 0 code_basis s1 (own 0 (vec one_vec)) xi eta 2 = 0.
Proof.
  cbn [lin_strain]. unfold d_uy, d_vx, fld, ritz.
  change (sh_m s1) with 1%nat. change (sh_n s1) with 1%nat. cbn [sumn].
  unfold own, vec, one_vec. cbn -[Rmult Rplus Rdiv shape]. field.
Qed.
Lemma one_shear xi eta : -1 < xi < 1 -> -1 < eta < 1 ->
  0 < shear_work ex_ABD (d_wx code_basis s1 (own 0 (vec one_vec)) xi eta * d_wy code_basis s1 (own 0 (vec one_vec)) xi eta)
        (dstrain 0 code_basis s1 (own 0 (vec one_vec)) (own 0 (vec one_vec)) xi eta).
Proof.
  intros Hx He. unfold shear_work, ex_ABD. cbn [sumn Nat.eqb]. unfold dstrain. rewrite one_lin2.
  rewrite one_wx, one_wy. cbn -[Rmult Rplus Rdiv F0 F0'].
  assert (A1 : forall x, -1 < x < 1 -> 0 < F0 x).
  { intros x H. unfold F0. replace (1/2 - 3/4 * x + 1/4 * x^3) with (1/4 * ((1 - x) * (1 - x) * (2 + x))) by field.
    repeat apply Rmult_lt_0_compat; lra. }
  assert (A2 : forall x, -1 < x < 1 -> 0 < - F0' x).
  { intros x H. unfold F0'. replace (- (- (3/4) + 3/4 * x^2)) with (3/4 * ((1 - x) * (1 + x))) by field.
    repeat apply Rmult_lt_0_compat; lra. }
  pose proof (A1 _ Hx) as B1. pose proof (A1 _ He) as B2. pose proof (A2 _ Hx) as B3. pose proof (A2 _ He) as B4.
  set (a := F0 xi) in *. set (b := F0 eta) in *. set (c := - F0' xi) in *. set (d := - F0' eta) in *.
  replace (F0' xi) with (- c) by (unfold c; ring). replace (F0' eta) with (- d) by (unfold d; ring).
  assert (HP : 0 < a * b * c * d) by (repeat apply Rmult_lt_0_compat; assumption).
  match goal with |- 0 < ?e => replace e with (8/3 * ((a * b * c * d) * (a * b * c * d))) by field end.
  apply Rmult_lt_0_compat; [lra|]. apply Rmult_lt_0_compat; exact HP.
Qed.

Lemma one_integral g : (forall i j xi eta, -1 < xi < 1 -> -1 < eta < 1 -> 0 < g i j xi eta) ->
  0 < integrate code_rule s1 2 2 g.
Proof.
  intro H. destruct (gauss_nodes 2 ltac:(lia)) as (HL & HQ & _).
  apply integrate_gt0; try reflexivity; try (cbn; lra); try discriminate; try assumption;
  intro HE; rewrite HE in HL; discriminate.
Qed.
