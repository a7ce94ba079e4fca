(* Properties of the matrices returned by Shell.calc_kC, calc_kG and calc_kM when they are computed
   by numerical integration. Vocabulary: Spec_*.v. *)
From Coq Require Import Reals List Arith Bool Lia Lra.
From Verif Require Import Base_Sum Model_Types Model_Coo Model_Result Model_Num Model_DB Model_Bardell Model_Shell
  Spec_Algebra Spec_Kinematics Spec_Quadrature Spec_Panel Spec_Shell
  Proof_Shell Proof_Total Proof_Api Proof_Rule Ex_Panel.
Import ListNotations.
Open Scope R_scope.

(* C16: numerical stiffness = quadrature of the strain energy, for the plate and the cylinder, any
   laminate (also one per integration point), any rule, window, offset in a larger matrix. In a
   nonlinear calculation the strains are linearised about the given state. *)
Theorem C16_numeric_stiffness_is_strain_energy :
  forall E A p p' K N c d,
  calc_kC E A p = (p', Ok K) ->
  ka_c A <> None \/ ka_F A <> None \/ ka_NL A = true ->
  ka_c_cte A = None -> pn_N_cte p = (0, 0, 0) ->
  ka_fin A = true -> ka_row0 A = ka_col0 A ->
  geometry_ok (chosen_model p) (kernel_view p) -> (ka_col0 A + ndof (pn_sh p) <= N)%nat ->
  laminate_ok (points_x A p) (points_y A p) (laminate_used E A p) ->
  bilinear N K c d =
  integrate (e_rule E) (kernel_view p) (points_x A p) (points_y A p) (fun i j xi eta =>
    let eps v := dstrain (curvature (chosen_model p) (kernel_view p)) (e_basis E) (kernel_view p)
                   (state (ka_NL A) (own (ka_col0 A) (given_vector (ka_c A)))) (own (ka_col0 A) v) xi eta in
    form 6 (laminate_at (laminate_used E A p) i j) (eps c) (eps d)).
Proof. exact calc_kC_energy. Qed.
Print Assumptions C16_numeric_stiffness_is_strain_energy.

Example C16_hypotheses_met : forall r NL, r <> Some 0 ->
  exists p' K, calc_kC ex_env (ex_args NL) (ex_panel r) = (p', Ok K) /\
  ka_c (ex_args NL) <> None /\ ka_c_cte (ex_args NL) = None /\ pn_N_cte (ex_panel r) = (0, 0, 0) /\
  ka_fin (ex_args NL) = true /\ ka_row0 (ex_args NL) = ka_col0 (ex_args NL) /\
  geometry_ok (chosen_model (ex_panel r)) (kernel_view (ex_panel r)) /\
  (ka_col0 (ex_args NL) + ndof (pn_sh (ex_panel r)) <= 65)%nat /\
  laminate_ok (points_x (ex_args NL) (ex_panel r)) (points_y (ex_args NL) (ex_panel r)) (laminate_used ex_env (ex_args NL) (ex_panel r)).
Proof.
  intros r NL Hr. destruct (ex_kC_runs r NL) as (p' & K & H). exists p', K.
  split; [exact H|]. repeat split; try discriminate; try (cbn; lia); try (apply ex_geometry; exact Hr); apply ex_ABD_is; assumption.
Qed.

(* C17: the finalized matrices are symmetric; the entries computed below the diagonal (inside the
   diagonal blocks) agree with the mirrored ones *)
Definition with_fin (A : kargs) (fin : bool) : kargs :=
  mkKargs (ka_size A) (ka_row0 A) (ka_col0 A) fin (ka_c A) (ka_c_cte A) (ka_nx A) (ka_ny A) (ka_F A) (ka_NL A).

Theorem C17_kC_symmetric : forall E A p p' K,
  calc_kC E A p = (p', Ok K) -> ka_fin A = true -> symmetric K.
Proof. exact calc_kC_sym. Qed.
Print Assumptions C17_kC_symmetric.
Theorem C17_kG_symmetric : forall E A p p' K,
  calc_kG E A p = (p', Ok K) -> ka_fin A = true -> symmetric K.
Proof. exact calc_kG_sym. Qed.
Print Assumptions C17_kG_symmetric.
Theorem C17_kM_symmetric : forall E sz row0 col0 ho ro nxo nyo p p' K,
  calc_kM E sz row0 col0 ho ro nxo nyo true p = (p', Ok K) -> symmetric K.
Proof. exact calc_kM_sym. Qed.
Print Assumptions C17_kM_symmetric.

(* C18 *)
Theorem C18_stiffness_positive_semidefinite :
  forall E A p p' K N,
  calc_kC E A p = (p', Ok K) ->
  ka_c A <> None \/ ka_F A <> None \/ ka_NL A = true ->
  ka_c_cte A = None -> pn_N_cte p = (0, 0, 0) ->
  ka_fin A = true -> ka_row0 A = ka_col0 A ->
  geometry_ok (chosen_model p) (kernel_view p) -> (ka_col0 A + ndof (pn_sh p) <= N)%nat ->
  laminate_ok (points_x A p) (points_y A p) (laminate_used E A p) ->
  (forall i j, (i < points_x A p)%nat -> (j < points_y A p)%nat -> psd_form 6 (laminate_at (laminate_used E A p) i j)) ->
  nonneg_rule (e_rule E) (points_x A p) -> nonneg_rule (e_rule E) (points_y A p) -> window_ok (kernel_view p) ->
  forall c, 0 <= quad N K c.
Proof. exact calc_kC_psd. Qed.
Print Assumptions C18_stiffness_positive_semidefinite.

(* the rules used by the package have nonnegative weights *)
Theorem C18_weights_nonnegative : forall n, nonneg_rule code_rule n.
Proof. exact code_rule_nonneg. Qed.
Print Assumptions C18_weights_nonnegative.

Example C18_hypotheses_met : 
  exists p' K, calc_kC ex_env (ex_args true) (ex_panel None) = (p', Ok K) /\ psd 65 K.
Proof.
  destruct (ex_kC_runs None true) as (p' & K & H). exists p', K. split; [exact H|]. intro c.
  apply (C18_stiffness_positive_semidefinite ex_env (ex_args true) (ex_panel None) p' K 65 H);
    try reflexivity; try (cbn; lia).
  - apply ex_geometry; discriminate.
  - intros i j _ _. apply ex_ABD_is.
  - intros i j _ _. apply ex_ABD_psd.
  - exact (code_rule_nonneg _).
  - exact (code_rule_nonneg _).
  - exact ex_window.
Qed.

(* C21 (numerical integration): geometric stiffness = work of the membrane forces on the slopes. The
   forces are the panel's constant ones plus those produced by the given state. In a nonlinear
   calculation the package's shear strain counts the product w_x*w_y twice (doubled_strain). *)
Theorem C21_numeric_geometric_stiffness :
  forall E A p p' K N c d,
  calc_kG E A p = (p', Ok K) -> ka_c A <> None \/ ka_NL A = true ->
  ka_fin A = true -> ka_row0 A = ka_col0 A ->
  geometry_ok (chosen_model p) (kernel_view p) -> (ka_col0 A + ndof (pn_sh p) <= N)%nat ->
  laminate_ok (points_x A p) (points_y A p) (laminate_used E A p) ->
  let '(Nxx, Nyy, Nxy) := pn_N p in
  bilinear N K c d =
  integrate (e_rule E) (kernel_view p) (points_x A p) (points_y A p) (fun i j xi eta =>
    let eps k := (if ka_NL A then doubled_strain else lin_strain) (curvature (chosen_model p) (kernel_view p))
                   (e_basis E) (kernel_view p) (own (ka_col0 A) (given_vector (ka_c A))) xi eta k in
    let N k := resultant (laminate_at (laminate_used E A p) i j) eps k in
    membrane_work (e_basis E) (kernel_view p) (Nxx + N 0%nat) (Nyy + N 1%nat) (Nxy + N 2%nat)
      (own (ka_col0 A) c) (own (ka_col0 A) d) xi eta).
Proof. exact calc_kG_energy'. Qed.
Print Assumptions C21_numeric_geometric_stiffness.

Example C21_hypotheses_met : forall r NL, r <> Some 0 ->
  exists p' K, calc_kG ex_env (ex_args NL) (ex_panel r) = (p', Ok K) /\
  ka_c (ex_args NL) <> None /\ pn_N (ex_panel r) = (1, 2, 3) /\
  ka_fin (ex_args NL) = true /\ ka_row0 (ex_args NL) = ka_col0 (ex_args NL) /\
  geometry_ok (chosen_model (ex_panel r)) (kernel_view (ex_panel r)) /\
  (ka_col0 (ex_args NL) + ndof (pn_sh (ex_panel r)) <= 65)%nat /\
  laminate_ok (points_x (ex_args NL) (ex_panel r)) (points_y (ex_args NL) (ex_panel r)) (laminate_used ex_env (ex_args NL) (ex_panel r)).
Proof.
  intros r NL Hr. destruct (ex_kG_runs r NL) as (p' & K & H). exists p', K.
  split; [exact H|]. repeat split; try discriminate; try (cbn; lia); try (apply ex_geometry; exact Hr); apply ex_ABD_is; assumption.
Qed.

(* C22 (numerical integration): mass matrix = kinetic energy, and it is positive semidefinite *)
Theorem C22_numeric_mass_is_kinetic_energy :
  forall E sz row0 col0 ho ro nxo nyo p p' K N c d,
  calc_kM E sz row0 col0 ho ro nxo nyo true p = (p', Ok K) -> ho <> None \/ ro <> None ->
  row0 = col0 -> geometry_ok (chosen_model p) (kernel_view p) -> (col0 + ndof (pn_sh p) <= N)%nat ->
  exists h rho,
  match ho with Some (_, _, t) => h = t | None => exists lam, pn_lam p = Some lam /\ h = fun _ _ => lam_h lam end /\
  match ro with Some (_, _, t) => rho = t | None => exists lam, pn_lam p = Some lam /\ rho = fun _ _ => lam_intrho lam / lam_h lam end /\
  bilinear N K c d =
  integrate (e_rule E) (kernel_view p) (default (pn_nx p) nxo) (default (pn_ny p) nyo) (fun i j xi eta =>
    kinetic (e_basis E) (kernel_view p) (833333333333333 / 10000000000000000) (h i j) (rho i j) (pn_offset p) (own col0 c) (own col0 d) xi eta).
Proof. exact calc_kM_energy. Qed.
Print Assumptions C22_numeric_mass_is_kinetic_energy.

Theorem C22_numeric_mass_positive_semidefinite :
  forall E sz row0 col0 ho ro nxo nyo p p' K N,
  calc_kM E sz row0 col0 ho ro nxo nyo true p = (p', Ok K) -> ho <> None \/ ro <> None ->
  row0 = col0 -> geometry_ok (chosen_model p) (kernel_view p) -> (col0 + ndof (pn_sh p) <= N)%nat ->
  (forall i j, match ho, ro with
   | Some (_, _, h), Some (_, _, rho) => 0 <= rho i j * h i j
   | Some (_, _, h), None => forall lam, pn_lam p = Some lam -> 0 <= lam_intrho lam / lam_h lam * h i j
   | None, Some (_, _, rho) => forall lam, pn_lam p = Some lam -> 0 <= rho i j * lam_h lam
   | None, None => True end) ->
  nonneg_rule (e_rule E) (default (pn_nx p) nxo) -> nonneg_rule (e_rule E) (default (pn_ny p) nyo) ->
  window_ok (kernel_view p) ->
  psd N K.
Proof. exact calc_kM_psd. Qed.
Print Assumptions C22_numeric_mass_positive_semidefinite.

Example C22_hypotheses_met : exists p' K,
  calc_kM ex_env (SStr 5) 2 2 (Some (6%nat, 7%nat, fun i j => INR i + 1)) (Some (6%nat, 7%nat, fun i j => INR j + 1)) None None true ex_built = (p', Ok K) /\
  psd 65 K.
Proof.
  destruct ex_kM_runs as (p' & K & H). exists p', K. split; [exact H|].
  apply (C22_numeric_mass_positive_semidefinite _ _ _ _ _ _ _ _ _ _ _ 65 H); try reflexivity; try (cbn; lia).
  - left; discriminate.
  - apply ex_geometry; discriminate.
  - intros i j. cbn beta iota. pose proof (pos_INR i). pose proof (pos_INR j). nra.
  - exact (code_rule_nonneg _).
  - exact (code_rule_nonneg _).
  - exact ex_window.
Qed.

(* C25: nothing is written outside the panel's own block *)
Theorem C25_kC_own_block : forall E A p p' K,
  calc_kC E A p = (p', Ok K) -> (ka_fin A = true -> ka_row0 A = ka_col0 A) ->
  forall r t, ~ ((ka_row0 A <= r < ka_row0 A + ndof (pn_sh p))%nat /\ (ka_col0 A <= t < ka_col0 A + ndof (pn_sh p))%nat) ->
  K r t = 0.
Proof. exact calc_kC_block. Qed.
Print Assumptions C25_kC_own_block.
Theorem C25_kG_own_block : forall E A p p' K,
  calc_kG E A p = (p', Ok K) -> (ka_fin A = true -> ka_row0 A = ka_col0 A) ->
  forall r t, ~ ((ka_row0 A <= r < ka_row0 A + ndof (pn_sh p))%nat /\ (ka_col0 A <= t < ka_col0 A + ndof (pn_sh p))%nat) ->
  K r t = 0.
Proof. exact calc_kG_block. Qed.
Print Assumptions C25_kG_own_block.
Theorem C25_kM_own_block : forall E sz row0 col0 ho ro nxo nyo fin p p' K,
  calc_kM E sz row0 col0 ho ro nxo nyo fin p = (p', Ok K) -> (fin = true -> row0 = col0) ->
  forall r t, ~ ((row0 <= r < row0 + ndof (pn_sh p))%nat /\ (col0 <= t < col0 + ndof (pn_sh p))%nat) ->
  K r t = 0.
Proof. exact calc_kM_block. Qed.
Print Assumptions C25_kM_own_block.
Theorem C25_kA_own_block : forall E sz row0 col0 fin p p' K,
  calc_kA E sz row0 col0 fin p = (p', Ok K) -> (fin = true -> row0 = col0) ->
  forall r t, ~ ((row0 <= r < row0 + ndof (pn_sh p))%nat /\ (col0 <= t < col0 + ndof (pn_sh p))%nat) ->
  K r t = 0.
Proof. exact calc_kA_block. Qed.
Print Assumptions C25_kA_own_block.

Example C25_hypotheses_met : forall r NL, 
  exists p' K, calc_kC ex_env (ex_args NL) (ex_panel r) = (p', Ok K) /\ ka_row0 (ex_args NL) = 2%nat /\ ndof (pn_sh (ex_panel r)) = 60%nat.
Proof. intros r NL. destruct (ex_kC_runs r NL) as (p' & K & H). exists p', K. repeat split; assumption || reflexivity. Qed.
