(* Properties of the matrices calculated with the closed-form (analytical) kernels, and of their
   agreement with the numerically integrated ones. *)
From Coq Require Import Reals List Arith Bool Lia Lra.
From Coquelicot Require Import Coquelicot.
From Verif Require Import Base_Sum Model_Types Model_Coo Model_Result Model_Num Model_DB Model_Bardell Model_Shell
  Spec_Algebra Spec_Kinematics Spec_Quadrature Spec_Panel Spec_Shell Spec_Bardell Spec_Integral
  Proof_AnaApi Ex_Panel Ex_Exact.
Import ListNotations.
Open Scope R_scope.

(* C17: with finalize=False the loops fill the upper triangle and some entries below the diagonal;
   whatever they put below the diagonal is the mirror image of the upper triangle *)
Theorem C17_kC_computed_entries_mirror : forall E p,
  tables_symmetric (e_tables E) (Nat.max (sh_m (pn_sh p)) (sh_n (pn_sh p))) ->
  geometry_ok (chosen_model p) (kernel_view p) -> forall A p' K,
  calc_kC E A p = (p', Ok K) -> ka_fin A = false -> ka_row0 A = ka_col0 A ->
  forall r t, (t < r)%nat -> K r t = 0 \/ K r t = K t r.
Proof. exact calc_kC_mirror. Qed.
Print Assumptions C17_kC_computed_entries_mirror.
Theorem C17_kG_computed_entries_mirror : forall E p,
  tables_symmetric (e_tables E) (Nat.max (sh_m (pn_sh p)) (sh_n (pn_sh p))) ->
  geometry_ok (chosen_model p) (kernel_view p) -> forall A p' K,
  calc_kG E A p = (p', Ok K) -> ka_fin A = false -> ka_row0 A = ka_col0 A ->
  forall r t, (t < r)%nat -> K r t = 0 \/ K r t = K t r.
Proof. exact calc_kG_mirror. Qed.
Print Assumptions C17_kG_computed_entries_mirror.
Theorem C17_kM_computed_entries_mirror : forall E p,
  tables_symmetric (e_tables E) (Nat.max (sh_m (pn_sh p)) (sh_n (pn_sh p))) ->
  geometry_ok (chosen_model p) (kernel_view p) -> forall sz o ho ro nxo nyo p' K,
  calc_kM E sz o o ho ro nxo nyo false p = (p', Ok K) ->
  forall r t, (t < r)%nat -> K r t = 0 \/ K r t = K t r.
Proof. exact calc_kM_mirror. Qed.
Print Assumptions C17_kM_computed_entries_mirror.
(* the package's tables are symmetric *)
Theorem C17_package_tables_symmetric : forall n, tables_symmetric code_tables n.
Proof. exact code_tables_symmetric. Qed.
Print Assumptions C17_package_tables_symmetric.

Example C17_mirror_hypotheses_met : exists p' K,
  calc_kC ex_env (ana_args false) (ex4_panel (Some 10)) = (p', Ok K) /\
  forall r t, (t < r)%nat -> K r t = 0 \/ K r t = K t r.
Proof.
  destruct (ex4_kC_runs ex_env false (Some 10)) as (p' & K & H). exists p', K. split; [exact H|].
  refine (C17_kC_computed_entries_mirror ex_env (ex4_panel (Some 10)) (code_tables_symmetric _) _ _ p' K H eq_refl eq_refl).
  apply ex4_geometry. intro A. injection A. lra.
Qed.

(* C18, closed form *)
Theorem C18_analytical_stiffness_positive_semidefinite :
  forall E A p p' K N,
  calc_kC E A p = (p', Ok K) -> ka_c A = None -> ka_F A = None -> ka_NL A = false -> ka_c_cte A = None ->
  pn_N_cte p = (0, 0, 0) -> ka_fin A = true -> ka_row0 A = ka_col0 A ->
  geometry_ok (chosen_model p) (kernel_view p) -> (ka_col0 A + ndof (pn_sh p) <= N)%nat ->
  is_ABD (lam_matrix (pn_ortho p) (rebuilt_lam E p)) -> psd_form 6 (lam_matrix (pn_ortho p) (rebuilt_lam E p)) ->
  tables_integrate (e_tables E) (e_basis E) (Nat.max (sh_m (pn_sh p)) (sh_n (pn_sh p))) ->
  0 <= sh_a (pn_sh p) * sh_b (pn_sh p) ->
  psd N K.
Proof. exact calc_kC_exact_psd. Qed.
Print Assumptions C18_analytical_stiffness_positive_semidefinite.

Example C18_analytical_hypotheses_met : exists p' K,
  calc_kC exact_env (ana_args true) (ex4_panel (Some 10)) = (p', Ok K) /\ psd 53 K.
Proof.
  destruct (ex4_kC_runs exact_env true (Some 10)) as (p' & K & H). exists p', K. split; [exact H|].
  apply (C18_analytical_stiffness_positive_semidefinite _ _ _ _ _ 53 H); try reflexivity; try (cbn; lia).
  - apply ex4_geometry. intro A. injection A. lra.
  - exact ex_ABD_is.
  - exact ex_ABD_psd.
  - apply exact_tables_integrate. cbn. lia.
  - cbn. lra.
Qed.

(* C19: the closed-form stiffness matrix is the integral of the strain energy over the panel, for the
   functions whose integrals the tables hold. With constant membrane forces N_cte set on the panel
   their work on the slopes is added. *)
Theorem C19_analytical_stiffness_is_strain_energy :
  forall E A p p' K N c d,
  calc_kC E A p = (p', Ok K) -> ka_c A = None -> ka_F A = None -> ka_NL A = false -> ka_c_cte A = None ->
  ka_fin A = true -> ka_row0 A = ka_col0 A ->
  geometry_ok (chosen_model p) (kernel_view p) -> (ka_col0 A + ndof (pn_sh p) <= N)%nat ->
  is_ABD (lam_matrix (pn_ortho p) (rebuilt_lam E p)) ->
  tables_integrate (e_tables E) (e_basis E) (Nat.max (sh_m (pn_sh p)) (sh_n (pn_sh p))) ->
  let '(Nxx, Nyy, Nxy) := pn_N_cte p in
  panel_integral (kernel_view p) (fun xi eta =>
    let eps v := lin_strain (curvature (chosen_model p) (kernel_view p)) (e_basis E) (kernel_view p) (own (ka_col0 A) v) xi eta in
    form 6 (lam_matrix (pn_ortho p) (rebuilt_lam E p)) (eps c) (eps d) +
    membrane_work (e_basis E) (kernel_view p) Nxx Nyy Nxy (own (ka_col0 A) c) (own (ka_col0 A) d) xi eta)
   (bilinear N K c d).
Proof. exact calc_kC_exact. Qed.
Print Assumptions C19_analytical_stiffness_is_strain_energy.

(* the exact integrals of the exact functions are such tables *)
Theorem C19_exact_tables_integrate : forall n, (n <= 30)%nat -> tables_integrate exact_tables exact_basis n.
Proof. exact exact_tables_integrate. Qed.
Print Assumptions C19_exact_tables_integrate.

(* with the package's rounded tables every entry is within 1.1e-14 (relative to the sum of the
   absolute values of its terms) of the exact energy of the exact shape functions *)
Theorem C19_stiffness_with_stored_tables :
  forall E A p p' K,
  calc_kC E A p = (p', Ok K) -> ka_c A = None -> ka_F A = None -> ka_NL A = false -> ka_c_cte A = None ->
  pn_N_cte p = (0, 0, 0) -> ka_fin A = true -> ka_row0 A = ka_col0 A ->
  geometry_ok (chosen_model p) (kernel_view p) ->
  is_ABD (lam_matrix (pn_ortho p) (rebuilt_lam E p)) ->
  e_tables E = code_tables -> (sh_m (pn_sh p) <= 30)%nat -> (sh_n (pn_sh p) <= 30)%nat ->
  forall r t, exists I : nat -> nat -> R,
  (forall a b, (a < 6)%nat -> (b < 6)%nat -> panel_integral (kernel_view p) (fun xi eta =>
    let eps v := lin_strain (curvature (chosen_model p) (kernel_view p)) exact_basis (kernel_view p) (own (ka_col0 A) v) xi eta in
    eps (unitv r) a * eps (unitv t) b) (I a b)) /\
  Rabs (K r t - sumn 6 (fun a => sumn 6 (fun b => lam_matrix (pn_ortho p) (rebuilt_lam E p) a b * I a b))) <=
  11 / 10 ^ 15 * sumn 6 (fun a => sumn 6 (fun b => Rabs (lam_matrix (pn_ortho p) (rebuilt_lam E p) a b) * Rabs (I a b))).
Proof. exact calc_kC_rounded. Qed.
Print Assumptions C19_stiffness_with_stored_tables.

Example C19_hypotheses_met : forall E, E = exact_env \/ E = ex_env -> exists p' K,
  calc_kC E (ana_args true) (ex4_panel (Some 10)) = (p', Ok K) /\
  geometry_ok (chosen_model (ex4_panel (Some 10))) (kernel_view (ex4_panel (Some 10))) /\
  is_ABD (lam_matrix false (rebuilt_lam E (ex4_panel (Some 10)))).
Proof.
  intros E HE. destruct (ex4_kC_runs E true (Some 10)) as (p' & K & H). exists p', K. split; [exact H|]. split.
  - apply ex4_geometry. intro A. injection A. lra.
  - destruct HE as [-> | ->]; exact ex_ABD_is.
Qed.

(* C20: a rule that is exact for the products of the functions gives the same matrices as the closed
   forms, entry by entry, finalized or not *)
Definition rule_exact_for (E : env) (p : panel) (nx ny : nat) : Prop :=
  length (e_rule E nx) = nx /\ length (e_rule E ny) = ny /\
  rule_integrates (e_rule E) nx (e_basis E) (sh_m (pn_sh p)) /\ rule_integrates (e_rule E) ny (e_basis E) (sh_n (pn_sh p)).

Theorem C20_stiffness_numeric_equals_analytical : forall E p,
  geometry_ok (chosen_model p) (kernel_view p) ->
  tables_integrate (e_tables E) (e_basis E) (Nat.max (sh_m (pn_sh p)) (sh_n (pn_sh p))) ->
  whole_window (kernel_view p) ->
  forall Aa An pa pn Ka Kn,
  calc_kC E Aa p = (pa, Ok Ka) -> calc_kC E An p = (pn, Ok Kn) ->
  ka_c Aa = None -> ka_F Aa = None -> ka_NL Aa = false -> ka_c_cte Aa = None ->
  ka_c An <> None \/ ka_F An <> None -> ka_NL An = false -> ka_c_cte An = None -> pn_N_cte p = (0, 0, 0) ->
  (forall i j, (i < points_x An p)%nat -> (j < points_y An p)%nat -> forall a b,
     laminate_at (laminate_used E An p) i j a b = lam_matrix (pn_ortho p) (rebuilt_lam E p) a b) ->
  ka_fin Aa = ka_fin An -> ka_row0 Aa = ka_col0 Aa -> ka_row0 An = ka_col0 Aa -> ka_col0 An = ka_col0 Aa ->
  rule_exact_for E p (points_x An p) (points_y An p) ->
  forall r t, Kn r t = Ka r t.
Proof. exact calc_kC_agree. Qed.
Print Assumptions C20_stiffness_numeric_equals_analytical.

Theorem C20_geometric_numeric_equals_analytical : forall E p,
  geometry_ok (chosen_model p) (kernel_view p) ->
  tables_integrate (e_tables E) (e_basis E) (Nat.max (sh_m (pn_sh p)) (sh_n (pn_sh p))) ->
  whole_window (kernel_view p) ->
  forall Aa An pa pn Ka Kn,
  calc_kG E Aa p = (pa, Ok Ka) -> calc_kG E An p = (pn, Ok Kn) ->
  ka_c Aa = None -> ka_NL Aa = false ->
  ka_c An <> None \/ ka_NL An = true -> (forall k, given_vector (ka_c An) k = 0) ->
  ka_fin Aa = ka_fin An -> ka_row0 Aa = ka_col0 Aa -> ka_row0 An = ka_col0 Aa -> ka_col0 An = ka_col0 Aa ->
  rule_exact_for E p (points_x An p) (points_y An p) ->
  forall r t, Kn r t = Ka r t.
Proof. exact calc_kG_agree. Qed.
Print Assumptions C20_geometric_numeric_equals_analytical.

Theorem C20_mass_numeric_equals_analytical : forall E p,
  geometry_ok (chosen_model p) (kernel_view p) ->
  tables_integrate (e_tables E) (e_basis E) (Nat.max (sh_m (pn_sh p)) (sh_n (pn_sh p))) ->
  whole_window (kernel_view p) ->
  forall sza szn o ho ro nxa nya nxo nyo fin pa pn Ka Kn,
  calc_kM E sza o o None None nxa nya fin p = (pa, Ok Ka) -> calc_kM E szn o o (Some ho) (Some ro) nxo nyo fin p = (pn, Ok Kn) ->
  (forall i j, snd ho i j = fold_left Rplus (pn_plyts p) 0) -> (forall i j, snd ro i j = pn_rho p) ->
  rule_exact_for E p (default (pn_nx p) nxo) (default (pn_ny p) nyo) ->
  forall r t, Kn r t = Ka r t.
Proof. exact calc_kM_agree. Qed.
Print Assumptions C20_mass_numeric_equals_analytical.

Example C20_rule_exact_met : rule_exact_for exact_env (ex4_panel (Some 10)) 7 7.
Proof. repeat split; exact nc7_exact. Qed.
Example C20_hypotheses_met : exists pa Ka pn Kn,
  calc_kC exact_env (ana_args true) (ex4_panel (Some 10)) = (pa, Ok Ka) /\
  calc_kC exact_env (num_args true) (ex4_panel (Some 10)) = (pn, Ok Kn) /\ forall r t, Kn r t = Ka r t.
Proof.
  destruct (ex4_kC_runs exact_env true (Some 10)) as (pa & Ka & Ha).
  destruct (ex4_kC_num_runs exact_env true (Some 10)) as (pn & Kn & Hn). exists pa, Ka, pn, Kn. split; [exact Ha|]. split; [exact Hn|].
  eapply (C20_stiffness_numeric_equals_analytical exact_env (ex4_panel (Some 10))); try exact Ha; try exact Hn; try reflexivity.
  - apply ex4_geometry. intro A. injection A. lra.
  - apply exact_tables_integrate. cbn. lia.
  - apply ex4_whole.
  - left. discriminate.
  - exact C20_rule_exact_met.
Qed.
Example C20_geometric_hypotheses_met : exists pa Ka pn Kn,
  calc_kG exact_env (ana_args true) (ex4_panel (Some 10)) = (pa, Ok Ka) /\
  calc_kG exact_env (num_args true) (ex4_panel (Some 10)) = (pn, Ok Kn) /\ forall r t, Kn r t = Ka r t.
Proof.
  destruct (ex4_kG_runs exact_env true (Some 10)) as (pa & Ka & Ha).
  destruct (ex4_kG_num_runs exact_env true (Some 10)) as (pn & Kn & Hn). exists pa, Ka, pn, Kn. split; [exact Ha|]. split; [exact Hn|].
  eapply (C20_geometric_numeric_equals_analytical exact_env (ex4_panel (Some 10))); try exact Ha; try exact Hn; try reflexivity.
  - apply ex4_geometry. intro A. injection A. lra.
  - apply exact_tables_integrate. cbn. lia.
  - apply ex4_whole.
  - left. discriminate.
  - intro k. cbn [given_vector num_args ka_c]. unfold vec.
    destruct (Nat.lt_ge_cases k 53) as [Hk|Hk]; [apply nth_repeat|apply nth_overflow; rewrite repeat_length; exact Hk].
  - exact C20_rule_exact_met.
Qed.
Example C20_mass_hypotheses_met : exists pa Ka pn Kn,
  calc_kM exact_env (SStr 5) 2 2 None None None None true ex4_built = (pa, Ok Ka) /\
  calc_kM exact_env (SStr 5) 2 2 (Some ex4_h) (Some ex4_rho) None None true ex4_built = (pn, Ok Kn) /\ forall r t, Kn r t = Ka r t.
Proof.
  destruct (ex4_kM_runs exact_env true) as (pa & Ka & Ha).
  destruct (ex4_kM_num_runs exact_env true) as (pn & Kn & Hn). exists pa, Ka, pn, Kn. split; [exact Ha|]. split; [exact Hn|].
  eapply (C20_mass_numeric_equals_analytical exact_env ex4_built); try exact Ha; try exact Hn; try reflexivity.
  - exact (ex4_geometry None ltac:(discriminate)).
  - apply exact_tables_integrate. cbn. lia.
  - exact (ex4_whole None).
  - repeat split; exact nc7_exact.
Qed.

(* C21, closed form *)
Theorem C21_analytical_geometric_stiffness :
  forall E A p p' K N c d,
  calc_kG E A p = (p', Ok K) -> ka_c A = None -> ka_NL A = false ->
  ka_fin A = true -> ka_row0 A = ka_col0 A ->
  geometry_ok (chosen_model p) (kernel_view p) -> (ka_col0 A + ndof (pn_sh p) <= N)%nat ->
  tables_integrate (e_tables E) (e_basis E) (Nat.max (sh_m (pn_sh p)) (sh_n (pn_sh p))) ->
  let '(Nxx, Nyy, Nxy) := pn_N p in
  panel_integral (kernel_view p) (fun xi eta =>
    membrane_work (e_basis E) (kernel_view p) Nxx Nyy Nxy (own (ka_col0 A) c) (own (ka_col0 A) d) xi eta)
   (bilinear N K c d).
Proof. exact calc_kG_exact. Qed.
Print Assumptions C21_analytical_geometric_stiffness.

Example C21_analytical_hypotheses_met : exists p' K,
  calc_kG exact_env (ana_args true) (ex4_panel (Some 10)) = (p', Ok K) /\
  tables_integrate (e_tables exact_env) (e_basis exact_env) (Nat.max 4 4) /\
  geometry_ok (chosen_model (ex4_panel (Some 10))) (kernel_view (ex4_panel (Some 10))).
Proof.
  destruct (ex4_kG_runs exact_env true (Some 10)) as (p' & K & H). exists p', K. split; [exact H|]. split.
  - apply exact_tables_integrate. cbn. lia.
  - apply ex4_geometry. intro A. injection A. lra.
Qed.

(* C22, closed form: density pn_rho (the attribute rho) and thickness the sum of the ply thicknesses *)
Theorem C22_analytical_mass_is_kinetic_energy :
  forall E sz row0 col0 nxo nyo p p' K N c d,
  calc_kM E sz row0 col0 None None nxo nyo true p = (p', Ok K) ->
  row0 = col0 -> geometry_ok (chosen_model p) (kernel_view p) -> (col0 + ndof (pn_sh p) <= N)%nat ->
  tables_integrate (e_tables E) (e_basis E) (Nat.max (sh_m (pn_sh p)) (sh_n (pn_sh p))) ->
  panel_integral (kernel_view p) (fun xi eta =>
    kinetic (e_basis E) (kernel_view p) (833333333333333 / 10000000000000000) (fold_left Rplus (pn_plyts p) 0) (pn_rho p) (pn_offset p)
      (own col0 c) (own col0 d) xi eta)
   (bilinear N K c d).
Proof. exact calc_kM_exact. Qed.
Print Assumptions C22_analytical_mass_is_kinetic_energy.

Theorem C22_analytical_mass_positive_semidefinite :
  forall E sz row0 col0 nxo nyo p p' K N,
  calc_kM E sz row0 col0 None None nxo nyo true p = (p', Ok K) ->
  row0 = col0 -> geometry_ok (chosen_model p) (kernel_view p) -> (col0 + ndof (pn_sh p) <= N)%nat ->
  tables_integrate (e_tables E) (e_basis E) (Nat.max (sh_m (pn_sh p)) (sh_n (pn_sh p))) ->
  0 <= sh_a (pn_sh p) * sh_b (pn_sh p) -> 0 <= pn_rho p * fold_left Rplus (pn_plyts p) 0 ->
  psd N K.
Proof. exact calc_kM_exact_psd. Qed.
Print Assumptions C22_analytical_mass_positive_semidefinite.

Example C22_analytical_hypotheses_met : exists p' K,
  calc_kM exact_env (SStr 5) 2 2 None None None None true ex4_built = (p', Ok K) /\ psd 53 K.
Proof.
  destruct (ex4_kM_runs exact_env true) as (p' & K & H). exists p', K. split; [exact H|].
  eapply (C22_analytical_mass_positive_semidefinite exact_env _ _ _ _ _ _ _ _ 53 H); try reflexivity; try (cbn; lia).
  - exact (ex4_geometry None ltac:(discriminate)).
  - apply exact_tables_integrate. cbn. lia.
  - cbn. lra.
  - cbn. lra.
Qed.
