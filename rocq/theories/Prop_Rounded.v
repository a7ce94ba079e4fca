(* Geometric stiffness and mass calculated from the tables of integrals that the program ships, whose
   entries are rounded decimal numbers: every entry of the matrix is the exact one up to a relative
   rounding of eleven parts in 10^15 of the terms it is made of. *)
From Coq Require Import Reals List Arith Bool Lia Lra.
From Coquelicot Require Import Coquelicot.
From Verif Require Import Base_Sum Model_Types Model_Coo Model_Result Model_Num Model_DB Model_Bardell Model_Shell
  Spec_Algebra Spec_Kinematics Spec_Quadrature Spec_Panel Spec_Shell Spec_Bardell Spec_Integral Spec_Rounded
  Proof_Rounded Proof_NearApi Ex_Panel Ex_Exact.
From Coq Require Import List.
Import ListNotations.
Open Scope R_scope.

(* C21 for the shipped tables *)
Theorem C21_geometric_stiffness_with_stored_tables :
  forall E A p p' K Nxx Nyy Nxy,
  calc_kG E A p = (p', Ok K) -> ka_c A = None -> ka_NL A = false -> ka_fin A = true -> ka_row0 A = ka_col0 A ->
  geometry_ok (chosen_model p) (kernel_view p) -> pn_N p = (Nxx, Nyy, Nxy) ->
  e_tables E = code_tables -> (sh_m (pn_sh p) <= 30)%nat -> (sh_n (pn_sh p) <= 30)%nat ->
  forall r t, exists I : nat -> nat -> R,
  (forall a b, (a < 2)%nat -> (b < 2)%nat -> panel_integral (kernel_view p) (fun xi eta =>
    slope exact_basis (kernel_view p) (own (ka_col0 A) (unitv r)) xi eta a *
    slope exact_basis (kernel_view p) (own (ka_col0 A) (unitv t)) xi eta b) (I a b)) /\
  Rabs (K r t - (Nxx * I 0%nat 0%nat + Nyy * I 1%nat 1%nat + Nxy * (I 0%nat 1%nat + I 1%nat 0%nat))) <=
  11 / 10 ^ 15 * (Rabs Nxx * Rabs (I 0%nat 0%nat) + Rabs Nyy * Rabs (I 1%nat 1%nat) +
                  Rabs Nxy * (Rabs (I 0%nat 1%nat) + Rabs (I 1%nat 0%nat))).
Proof. exact calc_kG_rounded. Qed.
Print Assumptions C21_geometric_stiffness_with_stored_tables.

Example C21_stored_tables_met : exists p' K,
  calc_kG ex_env (ana_args true) (ex4_panel (Some 10)) = (p', Ok K) /\
  geometry_ok (chosen_model (ex4_panel (Some 10))) (kernel_view (ex4_panel (Some 10))) /\
  e_tables ex_env = code_tables /\ (sh_m (pn_sh (ex4_panel (Some 10%R))) <= 30)%nat /\
  (sh_n (pn_sh (ex4_panel (Some 10%R))) <= 30)%nat.
Proof.
  destruct (ex4_kG_runs ex_env true (Some 10)) as (p' & K & H). exists p', K. split; [exact H|]. split.
  - apply ex4_geometry. intro A. injection A. lra.
  - split; [reflexivity|]. cbn. lia.
Qed.

(* C22 for the shipped tables; 0.0833333333333333 is the literal the kernels use for 1/12 *)
Theorem C22_mass_with_stored_tables :
  forall E sz row0 col0 nxo nyo p p' K,
  calc_kM E sz row0 col0 None None nxo nyo true p = (p', Ok K) -> row0 = col0 ->
  geometry_ok (chosen_model p) (kernel_view p) ->
  e_tables E = code_tables -> (sh_m (pn_sh p) <= 30)%nat -> (sh_n (pn_sh p) <= 30)%nat ->
  forall r t, exists I : nat -> R,
  let h := fold_left Rplus (pn_plyts p) 0 in
  let m := inertia (833333333333333 / 10000000000000000) h (pn_rho p) in
  (forall a, (a < 5)%nat -> panel_integral (kernel_view p) (fun xi eta =>
    motion exact_basis (kernel_view p) (pn_offset p) (own col0 (unitv r)) xi eta a *
    motion exact_basis (kernel_view p) (pn_offset p) (own col0 (unitv t)) xi eta a) (I a)) /\
  Rabs (K r t - sumn 5 (fun a => m a * I a)) <= 11 / 10 ^ 15 * sumn 5 (fun a => Rabs (m a) * Rabs (I a)).
Proof. exact calc_kM_rounded. Qed.
Print Assumptions C22_mass_with_stored_tables.

Example C22_stored_tables_met : exists p' K,
  calc_kM ex_env (SStr 5) 2 2 None None None None true ex4_built = (p', Ok K) /\
  geometry_ok (chosen_model ex4_built) (kernel_view ex4_built) /\
  e_tables ex_env = code_tables /\ (sh_m (pn_sh ex4_built) <= 30)%nat /\ (sh_n (pn_sh ex4_built) <= 30)%nat.
Proof.
  destruct (ex4_kM_runs ex_env true) as (p' & K & H). exists p', K. split; [exact H|]. split.
  - exact (ex4_geometry None ltac:(discriminate)).
  - split; [reflexivity|]. cbn. lia.
Qed.

(* C20 for the shipped quadrature rule, shape functions and tables, all of them rounded decimal numbers:
   up to 12 terms, the numerical and the closed-form matrices differ entry by entry by no more than
   three parts in 10^11 of the area times the largest factors times the sum of the coefficients *)
Theorem C20_stiffness_with_shipped_data : forall E p,
  geometry_ok (chosen_model p) (kernel_view p) -> whole_window (kernel_view p) ->
  e_rule E = code_rule -> e_basis E = code_basis -> e_tables E = code_tables ->
  (sh_m (pn_sh p) <= 12)%nat -> (sh_n (pn_sh p) <= 12)%nat -> unit_edges (kernel_view p) ->
  forall Aa An pa pn Ka Kn,
  calc_kC E Aa p = (pa, Ok Ka) -> calc_kC E An p = (pn, Ok Kn) ->
  ka_c Aa = None -> ka_F Aa = None -> ka_NL Aa = false -> ka_c_cte Aa = None ->
  ka_c An <> None \/ ka_F An <> None -> ka_NL An = false -> ka_c_cte An = None -> pn_N_cte p = (0, 0, 0) ->
  (forall i j, (i < points_x An p)%nat -> (j < points_y An p)%nat -> forall a b,
     laminate_at (laminate_used E An p) i j a b = lam_matrix (pn_ortho p) (rebuilt_lam E p) a b) ->
  is_ABD (lam_matrix (pn_ortho p) (rebuilt_lam E p)) ->
  ka_fin Aa = ka_fin An -> ka_row0 Aa = ka_col0 Aa -> ka_row0 An = ka_col0 Aa -> ka_col0 An = ka_col0 Aa ->
  (4 <= points_x An p <= 64)%nat -> (4 <= points_y An p <= 64)%nat ->
  (sh_m (pn_sh p) <= points_x An p)%nat -> (sh_n (pn_sh p) <= points_y An p)%nat ->
  forall r t, Rabs (Kn r t - Ka r t) <= 3 / 10 ^ 11 *
    (Rabs (sh_a (kernel_view p) * sh_b (kernel_view p)) *
     (strain_scale (curvature (chosen_model p) (kernel_view p)) (kernel_view p) * strain_scale (curvature (chosen_model p) (kernel_view p)) (kernel_view p)) *
     sumn 6 (fun a => sumn 6 (fun b => Rabs (lam_matrix (pn_ortho p) (rebuilt_lam E p) a b)))).
Proof. exact calc_kC_near. Qed.
Print Assumptions C20_stiffness_with_shipped_data.

Theorem C20_geometric_stiffness_with_shipped_data : forall E p,
  geometry_ok (chosen_model p) (kernel_view p) -> whole_window (kernel_view p) ->
  e_rule E = code_rule -> e_basis E = code_basis -> e_tables E = code_tables ->
  (sh_m (pn_sh p) <= 12)%nat -> (sh_n (pn_sh p) <= 12)%nat -> unit_edges (kernel_view p) ->
  forall Aa An pa pn Ka Kn Nxx Nyy Nxy,
  calc_kG E Aa p = (pa, Ok Ka) -> calc_kG E An p = (pn, Ok Kn) -> pn_N p = (Nxx, Nyy, Nxy) ->
  ka_c Aa = None -> ka_NL Aa = false ->
  ka_c An <> None \/ ka_NL An = true -> (forall k, given_vector (ka_c An) k = 0) ->
  ka_fin Aa = ka_fin An -> ka_row0 Aa = ka_col0 Aa -> ka_row0 An = ka_col0 Aa -> ka_col0 An = ka_col0 Aa ->
  (4 <= points_x An p <= 64)%nat -> (4 <= points_y An p <= 64)%nat ->
  (sh_m (pn_sh p) <= points_x An p)%nat -> (sh_n (pn_sh p) <= points_y An p)%nat ->
  forall r t, Rabs (Kn r t - Ka r t) <= 3 / 10 ^ 11 *
    (Rabs (sh_a (kernel_view p) * sh_b (kernel_view p)) * (slope_scale (kernel_view p) * slope_scale (kernel_view p)) *
     (Rabs Nxx + Rabs Nyy + 2 * Rabs Nxy)).
Proof. exact calc_kG_near. Qed.
Print Assumptions C20_geometric_stiffness_with_shipped_data.

Theorem C20_mass_with_shipped_data : forall E p,
  geometry_ok (chosen_model p) (kernel_view p) -> whole_window (kernel_view p) ->
  e_rule E = code_rule -> e_basis E = code_basis -> e_tables E = code_tables ->
  (sh_m (pn_sh p) <= 12)%nat -> (sh_n (pn_sh p) <= 12)%nat -> unit_edges (kernel_view p) ->
  forall sza szn o ho ro nxa nya nxo nyo fin pa pn Ka Kn,
  calc_kM E sza o o None None nxa nya fin p = (pa, Ok Ka) -> calc_kM E szn o o (Some ho) (Some ro) nxo nyo fin p = (pn, Ok Kn) ->
  (forall i j, snd ho i j = fold_left Rplus (pn_plyts p) 0) -> (forall i j, snd ro i j = pn_rho p) ->
  (4 <= default (pn_nx p) nxo <= 64)%nat -> (4 <= default (pn_ny p) nyo <= 64)%nat ->
  (sh_m (pn_sh p) <= default (pn_nx p) nxo)%nat -> (sh_n (pn_sh p) <= default (pn_ny p) nyo)%nat ->
  forall r t, let h := fold_left Rplus (pn_plyts p) 0 in
  Rabs (Kn r t - Ka r t) <= 3 / 10 ^ 11 *
    (Rabs (sh_a (kernel_view p) * sh_b (kernel_view p)) * (motion_scale (pn_offset p) (kernel_view p) * motion_scale (pn_offset p) (kernel_view p)) *
     sumn 5 (fun a => Rabs (inertia (833333333333333 / 10000000000000000) h (pn_rho p) a))).
Proof. exact calc_kM_near. Qed.
Print Assumptions C20_mass_with_shipped_data.

Lemma ex4_unit : forall r, unit_edges (kernel_view (ex4_panel r)).
Proof. intros r d. destruct d as [|[|d]]; cbn; unfold unit_flags; cbn; rewrite ?Rabs_R1, ?Rabs_R0; lra. Qed.

Example C20_shipped_data_met : exists pa Ka pn Kn,
  calc_kC ex_env (ana_args true) (ex4_panel (Some 10)) = (pa, Ok Ka) /\
  calc_kC ex_env (num_args true) (ex4_panel (Some 10)) = (pn, Ok Kn) /\
  exists B, forall r t, Rabs (Kn r t - Ka r t) <= 3 / 10 ^ 11 * B.
Proof.
  destruct (ex4_kC_runs ex_env true (Some 10)) as (pa & Ka & Ha).
  destruct (ex4_kC_num_runs ex_env true (Some 10)) as (pn & Kn & Hn). exists pa, Ka, pn, Kn. split; [exact Ha|]. split; [exact Hn|].
  eexists. eapply (C20_stiffness_with_shipped_data ex_env (ex4_panel (Some 10))); try exact Ha; try exact Hn; try reflexivity;
    try (cbn; lia).
  - apply ex4_geometry. intro A. injection A. lra.
  - apply ex4_whole.
  - apply ex4_unit.
  - left. discriminate.
  - exact ex_ABD_is.
Qed.
Example C20_shipped_data_geometric_met : exists pa Ka pn Kn,
  calc_kG ex_env (ana_args true) (ex4_panel (Some 10)) = (pa, Ok Ka) /\
  calc_kG ex_env (num_args true) (ex4_panel (Some 10)) = (pn, Ok Kn) /\
  exists B, forall r t, Rabs (Kn r t - Ka r t) <= 3 / 10 ^ 11 * B.
Proof.
  destruct (ex4_kG_runs ex_env true (Some 10)) as (pa & Ka & Ha).
  destruct (ex4_kG_num_runs ex_env true (Some 10)) as (pn & Kn & Hn). exists pa, Ka, pn, Kn. split; [exact Ha|]. split; [exact Hn|].
  eexists. eapply (C20_geometric_stiffness_with_shipped_data ex_env (ex4_panel (Some 10))); try exact Ha; try exact Hn; try reflexivity;
    try (cbn; lia).
  - apply ex4_geometry. intro A. injection A. lra.
  - apply ex4_whole.
  - apply ex4_unit.
  - left. discriminate.
  - intro k. cbn [given_vector num_args ka_c]. unfold vec.
    destruct (Nat.lt_ge_cases k 53) as [Hk|Hk]; [apply nth_repeat|apply nth_overflow; rewrite repeat_length; exact Hk].
Qed.
Example C20_shipped_data_mass_met : exists pa Ka pn Kn,
  calc_kM ex_env (SStr 5) 2 2 None None None None true ex4_built = (pa, Ok Ka) /\
  calc_kM ex_env (SStr 5) 2 2 (Some ex4_h) (Some ex4_rho) None None true ex4_built = (pn, Ok Kn) /\
  exists B, forall r t, Rabs (Kn r t - Ka r t) <= 3 / 10 ^ 11 * B.
Proof.
  destruct (ex4_kM_runs ex_env true) as (pa & Ka & Ha).
  destruct (ex4_kM_num_runs ex_env true) as (pn & Kn & Hn). exists pa, Ka, pn, Kn. split; [exact Ha|]. split; [exact Hn|].
  eexists. eapply (C20_mass_with_shipped_data ex_env ex4_built); try exact Ha; try exact Hn; try reflexivity; try (cbn; lia).
  - exact (ex4_geometry None ltac:(discriminate)).
  - exact (ex4_whole None).
  - exact (ex4_unit None).
Qed.
