(* Properties of the integration limits x1, x2, y1, y2 of a panel. *)
From Coq Require Import Reals List Arith Bool Lia Lra.
From Coquelicot Require Import Coquelicot.
From Verif Require Import Base_Sum Model_Types Model_Coo Model_Result Model_Num Model_DB Model_Bardell Model_Shell Model_Fext
  Spec_Algebra Spec_Kinematics Spec_Quadrature Spec_Panel Spec_Shell Spec_Bardell Spec_Integral Spec_Window
  Proof_Api Proof_FintApi Proof_Window Ex_Panel Ex_Exact Ex_Rebuild Ex_Window.
Import ListNotations.
Open Scope R_scope.

(* one laminate F for the whole panel, shape functions of degree at most D *)
Definition uniform (E : env) (p : panel) (F : nat -> nat -> R) (D : nat) : Prop :=
  geometry_ok (chosen_model p) (kernel_view p) /\ is_ABD F /\
  poly_basis (e_basis E) (Nat.max (sh_m (pn_sh p)) (sh_n (pn_sh p))) D.
(* the calculation is numerical (a Ritz vector or a laminate is given, or NLgeom=True), finalized, on
   the diagonal, and without the loads that calc_kC adds by itself *)
Definition plain_numeric (A : kargs) (p : panel) : Prop :=
  numeric_kC A /\ ka_c_cte A = None /\ pn_N_cte p = (0, 0, 0) /\ ka_fin A = true /\ ka_row0 A = ka_col0 A.
Lemma ex4_uniform r : r <> Some 0 -> uniform win_env (ex4_panel r) ex_ABD 3.
Proof. intro Hr. split; [apply ex4_geometry; exact Hr|]. split; [apply ex_ABD_is|]. apply (exact_basis_poly 4). lia. Qed.
Lemma ex4_built_uniform : uniform win_env ex4_built ex_ABD 3.
Proof. split; [split; [cbn; lra|split; [cbn; lra|discriminate]]|]. split; [apply ex_ABD_is|]. apply (exact_basis_poly 4). lia. Qed.
Lemma win_plain NL r : plain_numeric (win_args NL) (ex4_panel r).
Proof. split; [left; discriminate|]. repeat split; reflexivity. Qed.

(* C23: the shape functions stored in the package are polynomials: with m terms, of degree at most
   max(3, m-1), which is the degree in the theorems below *)
Theorem C23_shape_functions_are_polynomials : forall m, poly_basis code_basis m (Nat.max 3 (m - 1)).
Proof. exact code_basis_poly. Qed.
Print Assumptions C23_shape_functions_are_polynomials.

(* C23: constitutive stiffness: degree 2D for a linear calculation, 4D with NLgeom=True *)
Theorem C23_stiffness_windows_add_along_x : forall E A p F D x1 x2 x3 y1 y2 p13 p12 p23 K13 K12 K23,
  uniform E p F D -> plain_numeric A p -> laminate_used E A p = FMat F ->
  rule_exact (e_rule E) (points_x A p) (if ka_NL A then 4 * D else 2 * D) -> given x1 x2 -> given x2 x3 ->
  calc_kC E A (limits p x1 x3 y1 y2) = (p13, Ok K13) ->
  calc_kC E A (limits p x1 x2 y1 y2) = (p12, Ok K12) ->
  calc_kC E A (limits p x2 x3 y1 y2) = (p23, Ok K23) ->
  forall r t, K13 r t = K12 r t + K23 r t.
Proof.
  intros E A p F D x1 x2 x3 y1 y2 p13 p12 p23 K13 K12 K23 (U1 & U2 & U3) (P1 & P2 & P3 & P4 & P5) HF HQ.
  apply (kC_split_x E A p F D); try assumption. unfold kC_degree. destruct (ka_NL A); [replace (D + D + (D + D))%nat with (4 * D)%nat by lia|replace (D + D)%nat with (2 * D)%nat by lia]; exact HQ.
Qed.
Print Assumptions C23_stiffness_windows_add_along_x.
Theorem C23_stiffness_windows_add_along_y : forall E A p F D x1 x2 y1 y2 y3 p13 p12 p23 K13 K12 K23,
  uniform E p F D -> plain_numeric A p -> laminate_used E A p = FMat F ->
  rule_exact (e_rule E) (points_y A p) (if ka_NL A then 4 * D else 2 * D) -> given y1 y2 -> given y2 y3 ->
  calc_kC E A (limits p x1 x2 y1 y3) = (p13, Ok K13) ->
  calc_kC E A (limits p x1 x2 y1 y2) = (p12, Ok K12) ->
  calc_kC E A (limits p x1 x2 y2 y3) = (p23, Ok K23) ->
  forall r t, K13 r t = K12 r t + K23 r t.
Proof.
  intros E A p F D x1 x2 y1 y2 y3 p13 p12 p23 K13 K12 K23 (U1 & U2 & U3) (P1 & P2 & P3 & P4 & P5) HF HQ.
  apply (kC_split_y E A p F D); try assumption. unfold kC_degree. destruct (ka_NL A); [replace (D + D + (D + D))%nat with (4 * D)%nat by lia|replace (D + D)%nat with (2 * D)%nat by lia]; exact HQ.
Qed.
Print Assumptions C23_stiffness_windows_add_along_y.

(* linear and nonlinear, cut at x = 1/2 and y = 1 *)
Example C23_stiffness_hypotheses_met : forall NL, exists p13 p12 p23 K13 K12 K23,
  calc_kC win_env (win_args NL) (limits (ex4_panel (Some 7)) 0 2 (-1) 1) = (p13, Ok K13) /\
  calc_kC win_env (win_args NL) (limits (ex4_panel (Some 7)) 0 (1/2) (-1) 1) = (p12, Ok K12) /\
  calc_kC win_env (win_args NL) (limits (ex4_panel (Some 7)) (1/2) 2 (-1) 1) = (p23, Ok K23) /\
  forall r t, K13 r t = K12 r t + K23 r t.
Proof.
  intro NL. destruct (win_kC_runs NL (Some 7) 0 2 (-1) 1) as (p13 & K13 & H13). destruct (win_kC_runs NL (Some 7) 0 (1/2) (-1) 1) as (p12 & K12 & H12).
  destruct (win_kC_runs NL (Some 7) (1/2) 2 (-1) 1) as (p23 & K23 & H23). exists p13, p12, p23, K13, K12, K23.
  split; [exact H13|]. split; [exact H12|]. split; [exact H23|].
  apply (C23_stiffness_windows_add_along_x win_env (win_args NL) (ex4_panel (Some 7)) ex_ABD 3 0 (1/2) 2 (-1) 1 p13 p12 p23).
  - apply ex4_uniform. intro H. assert (7 = 0) by congruence. lra.
  - apply win_plain.
  - reflexivity.
  - apply (rule_exact_weaken _ _ _ 13); [destruct NL; cbn; lia|apply nc13_exact].
  - split; intro; lra.
  - split; intro; lra.
  - exact H13.
  - exact H12.
  - exact H23.
Qed.

(* C23: geometric stiffness of a state c *)
Theorem C23_geometric_windows_add_along_x : forall E A p F D x1 x2 x3 y1 y2 p13 p12 p23 K13 K12 K23,
  uniform E p F D -> ka_c A <> None \/ ka_NL A = true -> ka_fin A = true -> ka_row0 A = ka_col0 A -> laminate_used E A p = FMat F ->
  rule_exact (e_rule E) (points_x A p) (if ka_NL A then 4 * D else 3 * D) -> given x1 x2 -> given x2 x3 ->
  calc_kG E A (limits p x1 x3 y1 y2) = (p13, Ok K13) ->
  calc_kG E A (limits p x1 x2 y1 y2) = (p12, Ok K12) ->
  calc_kG E A (limits p x2 x3 y1 y2) = (p23, Ok K23) ->
  forall r t, K13 r t = K12 r t + K23 r t.
Proof.
  intros E A p F D x1 x2 x3 y1 y2 p13 p12 p23 K13 K12 K23 (U1 & U2 & U3) P1 P2 P3 HF HQ.
  apply (kG_split_x E A p F D); try assumption. unfold kG_degree. destruct (ka_NL A); [replace (D + D + (D + D))%nat with (4 * D)%nat by lia|replace (D + (D + D))%nat with (3 * D)%nat by lia]; exact HQ.
Qed.
Print Assumptions C23_geometric_windows_add_along_x.
Theorem C23_geometric_windows_add_along_y : forall E A p F D x1 x2 y1 y2 y3 p13 p12 p23 K13 K12 K23,
  uniform E p F D -> ka_c A <> None \/ ka_NL A = true -> ka_fin A = true -> ka_row0 A = ka_col0 A -> laminate_used E A p = FMat F ->
  rule_exact (e_rule E) (points_y A p) (if ka_NL A then 4 * D else 3 * D) -> given y1 y2 -> given y2 y3 ->
  calc_kG E A (limits p x1 x2 y1 y3) = (p13, Ok K13) ->
  calc_kG E A (limits p x1 x2 y1 y2) = (p12, Ok K12) ->
  calc_kG E A (limits p x1 x2 y2 y3) = (p23, Ok K23) ->
  forall r t, K13 r t = K12 r t + K23 r t.
Proof.
  intros E A p F D x1 x2 y1 y2 y3 p13 p12 p23 K13 K12 K23 (U1 & U2 & U3) P1 P2 P3 HF HQ.
  apply (kG_split_y E A p F D); try assumption. unfold kG_degree. destruct (ka_NL A); [replace (D + D + (D + D))%nat with (4 * D)%nat by lia|replace (D + (D + D))%nat with (3 * D)%nat by lia]; exact HQ.
Qed.
Print Assumptions C23_geometric_windows_add_along_y.
Example C23_geometric_hypotheses_met : forall NL, exists p13 p12 p23 K13 K12 K23,
  calc_kG win_env (win_args NL) (limits (ex4_panel (Some 7)) (-1) 1 0 3) = (p13, Ok K13) /\
  calc_kG win_env (win_args NL) (limits (ex4_panel (Some 7)) (-1) 1 0 (1/2)) = (p12, Ok K12) /\
  calc_kG win_env (win_args NL) (limits (ex4_panel (Some 7)) (-1) 1 (1/2) 3) = (p23, Ok K23) /\
  forall r t, K13 r t = K12 r t + K23 r t.
Proof.
  intro NL. destruct (win_kG_runs NL (Some 7) (-1) 1 0 3) as (p13 & K13 & H13). destruct (win_kG_runs NL (Some 7) (-1) 1 0 (1/2)) as (p12 & K12 & H12).
  destruct (win_kG_runs NL (Some 7) (-1) 1 (1/2) 3) as (p23 & K23 & H23). exists p13, p12, p23, K13, K12, K23.
  split; [exact H13|]. split; [exact H12|]. split; [exact H23|].
  apply (C23_geometric_windows_add_along_y win_env (win_args NL) (ex4_panel (Some 7)) ex_ABD 3 (-1) 1 0 (1/2) 3 p13 p12 p23).
  - apply ex4_uniform. intro H. assert (7 = 0) by congruence. lra.
  - left; discriminate.
  - reflexivity.
  - reflexivity.
  - reflexivity.
  - apply (rule_exact_weaken _ _ _ 13); [destruct NL; cbn; lia|apply nc13_exact].
  - split; intro; lra.
  - split; intro; lra.
  - exact H13.
  - exact H12.
  - exact H23.
Qed.

(* C23: mass matrix of a panel with the same thickness and density at every point *)
Theorem C23_mass_windows_add_along_x : forall E sz o nxo nyo p h rho hx hy rx ry D x1 x2 x3 y1 y2 p13 p12 p23 K13 K12 K23,
  let kM q := calc_kM E sz o o (Some (hx, hy, fun _ _ => h)) (Some (rx, ry, fun _ _ => rho)) nxo nyo true q in
  (exists F, uniform E p F D) -> rule_exact (e_rule E) (default (pn_nx p) nxo) (2 * D) -> given x1 x2 -> given x2 x3 ->
  kM (limits p x1 x3 y1 y2) = (p13, Ok K13) -> kM (limits p x1 x2 y1 y2) = (p12, Ok K12) -> kM (limits p x2 x3 y1 y2) = (p23, Ok K23) ->
  forall r t, K13 r t = K12 r t + K23 r t.
Proof.
  cbv zeta. intros E sz o nxo nyo p h rho hx hy rx ry D x1 x2 x3 y1 y2 p13 p12 p23 K13 K12 K23 (F & U1 & U2 & U3) HQ.
  apply (kM_split_x E sz o nxo nyo p h rho D); try assumption. replace (D + D)%nat with (2 * D)%nat by lia. exact HQ.
Qed.
Print Assumptions C23_mass_windows_add_along_x.
Theorem C23_mass_windows_add_along_y : forall E sz o nxo nyo p h rho hx hy rx ry D x1 x2 y1 y2 y3 p13 p12 p23 K13 K12 K23,
  let kM q := calc_kM E sz o o (Some (hx, hy, fun _ _ => h)) (Some (rx, ry, fun _ _ => rho)) nxo nyo true q in
  (exists F, uniform E p F D) -> rule_exact (e_rule E) (default (pn_ny p) nyo) (2 * D) -> given y1 y2 -> given y2 y3 ->
  kM (limits p x1 x2 y1 y3) = (p13, Ok K13) -> kM (limits p x1 x2 y1 y2) = (p12, Ok K12) -> kM (limits p x1 x2 y2 y3) = (p23, Ok K23) ->
  forall r t, K13 r t = K12 r t + K23 r t.
Proof.
  cbv zeta. intros E sz o nxo nyo p h rho hx hy rx ry D x1 x2 y1 y2 y3 p13 p12 p23 K13 K12 K23 (F & U1 & U2 & U3) HQ.
  apply (kM_split_y E sz o nxo nyo p h rho D); try assumption. replace (D + D)%nat with (2 * D)%nat by lia. exact HQ.
Qed.
Print Assumptions C23_mass_windows_add_along_y.
Example C23_mass_hypotheses_met : exists p13 p12 p23 K13 K12 K23,
  let kM q := calc_kM win_env (SStr 5) 2 2 (Some win_h) (Some win_rho) (Some 13%nat) (Some 13%nat) true q in
  kM (limits ex4_built 0 2 (-1) 1) = (p13, Ok K13) /\ kM (limits ex4_built 0 (1/2) (-1) 1) = (p12, Ok K12) /\
  kM (limits ex4_built (1/2) 2 (-1) 1) = (p23, Ok K23) /\ forall r t, K13 r t = K12 r t + K23 r t.
Proof.
  destruct (win_kM_runs 0 2 (-1) 1) as (p13 & K13 & H13). destruct (win_kM_runs 0 (1/2) (-1) 1) as (p12 & K12 & H12).
  destruct (win_kM_runs (1/2) 2 (-1) 1) as (p23 & K23 & H23). exists p13, p12, p23, K13, K12, K23. cbv zeta.
  split; [exact H13|]. split; [exact H12|]. split; [exact H23|].
  apply (C23_mass_windows_add_along_x win_env (SStr 5) 2 (Some 13%nat) (Some 13%nat) ex4_built (1/4) 1300 13 13 13 13 3 0 (1/2) 2 (-1) 1 p13 p12 p23).
  - exists ex_ABD. apply ex4_built_uniform.
  - apply (rule_exact_weaken _ _ _ 13); [cbn; lia|apply nc13_exact].
  - split; intro; lra.
  - split; intro; lra.
  - exact H13.
  - exact H12.
  - exact H23.
Qed.

(* C23: internal force *)
Theorem C23_internal_force_windows_add_along_x : forall E c sz o nxo nyo Fo p F D x1 x2 x3 y1 y2 p13 p12 p23 u13 u12 u23,
  let fint q := calc_fint E c sz o nxo nyo Fo q in
  uniform E p F D -> fint_laminate Fo p = FMat F -> rule_exact (e_rule E) (default (pn_nx p) nxo) (4 * D) -> given x1 x2 -> given x2 x3 ->
  fint (limits p x1 x3 y1 y2) = (p13, Ok u13) -> fint (limits p x1 x2 y1 y2) = (p12, Ok u12) -> fint (limits p x2 x3 y1 y2) = (p23, Ok u23) ->
  forall r, vdense u13 r = vdense u12 r + vdense u23 r.
Proof.
  cbv zeta. intros E c sz o nxo nyo Fo p F D x1 x2 x3 y1 y2 p13 p12 p23 u13 u12 u23 (U1 & U2 & U3) HF HQ.
  apply (fint_split_x E c sz o nxo nyo Fo p F D); try assumption. replace (D + D + (D + D))%nat with (4 * D)%nat by lia. exact HQ.
Qed.
Print Assumptions C23_internal_force_windows_add_along_x.
Theorem C23_internal_force_windows_add_along_y : forall E c sz o nxo nyo Fo p F D x1 x2 y1 y2 y3 p13 p12 p23 u13 u12 u23,
  let fint q := calc_fint E c sz o nxo nyo Fo q in
  uniform E p F D -> fint_laminate Fo p = FMat F -> rule_exact (e_rule E) (default (pn_ny p) nyo) (4 * D) -> given y1 y2 -> given y2 y3 ->
  fint (limits p x1 x2 y1 y3) = (p13, Ok u13) -> fint (limits p x1 x2 y1 y2) = (p12, Ok u12) -> fint (limits p x1 x2 y2 y3) = (p23, Ok u23) ->
  forall r, vdense u13 r = vdense u12 r + vdense u23 r.
Proof.
  cbv zeta. intros E c sz o nxo nyo Fo p F D x1 x2 y1 y2 y3 p13 p12 p23 u13 u12 u23 (U1 & U2 & U3) HF HQ.
  apply (fint_split_y E c sz o nxo nyo Fo p F D); try assumption. replace (D + D + (D + D))%nat with (4 * D)%nat by lia. exact HQ.
Qed.
Print Assumptions C23_internal_force_windows_add_along_y.
Example C23_internal_force_hypotheses_met : exists p13 p12 p23 u13 u12 u23,
  let fint q := calc_fint win_env (repeat 1 53) (SStr 5) 2 (Some 13%nat) (Some 13%nat) (Some (FMat ex_ABD)) q in
  fint (limits ex4_built 0 2 (-1) 1) = (p13, Ok u13) /\ fint (limits ex4_built 0 (1/2) (-1) 1) = (p12, Ok u12) /\
  fint (limits ex4_built (1/2) 2 (-1) 1) = (p23, Ok u23) /\ forall r, vdense u13 r = vdense u12 r + vdense u23 r.
Proof.
  destruct (win_fint_runs 0 2 (-1) 1) as (p13 & K13 & H13). destruct (win_fint_runs 0 (1/2) (-1) 1) as (p12 & K12 & H12).
  destruct (win_fint_runs (1/2) 2 (-1) 1) as (p23 & K23 & H23). exists p13, p12, p23, K13, K12, K23. cbv zeta.
  split; [exact H13|]. split; [exact H12|]. split; [exact H23|].
  apply (C23_internal_force_windows_add_along_x win_env (repeat 1 53) (SStr 5) 2 (Some 13%nat) (Some 13%nat) (Some (FMat ex_ABD)) ex4_built ex_ABD 3 0 (1/2) 2 (-1) 1 p13 p12 p23).
  - apply ex4_built_uniform.
  - reflexivity.
  - apply (rule_exact_weaken _ _ _ 13); [cbn; lia|apply nc13_exact].
  - split; intro; lra.
  - split; intro; lra.
  - exact H13.
  - exact H12.
  - exact H23.
Qed.

(* C24: the closed-form matrices (no Ritz vector, no laminate and no NLgeom given) are the same for
   every choice of limits: they are those of the whole panel *)
Theorem C24_closed_forms_ignore_limits : forall E A p x1 x2 y1 y2,
  ka_c A = None -> ka_F A = None -> ka_NL A = false -> ka_c_cte A = None ->
  (forall p' q' K K', calc_kC E A p = (p', Ok K) -> calc_kC E A (limits p x1 x2 y1 y2) = (q', Ok K') -> K' = K) /\
  (forall p' q' K K', calc_kG E A p = (p', Ok K) -> calc_kG E A (limits p x1 x2 y1 y2) = (q', Ok K') -> K' = K) /\
  (forall sz row0 col0 nxo nyo fin p' q' K K', calc_kM E sz row0 col0 None None nxo nyo fin p = (p', Ok K) ->
     calc_kM E sz row0 col0 None None nxo nyo fin (limits p x1 x2 y1 y2) = (q', Ok K') -> K' = K).
Proof.
  intros E A p x1 x2 y1 y2 H1 H2 H3 H4. split; [|split].
  - intros p' q' K K'. exact (kC_closed_limits E A p x1 x2 y1 y2 p' q' K K' H1 H2 H3 H4).
  - intros p' q' K K'. exact (kG_closed_limits E A p x1 x2 y1 y2 p' q' K K' H1 H3).
  - intros sz row0 col0 nxo nyo fin p' q' K K'. exact (kM_closed_limits E sz row0 col0 nxo nyo fin p x1 x2 y1 y2 p' q' K K').
Qed.
Print Assumptions C24_closed_forms_ignore_limits.
Lemma limits_thin_runs x1 x2 y1 y2 : exists p' K, calc_kC thin_env thin_args (limits (thin_panel 1 1) x1 x2 y1 y2) = (p', Ok K).
Proof. apply Proof_Total.calc_kC_ok; try exact I; try reflexivity; try discriminate; try (cbn; lia). apply (thin_complete 1 1). Qed.
Example C24_closed_forms_hypotheses_met : exists p' q' K,
  calc_kC thin_env thin_args (thin_panel 1 1) = (p', Ok K) /\
  calc_kC thin_env thin_args (limits (thin_panel 1 1) 0 1 0 1) = (q', Ok K) /\ K 0%nat 0%nat <> 0.
Proof.
  destruct (thin_runs 1 1) as (p' & K & H & HK). destruct (limits_thin_runs 0 1 0 1) as (q' & K' & H').
  assert (K' = K) by (apply (proj1 (C24_closed_forms_ignore_limits thin_env thin_args (thin_panel 1 1) 0 1 0 1 eq_refl eq_refl eq_refl eq_refl) p' q'); assumption).
  subst K'. exists p', q', K. split; [exact H|]. split; [exact H'|]. rewrite HK. pose proof thin_k_pos. intro Hz. apply H0. lra.
Qed.

(* C24 is false: a panel cut into two sub-domains, default (closed-form) calculation *)
Theorem C24_refuted : exists E A p xs pw p1 p2 K K1 K2,
  0 < xs < sh_a (pn_sh p) /\
  calc_kC E A (limits p 0 (sh_a (pn_sh p)) 0 (sh_b (pn_sh p))) = (pw, Ok K) /\
  calc_kC E A (limits p 0 xs 0 (sh_b (pn_sh p))) = (p1, Ok K1) /\
  calc_kC E A (limits p xs (sh_a (pn_sh p)) 0 (sh_b (pn_sh p))) = (p2, Ok K2) /\
  ~ (forall r t, K r t = K1 r t + K2 r t).
Proof.
  destruct (thin_runs 1 1) as (p' & K0 & H & HK).
  destruct (limits_thin_runs 0 2 0 2) as (pw & K & Hw). destruct (limits_thin_runs 0 1 0 2) as (p1 & K1 & H1). destruct (limits_thin_runs 1 2 0 2) as (p2 & K2 & H2).
  pose proof (fun x1 x2 y1 y2 => proj1 (C24_closed_forms_ignore_limits thin_env thin_args (thin_panel 1 1) x1 x2 y1 y2 eq_refl eq_refl eq_refl eq_refl)) as L.
  assert (K = K0) by (apply (L 0 2 0 2 p' pw); assumption). assert (K1 = K0) by (apply (L 0 1 0 2 p' p1); assumption).
  assert (K2 = K0) by (apply (L 1 2 0 2 p' p2); assumption). subst K K1 K2.
  exists thin_env, thin_args, (thin_panel 1 1), 1, pw, p1, p2, K0, K0, K0.
  split; [cbn; lra|]. split; [exact Hw|]. split; [exact H1|]. split; [exact H2|].
  intro F. specialize (F 0%nat 0%nat). rewrite HK in F. apply thin_k_pos. lra.
Qed.
Print Assumptions C24_refuted.

(* C24, numerical calculation: the panel with default limits is the sum of its two parts.
   Missing: the closed-form calculations, where the property is false (above). *)
Theorem C24_numerical_parts_add_up_partial : forall E A p F D xs y1 y2 p0 p1 p2 K K1 K2,
  uniform E p F D -> plain_numeric A p -> laminate_used E A p = FMat F ->
  rule_exact (e_rule E) (points_x A p) (if ka_NL A then 4 * D else 2 * D) -> 0 < xs < sh_a (pn_sh p) ->
  calc_kC E A (limits p (-1) 1 y1 y2) = (p0, Ok K) ->
  calc_kC E A (limits p 0 xs y1 y2) = (p1, Ok K1) ->
  calc_kC E A (limits p xs (sh_a (pn_sh p)) y1 y2) = (p2, Ok K2) ->
  forall r t, K r t = K1 r t + K2 r t.
Proof.
  intros E A p F D xs y1 y2 p0 p1 p2 K K1 K2 (U1 & U2 & U3) (P1 & P2 & P3 & P4 & P5) HF HQ Hx R0 R1 R2.
  apply (kC_whole_x E A p F xs y1 y2 p0 p1 p2 K K1 K2 D); try assumption.
  - unfold kC_degree. destruct (ka_NL A); [replace (D + D + (D + D))%nat with (4 * D)%nat by lia|replace (D + D)%nat with (2 * D)%nat by lia]; exact HQ.
  - intro; lra.
  - intro; lra.
Qed.
Print Assumptions C24_numerical_parts_add_up_partial.
Example C24_numerical_hypotheses_met : exists p0 p1 p2 K K1 K2,
  calc_kC win_env (win_args true) (limits (ex4_panel None) (-1) 1 (-1) 1) = (p0, Ok K) /\
  calc_kC win_env (win_args true) (limits (ex4_panel None) 0 (1/2) (-1) 1) = (p1, Ok K1) /\
  calc_kC win_env (win_args true) (limits (ex4_panel None) (1/2) 2 (-1) 1) = (p2, Ok K2) /\ forall r t, K r t = K1 r t + K2 r t.
Proof.
  destruct (win_kC_runs true None (-1) 1 (-1) 1) as (p13 & K13 & H13). destruct (win_kC_runs true None 0 (1/2) (-1) 1) as (p12 & K12 & H12).
  destruct (win_kC_runs true None (1/2) 2 (-1) 1) as (p23 & K23 & H23). exists p13, p12, p23, K13, K12, K23.
  split; [exact H13|]. split; [exact H12|]. split; [exact H23|].
  apply (C24_numerical_parts_add_up_partial win_env (win_args true) (ex4_panel None) ex_ABD 3 (1/2) (-1) 1 p13 p12 p23).
  - apply ex4_uniform. discriminate.
  - apply win_plain.
  - reflexivity.
  - apply (rule_exact_weaken _ _ _ 13); [cbn; lia|apply nc13_exact].
  - cbn. lra.
  - exact H13.
  - exact H12.
  - exact H23.
Qed.

(* C57: an upper limit given alone has no effect: the whole panel is integrated *)
Theorem C57_upper_limit_alone_ignored : forall E A p F x2 y2 p1 p0 K1 K0,
  geometry_ok (chosen_model p) (kernel_view p) -> is_ABD F -> plain_numeric A p -> laminate_used E A p = FMat F ->
  calc_kC E A (limits p (-1) x2 (-1) y2) = (p1, Ok K1) -> calc_kC E A (limits p (-1) 1 (-1) 1) = (p0, Ok K0) ->
  forall r t, K1 r t = K0 r t.
Proof.
  intros E A p F x2 y2 p1 p0 K1 K0 G HA (P1 & P2 & P3 & P4 & P5) HF. apply (kC_upper_ignored E A p F); assumption.
Qed.
Print Assumptions C57_upper_limit_alone_ignored.

(* C57 is false: with x1 = 0 given and x2 left at its default +1 ("+1 will use a"), a panel of length
   2 is integrated up to x = 1; with x2 = 1 given and x1 left at its default it is integrated up to x = 2 *)
Theorem C57_refuted : exists E A p p1 p2 p3 K1 K2 K3,
  sh_x1 (pn_sh p) = -1 /\ sh_x2 (pn_sh p) = 1 /\ sh_a (pn_sh p) = 2 /\
  calc_kC E A (limits p 0 (sh_x2 (pn_sh p)) (-1) 1) = (p1, Ok K1) /\     (* p.x1 = 0 *)
  calc_kC E A (limits p 0 (sh_a (pn_sh p)) (-1) 1) = (p2, Ok K2) /\      (* p.x1 = 0; p.x2 = p.a *)
  calc_kC E A (limits p (sh_x1 (pn_sh p)) 1 (-1) 1) = (p3, Ok K3) /\     (* p.x2 = 1 *)
  K1 0%nat 0%nat < K2 0%nat 0%nat /\ K3 0%nat 0%nat = K2 0%nat 0%nat.
Proof.
  destruct (two_runs 0 1 (-1) 1) as (p1 & K1 & H1). destruct (two_runs 0 2 (-1) 1) as (p2 & K2 & H2). destruct (two_runs (-1) 1 (-1) 1) as (p3 & K3 & H3).
  exists thin_env, two_args, (thin_panel 1 1), p1, p2, p3, K1, K2, K3.
  split; [reflexivity|]. split; [reflexivity|]. split; [reflexivity|].
  split; [exact H1|]. split; [exact H2|]. split; [exact H3|]. split; [exact (two_windows p1 p2 K1 K2 H1 H2)|].
  exact (two_whole p2 p3 K2 K3 H2 H3).
Qed.
Print Assumptions C57_refuted.
