(* Comparing two models of a panel: more terms, fewer supports, a stiffer laminate. Definitions only. *)
From Coq Require Import Reals List Arith.
From Verif Require Import Base_Sum Model_Types Model_Result Model_DB Model_Shell Spec_Algebra Spec_Kinematics Spec_Integral Spec_Bardell Spec_Panel Spec_Shell.
Open Scope R_scope.

(* every flag is kept or set to 0 *)
Definition more_held (e e' : edge) : Prop := forall i, (i < 4)%nat -> flag e i = flag e' i \/ flag e i = 0.
(* the geometry of s' is that of s; s' has as many terms or more, and no flag of s' has been set to 0 that is not 0 in s *)
Definition freer (s s' : shell) : Prop :=
  sh_a s' = sh_a s /\ sh_b s' = sh_b s /\ sh_r s' = sh_r s /\ (sh_m s <= sh_m s')%nat /\ (sh_n s <= sh_n s')%nat /\
  forall d, (d < 3)%nat -> more_held (xedge s d) (xedge s' d) /\ more_held (yedge s d) (yedge s' d).
(* the same displacement at every point *)
Definition same_field (s s' : shell) (c c' : nat -> R) : Prop := forall xi eta,
  d_u exact_basis s' c' xi eta = d_u exact_basis s c xi eta /\ d_v exact_basis s' c' xi eta = d_v exact_basis s c xi eta /\
  d_w exact_basis s' c' xi eta = d_w exact_basis s c xi eta.

(* the closed-form stiffness, geometric stiffness and mass of a built panel, at the place o of matrices of the size N *)
Definition at_place (A : kargs) (o : nat) : Prop :=
  ka_c A = None /\ ka_F A = None /\ ka_NL A = false /\ ka_c_cte A = None /\ ka_fin A = true /\ ka_row0 A = o /\ ka_col0 A = o.
Definition matrices (E : env) (p : panel) (o N : nat) (K G M : nat -> nat -> R) : Prop :=
  (exists A p', at_place A o /\ calc_kC E A p = (p', Ok K)) /\ (exists A p', at_place A o /\ calc_kG E A p = (p', Ok G)) /\
  (exists sz nxo nyo p', calc_kM E sz o o None None nxo nyo true p = (p', Ok M)) /\ (o + ndof (pn_sh p) <= N)%nat /\
  pn_N_cte p = (0, 0, 0) /\ geometry_ok (chosen_model p) (kernel_view p) /\ is_ABD (lam_matrix (pn_ortho p) (rebuilt_lam E p)) /\
  tables_integrate (e_tables E) exact_basis (Nat.max (sh_m (pn_sh p)) (sh_n (pn_sh p))).
(* q is made of the laminate of p, with its mass and its load *)
Definition same_material (p q : panel) : Prop :=
  chosen_model q = chosen_model p /\ pn_N q = pn_N p /\ pn_rho q = pn_rho p /\ pn_plyts q = pn_plyts p /\ pn_offset q = pn_offset p.
Definition same_laminate (E : env) (p q : panel) : Prop := forall i j, (i < 6)%nat -> (j < 6)%nat ->
  lam_matrix (pn_ortho q) (rebuilt_lam E q) i j = lam_matrix (pn_ortho p) (rebuilt_lam E p) i j.
Definition stiffer_laminate (E : env) (p q : panel) : Prop :=
  psd_form 6 (fun i j => lam_matrix (pn_ortho q) (rebuilt_lam E q) i j - lam_matrix (pn_ortho p) (rebuilt_lam E p) i j).

(* every circular frequency omega of (K, M) has omega^2 >= l *)
Definition frequencies_above (N : nat) (K M : nat -> nat -> R) (l : R) : Prop := forall c, l * quad N M c <= quad N K c.
(* (K, G) does not buckle under l times the load *)
Definition stable (N : nat) (K G : nat -> nat -> R) (l : R) : Prop := forall c, 0 <= quad N K c + l * quad N G c.
