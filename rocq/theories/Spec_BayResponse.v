(* A stiffened bay whose parts resist every strain. Definitions only. *)
From Coq Require Import Reals List Arith.
From Verif Require Import Base_Sum Model_Types Model_Coo Model_Result Model_Num Model_DB Model_Shell Model_Multi Model_Bay
  Spec_Algebra Spec_Kinematics Spec_Quadrature Spec_Integral Spec_Bardell Spec_Panel Spec_Shell Spec_Modes Spec_Rigid Spec_Tied Spec_Bay Spec_BayWork Spec_Blade.
Import ListNotations.
Open Scope R_scope.

(* the same rectangle, series and supports *)
Definition same_skin (s t : shell) : Prop :=
  sh_a s = sh_a t /\ sh_b s = sh_b t /\ sh_m s = sh_m t /\ sh_n s = sh_n t /\
  sh_xu s = sh_xu t /\ sh_xv s = sh_xv t /\ sh_xw s = sh_xw t /\ sh_yu s = sh_yu t /\ sh_yv s = sh_yv t /\ sh_yw s = sh_yw t.
(* the laminate of a panel resists every strain *)
Definition resists (E : env) (p : panel) : Prop := definite 6 (lam_matrix (pn_ortho p) (rebuilt_lam E p)).
(* the coupling of the flange of a 1D stiffener is not larger than what its axial and torsional stiffness carry (C66);
   without coupling, as for plies along the flange, there is nothing to check *)
Definition sound_blade (V : benv) (s : stiff1) : Prop := forall D, s1_fdef s = Some D ->
  let l := b_plies V (ld_stack D) (ld_plyts D) (ld_props D) in
  0 <= s1_bf s /\ 0 <= lam_height (s1_fdef s) /\ List.Forall ply_sound l /\ flange_S1 l ^ 2 <= flange_E1 l * flange_torsion s.
(* panels of the skin with the outline of the bay, of which at least one, p0, resists every strain; pads that store energy; sound
   1D stiffeners; 2D stiffeners on lines of the skin, with flanges that resist every strain *)
Record stiff_bay (V : benv) (B : bay) (p0 : panel) (n : nat) : Prop := {
  sb_built : built V B;
  sb_ready : bay_ready B;
  sb_basis : e_basis (b_env V) = exact_basis;
  sb_tables : tables_integrate (e_tables (b_env V)) exact_basis n;
  sb_small : (n <= 30)%nat;
  sb_terms : bay_terms B n;
  sb_a : 0 < sh_a (by_sh B);
  sb_b : 0 < sh_b (by_sh B);
  sb_panels : forall p, In p (by_panels B) -> elastic (b_env V) p /\ same_skin (pn_sh p) (by_sh B);
  sb_one : In p0 (by_panels B) /\ resists (b_env V) p0;
  sb_pads : forall s D h, In s (by_s1 B) -> s1_bdef s = Some D -> beside B (s1_p1 s) (s1_p2 s) h ->
    elastic (b_env V) (base_shell B D (s1_rho s) h (s1_ys s) (s1_bb s));
  sb_blades : forall s, In s (by_s1 B) -> sound_blade V s;
  sb_pads2 : forall s b, In s (by_s2 B) -> s2_base s = Some b -> elastic (b_env V) b;
  sb_flanges : forall s q, In s (by_s2 B) -> s2_flange s = Some q ->
    elastic (b_env V) q /\ resists (b_env V) q /\ 0 < sh_b (pn_sh q) /\ sturdy (rebuilt_lam (b_env V) q);
  sb_roots : forall s, In s (by_s2 B) -> 0 <= s2_ys s <= sh_b (by_sh B) /\ forall l, root_laminate V B s l -> sturdy l }.

(* no point of the panel s is displaced by the constants c *)
Definition motionless (s : shell) (c : nat -> R) : Prop := forall xi eta, -1 <= xi <= 1 -> -1 <= eta <= 1 ->
  d_u exact_basis s c xi eta = 0 /\ d_v exact_basis s c xi eta = 0 /\ d_w exact_basis s c xi eta = 0.
(* neither a point of the skin nor one of a flange is displaced *)
Definition bay_motionless (B : bay) (c : nat -> R) : Prop :=
  motionless (by_sh B) c /\ forall j s q, nth_error (by_s2 B) j = Some s -> s2_flange s = Some q -> motionless (pn_sh q) (own (slice_of B j) c).
(* every point of the panel is displaced by the same amount in c and in d *)
Definition same_disp (s : shell) (c d : nat -> R) : Prop := forall xi eta, -1 <= xi <= 1 -> -1 <= eta <= 1 ->
  d_u exact_basis s c xi eta = d_u exact_basis s d xi eta /\ d_v exact_basis s c xi eta = d_v exact_basis s d xi eta /\
  d_w exact_basis s c xi eta = d_w exact_basis s d xi eta.
(* the root of a 2D stiffener, at the line y = ys of the skin, follows the skin: along the line, in the plane and out of
   the plane of the skin, and it does not turn against it *)
Definition root_closed (B : bay) (s : stiff2) (q : panel) (o : nat) (c : nat -> R) : Prop := forall x, 0 <= x <= sh_a (by_sh B) ->
  let xi := natural x (sh_a (by_sh B)) in let eta := natural (s2_ys s) (sh_b (by_sh B)) in let f := own o c in
  d_u exact_basis (by_sh B) c xi eta = d_u exact_basis (pn_sh q) f xi (-1) /\
  d_v exact_basis (by_sh B) c xi eta = d_w exact_basis (pn_sh q) f xi (-1) /\
  d_w exact_basis (by_sh B) c xi eta = - d_v exact_basis (pn_sh q) f xi (-1) /\
  d_wy exact_basis (by_sh B) c xi eta = d_wy exact_basis (pn_sh q) f xi (-1).
(* the curvature of the skin *)
Definition skin_curve (p0 : panel) : R := curvature (chosen_model p0) (kernel_view p0).
(* the same bay with further stiffeners *)
Definition extended (B B2 : bay) : Prop :=
  by_sh B2 = by_sh B /\ by_r B2 = by_r B /\ by_panels B2 = by_panels B /\
  (exists l, by_s1 B2 = by_s1 B ++ l) /\ (exists l, by_s2 B2 = by_s2 B ++ l).
