(* What the matrices of a stiffened bay must consist of. *)
From Coq Require Import Reals List Arith.
From Verif Require Import Base_Sum Model_Types Model_Coo Model_Result Model_Num Model_Shell Model_Multi Model_Bay Spec_Algebra Spec_Shell.
Import ListNotations.
Open Scope R_scope.

(* the matrix the panel returns when it is asked alone, with the given size and offset *)
Definition alone_kC (E : env) (N o : nat) (p : panel) (K : matrix) : Prop :=
  exists p', calc_kC E (mkKargs (SInt N) o o true None None None None None false) p = (p', Ok K).
Definition alone_kG (E : env) (c : option carg) (N o : nat) (p : panel) (K : matrix) : Prop :=
  exists p', calc_kG E (mkKargs (SInt N) o o true c None None None None false) p = (p', Ok K).
(* _rebuild first: calc_kM does not rebuild *)
Definition alone_kM (E : env) (N o : nat) (p : panel) (K : matrix) : Prop :=
  exists p1 p', rebuild E p = (p1, Ok tt) /\ calc_kM E (SInt N) o o None None None None true p1 = (p', Ok K).

(* number of constants of a flange, of the skin and of the whole bay; first constant of the flange j *)
Definition flange_dim (s : stiff2) : nat := match s2_flange s with Some q => 3 * sh_m (pn_sh q) * sh_n (pn_sh q) | None => 0 end.
Definition skin_dim (B : bay) : nat := 3 * sh_m (by_sh B) * sh_n (by_sh B).
Definition flanges_dim (l : list stiff2) : nat := fold_right (fun s n => flange_dim s + n)%nat 0%nat l.
Definition bay_dim (B : bay) : nat := skin_dim B + flanges_dim (by_s2 B).
Definition slice_of (B : bay) (j : nat) : nat := skin_dim B + flanges_dim (firstn j (by_s2 B)).

(* thickness of the skin at the line of a stiffener: the mean of both sides *)
Definition thickness (p : panel) : R := suml (rebuilt_plyts p) (fun t => t).
Definition beside (B : bay) (i j : nat) (h : R) : Prop :=
  exists p q, nth_error (by_panels B) i = Some p /\ nth_error (by_panels B) j = Some q /\ h = (thickness p + thickness q) / 2.

(* sum of the values in a list of matrices *)
Definition entries (l : list matrix) (r t : nat) : R := suml l (fun M => M r t).

(* stiffness of the plies of a flange: sums over the plies; S1 weighs each ply with the distance of its
   middle from the outer face of the first ply *)
Definition flange_E1 (l : list ply) : R := suml l (fun p => ply_h p * (ply_q11 p - ply_q12 p ^ 2 / ply_q22 p)).
Fixpoint flange_S1_from (y : R) (l : list ply) : R :=
  match l with
  | [] => 0
  | p :: l' => - (y + ply_h p / 2) * ply_h p * (ply_q16 p - ply_q12 p * ply_q16 p / ply_q22 p) + flange_S1_from (y + ply_h p) l'
  end.
Definition flange_S1 (l : list ply) : R := flange_S1_from 0 l.
Definition lam_height (D : option lamdef) : R := match D with Some D => suml (ld_plyts D) (fun t => t) | None => 0 end.
(* distance of the axis of the flange from the mid-surface of a skin of thickness h *)
Definition flange_axis (s : stiff1) (h : R) : R := s1_bf s / 2 + lam_height (s1_bdef s) + h / 2.
Definition flange_torsion (s : stiff1) : R := let hf := lam_height (s1_fdef s) in hf * s1_bf s ^ 3 / 12 + s1_bf s * hf ^ 3 / 12.

(* the bays a user can arrive at: a new bay, then any calls in any order, with any outcome. The user may
   also assign the force Fx of a 1D stiffener and anything in the panels of the skin. *)
Definition with_Fx (s : stiff1) (Fx : option R) : stiff1 :=
  mkS1 (s1_p1 s) (s1_p2 s) (s1_rho s) (s1_ys s) (s1_bb s) (s1_bf s) (s1_bdef s) (s1_fdef s) Fx
    (s1_base s) (s1_flam s) (s1_hf s) (s1_dbf s) (s1_Jxx s) (s1_E1 s) (s1_S1 s) (s1_F1 s).
Inductive built (V : benv) : bay -> Prop :=
| built_new B : by_panels B = [] -> by_s1 B = [] -> by_s2 B = [] -> built V B
| built_panel B y1 y2 stack plyts plyt props prop mdl rho : built V B -> built V (add_panel y1 y2 stack plyts plyt props prop mdl rho B)
| built_1d B ys rho bb bf bd fd : built V B -> built V (fst (add_bladestiff1d V ys rho bb bf bd fd B))
| built_2d B ys rho bb bf bd fd mf nf : built V B -> built V (fst (add_bladestiff2d V ys rho bb bf bd fd mf nf B))
| built_Fx B j s Fx : built V B -> nth_error (by_s1 B) j = Some s -> built V (set_s1 B (set_at j (with_Fx s Fx) (by_s1 B)))
| built_skin B ps : built V B -> length ps = length (by_panels B) -> built V (set_panels B ps)
| built_rebuild B : built V B -> built V (fst (bay_rebuild V B))
| built_size B : built V B -> built V (fst (bay_size B))
| built_kC B : built V B -> built V (fst (bay_kC V B))
| built_kG B c : built V B -> built V (fst (bay_kG V c B))
| built_kM B : built V B -> built V (fst (bay_kM V B))
| built_kA B : built V B -> built V (fst (bay_kA V B))
| built_cA B : built V B -> built V (fst (bay_cA V B)).
