(* Motions of a panel without strain. Definitions only. *)
From Coq Require Import Reals List Arith.
From Coquelicot Require Import Coquelicot.
From Verif Require Import Base_Sum Model_Types Model_Result Model_DB Model_Shell Spec_Algebra Spec_Kinematics Spec_Integral Spec_Bardell Spec_Panel Spec_Shell.
Import ListNotations.
Open Scope R_scope.

(* the panel of curvature k displaces by u = u0 - th y + k al y^2 / 2, v = v0 + th x - k (w0 y + al x y + be y^2 / 2),
   w = w0 + al x + be y at the point (x, y), 0 <= x <= a, 0 <= y <= b. For a plate, k = 0, these are the rigid motions: three
   translations, a rotation th in the plane and the slopes al and be. For a curved panel they are the displacements that
   the strains of shallow shells do not see. *)
Definition motion (k u0 v0 w0 th al be : R) (d : nat) (x y : R) : R :=
  match d with
  | 0%nat => u0 - th * y + k * (al * y ^ 2 / 2)
  | 1%nat => v0 + th * x - k * (w0 * y + al * x * y + be * y ^ 2 / 2)
  | _ => w0 + al * x + be * y
  end.
Definition rigid (k : R) (s : shell) (c : nat -> R) (u0 v0 w0 th al be : R) : Prop :=
  forall xi eta, -1 <= xi <= 1 -> -1 <= eta <= 1 ->
  let x := sh_a s * (xi + 1) / 2 in let y := sh_b s * (eta + 1) / 2 in
  d_u exact_basis s c xi eta = motion k u0 v0 w0 th al be 0 x y /\ d_v exact_basis s c xi eta = motion k u0 v0 w0 th al be 1 x y /\
  d_w exact_basis s c xi eta = motion k u0 v0 w0 th al be 2 x y.

Definition free_edge : edge := mkEdge 1 1 1 1.
(* every flag is 0 (held) or 1 (free) *)
Definition flags_01 (s : shell) : Prop := forall d, (d < 3)%nat -> forall f, In f [e1t; e1r; e2t; e2r] ->
  (f (xedge s d) = 0 \/ f (xedge s d) = 1) /\ (f (yedge s d) = 0 \/ f (yedge s d) = 1).
(* the slopes of component d (0 u, 1 v, 2 w) *)
Definition motion_x (k u0 v0 w0 th al be : R) (d : nat) (x y : R) : R := Derive (fun t => motion k u0 v0 w0 th al be d t y) x.
Definition motion_y (k u0 v0 w0 th al be : R) (d : nat) (x y : R) : R := Derive (fun t => motion k u0 v0 w0 th al be d x t) y.
(* the supports of the panel allow the motion: a component held along an edge is zero there, and so is its slope across the
   edge if that is held *)
Definition allowed (k : R) (s : shell) (u0 v0 w0 th al be : R) : Prop := forall d t, (d < 3)%nat -> 0 <= t <= 1 ->
  let U := motion k u0 v0 w0 th al be d in let Ux := motion_x k u0 v0 w0 th al be d in let Uy := motion_y k u0 v0 w0 th al be d in
  let a := sh_a s in let b := sh_b s in
  (e1t (xedge s d) = 0 -> U 0 (b * t) = 0) /\ (e2t (xedge s d) = 0 -> U a (b * t) = 0) /\
  (e1t (yedge s d) = 0 -> U (a * t) 0 = 0) /\ (e2t (yedge s d) = 0 -> U (a * t) b = 0) /\
  (e1r (xedge s d) = 0 -> Ux 0 (b * t) = 0) /\ (e2r (xedge s d) = 0 -> Ux a (b * t) = 0) /\
  (e1r (yedge s d) = 0 -> Uy (a * t) 0 = 0) /\ (e2r (yedge s d) = 0 -> Uy (a * t) b = 0).
(* the supports leave the panel no such motion *)
Definition anchored (k : R) (s : shell) : Prop := forall u0 v0 w0 th al be, allowed k s u0 v0 w0 th al be ->
  u0 = 0 /\ v0 = 0 /\ w0 = 0 /\ th = 0 /\ al = 0 /\ be = 0.
(* every strain costs energy *)
Definition definite (n : nat) (M : nat -> nat -> R) : Prop := forall e, (exists k, (k < n)%nat /\ e k <> 0) -> 0 < form n M e e.

(* the closed-form stiffness at its place of a matrix of the size N *)
Definition stiffness (E : env) (A : kargs) (p : panel) (N : nat) (K : nat -> nat -> R) : Prop :=
  (exists p', calc_kC E A p = (p', Ok K)) /\ ka_c A = None /\ ka_F A = None /\ ka_NL A = false /\ ka_c_cte A = None /\ ka_fin A = true /\
  ka_row0 A = ka_col0 A /\ (ka_col0 A + ndof (pn_sh p) <= N)%nat /\
  tables_integrate (e_tables E) exact_basis (Nat.max (sh_m (pn_sh p)) (sh_n (pn_sh p))).
