(* Small vocabulary shared by the property statements about panels. *)
From Coq Require Import Reals List Arith.
From Verif Require Import Base_Sum Model_Types Model_Num Model_DB Spec_Algebra Spec_Kinematics Spec_Quadrature.
Import ListNotations.
Open Scope R_scope.

(* sides of nonzero length; a cylindrical panel has a nonzero radius *)
Definition geometry_ok (mdl : model) (s : shell) : Prop :=
  sh_a s <> 0 /\ sh_b s <> 0 /\ (mdl = CylModel -> sh_r s <> 0).

(* curvature: 1/r for a cylindrical panel, 0 for a plate *)
Definition curvature (mdl : model) (s : shell) : R :=
  match mdl with PlateModel => 0 | CylModel => 1 / sh_r s end.

(* the panel's own coefficients inside a larger vector, starting at position o *)
Definition own (o : nat) (c : nat -> R) : nat -> R := fun k => c (o + k)%nat.

(* the state about which strains are linearised: the given one in a geometrically nonlinear
   calculation and the undeformed one otherwise *)
Definition state (NL : bool) (c : nat -> R) : nat -> R := if NL then c else fun _ => 0.

(* laminate stiffness at integration point (i, j): one matrix for all points, or one per point *)
Definition laminate_at (Fi : finput) (i j : nat) : nat -> nat -> R :=
  match Fi with FMat F => F | FPts _ _ F => F i j | FOther => fun _ _ => 0 end.
Definition laminate_ok (nx ny : nat) (Fi : finput) : Prop :=
  forall i j, (i < nx)%nat -> (j < ny)%nat -> is_ABD (laminate_at Fi i j).

Definition ndof (s : shell) : nat := (3 * (sh_m s * sh_n s))%nat.

(* Elastic strain energy of a panel integrated numerically with the von Karman strains, F i j being
   the laminate stiffness at point (i, j) *)
Definition strain_energy (Q : nat -> list (R * R)) (kappa : R) (Bs : basis) (s : shell) (nx ny : nat)
    (F : nat -> nat -> nat -> nat -> R) (c : nat -> R) : R :=
  1 / 2 * integrate Q s nx ny (fun i j xi eta => form 6 (F i j) (strain kappa Bs s c xi eta) (strain kappa Bs s c xi eta)).

(* the stress resultants produced by an additional shear strain g, doing work on the strains e *)
Definition shear_work (F : nat -> nat -> R) (g : R) (e : nat -> R) : R := sumn 6 (fun k => F k 2%nat * g * e k).

(* no negative weights; limits of the window in order *)
Definition nonneg_rule (Q : rule) (n : nat) : Prop := forall t, In t (Q n) -> 0 <= snd t.

Definition window_ok (s : shell) : Prop :=
  fst (xregion s) <= snd (xregion s) /\ fst (yregion s) <= snd (yregion s).
