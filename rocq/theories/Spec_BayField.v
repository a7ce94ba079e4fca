(* Displacements of the parts of a stiffened bay. Definitions only. *)
From Coq Require Import Reals List Arith.
From Verif Require Import Base_Sum Model_Types Model_Result Model_Shell Model_Field Model_Bay Spec_Algebra Spec_Kinematics Spec_Bay.
Import ListNotations.
Open Scope R_scope.

(* u, v, w, phix, phiy at (x, y), from the Ritz constants c *)
Definition disp (Bs : basis) (s : shell) (c : nat -> R) (k : nat) (x y : R) : R :=
  let xi := 2 * x / sh_a s - 1 in let eta := 2 * y / sh_b s - 1 in
  match k with
  | 0%nat => d_u Bs s c xi eta
  | 1%nat => d_v Bs s c xi eta
  | 2%nat => d_w Bs s c xi eta
  | 3%nat => - d_wx Bs s c xi eta
  | _ => - d_wy Bs s c xi eta
  end.
(* the five fields at a list of points *)
Definition disps (Bs : basis) (s : shell) (c : nat -> R) (xs ys : list R) : list (list R) :=
  map (fun k => map (fun xy => disp Bs s c k (fst xy) (snd xy)) (combine xs ys)) [0; 1; 2; 3; 4]%nat.

(* the model of the bay and of every flange is known *)
Definition sized (B : bay) : Prop := (exists mdl, by_model B = Some (Known mdl)) /\
  forall s, In s (by_s2 B) -> exists q mdl, s2_flange s = Some q /\ pn_model q = Some (Known mdl).
(* points given as one-dimensional arrays of the same length *)
Definition flat_points (X Y : ndarray) : Prop := length (fst X) = 1%nat /\ length (fst Y) = 1%nat /\ length (snd X) = length (snd Y).
(* the points are left to the mesh, or given as one-dimensional arrays of the same length *)
Definition points_ok (xs ys : option ndarray) : Prop := match xs, ys with Some X, Some Y => flat_points X Y | _, _ => True end.
(* the points asked for: those given, or the mesh over [0, a] x [0, b] *)
Definition points_of (a b : R) (xs ys : option ndarray) (gridx gridy : nat) : ndarray * ndarray :=
  match xs, ys with Some X, Some Y => (X, Y) | _, _ => meshgrid (linspace a gridx) (linspace b gridy) end.
