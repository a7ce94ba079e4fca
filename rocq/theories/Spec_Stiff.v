(* Energies of a blade stiffener along the line y = ys of the skin. *)
From Coq Require Import Reals List Arith.
From Coquelicot Require Import Coquelicot.
From Verif Require Import Base_Sum Model_Types Spec_Kinematics Spec_Quadrature.
Import ListNotations.
Open Scope R_scope.

(* W is the integral of f along the line y = ys of the skin s; f takes natural coordinates *)
Definition line_work (s : shell) (ys : R) (f : R -> R -> R) (W : R) : Prop :=
  is_RInt (fun x => f (natural x (sh_a s)) (natural ys (sh_b s))) 0 (sh_a s) W.

(* axial strain of the fibre at the distance z below the mid-surface of the skin *)
Definition fibre_strain (Bs : basis) (s : shell) (z : R) (c : nat -> R) (xi eta : R) : R :=
  d_ux Bs s c xi eta + z * d_wxx Bs s c xi eta.
(* displacements of the point at the distance z below the mid-surface *)
Definition fibre_disp (Bs : basis) (s : shell) (z : R) (c : nat -> R) (k : nat) (xi eta : R) : R :=
  match k with
  | 0%nat => d_u Bs s c xi eta + z * d_wx Bs s c xi eta
  | 1%nat => d_v Bs s c xi eta + z * d_wy Bs s c xi eta
  | _ => d_w Bs s c xi eta
  end.

(* virtual work of a flange of width bfl, its axis df below the mid-surface: membrane E1, bending F1,
   membrane-torsion coupling S1 and torsion J *)
Definition flange_work (Bs : basis) (s : shell) (bfl df E1 F1 S1 J : R) (c d : nat -> R) (xi eta : R) : R :=
  let e c := fibre_strain Bs s df c xi eta in
  let kx c := d_wxx Bs s c xi eta in
  let tx c := d_wxy Bs s c xi eta in
  bfl * (E1 * (e c * e d) + F1 * (kx c * kx d) - S1 * (e c * tx d + tx c * e d) + J * (tx c * tx d)).
(* work of an axial force through the rotation of the flange *)
Definition flange_force_work (Bs : basis) (s : shell) (Fx : R) (c d : nat -> R) (xi eta : R) : R :=
  Fx * (d_wx Bs s c xi eta * d_wx Bs s d xi eta).
(* kinetic energy product of a flange of thickness hf that occupies the distances z1 to z2 *)
Definition flange_kinetic (Bs : basis) (s : shell) (rho hf z1 z2 : R) (c d : nat -> R) (xi eta : R) : R :=
  RInt (fun z => rho * hf * sumn 3 (fun k => fibre_disp Bs s z c k xi eta * fibre_disp Bs s z d k xi eta)) z1 z2.
