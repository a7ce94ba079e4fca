(* Fields whose products make up the geometric stiffness and mass matrices, one by one. *)
From Coq Require Import Reals Arith.
From Verif Require Import Model_Types Spec_Kinematics.
Open Scope R_scope.

(* slopes of the deflection along x (0) and y (1) *)
Definition slope (Bs : basis) (s : shell) (c : nat -> R) (xi eta : R) (k : nat) : R :=
  match k with 0%nat => d_wx Bs s c xi eta | _ => d_wy Bs s c xi eta end.

(* motions of the mean surface of a layer at height off: along x (0), y (1), z (2), and the two
   rotations (3, 4) *)
Definition motion (Bs : basis) (s : shell) (off : R) (c : nat -> R) (xi eta : R) (k : nat) : R :=
  match k with
  | 0%nat => d_u Bs s c xi eta + off * d_wx Bs s c xi eta
  | 1%nat => d_v Bs s c xi eta + off * d_wy Bs s c xi eta
  | 2%nat => d_w Bs s c xi eta
  | 3%nat => d_wx Bs s c xi eta
  | _ => d_wy Bs s c xi eta
  end.
(* mass per unit area that goes with each motion; tw is the factor of the rotary inertia *)
Definition inertia (tw h rho : R) (k : nat) : R :=
  match k with 0%nat | 1%nat | 2%nat => rho * h | _ => rho * h * (h * h * tw) end.

(* edge flags between -1 and 1; the program's own values are 0 and 1 *)
Definition unit_flags (e : edge) : Prop :=
  Rabs (e1t e) <= 1 /\ Rabs (e1r e) <= 1 /\ Rabs (e2t e) <= 1 /\ Rabs (e2r e) <= 1.
Definition unit_edges (s : shell) : Prop := forall d, unit_flags (xedge s d) /\ unit_flags (yedge s d).

(* largest factor between a derivative in natural coordinates and the strain, slope or motion made of it *)
Definition slope_scale (s : shell) : R := Rmax (Rabs (2 / sh_a s)) (Rabs (2 / sh_b s)).
Definition strain_scale (kappa : R) (s : shell) : R :=
  Rmax (Rabs kappa) (Rmax (slope_scale s) (2 * (slope_scale s * slope_scale s))).
Definition motion_scale (off : R) (s : shell) : R := Rmax 1 (Rmax 1 (Rabs off) * slope_scale s).
