(* Kinematics and energies in the vocabulary of a structural analyst, independent of the kernels.
   A Ritz field is a double sum over terms; the coefficient of component d (0 = u, 1 = v, 2 = w)
   of term (i, j) is number 3*(j*m + i) + d. *)
From Coq Require Import Reals List Arith.
From Verif Require Import Base_Sum Model_Types Spec_Algebra.
Import ListNotations.
Open Scope R_scope.

(* boundary flags of component d *)
Definition xedge (s : shell) (d : nat) : edge :=
  match d with 0%nat => sh_xu s | 1%nat => sh_xv s | _ => sh_xw s end.
Definition yedge (s : shell) (d : nat) : edge :=
  match d with 0%nat => sh_yu s | 1%nat => sh_yv s | _ => sh_yw s end.

(* k-th derivative of the shape functions (k <= 2) *)
Definition shape (Bs : basis) (k : nat) : nat -> R -> edge -> R :=
  match k with 0%nat => bf Bs | 1%nat => bfp Bs | _ => bfpp Bs end.

Definition ritz (m n : nat) (c : nat -> R) (d : nat) (X Y : nat -> R) : R :=
  sumn n (fun j => sumn m (fun i => c (3 * (j * m + i) + d)%nat * X i * Y j)).

(* derivative of order p in xi and q in eta of displacement component d *)
Definition fld (Bs : basis) (s : shell) (c : nat -> R) (d p q : nat) (xi eta : R) : R :=
  ritz (sh_m s) (sh_n s) c d (fun i => shape Bs p i xi (xedge s d)) (fun j => shape Bs q j eta (yedge s d)).

Section Strain.
Variables (kappa : R) (Bs : basis) (s : shell).
(* kappa is the curvature 1/r of a cylindrical shell and 0 for a plate *)
Let a := sh_a s.
Let b := sh_b s.

(* displacements and their derivatives in physical coordinates: d/dx = (2/a) d/dxi *)
Definition d_u c xi eta := fld Bs s c 0 0 0 xi eta.
Definition d_v c xi eta := fld Bs s c 1 0 0 xi eta.
Definition d_w c xi eta := fld Bs s c 2 0 0 xi eta.
Definition d_ux c xi eta := 2 / a * fld Bs s c 0 1 0 xi eta.
Definition d_uy c xi eta := 2 / b * fld Bs s c 0 0 1 xi eta.
Definition d_vx c xi eta := 2 / a * fld Bs s c 1 1 0 xi eta.
Definition d_vy c xi eta := 2 / b * fld Bs s c 1 0 1 xi eta.
Definition d_wx c xi eta := 2 / a * fld Bs s c 2 1 0 xi eta.
Definition d_wy c xi eta := 2 / b * fld Bs s c 2 0 1 xi eta.
Definition d_wxx c xi eta := (2 / a) * (2 / a) * fld Bs s c 2 2 0 xi eta.
Definition d_wyy c xi eta := (2 / b) * (2 / b) * fld Bs s c 2 0 2 xi eta.
Definition d_wxy c xi eta := (2 / a) * (2 / b) * fld Bs s c 2 1 1 xi eta.

(* linear part of the Donnell strains: exx, eyy, gxy, kxx, kyy, kxy *)
Definition lin_strain (c : nat -> R) (xi eta : R) (k : nat) : R :=
  match k with
  | 0%nat => d_ux c xi eta
  | 1%nat => d_vy c xi eta + kappa * d_w c xi eta
  | 2%nat => d_uy c xi eta + d_vx c xi eta
  | 3%nat => - d_wxx c xi eta
  | 4%nat => - d_wyy c xi eta
  | 5%nat => - (2 * d_wxy c xi eta)
  | _ => 0
  end.

(* von Karman part *)
Definition vk_strain (c : nat -> R) (xi eta : R) (k : nat) : R :=
  match k with
  | 0%nat => 1 / 2 * (d_wx c xi eta * d_wx c xi eta)
  | 1%nat => 1 / 2 * (d_wy c xi eta * d_wy c xi eta)
  | 2%nat => d_wx c xi eta * d_wy c xi eta
  | _ => 0
  end.

Definition strain (c : nat -> R) (xi eta : R) (k : nat) : R :=
  lin_strain c xi eta k + vk_strain c xi eta k.

(* first variation of the strain at state c in direction v *)
Definition dstrain (c v : nat -> R) (xi eta : R) (k : nat) : R :=
  lin_strain v xi eta k +
  match k with
  | 0%nat => d_wx c xi eta * d_wx v xi eta
  | 1%nat => d_wy c xi eta * d_wy v xi eta
  | 2%nat => d_wx c xi eta * d_wy v xi eta + d_wy c xi eta * d_wx v xi eta
  | _ => 0
  end.
End Strain.

(* F is a laminate stiffness matrix [[A, B], [B, D]] with A, B and D symmetric *)
Definition is_ABD (F : nat -> nat -> R) : Prop :=
  (forall i j, (i < 6)%nat -> (j < 6)%nat -> F i j = F j i) /\
  (forall i j, (i < 3)%nat -> (j < 3)%nat -> F i (3 + j)%nat = F j (3 + i)%nat).

(* stress resultants Nxx Nyy Nxy Mxx Myy Mxy *)
Definition resultant (F : nat -> nat -> R) (e : nat -> R) (k : nat) : R :=
  sumn 6 (fun l => F k l * e l).

(* The strain used by the package in nonlinear calculations: the mixed term of the shear strain
   appears twice. This is NOT the von Karman strain; it is named so that theorems can say by how
   much the code departs from it. *)
Definition doubled_strain (kappa : R) (Bs : basis) (s : shell) (c : nat -> R) (xi eta : R) (k : nat) : R :=
  strain kappa Bs s c xi eta k +
  match k with 2%nat => d_wx Bs s c xi eta * d_wy Bs s c xi eta | _ => 0 end.

(* work of the membrane forces (Nxx, Nyy, Nxy) on the slopes of two deflections *)
Definition membrane_work (Bs : basis) (s : shell) (Nxx Nyy Nxy : R) (c d : nat -> R) (xi eta : R) : R :=
  Nxx * (d_wx Bs s c xi eta * d_wx Bs s d xi eta) +
  Nyy * (d_wy Bs s c xi eta * d_wy Bs s d xi eta) +
  Nxy * (d_wx Bs s c xi eta * d_wy Bs s d xi eta + d_wy Bs s c xi eta * d_wx Bs s d xi eta).

(* kinetic energy per unit area (twice), for a layer of thickness h and density rho whose points at
   height z move by (u + z w,x, v + z w,y, w): mean height off, rotary inertia factor tw (1/12) *)
Definition kinetic (Bs : basis) (s : shell) (tw h rho off : R) (c d : nat -> R) (xi eta : R) : R :=
  let U v := d_u Bs s v xi eta + off * d_wx Bs s v xi eta in
  let V v := d_v Bs s v xi eta + off * d_wy Bs s v xi eta in
  rho * h * (U c * U d + V c * V d + d_w Bs s c xi eta * d_w Bs s d xi eta) +
  rho * h * (h * h * tw) *
    (d_wx Bs s c xi eta * d_wx Bs s d xi eta + d_wy Bs s c xi eta * d_wy Bs s d xi eta).
