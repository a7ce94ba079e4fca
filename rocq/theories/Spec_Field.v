(* Fields as functions of position, read off the methods of a Shell object. *)
From Coq Require Import Reals List Arith.
From Coquelicot Require Import Coquelicot.
From Verif Require Import Base_Sum Model_Types Model_Result Model_DB Model_Shell Model_Field Spec_Kinematics Spec_Quadrature.
Import ListNotations.
Open Scope R_scope.

Definition one_point (x : R) : option ndarray := Some ([1%nat], [x]).

(* U 0, ..., U 4 are the functions u, v, w, phix, phiy that uvw evaluates for the Ritz vector c *)
Definition uvw_is (sched : scheduler) (Bs : basis) (nc : nat) (p : panel) (c : list R) (U : nat -> R -> R -> R) : Prop :=
  forall x y gx gy, exists XY, shell_uvw sched Bs nc c (one_point x) (one_point y) gx gy p =
    (p, Ok (XY, [[U 0%nat x y]; [U 1%nat x y]; [U 2%nat x y]; [U 3%nat x y]; [U 4%nat x y]])).
(* E 0, ..., E 5 are the functions exx, eyy, gxy, kxx, kyy, kxy that strain evaluates *)
Definition strain_is (sched : scheduler) (Bs : basis) (nc : nat) (p : panel) (c : list R) (NL : bool) (E : nat -> R -> R -> R) : Prop :=
  forall x y gx gy, exists XY, shell_strain sched Bs nc c (one_point x) (one_point y) gx gy NL p =
    (p, Ok (XY, [[E 0%nat x y]; [E 1%nat x y]; [E 2%nat x y]; [E 3%nat x y]; [E 4%nat x y]; [E 5%nat x y]])).

(* curvature of the surface used by strain: 1/r unless the radius is 0 *)
Definition panel_curvature (p : panel) : R :=
  match pn_r p with Some r => if Req_EM_T r 0 then 0 else 1 / r | None => 0 end.

(* sum over the terms of |coefficient of component d| * |Y j| *)
Definition abs_terms (s : shell) (c : nat -> R) (d : nat) (X Y : nat -> R) : R :=
  sumn (sh_n s) (fun j => sumn (sh_m s) (fun i => Rabs (c (3 * (j * sh_m s + i) + d)%nat) * Rabs (X i) * Rabs (Y j))).

(* a c + b d, entry by entry *)
Definition lincomb (a : R) (c : list R) (b : R) (d : list R) : list R :=
  map (fun x => a * fst x + b * snd x) (combine c d).

(* v is within eps of the derivative of f at x, which exists *)
Definition near_derivative (f : R -> R) (x v eps : R) : Prop :=
  exists D, is_derive f x D /\ Rabs (v - D) <= eps.

(* coefficients of component d along the line of terms of index i in x (index j in y) *)
Definition edge_sum_x (s : shell) (c : nat -> R) (d i : nat) (Y : nat -> R) : R :=
  if (i <? sh_m s)%nat then sumn (sh_n s) (fun j => c (3 * (j * sh_m s + i) + d)%nat * Y j) else 0.
Definition edge_sum_y (s : shell) (c : nat -> R) (d j : nat) (X : nat -> R) : R :=
  if (j <? sh_n s)%nat then sumn (sh_m s) (fun i => c (3 * (j * sh_m s + i) + d)%nat * X i) else 0.

(* a A + b B for the arrays returned by uvw and strain *)
Definition lincomb_rows (x : R) (A : list (list R)) (y : R) (B : list (list R)) : list (list R) :=
  map (fun AB => lincomb x (fst AB) y (snd AB)) (combine A B).

(* vector of n entries with a single 1 at position k *)
Definition unit_vec (n k : nat) : list R := map (fun q => if (q =? k)%nat then 1 else 0) (seq 0 n).

(* sums of |coefficients of component d| times the shape functions (order q) of the other direction *)
Definition abs_x (Bs : basis) (s : shell) (c : nat -> R) (d q : nat) (y : R) : R :=
  abs_terms s c d (fun _ => 1) (fun j => shape Bs q j (natural y (sh_b s)) (yedge s d)).
Definition abs_y (Bs : basis) (s : shell) (c : nat -> R) (d p : nat) (x : R) : R :=
  abs_terms s c d (fun i => shape Bs p i (natural x (sh_a s)) (xedge s d)) (fun _ => 1).
(* displacements and slopes read at an edge: coefficients of the boundary function i *)
Definition coef_x (Bs : basis) (s : shell) (c : nat -> R) (d i : nat) (y : R) : R :=
  edge_sum_x s c d i (fun j => shape Bs 0 j (natural y (sh_b s)) (yedge s d)).
Definition coef_y (Bs : basis) (s : shell) (c : nat -> R) (d j : nat) (x : R) : R :=
  edge_sum_y s c d j (fun i => shape Bs 0 i (natural x (sh_a s)) (xedge s d)).
