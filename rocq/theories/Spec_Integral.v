(* Integrals over the whole panel and what it means for a table to hold integrals of products of
   shape functions. *)
From Coq Require Import Reals List Arith.
From Coquelicot Require Import Coquelicot.
From Verif Require Import Base_Sum Model_Types Model_Num Spec_Kinematics Spec_Quadrature.
Open Scope R_scope.

(* I is the iterated integral of g over [-1, 1] x [-1, 1] *)
Definition square_integral (g : R -> R -> R) (I : R) : Prop :=
  (forall xi, ex_RInt (g xi) (-1) 1) /\ is_RInt (fun xi => RInt (g xi) (-1) 1) (-1) 1 I.

(* I is the integral over the panel: dx dy = (a/2) (b/2) dxi deta *)
Definition panel_integral (s : shell) (g : R -> R -> R) (I : R) : Prop :=
  square_integral (fun xi eta => sh_a s / 2 * (sh_b s / 2) * g xi eta) I.

(* the tables hold the integrals of products of the functions 0 .. n-1 of the basis *)
Definition tables_integrate (T : tables) (Bs : basis) (n : nat) : Prop :=
  forall i k e e', (i < n)%nat -> (k < n)%nat ->
  let ok (g h : nat -> R -> edge -> R) v := is_RInt (fun x => g i x e * h k x e') (-1) 1 v in
  ok (bf Bs) (bf Bs) (t_ff T i k e e') /\
  ok (bf Bs) (bfp Bs) (t_ffp T i k e e') /\
  ok (bf Bs) (bfpp Bs) (t_ffpp T i k e e') /\
  ok (bfp Bs) (bfp Bs) (t_fpfp T i k e e') /\
  ok (bfp Bs) (bfpp Bs) (t_fpfpp T i k e e') /\
  ok (bfpp Bs) (bfpp Bs) (t_fppfpp T i k e e').

(* a table entry of a product of two equally differentiated functions does not depend on their order *)
Definition tables_symmetric (T : tables) (n : nat) : Prop :=
  forall i k e e', (i < n)%nat -> (k < n)%nat ->
  t_ff T i k e e' = t_ff T k i e' e /\ t_fpfp T i k e e' = t_fpfp T k i e' e /\
  t_fppfpp T i k e e' = t_fppfpp T k i e' e.

(* the vector with 1 at position r and 0 elsewhere *)
Definition unitv (r : nat) : nat -> R := fun k => if (k =? r)%nat then 1 else 0.

(* the n-point rule integrates every product of two of the functions 0 .. m-1 of the basis, or of
   their first or second derivatives, exactly *)
Definition rule_integrates (Q : nat -> list (R * R)) (n : nat) (Bs : basis) (m : nat) : Prop :=
  forall p q i k e e', (i < m)%nat -> (k < m)%nat ->
  is_RInt (fun x => shape Bs p i x e * shape Bs q k x e') (-1) 1
    (suml (Q n) (fun t => snd t * (shape Bs p i (fst t) e * shape Bs q k (fst t) e'))).

(* no sub-window is set: the numerical integration covers the panel *)
Definition whole_window (s : shell) : Prop := xregion s = (0, sh_a s) /\ yregion s = (0, sh_b s).
