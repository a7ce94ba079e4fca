(* Vocabulary for the forced orthotropic laminate. *)
From Coq Require Import Reals List Arith.
From Verif Require Import Model_Types Model_Result.
Open Scope R_scope.

(* the shear strain gxy and the twist kxy, and their resultants Nxy and Mxy, are numbers 2 and 5 *)
Definition shearing (i : nat) : Prop := i = 2%nat \/ i = 5%nat.
(* F couples no extension or bending with shear or twist, and otherwise equals G *)
Definition uncoupled (F G : nat -> nat -> R) : Prop := forall i j, (i < 6)%nat -> (j < 6)%nat ->
  (~ (shearing i <-> shearing j) -> F i j = 0) /\ ((shearing i <-> shearing j) -> F i j = G i j).
