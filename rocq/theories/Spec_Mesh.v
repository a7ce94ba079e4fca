(* Vocabulary for the default mesh. *)
From Coq Require Import Reals List Arith.
From Verif Require Import Model_Field.
Open Scope R_scope.

(* i-th of n equally spaced positions from 0 to len, both included; 0 when there is only one *)
Definition station (len : R) (n i : nat) : R := if (n =? 1)%nat then 0 else len * INR i / INR (n - 1).
(* an array of shape (ny, nx) with the value f i j in column i of row j *)
Definition filled (nx ny : nat) (f : nat -> nat -> R) (A : ndarray) : Prop :=
  fst A = (ny :: nx :: nil)%list /\ length (snd A) = (ny * nx)%nat /\
  forall i j, (i < nx)%nat -> (j < ny)%nat -> nth (j * nx + i) (snd A) 0 = f i j.
