(* Linear-algebra vocabulary used in the statements of properties. *)
From Coq Require Import Reals Arith.
From Verif Require Import Base_Sum.
Open Scope R_scope.

(* c' K d for a size x size matrix *)
Definition bilinear (size : nat) (K : nat -> nat -> R) (c d : nat -> R) : R :=
  sumn size (fun r => sumn size (fun s => c r * K r s * d s)).
Definition quad (size : nat) (K : nat -> nat -> R) (c : nat -> R) : R := bilinear size K c c.

Definition symmetric (K : nat -> nat -> R) : Prop := forall r s, K r s = K s r.
Definition psd (size : nat) (K : nat -> nat -> R) : Prop := forall c, 0 <= quad size K c.

(* inner product of two vectors of length n *)
Definition dot (n : nat) (x y : nat -> R) : R := sumn n (fun i => x i * y i).

(* x' M y for an n x n matrix *)
Definition form (n : nat) (M : nat -> nat -> R) (x y : nat -> R) : R :=
  sumn n (fun i => sumn n (fun j => M i j * x i * y j)).

(* the n x n matrix M is positive semidefinite *)
Definition psd_form (n : nat) (M : nat -> nat -> R) : Prop := forall x, 0 <= form n M x x.
