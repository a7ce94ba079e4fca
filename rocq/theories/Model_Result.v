(* Python outcomes as values. Definitions only. *)
From Coq Require Import List.
Import ListNotations.

(* The exception classes raised by the modelled code. *)
Inductive exn := ValueError | TypeError | AttributeError | KeyError | RuntimeError
               | NotImplementedError | AssertionError | IndexError | UnboundLocalError
               (* not a Python exception: compiled code reads outside an array *)
               | OutOfBounds.

(* A call either returns or raises. *)
Inductive res (A : Type) := Ok (a : A) | Err (e : exn).
Arguments Ok {A} a.
Arguments Err {A} e.

Definition rbind {A B} (x : res A) (f : A -> res B) : res B :=
  match x with Ok a => f a | Err e => Err e end.
Definition rmap {A B} (f : A -> B) (x : res A) : res B := rbind x (fun a => Ok (f a)).

(* a for loop whose body may raise *)
Fixpoint rmapM {A B} (f : A -> res B) (l : list A) : res (list B) :=
  match l with
  | [] => Ok []
  | x :: l' => rbind (f x) (fun y => rbind (rmapM f l') (fun ys => Ok (y :: ys)))
  end.
