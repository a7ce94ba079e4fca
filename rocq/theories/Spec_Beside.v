(* The panels on both sides of a line of a bay. Definitions only. *)
From Coq Require Import Reals List Arith Bool.
From Verif Require Import Model_Types Model_Shell Model_Bay.
Import ListNotations.
Open Scope R_scope.

(* the panel i is the last one with the property P *)
Definition last_with (P : panel -> Prop) (l : list panel) (i : nat) : Prop :=
  exists p, nth_error l i = Some p /\ P p /\ forall j q, (i < j)%nat -> nth_error l j = Some q -> ~ P q.
Definition ends_at (ys : R) (p : panel) : Prop := sh_y2 (pn_sh p) = ys.
Definition begins_at (ys : R) (p : panel) : Prop := sh_y1 (pn_sh p) = ys.
(* within 1e-8 and 1e-5 relative to y *)
Definition close (x y : R) : Prop := Rabs (x - y) <= 1 / 100000000 + 1 / 100000 * Rabs y.
(* a division of the width: each panel begins where the one before ends *)
Fixpoint divides (y : R) (l : list panel) : Prop :=
  match l with [] => True | p :: l' => sh_y1 (pn_sh p) = y /\ y < sh_y2 (pn_sh p) /\ divides (sh_y2 (pn_sh p)) l' end.
