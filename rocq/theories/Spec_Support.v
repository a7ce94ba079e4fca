(* Supports of an assembly: where its panels cannot move. Definitions only. *)
From Coq Require Import Reals List Arith.
From Verif Require Import Base_Sum Model_Types Model_Coo Model_Result Model_Num Model_DB Model_Shell Model_Bardell Model_Fext Model_Multi Model_New Model_TStiff
  Spec_Integral Spec_Bardell Spec_Panel Spec_Shell Spec_Fext Spec_Field Spec_Conn Spec_Multi Spec_MultiConn.
Open Scope R_scope.

(* the exact shape functions, and the stored ones, whose values at the ends are off by at most 4e-9 *)
Definition shape_data (Bs : basis) (t : R) : Prop := (Bs = exact_basis /\ t = 0) \/ (Bs = code_basis /\ t = 4 / 10 ^ 9).
(* the component k (0 u, 1 v, 2 w) of the panel i vanishes along its line x = X, or y = Y, whatever the
   displacements c of the assembly; up to the part t of the sum of the absolute values of its terms *)
Definition rests_x (Bs : basis) (t : R) (h : nat -> xpanel) (i k : nat) (X : R) : Prop := forall c y,
  Rabs (moves Bs h i c k X y) <= t * abs_x Bs (geometry h i) (own (start h i) c) k 0 y.
Definition rests_y (Bs : basis) (t : R) (h : nat -> xpanel) (i k : nat) (Y : R) : Prop := forall c x,
  Rabs (moves Bs h i c k x Y) <= t * abs_y Bs (geometry h i) (own (start h i) c) k 0 x.
(* some displacements of the assembly move the component k of the panel i on this line *)
Definition moves_x (h : nat -> xpanel) (i k : nat) (X : R) : Prop := exists c y, 0 <= y <= sh_b (geometry h i) /\ moves exact_basis h i c k X y <> 0.
Definition moves_y (h : nat -> xpanel) (i k : nat) (Y : R) : Prop := exists c x, 0 <= x <= sh_a (geometry h i) /\ moves exact_basis h i c k x Y <> 0.
(* the ends x = 0 and x = a of the panel i are held: u, v and w at x = 0, v and w at x = a, and u too
   unless u_moves; the sides y = 0 and y = b are not *)
Definition supported_ends (Bs : basis) (t : R) (h : nat -> xpanel) (i : nat) (a : R) (u_moves : bool) : Prop :=
  (forall k, (k < 3)%nat -> rests_x Bs t h i k 0) /\ rests_x Bs t h i 1 a /\ rests_x Bs t h i 2 a /\ (u_moves = false -> rests_x Bs t h i 0 a).
Definition free_sides (h : nat -> xpanel) (i : nat) (a b : R) (u_moves : bool) : Prop :=
  (forall k, (k < 3)%nat -> moves_y h i k 0 /\ moves_y h i k b) /\ (u_moves = true -> moves_x h i 0 a).
(* the numbers of terms of the skin, the base and the flange of a T-stiffened panel *)
Definition terms_between (lo hi : nat) (D : tstiff) : Prop :=
  (lo <= ts_m D <= hi)%nat /\ (lo <= ts_n D <= hi)%nat /\ (lo <= ts_mb D <= hi)%nat /\ (lo <= ts_nb D <= hi)%nat /\ (lo <= ts_mf D <= hi)%nat /\ (lo <= ts_nf D <= hi)%nat.
