(* Data read by the kernels from a Shell object, and the two families of functions they call.
   Definitions only. *)
From Coq Require Import Reals.
Open Scope R_scope.

(* The four boundary flags of one displacement component in one direction, in calling order
   (xi1t, xi1r, xi2t, xi2r): /repo/panels/core/src/bardell_functions.cpp, signature of f.
   In Shell they are e.g. x1u, x1ur, x2u, x2ur (/repo/panels/shell.py:150-185). *)
Record edge := mkEdge { e1t : R; e1r : R; e2t : R; e2r : R }.

(* f, fp, fpp of /repo/panels/core/src/bardell_functions.cpp: index, natural coordinate, flags *)
Record basis := mkBasis {
  bf : nat -> R -> edge -> R;
  bfp : nat -> R -> edge -> R;
  bfpp : nat -> R -> edge -> R }.

(* integral_ff ... integral_fppfpp of /repo/panels/core/src/bardell.cpp *)
Record tables := mkTables {
  t_ff : nat -> nat -> edge -> edge -> R;
  t_ffp : nat -> nat -> edge -> edge -> R;
  t_ffpp : nat -> nat -> edge -> edge -> R;
  t_fpfp : nat -> nat -> edge -> edge -> R;
  t_fpfpp : nat -> nat -> edge -> edge -> R;
  t_fppfpp : nat -> nat -> edge -> edge -> R }.

(* Attributes of /repo/panels/shell.py:Shell read by the kernels (lines 94-224).
   sh_xu collects x1u, x1ur, x2u, x2ur, and so on. *)
Record shell := mkShell {
  sh_a : R; sh_b : R; sh_r : R;
  sh_m : nat; sh_n : nat;
  sh_x1 : R; sh_x2 : R; sh_y1 : R; sh_y2 : R;
  sh_beta : R; sh_gamma : R;
  sh_xu : edge; sh_xv : edge; sh_xw : edge;
  sh_yu : edge; sh_yv : edge; sh_yw : edge }.
