(* Construction of Shell objects. Models /repo/panels/shell.py:94-224. Definitions only. *)
From Coq Require Import Reals List Arith Bool.
From Verif Require Import Base_Sum Model_Types Model_Coo Model_Result Model_Num Model_DB Model_Shell Model_Fext Model_Multi.
Import ListNotations.
Open Scope R_scope.

(* shell.py:94-224 __init__ without keyword arguments beyond those of the signature. a and b are always
   given here (None in the code otherwise). stack and laminaprop: [] stands for None. *)
Definition default_edge : edge := mkEdge 0 1 0 1.
Definition new_shell (a b : R) (r : option R) (stack : list R) (plyt : option R) (laminaprop : list R) (rho : R)
    (m n : nat) (offset : R) : panel :=
  mkPanel (mkShell a b 0 m n (-1) 1 (-1) 1 0 0 default_edge default_edge default_edge default_edge default_edge default_edge)
    r None (2 * m) (2 * n) stack plyt [] laminaprop [] rho [] offset false None None None
    (0, 0, 0) (0, 0, 0) (Some true) None None None None None None None None None None.

(* `for k, v in kwargs.items(): setattr(self, k, v)`, shell.py:204-205, and later assignments of the
   same attributes: the boundary flags, the limits y1 and y2, plyts and laminaprops, Nxx, nx and ny *)
Definition with_edges (p : panel) (xu xv xw yu yv yw : edge) : panel :=
  let s := pn_sh p in
  mkPanel (mkShell (sh_a s) (sh_b s) (sh_r s) (sh_m s) (sh_n s) (sh_x1 s) (sh_x2 s) (sh_y1 s) (sh_y2 s) (sh_beta s) (sh_gamma s) xu xv xw yu yv yw)
    (pn_r p) (pn_model p) (pn_nx p) (pn_ny p) (pn_stack p) (pn_plyt p) (pn_plyts p)
    (pn_laminaprop p) (pn_laminaprops p) (pn_rho p) (pn_rhos p) (pn_offset p) (pn_ortho p) (pn_lam p) (pn_ABD p)
    (pn_size p) (pn_N p) (pn_N_cte p) (pn_flow_x p) (pn_beta p) (pn_gamma p) (pn_rho_air p) (pn_Mach p) (pn_V p)
    (pn_kC p) (pn_kG p) (pn_kT p) (pn_kM p) (pn_kA p).
Definition with_y_limits (p : panel) (y1 y2 : R) : panel :=
  let s := pn_sh p in
  mkPanel (mkShell (sh_a s) (sh_b s) (sh_r s) (sh_m s) (sh_n s) (sh_x1 s) (sh_x2 s) y1 y2 (sh_beta s) (sh_gamma s)
      (sh_xu s) (sh_xv s) (sh_xw s) (sh_yu s) (sh_yv s) (sh_yw s))
    (pn_r p) (pn_model p) (pn_nx p) (pn_ny p) (pn_stack p) (pn_plyt p) (pn_plyts p)
    (pn_laminaprop p) (pn_laminaprops p) (pn_rho p) (pn_rhos p) (pn_offset p) (pn_ortho p) (pn_lam p) (pn_ABD p)
    (pn_size p) (pn_N p) (pn_N_cte p) (pn_flow_x p) (pn_beta p) (pn_gamma p) (pn_rho_air p) (pn_Mach p) (pn_V p)
    (pn_kC p) (pn_kG p) (pn_kT p) (pn_kM p) (pn_kA p).
Definition with_Nxx (p : panel) (N : R) : panel :=
  mkPanel (pn_sh p) (pn_r p) (pn_model p) (pn_nx p) (pn_ny p) (pn_stack p) (pn_plyt p) (pn_plyts p)
    (pn_laminaprop p) (pn_laminaprops p) (pn_rho p) (pn_rhos p) (pn_offset p) (pn_ortho p) (pn_lam p) (pn_ABD p)
    (pn_size p) (N, snd (fst (pn_N p)), snd (pn_N p)) (pn_N_cte p) (pn_flow_x p) (pn_beta p) (pn_gamma p) (pn_rho_air p) (pn_Mach p) (pn_V p)
    (pn_kC p) (pn_kG p) (pn_kT p) (pn_kM p) (pn_kA p).
Definition with_x2u (p : panel) (v : R) : panel :=
  let s := pn_sh p in let e := sh_xu s in
  with_edges p (mkEdge (e1t e) (e1r e) v (e2r e)) (sh_xv s) (sh_xw s) (sh_yu s) (sh_yv s) (sh_yw s).
Definition Nxx_of (p : panel) : R := fst (fst (pn_N p)).

(* a new Shell with the attributes group, x0 and y0; x0 and y0 only tell where to draw it, group 0 is
   'skin' *)
Record placed := mkPlaced { np_panel : panel; np_group : nat; np_x0 : R; np_y0 : R }.
Definition on_placed (f : panel -> panel) (q : placed) : placed := mkPlaced (f (np_panel q)) (np_group q) (np_x0 q) (np_y0 q).
Definition new_object (q : placed) : xpanel := mkXp (np_panel q) (np_group q) no_loads None None.
(* the objects take the places k, k+1, ... of the store *)
Fixpoint store (k : nat) (l : list placed) (w : world) : world :=
  match l with [] => w | q :: l' => store (S k) l' (put_panel w k (new_object q)) end.
