(* What is kept of an object that is saved. Definitions only. *)
From Coq Require Import Reals List String.
From Verif Require Import Model_Types Model_Shell Model_Fext Model_Save.

(* a name in which the extension occurs *)
Definition mentions (ext name : string) : Prop := exists a b, name = (a ++ ext ++ b)%string.

(* the attributes of a panel other than its laminate object and its stored matrices *)
Definition attributes (p : panel) :=
  (pn_sh p, pn_r p, pn_model p, (pn_nx p, pn_ny p), (pn_stack p, pn_plyt p, pn_plyts p),
   (pn_laminaprop p, pn_laminaprops p, pn_rho p, pn_rhos p, pn_offset p, pn_ortho p), pn_ABD p, pn_size p,
   (pn_N p, pn_N_cte p), (pn_flow_x p, pn_beta p, pn_gamma p, pn_rho_air p, pn_Mach p, pn_V p)).
Definition same_object (o o' : shell_object) : Prop :=
  so_name o' = so_name o /\ attributes (so_panel o') = attributes (so_panel o) /\ so_loads o' = so_loads o.
