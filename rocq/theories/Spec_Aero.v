(* Piston theory: the pressure that a deflection causes in a supersonic flow, and its work. *)
From Coq Require Import Reals Arith.
From Verif Require Import Model_Types Model_Num Spec_Kinematics.
Open Scope R_scope.

(* pressure caused by the field d: beta times the slope along the flow plus gamma times the deflection *)
Definition pressure (Bs : basis) (s : shell) (along_x : bool) (beta gamma : R) (d : nat -> R) (xi eta : R) : R :=
  beta * (if along_x then d_wx Bs s d xi eta else d_wy Bs s d xi eta) + gamma * d_w Bs s d xi eta.

(* its work on the deflection of the field c, per unit area *)
Definition pressure_work (Bs : basis) (s : shell) (along_x : bool) (beta gamma : R) (c d : nat -> R) (xi eta : R) : R :=
  d_w Bs s c xi eta * pressure Bs s along_x beta gamma d xi eta.

(* the deflection vanishes at both ends of the panel along the flow *)
Definition held (e : edge) : Prop := e1t e = 0 /\ e2t e = 0.
Definition held_along_flow (s : shell) (along_x : bool) : Prop := held (if along_x then sh_xw s else sh_yw s).

(* coefficients of the linear piston theory for a flow of density rho, speed V, Mach number M > 1
   over a panel of radius r (0 for a flat panel) *)
Definition piston_beta (rho V M : R) : R := rho * V ^ 2 / sqrt (M ^ 2 - 1).
Definition piston_gamma (rho V M r : R) : R :=
  if Req_EM_T r 0 then 0 else piston_beta rho V M / (2 * r * sqrt (M ^ 2 - 1)).

(* the user assigns p.rho_air, p.Mach and p.V *)
From Verif Require Import Model_Shell.
Definition in_flow (p : panel) (rho M V : R) : panel :=
  mkPanel (pn_sh p) (pn_r p) (pn_model p) (pn_nx p) (pn_ny p) (pn_stack p) (pn_plyt p) (pn_plyts p)
    (pn_laminaprop p) (pn_laminaprops p) (pn_rho p) (pn_rhos p) (pn_offset p) (pn_ortho p) (pn_lam p) (pn_ABD p)
    (pn_size p) (pn_N p) (pn_N_cte p) (pn_flow_x p) (pn_beta p) (pn_gamma p) (Some rho) (Some M) (Some V)
    (pn_kC p) (pn_kG p) (pn_kT p) (pn_kM p) (pn_kA p).
