(* Calls a user makes on a panel one after the other, and attributes they assign in between. *)
From Coq Require Import Reals List Arith Bool.
From Verif Require Import Base_Sum Model_Types Model_Num Model_DB Model_Shell Model_Fext.
Import ListNotations.
Open Scope R_scope.

(* a calculation requested from a panel *)
Inductive call :=
| CRebuild
| CkC (A : kargs) | CkG (A : kargs) | CkT (A : kargs)
| CkM (sz : size_arg) (row0 col0 : nat) (h rho : option arr2) (nx ny : option nat) (fin : bool)
| CkA (sz : size_arg) (row0 col0 : nat) (fin : bool)
| CcA (mu : R) (sz : size_arg) (fin : bool)
| Cfint (c : list R) (sz : size_arg) (col0 : nat) (nx ny : option nat) (F : option finput)
| Cfext (Bs : basis) (L : loads) (inc : R) (sz : size_arg) (col0 : nat).

(* the panel after the call, whether it returned or raised *)
Definition after (E : env) (k : call) (p : panel) : panel :=
  match k with
  | CRebuild => fst (rebuild E p)
  | CkC A => fst (calc_kC E A p)
  | CkG A => fst (calc_kG E A p)
  | CkT A => fst (calc_kT E A p)
  | CkM sz r c h rho nx ny fin => fst (calc_kM E sz r c h rho nx ny fin p)
  | CkA sz r c fin => fst (calc_kA E sz r c fin p)
  | CcA mu sz fin => fst (calc_cA E mu sz fin p)
  | Cfint c sz col0 nx ny F => fst (calc_fint E c sz col0 nx ny F p)
  | Cfext Bs L inc sz col0 => fst (calc_fext E Bs L inc sz col0 p)
  end.
Definition history (E : env) (l : list call) (p : panel) : panel := fold_left (fun q k => after E k q) l p.

(* the user assigns p.plyt, p.laminaprop, p.rho, p.ABD *)
Definition with_plyt (p : panel) (t : R) : panel :=
  mkPanel (pn_sh p) (pn_r p) (pn_model p) (pn_nx p) (pn_ny p) (pn_stack p) (Some t) (pn_plyts p)
    (pn_laminaprop p) (pn_laminaprops p) (pn_rho p) (pn_rhos p) (pn_offset p) (pn_ortho p) (pn_lam p) (pn_ABD p)
    (pn_size p) (pn_N p) (pn_N_cte p) (pn_flow_x p) (pn_beta p) (pn_gamma p) (pn_rho_air p) (pn_Mach p) (pn_V p)
    (pn_kC p) (pn_kG p) (pn_kT p) (pn_kM p) (pn_kA p).
Definition with_laminaprop (p : panel) (l : list R) : panel :=
  mkPanel (pn_sh p) (pn_r p) (pn_model p) (pn_nx p) (pn_ny p) (pn_stack p) (pn_plyt p) (pn_plyts p)
    l (pn_laminaprops p) (pn_rho p) (pn_rhos p) (pn_offset p) (pn_ortho p) (pn_lam p) (pn_ABD p)
    (pn_size p) (pn_N p) (pn_N_cte p) (pn_flow_x p) (pn_beta p) (pn_gamma p) (pn_rho_air p) (pn_Mach p) (pn_V p)
    (pn_kC p) (pn_kG p) (pn_kT p) (pn_kM p) (pn_kA p).
(* the user assigns p.stack and p.offset *)
Definition with_stack (p : panel) (st : list R) (off : R) : panel :=
  mkPanel (pn_sh p) (pn_r p) (pn_model p) (pn_nx p) (pn_ny p) st (pn_plyt p) (pn_plyts p)
    (pn_laminaprop p) (pn_laminaprops p) (pn_rho p) (pn_rhos p) off (pn_ortho p) (pn_lam p) (pn_ABD p)
    (pn_size p) (pn_N p) (pn_N_cte p) (pn_flow_x p) (pn_beta p) (pn_gamma p) (pn_rho_air p) (pn_Mach p) (pn_V p)
    (pn_kC p) (pn_kG p) (pn_kT p) (pn_kM p) (pn_kA p).
Definition with_ABD (p : panel) (F : nat -> nat -> R) : panel :=
  mkPanel (pn_sh p) (pn_r p) (pn_model p) (pn_nx p) (pn_ny p) (pn_stack p) (pn_plyt p) (pn_plyts p)
    (pn_laminaprop p) (pn_laminaprops p) (pn_rho p) (pn_rhos p) (pn_offset p) (pn_ortho p) (pn_lam p) (Some F)
    (pn_size p) (pn_N p) (pn_N_cte p) (pn_flow_x p) (pn_beta p) (pn_gamma p) (pn_rho_air p) (pn_Mach p) (pn_V p)
    (pn_kC p) (pn_kG p) (pn_kT p) (pn_kM p) (pn_kA p).
