(* Integration limits of a panel, polynomials and exact rules. *)
From Coq Require Import Reals List Arith.
From Coquelicot Require Import Coquelicot.
From Verif Require Import Base_Sum Model_Types Model_Num Model_DB Model_Shell Spec_Kinematics.
Import ListNotations.
Open Scope R_scope.

(* c0 + c1 x + c2 x^2 + ... *)
Fixpoint poly (l : list R) (x : R) : R := match l with [] => 0 | c :: t => c + x * poly t x end.
(* f is a polynomial of degree at most d *)
Definition poly_upto (d : nat) (f : R -> R) : Prop := exists l, (length l <= S d)%nat /\ forall x, f x = poly l x.

(* the rule with n points integrates the polynomials of degree at most d exactly *)
Definition rule_exact (Q : rule) (n d : nat) : Prop :=
  length (Q n) = n /\ forall f, poly_upto d f -> is_RInt f (-1) 1 (suml (Q n) (fun t => snd t * f (fst t))).

(* the first m functions of the basis and their derivatives are polynomials of degree at most d *)
Definition poly_basis (Bs : basis) (m d : nat) : Prop :=
  forall p i e, (i < m)%nat -> poly_upto d (fun x => shape Bs p i x e).

Definition shell_limits (s : shell) (x1 x2 y1 y2 : R) : shell :=
  mkShell (sh_a s) (sh_b s) (sh_r s) (sh_m s) (sh_n s) x1 x2 y1 y2 (sh_beta s) (sh_gamma s)
    (sh_xu s) (sh_xv s) (sh_xw s) (sh_yu s) (sh_yv s) (sh_yw s).
(* the user assigns p.x1, p.x2, p.y1, p.y2 *)
Definition limits (p : panel) (x1 x2 y1 y2 : R) : panel :=
  mkPanel (shell_limits (pn_sh p) x1 x2 y1 y2) (pn_r p) (pn_model p) (pn_nx p) (pn_ny p) (pn_stack p) (pn_plyt p) (pn_plyts p)
    (pn_laminaprop p) (pn_laminaprops p) (pn_rho p) (pn_rhos p) (pn_offset p) (pn_ortho p) (pn_lam p) (pn_ABD p)
    (pn_size p) (pn_N p) (pn_N_cte p) (pn_flow_x p) (pn_beta p) (pn_gamma p) (pn_rho_air p) (pn_Mach p) (pn_V p)
    (pn_kC p) (pn_kG p) (pn_kT p) (pn_kM p) (pn_kA p).
(* limits that count as given: -1 means "not given" *)
Definition given (x1 x2 : R) : Prop := x1 <> -1 /\ x2 <> -1.
