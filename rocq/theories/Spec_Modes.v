(* Vibration and buckling modes: the eigenproblems the package hands to its solvers. Definitions only. *)
From Coq Require Import Reals List Arith.
From Verif Require Import Base_Sum Model_Types Model_Coo Model_Result Model_Num Model_DB Model_Shell Model_Multi
  Spec_Algebra Spec_Integral Spec_Kinematics Spec_Panel Spec_Shell.
Open Scope R_scope.

(* the component i of the product K v *)
Definition row (N : nat) (K : nat -> nat -> R) (v : nat -> R) (i : nat) : R := sumn N (fun j => K i j * v j).
(* K z = l M z for the complex number l = lr + i li and the complex vector z = x + i y of length N *)
Definition eigenpair (N : nat) (K M : nat -> nat -> R) (lr li : R) (x y : nat -> R) : Prop := forall i, (i < N)%nat ->
  row N K x i = lr * row N M x i - li * row N M y i /\ row N K y i = lr * row N M y i + li * row N M x i.
(* a vibration with the circular frequency omega, omega^2 = l: K z = l M z *)
Definition vibration := eigenpair.
(* buckling under l times the load of G: (K + l G) z = 0 *)
Definition buckling (N : nat) (K G : nat -> nat -> R) (lr li : R) (x y : nat -> R) : Prop :=
  eigenpair N K (fun r t => - G r t) lr li x y.
(* z* M z: twice the kinetic energy if M is a mass, twice the strain energy if it is a stiffness *)
Definition energy (N : nat) (M : nat -> nat -> R) (x y : nat -> R) : R := quad N M x + quad N M y.

(* a panel without constant prestress whose laminate stores energy *)
Definition elastic (E : env) (p : panel) : Prop :=
  pn_N_cte p = (0, 0, 0) /\ geometry_ok (chosen_model p) (kernel_view p) /\
  is_ABD (lam_matrix (pn_ortho p) (rebuilt_lam E p)) /\ psd_form 6 (lam_matrix (pn_ortho p) (rebuilt_lam E p)) /\
  0 <= sh_a (pn_sh p) * sh_b (pn_sh p).
(* a built panel with a mass *)
Definition massive (p : panel) : Prop :=
  geometry_ok (chosen_model p) (kernel_view p) /\ 0 <= sh_a (pn_sh p) * sh_b (pn_sh p) /\ 0 <= pn_rho p * fold_left Rplus (pn_plyts p) 0.
