(* The lowest buckling load and the lowest frequency. Definitions only. *)
From Coq Require Import Reals List Arith.
From Verif Require Import Base_Sum Model_Types Model_Coo Model_Result Model_Num Model_DB Model_Shell
  Spec_Algebra Spec_Kinematics Spec_Integral Spec_Panel Spec_Shell Spec_Modes Spec_Rigid Spec_BayResponse Spec_BayModes.
Import ListNotations.
Open Scope R_scope.

(* l times the load of G is the limit of stability: the structure buckles there in the mode z, which displaces it (mv);
   below, every displacement costs energy; above, z releases energy; and there is no lower buckling load *)
Record first_load (mv : (nat -> R) -> Prop) (N : nat) (K G : nat -> nat -> R) (l : R) (z : nat -> R) : Prop := {
  fl_pos : 0 < l;
  fl_moves : mv z;
  fl_mode : real_buckle N K G l z;
  fl_stable : forall t v, 0 <= t < l -> mv v -> 0 < quad N K v + t * quad N G v;
  fl_limit : forall v, 0 <= quad N K v + l * quad N G v;
  fl_unstable : forall t, l < t -> quad N K z + t * quad N G z < 0;
  fl_lowest : forall t y, 0 < t -> mv y -> real_buckle N K G t y -> l <= t }.
(* l is the square of the lowest circular frequency: it is that of the mode z, the quotient of the energies of every displacement
   is at least l, and no mode has a lower one *)
Record first_frequency (mv : (nat -> R) -> Prop) (N : nat) (K M : nat -> nat -> R) (l : R) (z : nat -> R) : Prop := {
  ff_pos : 0 < l;
  ff_moves : mv z;
  ff_energy : 0 < quad N M z;
  ff_mode : real_mode N K M l z;
  ff_quotient : forall v, l * quad N M v <= quad N K v;
  ff_lowest : forall t y, mv y -> real_mode N K M t y -> l <= t }.

(* a panel of definite laminate on supports that allow no rigid motion *)
Definition fixed_panel (E : env) (p : panel) : Prop :=
  elastic E p /\ definite 6 (lam_matrix (pn_ortho p) (rebuilt_lam E p)) /\ 0 < sh_a (pn_sh p) * sh_b (pn_sh p) /\
  (sh_m (pn_sh p) <= 30)%nat /\ (sh_n (pn_sh p) <= 30)%nat /\ anchored (curvature (chosen_model p) (kernel_view p)) (kernel_view p).
(* the constants, from the position o on, displace some point of the panel *)
Definition displaced (p : panel) (o : nat) (c : nat -> R) : Prop := ~ motionless (kernel_view p) (own o c).
(* the finalized matrix G of calc_kG for the panel q, in the place of p *)
Definition geometric (E : env) (A' : kargs) (p : panel) (o : nat) (q : panel) (G : nat -> nat -> R) : Prop :=
  (exists q', calc_kG E A' q = (q', Ok G)) /\ ka_fin A' = true /\ ka_row0 A' = o /\ ka_col0 A' = o /\
  kernel_view q = kernel_view p /\ chosen_model q = chosen_model p /\ pn_sh q = pn_sh p.
(* its membrane forces are the uniform ones of q *)
Definition uniform_loads (A' : kargs) : Prop := ka_c A' = None /\ ka_NL A' = false.
(* the finalized matrix M of calc_kM for the panel q, in the place of p *)
Definition inertia (E : env) (p : panel) (o : nat) (q : panel) (M : nat -> nat -> R) : Prop :=
  (exists sz nx ny q', calc_kM E sz o o None None nx ny true q = (q', Ok M)) /\
  kernel_view q = kernel_view p /\ chosen_model q = chosen_model p /\ pn_sh q = pn_sh p.
