(* Motions of the panels of an assembly. Definitions only. *)
From Coq Require Import Reals List Arith.
From Verif Require Import Base_Sum Model_Types Model_Result Model_DB Model_Shell Model_Multi
  Spec_Algebra Spec_Kinematics Spec_Integral Spec_Bardell Spec_Panel Spec_Shell Spec_Multi Spec_MultiConn Spec_ConnScale Spec_Modes Spec_Rigid.
Open Scope R_scope.

(* the curvature 1 / r of panel i, 0 for a plate *)
Definition curve (h : nat -> xpanel) (i : nat) : R := curvature (chosen_model (xp (h i))) (kernel_view (xp (h i))).
(* panel i moves without strain in the displacements c of the assembly: as a rigid body if it is flat *)
Definition moves_rigidly (h : nat -> xpanel) (c : nat -> R) (i : nat) : Prop :=
  exists u0 v0 w0 th al be, rigid (curve h i) (geometry h i) (own (start h i) c) u0 v0 w0 th al be.
(* every point of panel i is displaced by the same amount in c and in d *)
Definition same_motion (h : nat -> xpanel) (c d : nat -> R) (i : nat) : Prop :=
  forall xi eta, -1 <= xi <= 1 -> -1 <= eta <= 1 ->
  d_u exact_basis (geometry h i) (own (start h i) c) xi eta = d_u exact_basis (geometry h i) (own (start h i) d) xi eta /\
  d_v exact_basis (geometry h i) (own (start h i) c) xi eta = d_v exact_basis (geometry h i) (own (start h i) d) xi eta /\
  d_w exact_basis (geometry h i) (own (start h i) c) xi eta = d_w exact_basis (geometry h i) (own (start h i) d) xi eta.

(* the supports of panel i leave it no motion without strain, or it is connected, through other panels or directly, to one that is *)
Inductive tied (h : nat -> xpanel) (l : list conn) : nat -> Prop :=
| tied_held i : anchored (curve h i) (geometry h i) -> tied h l i
| tied_second cn : In cn l -> on_panels h cn -> tied h l (cn_p1 cn) -> tied h l (cn_p2 cn)
| tied_first cn : In cn l -> on_panels h cn -> tied h l (cn_p2 cn) -> tied h l (cn_p1 cn).

(* a panel, flat or curved, with its material given and that resists every strain *)
Definition stiff_panel (E : env) (h : nat -> xpanel) (i : nat) : Prop :=
  sound E h i /\ elastic E (xp (h i)) /\
  definite 6 (lam_matrix (pn_ortho (xp (h i))) (rebuilt_lam E (xp (h i)))).
(* no point of panel i is displaced *)
Definition undisplaced (h : nat -> xpanel) (c : nat -> R) (i : nat) : Prop :=
  forall xi eta, -1 <= xi <= 1 -> -1 <= eta <= 1 ->
  d_u exact_basis (geometry h i) (own (start h i) c) xi eta = 0 /\ d_v exact_basis (geometry h i) (own (start h i) c) xi eta = 0 /\
  d_w exact_basis (geometry h i) (own (start h i) c) xi eta = 0.
(* calc_kC succeeds for the assembly s with the connections at the place q; no panel is displaced without energy, and two
   solutions of K c = f displace every point of every panel by the same amount *)
Definition one_response (E : env) (q : nat) (w : world) (s : assembly) : Prop :=
  let h := w_panel w in let size := total_width h (as_panels s) in
  exists w' s' K, asm_kC E exact_basis (Some q) None true w s = (w', s', Ok (Some K)) /\
  (forall c, quad size K c = 0 -> forall i, In i (as_panels s) -> undisplaced h c i) /\
  (forall c d f, (forall r, (r < size)%nat -> row size K c r = f r) -> (forall r, (r < size)%nat -> row size K d r = f r) ->
   forall i, In i (as_panels s) -> same_motion h c d i).
(* a laminate of positive thickness that resists every strain *)
Definition sturdy (l : laminate) : Prop := 0 < lam_h l /\ is_ABD (lam_matrix false l) /\ definite 6 (lam_matrix false l).
