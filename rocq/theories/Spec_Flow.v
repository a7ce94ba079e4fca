(* A panel in a flow. Definitions only. *)
From Coq Require Import Reals List Arith.
From Verif Require Import Model_Types Model_Num Model_Shell Spec_Integral Spec_Bardell.
Open Scope R_scope.

(* a panel in a flow along x (along_x = true) or y, with at most 30 x 30 terms, integrated over its
   whole area with rules that are exact for products of the shape functions *)
Definition flown (E : env) (p : panel) (along_x : bool) : Prop :=
  e_basis E = exact_basis /\ pn_flow_x p = Some along_x /\
  sh_a (pn_sh p) <> 0 /\ sh_b (pn_sh p) <> 0 /\ (sh_m (pn_sh p) <= 30)%nat /\ (sh_n (pn_sh p) <= 30)%nat /\
  whole_window (pn_sh p) /\
  length (e_rule E (pn_nx p)) = pn_nx p /\ length (e_rule E (pn_ny p)) = pn_ny p /\
  rule_integrates (e_rule E) (pn_nx p) exact_basis (sh_m (pn_sh p)) /\
  rule_integrates (e_rule E) (pn_ny p) exact_basis (sh_n (pn_sh p)).
