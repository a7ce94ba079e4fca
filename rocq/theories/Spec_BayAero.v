(* The flow over a stiffened bay. Definitions only. *)
From Coq Require Import Reals List Arith.
From Verif Require Import Base_Sum Model_Types Model_Result Model_DB Model_Num Model_Shell Model_Bay Spec_Panel Spec_Shell Spec_Integral Spec_Bardell.
Import ListNotations.
Open Scope R_scope.

(* q is the panel p in the flow of the bay B; a Mach number of 1 counts as 1.0001 *)
Record flow_over (B : bay) (p q : panel) : Prop := {
  fo_sh : pn_sh q = pn_sh p;
  fo_model : pn_model q = Some (Known (chosen_model p));
  fo_nx : pn_nx q = Nat.max (pn_nx p) (sh_m (pn_sh p));
  fo_ny : pn_ny q = Nat.max (pn_ny p) (sh_n (pn_sh p));
  fo_beta : pn_beta q = pn_beta p;
  fo_gamma : pn_gamma q = pn_gamma p;
  fo_r : pn_r q = by_r B;
  fo_flow : pn_flow_x q = by_flow_x B;
  fo_rho : pn_rho_air q = by_rho_air B;
  fo_V : pn_V q = by_V B;
  fo_Mach : pn_Mach q = by_Mach B \/ by_Mach B = Some 1 /\ pn_Mach q = Some (10001 / 10000) }.
(* the flow is known *)
Definition complete_flow (B : bay) : Prop :=
  by_flow_x B <> None /\ by_rho_air B <> None /\ by_V B <> None /\ by_speed_sound B <> None /\ exists M, by_Mach B = Some M /\ 1 <= M.
(* the first panel p of the bay lies in a flow along x (along_x = true) or y: at most 30 x 30 terms, integrated
   over the whole area of the bay with rules that are exact for products of the shape functions *)
Definition flown_bay (V : benv) (B : bay) (p : panel) (along_x : bool) : Prop :=
  let E := b_env V in let s := pn_sh p in
  let nx := Nat.max (pn_nx p) (sh_m s) in let ny := Nat.max (pn_ny p) (sh_n s) in
  e_basis E = exact_basis /\ by_flow_x B = Some along_x /\
  sh_a s <> 0 /\ sh_b s <> 0 /\ (sh_m s <= 30)%nat /\ (sh_n s <= 30)%nat /\ whole_window s /\
  length (e_rule E nx) = nx /\ length (e_rule E ny) = ny /\
  rule_integrates (e_rule E) nx exact_basis (sh_m s) /\ rule_integrates (e_rule E) ny exact_basis (sh_n s).
(* the user assigns another air density, speed of sound, Mach number and speed to the bay *)
Definition new_flow (B : bay) (rho ss M U : option R) : bay :=
  mkBay (by_sh B) (by_r B) (by_model B) (by_stack B) (by_plyt B) (by_plyts B) (by_laminaprop B) (by_laminaprops B) (by_rho B)
    (by_panels B) (by_s1 B) (by_s2 B) (by_order B) (by_forces B) (by_size B) (by_flow_x B) (by_beta B) rho ss M U.
