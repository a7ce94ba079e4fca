(* A held stiffened bay. Definitions only. *)
From Coq Require Import Reals List Arith.
From Verif Require Import Base_Sum Model_Types Model_Result Model_Shell Model_Multi Model_Bay Spec_Algebra Spec_Panel Spec_Shell Spec_Rigid Spec_Bay Spec_BayWork Spec_BayResponse.
Open Scope R_scope.

(* a bay of stiff parts on supports that hold the skin; the pads under the 2D stiffeners have the supports of the skin *)
Record held_bay (V : benv) (B : bay) (p0 : panel) (n : nat) : Prop := {
  hb_stiff : stiff_bay V B p0 n;
  hb_held : anchored (skin_curve p0) (by_sh B);
  hb_pads : forall s b, In s (by_s2 B) -> s2_base s = Some b -> same_skin (pn_sh b) (by_sh B) }.
(* the constants displace some point of the skin or of a flange *)
Definition bay_displaced (B : bay) (c : nat -> R) : Prop := ~ bay_motionless B c.
(* no part is pulled: every panel and flange carries uniform forces Nxx <= 0 and Nyy <= 0 without shear, every 1D stiffener an
   axial force Fx <= 0, and at least one panel of the skin is compressed along x *)
Record pushed (B : bay) : Prop := {
  pu_skin : forall p, In p (by_panels B) -> exists Nxx Nyy, pn_N p = (Nxx, Nyy, 0) /\ Nxx <= 0 /\ Nyy <= 0;
  pu_s1 : forall s, In s (by_s1 B) -> default 0 (s1_Fx s) <= 0;
  pu_s2 : forall s q, In s (by_s2 B) -> s2_flange s = Some q -> exists Nxx Nyy, pn_N q = (Nxx, Nyy, 0) /\ Nxx <= 0 /\ Nyy <= 0;
  pu_one : exists p Nxx Nyy, In p (by_panels B) /\ pn_N p = (Nxx, Nyy, 0) /\ Nxx < 0 }.
(* the same bay with further stiffeners, none of them compressed: unloaded or pulled along x *)
Definition unpushed_more (B B2 : bay) : Prop :=
  by_sh B2 = by_sh B /\ by_r B2 = by_r B /\ by_panels B2 = by_panels B /\
  (exists l, by_s1 B2 = by_s1 B ++ l /\ forall s, In s l -> 0 <= default 0 (s1_Fx s)) /\
  (exists l, by_s2 B2 = by_s2 B ++ l /\
     forall s q, In s l -> s2_flange s = Some q -> exists Nxx Nyy, pn_N q = (Nxx, Nyy, 0) /\ 0 <= Nxx /\ 0 <= Nyy).
