(* A 1D blade stiffener by itself: the matrices its flange adds, and what one expects of its plies. *)
From Coq Require Import Reals List.
From Verif Require Import Base_Sum Model_Types Model_Coo Model_Result Model_Shell Model_StiffKer Model_Bay Spec_Algebra Spec_Bay.
Import ListNotations.
Open Scope R_scope.

(* height and position of a flange of width bf with the plies l, on a pad hb thick and a skin h thick;
   these are the values C61 finds in the matrices of a bay *)
Definition blade_height (l : list ply) : R := suml l ply_h.
Definition blade_axis (bf hb h : R) : R := bf / 2 + hb + h / 2.
Definition blade_torsion (bf : R) (l : list ply) : R := blade_height l * bf ^ 3 / 12 + bf * blade_height l ^ 3 / 12.
Definition blade_stiffness (T : tables) (Bs : basis) (s : shell) (ys bf hb h : R) (l : list ply) : matrix :=
  finalize_symmetric (dense (fkCf T Bs s ys bf (blade_axis bf hb h) (flange_E1 l) (bf ^ 2 / 12 * flange_E1 l) (flange_S1 l) (blade_torsion bf l) 0 0)).
Definition blade_mass (T : tables) (Bs : basis) (s : shell) (ys rho bf hb h hf : R) : matrix :=
  finalize_symmetric (dense (fkMf T Bs s ys rho h hb hf bf (blade_axis bf hb h) 0 0)).

(* the plane-stress stiffness of a ply is positive, for some q26 and q66 *)
Definition ply_sound (p : ply) : Prop := 0 < ply_h p /\ exists q26 q66, forall e1 e2 g, e1 <> 0 \/ e2 <> 0 \/ g <> 0 ->
  0 < ply_q11 p * e1 ^ 2 + ply_q22 p * e2 ^ 2 + q66 * g ^ 2 + 2 * ply_q12 p * e1 * e2 + 2 * ply_q16 p * e1 * g + 2 * q26 * e2 * g.
(* the same ply of a material k times as stiff *)
Definition stiffer (k : R) (p : ply) : ply := mkPly (ply_h p) (k * ply_q11 p) (k * ply_q12 p) (k * ply_q22 p) (k * ply_q16 p).

(* the springs a 2D stiffener puts between the line y = ys of the skin s and the side y = 0 of its flange q,
   with the constants of the skin from oA and those of the flange from oB on *)
Definition root_springs (T : tables) (Bs : basis) (kt kr : R) (s q : shell) (ys : R) (oA oB : nat) : matrix :=
  finalize_symmetric (dense (fkCss T Bs kt kr s ys oA oA ++ fkCsf T Bs kt kr s q ys (sh_b q) oA oB ++ fkCff T Bs kt kr (sh_a s) (sh_b q) q oB oB)).
