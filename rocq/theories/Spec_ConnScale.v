(* Size of the stiffness of a connection and positions on the panels. Definitions only. *)
From Coq Require Import Reals List Arith.
From Verif Require Import Base_Sum Model_Types Model_Result Model_Shell Model_Multi Spec_MultiConn.
Open Scope R_scope.

(* springs kt per unit length for three displacements and kr for the slopes across two panels d1 and d2
   wide, along a side of this length *)
Definition side_scale (length kt kr d1 d2 : R) : R := length * (6 * kt + 2 * kr * ((1 / d1 + 1 / d2) * (1 / d1 + 1 / d2))).
(* springs kt per unit area over a by b, of mid-surfaces the distance d apart *)
Definition face_scale (a b kt d : R) : R :=
  a * b * kt * ((1 + Rabs d / a) * (1 + Rabs d / a) + (1 + Rabs d / b) * (1 + Rabs d / b) + 1).

Section Scale.
Variables (E : env) (h : nat -> xpanel).
Definition pair_scale (cn : conn) (i j : nat) : R :=
  let si := geometry h i in let sj := geometry h j in
  match cn_func cn with
  | SSycte | BFycte => side_scale (sh_a si) (penalty_of E h A22 A22 i j) (penalty_of E h D22 D22 i j) (sh_b si) (sh_b sj)
  | SSxcte | BFxcte => side_scale (sh_b si) (penalty_of E h A11 A11 i j) (penalty_of E h D11 D11 i j) (sh_a si) (sh_a sj)
  | SB => face_scale (sh_a si) (sh_b si) (penalty_of E h A11 A11 i j / Rmin (sh_a si) (sh_b si)) ((thickness h i + thickness h j) / 2)
  | SB_TSL => face_scale (sh_a si) (sh_b si) (10000 / (sh_a si * sh_b si)) ((thickness h i + thickness h j) / 2)
  | _ => 0
  end.
Definition conn_scale (cn : conn) : R := pair_scale cn (cn_p1 cn) (cn_p2 cn).

(* the connected lines lie on the panels *)
Definition on_panels (cn : conn) : Prop :=
  let inside o size := match o with Some y => 0 <= y <= size | None => True end in
  let s1 := geometry h (cn_p1 cn) in let s2 := geometry h (cn_p2 cn) in
  match cn_func cn with
  | SSycte | BFycte => inside (cn_y1 cn) (sh_b s1) /\ inside (cn_y2 cn) (sh_b s2)
  | SSxcte | BFxcte => inside (cn_x1 cn) (sh_a s1) /\ inside (cn_x2 cn) (sh_a s2)
  | _ => True
  end.
End Scale.

(* the first n functions of the basis and their first derivatives are continuous *)
Definition continuous_basis (Bs : basis) (n : nat) : Prop := forall i e x, (i < n)%nat ->
  continuity_pt (fun t => bf Bs i t e) x /\ continuity_pt (fun t => bfp Bs i t e) x.
