(* Energy of the connections of an assembly. Definitions only. *)
From Coq Require Import Reals List Arith Bool.
From Verif Require Import Base_Sum Model_Types Model_Coo Model_Result Model_Num Model_DB Model_Shell Model_Multi Spec_Integral Spec_Panel Spec_Shell Spec_Fext Spec_Conn Spec_Multi.
Import ListNotations.
Open Scope R_scope.

(* penalty stiffness from the stiffnesses x and y of two laminates of thickness g and h *)
Definition penalty (x y g h : R) : R := 4 * x * y / ((x + y) * (g + h)).

Section Work.
Variables (E : env) (Bs : basis) (h : nat -> xpanel).
Definition geometry (i : nat) : shell := kernel_view (xp (h i)).
Definition lam_of (i : nat) : laminate := rebuilt_lam E (xp (h i)).
Definition start (i : nat) : nat := default 0%nat (xp_start (h i)).
Definition thickness (i : nat) : R := suml (rebuilt_plyts (xp (h i))) (fun t => t).
(* displacements of panel i: its part of the vector of the assembly *)
Definition moves (i : nat) (c : nat -> R) : displacements := ritz_field Bs (geometry i) (own (start i) c).
(* stiffness k of the laminates of two panels *)
Definition penalty_of (kx ky : laminate -> R) (i j : nat) : R := penalty (kx (lam_of i)) (ky (lam_of j)) (lam_h (lam_of i)) (lam_h (lam_of j)).

(* the work W done by the springs of a connection of panels i and j, in the displacements c, for virtual
   displacements d *)
Definition pair_work (cn : conn) (i j : nat) (c d : nat -> R) (W : R) : Prop :=
  let along_x js := exists y1 y2, cn_y1 cn = Some y1 /\ cn_y2 cn = Some y2 /\
    work_along_x js (geometry i) (geometry j) y1 y2 (moves i c) (moves j c) (moves i d) (moves j d) W in
  let along_y js := exists x1 x2, cn_x1 cn = Some x1 /\ cn_x2 cn = Some x2 /\
    work_along_y js (geometry i) (geometry j) x1 x2 (moves i c) (moves j c) (moves i d) (moves j d) W in
  let area kt := work_over_area (jumps_SB kt ((thickness i + thickness j) / 2)) (geometry i) (geometry j)
    (moves i c) (moves j c) (moves i d) (moves j d) W in
  match cn_func cn with
  | SSycte => along_x (jumps_SSycte (penalty_of A22 A22 i j) (penalty_of D22 D22 i j))
  | BFycte => along_x (jumps_BFycte (penalty_of A22 A22 i j) (penalty_of D22 D22 i j))
  | SSxcte => along_y (jumps_SSxcte (penalty_of A11 A11 i j) (penalty_of D11 D11 i j))
  | BFxcte => along_y (jumps_BFxcte (penalty_of A11 A11 i j) (penalty_of D11 D11 i j))
  | SB => area (penalty_of A11 A11 i j / Rmin (sh_a (geometry i)) (sh_b (geometry i)))
  | SB_TSL => area (10000 / (sh_a (geometry i) * sh_b (geometry i)))
  | _ => False
  end.
Definition conn_work (cn : conn) (c d : nat -> R) (W : R) : Prop := pair_work cn (cn_p1 cn) (cn_p2 cn) c d W.

(* the displacements c have no jump at the connection *)
Definition no_jump (cn : conn) (c : nat -> R) : Prop :=
  let i := cn_p1 cn in let j := cn_p2 cn in
  let vanish (js : list (R * jump)) x y X Y := List.Forall (fun kj => snd kj (moves i c) (moves j c) x y X Y = 0) js in
  let along_x js := forall y1 y2 x, cn_y1 cn = Some y1 -> cn_y2 cn = Some y2 -> 0 <= x <= sh_a (geometry i) ->
    vanish js x y1 (x * (sh_a (geometry j) / sh_a (geometry i))) y2 in
  let along_y js := forall x1 x2 y, cn_x1 cn = Some x1 -> cn_x2 cn = Some x2 -> 0 <= y <= sh_b (geometry i) ->
    vanish js x1 y x2 (y * (sh_b (geometry j) / sh_b (geometry i))) in
  let area js := forall xi eta, -1 <= xi <= 1 -> -1 <= eta <= 1 ->
    vanish js ((xi + 1) * sh_a (geometry i) / 2) ((eta + 1) * sh_b (geometry i) / 2)
              ((xi + 1) * sh_a (geometry j) / 2) ((eta + 1) * sh_b (geometry j) / 2) in
  match cn_func cn with
  | SSycte => along_x (jumps_SSycte 1 1)
  | BFycte => along_x (jumps_BFycte 1 1)
  | SSxcte => along_y (jumps_SSxcte 1 1)
  | BFxcte => along_y (jumps_BFxcte 1 1)
  | SB | SB_TSL => area (jumps_SB 1 ((thickness i + thickness j) / 2))
  | _ => False
  end.

(* the first panel comes first in the assembly; for the skin-skin connections the other order is as
   good when the connected sides are equally long *)
Definition in_order (cn : conn) : Prop := (start (cn_p1 cn) < start (cn_p2 cn))%nat.
Definition reversible (cn : conn) : Prop := (start (cn_p2 cn) < start (cn_p1 cn))%nat /\
  match cn_func cn with
  | SSycte => sh_a (geometry (cn_p1 cn)) = sh_a (geometry (cn_p2 cn))
  | SSxcte => sh_b (geometry (cn_p1 cn)) = sh_b (geometry (cn_p2 cn))
  | _ => False
  end.
(* the dictionary has what its kind of connection needs *)
Definition pair_keys (cn : conn) (i j : nat) : Prop :=
  match cn_func cn with
  | SSycte | BFycte => cn_y1 cn <> None /\ cn_y2 cn <> None
  | SSxcte | BFxcte => cn_x1 cn <> None /\ cn_x2 cn <> None
  | SB => True
  | SB_TSL => cn_tsl cn = Some true /\ sh_a (geometry i) = sh_a (geometry j) /\
      sh_b (geometry i) = sh_b (geometry j) /\ pn_plyts (xp (h i)) <> [] /\ pn_plyts (xp (h j)) <> []
  | _ => False
  end.
Definition has_keys (cn : conn) : Prop := pair_keys cn (cn_p1 cn) (cn_p2 cn).
(* the same connection with the panels listed in the other order *)
Definition mirror (cn : conn) : conn :=
  mkConn (cn_p2 cn) (cn_p1 cn) (cn_func cn) (cn_x2 cn) (cn_x1 cn) (cn_y2 cn) (cn_y1 cn) (cn_tsl cn).
(* the dictionary of a connection of two panels at different places, with both or none of the positions *)
Definition two_sided (cn : conn) : Prop :=
  (exists a b, xp_start (h (cn_p1 cn)) = Some a /\ xp_start (h (cn_p2 cn)) = Some b /\ a <> b) /\
  (cn_x1 cn = None <-> cn_x2 cn = None) /\ (cn_y1 cn = None <-> cn_y2 cn = None).
(* connections of panels of the assembly for which the order of the panels does not matter *)
Definition usable (ids : list nat) (cn : conn) : Prop :=
  In (cn_p1 cn) ids /\ In (cn_p2 cn) ids /\ has_keys cn /\ (in_order cn \/ reversible cn).
(* a panel with its material given, of positive size and of positive stiffness *)
Definition sound (i : nat) : Prop := complete (xp (h i)) /\ 0 < sh_a (geometry i) /\ 0 < sh_b (geometry i) /\
  0 < lam_h (lam_of i) /\ 0 < A11 (lam_of i) /\ 0 < A22 (lam_of i) /\ 0 < D11 (lam_of i) /\ 0 < D22 (lam_of i).
End Work.
