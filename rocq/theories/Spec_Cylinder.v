(* What a closed cylinder is. Definitions only. *)
From Coq Require Import Reals List Arith Bool Relations.
From Coquelicot Require Import Coquelicot.
From Verif Require Import Base_Sum Model_Types Model_Coo Model_Result Model_Num Model_DB Model_Shell Model_Fext Model_Multi Spec_Integral Spec_Panel Spec_Shell Spec_Fext Spec_Conn Spec_Multi Spec_MultiConn.
Import ListNotations.
Open Scope R_scope.

(* a skin-skin connection of the line y = yi of the panel i with the line y = yj of the panel j, whichever
   panel is listed first *)
Definition joins (cn : conn) (i : nat) (yi : R) (j : nat) (yj : R) : Prop :=
  cn_func cn = SSycte /\
  ((cn_p1 cn = i /\ cn_y1 cn = Some yi /\ cn_p2 cn = j /\ cn_y2 cn = Some yj) \/
   (cn_p1 cn = j /\ cn_y1 cn = Some yj /\ cn_p2 cn = i /\ cn_y2 cn = Some yi)).
(* a base-flange connection *)
Definition attaches (cn : conn) (i : nat) (yi : R) (j : nat) (yj : R) : Prop :=
  cn_func cn = BFycte /\ cn_p1 cn = i /\ cn_y1 cn = Some yi /\ cn_p2 cn = j /\ cn_y2 cn = Some yj.
Definition touches (i : nat) (cn : conn) : bool := ((cn_p1 cn =? i) || (cn_p2 cn =? i))%nat%bool.
(* one can go from panel to panel through the connections *)
Definition linked (l : list conn) (i j : nat) : Prop :=
  clos_refl_trans nat (fun x y => exists cn, In cn l /\ ((cn_p1 cn = x /\ cn_p2 cn = y) \/ (cn_p1 cn = y /\ cn_p2 cn = x))) i j.
(* the panel after the panel number i of a ring of n *)
Definition next (n i : nat) : nat := ((i + 1) mod n)%nat.

(* the displacements c of the assembly agree along the line y = yi of the panel i and the line y = yj of
   the panel j: u, v, w and the slope dw/dy, at every x *)
Definition agree (Bs : basis) (h : nat -> xpanel) (c : nat -> R) (i : nat) (yi : R) (j : nat) (yj : R) (len : R) : Prop :=
  forall d x, (d = 0 \/ d = 1 \/ d = 2 \/ d = 4)%nat -> 0 <= x <= len -> moves Bs h i c d x yi = moves Bs h j c d x yj.

(* the axial force on a panel: its distributed loads along lines x = constant, over the width *)
Definition axial_force (x : xpanel) : R :=
  suml (ld_distr (xp_loads x)) (fun l => match dl_x l, dl_fx l with
    | Some _, Some f => RInt f 0 (sh_b (pn_sh (xp x)))
    | _, _ => 0 end).
(* a flange at a right angle: u = u, v = w of the flange, w = - v of the flange, equal slopes *)
Definition agree_flange (Bs : basis) (h : nat -> xpanel) (c : nat -> R) (i : nat) (yi : R) (j : nat) (yj : R) (len : R) : Prop :=
  forall x, 0 <= x <= len ->
    moves Bs h i c 0%nat x yi = moves Bs h j c 0%nat x yj /\ moves Bs h i c 1%nat x yi = moves Bs h j c 2%nat x yj /\
    moves Bs h i c 2%nat x yi = - moves Bs h j c 1%nat x yj /\ moves Bs h i c 4%nat x yi = moves Bs h j c 4%nat x yj.
(* a laminate of positive thickness and stiffness *)
Definition stiff (l : laminate) : Prop := 0 < lam_h l /\ 0 < A11 l /\ 0 < A22 l /\ 0 < D11 l /\ 0 < D22 l.
