(* Energy of the mismatch between two connected panels. *)
From Coq Require Import Reals List Arith.
From Coquelicot Require Import Coquelicot.
From Verif Require Import Base_Sum Model_Types Spec_Integral Spec_Fext.
Import ListNotations.
Open Scope R_scope.

(* a jump compares the displacements of two panels, each at its own point; with its stiffness *)
Definition jump : Type := displacements -> displacements -> R -> R -> R -> R -> R.
(* skin-skin: equal displacements and equal rotation across the line *)
Definition jumps_SSycte (kt kr : R) : list (R * jump) :=
  [ (kt, fun U V x y X Y => U 0%nat x y - V 0%nat X Y);
    (kt, fun U V x y X Y => U 1%nat x y - V 1%nat X Y);
    (kt, fun U V x y X Y => U 2%nat x y - V 2%nat X Y);
    (kr, fun U V x y X Y => U 4%nat x y - V 4%nat X Y) ].
Definition jumps_SSxcte (kt kr : R) : list (R * jump) :=
  [ (kt, fun U V x y X Y => U 0%nat x y - V 0%nat X Y);
    (kt, fun U V x y X Y => U 1%nat x y - V 1%nat X Y);
    (kt, fun U V x y X Y => U 2%nat x y - V 2%nat X Y);
    (kr, fun U V x y X Y => U 3%nat x y - V 3%nat X Y) ].
(* base-flange, panels at a right angle: v of the base is w of the flange and w of the base is - v of
   the flange (u in place of v for a line x = constant) *)
Definition jumps_BFycte (kt kr : R) : list (R * jump) :=
  [ (kt, fun U V x y X Y => U 0%nat x y - V 0%nat X Y);
    (kt, fun U V x y X Y => U 1%nat x y - V 2%nat X Y);
    (kt, fun U V x y X Y => U 2%nat x y + V 1%nat X Y);
    (kr, fun U V x y X Y => U 4%nat x y - V 4%nat X Y) ].
Definition jumps_BFxcte (kt kr : R) : list (R * jump) :=
  [ (kt, fun U V x y X Y => U 0%nat x y - V 2%nat X Y);
    (kt, fun U V x y X Y => U 1%nat x y - V 1%nat X Y);
    (kt, fun U V x y X Y => U 2%nat x y + V 0%nat X Y);
    (kr, fun U V x y X Y => U 3%nat x y - V 3%nat X Y) ].
(* skin-base, faces in contact, mid-surfaces dsb apart: in-plane displacements of the first panel at
   the distance dsb from its mid-surface *)
Definition jumps_SB (kt dsb : R) : list (R * jump) :=
  [ (kt, fun U V x y X Y => (U 0%nat x y - dsb * U 3%nat x y) - V 0%nat X Y);
    (kt, fun U V x y X Y => (U 1%nat x y - dsb * U 4%nat x y) - V 1%nat X Y);
    (kt, fun U V x y X Y => U 2%nat x y - V 2%nat X Y) ].

(* work of the springs of the jumps: displacements U, V and virtual displacements U', V' *)
Definition jump_work (js : list (R * jump)) (U V U' V' : displacements) (x y X Y : R) : R :=
  suml js (fun kj => fst kj * (snd kj U V x y X Y * snd kj U' V' x y X Y)).

(* W is the work along the line y1 of the first panel and y2 of the second; points at the same
   fraction of the two sides correspond *)
Definition work_along_x (js : list (R * jump)) (s1 s2 : shell) (y1 y2 : R) (U V U' V' : displacements) (W : R) : Prop :=
  is_RInt (fun x => jump_work js U V U' V' x y1 (x * (sh_a s2 / sh_a s1)) y2) 0 (sh_a s1) W.
Definition work_along_y (js : list (R * jump)) (s1 s2 : shell) (x1 x2 : R) (U V U' V' : displacements) (W : R) : Prop :=
  is_RInt (fun y => jump_work js U V U' V' x1 y x2 (y * (sh_b s2 / sh_b s1))) 0 (sh_b s1) W.
(* the same over the whole area *)
Definition work_over_area (js : list (R * jump)) (s1 s2 : shell) (U V U' V' : displacements) (W : R) : Prop :=
  panel_integral s1 (fun xi eta => jump_work js U V U' V'
    ((xi + 1) * sh_a s1 / 2) ((eta + 1) * sh_b s1 / 2) ((xi + 1) * sh_a s2 / 2) ((eta + 1) * sh_b s2 / 2)) W.
