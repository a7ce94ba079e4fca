(* Integration over the part of a panel selected by x1, x2, y1, y2, in physical coordinates. *)
From Coq Require Import Reals List Arith.
From Verif Require Import Base_Sum Model_Types.
Import ListNotations.
Open Scope R_scope.

(* the interval selected on a side of length len: the value -1 stands for "not given" *)
Definition interval (p1 p2 len : R) : R * R :=
  if Req_EM_T p1 (-1) then (0, len) else if Req_EM_T p2 (-1) then (0, len) else (p1, p2).
Definition xregion (s : shell) : R * R := interval (sh_x1 s) (sh_x2 s) (sh_a s).
Definition yregion (s : shell) : R * R := interval (sh_y1 s) (sh_y2 s) (sh_b s).

(* node t of a rule on [-1, 1] moved to [lo, hi], and natural coordinate of a position on a side *)
Definition node (lo hi t : R) : R := lo + (hi - lo) * (t + 1) / 2.
Definition natural (x len : R) : R := 2 * x / len - 1.

(* product rule with nx x ny nodes over the selected region; the integrand receives the numbers of
   the node and its natural coordinates *)
Definition integrate (Q : nat -> list (R * R)) (s : shell) (nx ny : nat)
    (g : nat -> nat -> R -> R -> R) : R :=
  suml (combine (seq 0 nx) (Q nx)) (fun px =>
  suml (combine (seq 0 ny) (Q ny)) (fun py =>
    let '(xlo, xhi) := xregion s in
    let '(ylo, yhi) := yregion s in
    let x := node xlo xhi (fst (snd px)) in
    let y := node ylo yhi (fst (snd py)) in
    (snd (snd px) * ((xhi - xlo) / 2)) * (snd (snd py) * ((yhi - ylo) / 2)) *
    g (fst px) (fst py) (natural x (sh_a s)) (natural y (sh_b s)))).
