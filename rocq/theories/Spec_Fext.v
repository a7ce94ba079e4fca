(* Virtual work of loads and prescribed displacements. *)
From Coq Require Import Reals List Arith Bool Permutation.
From Verif Require Import Base_Sum Model_Types Model_Result Model_DB Model_Shell Model_Field Model_Fext Spec_Algebra Spec_Kinematics Spec_Quadrature Spec_Panel.
Import ListNotations.
Open Scope R_scope.

(* U 0, U 1, U 2 are the displacements u, v, w as functions of x and y *)
Definition displacements : Type := nat -> R -> R -> R.

(* work of the force (fx, fy, fz) acting at (x, y) *)
Definition work_at (U : displacements) (x y fx fy fz : R) : R :=
  fx * U 0%nat x y + fy * U 1%nat x y + fz * U 2%nat x y.
Definition point_work (U : displacements) (l : pload) : R :=
  work_at U (pl_x l) (pl_y l) (pl_fx l) (pl_fy l) (pl_fz l).

(* a force component that is not given is zero *)
Definition comp (f : option (R -> R)) (t : R) : R := match f with Some f => f t | None => 0 end.
(* work per unit length of a distributed load along its line, at coordinate t *)
Definition density (U : displacements) (l : dload) (t : R) : R :=
  match dl_x l, dl_y l with
  | None, Some y => work_at U t y (comp (dl_fx l) t) (comp (dl_fy l) t) (comp (dl_fz l) t)
  | Some x, None => work_at U x t (comp (dl_fx l) t) (comp (dl_fy l) t) (comp (dl_fz l) t)
  | _, _ => 0
  end.
(* the integral of g over [0, len] with the rule of q points *)
Definition along_side (Q : nat -> list (R * R)) (q : nat) (len : R) (g : R -> R) : R :=
  suml (Q q) (fun t => snd t * (len / 2) * g ((fst t + 1) * len / 2)).
(* loads along x are integrated with m points over [0, a], loads along y with n points over [0, b] *)
Definition line_work (Q : nat -> list (R * R)) (s : shell) (U : displacements) (l : dload) : R :=
  match dl_x l with
  | None => along_side Q (sh_m s) (sh_a s) (density U l)
  | Some _ => along_side Q (sh_n s) (sh_b s) (density U l)
  end.

(* work of the constant part and of the incremented part *)
Definition constant_work (Q : nat -> list (R * R)) (s : shell) (L : loads) (U : displacements) : R :=
  suml (ld_point L) (point_work U) + suml (ld_distr L) (line_work Q s U)
  + suml (ld_ppd L) (point_work U) + suml (ld_dpd L) (line_work Q s U).
Definition incremented_work (Q : nat -> list (R * R)) (s : shell) (L : loads) (U : displacements) : R :=
  suml (ld_point_inc L) (point_work U) + suml (ld_distr_inc L) (line_work Q s U)
  + suml (ld_ppd_inc L) (point_work U) + suml (ld_dpd_inc L) (line_work Q s U).

(* exactly one of the two positions is given *)
Definition well_placed (l : dload) : Prop :=
  match dl_x l, dl_y l with None, Some _ => True | Some _, None => True | _, _ => False end.
Definition all_lines (L : loads) : list dload := ld_distr L ++ ld_distr_inc L ++ ld_dpd L ++ ld_dpd_inc L.

(* the loads of L are those of L1 and those of L2, in any order *)
Definition merges (L1 L2 L : loads) : Prop :=
  Permutation (ld_point L) (ld_point L1 ++ ld_point L2) /\ Permutation (ld_point_inc L) (ld_point_inc L1 ++ ld_point_inc L2) /\
  Permutation (ld_distr L) (ld_distr L1 ++ ld_distr L2) /\ Permutation (ld_distr_inc L) (ld_distr_inc L1 ++ ld_distr_inc L2) /\
  Permutation (ld_ppd L) (ld_ppd L1 ++ ld_ppd L2) /\ Permutation (ld_ppd_inc L) (ld_ppd_inc L1 ++ ld_ppd_inc L2) /\
  Permutation (ld_dpd L) (ld_dpd L1 ++ ld_dpd L2) /\ Permutation (ld_dpd_inc L) (ld_dpd_inc L1 ++ ld_dpd_inc L2).

(* ------------------------------------------------- histories of load definitions *)
(* one call of a method that defines a load or a prescribed displacement *)
Inductive load_call :=
| PointLoad (x y fx fy fz : R) (cte : bool)
| LineLoadX (x : R) (fx fy fz : option (R -> R)) (cte : bool)
| LineLoadY (y : R) (fx fy fz : option (R -> R)) (cte : bool)
| PointPd (x y ku up kv vp kw wp : R) (cte : bool)
| LinePdX (x : R) (ku kv kw : option R) (fu fv fw : option (R -> R)) (cte : bool)
| LinePdY (y : R) (ku kv kw : option R) (fu fv fw : option (R -> R)) (cte : bool).

Definition call_method (k : load_call) : edit :=
  match k with
  | PointLoad x y fx fy fz cte => add_point_load x y fx fy fz cte
  | LineLoadX x fx fy fz cte => add_distr_load_fixed_x (Some x) fx fy fz cte
  | LineLoadY y fx fy fz cte => add_distr_load_fixed_y (Some y) fx fy fz cte
  | PointPd x y ku up kv vp kw wp cte => add_point_pd x y ku up kv vp kw wp cte
  | LinePdX x ku kv kw fu fv fw cte => add_distr_pd_fixed_x (Some x) ku kv kw fu fv fw cte
  | LinePdY y ku kv kw fu fv fw cte => add_distr_pd_fixed_y (Some y) ku kv kw fu fv fw cte
  end.
(* the loads after a sequence of calls, with the outcome of each call; exceptions are caught by the caller *)
Fixpoint run_calls (h : list load_call) (L : loads) : loads * list (load_call * res unit) :=
  match h with
  | [] => (L, [])
  | k :: h' => let '(L1, r) := call_method k L in let '(L2, outs) := run_calls h' L1 in (L2, (k, r) :: outs)
  end.

(* a call makes sense: a distributed load has at least one function; a distributed prescribed
   displacement has, for each component, both a penalty constant and a function or neither, and some
   constant is not zero *)
Definition some_function (f g h : option (R -> R)) : Prop := f <> None \/ g <> None \/ h <> None.
Definition both_or_neither (k : option R) (f : option (R -> R)) : Prop := k = None <-> f = None.
Definition some_constant (k l m : option R) : Prop :=
  exists x, x <> 0 /\ (k = Some x \/ l = Some x \/ m = Some x).
Definition meaningful (k : load_call) : Prop :=
  match k with
  | PointLoad _ _ _ _ _ _ => True
  | PointPd _ _ _ _ _ _ _ _ _ => True
  | LineLoadX _ fx fy fz _ => some_function fx fy fz
  | LineLoadY _ fx fy fz _ => some_function fx fy fz
  | LinePdX _ ku kv kw fu fv fw _ => some_constant ku kv kw /\ both_or_neither ku fu /\ both_or_neither kv fv /\ both_or_neither kw fw
  | LinePdY _ ku kv kw fu fv fw _ => some_constant ku kv kw /\ both_or_neither ku fu /\ both_or_neither kv fv /\ both_or_neither kw fw
  end.

(* penalty force of a component: constant times prescribed displacement *)
Definition penalty (k : option R) (f : option (R -> R)) (t : R) : R := default 0 k * comp f t.
(* work of what one call defines, at load level inc *)
Definition call_work (Q : nat -> list (R * R)) (s : shell) (U : displacements) (inc : R) (k : load_call) : R :=
  let level (cte : bool) := if cte then 1 else inc in
  match k with
  | PointLoad x y fx fy fz cte => level cte * work_at U x y fx fy fz
  | PointPd x y ku up kv vp kw wp cte => level cte * work_at U x y (ku * up) (kv * vp) (kw * wp)
  | LineLoadX x fx fy fz cte => level cte * along_side Q (sh_n s) (sh_b s) (fun y => work_at U x y (comp fx y) (comp fy y) (comp fz y))
  | LineLoadY y fx fy fz cte => level cte * along_side Q (sh_m s) (sh_a s) (fun x => work_at U x y (comp fx x) (comp fy x) (comp fz x))
  | LinePdX x ku kv kw fu fv fw cte =>
      level cte * along_side Q (sh_n s) (sh_b s) (fun y => work_at U x y (penalty ku fu y) (penalty kv fv y) (penalty kw fw y))
  | LinePdY y ku kv kw fu fv fw cte =>
      level cte * along_side Q (sh_m s) (sh_a s) (fun x => work_at U x y (penalty ku fu x) (penalty kv fv x) (penalty kw fw x))
  end.
(* work of the calls of a history that were accepted *)
Definition accepted_work (Q : nat -> list (R * R)) (s : shell) (U : displacements) (inc : R) (outs : list (load_call * res unit)) : R :=
  suml outs (fun kr => match snd kr with Ok _ => call_work Q s U inc (fst kr) | Err _ => 0 end).

(* ------------------------------------------------- penalty stiffness *)
(* work of the forces that resist the displacements U, with stiffness k0, k1, k2 in u, v, w at (x, y),
   prescribed values p0, p1, p2, in the displacements V *)
Definition spring_work (U V : displacements) (x y k0 p0 k1 p1 k2 p2 : R) : R :=
  k0 * (U 0%nat x y - p0) * V 0%nat x y + k1 * (U 1%nat x y - p1) * V 1%nat x y + k2 * (U 2%nat x y - p2) * V 2%nat x y.

(* prescribed displacements up, vp, wp at a point, with their penalty constants *)
Record pdef := mkPdef { pd_x : R; pd_y : R; pd_ku : R; pd_up : R; pd_kv : R; pd_vp : R; pd_kw : R; pd_wp : R; pd_cte : bool }.
Definition pd_call (q : pdef) : load_call := PointPd (pd_x q) (pd_y q) (pd_ku q) (pd_up q) (pd_kv q) (pd_vp q) (pd_kw q) (pd_wp q) (pd_cte q).
(* work of the spring q, whose prescribed displacements are scaled by inc unless they are constant *)
Definition pd_work (U V : displacements) (inc : R) (q : pdef) : R :=
  let t := if pd_cte q then 1 else inc in
  spring_work U V (pd_x q) (pd_y q) (pd_ku q) (t * pd_up q) (pd_kv q) (t * pd_vp q) (pd_kw q) (t * pd_wp q).
(* force of a spring of stiffness k that acts if on, on the displacement u, in the displacement v *)
Definition spring (k : R) (on : bool) (u v : R) : R := if on then k * u * v else 0.

(* the displacements u, v, w and rotations phix = - w,x, phiy = - w,y of a Ritz vector whose coefficients start at 0 *)
Definition ritz_field (Bs : basis) (s : shell) (c : nat -> R) : displacements := fun k x y =>
  let X := natural x (sh_a s) in let Y := natural y (sh_b s) in
  match k with
  | 0%nat => d_u Bs s c X Y | 1%nat => d_v Bs s c X Y | 2%nat => d_w Bs s c X Y
  | 3%nat => - d_wx Bs s c X Y | _ => - d_wy Bs s c X Y
  end.
(* the field built on the third coefficients with the shape functions of component q *)
Definition third_field (Bs : basis) (s : shell) (o : nat) (c : nat -> R) (q : nat) (x y : R) : R :=
  ritz (sh_m s) (sh_n s) (own o c) 2 (fun i => bf Bs i (natural x (sh_a s)) (xedge s q)) (fun j => bf Bs j (natural y (sh_b s)) (yedge s q)).

