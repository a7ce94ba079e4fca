(* Where the panels of a T-stiffened panel lie, and displacements of the whole. Definitions only. *)
From Coq Require Import Reals List Arith Bool.
From Verif Require Import Base_Sum Model_Types Model_Coo Model_Result Model_Num Model_DB Model_Shell Model_Fext Model_Multi Model_New Model_TStiff
  Spec_Panel Spec_Shell Spec_Fext Spec_Conn Spec_Multi Spec_MultiConn Spec_Cylinder.
Import ListNotations.
Open Scope R_scope.

(* the panel p01, p02, ..., p15 *)
Definition panel_no (D : tstiff) (i : nat) : placed := nth (i - 1) (ts_panels D) (skin D 0 0 0 0 0).
Definition len (q : placed) : R := sh_a (pn_sh (np_panel q)).
Definition wid (q : placed) : R := sh_b (pn_sh (np_panel q)).
(* (x, y) lies in the panel; inside it *)
Definition covers (q : placed) (x y : R) : Prop := np_x0 q <= x <= np_x0 q + len q /\ np_y0 q <= y <= np_y0 q + wid q.
Definition inside (q : placed) (x y : R) : Prop := np_x0 q < x < np_x0 q + len q /\ np_y0 q < y < np_y0 q + wid q.

Definition well_sized (D : tstiff) : Prop :=
  0 < ts_a D /\ 0 < ts_bb D /\ 0 < ts_bf D /\ ts_bb D / 2 < ts_ys D /\ ts_ys D + ts_bb D / 2 < ts_b D /\ 0 <= ts_defect_a D < 1.

(* p ends in y where q begins; p ends in x where q begins; on the whole of the common side *)
Definition left_of (p q : placed) : Prop := np_x0 p = np_x0 q /\ len p = len q /\ np_y0 p = np_y0 q + wid q.
Definition above (p q : placed) : Prop := np_y0 p = np_y0 q /\ wid p = wid q /\ np_x0 p = np_x0 q + len q.
Definition over (p q : placed) : Prop := np_x0 p = np_x0 q /\ np_y0 p = np_y0 q /\ len p = len q /\ wid p = wid q.

(* all displacements and rotations are free at the sides x = 0, x = a, y = 0, y = b of the panel *)
Definition edge_free (t r : edge -> R) (p : panel) (xs : bool) : Prop :=
  let s := pn_sh p in List.Forall (fun e => t e = 1 /\ r e = 1) (if xs then [sh_xu s; sh_xv s; sh_xw s] else [sh_yu s; sh_yv s; sh_yw s]).
Definition free_x1 (q : placed) : Prop := edge_free e1t e1r (np_panel q) true.
Definition free_x2 (q : placed) : Prop := edge_free e2t e2r (np_panel q) true.
Definition free_y1 (q : placed) : Prop := edge_free e1t e1r (np_panel q) false.
Definition free_y2 (q : placed) : Prop := edge_free e2t e2r (np_panel q) false.
(* v and w vanish there *)
Definition supported (t : edge -> R) (p : panel) (xs : bool) : Prop :=
  let s := pn_sh p in if xs then t (sh_xv s) = 0 /\ t (sh_xw s) = 0 else t (sh_yv s) = 0 /\ t (sh_yw s) = 0.

(* the panel number i moves as the field F of the whole at its place *)
Definition shows (D : tstiff) (Bs : basis) (h : nat -> xpanel) (k : nat) (c : nat -> R) (F : displacements) (i : nat) : Prop :=
  forall d x y, 0 <= x <= len (panel_no D i) -> 0 <= y <= wid (panel_no D i) ->
    moves Bs h (k + (i - 1)) c d x y = F d (np_x0 (panel_no D i) + x) (np_y0 (panel_no D i) + y).
(* the skin and the base, stuck together; not where they are debonded *)
Definition debonded (D : tstiff) (x : R) : Prop := let d := ts_defect_a D * ts_a D in 0 < d /\ (ts_a D - d) / 2 < x < (ts_a D + d) / 2.
Definition height_of (D : tstiff) (stack : list R) : R := INR (length stack) * ts_plyt D.
Definition stuck (D : tstiff) (Fs Fb : displacements) : Prop :=
  let z := (height_of D (ts_stack_skin D) + height_of D (ts_stack_base D)) / 2 in
  forall x y, 0 <= x <= ts_a D -> ts_ys D - ts_bb D / 2 <= y <= ts_ys D + ts_bb D / 2 -> ~ debonded D x ->
    Fb 0%nat x y = Fs 0%nat x y - z * Fs 3%nat x y /\ Fb 1%nat x y = Fs 1%nat x y - z * Fs 4%nat x y /\ Fb 2%nat x y = Fs 2%nat x y.
(* the flange, at a right angle on the middle line of the base *)
Definition stands_on (D : tstiff) (Fb Ff : displacements) : Prop :=
  forall x, 0 <= x <= ts_a D ->
    Fb 0%nat x (ts_ys D) = Ff 0%nat x 0 /\ Fb 1%nat x (ts_ys D) = Ff 2%nat x 0 /\
    Fb 2%nat x (ts_ys D) = - Ff 1%nat x 0 /\ Fb 4%nat x (ts_ys D) = Ff 4%nat x 0.

(* the material is given and the laminates are stiff; each panel has terms, at most M in each direction *)
Definition laminate_of (E : env) (D : tstiff) (stack : list R) : laminate :=
  e_lib E stack (map (fun _ => ts_plyt D) stack) (map (fun _ => ts_prop D) stack) (map (fun _ => ts_rho D) stack) 0.
Definition material_given (E : env) (D : tstiff) (M : nat) : Prop :=
  ts_prop D <> [] /\
  List.Forall (fun st => st <> [] /\ stiff (laminate_of E D st)) [ts_stack_skin D; ts_stack_base D; ts_stack_flange D] /\
  List.Forall (fun t => (0 < t <= M)%nat) [ts_m D; ts_n D; ts_mb D; ts_nb D; ts_mf D; ts_nf D].

(* the connections that the places of the panels ask for *)
Definition meets (D : tstiff) (k : nat) (cn : conn) : Prop :=
  exists i j, (1 <= i <= 15)%nat /\ (1 <= j <= 15)%nat /\
    let p := panel_no D i in let q := panel_no D j in let kp := (k + (i - 1))%nat in let kq := (k + (j - 1))%nat in
    (np_group p = np_group q /\ left_of p q /\ cn = mkConn kp kq SSycte None None (Some 0) (Some (wid q)) None) \/
    (np_group p = np_group q /\ above p q /\ cn = mkConn kp kq SSxcte (Some 0) (Some (len q)) None None None) \/
    (np_group p = 0%nat /\ np_group q = 1%nat /\ over p q /\ (forall x, np_x0 p < x < np_x0 p + len p -> ~ debonded D x) /\
       cn = mkConn kp kq SB None None None None None) \/
    (np_group p = 1%nat /\ np_group q = 2%nat /\ np_x0 p = np_x0 q /\ len p = len q /\
       cn = mkConn kp kq BFycte None None (Some (wid p / 2)) (Some 0) None).

(* a store in which the panels have the places, sizes, boundary conditions and membrane loads they were
   created with, and no loads *)
Definition as_created (D : tstiff) (k : nat) (w w2 : world) : Prop := forall i, (1 <= i <= 15)%nat ->
  let x := w_panel w (k + (i - 1)) in let x2 := w_panel w2 (k + (i - 1)) in
  xp_start x2 = xp_start x /\ xp_loads x2 = no_loads /\ kernel_view (xp x2) = kernel_view (xp x) /\ pn_N (xp x2) = pn_N (xp x).
(* compression on the edge x = 0: the work of the membrane loads of the panels at this edge, in the
   displacements d of the assembly, with as many points as the panel has terms in y *)
Definition edge_work (E : env) (Bv : basis) (h : nat -> xpanel) (i : nat) (d : nat -> R) : R :=
  let s := geometry h i in along_side (e_rule E) (sh_n s) (sh_b s) (fun y => fst (fst (pn_N (xp (h i)))) * moves Bv h i d 0%nat 0 y).
