(* Ready-made cylinders. Models /repo/panels/multidomain/cylinder.py and
   /repo/panels/multidomain/cylinder_blade_stiffened.py. Definitions only. *)
From Coq Require Import Reals List Arith Bool.
From Verif Require Import Base_Sum Model_Types Model_Coo Model_Result Model_Num Model_DB Model_Shell Model_Fext Model_Multi Model_New.
Import ListNotations.
Open Scope R_scope.

Definition free_edge : edge := mkEdge 1 1 1 1.

Section Cylinder.
Variables (height r : R) (stack : list R) (plyt : R) (laminaprop : list R) (npanels m n : nat).

(* cylinder.py:55-56, cylinder_blade_stiffened.py:75-76. npanels counts as a nat: a negative or
   fractional number of panels is not modelled. *)
Definition b_skin : R := 2 * PI * r / INR npanels.
(* cylinder.py:57-67, cylinder_blade_stiffened.py:77-88 the panel i of the loop *)
Definition skin_panel (i : nat) : placed :=
  mkPlaced (with_edges (new_shell height b_skin (Some r) stack (Some plyt) laminaprop 0 m n 0)
              (mkEdge 0 1 0 1) (mkEdge 0 1 0 1) (mkEdge 0 1 0 1) free_edge free_edge free_edge) 0 0 (INR i * b_skin).
Definition skin_panels : list placed := map skin_panel (seq 0 npanels).
(* cylinder.py:68-78: skin holds the places of the panels in the store, k the first of them *)
Definition ring_conns (k : nat) : list conn :=
  let skin := seq k npanels in
  let skin_loop := skin ++ [nth 0 skin 0%nat] in
  map (fun i =>
    if negb (i =? length skin - 1)%nat then
      let p01 := nth i skin_loop 0%nat in let p02 := nth (i + 1) skin_loop 0%nat in
      mkConn p01 p02 SSycte None None (Some b_skin) (Some 0) None
    else
      let p01 := nth (i + 1) skin_loop 0%nat in let p02 := nth i skin_loop 0%nat in
      mkConn p01 p02 SSycte None None (Some 0) (Some b_skin) None) (seq 0 (length skin)).
(* cylinder.py:9-81 create_cylinder_assy: the new objects are stored from the place k on, the list of
   connections at the place q *)
Definition create_cylinder_assy (k q : nat) (w : world) : world * res assembly :=
  if (npanels <? 2)%nat then (w, Err ValueError) else
  let w1 := store k skin_panels w in
  let '(w2, s) := new_assembly (seq k npanels) None w1 in
  (put_conn w2 q (ring_conns k), Ok s).

(* cylinder_blade_stiffened.py:89-103 *)
Definition blade_panel (stack_blades : list (list R)) (width_blades : list R) (i : nat) : placed :=
  mkPlaced (with_edges (new_shell height (nth i width_blades 0) None (nth i stack_blades []) (Some plyt) laminaprop 0 m n 0)
              (mkEdge 0 1 0 1) (mkEdge 0 1 0 1) (mkEdge 0 1 0 1) free_edge free_edge free_edge) (S i) 0 (INR i * b_skin).
Definition blade_panels (stack_blades : list (list R)) (width_blades : list R) : list placed :=
  map (blade_panel stack_blades width_blades) (seq 0 npanels).
(* cylinder_blade_stiffened.py:117-118 *)
Definition blade_conns (k : nat) : list conn :=
  map (fun pb => mkConn (fst pb) (snd pb) BFycte None None (Some 0) (Some 0) None) (combine (seq k npanels) (seq (k + npanels) npanels)).
(* cylinder_blade_stiffened.py:10-122 create_cylinder_blade_stiffened *)
Definition create_cylinder_blade_stiffened (stack_blades : list (list R)) (width_blades : list R) (k q : nat) (w : world) : world * res assembly :=
  if (npanels <? 2)%nat then (w, Err ValueError) else
  if negb (length stack_blades =? npanels)%nat then (w, Err ValueError) else
  if negb (length width_blades =? npanels)%nat then (w, Err ValueError) else
  let w1 := store k (skin_panels ++ blade_panels stack_blades width_blades) w in
  let '(w2, s) := new_assembly (seq k npanels ++ seq (k + npanels) npanels) None w1 in
  (put_conn w2 q (ring_conns k ++ blade_conns k), Ok s).
End Cylinder.

(* ----- loads. A function literal inside a loop reads the variables of the enclosing call when it is
   called: it is a function of the frame, the values of those variables at that moment. *)
Definition on_object (f : xpanel -> xpanel) (i : nat) (w : world) : world := put_panel w i (f (w_panel w i)).
Definition with_loads (x : xpanel) (L : loads) : xpanel := mkXp (xp x) (xp_group x) L (xp_start x) (xp_end x).
(* add_distr_load_fixed_x(x, funcx, None, None), shell.py:880-912, cte=True *)
Definition edge_load (x : R) (f : R -> R) (o : xpanel) : xpanel :=
  with_loads o (add_distr (xp_loads o) (mkDload (Some x) None (Some f) None None)).

Section Drivers.
Variables (height r : R) (stack : list R) (plyt : R) (laminaprop : list R) (npanels m n : nat).
Variables (E : env) (Bs Bv : basis) (k q : nat).
Notation create := (create_cylinder_assy height r stack plyt laminaprop npanels m n k q).
(* what the drivers hand to the external solvers structsolve.lb and structsolve.static *)
Record lb_input := mkLb { lb_k0 : option matrix; lb_kG : option matrix }.

(* cylinder.py:84-132 cylinder_compression_lb_Nxx_cte *)
Definition set_constant_loads (Nxxs : list R) (w : world) : world :=
  fold_left (fun w i => on_object (fun o => with_panel o (with_x2u (with_Nxx (xp o) (nth i Nxxs 0)) 1)) (k + i) w) (seq 0 npanels) w.
Definition cylinder_lb_Nxx_cte (Nxxs : list R) (w : world) : res lb_input :=
  match create w with
  | (_, Err e) => Err e
  | (w1, Ok s) =>
    if negb (length Nxxs =? npanels)%nat then Err ValueError else
    match asm_kC E Bs (Some q) None true (set_constant_loads Nxxs w1) s with
    | (_, _, Err e) => Err e
    | (w2, s2, Ok K) => match asm_kG E None true w2 s2 with
                        | (_, _, Err e) => Err e
                        | (_, _, Ok G) => Ok (mkLb K G)
                        end
    end
  end.

(* cylinder.py:135-190 cylinder_compression_lb_Nxx_from_static up to calc_fext. `lambda y: Nxxs[i]` is
   called from calc_fext, when the loop is over: the frame is then i = npanels - 1. *)
Definition literal_Nxxs (Nxxs : list R) (frame_i : nat) : R -> R := fun y => nth frame_i Nxxs 0.
Definition set_static_loads (Nxxs : list R) (w : world) : world :=
  fold_left (fun w i => on_object (fun o => with_panel (edge_load (sh_a (pn_sh (xp o))) (literal_Nxxs Nxxs (npanels - 1)) o) (with_x2u (xp o) 1)) (k + i) w)
    (seq 0 npanels) w.
Definition cylinder_static_world (Nxxs : list R) (w : world) : res (world * assembly) :=
  match create w with
  | (_, Err e) => Err e
  | (w1, Ok s) => if negb (length Nxxs =? npanels)%nat then Err ValueError else Ok (set_static_loads Nxxs w1, s)
  end.
Definition cylinder_static_fext (Nxxs : list R) (w : world) : res (nat -> R) :=
  match cylinder_static_world Nxxs w with
  | Err e => Err e
  | Ok (w1, s) => snd (asm_fext E Bv 1 w1 s)
  end.

(* cylinder.py:193-238 cylinder_spla up to the call of Analysis.static, which uses calc_fext. `lambda y:
   p.Nxx` is called from there: p is then the last panel. Its attribute Nxx is 0. from construction; the
   argument Nxx is not read. *)
Definition set_spla_loads (SPLA : R) (w : world) : world :=
  let last := (k + (npanels - 1))%nat in
  let literal := fun y : R => Nxx_of (xp (w_panel w last)) in
  let w1 := fold_left (fun w i => on_object (fun o => edge_load (sh_a (pn_sh (xp o))) literal (with_panel o (with_x2u (xp o) 1))) (k + i) w) (seq 0 npanels) w in
  on_object (fun o => with_loads o (add_point (xp_loads o) (mkPload (sh_a (pn_sh (xp o)) / 2) (sh_b (pn_sh (xp o)) / 2) 0 0 (- SPLA)))) k w1.
Definition cylinder_spla_world (Nxx SPLA : R) (w : world) : res (world * assembly) :=
  match create w with
  | (_, Err e) => Err e
  | (w1, Ok s) => Ok (set_spla_loads SPLA w1, s)
  end.
End Drivers.

(* cylinder_blade_stiffened.py:169-232 ..._lb_Nxx_from_static up to calc_fext. `lambda y: Nxx` reads the
   variable Nxx when it is called: the value of the last panel of the loop, a blade. *)
Section BladeDrivers.
Variables (height r : R) (stack : list R) (stack_blades : list (list R)) (width_blades : list R) (plyt : R) (laminaprop : list R) (npanels m n : nat).
Variables (k q : nat).
(* the panel number i of the assembly: skin panels first, then blades *)
Definition blade_Nxx (Nskin Nblade : list R) (i : nat) : R := if (i <? npanels)%nat then nth i Nskin 0 else nth (i - npanels) Nblade 0.
Definition set_blade_static_loads (Nskin Nblade : list R) (w : world) : world :=
  let count := (npanels + npanels)%nat in
  fold_left (fun w i => on_object (fun o => let o' := with_panel o (with_x2u (xp o) 1) in
      edge_load (sh_a (pn_sh (xp o))) (fun y => blade_Nxx Nskin Nblade (count - 1)) o') (k + i) w) (seq 0 count) w.
Definition cylinder_blade_static_world (Nskin Nblade : list R) (w : world) : res (world * assembly) :=
  match create_cylinder_blade_stiffened height r stack plyt laminaprop npanels m n stack_blades width_blades k q w with
  | (_, Err e) => Err e
  | (w1, Ok s) =>
    if negb (length Nskin =? npanels)%nat then Err ValueError else
    if negb (length Nblade =? npanels)%nat then Err ValueError else Ok (set_blade_static_loads Nskin Nblade w1, s)
  end.
End BladeDrivers.
