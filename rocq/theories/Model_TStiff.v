(* A panel with one T-stiffener and a debonding defect. Models the construction shared by
   /repo/panels/multidomain/tstiff2d_1stiff_compression.py, tstiff2d_1stiff_freq.py and
   tstiff2d_1stiff_flutter.py, and the loads of the first. Definitions only. *)
From Coq Require Import Reals List Arith Bool.
From Verif Require Import Base_Sum Model_Types Model_Coo Model_Result Model_Num Model_DB Model_Shell Model_Fext Model_Multi Model_New Model_Cylinder.
Import ListNotations.
Open Scope R_scope.

(* the arguments. mb, nb, mf, nf and the numbers of integration points: the values after the defaults of
   compression.py:120-131. ts_points is None in freq.py and flutter.py, where nx and ny are not given;
   ts_e is the flag x1u of the loaded edge: run_static_case in compression.py, True in the others.
   Nxx_skin, Nxx_base, Nxx_flange: 0 where not given. The flow data of flutter.py are not modelled. *)
Record tstiff := mkTs {
  ts_a : R; ts_b : R; ts_ys : R; ts_bb : R; ts_bf : R; ts_defect_a : R; ts_rho : R; ts_plyt : R; ts_prop : list R;
  ts_stack_skin : list R; ts_stack_base : list R; ts_stack_flange : list R; ts_r : option R;
  ts_m : nat; ts_n : nat; ts_mb : nat; ts_nb : nat; ts_mf : nat; ts_nf : nat;
  ts_points : option ((nat * nat) * (nat * nat) * (nat * nat));
  ts_Nskin : R; ts_Nbase : R; ts_Nflange : R; ts_e : bool }.

(* nx and ny as keyword arguments of Shell *)
Definition with_points (p : panel) (o : option (nat * nat)) : panel :=
  match o with
  | None => p
  | Some (nx, ny) =>
    mkPanel (pn_sh p) (pn_r p) (pn_model p) nx ny (pn_stack p) (pn_plyt p) (pn_plyts p)
      (pn_laminaprop p) (pn_laminaprops p) (pn_rho p) (pn_rhos p) (pn_offset p) (pn_ortho p) (pn_lam p) (pn_ABD p)
      (pn_size p) (pn_N p) (pn_N_cte p) (pn_flow_x p) (pn_beta p) (pn_gamma p) (pn_rho_air p) (pn_Mach p) (pn_V p)
      (pn_kC p) (pn_kG p) (pn_kT p) (pn_kM p) (pn_kA p)
  end.

(* compression.py:159-304, freq.py:91-233, flutter.py: the boundary flags of the panel number i (from 1).
   Written by tools/gen_tstiff.py, which also checks that the three files agree; the flag x1u of the
   loaded edge is e. *)
Definition ts_flags (free : bool) (i : nat) (p : panel) : panel :=
  let e := if free then 1 else 0 in
  match i with
  | 1%nat => with_edges p (mkEdge 1 1 0 1) (mkEdge 1 1 0 1) (mkEdge 1 1 0 1) (mkEdge 1 1 1 1) (mkEdge 1 1 0 1) (mkEdge 1 1 0 1)
  | 2%nat => with_edges p (mkEdge 1 1 0 1) (mkEdge 1 1 0 1) (mkEdge 1 1 0 1) (mkEdge 1 1 1 1) (mkEdge 1 1 1 1) (mkEdge 1 1 1 1)
  | 3%nat => with_edges p (mkEdge 1 1 0 1) (mkEdge 1 1 0 1) (mkEdge 1 1 0 1) (mkEdge 1 1 1 1) (mkEdge 0 1 1 1) (mkEdge 0 1 1 1)
  | 4%nat => with_edges p (mkEdge 1 1 1 1) (mkEdge 1 1 1 1) (mkEdge 1 1 1 1) (mkEdge 1 1 1 1) (mkEdge 1 1 0 1) (mkEdge 1 1 0 1)
  | 5%nat => with_edges p (mkEdge 1 1 1 1) (mkEdge 1 1 1 1) (mkEdge 1 1 1 1) (mkEdge 1 1 1 1) (mkEdge 1 1 1 1) (mkEdge 1 1 1 1)
  | 6%nat => with_edges p (mkEdge 1 1 1 1) (mkEdge 1 1 1 1) (mkEdge 1 1 1 1) (mkEdge 1 1 1 1) (mkEdge 0 1 1 1) (mkEdge 0 1 1 1)
  | 7%nat => with_edges p (mkEdge e 1 1 1) (mkEdge 0 1 1 1) (mkEdge 0 1 1 1) (mkEdge 1 1 1 1) (mkEdge 1 1 0 1) (mkEdge 1 1 0 1)
  | 8%nat => with_edges p (mkEdge e 1 1 1) (mkEdge 0 1 1 1) (mkEdge 0 1 1 1) (mkEdge 1 1 1 1) (mkEdge 1 1 1 1) (mkEdge 1 1 1 1)
  | 9%nat => with_edges p (mkEdge e 1 1 1) (mkEdge 0 1 1 1) (mkEdge 0 1 1 1) (mkEdge 1 1 1 1) (mkEdge 0 1 1 1) (mkEdge 0 1 1 1)
  | 10%nat => with_edges p (mkEdge 1 1 1 1) (mkEdge 1 1 1 1) (mkEdge 1 1 1 1) (mkEdge 1 1 1 1) (mkEdge 1 1 1 1) (mkEdge 1 1 1 1)
  | 11%nat => with_edges p (mkEdge 1 1 0 1) (mkEdge 1 1 0 1) (mkEdge 1 1 0 1) (mkEdge 1 1 1 1) (mkEdge 1 1 1 1) (mkEdge 1 1 1 1)
  | 12%nat => with_edges p (mkEdge 1 1 1 1) (mkEdge 1 1 1 1) (mkEdge 1 1 1 1) (mkEdge 1 1 1 1) (mkEdge 1 1 1 1) (mkEdge 1 1 1 1)
  | 13%nat => with_edges p (mkEdge 1 1 1 1) (mkEdge 1 1 1 1) (mkEdge 1 1 1 1) (mkEdge 1 1 1 1) (mkEdge 1 1 1 1) (mkEdge 1 1 1 1)
  | 14%nat => with_edges p (mkEdge 1 1 1 1) (mkEdge 1 1 1 1) (mkEdge 1 1 1 1) (mkEdge 1 1 1 1) (mkEdge 1 1 1 1) (mkEdge 1 1 1 1)
  | 15%nat => with_edges p (mkEdge e 1 1 1) (mkEdge 0 1 1 1) (mkEdge 0 1 1 1) (mkEdge 1 1 1 1) (mkEdge 1 1 1 1) (mkEdge 1 1 1 1)
  | _ => p
  end.

Section TStiff.
Variable D : tstiff.
Notation a := (ts_a D). Notation b := (ts_b D). Notation ys := (ts_ys D). Notation bb := (ts_bb D). Notation bf := (ts_bf D).
(* compression.py:113-119 *)
Definition has_defect : bool := if Rlt_dec 0 (ts_defect_a D * a) then true else false.
Definition defect : R := if Req_EM_T (ts_defect_a D * a) 0 then 33 / 100 * a else ts_defect_a D * a.
Definition aup : R := (a - defect) / 2.
Definition alow : R := (a - defect) / 2.
Definition bleft : R := b - ys - bb / 2.
Definition bright : R := ys - bb / 2.

(* Shell(group=..., Nxx=..., x0=..., y0=..., a=..., b=..., ...) followed by the flags; groups: 0 skin,
   1 base, 2 flange *)
Definition skin (i : nat) (x0 y0 len wid : R) : placed :=
  mkPlaced (ts_flags (ts_e D) i (with_Nxx (with_points (new_shell len wid (ts_r D) (ts_stack_skin D) (Some (ts_plyt D)) (ts_prop D) (ts_rho D) (ts_m D) (ts_n D) 0)
    (option_map (fun t => fst (fst t)) (ts_points D))) (ts_Nskin D))) 0 x0 y0.
Definition tbase (i : nat) (x0 y0 len wid : R) : placed :=
  mkPlaced (ts_flags (ts_e D) i (with_Nxx (with_points (new_shell len wid (ts_r D) (ts_stack_base D) (Some (ts_plyt D)) (ts_prop D) (ts_rho D) (ts_mb D) (ts_nb D) 0)
    (option_map (fun t => snd (fst t)) (ts_points D))) (ts_Nbase D))) 1 x0 y0.
(* the flange is flat: r is not given *)
Definition tflange (i : nat) (x0 y0 len wid : R) : placed :=
  mkPlaced (ts_flags (ts_e D) i (with_Nxx (with_points (new_shell len wid None (ts_stack_flange D) (Some (ts_plyt D)) (ts_prop D) (ts_rho D) (ts_mf D) (ts_nf D) 0)
    (option_map (fun t => snd t) (ts_points D))) (ts_Nflange D))) 2 x0 y0.
(* compression.py:133-156, the list panels at :307-308 *)
Definition ts_panels : list placed :=
  [ skin 1 (alow + defect) (ys + bb / 2) aup bleft; skin 2 (alow + defect) (ys - bb / 2) aup bb; skin 3 (alow + defect) 0 aup bright;
    skin 4 alow (ys + bb / 2) defect bleft;         skin 5 alow (ys - bb / 2) defect bb;         skin 6 alow 0 defect bright;
    skin 7 0 (ys + bb / 2) alow bleft;              skin 8 0 (ys - bb / 2) alow bb;              skin 9 0 0 alow bright;
    tbase 10 (alow + defect) (ys - bb / 2) aup bb;  tflange 11 (alow + defect) 0 aup bf;
    tbase 12 alow (ys - bb / 2) defect bb;          tflange 13 alow 0 defect bf;
    tbase 14 0 (ys - bb / 2) alow bb;               tflange 15 0 0 alow bf ].

(* compression.py:274-305. k is the place of p01 in the store; the flag tells which dictionary has the
   key has_defect *)
Section Conns.
Variable k : nat.
Let p (i : nat) : nat := (k + (i - 1))%nat.
Definition ssy (i j : nat) (y2 : R) : bool * conn := (false, mkConn (p i) (p j) SSycte None None (Some 0) (Some y2) None).
Definition ssx (i j : nat) (x2 : R) : bool * conn := (false, mkConn (p i) (p j) SSxcte (Some 0) (Some x2) None None None).
Definition sb (f : bool) (i j : nat) : bool * conn := (f, mkConn (p i) (p j) SB None None None None None).
Definition bfy (i j : nat) (y1 : R) : bool * conn := (false, mkConn (p i) (p j) BFycte None None (Some y1) (Some 0) None).
Definition ts_conns : list (bool * conn) :=
  [ ssy 1 2 bb; ssx 1 4 defect; ssy 2 3 bright; ssx 2 5 defect; ssx 3 6 defect; ssy 4 5 bb; ssx 4 7 alow;
    ssy 5 6 bright; ssx 5 8 alow; ssx 6 9 alow; ssy 7 8 bb; ssy 8 9 bright;
    sb false 2 10; sb true 5 12; sb false 8 14;
    ssx 10 12 defect; ssx 12 14 alow;
    bfy 10 11 (bb / 2); bfy 12 13 (bb / 2); bfy 14 15 (bb / 2);
    ssx 11 13 defect; ssx 13 15 alow ].
(* compression.py:314-318: connections whose has_defect is true are left out *)
Definition valid_conns : list conn := map snd (filter (fun fc => negb (fst fc && has_defect)) ts_conns).
End Conns.

(* up to the call of calc_kC: the panels at the places k, ..., k + 14, the connections at the place q *)
Definition create_tstiff (k q : nat) (w : world) : world * assembly :=
  let '(w2, s) := new_assembly (seq k 15) None (store k ts_panels w) in
  (put_conn w2 q (valid_conns k), s).

(* compression.py:322-326 with run_static_case: the load on the edge x = 0, read from the panel itself
   in the same pass of the loop, and its load vector in the slice of the panel. *)
Definition put_slice (o : nat) (l : list R) (f : nat -> R) : nat -> R :=
  fun i => if ((o <=? i) && (i <? o + length l))%nat%bool then nth (i - o) l 0 else f i.
Fixpoint load_edges (E : env) (Bv : basis) (ids : list nat) (w : world) (f : nat -> R) : world * res (nat -> R) :=
  match ids with
  | [] => (w, Ok f)
  | i :: ids' =>
    let o := edge_load 0 (fun _ => Nxx_of (xp (w_panel w i))) (w_panel w i) in
    let w1 := put_panel w i o in
    match calc_fext E Bv (xp_loads o) 1 SNone 0 (xp o) with
    | (p', Err e) => (put_panel w1 i (with_panel o p'), Err e)
    | (p', Ok l) => load_edges E Bv ids' (put_panel w1 i (with_panel o p')) (put_slice (default 0%nat (xp_start o)) l f)
    end
  end.
Definition loaded (k : nat) : list nat := map (fun i => (k + (i - 1))%nat) [7; 8; 9; 14; 15]%nat.
(* the vector given to static, -fext *)
Definition tstiff_load (E : env) (Bs Bv : basis) (k q : nat) (w : world) : res (nat -> R) :=
  let '(w1, s) := create_tstiff k q w in
  match asm_kC E Bs (Some q) None true w1 s with
  | (_, _, Err e) => Err e
  | (w2, _, Ok _) => match load_edges E Bv (loaded k) w2 (fun _ => 0) with
                     | (_, Err e) => Err e
                     | (_, Ok f) => Ok (fun i => - f i)
                     end
  end.
End TStiff.
