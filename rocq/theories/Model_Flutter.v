(* Aerodynamic matrix of the flutter analysis of a T-stiffened panel. Models
   /repo/panels/multidomain/tstiff2d_1stiff_flutter.py:12-15, 136-146, 306, 334-342 and 346. Definitions only. *)
From Coq Require Import Reals List Arith Bool.
From Verif Require Import Base_Sum Model_Types Model_Coo Model_Result Model_Num Model_DB Model_Shell Model_Fext Model_Multi Model_New Model_Cylinder Model_TStiff.
Import ListNotations.
Open Scope R_scope.

(* flutter.py:136-146 the keyword arguments rho_air, Mach, V and flow of the nine skin panels. Set here
   after the panel is made; nothing reads them in between. *)
Definition with_flow (p : panel) (rho_air Mach V : option R) (flow_x : option bool) : panel :=
  mkPanel (pn_sh p) (pn_r p) (pn_model p) (pn_nx p) (pn_ny p) (pn_stack p) (pn_plyt p) (pn_plyts p)
    (pn_laminaprop p) (pn_laminaprops p) (pn_rho p) (pn_rhos p) (pn_offset p) (pn_ortho p) (pn_lam p) (pn_ABD p)
    (pn_size p) (pn_N p) (pn_N_cte p) flow_x (pn_beta p) (pn_gamma p) rho_air Mach V
    (pn_kC p) (pn_kG p) (pn_kT p) (pn_kM p) (pn_kA p).
Fixpoint put_flow (ids : list nat) (rho_air Mach V : option R) (flow_x : option bool) (w : world) : world :=
  match ids with
  | [] => w
  | i :: ids' => put_flow ids' rho_air Mach V flow_x (put_panel w i (with_panel (w_panel w i) (with_flow (xp (w_panel w i)) rho_air Mach V flow_x)))
  end.

(* flutter.py:306 skin = [p01, ..., p09] at the places k, ..., k + 8 *)
Definition skin_ids (k : nat) : list nat := seq k 9.
Definition create_flutter (D : tstiff) (rho_air Mach V : option R) (flow_x : option bool) (k q : nat) (w : world) : world * assembly :=
  let '(w1, s) := create_tstiff D k q w in (put_flow (skin_ids k) rho_air Mach V flow_x w1, s).

(* flutter.py:334-342 `for p in skin: kA += p.calc_kA(size=size, row0=p.row_start, col0=p.col_start,
   silent=True, finalize=False)`, starting at kA = 0 *)
Fixpoint add_kA (E : env) (size : nat) (ids : list nat) (kA : matrix) (w : world) : world * res matrix :=
  match ids with
  | [] => (w, Ok kA)
  | i :: ids' =>
    let x := w_panel w i in let o := default 0%nat (xp_start x) in
    match calc_kA E (SInt size) o o false (xp x) with
    | (p', Err e) => (put_panel w i (with_panel x p'), Err e)
    | (p', Ok K) => add_kA E size ids' (fun r t => kA r t + K r t) (put_panel w i (with_panel x p'))
    end
  end.
(* flutter.py:346 `kA = csr_matrix(make_skew_symmetric(kA))` *)
Definition flutter_kA (E : env) (size k : nat) (w : world) : world * res matrix :=
  match add_kA E size (skin_ids k) (fun _ _ => 0) w with
  | (w', Ok K) => (w', Ok (make_skew K))
  | (w', Err e) => (w', Err e)
  end.
