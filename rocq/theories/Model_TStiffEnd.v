(* The assembly which tstiff2d_1stiff_compression.py returns after its static case. Definitions only. *)
From Coq Require Import Reals List Arith Bool.
From Verif Require Import Base_Sum Model_Types Model_Coo Model_Result Model_Num Model_DB Model_Shell Model_Fext Model_Multi Model_New Model_Cylinder Model_TStiff.
Import ListNotations.
Open Scope R_scope.

(* compression.py:329-330 `for p in panels: p.Nxx = 0.` *)
Definition release (k : nat) (w : world) : world :=
  fold_left (fun w i => on_object (fun o => with_panel o (with_Nxx (xp o) 0)) i w) (seq k 15) w.
(* compression.py:323 `lambda y: p.Nxx`: p is the variable of the driver, read when the function is
   called. After the loops it is the last panel of the list, p15 *)
Definition rebind (f : R -> R) (L : loads) : loads :=
  mkLoads (ld_point L) (ld_point_inc L) (map (fun l => mkDload (dl_x l) (dl_y l) (Some f) (dl_fy l) (dl_fz l)) (ld_distr L)) (ld_distr_inc L)
    (ld_ppd L) (ld_ppd_inc L) (ld_dpd L) (ld_dpd_inc L).
Definition rebound (k : nat) (w : world) : world :=
  fold_left (fun w' i => on_object (fun o => with_loads o (rebind (fun _ => Nxx_of (xp (w_panel w (k + 14)))) (xp_loads o))) i w') (loaded k) w.

Section TStiffEnd.
Variable D : tstiff.
(* compression.py:318-343 with run_static_case: the stiffness, the loads, and the panels and the
   assembly as they are returned. The solution of static and the matrices of calc_kG and lb, which are
   kept on the panels, are not modelled: no load is read from them *)
Definition tstiff_returned (E : env) (Bs Bv : basis) (k q : nat) (w : world) : res (world * assembly) :=
  let '(w1, s) := create_tstiff D k q w in
  match asm_kC E Bs (Some q) None true w1 s with
  | (_, _, Err e) => Err e
  | (w2, s2, Ok _) => match load_edges E Bv (loaded k) w2 (fun _ => 0) with
                      | (_, Err e) => Err e
                      | (w3, Ok _) => Ok (rebound k (release k w3), s2)
                      end
  end.
End TStiffEnd.
