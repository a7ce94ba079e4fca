(* What the analyses of a T-stiffened panel hand to the eigenvalue solvers. Models
   /repo/panels/multidomain/tstiff2d_1stiff_compression.py:313-345 without the static case and tstiff2d_1stiff_freq.py:285-300.
   Definitions only. *)
From Coq Require Import Reals List.
From Verif Require Import Base_Sum Model_Types Model_Coo Model_Result Model_Num Model_DB Model_Shell Model_Multi Model_New Model_Cylinder Model_TStiff.
Import ListNotations.
Open Scope R_scope.

(* compression.py: k0 = assy.calc_kC(valid_conn), kG = assy.calc_kG(c=None), lb(k0, kG). q is the place of valid_conn. *)
Definition tstiff_lb (D : tstiff) (E : env) (Bs : basis) (k q : nat) (w : world) : res lb_input :=
  let '(w1, s) := create_tstiff D k q w in
  match asm_kC E Bs (Some q) None true w1 s with
  | (_, _, Err e) => Err e
  | (w2, s2, Ok K) => match asm_kG E None true w2 s2 with
                      | (_, _, Err e) => Err e
                      | (_, _, Ok G) => Ok (mkLb K G)
                      end
  end.
(* freq.py: k0 = assy.calc_kC(conn=valid_conn), kM = assy.calc_kM(), freq(k0, kM) *)
Record freq_input := mkFreq { fr_k0 : option matrix; fr_kM : option matrix }.
Definition tstiff_freq (D : tstiff) (E : env) (Bs : basis) (k q : nat) (w : world) : res freq_input :=
  let '(w1, s) := create_tstiff D k q w in
  match asm_kC E Bs (Some q) None true w1 s with
  | (_, _, Err e) => Err e
  | (w2, s2, Ok K) => match asm_kM E true w2 s2 with
                      | (_, _, Err e) => Err e
                      | (_, _, Ok M) => Ok (mkFreq K M)
                      end
  end.
