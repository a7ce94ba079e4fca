(* GENERATED by tools/gen_kernels.py: expressions transcribed from the cited .pyx lines.
   Decimals are written as fractions; double arithmetic is modelled by real arithmetic. *)
From Coq Require Import Reals List.
From Verif Require Import Base_Sum Model_Types Model_Coo.
Import ListNotations.
Open Scope R_scope.

(* /repo/panels/multidomain/connections/kCSSycte.pyx:30-140, loop nest ikjl, innermost block; triplets at lines 128, 132, 136 *)
Definition fkCSSycte11_ker (T : tables) (Bs : basis) (kt kr : R) (p1 : shell) (ycte1 : R) (i1 k1 j1 l1 : nat) : block :=
  let a1 := sh_a p1 in
  let b1 := sh_b p1 in
  let etacte1 := 2*ycte1/b1 - 1 in
  let f1Auf1Bu := t_ff T i1 k1 (sh_xu p1) (sh_xu p1) in
  let f1Avf1Bv := t_ff T i1 k1 (sh_xv p1) (sh_xv p1) in
  let f1Awf1Bw := t_ff T i1 k1 (sh_xw p1) (sh_xw p1) in
  let g1Au := bf Bs j1 etacte1 (sh_yu p1) in
  let g1Av := bf Bs j1 etacte1 (sh_yv p1) in
  let g1Aw := bf Bs j1 etacte1 (sh_yw p1) in
  let g1Aweta := bfp Bs j1 etacte1 (sh_yw p1) in
  let g1Bu := bf Bs l1 etacte1 (sh_yu p1) in
  let g1Bv := bf Bs l1 etacte1 (sh_yv p1) in
  let g1Bw := bf Bs l1 etacte1 (sh_yw p1) in
  let g1Bweta := bfp Bs l1 etacte1 (sh_yw p1) in
  [ (0%nat, 0%nat, (1/2)*a1*f1Auf1Bu*g1Au*g1Bu*kt);
    (1%nat, 1%nat, (1/2)*a1*f1Avf1Bv*g1Av*g1Bv*kt);
    (2%nat, 2%nat, (1/2)*a1*kt*(f1Awf1Bw*g1Aw*g1Bw + 4*f1Awf1Bw*g1Aweta*g1Bweta*kr/((b1*b1)*kt))) ].

Definition fkCSSycte11 (T : tables) (Bs : basis) (kt kr : R) (p1 : shell) (ycte1 : R) (row0 col0 : nat) : coo :=
  loop_ikjl true row0 col0 (sh_m p1) (sh_n p1) (sh_m p1) (sh_n p1) (fkCSSycte11_ker T Bs kt kr p1 ycte1).

(* /repo/panels/multidomain/connections/kCSSycte.pyx:143-272, loop nest ikjl, innermost block; triplets at lines 260, 264, 268 *)
Definition fkCSSycte12_ker (T : tables) (Bs : basis) (kt kr : R) (p1 p2 : shell) (ycte1 ycte2 : R) (i1 k2 j1 l2 : nat) : block :=
  let a1 := sh_a p1 in
  let b1 := sh_b p1 in
  let b2 := sh_b p2 in
  let etacte1 := 2*ycte1/b1 - 1 in
  let etacte2 := 2*ycte2/b2 - 1 in
  let f1Auf2Bu := t_ff T i1 k2 (sh_xu p1) (sh_xu p2) in
  let f1Avf2Bv := t_ff T i1 k2 (sh_xv p1) (sh_xv p2) in
  let f1Awf2Bw := t_ff T i1 k2 (sh_xw p1) (sh_xw p2) in
  let g1Au := bf Bs j1 etacte1 (sh_yu p1) in
  let g1Av := bf Bs j1 etacte1 (sh_yv p1) in
  let g1Aw := bf Bs j1 etacte1 (sh_yw p1) in
  let g1Aweta := bfp Bs j1 etacte1 (sh_yw p1) in
  let g2Bu := bf Bs l2 etacte2 (sh_yu p2) in
  let g2Bv := bf Bs l2 etacte2 (sh_yv p2) in
  let g2Bw := bf Bs l2 etacte2 (sh_yw p2) in
  let g2Bweta := bfp Bs l2 etacte2 (sh_yw p2) in
  [ (0%nat, 0%nat, -(1/2)*a1*f1Auf2Bu*g1Au*g2Bu*kt);
    (1%nat, 1%nat, -(1/2)*a1*f1Avf2Bv*g1Av*g2Bv*kt);
    (2%nat, 2%nat, -(1/2)*a1*kt*(f1Awf2Bw*g1Aw*g2Bw + 4*f1Awf2Bw*g1Aweta*g2Bweta*kr/(b1*b2*kt))) ].

Definition fkCSSycte12 (T : tables) (Bs : basis) (kt kr : R) (p1 p2 : shell) (ycte1 ycte2 : R) (row0 col0 : nat) : coo :=
  loop_ikjl false row0 col0 (sh_m p1) (sh_n p1) (sh_m p2) (sh_n p2) (fkCSSycte12_ker T Bs kt kr p1 p2 ycte1 ycte2).

(* /repo/panels/multidomain/connections/kCSSycte.pyx:275-388, loop nest ikjl, innermost block; triplets at lines 376, 380, 384 *)
Definition fkCSSycte22_ker (T : tables) (Bs : basis) (kt kr : R) (p1 p2 : shell) (ycte2 : R) (i2 k2 j2 l2 : nat) : block :=
  let a1 := sh_a p1 in
  let b2 := sh_b p2 in
  let etacte2 := 2*ycte2/b2 - 1 in
  let f2Auf2Bu := t_ff T i2 k2 (sh_xu p2) (sh_xu p2) in
  let f2Avf2Bv := t_ff T i2 k2 (sh_xv p2) (sh_xv p2) in
  let f2Awf2Bw := t_ff T i2 k2 (sh_xw p2) (sh_xw p2) in
  let g2Au := bf Bs j2 etacte2 (sh_yu p2) in
  let g2Av := bf Bs j2 etacte2 (sh_yv p2) in
  let g2Aw := bf Bs j2 etacte2 (sh_yw p2) in
  let g2Aweta := bfp Bs j2 etacte2 (sh_yw p2) in
  let g2Bu := bf Bs l2 etacte2 (sh_yu p2) in
  let g2Bv := bf Bs l2 etacte2 (sh_yv p2) in
  let g2Bw := bf Bs l2 etacte2 (sh_yw p2) in
  let g2Bweta := bfp Bs l2 etacte2 (sh_yw p2) in
  [ (0%nat, 0%nat, (1/2)*a1*f2Auf2Bu*g2Au*g2Bu*kt);
    (1%nat, 1%nat, (1/2)*a1*f2Avf2Bv*g2Av*g2Bv*kt);
    (2%nat, 2%nat, (1/2)*a1*kt*(f2Awf2Bw*g2Aw*g2Bw + 4*f2Awf2Bw*g2Aweta*g2Bweta*kr/((b2*b2)*kt))) ].

Definition fkCSSycte22 (T : tables) (Bs : basis) (kt kr : R) (p1 p2 : shell) (ycte2 : R) (row0 col0 : nat) : coo :=
  loop_ikjl true row0 col0 (sh_m p2) (sh_n p2) (sh_m p2) (sh_n p2) (fkCSSycte22_ker T Bs kt kr p1 p2 ycte2).

(* /repo/panels/multidomain/connections/kCSSxcte.pyx:28-137, loop nest jlik, innermost block; triplets at lines 125, 129, 133 *)
Definition fkCSSxcte11_ker (T : tables) (Bs : basis) (kt kr : R) (p1 : shell) (xcte1 : R) (i1 k1 j1 l1 : nat) : block :=
  let a1 := sh_a p1 in
  let b1 := sh_b p1 in
  let xicte1 := 2*xcte1/a1 - 1 in
  let g1Aug1Bu := t_ff T j1 l1 (sh_yu p1) (sh_yu p1) in
  let g1Avg1Bv := t_ff T j1 l1 (sh_yv p1) (sh_yv p1) in
  let g1Awg1Bw := t_ff T j1 l1 (sh_yw p1) (sh_yw p1) in
  let f1Au := bf Bs i1 xicte1 (sh_xu p1) in
  let f1Av := bf Bs i1 xicte1 (sh_xv p1) in
  let f1Aw := bf Bs i1 xicte1 (sh_xw p1) in
  let f1Awxi := bfp Bs i1 xicte1 (sh_xw p1) in
  let f1Bu := bf Bs k1 xicte1 (sh_xu p1) in
  let f1Bv := bf Bs k1 xicte1 (sh_xv p1) in
  let f1Bw := bf Bs k1 xicte1 (sh_xw p1) in
  let f1Bwxi := bfp Bs k1 xicte1 (sh_xw p1) in
  [ (0%nat, 0%nat, (1/2)*b1*f1Au*f1Bu*g1Aug1Bu*kt);
    (1%nat, 1%nat, (1/2)*b1*f1Av*f1Bv*g1Avg1Bv*kt);
    (2%nat, 2%nat, (1/2)*b1*kt*(f1Aw*f1Bw*g1Awg1Bw + 4*f1Awxi*f1Bwxi*g1Awg1Bw*kr/((a1*a1)*kt))) ].

Definition fkCSSxcte11 (T : tables) (Bs : basis) (kt kr : R) (p1 : shell) (xcte1 : R) (row0 col0 : nat) : coo :=
  loop_jlik true row0 col0 (sh_m p1) (sh_n p1) (sh_m p1) (sh_n p1) (fkCSSxcte11_ker T Bs kt kr p1 xcte1).

(* /repo/panels/multidomain/connections/kCSSxcte.pyx:140-268, loop nest jlik, innermost block; triplets at lines 256, 260, 264 *)
Definition fkCSSxcte12_ker (T : tables) (Bs : basis) (kt kr : R) (p1 p2 : shell) (xcte1 xcte2 : R) (i1 k2 j1 l2 : nat) : block :=
  let a1 := sh_a p1 in
  let b1 := sh_b p1 in
  let a2 := sh_a p2 in
  let xicte1 := 2*xcte1/a1 - 1 in
  let xicte2 := 2*xcte2/a2 - 1 in
  let g1Aug2Bu := t_ff T j1 l2 (sh_yu p1) (sh_yu p2) in
  let g1Avg2Bv := t_ff T j1 l2 (sh_yv p1) (sh_yv p2) in
  let g1Awg2Bw := t_ff T j1 l2 (sh_yw p1) (sh_yw p2) in
  let f1Au := bf Bs i1 xicte1 (sh_xu p1) in
  let f1Av := bf Bs i1 xicte1 (sh_xv p1) in
  let f1Aw := bf Bs i1 xicte1 (sh_xw p1) in
  let f1Awxi := bfp Bs i1 xicte1 (sh_xw p1) in
  let f2Bu := bf Bs k2 xicte2 (sh_xu p2) in
  let f2Bv := bf Bs k2 xicte2 (sh_xv p2) in
  let f2Bw := bf Bs k2 xicte2 (sh_xw p2) in
  let f2Bwxi := bfp Bs k2 xicte2 (sh_xw p2) in
  [ (0%nat, 0%nat, -(1/2)*b1*f1Au*f2Bu*g1Aug2Bu*kt);
    (1%nat, 1%nat, -(1/2)*b1*f1Av*f2Bv*g1Avg2Bv*kt);
    (2%nat, 2%nat, -(1/2)*b1*kt*(f1Aw*f2Bw*g1Awg2Bw + 4*f1Awxi*f2Bwxi*g1Awg2Bw*kr/(a1*a2*kt))) ].

Definition fkCSSxcte12 (T : tables) (Bs : basis) (kt kr : R) (p1 p2 : shell) (xcte1 xcte2 : R) (row0 col0 : nat) : coo :=
  loop_jlik false row0 col0 (sh_m p1) (sh_n p1) (sh_m p2) (sh_n p2) (fkCSSxcte12_ker T Bs kt kr p1 p2 xcte1 xcte2).

(* /repo/panels/multidomain/connections/kCSSxcte.pyx:271-384, loop nest jlik, innermost block; triplets at lines 372, 376, 380 *)
Definition fkCSSxcte22_ker (T : tables) (Bs : basis) (kt kr : R) (p1 p2 : shell) (xcte2 : R) (i2 k2 j2 l2 : nat) : block :=
  let b1 := sh_b p1 in
  let a2 := sh_a p2 in
  let xicte2 := 2*xcte2/a2 - 1 in
  let g2Aug2Bu := t_ff T j2 l2 (sh_yu p2) (sh_yu p2) in
  let g2Avg2Bv := t_ff T j2 l2 (sh_yv p2) (sh_yv p2) in
  let g2Awg2Bw := t_ff T j2 l2 (sh_yw p2) (sh_yw p2) in
  let f2Au := bf Bs i2 xicte2 (sh_xu p2) in
  let f2Av := bf Bs i2 xicte2 (sh_xv p2) in
  let f2Aw := bf Bs i2 xicte2 (sh_xw p2) in
  let f2Awxi := bfp Bs i2 xicte2 (sh_xw p2) in
  let f2Bu := bf Bs k2 xicte2 (sh_xu p2) in
  let f2Bv := bf Bs k2 xicte2 (sh_xv p2) in
  let f2Bw := bf Bs k2 xicte2 (sh_xw p2) in
  let f2Bwxi := bfp Bs k2 xicte2 (sh_xw p2) in
  [ (0%nat, 0%nat, (1/2)*b1*f2Au*f2Bu*g2Aug2Bu*kt);
    (1%nat, 1%nat, (1/2)*b1*f2Av*f2Bv*g2Avg2Bv*kt);
    (2%nat, 2%nat, (1/2)*b1*kt*(f2Aw*f2Bw*g2Awg2Bw + 4*f2Awxi*f2Bwxi*g2Awg2Bw*kr/((a2*a2)*kt))) ].

Definition fkCSSxcte22 (T : tables) (Bs : basis) (kt kr : R) (p1 p2 : shell) (xcte2 : R) (row0 col0 : nat) : coo :=
  loop_jlik true row0 col0 (sh_m p2) (sh_n p2) (sh_m p2) (sh_n p2) (fkCSSxcte22_ker T Bs kt kr p1 p2 xcte2).

(* /repo/panels/multidomain/connections/kCBFycte.pyx:25-134, loop nest ikjl, innermost block; triplets at lines 122, 126, 130 *)
Definition fkCBFycte11_ker (T : tables) (Bs : basis) (kt kr : R) (p1 : shell) (ycte1 : R) (i1 k1 j1 l1 : nat) : block :=
  let a1 := sh_a p1 in
  let b1 := sh_b p1 in
  let etacte1 := 2*ycte1/b1 - 1 in
  let f1Auf1Bu := t_ff T i1 k1 (sh_xu p1) (sh_xu p1) in
  let f1Avf1Bv := t_ff T i1 k1 (sh_xv p1) (sh_xv p1) in
  let f1Awf1Bw := t_ff T i1 k1 (sh_xw p1) (sh_xw p1) in
  let g1Au := bf Bs j1 etacte1 (sh_yu p1) in
  let g1Av := bf Bs j1 etacte1 (sh_yv p1) in
  let g1Aw := bf Bs j1 etacte1 (sh_yw p1) in
  let g1Aweta := bfp Bs j1 etacte1 (sh_yw p1) in
  let g1Bu := bf Bs l1 etacte1 (sh_yu p1) in
  let g1Bv := bf Bs l1 etacte1 (sh_yv p1) in
  let g1Bw := bf Bs l1 etacte1 (sh_yw p1) in
  let g1Bweta := bfp Bs l1 etacte1 (sh_yw p1) in
  [ (0%nat, 0%nat, (1/2)*a1*f1Auf1Bu*g1Au*g1Bu*kt);
    (1%nat, 1%nat, (1/2)*a1*f1Avf1Bv*g1Av*g1Bv*kt);
    (2%nat, 2%nat, (1/2)*a1*kt*(f1Awf1Bw*g1Aw*g1Bw + 4*f1Awf1Bw*g1Aweta*g1Bweta*kr/((b1*b1)*kt))) ].

Definition fkCBFycte11 (T : tables) (Bs : basis) (kt kr : R) (p1 : shell) (ycte1 : R) (row0 col0 : nat) : coo :=
  loop_ikjl true row0 col0 (sh_m p1) (sh_n p1) (sh_m p1) (sh_n p1) (fkCBFycte11_ker T Bs kt kr p1 ycte1).

(* /repo/panels/multidomain/connections/kCBFycte.pyx:137-269, loop nest ikjl, innermost block; triplets at lines 253, 257, 261, 265 *)
Definition fkCBFycte12_ker (T : tables) (Bs : basis) (kt kr : R) (p1 p2 : shell) (ycte1 ycte2 : R) (i1 k2 j1 l2 : nat) : block :=
  let a1 := sh_a p1 in
  let b1 := sh_b p1 in
  let b2 := sh_b p2 in
  let etacte1 := 2*ycte1/b1 - 1 in
  let etacte2 := 2*ycte2/b2 - 1 in
  let f1Auf2Bu := t_ff T i1 k2 (sh_xu p1) (sh_xu p2) in
  let f1Avf2Bw := t_ff T i1 k2 (sh_xv p1) (sh_xw p2) in
  let f1Awf2Bv := t_ff T i1 k2 (sh_xw p1) (sh_xv p2) in
  let f1Awf2Bw := t_ff T i1 k2 (sh_xw p1) (sh_xw p2) in
  let g1Au := bf Bs j1 etacte1 (sh_yu p1) in
  let g1Av := bf Bs j1 etacte1 (sh_yv p1) in
  let g1Aw := bf Bs j1 etacte1 (sh_yw p1) in
  let g1Aweta := bfp Bs j1 etacte1 (sh_yw p1) in
  let g2Bu := bf Bs l2 etacte2 (sh_yu p2) in
  let g2Bv := bf Bs l2 etacte2 (sh_yv p2) in
  let g2Bw := bf Bs l2 etacte2 (sh_yw p2) in
  let g2Bweta := bfp Bs l2 etacte2 (sh_yw p2) in
  [ (0%nat, 0%nat, -(1/2)*a1*f1Auf2Bu*g1Au*g2Bu*kt);
    (1%nat, 2%nat, -(1/2)*a1*f1Avf2Bw*g1Av*g2Bw*kt);
    (2%nat, 1%nat, (1/2)*a1*f1Awf2Bv*g1Aw*g2Bv*kt);
    (2%nat, 2%nat, -2*a1*f1Awf2Bw*g1Aweta*g2Bweta*kr/(b1*b2)) ].

Definition fkCBFycte12 (T : tables) (Bs : basis) (kt kr : R) (p1 p2 : shell) (ycte1 ycte2 : R) (row0 col0 : nat) : coo :=
  loop_ikjl false row0 col0 (sh_m p1) (sh_n p1) (sh_m p2) (sh_n p2) (fkCBFycte12_ker T Bs kt kr p1 p2 ycte1 ycte2).

(* /repo/panels/multidomain/connections/kCBFycte.pyx:272-383, loop nest ikjl, innermost block; triplets at lines 371, 375, 379 *)
Definition fkCBFycte22_ker (T : tables) (Bs : basis) (kt kr : R) (p1 p2 : shell) (ycte2 : R) (i2 k2 j2 l2 : nat) : block :=
  let a1 := sh_a p1 in
  let b2 := sh_b p2 in
  let etacte2 := 2*ycte2/b2 - 1 in
  let f2Auf2Bu := t_ff T i2 k2 (sh_xu p2) (sh_xu p2) in
  let f2Avf2Bv := t_ff T i2 k2 (sh_xv p2) (sh_xv p2) in
  let f2Awf2Bw := t_ff T i2 k2 (sh_xw p2) (sh_xw p2) in
  let g2Au := bf Bs j2 etacte2 (sh_yu p2) in
  let g2Av := bf Bs j2 etacte2 (sh_yv p2) in
  let g2Aw := bf Bs j2 etacte2 (sh_yw p2) in
  let g2Aweta := bfp Bs j2 etacte2 (sh_yw p2) in
  let g2Bu := bf Bs l2 etacte2 (sh_yu p2) in
  let g2Bv := bf Bs l2 etacte2 (sh_yv p2) in
  let g2Bw := bf Bs l2 etacte2 (sh_yw p2) in
  let g2Bweta := bfp Bs l2 etacte2 (sh_yw p2) in
  [ (0%nat, 0%nat, (1/2)*a1*f2Auf2Bu*g2Au*g2Bu*kt);
    (1%nat, 1%nat, (1/2)*a1*f2Avf2Bv*g2Av*g2Bv*kt);
    (2%nat, 2%nat, (1/2)*a1*kt*(f2Awf2Bw*g2Aw*g2Bw + 4*f2Awf2Bw*g2Aweta*g2Bweta*kr/((b2*b2)*kt))) ].

Definition fkCBFycte22 (T : tables) (Bs : basis) (kt kr : R) (p1 p2 : shell) (ycte2 : R) (row0 col0 : nat) : coo :=
  loop_ikjl true row0 col0 (sh_m p2) (sh_n p2) (sh_m p2) (sh_n p2) (fkCBFycte22_ker T Bs kt kr p1 p2 ycte2).

(* /repo/panels/multidomain/connections/kCBFxcte.pyx:26-135, loop nest jlik, innermost block; triplets at lines 123, 127, 131 *)
Definition fkCBFxcte11_ker (T : tables) (Bs : basis) (kt kr : R) (p1 : shell) (xcte1 : R) (i1 k1 j1 l1 : nat) : block :=
  let a1 := sh_a p1 in
  let b1 := sh_b p1 in
  let xicte1 := 2*xcte1/a1 - 1 in
  let g1Auf1Bu := t_ff T j1 l1 (sh_yu p1) (sh_yu p1) in
  let g1Avf1Bv := t_ff T j1 l1 (sh_yv p1) (sh_yv p1) in
  let g1Awf1Bw := t_ff T j1 l1 (sh_yw p1) (sh_yw p1) in
  let f1Au := bf Bs i1 xicte1 (sh_xu p1) in
  let f1Av := bf Bs i1 xicte1 (sh_xv p1) in
  let f1Aw := bf Bs i1 xicte1 (sh_xw p1) in
  let f1Awxi := bfp Bs i1 xicte1 (sh_xw p1) in
  let f1Bu := bf Bs k1 xicte1 (sh_xu p1) in
  let f1Bv := bf Bs k1 xicte1 (sh_xv p1) in
  let f1Bw := bf Bs k1 xicte1 (sh_xw p1) in
  let f1Bwxi := bfp Bs k1 xicte1 (sh_xw p1) in
  [ (0%nat, 0%nat, (1/2)*b1*f1Au*f1Bu*g1Auf1Bu*kt);
    (1%nat, 1%nat, (1/2)*b1*f1Av*f1Bv*g1Avf1Bv*kt);
    (2%nat, 2%nat, (1/2)*b1*kt*(f1Aw*f1Bw*g1Awf1Bw + 4*f1Awxi*f1Bwxi*g1Awf1Bw*kr/((a1*a1)*kt))) ].

Definition fkCBFxcte11 (T : tables) (Bs : basis) (kt kr : R) (p1 : shell) (xcte1 : R) (row0 col0 : nat) : coo :=
  loop_jlik true row0 col0 (sh_m p1) (sh_n p1) (sh_m p1) (sh_n p1) (fkCBFxcte11_ker T Bs kt kr p1 xcte1).

(* /repo/panels/multidomain/connections/kCBFxcte.pyx:138-271, loop nest jlik, innermost block; triplets at lines 255, 259, 263, 267 *)
Definition fkCBFxcte12_ker (T : tables) (Bs : basis) (kt kr : R) (p1 p2 : shell) (xcte1 xcte2 : R) (i1 k2 j1 l2 : nat) : block :=
  let a1 := sh_a p1 in
  let a2 := sh_a p2 in
  let b1 := sh_b p1 in
  let xicte1 := 2*xcte1/a1 - 1 in
  let xicte2 := 2*xcte2/a2 - 1 in
  let g1Auf2Bw := t_ff T j1 l2 (sh_yu p1) (sh_yw p2) in
  let g1Avf2Bv := t_ff T j1 l2 (sh_yv p1) (sh_yv p2) in
  let g1Awf2Bu := t_ff T j1 l2 (sh_yw p1) (sh_yu p2) in
  let g1Awf2Bw := t_ff T j1 l2 (sh_yw p1) (sh_yw p2) in
  let f1Au := bf Bs i1 xicte1 (sh_xu p1) in
  let f1Av := bf Bs i1 xicte1 (sh_xv p1) in
  let f1Aw := bf Bs i1 xicte1 (sh_xw p1) in
  let f1Awxi := bfp Bs i1 xicte1 (sh_xw p1) in
  let f2Bu := bf Bs k2 xicte2 (sh_xu p2) in
  let f2Bv := bf Bs k2 xicte2 (sh_xv p2) in
  let f2Bw := bf Bs k2 xicte2 (sh_xw p2) in
  let f2Bwxi := bfp Bs k2 xicte2 (sh_xw p2) in
  [ (0%nat, 2%nat, -(1/2)*b1*f1Au*f2Bw*g1Auf2Bw*kt);
    (1%nat, 1%nat, -(1/2)*b1*f1Av*f2Bv*g1Avf2Bv*kt);
    (2%nat, 0%nat, (1/2)*b1*f1Aw*f2Bu*g1Awf2Bu*kt);
    (2%nat, 2%nat, -2*b1*f1Awxi*f2Bwxi*g1Awf2Bw*kr/(a1*a2)) ].

Definition fkCBFxcte12 (T : tables) (Bs : basis) (kt kr : R) (p1 p2 : shell) (xcte1 xcte2 : R) (row0 col0 : nat) : coo :=
  loop_jlik false row0 col0 (sh_m p1) (sh_n p1) (sh_m p2) (sh_n p2) (fkCBFxcte12_ker T Bs kt kr p1 p2 xcte1 xcte2).

(* /repo/panels/multidomain/connections/kCBFxcte.pyx:274-384, loop nest jlik, innermost block; triplets at lines 372, 376, 380 *)
Definition fkCBFxcte22_ker (T : tables) (Bs : basis) (kt kr : R) (p1 p2 : shell) (xcte2 : R) (i2 k2 j2 l2 : nat) : block :=
  let b1 := sh_b p1 in
  let a2 := sh_a p2 in
  let xicte2 := 2*xcte2/a2 - 1 in
  let g2Auf2Bu := t_ff T j2 l2 (sh_yu p2) (sh_yu p2) in
  let g2Avf2Bv := t_ff T j2 l2 (sh_yv p2) (sh_yv p2) in
  let g2Awf2Bw := t_ff T j2 l2 (sh_yw p2) (sh_yw p2) in
  let f2Au := bf Bs i2 xicte2 (sh_xu p2) in
  let f2Av := bf Bs i2 xicte2 (sh_xv p2) in
  let f2Aw := bf Bs i2 xicte2 (sh_xw p2) in
  let f2Awxi := bfp Bs i2 xicte2 (sh_xw p2) in
  let f2Bu := bf Bs k2 xicte2 (sh_xu p2) in
  let f2Bv := bf Bs k2 xicte2 (sh_xv p2) in
  let f2Bw := bf Bs k2 xicte2 (sh_xw p2) in
  let f2Bwxi := bfp Bs k2 xicte2 (sh_xw p2) in
  [ (0%nat, 0%nat, (1/2)*b1*f2Au*f2Bu*g2Auf2Bu*kt);
    (1%nat, 1%nat, (1/2)*b1*f2Av*f2Bv*g2Avf2Bv*kt);
    (2%nat, 2%nat, (1/2)*b1*kt*(f2Aw*f2Bw*g2Awf2Bw + 4*f2Awxi*f2Bwxi*g2Awf2Bw*kr/((a2*a2)*kt))) ].

Definition fkCBFxcte22 (T : tables) (Bs : basis) (kt kr : R) (p1 p2 : shell) (xcte2 : R) (row0 col0 : nat) : coo :=
  loop_jlik true row0 col0 (sh_m p2) (sh_n p2) (sh_m p2) (sh_n p2) (fkCBFxcte22_ker T Bs kt kr p1 p2 xcte2).

(* /repo/panels/multidomain/connections/kCSB.pyx:29-158, loop nest ikjl, innermost block; triplets at lines 127, 131, 135, 139, 143, 147, 151 *)
Definition fkCSB11_ker (T : tables) (kt dsb : R) (p1 : shell) (i1 k1 j1 l1 : nat) : block :=
  let a1 := sh_a p1 in
  let b1 := sh_b p1 in
  let f1Auf1Bu := t_ff T i1 k1 (sh_xu p1) (sh_xu p1) in
  let f1Auf1Bwxi := t_ffp T i1 k1 (sh_xu p1) (sh_xw p1) in
  let f1Avf1Bv := t_ff T i1 k1 (sh_xv p1) (sh_xv p1) in
  let f1Avf1Bw := t_ff T i1 k1 (sh_xv p1) (sh_xw p1) in
  let f1Awf1Bv := t_ff T i1 k1 (sh_xw p1) (sh_xv p1) in
  let f1Awf1Bw := t_ff T i1 k1 (sh_xw p1) (sh_xw p1) in
  let f1Awxif1Bu := t_ffp T k1 i1 (sh_xu p1) (sh_xw p1) in
  let f1Awxif1Bwxi := t_fpfp T i1 k1 (sh_xw p1) (sh_xw p1) in
  let g1Aug1Bu := t_ff T j1 l1 (sh_yu p1) (sh_yu p1) in
  let g1Aug1Bw := t_ff T j1 l1 (sh_yu p1) (sh_yw p1) in
  let g1Avg1Bv := t_ff T j1 l1 (sh_yv p1) (sh_yv p1) in
  let g1Avg1Bweta := t_ffp T j1 l1 (sh_yv p1) (sh_yw p1) in
  let g1Awg1Bu := t_ff T j1 l1 (sh_yw p1) (sh_yu p1) in
  let g1Awg1Bw := t_ff T j1 l1 (sh_yw p1) (sh_yw p1) in
  let g1Awetag1Bv := t_ffp T l1 j1 (sh_yv p1) (sh_yw p1) in
  let g1Awetag1Bweta := t_fpfp T j1 l1 (sh_yw p1) (sh_yw p1) in
  [ (0%nat, 0%nat, (1/4)*a1*b1*f1Auf1Bu*g1Aug1Bu*kt);
    (0%nat, 2%nat, (1/2)*b1*dsb*f1Auf1Bwxi*g1Aug1Bw*kt);
    (1%nat, 1%nat, (1/4)*a1*b1*f1Avf1Bv*g1Avg1Bv*kt);
    (1%nat, 2%nat, (1/2)*a1*dsb*f1Avf1Bw*g1Avg1Bweta*kt);
    (2%nat, 0%nat, (1/2)*b1*dsb*f1Awxif1Bu*g1Awg1Bu*kt);
    (2%nat, 1%nat, (1/2)*a1*dsb*f1Awf1Bv*g1Awetag1Bv*kt);
    (2%nat, 2%nat, (1/4)*a1*b1*kt*(f1Awf1Bw*g1Awg1Bw + 4*(dsb*dsb)*f1Awf1Bw*g1Awetag1Bweta/(b1*b1) + 4*(dsb*dsb)*
      f1Awxif1Bwxi*g1Awg1Bw/(a1*a1))) ].

Definition fkCSB11 (T : tables) (kt dsb : R) (p1 : shell) (row0 col0 : nat) : coo :=
  loop_ikjl true row0 col0 (sh_m p1) (sh_n p1) (sh_m p1) (sh_n p1) (fkCSB11_ker T kt dsb p1).

(* /repo/panels/multidomain/connections/kCSB.pyx:159-285, loop nest ikjl, innermost block; triplets at lines 265, 269, 273, 277, 281 *)
Definition fkCSB12_ker (T : tables) (kt dsb : R) (p1 p2 : shell) (i1 k2 j1 l2 : nat) : block :=
  let a1 := sh_a p1 in
  let b1 := sh_b p1 in
  let f1Auf2Bu := t_ff T i1 k2 (sh_xu p1) (sh_xu p2) in
  let f1Avf2Bv := t_ff T i1 k2 (sh_xv p1) (sh_xv p2) in
  let f1Awf2Bw := t_ff T i1 k2 (sh_xw p1) (sh_xw p2) in
  let f1Awxif2Bu := t_ffp T k2 i1 (sh_xu p2) (sh_xw p1) in
  let f1Awf2Bv := t_ff T i1 k2 (sh_xw p1) (sh_xv p2) in
  let g1Aug2Bu := t_ff T j1 l2 (sh_yu p1) (sh_yu p2) in
  let g1Avg2Bv := t_ff T j1 l2 (sh_yv p1) (sh_yv p2) in
  let g1Awg2Bw := t_ff T j1 l2 (sh_yw p1) (sh_yw p2) in
  let g1Awetag2Bv := t_ffp T l2 j1 (sh_yv p2) (sh_yw p1) in
  let g1Awg2Bu := t_ff T j1 l2 (sh_yw p1) (sh_yu p2) in
  [ (0%nat, 0%nat, -(1/4)*a1*b1*f1Auf2Bu*g1Aug2Bu*kt);
    (1%nat, 1%nat, -(1/4)*a1*b1*f1Avf2Bv*g1Avg2Bv*kt);
    (2%nat, 0%nat, -(1/2)*b1*dsb*f1Awxif2Bu*g1Awg2Bu*kt);
    (2%nat, 1%nat, -(1/2)*a1*dsb*f1Awf2Bv*g1Awetag2Bv*kt);
    (2%nat, 2%nat, -(1/4)*a1*b1*f1Awf2Bw*g1Awg2Bw*kt) ].

Definition fkCSB12 (T : tables) (kt dsb : R) (p1 p2 : shell) (row0 col0 : nat) : coo :=
  loop_ikjl false row0 col0 (sh_m p1) (sh_n p1) (sh_m p2) (sh_n p2) (fkCSB12_ker T kt dsb p1 p2).

(* /repo/panels/multidomain/connections/kCSB.pyx:288-387, loop nest ikjl, innermost block; triplets at lines 375, 379, 383 *)
Definition fkCSB22_ker (T : tables) (kt : R) (p1 p2 : shell) (i2 k2 j2 l2 : nat) : block :=
  let a1 := sh_a p1 in
  let b1 := sh_b p1 in
  let f2Auf2Bu := t_ff T i2 k2 (sh_xu p2) (sh_xu p2) in
  let f2Avf2Bv := t_ff T i2 k2 (sh_xv p2) (sh_xv p2) in
  let f2Awf2Bw := t_ff T i2 k2 (sh_xw p2) (sh_xw p2) in
  let g2Aug2Bu := t_ff T j2 l2 (sh_yu p2) (sh_yu p2) in
  let g2Avg2Bv := t_ff T j2 l2 (sh_yv p2) (sh_yv p2) in
  let g2Awg2Bw := t_ff T j2 l2 (sh_yw p2) (sh_yw p2) in
  [ (0%nat, 0%nat, (1/4)*a1*b1*f2Auf2Bu*g2Aug2Bu*kt);
    (1%nat, 1%nat, (1/4)*a1*b1*f2Avf2Bv*g2Avg2Bv*kt);
    (2%nat, 2%nat, (1/4)*a1*b1*f2Awf2Bw*g2Awg2Bw*kt) ].

Definition fkCSB22 (T : tables) (kt : R) (p1 p2 : shell) (row0 col0 : nat) : coo :=
  loop_ikjl true row0 col0 (sh_m p2) (sh_n p2) (sh_m p2) (sh_n p2) (fkCSB22_ker T kt p1 p2).

