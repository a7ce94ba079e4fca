(* GENERATED by tools/gen_kernels.py: expressions transcribed from the cited .pyx lines.
   Decimals are written as fractions; double arithmetic is modelled by real arithmetic. *)
From Coq Require Import Reals List.
From Verif Require Import Base_Sum Model_Types Model_Coo.
Import ListNotations.
Open Scope R_scope.

(* /repo/panels/models/cylshell_clpt_donnell_bardell.pyx:31-270, loop nest ikjl, innermost block; triplets at lines 234, 238, 242, 246, 250, 254, 258, 262, 266 *)
Definition cyl_fk0_ker (T : tables) (s : shell) (F : nat -> nat -> R) (i k j l : nat) : block :=
  let a := sh_a s in
  let b := sh_b s in
  let r := sh_r s in
  let A11 := F 0%nat 0%nat in
  let A12 := F 0%nat 1%nat in
  let A16 := F 0%nat 2%nat in
  let A22 := F 1%nat 1%nat in
  let A26 := F 1%nat 2%nat in
  let A66 := F 2%nat 2%nat in
  let B11 := F 0%nat 3%nat in
  let B12 := F 0%nat 4%nat in
  let B16 := F 0%nat 5%nat in
  let B22 := F 1%nat 4%nat in
  let B26 := F 1%nat 5%nat in
  let B66 := F 2%nat 5%nat in
  let D11 := F 3%nat 3%nat in
  let D12 := F 3%nat 4%nat in
  let D16 := F 3%nat 5%nat in
  let D22 := F 4%nat 4%nat in
  let D26 := F 4%nat 5%nat in
  let D66 := F 5%nat 5%nat in
  let fAufBu := t_ff T i k (sh_xu s) (sh_xu s) in
  let fAufBuxi := t_ffp T i k (sh_xu s) (sh_xu s) in
  let fAuxifBu := t_ffp T k i (sh_xu s) (sh_xu s) in
  let fAuxifBuxi := t_fpfp T i k (sh_xu s) (sh_xu s) in
  let fAufBv := t_ff T i k (sh_xu s) (sh_xv s) in
  let fAufBvxi := t_ffp T i k (sh_xu s) (sh_xv s) in
  let fAuxifBv := t_ffp T k i (sh_xv s) (sh_xu s) in
  let fAuxifBvxi := t_fpfp T i k (sh_xu s) (sh_xv s) in
  let fAuxifBwxixi := t_fpfpp T i k (sh_xu s) (sh_xw s) in
  let fAuxifBw := t_ffp T k i (sh_xw s) (sh_xu s) in
  let fAufBwxixi := t_ffpp T i k (sh_xu s) (sh_xw s) in
  let fAuxifBwxi := t_fpfp T i k (sh_xu s) (sh_xw s) in
  let fAufBw := t_ff T i k (sh_xu s) (sh_xw s) in
  let fAufBwxi := t_ffp T i k (sh_xu s) (sh_xw s) in
  let fAvfBuxi := t_ffp T i k (sh_xv s) (sh_xu s) in
  let fAvxifBuxi := t_fpfp T i k (sh_xv s) (sh_xu s) in
  let fAvfBu := t_ff T i k (sh_xv s) (sh_xu s) in
  let fAvxifBu := t_ffp T k i (sh_xu s) (sh_xv s) in
  let fAvfBv := t_ff T i k (sh_xv s) (sh_xv s) in
  let fAvfBvxi := t_ffp T i k (sh_xv s) (sh_xv s) in
  let fAvxifBv := t_ffp T k i (sh_xv s) (sh_xv s) in
  let fAvxifBvxi := t_fpfp T i k (sh_xv s) (sh_xv s) in
  let fAvfBwxixi := t_ffpp T i k (sh_xv s) (sh_xw s) in
  let fAvxifBwxixi := t_fpfpp T i k (sh_xv s) (sh_xw s) in
  let fAvfBw := t_ff T i k (sh_xv s) (sh_xw s) in
  let fAvfBwxi := t_ffp T i k (sh_xv s) (sh_xw s) in
  let fAvxifBw := t_ffp T k i (sh_xw s) (sh_xv s) in
  let fAvxifBwxi := t_fpfp T i k (sh_xv s) (sh_xw s) in
  let fAwxixifBuxi := t_fpfpp T k i (sh_xu s) (sh_xw s) in
  let fAwfBuxi := t_ffp T i k (sh_xw s) (sh_xu s) in
  let fAwxifBuxi := t_fpfp T i k (sh_xw s) (sh_xu s) in
  let fAwxixifBu := t_ffpp T k i (sh_xu s) (sh_xw s) in
  let fAwfBu := t_ff T i k (sh_xw s) (sh_xu s) in
  let fAwxifBu := t_ffp T k i (sh_xu s) (sh_xw s) in
  let fAwxixifBv := t_ffpp T k i (sh_xv s) (sh_xw s) in
  let fAwxixifBvxi := t_fpfpp T k i (sh_xv s) (sh_xw s) in
  let fAwfBv := t_ff T i k (sh_xw s) (sh_xv s) in
  let fAwfBvxi := t_ffp T i k (sh_xw s) (sh_xv s) in
  let fAwxifBv := t_ffp T k i (sh_xv s) (sh_xw s) in
  let fAwxifBvxi := t_fpfp T i k (sh_xw s) (sh_xv s) in
  let fAwxixifBwxixi := t_fppfpp T i k (sh_xw s) (sh_xw s) in
  let fAwfBwxixi := t_ffpp T i k (sh_xw s) (sh_xw s) in
  let fAwxixifBw := t_ffpp T k i (sh_xw s) (sh_xw s) in
  let fAwxifBwxixi := t_fpfpp T i k (sh_xw s) (sh_xw s) in
  let fAwxixifBwxi := t_fpfpp T k i (sh_xw s) (sh_xw s) in
  let fAwfBw := t_ff T i k (sh_xw s) (sh_xw s) in
  let fAwfBwxi := t_ffp T i k (sh_xw s) (sh_xw s) in
  let fAwxifBw := t_ffp T k i (sh_xw s) (sh_xw s) in
  let fAwxifBwxi := t_fpfp T i k (sh_xw s) (sh_xw s) in
  let gAugBu := t_ff T j l (sh_yu s) (sh_yu s) in
  let gAugBueta := t_ffp T j l (sh_yu s) (sh_yu s) in
  let gAuetagBu := t_ffp T l j (sh_yu s) (sh_yu s) in
  let gAuetagBueta := t_fpfp T j l (sh_yu s) (sh_yu s) in
  let gAugBv := t_ff T j l (sh_yu s) (sh_yv s) in
  let gAugBveta := t_ffp T j l (sh_yu s) (sh_yv s) in
  let gAuetagBv := t_ffp T l j (sh_yv s) (sh_yu s) in
  let gAuetagBveta := t_fpfp T j l (sh_yu s) (sh_yv s) in
  let gAuetagBwetaeta := t_fpfpp T j l (sh_yu s) (sh_yw s) in
  let gAuetagBw := t_ffp T l j (sh_yw s) (sh_yu s) in
  let gAugBwetaeta := t_ffpp T j l (sh_yu s) (sh_yw s) in
  let gAuetagBweta := t_fpfp T j l (sh_yu s) (sh_yw s) in
  let gAugBw := t_ff T j l (sh_yu s) (sh_yw s) in
  let gAugBweta := t_ffp T j l (sh_yu s) (sh_yw s) in
  let gAvgBueta := t_ffp T j l (sh_yv s) (sh_yu s) in
  let gAvetagBueta := t_fpfp T j l (sh_yv s) (sh_yu s) in
  let gAvgBu := t_ff T j l (sh_yv s) (sh_yu s) in
  let gAvetagBu := t_ffp T l j (sh_yu s) (sh_yv s) in
  let gAvgBv := t_ff T j l (sh_yv s) (sh_yv s) in
  let gAvgBveta := t_ffp T j l (sh_yv s) (sh_yv s) in
  let gAvetagBv := t_ffp T l j (sh_yv s) (sh_yv s) in
  let gAvetagBveta := t_fpfp T j l (sh_yv s) (sh_yv s) in
  let gAvgBwetaeta := t_ffpp T j l (sh_yv s) (sh_yw s) in
  let gAvetagBwetaeta := t_fpfpp T j l (sh_yv s) (sh_yw s) in
  let gAvgBw := t_ff T j l (sh_yv s) (sh_yw s) in
  let gAvgBweta := t_ffp T j l (sh_yv s) (sh_yw s) in
  let gAvetagBw := t_ffp T l j (sh_yw s) (sh_yv s) in
  let gAvetagBweta := t_fpfp T j l (sh_yv s) (sh_yw s) in
  let gAwetaetagBueta := t_fpfpp T l j (sh_yu s) (sh_yw s) in
  let gAwgBueta := t_ffp T j l (sh_yw s) (sh_yu s) in
  let gAwetagBueta := t_fpfp T j l (sh_yw s) (sh_yu s) in
  let gAwetaetagBu := t_ffpp T l j (sh_yu s) (sh_yw s) in
  let gAwgBu := t_ff T j l (sh_yw s) (sh_yu s) in
  let gAwetagBu := t_ffp T l j (sh_yu s) (sh_yw s) in
  let gAwetaetagBv := t_ffpp T l j (sh_yv s) (sh_yw s) in
  let gAwetaetagBveta := t_fpfpp T l j (sh_yv s) (sh_yw s) in
  let gAwgBv := t_ff T j l (sh_yw s) (sh_yv s) in
  let gAwgBveta := t_ffp T j l (sh_yw s) (sh_yv s) in
  let gAwetagBv := t_ffp T l j (sh_yv s) (sh_yw s) in
  let gAwetagBveta := t_fpfp T j l (sh_yw s) (sh_yv s) in
  let gAwetaetagBwetaeta := t_fppfpp T j l (sh_yw s) (sh_yw s) in
  let gAwgBwetaeta := t_ffpp T j l (sh_yw s) (sh_yw s) in
  let gAwetaetagBw := t_ffpp T l j (sh_yw s) (sh_yw s) in
  let gAwetagBwetaeta := t_fpfpp T j l (sh_yw s) (sh_yw s) in
  let gAwetaetagBweta := t_fpfpp T l j (sh_yw s) (sh_yw s) in
  let gAwgBw := t_ff T j l (sh_yw s) (sh_yw s) in
  let gAwgBweta := t_ffp T j l (sh_yw s) (sh_yw s) in
  let gAwetagBw := t_ffp T l j (sh_yw s) (sh_yw s) in
  let gAwetagBweta := t_fpfp T j l (sh_yw s) (sh_yw s) in
  [ (0%nat, 0%nat, A11*b*fAuxifBuxi*gAugBu/a + A16*(fAufBuxi*gAuetagBu + fAuxifBu*gAugBueta) + A66*a*fAufBu*
      gAuetagBueta/b);
    (0%nat, 1%nat, A12*fAuxifBv*gAugBveta + A16*b*fAuxifBvxi*gAugBv/a + A26*a*fAufBv*gAuetagBveta/b + A66*
      fAufBvxi*gAuetagBv);
    (0%nat, 2%nat, (1/2)*A12*b*fAuxifBw*gAugBw/r + (1/2)*A26*a*fAufBw*gAuetagBw/r - 2*B11*b*fAuxifBwxixi*gAugBw/
      (a*a) - 2*B12*fAuxifBw*gAugBwetaeta/b - 2*B16*(fAufBwxixi*gAuetagBw + 2*fAuxifBwxi*gAugBweta)/a - 2*B26*
      a*fAufBw*gAuetagBwetaeta/(b*b) - 4*B66*fAufBwxi*gAuetagBweta/b);
    (1%nat, 0%nat, A12*fAvfBuxi*gAvetagBu + A16*b*fAvxifBuxi*gAvgBu/a + A26*a*fAvfBu*gAvetagBueta/b + A66*
      fAvxifBu*gAvgBueta);
    (1%nat, 1%nat, A22*a*fAvfBv*gAvetagBveta/b + A26*(fAvfBvxi*gAvetagBv + fAvxifBv*gAvgBveta) + A66*b*fAvxifBvxi*
      gAvgBv/a);
    (1%nat, 2%nat, (1/2)*A22*a*fAvfBw*gAvetagBw/r + (1/2)*A26*b*fAvxifBw*gAvgBw/r - 2*B12*fAvfBwxixi*gAvetagBw/a -
       2*B16*b*fAvxifBwxixi*gAvgBw/(a*a) - 2*B22*a*fAvfBw*gAvetagBwetaeta/(b*b) - 2*B26*(2*fAvfBwxi*
      gAvetagBweta + fAvxifBw*gAvgBwetaeta)/b - 4*B66*fAvxifBwxi*gAvgBweta/a);
    (2%nat, 0%nat, (1/2)*A12*b*fAwfBuxi*gAwgBu/r + (1/2)*A26*a*fAwfBu*gAwgBueta/r - 2*B11*b*fAwxixifBuxi*gAwgBu/
      (a*a) - 2*B12*fAwfBuxi*gAwetaetagBu/b - 2*B16*(2*fAwxifBuxi*gAwetagBu + fAwxixifBu*gAwgBueta)/a - 2*B26*
      a*fAwfBu*gAwetaetagBueta/(b*b) - 4*B66*fAwxifBu*gAwetagBueta/b);
    (2%nat, 1%nat, (1/2)*A22*a*fAwfBv*gAwgBveta/r + (1/2)*A26*b*fAwfBvxi*gAwgBv/r - 2*B12*fAwxixifBv*gAwgBveta/a -
       2*B16*b*fAwxixifBvxi*gAwgBv/(a*a) - 2*B22*a*fAwfBv*gAwetaetagBveta/(b*b) - 2*B26*(fAwfBvxi*
      gAwetaetagBv + 2*fAwxifBv*gAwetagBveta)/b - 4*B66*fAwxifBvxi*gAwetagBv/a);
    (2%nat, 2%nat, (1/4)*A22*a*b*fAwfBw*gAwgBw/(r*r) - B12*b*gAwgBw*(fAwfBwxixi + fAwxixifBw)/(a*r) - B22*a*
      fAwfBw*(gAwgBwetaeta + gAwetaetagBw)/(b*r) - 2*B26*(fAwfBwxi*gAwgBweta + fAwxifBw*gAwetagBw)/r + 4*D11*
      b*fAwxixifBwxixi*gAwgBw/(a*a*a) + 4*D12*(fAwfBwxixi*gAwetaetagBw + fAwxixifBw*gAwgBwetaeta)/(a*b) + 8*
      D16*(fAwxifBwxixi*gAwetagBw + fAwxixifBwxi*gAwgBweta)/(a*a) + 4*D22*a*fAwfBw*gAwetaetagBwetaeta/(b*b*b) 
      + 8*D26*(fAwfBwxi*gAwetaetagBweta + fAwxifBw*gAwetagBwetaeta)/(b*b) + 16*D66*fAwxifBwxi*gAwetagBweta/(a*
      b)) ].

(* the assembled coo_matrix (row0, col0 as passed by the caller) *)
Definition cyl_fk0 (T : tables) (s : shell) (F : nat -> nat -> R) (row0 col0 : nat) : coo :=
  loop_ikjl true row0 col0 (sh_m s) (sh_n s) (sh_m s) (sh_n s) (cyl_fk0_ker T s F).

(* /repo/panels/models/cylshell_clpt_donnell_bardell.pyx:273-337, loop nest ikjl, innermost block; triplets at lines 333 *)
Definition cyl_fkG0_ker (T : tables) (s : shell) (Nxx Nyy Nxy : R) (i k j l : nat) : block :=
  let a := sh_a s in
  let b := sh_b s in
  let fAwxifBwxi := t_fpfp T i k (sh_xw s) (sh_xw s) in
  let fAwfBwxi := t_ffp T i k (sh_xw s) (sh_xw s) in
  let fAwxifBw := t_ffp T k i (sh_xw s) (sh_xw s) in
  let fAwfBw := t_ff T i k (sh_xw s) (sh_xw s) in
  let gAwgBw := t_ff T j l (sh_yw s) (sh_yw s) in
  let gAwgBweta := t_ffp T j l (sh_yw s) (sh_yw s) in
  let gAwetagBw := t_ffp T l j (sh_yw s) (sh_yw s) in
  let gAwetagBweta := t_fpfp T j l (sh_yw s) (sh_yw s) in
  [ (2%nat, 2%nat, Nxx*b*fAwxifBwxi*gAwgBw/a + Nxy*(fAwfBwxi*gAwetagBw + fAwxifBw*gAwgBweta) + Nyy*a*fAwfBw*
      gAwetagBweta/b) ].

(* the assembled coo_matrix (row0, col0 as passed by the caller) *)
Definition cyl_fkG0 (T : tables) (s : shell) (Nxx Nyy Nxy : R) (row0 col0 : nat) : coo :=
  loop_ikjl true row0 col0 (sh_m s) (sh_n s) (sh_m s) (sh_n s) (cyl_fkG0_ker T s Nxx Nyy Nxy).

(* /repo/panels/models/cylshell_clpt_donnell_bardell.pyx:340-444, loop nest ikjl, innermost block; triplets at lines 416, 420, 424, 428, 432, 436, 440 *)
Definition cyl_fkM_ker (T : tables) (s : shell) (rho h d : R) (i k j l : nat) : block :=
  let a := sh_a s in
  let b := sh_b s in
  let fAufBu := t_ff T i k (sh_xu s) (sh_xu s) in
  let fAufBwxi := t_ffp T i k (sh_xu s) (sh_xw s) in
  let fAvfBv := t_ff T i k (sh_xv s) (sh_xv s) in
  let fAvfBw := t_ff T i k (sh_xv s) (sh_xw s) in
  let fAwxifBu := t_ffp T k i (sh_xu s) (sh_xw s) in
  let fAwfBv := t_ff T i k (sh_xw s) (sh_xv s) in
  let fAwfBw := t_ff T i k (sh_xw s) (sh_xw s) in
  let fAwxifBwxi := t_fpfp T i k (sh_xw s) (sh_xw s) in
  let gAugBu := t_ff T j l (sh_yu s) (sh_yu s) in
  let gAugBw := t_ff T j l (sh_yu s) (sh_yw s) in
  let gAvgBv := t_ff T j l (sh_yv s) (sh_yv s) in
  let gAvgBweta := t_ffp T j l (sh_yv s) (sh_yw s) in
  let gAwgBu := t_ff T j l (sh_yw s) (sh_yu s) in
  let gAwetagBv := t_ffp T l j (sh_yv s) (sh_yw s) in
  let gAwgBw := t_ff T j l (sh_yw s) (sh_yw s) in
  let gAwetagBweta := t_fpfp T j l (sh_yw s) (sh_yw s) in
  [ (0%nat, 0%nat, (1/4)*a*b*fAufBu*gAugBu*h*rho);
    (0%nat, 2%nat, (1/2)*b*d*fAufBwxi*gAugBw*h*rho);
    (1%nat, 1%nat, (1/4)*a*b*fAvfBv*gAvgBv*h*rho);
    (1%nat, 2%nat, (1/2)*a*d*fAvfBw*gAvgBweta*h*rho);
    (2%nat, 0%nat, (1/2)*b*d*fAwxifBu*gAwgBu*h*rho);
    (2%nat, 1%nat, (1/2)*a*d*fAwfBv*gAwetagBv*h*rho);
    (2%nat, 2%nat, (1/4)*a*b*h*rho*(fAwfBw*gAwgBw + 4*fAwfBw*gAwetagBweta*((d*d) + (833333333333333/
      10000000000000000)*(h*h))/(b*b) + 4*fAwxifBwxi*gAwgBw*((d*d) + (833333333333333/10000000000000000)*(h*
      h))/(a*a))) ].

(* the assembled coo_matrix (row0, col0 as passed by the caller) *)
Definition cyl_fkM (T : tables) (s : shell) (rho h d : R) (row0 col0 : nat) : coo :=
  loop_ikjl true row0 col0 (sh_m s) (sh_n s) (sh_m s) (sh_n s) (cyl_fkM_ker T s rho h d).

(* /repo/panels/models/cylshell_clpt_donnell_bardell.pyx:447-503, loop nest ikjl, innermost block; triplets at lines 499 *)
Definition cyl_fkAx_ker (T : tables) (s : shell) (beta gamma : R) (i k j l : nat) : block :=
  let a := sh_a s in
  let b := sh_b s in
  let fAwfBw := t_ff T i k (sh_xw s) (sh_xw s) in
  let fAwxifBw := t_ffp T k i (sh_xw s) (sh_xw s) in
  let gAwgBw := t_ff T j l (sh_yw s) (sh_yw s) in
  [ (2%nat, 2%nat, -(1/4)*a*b*(fAwfBw*gAwgBw*gamma + 2*beta*fAwxifBw*gAwgBw/a)) ].

(* the assembled coo_matrix (row0, col0 as passed by the caller) *)
Definition cyl_fkAx (T : tables) (s : shell) (beta gamma : R) (row0 col0 : nat) : coo :=
  loop_ikjl true row0 col0 (sh_m s) (sh_n s) (sh_m s) (sh_n s) (cyl_fkAx_ker T s beta gamma).

(* /repo/panels/models/cylshell_clpt_donnell_bardell.pyx:506-560, loop nest ikjl, innermost block; triplets at lines 556 *)
Definition cyl_fkAy_ker (T : tables) (s : shell) (beta : R) (i k j l : nat) : block :=
  let a := sh_a s in
  let fAwfBw := t_ff T i k (sh_xw s) (sh_xw s) in
  let gAwetagBw := t_ffp T l j (sh_yw s) (sh_yw s) in
  [ (2%nat, 2%nat, -(1/2)*a*beta*fAwfBw*gAwetagBw) ].

(* the assembled coo_matrix (row0, col0 as passed by the caller) *)
Definition cyl_fkAy (T : tables) (s : shell) (beta : R) (row0 col0 : nat) : coo :=
  loop_ikjl true row0 col0 (sh_m s) (sh_n s) (sh_m s) (sh_n s) (cyl_fkAy_ker T s beta).

(* /repo/panels/models/cylshell_clpt_donnell_bardell.pyx:563-617, loop nest ikjl, innermost block; triplets at lines 613 *)
Definition cyl_fcA_ker (T : tables) (s : shell) (aeromu : R) (i k j l : nat) : block :=
  let a := sh_a s in
  let b := sh_b s in
  let fAwfBw := t_ff T i k (sh_xw s) (sh_xw s) in
  let gAwgBw := t_ff T j l (sh_yw s) (sh_yw s) in
  [ (2%nat, 2%nat, -(1/4)*a*aeromu*b*fAwfBw*gAwgBw) ].

(* the assembled coo_matrix (row0, col0 as passed by the caller) *)
Definition cyl_fcA (T : tables) (s : shell) (aeromu : R) (row0 col0 : nat) : coo :=
  loop_ikjl true row0 col0 (sh_m s) (sh_n s) (sh_m s) (sh_n s) (cyl_fcA_ker T s aeromu).

