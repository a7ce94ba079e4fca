(* GENERATED by tools/gen_kernels.py: expressions transcribed from the cited .pyx lines.
   Decimals are written as fractions; double arithmetic is modelled by real arithmetic. *)
From Coq Require Import Reals List.
From Verif Require Import Base_Sum Model_Types Model_Coo.
Import ListNotations.
Open Scope R_scope.

(* /repo/panels/stiffener/models/bladestiff1d_clt_donnell_bardell.pyx:34-112, loop nest ikjl, innermost block; triplets at lines 96, 100, 104, 108 *)
Definition fkCf_ker (T : tables) (Bs : basis) (s : shell) (ys bfl df E1 F1 S1 Jxx : R) (i k j l : nat) : block :=
  let a := sh_a s in
  let b := sh_b s in
  let eta := 2*ys/b - 1 in
  let fAuxifBuxi := t_fpfp T i k (sh_xu s) (sh_xu s) in
  let fAuxifBwxixi := t_fpfpp T i k (sh_xu s) (sh_xw s) in
  let fAuxifBwxi := t_fpfp T i k (sh_xu s) (sh_xw s) in
  let fAwxixifBuxi := t_fpfpp T k i (sh_xu s) (sh_xw s) in
  let fAwxifBuxi := t_fpfp T i k (sh_xw s) (sh_xu s) in
  let fAwxifBwxi := t_fpfp T i k (sh_xw s) (sh_xw s) in
  let fAwxifBwxixi := t_fpfpp T i k (sh_xw s) (sh_xw s) in
  let fAwxixifBwxi := t_fpfpp T k i (sh_xw s) (sh_xw s) in
  let fAwxixifBwxixi := t_fppfpp T i k (sh_xw s) (sh_xw s) in
  let gAu := bf Bs j eta (sh_yu s) in
  let gAw := bf Bs j eta (sh_yw s) in
  let gAweta := bfp Bs j eta (sh_yw s) in
  let gBu := bf Bs l eta (sh_yu s) in
  let gBw := bf Bs l eta (sh_yw s) in
  let gBweta := bfp Bs l eta (sh_yw s) in
  [ (0%nat, 0%nat, 2*E1*bfl*fAuxifBuxi*gAu*gBu/a);
    (0%nat, 2%nat, (1/2)*a*bfl*(8*E1*df*fAuxifBwxixi*gAu*gBw/(a*a*a) - 8*S1*fAuxifBwxi*gAu*gBweta/((a*a)*b)));
    (2%nat, 0%nat, bfl*gBu*(4*E1*df*fAwxixifBuxi*gAw/(a*a) - 4*S1*fAwxifBuxi*gAweta/(a*b)));
    (2%nat, 2%nat, (1/2)*a*bfl*(-4*gBweta*(-4*Jxx*fAwxifBwxi*gAweta/(a*b) + 4*S1*df*fAwxixifBwxi*gAw/(a*a))/(a*b) -
       4*gBw*(4*S1*df*fAwxifBwxixi*gAweta/(a*b) + fAwxixifBwxixi*gAw*(-4*E1*(df*df) - 4*F1)/(a*a))/(a*a))) ].

Definition fkCf (T : tables) (Bs : basis) (s : shell) (ys bfl df E1 F1 S1 Jxx : R) (row0 col0 : nat) : coo :=
  loop_ikjl true row0 col0 (sh_m s) (sh_n s) (sh_m s) (sh_n s) (fkCf_ker T Bs s ys bfl df E1 F1 S1 Jxx).

(* /repo/panels/stiffener/models/bladestiff1d_clt_donnell_bardell.pyx:115-162, loop nest ikjl, innermost block; triplets at lines 158 *)
Definition fkGf_ker (T : tables) (Bs : basis) (s : shell) (ys Fx : R) (i k j l : nat) : block :=
  let a := sh_a s in
  let b := sh_b s in
  let eta := 2*ys/b - 1 in
  let fAwxifBwxi := t_fpfp T i k (sh_xw s) (sh_xw s) in
  let gAw := bf Bs j eta (sh_yw s) in
  let gBw := bf Bs l eta (sh_yw s) in
  [ (2%nat, 2%nat, 2*Fx*fAwxifBwxi*gAw*gBw/a) ].

Definition fkGf (T : tables) (Bs : basis) (s : shell) (ys Fx : R) (row0 col0 : nat) : coo :=
  loop_ikjl true row0 col0 (sh_m s) (sh_n s) (sh_m s) (sh_n s) (fkGf_ker T Bs s ys Fx).

(* /repo/panels/stiffener/models/bladestiff1d_clt_donnell_bardell.pyx:165-260, loop nest ikjl, innermost block; triplets at lines 232, 236, 240, 244, 248, 252, 256 *)
Definition fkMf_ker (T : tables) (Bs : basis) (s : shell) (ys rho h hb hf bfl df : R) (i k j l : nat) : block :=
  let a := sh_a s in
  let b := sh_b s in
  let eta := 2*ys/b - 1 in
  let fAufBu := t_ff T i k (sh_xu s) (sh_xu s) in
  let fAufBwxi := t_ffp T i k (sh_xu s) (sh_xw s) in
  let fAvfBv := t_ff T i k (sh_xv s) (sh_xv s) in
  let fAvfBw := t_ff T i k (sh_xv s) (sh_xw s) in
  let fAwxifBu := t_ffp T k i (sh_xu s) (sh_xw s) in
  let fAwfBv := t_ff T i k (sh_xw s) (sh_xv s) in
  let fAwfBw := t_ff T i k (sh_xw s) (sh_xw s) in
  let fAwxifBwxi := t_fpfp T i k (sh_xw s) (sh_xw s) in
  let gAu := bf Bs j eta (sh_yu s) in
  let gAv := bf Bs j eta (sh_yv s) in
  let gAw := bf Bs j eta (sh_yw s) in
  let gAweta := bfp Bs j eta (sh_yw s) in
  let gBu := bf Bs l eta (sh_yu s) in
  let gBv := bf Bs l eta (sh_yv s) in
  let gBw := bf Bs l eta (sh_yw s) in
  let gBweta := bfp Bs l eta (sh_yw s) in
  [ (0%nat, 0%nat, (1/2)*a*bfl*fAufBu*gAu*gBu*hf*rho);
    (0%nat, 2%nat, 2*bfl*df*fAufBwxi*gAu*gBw*hf*rho);
    (1%nat, 1%nat, (1/2)*a*bfl*fAvfBv*gAv*gBv*hf*rho);
    (1%nat, 2%nat, 2*a*bfl*df*fAvfBw*gAv*gBweta*hf*rho/b);
    (2%nat, 0%nat, 2*bfl*df*fAwxifBu*gAw*gBu*hf*rho);
    (2%nat, 1%nat, 2*a*bfl*df*fAwfBv*gAweta*gBv*hf*rho/b);
    (2%nat, 2%nat, (166666666666667/1000000000000000)*bfl*hf*rho*((a*a)*fAwfBw*(3*(b*b)*gAw*gBw + gAweta*gBweta*(4*
      (bfl*bfl) + 6*bfl*(h + 2*hb) + 3*(h + 2*hb)^2)) + (b*b)*fAwxifBwxi*gAw*gBw*(4*(bfl*bfl) + 6*bfl*(h + 2*hb) + 
      3*(h + 2*hb)^2))/(a*(b*b))) ].

Definition fkMf (T : tables) (Bs : basis) (s : shell) (ys rho h hb hf bfl df : R) (row0 col0 : nat) : coo :=
  loop_ikjl true row0 col0 (sh_m s) (sh_n s) (sh_m s) (sh_n s) (fkMf_ker T Bs s ys rho h hb hf bfl df).

(* /repo/panels/stiffener/models/bladestiff2d_clt_donnell_bardell.pyx:25-93, loop nest ikjl, innermost block; triplets at lines 81, 85, 89 *)
Definition fkCss_ker (T : tables) (Bs : basis) (kt kr : R) (s : shell) (ys : R) (i k j l : nat) : block :=
  let a := sh_a s in
  let b := sh_b s in
  let eta := 2*ys/b - 1 in
  let fAufBu := t_ff T i k (sh_xu s) (sh_xu s) in
  let fAvfBv := t_ff T i k (sh_xv s) (sh_xv s) in
  let fAwfBw := t_ff T i k (sh_xw s) (sh_xw s) in
  let gAu := bf Bs j eta (sh_yu s) in
  let gAv := bf Bs j eta (sh_yv s) in
  let gAw := bf Bs j eta (sh_yw s) in
  let gAweta := bfp Bs j eta (sh_yw s) in
  let gBu := bf Bs l eta (sh_yu s) in
  let gBv := bf Bs l eta (sh_yv s) in
  let gBw := bf Bs l eta (sh_yw s) in
  let gBweta := bfp Bs l eta (sh_yw s) in
  [ (0%nat, 0%nat, (1/2)*a*fAufBu*gAu*gBu*kt);
    (1%nat, 1%nat, (1/2)*a*fAvfBv*gAv*gBv*kt);
    (2%nat, 2%nat, (1/2)*a*(fAwfBw*gAw*gBw*kt + 4*fAwfBw*gAweta*gBweta*kr/(b*b))) ].

Definition fkCss (T : tables) (Bs : basis) (kt kr : R) (s : shell) (ys : R) (row0 col0 : nat) : coo :=
  loop_ikjl true row0 col0 (sh_m s) (sh_n s) (sh_m s) (sh_n s) (fkCss_ker T Bs kt kr s ys).

(* /repo/panels/stiffener/models/bladestiff2d_clt_donnell_bardell.pyx:96-176, loop nest ikjl, innermost block; triplets at lines 160, 164, 168, 172 *)
Definition fkCsf_ker (T : tables) (Bs : basis) (kt kr : R) (s q : shell) (ys bfl : R) (i k1 j l1 : nat) : block :=
  let a := sh_a s in
  let b := sh_b s in
  let eta := 2*ys/b - 1 in
  let fAurBu := t_ff T i k1 (sh_xu s) (sh_xu q) in
  let fAvrBw := t_ff T i k1 (sh_xv s) (sh_xw q) in
  let fAwrBv := t_ff T i k1 (sh_xw s) (sh_xv q) in
  let fAwrBw := t_ff T i k1 (sh_xw s) (sh_xw q) in
  let gAu := bf Bs j eta (sh_yu s) in
  let gAv := bf Bs j eta (sh_yv s) in
  let gAw := bf Bs j eta (sh_yw s) in
  let gAweta := bfp Bs j eta (sh_yw s) in
  let sBu := bf Bs l1 (-1) (sh_yu q) in
  let sBv := bf Bs l1 (-1) (sh_yv q) in
  let sBw := bf Bs l1 (-1) (sh_yw q) in
  let sBweta := bfp Bs l1 (-1) (sh_yw q) in
  [ (0%nat, 0%nat, -(1/2)*a*fAurBu*gAu*kt*sBu);
    (1%nat, 2%nat, -(1/2)*a*fAvrBw*gAv*kt*sBw);
    (2%nat, 1%nat, (1/2)*a*fAwrBv*gAw*kt*sBv);
    (2%nat, 2%nat, -2*a*fAwrBw*gAweta*kr*sBweta/(b*bfl)) ].

Definition fkCsf (T : tables) (Bs : basis) (kt kr : R) (s q : shell) (ys bfl : R) (row0 col0 : nat) : coo :=
  loop_ikjl false row0 col0 (sh_m s) (sh_n s) (sh_m q) (sh_n q) (fkCsf_ker T Bs kt kr s q ys bfl).

(* /repo/panels/stiffener/models/bladestiff2d_clt_donnell_bardell.pyx:179-245, loop nest ikjl, innermost block; triplets at lines 233, 237, 241 *)
Definition fkCff_ker (T : tables) (Bs : basis) (kt kr a bfl : R) (q : shell) (i1 k1 j1 l1 : nat) : block :=
  let rAurBu := t_ff T i1 k1 (sh_xu q) (sh_xu q) in
  let rAvrBv := t_ff T i1 k1 (sh_xv q) (sh_xv q) in
  let rAwrBw := t_ff T i1 k1 (sh_xw q) (sh_xw q) in
  let sAu := bf Bs j1 (-1) (sh_yu q) in
  let sAv := bf Bs j1 (-1) (sh_yv q) in
  let sAw := bf Bs j1 (-1) (sh_yw q) in
  let sAweta := bfp Bs j1 (-1) (sh_yw q) in
  let sBu := bf Bs l1 (-1) (sh_yu q) in
  let sBv := bf Bs l1 (-1) (sh_yv q) in
  let sBw := bf Bs l1 (-1) (sh_yw q) in
  let sBweta := bfp Bs l1 (-1) (sh_yw q) in
  [ (0%nat, 0%nat, (1/2)*a*kt*rAurBu*sAu*sBu);
    (1%nat, 1%nat, (1/2)*a*kt*rAvrBv*sAv*sBv);
    (2%nat, 2%nat, (1/2)*a*(kt*rAwrBw*sAw*sBw + 4*kr*rAwrBw*sAweta*sBweta/(bfl*bfl))) ].

Definition fkCff (T : tables) (Bs : basis) (kt kr a bfl : R) (q : shell) (row0 col0 : nat) : coo :=
  loop_ikjl true row0 col0 (sh_m q) (sh_n q) (sh_m q) (sh_n q) (fkCff_ker T Bs kt kr a bfl q).

