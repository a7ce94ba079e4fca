(* GENERATED by tools/gen_kernels.py: expressions transcribed from the cited .pyx lines.
   Decimals are written as fractions; double arithmetic is modelled by real arithmetic. *)
From Coq Require Import Reals List.
From Verif Require Import Base_Sum Model_Types Model_Coo.
Import ListNotations.
Open Scope R_scope.

(* /repo/panels/models/plate_clpt_donnell_bardell_num.pyx:26-285, loop nest ikjl, innermost block; triplets at lines 241, 246, 251, 256, 261, 266, 271, 276, 281 *)
Definition plate_fkC_num_ker (Bs : basis) (s : shell) (F : nat -> nat -> R) (xi eta weight intx inty : R) (wxi weta : R) (i k j l : nat) : block :=
  let a := sh_a s in
  let b := sh_b s in
  let A11 := F 0%nat 0%nat in
  let A12 := F 0%nat 1%nat in
  let A16 := F 0%nat 2%nat in
  let A22 := F 1%nat 1%nat in
  let A26 := F 1%nat 2%nat in
  let A66 := F 2%nat 2%nat in
  let B11 := F 0%nat 3%nat in
  let B12 := F 0%nat 4%nat in
  let B16 := F 0%nat 5%nat in
  let B22 := F 1%nat 4%nat in
  let B26 := F 1%nat 5%nat in
  let B66 := F 2%nat 5%nat in
  let D11 := F 3%nat 3%nat in
  let D12 := F 3%nat 4%nat in
  let D16 := F 3%nat 5%nat in
  let D22 := F 4%nat 4%nat in
  let D26 := F 4%nat 5%nat in
  let D66 := F 5%nat 5%nat in
  let fAu := bf Bs i xi (sh_xu s) in
  let fAuxi := bfp Bs i xi (sh_xu s) in
  let fAv := bf Bs i xi (sh_xv s) in
  let fAvxi := bfp Bs i xi (sh_xv s) in
  let fAw := bf Bs i xi (sh_xw s) in
  let fAwxi := bfp Bs i xi (sh_xw s) in
  let fAwxixi := bfpp Bs i xi (sh_xw s) in
  let fBu := bf Bs k xi (sh_xu s) in
  let fBuxi := bfp Bs k xi (sh_xu s) in
  let fBv := bf Bs k xi (sh_xv s) in
  let fBvxi := bfp Bs k xi (sh_xv s) in
  let fBw := bf Bs k xi (sh_xw s) in
  let fBwxi := bfp Bs k xi (sh_xw s) in
  let fBwxixi := bfpp Bs k xi (sh_xw s) in
  let gAu := bf Bs j eta (sh_yu s) in
  let gAueta := bfp Bs j eta (sh_yu s) in
  let gAv := bf Bs j eta (sh_yv s) in
  let gAveta := bfp Bs j eta (sh_yv s) in
  let gAw := bf Bs j eta (sh_yw s) in
  let gAweta := bfp Bs j eta (sh_yw s) in
  let gAwetaeta := bfpp Bs j eta (sh_yw s) in
  let gBu := bf Bs l eta (sh_yu s) in
  let gBueta := bfp Bs l eta (sh_yu s) in
  let gBv := bf Bs l eta (sh_yv s) in
  let gBveta := bfp Bs l eta (sh_yv s) in
  let gBw := bf Bs l eta (sh_yw s) in
  let gBweta := bfp Bs l eta (sh_yw s) in
  let gBwetaeta := bfpp Bs l eta (sh_yw s) in
  [ (0%nat, 0%nat, weight*(intx*inty*(a*fBu*gBueta*(A16*b*fAuxi*gAu + A66*a*fAu*gAueta) + b*fBuxi*gBu*(A11*b*
      fAuxi*gAu + A16*a*fAu*gAueta))/((a*a)*(b*b))));
    (0%nat, 1%nat, weight*(intx*inty*(a*fBv*gBveta*(A12*b*fAuxi*gAu + A26*a*fAu*gAueta) + b*fBvxi*gBv*(A16*b*
      fAuxi*gAu + A66*a*fAu*gAueta))/((a*a)*(b*b))));
    (0%nat, 2%nat, weight*(2*intx*inty*((a*a)*fBw*(gBweta*weta*(A12*b*fAuxi*gAu + A26*a*fAu*gAueta) - gBwetaeta*
      (B12*b*fAuxi*gAu + B26*a*fAu*gAueta)) + a*b*(-2*fBwxi*gBweta*(B16*b*fAuxi*gAu + B66*a*fAu*gAueta) + 
      (fBw*gBweta*wxi + fBwxi*gBw*weta)*(A16*b*fAuxi*gAu + A66*a*fAu*gAueta)) + (b*b)*gBw*(fBwxi*wxi*(A11*b*
      fAuxi*gAu + A16*a*fAu*gAueta) - fBwxixi*(B11*b*fAuxi*gAu + B16*a*fAu*gAueta)))/((a*a*a)*(b*b*b))));
    (1%nat, 0%nat, weight*(intx*inty*(a*fBu*gBueta*(A26*a*fAv*gAveta + A66*b*fAvxi*gAv) + b*fBuxi*gBu*(A12*a*fAv*
      gAveta + A16*b*fAvxi*gAv))/((a*a)*(b*b))));
    (1%nat, 1%nat, weight*(intx*inty*(a*fBv*gBveta*(A22*a*fAv*gAveta + A26*b*fAvxi*gAv) + b*fBvxi*gBv*(A26*a*fAv*
      gAveta + A66*b*fAvxi*gAv))/((a*a)*(b*b))));
    (1%nat, 2%nat, weight*(2*intx*inty*((a*a)*fBw*(gBweta*weta*(A22*a*fAv*gAveta + A26*b*fAvxi*gAv) - gBwetaeta*
      (B22*a*fAv*gAveta + B26*b*fAvxi*gAv)) + a*b*(-2*fBwxi*gBweta*(B26*a*fAv*gAveta + B66*b*fAvxi*gAv) + 
      (fBw*gBweta*wxi + fBwxi*gBw*weta)*(A26*a*fAv*gAveta + A66*b*fAvxi*gAv)) + (b*b)*gBw*(fBwxi*wxi*(A12*a*
      fAv*gAveta + A16*b*fAvxi*gAv) - fBwxixi*(B12*a*fAv*gAveta + B16*b*fAvxi*gAv)))/((a*a*a)*(b*b*b))));
    (2%nat, 0%nat, weight*(2*intx*inty*(a*fBu*gBueta*((a*a)*fAw*(A26*gAweta*weta - B26*gAwetaeta) + a*b*(A66*(fAw*
      gAweta*wxi + fAwxi*gAw*weta) - 2*B66*fAwxi*gAweta) + (b*b)*gAw*(A16*fAwxi*wxi - B16*fAwxixi)) + b*fBuxi*
      gBu*((a*a)*fAw*(A12*gAweta*weta - B12*gAwetaeta) + a*b*(A16*(fAw*gAweta*wxi + fAwxi*gAw*weta) - 2*B16*
      fAwxi*gAweta) + (b*b)*gAw*(A11*fAwxi*wxi - B11*fAwxixi)))/((a*a*a)*(b*b*b))));
    (2%nat, 1%nat, weight*(2*intx*inty*(a*fBv*gBveta*((a*a)*fAw*(A22*gAweta*weta - B22*gAwetaeta) + a*b*(A26*(fAw*
      gAweta*wxi + fAwxi*gAw*weta) - 2*B26*fAwxi*gAweta) + (b*b)*gAw*(A12*fAwxi*wxi - B12*fAwxixi)) + b*fBvxi*
      gBv*((a*a)*fAw*(A26*gAweta*weta - B26*gAwetaeta) + a*b*(A66*(fAw*gAweta*wxi + fAwxi*gAw*weta) - 2*B66*
      fAwxi*gAweta) + (b*b)*gAw*(A16*fAwxi*wxi - B16*fAwxixi)))/((a*a*a)*(b*b*b))));
    (2%nat, 2%nat, weight*(4*intx*inty*((a*a)*fBw*(gBweta*weta*((a*a)*fAw*(A22*gAweta*weta - B22*gAwetaeta) + a*b*
      (A26*(fAw*gAweta*wxi + fAwxi*gAw*weta) - 2*B26*fAwxi*gAweta) + (b*b)*gAw*(A12*fAwxi*wxi - B12*fAwxixi)) 
      - gBwetaeta*((a*a)*fAw*(B22*gAweta*weta - D22*gAwetaeta) + a*b*(B26*(fAw*gAweta*wxi + fAwxi*gAw*weta) - 
      2*D26*fAwxi*gAweta) + (b*b)*gAw*(B12*fAwxi*wxi - D12*fAwxixi))) + a*b*(-2*fBwxi*gBweta*((a*a)*fAw*(B26*
      gAweta*weta - D26*gAwetaeta) + a*b*(B66*(fAw*gAweta*wxi + fAwxi*gAw*weta) - 2*D66*fAwxi*gAweta) + (b*b)*
      gAw*(B16*fAwxi*wxi - D16*fAwxixi)) + (fBw*gBweta*wxi + fBwxi*gBw*weta)*((a*a)*fAw*(A26*gAweta*weta - 
      B26*gAwetaeta) + a*b*(A66*(fAw*gAweta*wxi + fAwxi*gAw*weta) - 2*B66*fAwxi*gAweta) + (b*b)*gAw*(A16*
      fAwxi*wxi - B16*fAwxixi))) + (b*b)*gBw*(fBwxi*wxi*((a*a)*fAw*(A12*gAweta*weta - B12*gAwetaeta) + a*b*
      (A16*(fAw*gAweta*wxi + fAwxi*gAw*weta) - 2*B16*fAwxi*gAweta) + (b*b)*gAw*(A11*fAwxi*wxi - B11*fAwxixi)) 
      - fBwxixi*((a*a)*fAw*(B12*gAweta*weta - D12*gAwetaeta) + a*b*(B16*(fAw*gAweta*wxi + fAwxi*gAw*weta) - 2*
      D16*fAwxi*gAweta) + (b*b)*gAw*(B11*fAwxi*wxi - D11*fAwxixi))))/((a*a*a*a)*(b*b*b*b)))) ].

(* /repo/panels/models/plate_clpt_donnell_bardell_num.pyx:288-516, loop nest jlik, innermost block; triplets at lines 512 *)
Definition plate_fkG_num_ker (Bs : basis) (s : shell) (xi eta weight intx inty : R) (Nxx Nyy Nxy : R) (i k j l : nat) : block :=
  let a := sh_a s in
  let b := sh_b s in
  let gAw := bf Bs j eta (sh_yw s) in
  let gAweta := bfp Bs j eta (sh_yw s) in
  let gBw := bf Bs l eta (sh_yw s) in
  let gBweta := bfp Bs l eta (sh_yw s) in
  let fAw := bf Bs i xi (sh_xw s) in
  let fAwxi := bfp Bs i xi (sh_xw s) in
  let fBw := bf Bs k xi (sh_xw s) in
  let fBwxi := bfp Bs k xi (sh_xw s) in
  [ (2%nat, 2%nat, weight*(intx*inty*(a*fBw*gBweta*(Nxy*b*fAwxi*gAw + Nyy*a*fAw*gAweta) + b*fBwxi*gBw*(Nxx*b*
      fAwxi*gAw + Nxy*a*fAw*gAweta))/((a*a)*(b*b)))) ].

(* /repo/panels/models/plate_clpt_donnell_bardell_num.pyx:519-709, loop nest ikjl, innermost block; triplets at lines 675, 680, 685, 690, 695, 700, 705 *)
Definition plate_fkM_num_ker (Bs : basis) (s : shell) (xi eta weight intx inty : R) (h rho d : R) (i k j l : nat) : block :=
  let a := sh_a s in
  let b := sh_b s in
  let fAu := bf Bs i xi (sh_xu s) in
  let fAv := bf Bs i xi (sh_xv s) in
  let fAw := bf Bs i xi (sh_xw s) in
  let fAwxi := bfp Bs i xi (sh_xw s) in
  let fBu := bf Bs k xi (sh_xu s) in
  let fBv := bf Bs k xi (sh_xv s) in
  let fBw := bf Bs k xi (sh_xw s) in
  let fBwxi := bfp Bs k xi (sh_xw s) in
  let gAu := bf Bs j eta (sh_yu s) in
  let gAv := bf Bs j eta (sh_yv s) in
  let gAw := bf Bs j eta (sh_yw s) in
  let gAweta := bfp Bs j eta (sh_yw s) in
  let gBu := bf Bs l eta (sh_yu s) in
  let gBv := bf Bs l eta (sh_yv s) in
  let gBw := bf Bs l eta (sh_yw s) in
  let gBweta := bfp Bs l eta (sh_yw s) in
  [ (0%nat, 0%nat, weight*((1/4)*fAu*fBu*gAu*gBu*h*intx*inty*rho));
    (0%nat, 2%nat, weight*((1/2)*d*fAu*fBwxi*gAu*gBw*h*intx*inty*rho/a));
    (1%nat, 1%nat, weight*((1/4)*fAv*fBv*gAv*gBv*h*intx*inty*rho));
    (1%nat, 2%nat, weight*((1/2)*d*fAv*fBw*gAv*gBweta*h*intx*inty*rho/b));
    (2%nat, 0%nat, weight*((1/2)*d*fAwxi*fBu*gAw*gBu*h*intx*inty*rho/a));
    (2%nat, 1%nat, weight*((1/2)*d*fAw*fBv*gAweta*gBv*h*intx*inty*rho/b));
    (2%nat, 2%nat, weight*((1/4)*h*intx*inty*rho*(fAw*fBw*gAw*gBw + 4*fAw*fBw*gAweta*gBweta*((d*d) + 
      (833333333333333/10000000000000000)*(h*h))/(b*b) + 4*fAwxi*fBwxi*gAw*gBw*((d*d) + (833333333333333/
      10000000000000000)*(h*h))/(a*a)))) ].

(* /repo/panels/models/plate_clpt_donnell_bardell_num.pyx:713-826, loop nest ikjl, innermost block; triplets at lines 822 *)
Definition plate_fkAx_num_ker (Bs : basis) (s : shell) (xi eta weight intx inty : R) (i k j l : nat) : block :=
  let a := sh_a s in
  let beta := sh_beta s in
  let gamma := sh_gamma s in
  let fAw := bf Bs i xi (sh_xw s) in
  let fAwxi := bfp Bs i xi (sh_xw s) in
  let fBw := bf Bs k xi (sh_xw s) in
  let gAw := bf Bs j eta (sh_yw s) in
  let gBw := bf Bs l eta (sh_yw s) in
  [ (2%nat, 2%nat, weight*((1/4)*intx*inty*(fAw*fBw*gAw*gBw*gamma - 2*beta*fAwxi*fBw*gAw*gBw/a))) ].

(* /repo/panels/models/plate_clpt_donnell_bardell_num.pyx:829-940, loop nest ikjl, innermost block; triplets at lines 936 *)
Definition plate_fkAy_num_ker (Bs : basis) (s : shell) (xi eta weight intx inty : R) (i k j l : nat) : block :=
  let b := sh_b s in
  let beta := sh_beta s in
  let fAw := bf Bs i xi (sh_xw s) in
  let fBw := bf Bs k xi (sh_xw s) in
  let gAweta := bfp Bs j eta (sh_yw s) in
  let gBw := bf Bs l eta (sh_yw s) in
  [ (2%nat, 2%nat, weight*(-(1/2)*beta*fAw*fBw*gAweta*gBw*intx*inty/b)) ].

(* /repo/panels/models/plate_clpt_donnell_bardell_num.pyx:440 *)
Definition plate_fkG_num_wxi_term (Bs : basis) (s : shell) (cs : nat -> R) (col0 : nat) (xi eta : R) (i j : nat) : R :=
  let col := dofpos col0 (sh_m s) i j in
  let gAw := bf Bs j eta (sh_yw s) in
  let fAwxi := bfp Bs i xi (sh_xw s) in
  cs (col + 2)%nat*fAwxi*gAw.
(* /repo/panels/models/plate_clpt_donnell_bardell_num.pyx:441 *)
Definition plate_fkG_num_weta_term (Bs : basis) (s : shell) (cs : nat -> R) (col0 : nat) (xi eta : R) (i j : nat) : R :=
  let col := dofpos col0 (sh_m s) i j in
  let gAweta := bfp Bs j eta (sh_yw s) in
  let fAw := bf Bs i xi (sh_xw s) in
  cs (col + 2)%nat*fAw*gAweta.
(* /repo/panels/models/plate_clpt_donnell_bardell_num.pyx:471 *)
Definition plate_fkG_num_exx_term (Bs : basis) (s : shell) (cs : nat -> R) (col0 : nat) (xi eta wxi weta : R) (i j : nat) : R :=
  let col := dofpos col0 (sh_m s) i j in
  let a := sh_a s in
  let gAu := bf Bs j eta (sh_yu s) in
  let fAuxi := bfp Bs i xi (sh_xu s) in
  let gAw := bf Bs j eta (sh_yw s) in
  let fAwxi := bfp Bs i xi (sh_xw s) in
  cs (col + 0)%nat*(2/a)*fAuxi*gAu + (1/2)*cs (col + 2)%nat*(2/a)*fAwxi*gAw*(2/a)*wxi.
(* /repo/panels/models/plate_clpt_donnell_bardell_num.pyx:472 *)
Definition plate_fkG_num_eyy_term (Bs : basis) (s : shell) (cs : nat -> R) (col0 : nat) (xi eta wxi weta : R) (i j : nat) : R :=
  let col := dofpos col0 (sh_m s) i j in
  let b := sh_b s in
  let gAveta := bfp Bs j eta (sh_yv s) in
  let fAv := bf Bs i xi (sh_xv s) in
  let gAweta := bfp Bs j eta (sh_yw s) in
  let fAw := bf Bs i xi (sh_xw s) in
  cs (col + 1)%nat*(2/b)*fAv*gAveta + (1/2)*cs (col + 2)%nat*(2/b)*fAw*gAweta*(2/b)*weta.
(* /repo/panels/models/plate_clpt_donnell_bardell_num.pyx:473 *)
Definition plate_fkG_num_gxy_term (Bs : basis) (s : shell) (cs : nat -> R) (col0 : nat) (xi eta wxi weta : R) (i j : nat) : R :=
  let col := dofpos col0 (sh_m s) i j in
  let a := sh_a s in
  let b := sh_b s in
  let gAv := bf Bs j eta (sh_yv s) in
  let gAueta := bfp Bs j eta (sh_yu s) in
  let fAu := bf Bs i xi (sh_xu s) in
  let fAvxi := bfp Bs i xi (sh_xv s) in
  let gAw := bf Bs j eta (sh_yw s) in
  let gAweta := bfp Bs j eta (sh_yw s) in
  let fAw := bf Bs i xi (sh_xw s) in
  let fAwxi := bfp Bs i xi (sh_xw s) in
  cs (col + 0)%nat*(2/b)*fAu*gAueta + cs (col + 1)%nat*(2/a)*fAvxi*gAv + cs (col + 2)%nat*(2/b)*weta*(2/a)*
      fAwxi*gAw + cs (col + 2)%nat*(2/a)*wxi*(2/b)*fAw*gAweta.
(* /repo/panels/models/plate_clpt_donnell_bardell_num.pyx:474 *)
Definition plate_fkG_num_kxx_term (Bs : basis) (s : shell) (cs : nat -> R) (col0 : nat) (xi eta wxi weta : R) (i j : nat) : R :=
  let col := dofpos col0 (sh_m s) i j in
  let a := sh_a s in
  let fAwxixi := bfpp Bs i xi (sh_xw s) in
  let gAw := bf Bs j eta (sh_yw s) in
  -cs (col + 2)%nat*(2/a*2/a)*fAwxixi*gAw.
(* /repo/panels/models/plate_clpt_donnell_bardell_num.pyx:475 *)
Definition plate_fkG_num_kyy_term (Bs : basis) (s : shell) (cs : nat -> R) (col0 : nat) (xi eta wxi weta : R) (i j : nat) : R :=
  let col := dofpos col0 (sh_m s) i j in
  let b := sh_b s in
  let gAwetaeta := bfpp Bs j eta (sh_yw s) in
  let fAw := bf Bs i xi (sh_xw s) in
  -cs (col + 2)%nat*(2/b*2/b)*fAw*gAwetaeta.
(* /repo/panels/models/plate_clpt_donnell_bardell_num.pyx:476 *)
Definition plate_fkG_num_kxy_term (Bs : basis) (s : shell) (cs : nat -> R) (col0 : nat) (xi eta wxi weta : R) (i j : nat) : R :=
  let col := dofpos col0 (sh_m s) i j in
  let a := sh_a s in
  let b := sh_b s in
  let gAweta := bfp Bs j eta (sh_yw s) in
  let fAwxi := bfp Bs i xi (sh_xw s) in
  -2*cs (col + 2)%nat*(2/a)*fAwxi*(2/b)*gAweta.
(* /repo/panels/models/plate_clpt_donnell_bardell_num.pyx:479 *)
Definition plate_fkG_num_Nxx (Nxx0 Nyy0 Nxy0 : R) (F : nat -> nat -> R) (exx eyy gxy kxx kyy kxy : R) : R :=
  let A11 := F 0%nat 0%nat in
  let A12 := F 0%nat 1%nat in
  let A16 := F 0%nat 2%nat in
  let B11 := F 0%nat 3%nat in
  let B12 := F 0%nat 4%nat in
  let B16 := F 0%nat 5%nat in
  Nxx0 + A11*exx + A12*eyy + A16*gxy + B11*kxx + B12*kyy + B16*kxy.
(* /repo/panels/models/plate_clpt_donnell_bardell_num.pyx:480 *)
Definition plate_fkG_num_Nyy (Nxx0 Nyy0 Nxy0 : R) (F : nat -> nat -> R) (exx eyy gxy kxx kyy kxy : R) : R :=
  let A12 := F 0%nat 1%nat in
  let A22 := F 1%nat 1%nat in
  let A26 := F 1%nat 2%nat in
  let B12 := F 0%nat 4%nat in
  let B22 := F 1%nat 4%nat in
  let B26 := F 1%nat 5%nat in
  Nyy0 + A12*exx + A22*eyy + A26*gxy + B12*kxx + B22*kyy + B26*kxy.
(* /repo/panels/models/plate_clpt_donnell_bardell_num.pyx:481 *)
Definition plate_fkG_num_Nxy (Nxx0 Nyy0 Nxy0 : R) (F : nat -> nat -> R) (exx eyy gxy kxx kyy kxy : R) : R :=
  let A16 := F 0%nat 2%nat in
  let A26 := F 1%nat 2%nat in
  let A66 := F 2%nat 2%nat in
  let B16 := F 0%nat 5%nat in
  let B26 := F 1%nat 5%nat in
  let B66 := F 2%nat 5%nat in
  Nxy0 + A16*exx + A26*eyy + A66*gxy + B16*kxx + B26*kyy + B66*kxy.

(* /repo/panels/models/plate_clpt_donnell_bardell_num.pyx:1095 *)
Definition plate_calc_fint_wxi_term (Bs : basis) (s : shell) (cs : nat -> R) (col0 : nat) (xi eta : R) (i j : nat) : R :=
  let col := dofpos col0 (sh_m s) i j in
  let gAw := bf Bs j eta (sh_yw s) in
  let fAwxi := bfp Bs i xi (sh_xw s) in
  cs (col + 2)%nat*fAwxi*gAw.
(* /repo/panels/models/plate_clpt_donnell_bardell_num.pyx:1096 *)
Definition plate_calc_fint_weta_term (Bs : basis) (s : shell) (cs : nat -> R) (col0 : nat) (xi eta : R) (i j : nat) : R :=
  let col := dofpos col0 (sh_m s) i j in
  let gAweta := bfp Bs j eta (sh_yw s) in
  let fAw := bf Bs i xi (sh_xw s) in
  cs (col + 2)%nat*fAw*gAweta.
(* /repo/panels/models/plate_clpt_donnell_bardell_num.pyx:1128 *)
Definition plate_calc_fint_exx_term (Bs : basis) (s : shell) (cs : nat -> R) (col0 : nat) (xi eta wxi weta : R) (i j : nat) : R :=
  let col := dofpos col0 (sh_m s) i j in
  let a := sh_a s in
  let gAu := bf Bs j eta (sh_yu s) in
  let gAw := bf Bs j eta (sh_yw s) in
  let fAuxi := bfp Bs i xi (sh_xu s) in
  let fAwxi := bfp Bs i xi (sh_xw s) in
  cs (col + 0)%nat*(2/a)*fAuxi*gAu + (1/2)*cs (col + 2)%nat*(2/a)*fAwxi*gAw*(2/a)*wxi.
(* /repo/panels/models/plate_clpt_donnell_bardell_num.pyx:1129 *)
Definition plate_calc_fint_eyy_term (Bs : basis) (s : shell) (cs : nat -> R) (col0 : nat) (xi eta wxi weta : R) (i j : nat) : R :=
  let col := dofpos col0 (sh_m s) i j in
  let b := sh_b s in
  let gAveta := bfp Bs j eta (sh_yv s) in
  let gAweta := bfp Bs j eta (sh_yw s) in
  let fAv := bf Bs i xi (sh_xv s) in
  let fAw := bf Bs i xi (sh_xw s) in
  cs (col + 1)%nat*(2/b)*fAv*gAveta + (1/2)*cs (col + 2)%nat*(2/b)*fAw*gAweta*(2/b)*weta.
(* /repo/panels/models/plate_clpt_donnell_bardell_num.pyx:1130 *)
Definition plate_calc_fint_gxy_term (Bs : basis) (s : shell) (cs : nat -> R) (col0 : nat) (xi eta wxi weta : R) (i j : nat) : R :=
  let col := dofpos col0 (sh_m s) i j in
  let a := sh_a s in
  let b := sh_b s in
  let gAueta := bfp Bs j eta (sh_yu s) in
  let gAv := bf Bs j eta (sh_yv s) in
  let gAw := bf Bs j eta (sh_yw s) in
  let gAweta := bfp Bs j eta (sh_yw s) in
  let fAu := bf Bs i xi (sh_xu s) in
  let fAvxi := bfp Bs i xi (sh_xv s) in
  let fAw := bf Bs i xi (sh_xw s) in
  let fAwxi := bfp Bs i xi (sh_xw s) in
  cs (col + 0)%nat*(2/b)*fAu*gAueta + cs (col + 1)%nat*(2/a)*fAvxi*gAv + cs (col + 2)%nat*(2/b)*weta*(2/a)*
      fAwxi*gAw + cs (col + 2)%nat*(2/a)*wxi*(2/b)*fAw*gAweta.
(* /repo/panels/models/plate_clpt_donnell_bardell_num.pyx:1131 *)
Definition plate_calc_fint_kxx_term (Bs : basis) (s : shell) (cs : nat -> R) (col0 : nat) (xi eta wxi weta : R) (i j : nat) : R :=
  let col := dofpos col0 (sh_m s) i j in
  let a := sh_a s in
  let gAw := bf Bs j eta (sh_yw s) in
  let fAwxixi := bfpp Bs i xi (sh_xw s) in
  -cs (col + 2)%nat*(2/a*2/a)*fAwxixi*gAw.
(* /repo/panels/models/plate_clpt_donnell_bardell_num.pyx:1132 *)
Definition plate_calc_fint_kyy_term (Bs : basis) (s : shell) (cs : nat -> R) (col0 : nat) (xi eta wxi weta : R) (i j : nat) : R :=
  let col := dofpos col0 (sh_m s) i j in
  let b := sh_b s in
  let gAwetaeta := bfpp Bs j eta (sh_yw s) in
  let fAw := bf Bs i xi (sh_xw s) in
  -cs (col + 2)%nat*(2/b*2/b)*fAw*gAwetaeta.
(* /repo/panels/models/plate_clpt_donnell_bardell_num.pyx:1133 *)
Definition plate_calc_fint_kxy_term (Bs : basis) (s : shell) (cs : nat -> R) (col0 : nat) (xi eta wxi weta : R) (i j : nat) : R :=
  let col := dofpos col0 (sh_m s) i j in
  let a := sh_a s in
  let b := sh_b s in
  let gAweta := bfp Bs j eta (sh_yw s) in
  let fAwxi := bfp Bs i xi (sh_xw s) in
  -2*cs (col + 2)%nat*(2/a*2/b)*fAwxi*gAweta.
(* /repo/panels/models/plate_clpt_donnell_bardell_num.pyx:1136 *)
Definition plate_calc_fint_Nxx (F : nat -> nat -> R) (exx eyy gxy kxx kyy kxy : R) : R :=
  let A11 := F 0%nat 0%nat in
  let A12 := F 0%nat 1%nat in
  let A16 := F 0%nat 2%nat in
  let B11 := F 0%nat 3%nat in
  let B12 := F 0%nat 4%nat in
  let B16 := F 0%nat 5%nat in
  A11*exx + A12*eyy + A16*gxy + B11*kxx + B12*kyy + B16*kxy.
(* /repo/panels/models/plate_clpt_donnell_bardell_num.pyx:1137 *)
Definition plate_calc_fint_Nyy (F : nat -> nat -> R) (exx eyy gxy kxx kyy kxy : R) : R :=
  let A12 := F 0%nat 1%nat in
  let A22 := F 1%nat 1%nat in
  let A26 := F 1%nat 2%nat in
  let B12 := F 0%nat 4%nat in
  let B22 := F 1%nat 4%nat in
  let B26 := F 1%nat 5%nat in
  A12*exx + A22*eyy + A26*gxy + B12*kxx + B22*kyy + B26*kxy.
(* /repo/panels/models/plate_clpt_donnell_bardell_num.pyx:1138 *)
Definition plate_calc_fint_Nxy (F : nat -> nat -> R) (exx eyy gxy kxx kyy kxy : R) : R :=
  let A16 := F 0%nat 2%nat in
  let A26 := F 1%nat 2%nat in
  let A66 := F 2%nat 2%nat in
  let B16 := F 0%nat 5%nat in
  let B26 := F 1%nat 5%nat in
  let B66 := F 2%nat 5%nat in
  A16*exx + A26*eyy + A66*gxy + B16*kxx + B26*kyy + B66*kxy.
(* /repo/panels/models/plate_clpt_donnell_bardell_num.pyx:1139 *)
Definition plate_calc_fint_Mxx (F : nat -> nat -> R) (exx eyy gxy kxx kyy kxy : R) : R :=
  let B11 := F 0%nat 3%nat in
  let B12 := F 0%nat 4%nat in
  let B16 := F 0%nat 5%nat in
  let D11 := F 3%nat 3%nat in
  let D12 := F 3%nat 4%nat in
  let D16 := F 3%nat 5%nat in
  B11*exx + B12*eyy + B16*gxy + D11*kxx + D12*kyy + D16*kxy.
(* /repo/panels/models/plate_clpt_donnell_bardell_num.pyx:1140 *)
Definition plate_calc_fint_Myy (F : nat -> nat -> R) (exx eyy gxy kxx kyy kxy : R) : R :=
  let B12 := F 0%nat 4%nat in
  let B22 := F 1%nat 4%nat in
  let B26 := F 1%nat 5%nat in
  let D12 := F 3%nat 4%nat in
  let D22 := F 4%nat 4%nat in
  let D26 := F 4%nat 5%nat in
  B12*exx + B22*eyy + B26*gxy + D12*kxx + D22*kyy + D26*kxy.
(* /repo/panels/models/plate_clpt_donnell_bardell_num.pyx:1141 *)
Definition plate_calc_fint_Mxy (F : nat -> nat -> R) (exx eyy gxy kxx kyy kxy : R) : R :=
  let B16 := F 0%nat 5%nat in
  let B26 := F 1%nat 5%nat in
  let B66 := F 2%nat 5%nat in
  let D16 := F 3%nat 5%nat in
  let D26 := F 4%nat 5%nat in
  let D66 := F 5%nat 5%nat in
  B16*exx + B26*eyy + B66*gxy + D16*kxx + D26*kyy + D66*kxy.
(* /repo/panels/models/plate_clpt_donnell_bardell_num.pyx:1163, 1164, 1165 *)
Definition plate_calc_fint_ker (Bs : basis) (s : shell) (xi eta weight intx inty wxi weta Nxx Nyy Nxy Mxx Myy Mxy : R) (i j : nat) : list (nat * R) :=
  let a := sh_a s in
  let b := sh_b s in
  let gAu := bf Bs j eta (sh_yu s) in
  let gAueta := bfp Bs j eta (sh_yu s) in
  let gAv := bf Bs j eta (sh_yv s) in
  let gAveta := bfp Bs j eta (sh_yv s) in
  let gAw := bf Bs j eta (sh_yw s) in
  let gAweta := bfp Bs j eta (sh_yw s) in
  let gAwetaeta := bfpp Bs j eta (sh_yw s) in
  let fAu := bf Bs i xi (sh_xu s) in
  let fAuxi := bfp Bs i xi (sh_xu s) in
  let fAv := bf Bs i xi (sh_xv s) in
  let fAvxi := bfp Bs i xi (sh_xv s) in
  let fAw := bf Bs i xi (sh_xw s) in
  let fAwxi := bfp Bs i xi (sh_xw s) in
  let fAwxixi := bfpp Bs i xi (sh_xw s) in
  [ (0%nat, weight*(intx*inty*(Nxx*b*fAuxi*gAu + Nxy*a*fAu*gAueta)/(2*a*b)));
    (1%nat, weight*(intx*inty*(Nxy*b*fAvxi*gAv + Nyy*a*fAv*gAveta)/(2*a*b)));
    (2%nat, weight*(intx*inty*((a*a)*fAw*(-Myy*gAwetaeta + Nyy*gAweta*weta) + a*b*(-2*Mxy*fAwxi*gAweta + Nxy*(fAw*
      gAweta*wxi + fAwxi*gAw*weta)) + (b*b)*gAw*(-Mxx*fAwxixi + Nxx*fAwxi*wxi))/((a*a)*(b*b)))) ].

