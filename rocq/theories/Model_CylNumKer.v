(* GENERATED by tools/gen_kernels.py: expressions transcribed from the cited .pyx lines.
   Decimals are written as fractions; double arithmetic is modelled by real arithmetic. *)
From Coq Require Import Reals List.
From Verif Require Import Base_Sum Model_Types Model_Coo.
Import ListNotations.
Open Scope R_scope.

(* /repo/panels/models/cylshell_clpt_donnell_bardell_num.pyx:26-283, loop nest ikjl, innermost block; triplets at lines 239, 244, 249, 254, 259, 264, 269, 274, 279 *)
Definition cyl_fkC_num_ker (Bs : basis) (s : shell) (F : nat -> nat -> R) (xi eta weight intx inty : R) (wxi weta : R) (i k j l : nat) : block :=
  let a := sh_a s in
  let b := sh_b s in
  let r := sh_r s in
  let A11 := F 0%nat 0%nat in
  let A12 := F 0%nat 1%nat in
  let A16 := F 0%nat 2%nat in
  let A22 := F 1%nat 1%nat in
  let A26 := F 1%nat 2%nat in
  let A66 := F 2%nat 2%nat in
  let B11 := F 0%nat 3%nat in
  let B12 := F 0%nat 4%nat in
  let B16 := F 0%nat 5%nat in
  let B22 := F 1%nat 4%nat in
  let B26 := F 1%nat 5%nat in
  let B66 := F 2%nat 5%nat in
  let D11 := F 3%nat 3%nat in
  let D12 := F 3%nat 4%nat in
  let D16 := F 3%nat 5%nat in
  let D22 := F 4%nat 4%nat in
  let D26 := F 4%nat 5%nat in
  let D66 := F 5%nat 5%nat in
  let fAu := bf Bs i xi (sh_xu s) in
  let fAuxi := bfp Bs i xi (sh_xu s) in
  let fAv := bf Bs i xi (sh_xv s) in
  let fAvxi := bfp Bs i xi (sh_xv s) in
  let fAw := bf Bs i xi (sh_xw s) in
  let fAwxi := bfp Bs i xi (sh_xw s) in
  let fAwxixi := bfpp Bs i xi (sh_xw s) in
  let fBu := bf Bs k xi (sh_xu s) in
  let fBuxi := bfp Bs k xi (sh_xu s) in
  let fBv := bf Bs k xi (sh_xv s) in
  let fBvxi := bfp Bs k xi (sh_xv s) in
  let fBw := bf Bs k xi (sh_xw s) in
  let fBwxi := bfp Bs k xi (sh_xw s) in
  let fBwxixi := bfpp Bs k xi (sh_xw s) in
  let gAu := bf Bs j eta (sh_yu s) in
  let gAueta := bfp Bs j eta (sh_yu s) in
  let gAv := bf Bs j eta (sh_yv s) in
  let gAveta := bfp Bs j eta (sh_yv s) in
  let gAw := bf Bs j eta (sh_yw s) in
  let gAweta := bfp Bs j eta (sh_yw s) in
  let gAwetaeta := bfpp Bs j eta (sh_yw s) in
  let gBu := bf Bs l eta (sh_yu s) in
  let gBueta := bfp Bs l eta (sh_yu s) in
  let gBv := bf Bs l eta (sh_yv s) in
  let gBveta := bfp Bs l eta (sh_yv s) in
  let gBw := bf Bs l eta (sh_yw s) in
  let gBweta := bfp Bs l eta (sh_yw s) in
  let gBwetaeta := bfpp Bs l eta (sh_yw s) in
  [ (0%nat, 0%nat, weight*(A11*fAuxi*fBuxi*gAu*gBu*intx*inty/(a*a) + A16*intx*inty*(fAu*fBuxi*gAueta*gBu + fAuxi*
      fBu*gAu*gBueta)/(a*b) + A66*fAu*fBu*gAueta*gBueta*intx*inty/(b*b)));
    (0%nat, 1%nat, weight*(A12*fAuxi*fBv*gAu*gBveta*intx*inty/(a*b) + A16*fAuxi*fBvxi*gAu*gBv*intx*inty/(a*a) + 
      A26*fAu*fBv*gAueta*gBveta*intx*inty/(b*b) + A66*fAu*fBvxi*gAueta*gBv*intx*inty/(a*b)));
    (0%nat, 2%nat, weight*(2*A11*fAuxi*fBwxi*gAu*gBw*intx*inty*wxi/(a*a*a) + (1/2)*A12*fAuxi*fBw*gAu*intx*inty*
      (gBw/r + 4*gBweta*weta/(b*b))/a + 2*A16*intx*inty*(fAu*fBwxi*gAueta*gBw*wxi + fAuxi*gAu*(fBw*gBweta*wxi 
      + fBwxi*gBw*weta))/((a*a)*b) + (1/2)*A26*fAu*fBw*gAueta*intx*inty*((b*b)*gBw + 4*gBweta*r*weta)/((b*b*
      b)*r) + 2*A66*fAu*gAueta*intx*inty*(fBw*gBweta*wxi + fBwxi*gBw*weta)/(a*(b*b)) - 2*B11*fAuxi*fBwxixi*
      gAu*gBw*intx*inty/(a*a*a) - 2*B12*fAuxi*fBw*gAu*gBwetaeta*intx*inty/(a*(b*b)) - 2*B16*intx*inty*(fAu*
      fBwxixi*gAueta*gBw + 2*fAuxi*fBwxi*gAu*gBweta)/((a*a)*b) - 2*B26*fAu*fBw*gAueta*gBwetaeta*intx*inty/(b*
      b*b) - 4*B66*fAu*fBwxi*gAueta*gBweta*intx*inty/(a*(b*b))));
    (1%nat, 0%nat, weight*(A12*fAv*fBuxi*gAveta*gBu*intx*inty/(a*b) + A16*fAvxi*fBuxi*gAv*gBu*intx*inty/(a*a) + 
      A26*fAv*fBu*gAveta*gBueta*intx*inty/(b*b) + A66*fAvxi*fBu*gAv*gBueta*intx*inty/(a*b)));
    (1%nat, 1%nat, weight*(A22*fAv*fBv*gAveta*gBveta*intx*inty/(b*b) + A26*intx*inty*(fAv*fBvxi*gAveta*gBv + 
      fAvxi*fBv*gAv*gBveta)/(a*b) + A66*fAvxi*fBvxi*gAv*gBv*intx*inty/(a*a)));
    (1%nat, 2%nat, weight*(2*A12*fAv*fBwxi*gAveta*gBw*intx*inty*wxi/((a*a)*b) + 2*A16*fAvxi*fBwxi*gAv*gBw*intx*
      inty*wxi/(a*a*a) + (1/2)*A22*fAv*fBw*gAveta*intx*inty*((b*b)*gBw + 4*gBweta*r*weta)/((b*b*b)*r) + (1/2)*
      A26*intx*inty*((b*b)*fAvxi*fBw*gAv*gBw + 4*r*(fAv*gAveta*(fBw*gBweta*wxi + fBwxi*gBw*weta) + fAvxi*fBw*
      gAv*gBweta*weta))/(a*(b*b)*r) + 2*A66*fAvxi*gAv*intx*inty*(fBw*gBweta*wxi + fBwxi*gBw*weta)/((a*a)*b) - 
      2*B12*fAv*fBwxixi*gAveta*gBw*intx*inty/((a*a)*b) - 2*B16*fAvxi*fBwxixi*gAv*gBw*intx*inty/(a*a*a) - 2*
      B22*fAv*fBw*gAveta*gBwetaeta*intx*inty/(b*b*b) - 2*B26*intx*inty*(2*fAv*fBwxi*gAveta*gBweta + fAvxi*fBw*
      gAv*gBwetaeta)/(a*(b*b)) - 4*B66*fAvxi*fBwxi*gAv*gBweta*intx*inty/((a*a)*b)));
    (2%nat, 0%nat, weight*(2*A11*fAwxi*fBuxi*gAw*gBu*intx*inty*wxi/(a*a*a) + (1/2)*A12*fAw*fBuxi*gBu*intx*inty*
      (gAw/r + 4*gAweta*weta/(b*b))/a + 2*A16*intx*inty*(fAw*fBuxi*gAweta*gBu*wxi + fAwxi*gAw*(fBu*gBueta*wxi 
      + fBuxi*gBu*weta))/((a*a)*b) + (1/2)*A26*fAw*fBu*gBueta*intx*inty*((b*b)*gAw + 4*gAweta*r*weta)/((b*b*
      b)*r) + 2*A66*fBu*gBueta*intx*inty*(fAw*gAweta*wxi + fAwxi*gAw*weta)/(a*(b*b)) - 2*B11*fAwxixi*fBuxi*
      gAw*gBu*intx*inty/(a*a*a) - 2*B12*fAw*fBuxi*gAwetaeta*gBu*intx*inty/(a*(b*b)) - 2*B16*intx*inty*(2*
      fAwxi*fBuxi*gAweta*gBu + fAwxixi*fBu*gAw*gBueta)/((a*a)*b) - 2*B26*fAw*fBu*gAwetaeta*gBueta*intx*inty/
      (b*b*b) - 4*B66*fAwxi*fBu*gAweta*gBueta*intx*inty/(a*(b*b))));
    (2%nat, 1%nat, weight*(2*A12*fAwxi*fBv*gAw*gBveta*intx*inty*wxi/((a*a)*b) + 2*A16*fAwxi*fBvxi*gAw*gBv*intx*
      inty*wxi/(a*a*a) + (1/2)*A22*fAw*fBv*gBveta*intx*inty*((b*b)*gAw + 4*gAweta*r*weta)/((b*b*b)*r) + (1/2)*
      A26*intx*inty*((b*b)*fAw*fBvxi*gAw*gBv + 4*r*(fAw*gAweta*(fBv*gBveta*wxi + fBvxi*gBv*weta) + fAwxi*fBv*
      gAw*gBveta*weta))/(a*(b*b)*r) + 2*A66*fBvxi*gBv*intx*inty*(fAw*gAweta*wxi + fAwxi*gAw*weta)/((a*a)*b) - 
      2*B12*fAwxixi*fBv*gAw*gBveta*intx*inty/((a*a)*b) - 2*B16*fAwxixi*fBvxi*gAw*gBv*intx*inty/(a*a*a) - 2*
      B22*fAw*fBv*gAwetaeta*gBveta*intx*inty/(b*b*b) - 2*B26*intx*inty*(fAw*fBvxi*gAwetaeta*gBv + 2*fAwxi*fBv*
      gAweta*gBveta)/(a*(b*b)) - 4*B66*fAwxi*fBvxi*gAweta*gBv*intx*inty/((a*a)*b)));
    (2%nat, 2%nat, weight*(4*A11*fAwxi*fBwxi*gAw*gBw*intx*inty*(wxi*wxi)/(a*a*a*a) + A12*intx*inty*wxi*((b*b)*gAw*
      gBw*(fAw*fBwxi + fAwxi*fBw) + r*weta*(4*fAw*fBwxi*gAweta*gBw + 4*fAwxi*fBw*gAw*gBweta))/((a*a)*(b*b)*r) 
      + 4*A16*intx*inty*wxi*(fAw*fBwxi*gAweta*gBw*wxi + fAwxi*gAw*(fBw*gBweta*wxi + 2*fBwxi*gBw*weta))/((a*a*
      a)*b) + (1/4)*A22*fAw*fBw*intx*inty*((b*b)*gAw + 4*gAweta*r*weta)*((b*b)*gBw + 4*gBweta*r*weta)/((b*b*b*
      b)*(r*r)) + A26*intx*inty*((b*b)*(fAw*(fBw*gAw*gBweta*wxi + fBw*gAweta*gBw*wxi + fBwxi*gAw*gBw*weta) + 
      fAwxi*fBw*gAw*gBw*weta) + 4*r*weta*(fAw*gAweta*(2*fBw*gBweta*wxi + fBwxi*gBw*weta) + fAwxi*fBw*gAw*
      gBweta*weta))/(a*(b*b*b)*r) + 4*A66*intx*inty*(fAw*gAweta*wxi + fAwxi*gAw*weta)*(fBw*gBweta*wxi + fBwxi*
      gBw*weta)/((a*a)*(b*b)) - 4*B11*gAw*gBw*intx*inty*wxi*(fAwxi*fBwxixi + fAwxixi*fBwxi)/(a*a*a*a) - B12*
      intx*inty*((b*b)*gAw*gBw*(fAw*fBwxixi + fAwxixi*fBw) + 4*r*(fAw*gBw*(fBwxi*gAwetaeta*wxi + fBwxixi*
      gAweta*weta) + fBw*gAw*(fAwxi*gBwetaeta*wxi + fAwxixi*gBweta*weta)))/((a*a)*(b*b)*r) - 4*B16*intx*inty*
      (fAw*fBwxixi*gAweta*gBw*wxi + fAwxi*(2*fBwxi*gAw*gBweta*wxi + 2*fBwxi*gAweta*gBw*wxi + fBwxixi*gAw*gBw*
      weta) + fAwxixi*gAw*(fBw*gBweta*wxi + fBwxi*gBw*weta))/((a*a*a)*b) - B22*fAw*fBw*intx*inty*((b*b)*(gAw*
      gBwetaeta + gAwetaeta*gBw) + r*weta*(4*gAweta*gBwetaeta + 4*gAwetaeta*gBweta))/((b*b*b*b)*r) - 2*B26*
      intx*inty*((b*b)*(fAw*fBwxi*gAw*gBweta + fAwxi*fBw*gAweta*gBw) + 2*r*(fAw*(fBw*gAweta*gBwetaeta*wxi + 
      fBw*gAwetaeta*gBweta*wxi + 2*fBwxi*gAweta*gBweta*weta + fBwxi*gAwetaeta*gBw*weta) + fAwxi*fBw*weta*(gAw*
      gBwetaeta + 2*gAweta*gBweta)))/(a*(b*b*b)*r) - 8*B66*intx*inty*(fAw*fBwxi*gAweta*gBweta*wxi + fAwxi*
      (fBw*gAweta*gBweta*wxi + fBwxi*weta*(gAw*gBweta + gAweta*gBw)))/((a*a)*(b*b)) + 4*D11*fAwxixi*fBwxixi*
      gAw*gBw*intx*inty/(a*a*a*a) + 4*D12*intx*inty*(fAw*fBwxixi*gAwetaeta*gBw + fAwxixi*fBw*gAw*gBwetaeta)/
      ((a*a)*(b*b)) + 8*D16*intx*inty*(fAwxi*fBwxixi*gAweta*gBw + fAwxixi*fBwxi*gAw*gBweta)/((a*a*a)*b) + 4*
      D22*fAw*fBw*gAwetaeta*gBwetaeta*intx*inty/(b*b*b*b) + 8*D26*intx*inty*(fAw*fBwxi*gAwetaeta*gBweta + 
      fAwxi*fBw*gAweta*gBwetaeta)/(a*(b*b*b)) + 16*D66*fAwxi*fBwxi*gAweta*gBweta*intx*inty/((a*a)*(b*b)))) ].

(* /repo/panels/models/cylshell_clpt_donnell_bardell_num.pyx:286-518, loop nest jlik, innermost block; triplets at lines 511 *)
Definition cyl_fkG_num_ker (Bs : basis) (s : shell) (xi eta weight intx inty : R) (Nxx Nyy Nxy : R) (i k j l : nat) : block :=
  let a := sh_a s in
  let b := sh_b s in
  let gAw := bf Bs j eta (sh_yw s) in
  let gAweta := bfp Bs j eta (sh_yw s) in
  let gBw := bf Bs l eta (sh_yw s) in
  let gBweta := bfp Bs l eta (sh_yw s) in
  let fAw := bf Bs i xi (sh_xw s) in
  let fAwxi := bfp Bs i xi (sh_xw s) in
  let fBw := bf Bs k xi (sh_xw s) in
  let fBwxi := bfp Bs k xi (sh_xw s) in
  [ (2%nat, 2%nat, weight*(intx*inty/4)*(Nxx*(2/a)*fAwxi*gAw*(2/a)*fBwxi*gBw + Nxy*((2/b)*fAw*gAweta*(2/a)*fBwxi*
      gBw + (2/a)*fAwxi*gAw*(2/b)*fBw*gBweta) + Nyy*(2/b)*fAw*gAweta*(2/b)*fBw*gBweta)) ].

(* /repo/panels/models/cylshell_clpt_donnell_bardell_num.pyx:527-640, loop nest ikjl, innermost block; triplets at lines 636 *)
Definition cyl_fkAx_num_ker (Bs : basis) (s : shell) (xi eta weight intx inty : R) (i k j l : nat) : block :=
  let a := sh_a s in
  let beta := sh_beta s in
  let gamma := sh_gamma s in
  let fAw := bf Bs i xi (sh_xw s) in
  let fAwxi := bfp Bs i xi (sh_xw s) in
  let fBw := bf Bs k xi (sh_xw s) in
  let gAw := bf Bs j eta (sh_yw s) in
  let gBw := bf Bs l eta (sh_yw s) in
  [ (2%nat, 2%nat, weight*((1/4)*intx*inty*(fAw*fBw*gAw*gBw*gamma - 2*beta*fAwxi*fBw*gAw*gBw/a))) ].

(* /repo/panels/models/cylshell_clpt_donnell_bardell_num.pyx:439 *)
Definition cyl_fkG_num_wxi_term (Bs : basis) (s : shell) (cs : nat -> R) (col0 : nat) (xi eta : R) (i j : nat) : R :=
  let col := dofpos col0 (sh_m s) i j in
  let gAw := bf Bs j eta (sh_yw s) in
  let fAwxi := bfp Bs i xi (sh_xw s) in
  cs (col + 2)%nat*fAwxi*gAw.
(* /repo/panels/models/cylshell_clpt_donnell_bardell_num.pyx:440 *)
Definition cyl_fkG_num_weta_term (Bs : basis) (s : shell) (cs : nat -> R) (col0 : nat) (xi eta : R) (i j : nat) : R :=
  let col := dofpos col0 (sh_m s) i j in
  let gAweta := bfp Bs j eta (sh_yw s) in
  let fAw := bf Bs i xi (sh_xw s) in
  cs (col + 2)%nat*fAw*gAweta.
(* /repo/panels/models/cylshell_clpt_donnell_bardell_num.pyx:470 *)
Definition cyl_fkG_num_exx_term (Bs : basis) (s : shell) (cs : nat -> R) (col0 : nat) (xi eta wxi weta : R) (i j : nat) : R :=
  let col := dofpos col0 (sh_m s) i j in
  let a := sh_a s in
  let gAu := bf Bs j eta (sh_yu s) in
  let fAuxi := bfp Bs i xi (sh_xu s) in
  let gAw := bf Bs j eta (sh_yw s) in
  let fAwxi := bfp Bs i xi (sh_xw s) in
  cs (col + 0)%nat*(2/a)*fAuxi*gAu + (1/2)*cs (col + 2)%nat*(2/a)*fAwxi*gAw*(2/a)*wxi.
(* /repo/panels/models/cylshell_clpt_donnell_bardell_num.pyx:471 *)
Definition cyl_fkG_num_eyy_term (Bs : basis) (s : shell) (cs : nat -> R) (col0 : nat) (xi eta wxi weta : R) (i j : nat) : R :=
  let col := dofpos col0 (sh_m s) i j in
  let b := sh_b s in
  let r := sh_r s in
  let gAveta := bfp Bs j eta (sh_yv s) in
  let fAv := bf Bs i xi (sh_xv s) in
  let gAw := bf Bs j eta (sh_yw s) in
  let gAweta := bfp Bs j eta (sh_yw s) in
  let fAw := bf Bs i xi (sh_xw s) in
  cs (col + 1)%nat*(2/b)*fAv*gAveta + 1/r*cs (col + 2)%nat*fAw*gAw + (1/2)*cs (col + 2)%nat*(2/b)*fAw*gAweta*(2/
      b)*weta.
(* /repo/panels/models/cylshell_clpt_donnell_bardell_num.pyx:472 *)
Definition cyl_fkG_num_gxy_term (Bs : basis) (s : shell) (cs : nat -> R) (col0 : nat) (xi eta wxi weta : R) (i j : nat) : R :=
  let col := dofpos col0 (sh_m s) i j in
  let a := sh_a s in
  let b := sh_b s in
  let gAv := bf Bs j eta (sh_yv s) in
  let gAueta := bfp Bs j eta (sh_yu s) in
  let fAu := bf Bs i xi (sh_xu s) in
  let fAvxi := bfp Bs i xi (sh_xv s) in
  let gAw := bf Bs j eta (sh_yw s) in
  let gAweta := bfp Bs j eta (sh_yw s) in
  let fAw := bf Bs i xi (sh_xw s) in
  let fAwxi := bfp Bs i xi (sh_xw s) in
  cs (col + 0)%nat*(2/b)*fAu*gAueta + cs (col + 1)%nat*(2/a)*fAvxi*gAv + cs (col + 2)%nat*(2/b)*weta*(2/a)*
      fAwxi*gAw + cs (col + 2)%nat*(2/a)*wxi*(2/b)*fAw*gAweta.
(* /repo/panels/models/cylshell_clpt_donnell_bardell_num.pyx:473 *)
Definition cyl_fkG_num_kxx_term (Bs : basis) (s : shell) (cs : nat -> R) (col0 : nat) (xi eta wxi weta : R) (i j : nat) : R :=
  let col := dofpos col0 (sh_m s) i j in
  let a := sh_a s in
  let fAwxixi := bfpp Bs i xi (sh_xw s) in
  let gAw := bf Bs j eta (sh_yw s) in
  -cs (col + 2)%nat*(2/a*2/a)*fAwxixi*gAw.
(* /repo/panels/models/cylshell_clpt_donnell_bardell_num.pyx:474 *)
Definition cyl_fkG_num_kyy_term (Bs : basis) (s : shell) (cs : nat -> R) (col0 : nat) (xi eta wxi weta : R) (i j : nat) : R :=
  let col := dofpos col0 (sh_m s) i j in
  let b := sh_b s in
  let gAwetaeta := bfpp Bs j eta (sh_yw s) in
  let fAw := bf Bs i xi (sh_xw s) in
  -cs (col + 2)%nat*(2/b*2/b)*fAw*gAwetaeta.
(* /repo/panels/models/cylshell_clpt_donnell_bardell_num.pyx:475 *)
Definition cyl_fkG_num_kxy_term (Bs : basis) (s : shell) (cs : nat -> R) (col0 : nat) (xi eta wxi weta : R) (i j : nat) : R :=
  let col := dofpos col0 (sh_m s) i j in
  let a := sh_a s in
  let b := sh_b s in
  let gAweta := bfp Bs j eta (sh_yw s) in
  let fAwxi := bfp Bs i xi (sh_xw s) in
  -2*cs (col + 2)%nat*(2/a)*fAwxi*(2/b)*gAweta.
(* /repo/panels/models/cylshell_clpt_donnell_bardell_num.pyx:478 *)
Definition cyl_fkG_num_Nxx (Nxx0 Nyy0 Nxy0 : R) (F : nat -> nat -> R) (exx eyy gxy kxx kyy kxy : R) : R :=
  let A11 := F 0%nat 0%nat in
  let A12 := F 0%nat 1%nat in
  let A16 := F 0%nat 2%nat in
  let B11 := F 0%nat 3%nat in
  let B12 := F 0%nat 4%nat in
  let B16 := F 0%nat 5%nat in
  Nxx0 + A11*exx + A12*eyy + A16*gxy + B11*kxx + B12*kyy + B16*kxy.
(* /repo/panels/models/cylshell_clpt_donnell_bardell_num.pyx:479 *)
Definition cyl_fkG_num_Nyy (Nxx0 Nyy0 Nxy0 : R) (F : nat -> nat -> R) (exx eyy gxy kxx kyy kxy : R) : R :=
  let A12 := F 0%nat 1%nat in
  let A22 := F 1%nat 1%nat in
  let A26 := F 1%nat 2%nat in
  let B12 := F 0%nat 4%nat in
  let B22 := F 1%nat 4%nat in
  let B26 := F 1%nat 5%nat in
  Nyy0 + A12*exx + A22*eyy + A26*gxy + B12*kxx + B22*kyy + B26*kxy.
(* /repo/panels/models/cylshell_clpt_donnell_bardell_num.pyx:480 *)
Definition cyl_fkG_num_Nxy (Nxx0 Nyy0 Nxy0 : R) (F : nat -> nat -> R) (exx eyy gxy kxx kyy kxy : R) : R :=
  let A16 := F 0%nat 2%nat in
  let A26 := F 1%nat 2%nat in
  let A66 := F 2%nat 2%nat in
  let B16 := F 0%nat 5%nat in
  let B26 := F 1%nat 5%nat in
  let B66 := F 2%nat 5%nat in
  Nxy0 + A16*exx + A26*eyy + A66*gxy + B16*kxx + B26*kyy + B66*kxy.

(* /repo/panels/models/cylshell_clpt_donnell_bardell_num.pyx:800 *)
Definition cyl_calc_fint_wxi_term (Bs : basis) (s : shell) (cs : nat -> R) (col0 : nat) (xi eta : R) (i j : nat) : R :=
  let col := dofpos col0 (sh_m s) i j in
  let gAw := bf Bs j eta (sh_yw s) in
  let fAwxi := bfp Bs i xi (sh_xw s) in
  cs (col + 2)%nat*fAwxi*gAw.
(* /repo/panels/models/cylshell_clpt_donnell_bardell_num.pyx:801 *)
Definition cyl_calc_fint_weta_term (Bs : basis) (s : shell) (cs : nat -> R) (col0 : nat) (xi eta : R) (i j : nat) : R :=
  let col := dofpos col0 (sh_m s) i j in
  let gAweta := bfp Bs j eta (sh_yw s) in
  let fAw := bf Bs i xi (sh_xw s) in
  cs (col + 2)%nat*fAw*gAweta.
(* /repo/panels/models/cylshell_clpt_donnell_bardell_num.pyx:833 *)
Definition cyl_calc_fint_exx_term (Bs : basis) (s : shell) (cs : nat -> R) (col0 : nat) (xi eta wxi weta : R) (i j : nat) : R :=
  let col := dofpos col0 (sh_m s) i j in
  let a := sh_a s in
  let gAu := bf Bs j eta (sh_yu s) in
  let gAw := bf Bs j eta (sh_yw s) in
  let fAuxi := bfp Bs i xi (sh_xu s) in
  let fAwxi := bfp Bs i xi (sh_xw s) in
  cs (col + 0)%nat*(2/a)*fAuxi*gAu + (1/2)*cs (col + 2)%nat*(2/a)*fAwxi*gAw*(2/a)*wxi.
(* /repo/panels/models/cylshell_clpt_donnell_bardell_num.pyx:834 *)
Definition cyl_calc_fint_eyy_term (Bs : basis) (s : shell) (cs : nat -> R) (col0 : nat) (xi eta wxi weta : R) (i j : nat) : R :=
  let col := dofpos col0 (sh_m s) i j in
  let b := sh_b s in
  let r := sh_r s in
  let gAveta := bfp Bs j eta (sh_yv s) in
  let gAw := bf Bs j eta (sh_yw s) in
  let gAweta := bfp Bs j eta (sh_yw s) in
  let fAv := bf Bs i xi (sh_xv s) in
  let fAw := bf Bs i xi (sh_xw s) in
  cs (col + 1)%nat*(2/b)*fAv*gAveta + 1/r*cs (col + 2)%nat*fAw*gAw + (1/2)*cs (col + 2)%nat*(2/b)*fAw*gAweta*(2/
      b)*weta.
(* /repo/panels/models/cylshell_clpt_donnell_bardell_num.pyx:835 *)
Definition cyl_calc_fint_gxy_term (Bs : basis) (s : shell) (cs : nat -> R) (col0 : nat) (xi eta wxi weta : R) (i j : nat) : R :=
  let col := dofpos col0 (sh_m s) i j in
  let a := sh_a s in
  let b := sh_b s in
  let gAueta := bfp Bs j eta (sh_yu s) in
  let gAv := bf Bs j eta (sh_yv s) in
  let gAw := bf Bs j eta (sh_yw s) in
  let gAweta := bfp Bs j eta (sh_yw s) in
  let fAu := bf Bs i xi (sh_xu s) in
  let fAvxi := bfp Bs i xi (sh_xv s) in
  let fAw := bf Bs i xi (sh_xw s) in
  let fAwxi := bfp Bs i xi (sh_xw s) in
  cs (col + 0)%nat*(2/b)*fAu*gAueta + cs (col + 1)%nat*(2/a)*fAvxi*gAv + cs (col + 2)%nat*(2/b)*weta*(2/a)*
      fAwxi*gAw + cs (col + 2)%nat*(2/a)*wxi*(2/b)*fAw*gAweta.
(* /repo/panels/models/cylshell_clpt_donnell_bardell_num.pyx:836 *)
Definition cyl_calc_fint_kxx_term (Bs : basis) (s : shell) (cs : nat -> R) (col0 : nat) (xi eta wxi weta : R) (i j : nat) : R :=
  let col := dofpos col0 (sh_m s) i j in
  let a := sh_a s in
  let gAw := bf Bs j eta (sh_yw s) in
  let fAwxixi := bfpp Bs i xi (sh_xw s) in
  -cs (col + 2)%nat*(2/a*2/a)*fAwxixi*gAw.
(* /repo/panels/models/cylshell_clpt_donnell_bardell_num.pyx:837 *)
Definition cyl_calc_fint_kyy_term (Bs : basis) (s : shell) (cs : nat -> R) (col0 : nat) (xi eta wxi weta : R) (i j : nat) : R :=
  let col := dofpos col0 (sh_m s) i j in
  let b := sh_b s in
  let gAwetaeta := bfpp Bs j eta (sh_yw s) in
  let fAw := bf Bs i xi (sh_xw s) in
  -cs (col + 2)%nat*(2/b*2/b)*fAw*gAwetaeta.
(* /repo/panels/models/cylshell_clpt_donnell_bardell_num.pyx:838 *)
Definition cyl_calc_fint_kxy_term (Bs : basis) (s : shell) (cs : nat -> R) (col0 : nat) (xi eta wxi weta : R) (i j : nat) : R :=
  let col := dofpos col0 (sh_m s) i j in
  let a := sh_a s in
  let b := sh_b s in
  let gAweta := bfp Bs j eta (sh_yw s) in
  let fAwxi := bfp Bs i xi (sh_xw s) in
  -2*cs (col + 2)%nat*(2/a*2/b)*fAwxi*gAweta.
(* /repo/panels/models/cylshell_clpt_donnell_bardell_num.pyx:841 *)
Definition cyl_calc_fint_Nxx (F : nat -> nat -> R) (exx eyy gxy kxx kyy kxy : R) : R :=
  let A11 := F 0%nat 0%nat in
  let A12 := F 0%nat 1%nat in
  let A16 := F 0%nat 2%nat in
  let B11 := F 0%nat 3%nat in
  let B12 := F 0%nat 4%nat in
  let B16 := F 0%nat 5%nat in
  A11*exx + A12*eyy + A16*gxy + B11*kxx + B12*kyy + B16*kxy.
(* /repo/panels/models/cylshell_clpt_donnell_bardell_num.pyx:842 *)
Definition cyl_calc_fint_Nyy (F : nat -> nat -> R) (exx eyy gxy kxx kyy kxy : R) : R :=
  let A12 := F 0%nat 1%nat in
  let A22 := F 1%nat 1%nat in
  let A26 := F 1%nat 2%nat in
  let B12 := F 0%nat 4%nat in
  let B22 := F 1%nat 4%nat in
  let B26 := F 1%nat 5%nat in
  A12*exx + A22*eyy + A26*gxy + B12*kxx + B22*kyy + B26*kxy.
(* /repo/panels/models/cylshell_clpt_donnell_bardell_num.pyx:843 *)
Definition cyl_calc_fint_Nxy (F : nat -> nat -> R) (exx eyy gxy kxx kyy kxy : R) : R :=
  let A16 := F 0%nat 2%nat in
  let A26 := F 1%nat 2%nat in
  let A66 := F 2%nat 2%nat in
  let B16 := F 0%nat 5%nat in
  let B26 := F 1%nat 5%nat in
  let B66 := F 2%nat 5%nat in
  A16*exx + A26*eyy + A66*gxy + B16*kxx + B26*kyy + B66*kxy.
(* /repo/panels/models/cylshell_clpt_donnell_bardell_num.pyx:844 *)
Definition cyl_calc_fint_Mxx (F : nat -> nat -> R) (exx eyy gxy kxx kyy kxy : R) : R :=
  let B11 := F 0%nat 3%nat in
  let B12 := F 0%nat 4%nat in
  let B16 := F 0%nat 5%nat in
  let D11 := F 3%nat 3%nat in
  let D12 := F 3%nat 4%nat in
  let D16 := F 3%nat 5%nat in
  B11*exx + B12*eyy + B16*gxy + D11*kxx + D12*kyy + D16*kxy.
(* /repo/panels/models/cylshell_clpt_donnell_bardell_num.pyx:845 *)
Definition cyl_calc_fint_Myy (F : nat -> nat -> R) (exx eyy gxy kxx kyy kxy : R) : R :=
  let B12 := F 0%nat 4%nat in
  let B22 := F 1%nat 4%nat in
  let B26 := F 1%nat 5%nat in
  let D12 := F 3%nat 4%nat in
  let D22 := F 4%nat 4%nat in
  let D26 := F 4%nat 5%nat in
  B12*exx + B22*eyy + B26*gxy + D12*kxx + D22*kyy + D26*kxy.
(* /repo/panels/models/cylshell_clpt_donnell_bardell_num.pyx:846 *)
Definition cyl_calc_fint_Mxy (F : nat -> nat -> R) (exx eyy gxy kxx kyy kxy : R) : R :=
  let B16 := F 0%nat 5%nat in
  let B26 := F 1%nat 5%nat in
  let B66 := F 2%nat 5%nat in
  let D16 := F 3%nat 5%nat in
  let D26 := F 4%nat 5%nat in
  let D66 := F 5%nat 5%nat in
  B16*exx + B26*eyy + B66*gxy + D16*kxx + D26*kyy + D66*kxy.
(* /repo/panels/models/cylshell_clpt_donnell_bardell_num.pyx:867, 868, 869 *)
Definition cyl_calc_fint_ker (Bs : basis) (s : shell) (xi eta weight intx inty wxi weta Nxx Nyy Nxy Mxx Myy Mxy : R) (i j : nat) : list (nat * R) :=
  let a := sh_a s in
  let b := sh_b s in
  let r := sh_r s in
  let gAu := bf Bs j eta (sh_yu s) in
  let gAueta := bfp Bs j eta (sh_yu s) in
  let gAv := bf Bs j eta (sh_yv s) in
  let gAveta := bfp Bs j eta (sh_yv s) in
  let gAw := bf Bs j eta (sh_yw s) in
  let gAweta := bfp Bs j eta (sh_yw s) in
  let gAwetaeta := bfpp Bs j eta (sh_yw s) in
  let fAu := bf Bs i xi (sh_xu s) in
  let fAuxi := bfp Bs i xi (sh_xu s) in
  let fAv := bf Bs i xi (sh_xv s) in
  let fAvxi := bfp Bs i xi (sh_xv s) in
  let fAw := bf Bs i xi (sh_xw s) in
  let fAwxi := bfp Bs i xi (sh_xw s) in
  let fAwxixi := bfpp Bs i xi (sh_xw s) in
  [ (0%nat, weight*((1/4)*intx*inty*(2*Nxx*fAuxi*gAu/a + 2*Nxy*fAu*gAueta/b)));
    (1%nat, weight*((1/4)*intx*inty*(2*Nxy*fAvxi*gAv/a + 2*Nyy*fAv*gAveta/b)));
    (2%nat, weight*((1/4)*intx*inty*(-4*Mxx*fAwxixi*gAw/(a*a) - 8*Mxy*fAwxi*gAweta/(a*b) - 4*Myy*fAw*gAwetaeta/(b*
      b) + 4*Nxx*fAwxi*gAw*wxi/(a*a) + 4*Nxy*(fAw*gAweta*wxi + fAwxi*gAw*weta)/(a*b) + Nyy*(fAw*gAw/r + 4*fAw*
      gAweta*weta/(b*b))))) ].

