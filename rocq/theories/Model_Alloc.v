(* GENERATED by tools/gen_alloc.py: the lengths of the arrays of rows, columns and values that the
   assembly kernels allocate (np.zeros((fdim,), ...)). Definitions only. *)
From Coq Require Import Arith.

(* /repo/panels/models/plate_clpt_donnell_bardell.pyx:86 *)
Definition fdim_plate_fk0 (m n : nat) : nat := (9 * m * m * n * n)%nat.
(* /repo/panels/models/plate_clpt_donnell_bardell.pyx:296 *)
Definition fdim_plate_fkG0 (m n : nat) : nat := (1 * m * m * n * n)%nat.
(* /repo/panels/models/plate_clpt_donnell_bardell.pyx:371 *)
Definition fdim_plate_fkM (m n : nat) : nat := (7 * m * n * m * n)%nat.
(* /repo/panels/models/plate_clpt_donnell_bardell.pyx:467 *)
Definition fdim_plate_fkAx (m n : nat) : nat := (1 * m * n * m * n)%nat.
(* /repo/panels/models/plate_clpt_donnell_bardell.pyx:524 *)
Definition fdim_plate_fkAy (m n : nat) : nat := (1 * m * n * m * n)%nat.
(* /repo/panels/models/plate_clpt_donnell_bardell.pyx:581 *)
Definition fdim_plate_fcA (m n : nat) : nat := (1 * m * n * m * n)%nat.
(* /repo/panels/models/cylshell_clpt_donnell_bardell.pyx:88 *)
Definition fdim_cyl_fk0 (m n : nat) : nat := (9 * m * m * n * n)%nat.
(* /repo/panels/models/cylshell_clpt_donnell_bardell.pyx:298 *)
Definition fdim_cyl_fkG0 (m n : nat) : nat := (1 * m * m * n * n)%nat.
(* /repo/panels/models/cylshell_clpt_donnell_bardell.pyx:373 *)
Definition fdim_cyl_fkM (m n : nat) : nat := (7 * m * n * m * n)%nat.
(* /repo/panels/models/cylshell_clpt_donnell_bardell.pyx:469 *)
Definition fdim_cyl_fkAx (m n : nat) : nat := (1 * m * n * m * n)%nat.
(* /repo/panels/models/cylshell_clpt_donnell_bardell.pyx:527 *)
Definition fdim_cyl_fkAy (m n : nat) : nat := (1 * m * n * m * n)%nat.
(* /repo/panels/models/cylshell_clpt_donnell_bardell.pyx:584 *)
Definition fdim_cyl_fcA (m n : nat) : nat := (1 * m * n * m * n)%nat.
(* /repo/panels/models/plate_clpt_donnell_bardell_num.pyx:96 *)
Definition fdim_plate_fkC_num (m n : nat) : nat := (9 * m * m * n * n)%nat.
(* /repo/panels/models/plate_clpt_donnell_bardell_num.pyx:357 *)
Definition fdim_plate_fkG_num (m n : nat) : nat := (1 * m * m * n * n)%nat.
(* /repo/panels/models/plate_clpt_donnell_bardell_num.pyx:584 *)
Definition fdim_plate_fkM_num (m n : nat) : nat := (7 * m * m * n * n)%nat.
(* /repo/panels/models/plate_clpt_donnell_bardell_num.pyx:746 *)
Definition fdim_plate_fkAx_num (m n : nat) : nat := (1 * m * m * n * n)%nat.
(* /repo/panels/models/plate_clpt_donnell_bardell_num.pyx:861 *)
Definition fdim_plate_fkAy_num (m n : nat) : nat := (1 * m * m * n * n)%nat.
(* /repo/panels/models/cylshell_clpt_donnell_bardell_num.pyx:96 *)
Definition fdim_cyl_fkC_num (m n : nat) : nat := (9 * m * m * n * n)%nat.
(* /repo/panels/models/cylshell_clpt_donnell_bardell_num.pyx:356 *)
Definition fdim_cyl_fkG_num (m n : nat) : nat := (1 * m * m * n * n)%nat.
(* /repo/panels/models/cylshell_clpt_donnell_bardell_num.pyx:560 *)
Definition fdim_cyl_fkAx_num (m n : nat) : nat := (1 * m * m * n * n)%nat.
(* /repo/panels/stiffener/models/bladestiff1d_clt_donnell_bardell.pyx:54 *)
Definition fdim_fkCf (m n : nat) : nat := (4 * m * n * m * n)%nat.
(* /repo/panels/stiffener/models/bladestiff1d_clt_donnell_bardell.pyx:129 *)
Definition fdim_fkGf (m n : nat) : nat := (1 * m * n * m * n)%nat.
(* /repo/panels/stiffener/models/bladestiff1d_clt_donnell_bardell.pyx:187 *)
Definition fdim_fkMf (m n : nat) : nat := (7 * m * n * m * n)%nat.
(* /repo/panels/stiffener/models/bladestiff2d_clt_donnell_bardell.pyx:44 *)
Definition fdim_fkCss (m n : nat) : nat := (3 * m * n * m * n)%nat.
(* /repo/panels/stiffener/models/bladestiff2d_clt_donnell_bardell.pyx:122 *)
Definition fdim_fkCsf (m n m1 n1 : nat) : nat := (4 * m * n * m1 * n1)%nat.
(* /repo/panels/stiffener/models/bladestiff2d_clt_donnell_bardell.pyx:195 *)
Definition fdim_fkCff (m1 n1 : nat) : nat := (3 * m1 * n1 * m1 * n1)%nat.
(* /repo/panels/multidomain/connections/kCSSxcte.pyx:89 *)
Definition fdim_fkCSSxcte11 (m1 n1 : nat) : nat := (3 * m1 * n1 * m1 * n1)%nat.
(* /repo/panels/multidomain/connections/kCSSxcte.pyx:220 *)
Definition fdim_fkCSSxcte12 (m1 n1 m2 n2 : nat) : nat := (3 * m1 * n1 * m2 * n2)%nat.
(* /repo/panels/multidomain/connections/kCSSxcte.pyx:336 *)
Definition fdim_fkCSSxcte22 (m2 n2 : nat) : nat := (3 * m2 * n2 * m2 * n2)%nat.
(* /repo/panels/multidomain/connections/kCSSycte.pyx:91 *)
Definition fdim_fkCSSycte11 (m1 n1 : nat) : nat := (3 * m1 * n1 * m1 * n1)%nat.
(* /repo/panels/multidomain/connections/kCSSycte.pyx:222 *)
Definition fdim_fkCSSycte12 (m1 n1 m2 n2 : nat) : nat := (3 * m1 * n1 * m2 * n2)%nat.
(* /repo/panels/multidomain/connections/kCSSycte.pyx:339 *)
Definition fdim_fkCSSycte22 (m2 n2 : nat) : nat := (3 * m2 * n2 * m2 * n2)%nat.
(* /repo/panels/multidomain/connections/kCBFxcte.pyx:87 *)
Definition fdim_fkCBFxcte11 (m1 n1 : nat) : nat := (3 * m1 * n1 * m1 * n1)%nat.
(* /repo/panels/multidomain/connections/kCBFxcte.pyx:218 *)
Definition fdim_fkCBFxcte12 (m1 n1 m2 n2 : nat) : nat := (4 * m1 * n1 * m2 * n2)%nat.
(* /repo/panels/multidomain/connections/kCBFxcte.pyx:336 *)
Definition fdim_fkCBFxcte22 (m2 n2 : nat) : nat := (3 * m2 * n2 * m2 * n2)%nat.
(* /repo/panels/multidomain/connections/kCBFycte.pyx:86 *)
Definition fdim_fkCBFycte11 (m1 n1 : nat) : nat := (3 * m1 * n1 * m1 * n1)%nat.
(* /repo/panels/multidomain/connections/kCBFycte.pyx:216 *)
Definition fdim_fkCBFycte12 (m1 n1 m2 n2 : nat) : nat := (4 * m1 * n1 * m2 * n2)%nat.
(* /repo/panels/multidomain/connections/kCBFycte.pyx:335 *)
Definition fdim_fkCBFycte22 (m2 n2 : nat) : nat := (3 * m2 * n2 * m2 * n2)%nat.
(* /repo/panels/multidomain/connections/kCSB.pyx:86 *)
Definition fdim_fkCSB11 (m1 n1 : nat) : nat := (7 * m1 * n1 * m1 * n1)%nat.
(* /repo/panels/multidomain/connections/kCSB.pyx:230 *)
Definition fdim_fkCSB12 (m1 n1 m2 n2 : nat) : nat := (5 * m1 * n1 * m2 * n2)%nat.
(* /repo/panels/multidomain/connections/kCSB.pyx:345 *)
Definition fdim_fkCSB22 (m2 n2 : nat) : nat := (3 * m2 * n2 * m2 * n2)%nat.
(* /repo/panels/multidomain/connections/kCpd.pyx:85 *)
Definition fdim_fkCpd (m n : nat) : nat := (3 * m * n * m * n)%nat.
(* /repo/panels/multidomain/connections/kCpd.pyx:213 *)
Definition fdim_fkCld_xcte (m n : nat) : nat := (3 * m * n * m * n)%nat.
(* /repo/panels/multidomain/connections/kCpd.pyx:336 *)
Definition fdim_fkCld_ycte (m n : nat) : nat := (3 * m * n * m * n)%nat.
