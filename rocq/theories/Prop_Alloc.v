(* C78: the assembly kernels stay inside the arrays they allocate. The kernels write their triplets
   at positions 0, 1, 2, ... of arrays of fdim entries (Model_Alloc.v), with bounds checking switched
   off; the integrated kernels start again at position 0 at every integration point. *)
From Coq Require Import Reals List Lia Arith Bool.
From Verif Require Import Base_Sum Model_Types Model_Result Model_Coo Model_PlateAna Model_CylAna Model_PlateNumKer
  Model_CylNumKer Model_Num Model_Conn Model_StiffKer Model_Shell Model_Fext Model_Alloc Spec_Shell Proof_Alloc Proof_AllocApi.
From Coq Require Import List.
Import ListNotations.
Open Scope R_scope.

(* closed-form matrices of a panel *)
Theorem C78_closed_form_kernels :
  (forall (T : tables) (s : shell) (F : nat -> nat -> R) (row0 col0 : nat), (length (plate_fk0 T s F row0 col0) <= fdim_plate_fk0 (sh_m s) (sh_n s))%nat) /\
  (forall (T : tables) (s : shell) (Nxx Nyy Nxy : R) (row0 col0 : nat), (length (plate_fkG0 T s Nxx Nyy Nxy row0 col0) <= fdim_plate_fkG0 (sh_m s) (sh_n s))%nat) /\
  (forall (T : tables) (s : shell) (rho h d : R) (row0 col0 : nat), (length (plate_fkM T s rho h d row0 col0) <= fdim_plate_fkM (sh_m s) (sh_n s))%nat) /\
  (forall (T : tables) (s : shell) (beta gamma : R) (row0 col0 : nat), (length (plate_fkAx T s beta gamma row0 col0) <= fdim_plate_fkAx (sh_m s) (sh_n s))%nat) /\
  (forall (T : tables) (s : shell) (beta : R) (row0 col0 : nat), (length (plate_fkAy T s beta row0 col0) <= fdim_plate_fkAy (sh_m s) (sh_n s))%nat) /\
  (forall (T : tables) (s : shell) (aeromu : R) (row0 col0 : nat), (length (plate_fcA T s aeromu row0 col0) <= fdim_plate_fcA (sh_m s) (sh_n s))%nat) /\
  (forall (T : tables) (s : shell) (F : nat -> nat -> R) (row0 col0 : nat), (length (cyl_fk0 T s F row0 col0) <= fdim_cyl_fk0 (sh_m s) (sh_n s))%nat) /\
  (forall (T : tables) (s : shell) (Nxx Nyy Nxy : R) (row0 col0 : nat), (length (cyl_fkG0 T s Nxx Nyy Nxy row0 col0) <= fdim_cyl_fkG0 (sh_m s) (sh_n s))%nat) /\
  (forall (T : tables) (s : shell) (rho h d : R) (row0 col0 : nat), (length (cyl_fkM T s rho h d row0 col0) <= fdim_cyl_fkM (sh_m s) (sh_n s))%nat) /\
  (forall (T : tables) (s : shell) (beta gamma : R) (row0 col0 : nat), (length (cyl_fkAx T s beta gamma row0 col0) <= fdim_cyl_fkAx (sh_m s) (sh_n s))%nat) /\
  (forall (T : tables) (s : shell) (beta : R) (row0 col0 : nat), (length (cyl_fkAy T s beta row0 col0) <= fdim_cyl_fkAy (sh_m s) (sh_n s))%nat) /\
  (forall (T : tables) (s : shell) (aeromu : R) (row0 col0 : nat), (length (cyl_fcA T s aeromu row0 col0) <= fdim_cyl_fcA (sh_m s) (sh_n s))%nat).
Proof. repeat split; first [apply len_plate_fk0|apply len_plate_fkG0|apply len_plate_fkM|apply len_plate_fkAx|apply len_plate_fkAy|apply len_plate_fcA|apply len_cyl_fk0|apply len_cyl_fkG0|apply len_cyl_fkM|apply len_cyl_fkAx|apply len_cyl_fkAy|apply len_cyl_fcA]. Qed.
Print Assumptions C78_closed_form_kernels.

(* integrated matrices of a panel: what is written at one integration point *)
Theorem C78_integrated_kernels :
  (forall (Bs : basis) (s : shell) (F : nat -> nat -> R) (xi eta weight intx inty wxi weta : R) (row0 col0 : nat), (length (loop_ikjl true row0 col0 (sh_m s) (sh_n s) (sh_m s) (sh_n s) (plate_fkC_num_ker Bs s F xi eta weight intx inty wxi weta)) <= fdim_plate_fkC_num (sh_m s) (sh_n s))%nat) /\
  (forall (Bs : basis) (s : shell) (xi eta weight intx inty Nxx Nyy Nxy : R) (row0 col0 : nat), (length (loop_jlik true row0 col0 (sh_m s) (sh_n s) (sh_m s) (sh_n s) (plate_fkG_num_ker Bs s xi eta weight intx inty Nxx Nyy Nxy)) <= fdim_plate_fkG_num (sh_m s) (sh_n s))%nat) /\
  (forall (Bs : basis) (s : shell) (xi eta weight intx inty : R) (row0 col0 : nat), (length (loop_ikjl true row0 col0 (sh_m s) (sh_n s) (sh_m s) (sh_n s) (plate_fkAx_num_ker Bs s xi eta weight intx inty)) <= fdim_plate_fkAx_num (sh_m s) (sh_n s))%nat) /\
  (forall (Bs : basis) (s : shell) (F : nat -> nat -> R) (xi eta weight intx inty wxi weta : R) (row0 col0 : nat), (length (loop_ikjl true row0 col0 (sh_m s) (sh_n s) (sh_m s) (sh_n s) (cyl_fkC_num_ker Bs s F xi eta weight intx inty wxi weta)) <= fdim_cyl_fkC_num (sh_m s) (sh_n s))%nat) /\
  (forall (Bs : basis) (s : shell) (xi eta weight intx inty Nxx Nyy Nxy : R) (row0 col0 : nat), (length (loop_jlik true row0 col0 (sh_m s) (sh_n s) (sh_m s) (sh_n s) (cyl_fkG_num_ker Bs s xi eta weight intx inty Nxx Nyy Nxy)) <= fdim_cyl_fkG_num (sh_m s) (sh_n s))%nat) /\
  (forall (Bs : basis) (s : shell) (xi eta weight intx inty : R) (row0 col0 : nat), (length (loop_ikjl true row0 col0 (sh_m s) (sh_n s) (sh_m s) (sh_n s) (cyl_fkAx_num_ker Bs s xi eta weight intx inty)) <= fdim_cyl_fkAx_num (sh_m s) (sh_n s))%nat) /\
  (forall (Bs : basis) (s : shell) (xi eta weight intx inty : R) (row0 col0 : nat), (length (loop_ikjl true row0 col0 (sh_m s) (sh_n s) (sh_m s) (sh_n s) (plate_fkAy_num_ker Bs s xi eta weight intx inty)) <= fdim_plate_fkAy_num (sh_m s) (sh_n s))%nat) /\
  (forall (Bs : basis) (s : shell) (xi eta weight intx inty h rho d : R) (row0 col0 : nat), (length (loop_ikjl true row0 col0 (sh_m s) (sh_n s) (sh_m s) (sh_n s) (plate_fkM_num_ker Bs s xi eta weight intx inty h rho d)) <= fdim_plate_fkM_num (sh_m s) (sh_n s))%nat).
Proof. repeat split; first [apply at_plate_fkC_num|apply at_plate_fkG_num|apply at_plate_fkAx_num|apply at_cyl_fkC_num|apply at_cyl_fkG_num|apply at_cyl_fkAx_num|apply at_plate_fkAy_num|apply at_plate_fkM_num]. Qed.
Print Assumptions C78_integrated_kernels.

(* and the triplets handed to the sparse matrix *)
Theorem C78_integrated_results : forall Q Bs cs Fi H s offset Nxx Nyy Nxy row0 col0 nx ny NL M,
  (plate_fkC_num Q Bs cs Fi s row0 col0 nx ny NL = Ok M -> (length M <= fdim_plate_fkC_num (sh_m s) (sh_n s))%nat) /\
  (cyl_fkC_num Q Bs cs Fi s row0 col0 nx ny NL = Ok M -> (length M <= fdim_cyl_fkC_num (sh_m s) (sh_n s))%nat) /\
  (plate_fkG_num Q Bs cs Fi s row0 col0 nx ny NL Nxx Nyy Nxy = Ok M -> (length M <= fdim_plate_fkG_num (sh_m s) (sh_n s))%nat) /\
  (cyl_fkG_num Q Bs cs Fi s row0 col0 nx ny NL Nxx Nyy Nxy = Ok M -> (length M <= fdim_cyl_fkG_num (sh_m s) (sh_n s))%nat) /\
  (plate_fkM_num Q Bs s offset H row0 col0 nx ny = Ok M -> (length M <= fdim_plate_fkM_num (sh_m s) (sh_n s))%nat) /\
  (length (plate_fkAx_num Q Bs s row0 col0 nx ny) <= fdim_plate_fkAx_num (sh_m s) (sh_n s))%nat /\
  (length (plate_fkAy_num Q Bs s row0 col0 nx ny) <= fdim_plate_fkAy_num (sh_m s) (sh_n s))%nat /\
  (length (cyl_fkAx_num Q Bs s row0 col0 nx ny) <= fdim_cyl_fkAx_num (sh_m s) (sh_n s))%nat.
Proof. exact integrated_len. Qed.
Print Assumptions C78_integrated_results.

(* connections between panels; the blocks that couple two panels fill their arrays *)
Theorem C78_connection_kernels :
  (forall (T : tables) (Bs : basis) (kt kr : R) (p1 : shell) (ycte1 : R) (row0 col0 : nat), (length (fkCSSycte11 T Bs kt kr p1 ycte1 row0 col0) <= fdim_fkCSSycte11 (sh_m p1) (sh_n p1))%nat) /\
  (forall (T : tables) (Bs : basis) (kt kr : R) (p1 p2 : shell) (ycte1 ycte2 : R) (row0 col0 : nat), (length (fkCSSycte12 T Bs kt kr p1 p2 ycte1 ycte2 row0 col0) = fdim_fkCSSycte12 (sh_m p1) (sh_n p1) (sh_m p2) (sh_n p2))%nat) /\
  (forall (T : tables) (Bs : basis) (kt kr : R) (p1 p2 : shell) (ycte2 : R) (row0 col0 : nat), (length (fkCSSycte22 T Bs kt kr p1 p2 ycte2 row0 col0) <= fdim_fkCSSycte22 (sh_m p2) (sh_n p2))%nat) /\
  (forall (T : tables) (Bs : basis) (kt kr : R) (p1 : shell) (xcte1 : R) (row0 col0 : nat), (length (fkCSSxcte11 T Bs kt kr p1 xcte1 row0 col0) <= fdim_fkCSSxcte11 (sh_m p1) (sh_n p1))%nat) /\
  (forall (T : tables) (Bs : basis) (kt kr : R) (p1 p2 : shell) (xcte1 xcte2 : R) (row0 col0 : nat), (length (fkCSSxcte12 T Bs kt kr p1 p2 xcte1 xcte2 row0 col0) = fdim_fkCSSxcte12 (sh_m p1) (sh_n p1) (sh_m p2) (sh_n p2))%nat) /\
  (forall (T : tables) (Bs : basis) (kt kr : R) (p1 p2 : shell) (xcte2 : R) (row0 col0 : nat), (length (fkCSSxcte22 T Bs kt kr p1 p2 xcte2 row0 col0) <= fdim_fkCSSxcte22 (sh_m p2) (sh_n p2))%nat) /\
  (forall (T : tables) (Bs : basis) (kt kr : R) (p1 : shell) (ycte1 : R) (row0 col0 : nat), (length (fkCBFycte11 T Bs kt kr p1 ycte1 row0 col0) <= fdim_fkCBFycte11 (sh_m p1) (sh_n p1))%nat) /\
  (forall (T : tables) (Bs : basis) (kt kr : R) (p1 p2 : shell) (ycte1 ycte2 : R) (row0 col0 : nat), (length (fkCBFycte12 T Bs kt kr p1 p2 ycte1 ycte2 row0 col0) = fdim_fkCBFycte12 (sh_m p1) (sh_n p1) (sh_m p2) (sh_n p2))%nat) /\
  (forall (T : tables) (Bs : basis) (kt kr : R) (p1 p2 : shell) (ycte2 : R) (row0 col0 : nat), (length (fkCBFycte22 T Bs kt kr p1 p2 ycte2 row0 col0) <= fdim_fkCBFycte22 (sh_m p2) (sh_n p2))%nat) /\
  (forall (T : tables) (Bs : basis) (kt kr : R) (p1 : shell) (xcte1 : R) (row0 col0 : nat), (length (fkCBFxcte11 T Bs kt kr p1 xcte1 row0 col0) <= fdim_fkCBFxcte11 (sh_m p1) (sh_n p1))%nat) /\
  (forall (T : tables) (Bs : basis) (kt kr : R) (p1 p2 : shell) (xcte1 xcte2 : R) (row0 col0 : nat), (length (fkCBFxcte12 T Bs kt kr p1 p2 xcte1 xcte2 row0 col0) = fdim_fkCBFxcte12 (sh_m p1) (sh_n p1) (sh_m p2) (sh_n p2))%nat) /\
  (forall (T : tables) (Bs : basis) (kt kr : R) (p1 p2 : shell) (xcte2 : R) (row0 col0 : nat), (length (fkCBFxcte22 T Bs kt kr p1 p2 xcte2 row0 col0) <= fdim_fkCBFxcte22 (sh_m p2) (sh_n p2))%nat) /\
  (forall (T : tables) (kt dsb : R) (p1 : shell) (row0 col0 : nat), (length (fkCSB11 T kt dsb p1 row0 col0) <= fdim_fkCSB11 (sh_m p1) (sh_n p1))%nat) /\
  (forall (T : tables) (kt dsb : R) (p1 p2 : shell) (row0 col0 : nat), (length (fkCSB12 T kt dsb p1 p2 row0 col0) = fdim_fkCSB12 (sh_m p1) (sh_n p1) (sh_m p2) (sh_n p2))%nat) /\
  (forall (T : tables) (kt : R) (p1 p2 : shell) (row0 col0 : nat), (length (fkCSB22 T kt p1 p2 row0 col0) <= fdim_fkCSB22 (sh_m p2) (sh_n p2))%nat).
Proof. repeat split; first [apply len_fkCSSycte11|apply len_fkCSSycte12|apply len_fkCSSycte22|apply len_fkCSSxcte11|apply len_fkCSSxcte12|apply len_fkCSSxcte22|apply len_fkCBFycte11|apply len_fkCBFycte12|apply len_fkCBFycte22|apply len_fkCBFxcte11|apply len_fkCBFxcte12|apply len_fkCBFxcte22|apply len_fkCSB11|apply len_fkCSB12|apply len_fkCSB22]. Qed.
Print Assumptions C78_connection_kernels.

(* stiffeners *)
Theorem C78_stiffener_kernels :
  (forall (T : tables) (Bs : basis) (s : shell) (ys bfl df E1 F1 S1 Jxx : R) (row0 col0 : nat), (length (fkCf T Bs s ys bfl df E1 F1 S1 Jxx row0 col0) <= fdim_fkCf (sh_m s) (sh_n s))%nat) /\
  (forall (T : tables) (Bs : basis) (s : shell) (ys Fx : R) (row0 col0 : nat), (length (fkGf T Bs s ys Fx row0 col0) <= fdim_fkGf (sh_m s) (sh_n s))%nat) /\
  (forall (T : tables) (Bs : basis) (s : shell) (ys rho h hb hf bfl df : R) (row0 col0 : nat), (length (fkMf T Bs s ys rho h hb hf bfl df row0 col0) <= fdim_fkMf (sh_m s) (sh_n s))%nat) /\
  (forall (T : tables) (Bs : basis) (kt kr : R) (s : shell) (ys : R) (row0 col0 : nat), (length (fkCss T Bs kt kr s ys row0 col0) <= fdim_fkCss (sh_m s) (sh_n s))%nat) /\
  (forall (T : tables) (Bs : basis) (kt kr : R) (s q : shell) (ys bfl : R) (row0 col0 : nat), (length (fkCsf T Bs kt kr s q ys bfl row0 col0) = fdim_fkCsf (sh_m s) (sh_n s) (sh_m q) (sh_n q))%nat) /\
  (forall (T : tables) (Bs : basis) (kt kr a bfl : R) (q : shell) (row0 col0 : nat), (length (fkCff T Bs kt kr a bfl q row0 col0) <= fdim_fkCff (sh_m q) (sh_n q))%nat).
Proof. repeat split; first [apply len_fkCf|apply len_fkGf|apply len_fkMf|apply len_fkCss|apply len_fkCsf|apply len_fkCff]. Qed.
Print Assumptions C78_stiffener_kernels.

(* point and line supports *)
Theorem C78_support_kernels : forall T Bs ku kv kw s xp yp size row0 col0 M,
  (fkCpd Bs ku kv kw s xp yp size row0 col0 = Ok M -> (length M <= fdim_fkCpd (sh_m s) (sh_n s))%nat) /\
  (fkCld_xcte T Bs ku kv kw s xp size row0 col0 = Ok M -> (length M <= fdim_fkCld_xcte (sh_m s) (sh_n s))%nat) /\
  (fkCld_ycte T Bs ku kv kw s yp size row0 col0 = Ok M -> (length M <= fdim_fkCld_ycte (sh_m s) (sh_n s))%nat).
Proof. intros. split; [|split]; [apply len_fkCpd|apply len_fkCld_xcte|apply len_fkCld_ycte]. Qed.
Print Assumptions C78_support_kernels.

(* Shell.calc_fint: every position updated belongs to the panel, to the array of the requested size
   and to the vector given *)
Theorem C78_internal_force_positions : forall E c sz col0 nx ny Fo p q u, calc_fint E c sz col0 nx ny Fo p = (q, Ok u) ->
  forall r x, In (r, x) u ->
    (col0 <= r < col0 + 3 * sh_m (pn_sh p) * sh_n (pn_sh p))%nat /\ (r < size_value sz (pn_sh p))%nat /\ (r < length c)%nat.
Proof. exact fint_positions. Qed.
Print Assumptions C78_internal_force_positions.

(* The bounds are reached: with one term the panel fills its nine triplets, and a kernel that allocated
   eight would write outside *)
Example C78_reached : forall T s F, sh_m s = 1%nat -> sh_n s = 1%nat ->
  length (plate_fk0 T s F 0 0) = 9%nat /\ fdim_plate_fk0 (sh_m s) (sh_n s) = 9%nat /\ length (cyl_fk0 T s F 0 0) = 9%nat.
Proof. intros T s F Hm Hn. unfold plate_fk0, cyl_fk0. rewrite Hm, Hn. repeat split; reflexivity. Qed.
Print Assumptions C78_reached.
