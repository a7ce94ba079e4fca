(* C97: the load of the assembly returned by the compression analysis of a T-stiffened panel. *)
From Coq Require Import Reals List Arith Bool Lra Lia.
From Coquelicot Require Import Coquelicot.
From Verif Require Import Base_Sum Model_Types Model_Coo Model_Result Model_Num Model_DB Model_Shell Model_Fext Model_Multi Model_New Model_Cylinder Model_TStiff Model_TStiffEnd
  Spec_Algebra Spec_Quadrature Spec_Kinematics Spec_Integral Spec_Panel Spec_Shell Spec_Fext Spec_Conn Spec_Multi Spec_MultiConn Spec_Cylinder Spec_TStiff Spec_Bardell
  Proof_TStiff Proof_TStiffWork Proof_TStiffLoad Proof_TStiffEnd Ex_Panel Ex_Exact Ex_Multi Prop_TStiff.
From Coq Require Import List.
Import ListNotations.
Open Scope R_scope.

(* the vector of the returned assembly is zero, whatever the load; the static case was solved with the
   load of the five panels of the edge x = 0 *)
Theorem C97_returned_load_is_zero_partial : forall D k q w E Bs Bv M, well_sized D -> material_given E D M -> tables_integrate (e_tables E) Bs M -> (M <= 30)%nat ->
  exists W s w' f, tstiff_returned D E Bs Bv k q w = Ok (W, s) /\ as_panels s = seq k 15 /\ asm_fext E Bv 1 W s = (w', s, Ok f) /\ forall i, f i = 0.
Proof. intros D k q w E Bs Bv M HD HM HT H30. exact (returned_idle D k q w E Bs Bv M HD HM HT H30). Qed.
Print Assumptions C97_returned_load_is_zero_partial.
(* so it is not the vector given to static, as soon as the loads of the edge do work in some displacement *)
Theorem C97_refuted : forall D k q w E Bs Bv M, well_sized D -> material_given E D M -> tables_integrate (e_tables E) Bs M -> (M <= 30)%nat ->
  let h := w_panel (fst (create_tstiff D k q w)) in
  forall d, suml (loaded k) (fun i => edge_work E Bv h i d) <> 0 ->
  exists W s w' f g i, tstiff_load D E Bs Bv k q w = Ok g /\ tstiff_returned D E Bs Bv k q w = Ok (W, s) /\ asm_fext E Bv 1 W s = (w', s, Ok f) /\
    (i < total_width h (seq k 15))%nat /\ g i <> - f i.
Proof.
  intros D k q w E Bs Bv M HD HM HT H30 h d Hd.
  destruct (returned_idle D k q w E Bs Bv M HD HM HT H30) as (W & s & w' & f & R1 & _ & R3 & R4).
  destruct (ts_load_given D k q w E Bs M HD HM HT Bv H30) as (g & G1 & G2). specialize (G2 d). fold h in G2.
  destruct (nonzero_entry (total_width h (seq k 15)) g d) as (i & Hi & Hg); [rewrite G2; lra|].
  exists W, s, w', f, g, i. split; [exact G1|]. split; [exact R1|]. split; [exact R3|]. split; [exact Hi|]. rewrite R4. lra.
Qed.
Print Assumptions C97_refuted.

(* one term in each direction and one point of integration *)
Definition one_point : env := mkEnv (fun _ => [(0, 2)]) exact_basis exact_tables ex_lib.
Lemma one_work k q w j : In j [7; 8; 9; 14; 15]%nat ->
  edge_work one_point exact_basis (w_panel (fst (create_tstiff (ex_ts (2/5)) k q w))) (k + (j - 1)) (fun _ => 1) = N_no (ex_ts (2/5)) j * wid (panel_no (ex_ts (2/5)) j) / 2.
Proof.
  intro Hj. assert (Hj' : (1 <= j <= 15)%nat) by (cbn in Hj; lia). unfold edge_work, moves, geometry. rewrite (proj1 (ts_world (ex_ts (2/5)) k q w j Hj')).
  generalize (start (w_panel (fst (create_tstiff (ex_ts (2/5)) k q w))) (k + (j - 1))). intro o.
  pose proof (len_pos (ex_ts (2/5)) (ex_ts_sized (2/5) ltac:(lra)) j Hj') as [L1 L2]. revert L1 L2.
  destruct Hj as [<-|[<-|[<-|[<-|[<-|[]]]]]]; unfold len, wid, panel_no, N_no; cbn [Nat.sub nth ts_panels]; unfold skin, tbase, tflange; cbn [ts_points ex_ts option_map np_panel];
    unfold along_side, suml, ritz_field, d_u, fld, ritz, own, natural; cbn; intros L1 L2; field; repeat split; lra.
Qed.
Example C97_case : forall k q w, well_sized (ex_ts (2/5)) /\ material_given one_point (ex_ts (2/5)) 1 /\ tables_integrate (e_tables one_point) exact_basis 1 /\
  suml (loaded k) (fun i => edge_work one_point exact_basis (w_panel (fst (create_tstiff (ex_ts (2/5)) k q w))) i (fun _ => 1)) = - (41/4).
Proof.
  intros k q w. split; [apply ex_ts_sized; lra|]. split; [apply ex_ts_material|]. split; [exact two_tables|].
  pose proof (one_work k q w) as H. unfold suml, loaded. cbn [map fold_right].
  rewrite !(H 7%nat), !(H 8%nat), !(H 9%nat), !(H 14%nat), !(H 15%nat) by (cbn; tauto).
  unfold wid, panel_no, N_no. cbn. unfold bleft, bright. cbn. lra.
Qed.
