(* C100: the supports and the connections of a T-stiffened panel, flat or curved, leave it no motion without strain. *)
From Coq Require Import Reals List Arith Bool Lia Lra.
From Verif Require Import Base_Sum Model_Types Model_Coo Model_Result Model_Num Model_DB Model_Shell Model_Fext Model_Multi Model_New Model_TStiff
  Spec_Algebra Spec_Kinematics Spec_Integral Spec_Panel Spec_Shell Spec_Bardell Spec_Multi Spec_MultiConn Spec_Modes Spec_Rigid Spec_Tied Spec_TStiff Spec_TStiffTied
  Proof_TStiffTied Ex_Panel Ex_Exact Ex_Fext Prop_TStiff.
From Coq Require Import List.
Import ListNotations.
Open Scope R_scope.

(* a displacement of the fifteen panels which costs no energy displaces none of them, whether or not the stiffener is
   debonded and the edge x = 0 is free to move for the load *)
Theorem C100_no_free_motion : forall D k q w E M, well_sized D -> material_given E D M -> resistant E D -> ts_r D <> Some 0 -> (M <= 30)%nat ->
  tables_integrate (e_tables E) exact_basis M ->
  let W := fst (create_tstiff D k q w) in let h := w_panel W in let size := total_width h (seq k 15) in
  exists w' s' K, asm_kC E exact_basis (Some q) None true W (snd (create_tstiff D k q w)) = (w', s', Ok (Some K)) /\
  forall c, quad size K c = 0 -> forall i, (1 <= i <= 15)%nat -> undisplaced h c (k + (i - 1)).
Proof.
  intros D k q w E M HD HM HS HR H30 HT W h size. destruct (ts_unique D k q w E M HD HM HS HR H30 HT) as (w' & s' & K & HK & H & _). exists w', s', K. split; [exact HK|exact H].
Qed.
Print Assumptions C100_no_free_motion.

(* every load has at most one response *)
Theorem C100_unique_response : forall D k q w E M, well_sized D -> material_given E D M -> resistant E D -> ts_r D <> Some 0 -> (M <= 30)%nat ->
  tables_integrate (e_tables E) exact_basis M ->
  let W := fst (create_tstiff D k q w) in let h := w_panel W in let size := total_width h (seq k 15) in
  exists w' s' K, asm_kC E exact_basis (Some q) None true W (snd (create_tstiff D k q w)) = (w', s', Ok (Some K)) /\
  forall c d f, (forall r, (r < size)%nat -> row size K c r = f r) -> (forall r, (r < size)%nat -> row size K d r = f r) ->
  forall i, (1 <= i <= 15)%nat -> same_motion h c d (k + (i - 1)).
Proof.
  intros D k q w E M HD HM HS HR H30 HT W h size. destruct (ts_unique D k q w E M HD HM HS HR H30 HT) as (w' & s' & K & HK & _ & H). exists w', s', K. split; [exact HK|exact H].
Qed.
Print Assumptions C100_unique_response.

Example C100_case : forall d, 0 <= d < 1 -> well_sized (ex_ts d) /\ material_given exact_env (ex_ts d) 1 /\ resistant exact_env (ex_ts d) /\ ts_r (ex_ts d) <> Some 0 /\
  tables_integrate (e_tables exact_env) exact_basis 1.
Proof.
  intros d H. destruct (C72_case d H) as (A & B & C). split; [exact A|]. split; [exact B|]. split; [|split; [discriminate|exact C]].
  unfold resistant. cbn [ex_ts ts_stack_skin ts_stack_base ts_stack_flange]. apply List.Forall_forall. intros st _. split; [exact ex_ABD_is|].
  intros x (k & Hk & Hx). change (0 < form 6 ex_ABD x x). unfold form, ex_ABD. cbn.
  assert (0 < x k * x k) by nra. do 6 (destruct k as [|k]; [nra|]). lia.
Qed.
