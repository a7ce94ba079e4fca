(* Forces on the panels of an assembly: an example. *)
From Coq Require Import Reals List Arith Bool Lia Lra.
From Verif Require Import Base_Sum Model_Types Model_Coo Model_Result Model_Num Model_DB Model_Shell Model_Fext Model_Multi
  Spec_Algebra Spec_Kinematics Spec_Panel Spec_Shell Spec_Bardell Spec_Integral Spec_Field Spec_Fext Spec_Multi Spec_MultiConn Spec_ConnScale Spec_Modes Spec_Rigid Spec_Tied Spec_Response Spec_AsmResponse
  Proof_Response Ex_Exact Ex_Tied Ex_Response.
From Coq Require Import List.
Import ListNotations.
Open Scope R_scope.

Lemma force_added i j x y P i' : added (force_on i j x y P i').
Proof.
  unfold force_on. destruct (i' =? i)%nat; [|exists [], []; reflexivity].
  exists [PointLoad x y (if (j =? 0)%nat then P else 0) (if (j =? 1)%nat then P else 0) (if (j =? 2)%nat then P else 0) true]. eexists. reflexivity.
Qed.
Lemma no_work E p inc U : load_work E p no_loads inc U = 0.
Proof. unfold load_work, constant_work, incremented_work. cbn. ring. Qed.
Lemma force_work_from E w i j x y P inc U : (j < 3)%nat -> forall l, NoDup l -> In i l ->
  suml l (fun i' => load_work E (xp (w_panel w i')) (force_on i j x y P i') inc (U i')) = P * U i j x y.
Proof.
  intro Hj. induction l as [|a l IH]; intros ND Hi; [contradiction|]. cbn [suml]. apply NoDup_cons_iff in ND. destruct ND as [Na ND].
  destruct (Nat.eq_dec a i) as [->|Hn].
  - replace (suml l _) with 0.
    + unfold force_on. rewrite Nat.eqb_refl, force_work by exact Hj. ring.
    + symmetry. apply suml_0. intros b Hb. unfold force_on. replace (b =? i)%nat with false by (symmetry; apply Nat.eqb_neq; intros ->; contradiction). apply no_work.
  - rewrite IH; [|exact ND|destruct Hi; [contradiction|assumption]]. unfold force_on. replace (a =? i)%nat with false by (symmetry; apply Nat.eqb_neq; exact Hn). rewrite no_work. ring.
Qed.
Lemma asm_force_work E w s i j x y P inc U : (j < 3)%nat -> NoDup (as_panels s) -> In i (as_panels s) -> asm_work E w s (force_on i j x y P) inc U = P * U i j x y.
Proof. intros Hj ND Hi. exact (force_work_from E w i j x y P inc U Hj _ ND Hi). Qed.

(* the three panels of C98, and the same with the first connection made twice *)
Definition doubled_world : world := mkWorld (w_panel three_world) (fun _ => three_conns ++ [mkConn 0 1 SSycte None None (Some 3) (Some 0) None]).
Lemma three_stiff : stiff_assembly exact_env 0 None three_world three_asm /\ all_tied 0 three_world three_asm.
Proof.
  destruct three_case as (A1 & A2 & A3 & A4 & A5 & A6 & A7 & A8). split; [|exact A8].
  repeat (split; [assumption|]). exists 4%nat. split; [exact A6|]. split; [lia|exact A7].
Qed.
Lemma more_tied h l l' i : incl l l' -> tied h l i -> tied h l' i.
Proof.
  intros HI H. induction H as [i HA|cn Hc Hp H IH|cn Hc Hp H IH]; [apply tied_held; exact HA|apply (tied_second h l' cn)|apply (tied_first h l' cn)]; auto.
Qed.
Lemma doubled_stiff : stiff_assembly exact_env 0 None doubled_world three_asm /\ all_tied 0 doubled_world three_asm.
Proof.
  destruct three_case as (A1 & A2 & A3 & A4 & A5 & A6 & A7 & A8). rewrite three_conn in *. split.
  - split; [exact A1|]. split; [exact A2|]. split; [exact A3|]. split; [discriminate|]. split; [|exists 4%nat; split; [exact A6|split; [lia|exact A7]]].
    cbn [w_conn doubled_world]. apply Forall_app. split; [exact A5|]. constructor; [|constructor]. inversion A5; assumption.
  - intros i Hi. apply (more_tied _ three_conns); [apply incl_appl; apply incl_refl|exact (A8 i Hi)].
Qed.
