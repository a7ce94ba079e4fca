(* Three connected panels, one of them curved and another held: an example. *)
From Coq Require Import Reals List Arith Bool Lia Lra.
From Verif Require Import Base_Sum Model_Types Model_Coo Model_Result Model_Num Model_DB Model_Shell Model_Field Model_Fext Model_Multi
  Spec_Algebra Spec_Kinematics Spec_Integral Spec_Bardell Spec_Panel Spec_Shell Spec_Multi Spec_MultiConn Spec_ConnScale Spec_Modes Spec_Rigid Spec_Tied
  Proof_Multi Proof_MultiTop  Proof_BardellInt Proof_AnaApi Proof_Rigid Prop_Rigid Ex_Panel Ex_Exact Ex_Fext.
From Coq Require Import List.
Import ListNotations.
Open Scope R_scope.

Definition plate_of (i : nat) : panel := sheet (if (i =? 1)%nat then Some 5 else None) (if (i =? 0)%nat then mkEdge 0 0 1 1 else free_edge).
Definition three_conns : list conn :=
  [mkConn 0 1 SSycte None None (Some 3) (Some 0) None; mkConn 1 2 SB None None None None None].
Definition three_world : world :=
  fst (new_assembly [0; 1; 2]%nat (Some 0%nat) (mkWorld (fun i => mkXp (plate_of i) 0 no_loads None None) (fun _ => three_conns))).
Definition three_asm : assembly := mkAsm [0; 1; 2]%nat (Some 0%nat) None 4.
Lemma three_assembled : assembled three_world three_asm.
Proof. apply (new_assembly_ok [0; 1; 2]%nat (Some 0%nat)); [discriminate|]. repeat constructor; cbn; intuition lia. Qed.
Lemma three_panel i : xp (w_panel three_world i) = plate_of i.
Proof. destruct (set_spans_frame [0; 1; 2]%nat 0 (mkWorld (fun i => mkXp (plate_of i) 0 no_loads None None) (fun _ => three_conns))) as (_ & H & _). destruct (H i) as (E & _). exact E. Qed.
Lemma three_conn k : w_conn three_world k = three_conns.
Proof. destruct (set_spans_frame [0; 1; 2]%nat 0 (mkWorld (fun i => mkXp (plate_of i) 0 no_loads None None) (fun _ => three_conns))) as (E & _). exact (f_equal (fun f => f k) E). Qed.
Lemma three_start i : (i < 3)%nat -> start (w_panel three_world) i = (48 * i)%nat.
Proof. intro H. destruct i as [|[|[|i]]]; try lia; reflexivity. Qed.
Lemma three_plate i : stiff_panel exact_env (w_panel three_world) i /\ (sh_m (geometry (w_panel three_world) i) <= 4)%nat /\ (sh_n (geometry (w_panel three_world) i) <= 4)%nat.
Proof.
  unfold stiff_panel, sound, geometry, lam_of. rewrite three_panel.
  set (e := if (i =? 0)%nat then mkEdge 0 0 1 1 else free_edge).
  assert (He : e = free_edge \/ e = mkEdge 0 0 1 1) by (unfold e; destruct (i =? 0)%nat; auto).
  set (r := if (i =? 1)%nat then Some 5 else None).
  assert (Hr : r = None \/ r = Some 5) by (unfold r; destruct (i =? 1)%nat; auto).
  destruct (C95_case r e Hr He) as (_ & C2 & C4 & _). change (plate_of i) with (sheet r e). split; [|cbn; lia].
  split; [|split; [exact C2|exact C4]]. split; [unfold complete, sheet; cbn; repeat split; try discriminate; [right|right]; discriminate|].
  cbn. unfold A11, A22, D11, D22, ex_ABD. cbn. repeat split; lra.
Qed.
Lemma three_case :
  let w := three_world in let s := three_asm in let h := w_panel w in let ids := as_panels s in
  assembled w s /\ as_kC_conn s = None /\ as_conn s = Some 0%nat /\ w_conn w 0%nat <> [] /\ List.Forall (usable h ids) (w_conn w 0%nat) /\
  (forall i, In i ids -> stiff_panel exact_env h i /\ (sh_m (geometry h i) <= 4)%nat /\ (sh_n (geometry h i) <= 4)%nat) /\
  tables_integrate (e_tables exact_env) exact_basis 4 /\ forall i, In i ids -> tied h (w_conn w 0%nat) i.
Proof.
  cbv zeta. rewrite three_conn.
  assert (G : forall i, sh_a (geometry (w_panel three_world) i) = 2 /\ sh_b (geometry (w_panel three_world) i) = 3) by (intro i; unfold geometry; rewrite three_panel; split; reflexivity).
  split; [exact three_assembled|]. split; [reflexivity|]. split; [reflexivity|]. split; [discriminate|]. split.
  { apply List.Forall_cons; [|apply List.Forall_cons; [|apply List.Forall_nil]]; unfold usable, has_keys, pair_keys, in_order; cbn [cn_p1 cn_p2 cn_func cn_y1 cn_y2]; rewrite !three_start by lia;
      (split; [cbn; auto|]; split; [cbn; auto|]; split; [try (split; discriminate); exact I|left; lia]). }
  split; [intros i _; apply three_plate|]. split; [apply exact_tables_integrate; lia|].
  assert (T0 : tied (w_panel three_world) three_conns 0).
  { apply tied_held. unfold geometry. rewrite three_panel. apply edge_anchored; cbn; lra. }
  assert (T1 : tied (w_panel three_world) three_conns 1).
  { apply (tied_second _ _ (mkConn 0 1 SSycte None None (Some 3) (Some 0) None)); [left; reflexivity| |exact T0].
    unfold on_panels. cbn [cn_p1 cn_p2 cn_func cn_y1 cn_y2]. destruct (G 0%nat) as [_ ->]. destruct (G 1%nat) as [_ ->]. lra. }
  assert (T2 : tied (w_panel three_world) three_conns 2).
  { apply (tied_second _ _ (mkConn 1 2 SB None None None None None)); [right; left; reflexivity|exact I|exact T1]. }
  intros i [<-|[<-|[<-|[]]]]; assumption.
Qed.
