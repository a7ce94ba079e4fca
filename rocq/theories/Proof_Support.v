(* Supports: a panel rests where its flags are 0 and moves where they are 1. *)
From Coq Require Import Reals List Arith Bool Lia Lra.
From Coquelicot Require Import Coquelicot.
From Verif Require Import Base_Sum Model_Types Model_Coo Model_Result Model_Num Model_DB Model_Shell Model_Bardell Model_Field Model_Fext Model_Multi
  Spec_Quadrature Spec_Algebra Spec_Kinematics Spec_Integral Spec_Bardell Spec_Panel Spec_Shell Spec_Fext Spec_Field Spec_Conn Spec_Multi Spec_MultiConn Spec_Support
  Proof_Bardell Proof_FieldApi Proof_FieldEdge.
From Coq Require Import List.
Import ListNotations.
Open Scope R_scope.

Lemma data_near Bs t : shape_data Bs t -> exists t1, near_ends t t1 Bs.
Proof. intros [[-> ->]|[-> ->]]; eexists; [apply exact_near_ends|apply code_near_ends]. Qed.
Section One.
Variables (h : nat -> xpanel) (i k : nat).
Notation s := (geometry h i).
Hypotheses (Hm : (sh_m s <= 30)%nat) (Hn : (sh_n s <= 30)%nat) (Ha : 0 < sh_a s) (Hb : 0 < sh_b s) (Hk : (k < 3)%nat).
Lemma moves_uvw Bs c x y : moves Bs h i c k x y = uvw_at Bs s (own (start h i) c) k x y.
Proof using All. unfold moves. do 3 (destruct k as [|k0]; [reflexivity|clear k; rename k0 into k]). lia. Qed.
Section Rest.
Variables (Bs : basis) (t : R).
Hypothesis HD : shape_data Bs t.
Lemma rest_x0 : e1t (xedge s k) = 0 -> rests_x Bs t h i k 0.
Proof using All.
  intros E c y. destruct (data_near Bs t HD) as (t1 & HB). rewrite moves_uvw.
  destruct (edge_x t t1 Bs s (own (start h i) c) HB Hm Hn Ha Hb k y Hk) as [H _]. rewrite E, Rmult_0_l, Rminus_0_r in H. exact H.
Qed.
Lemma rest_x1 : e2t (xedge s k) = 0 -> rests_x Bs t h i k (sh_a s).
Proof using All.
  intros E c y. destruct (data_near Bs t HD) as (t1 & HB). rewrite moves_uvw.
  destruct (edge_x t t1 Bs s (own (start h i) c) HB Hm Hn Ha Hb k y Hk) as [_ H]. rewrite E, Rmult_0_l, Rminus_0_r in H. exact H.
Qed.
Lemma rest_y0 : e1t (yedge s k) = 0 -> rests_y Bs t h i k 0.
Proof using All.
  intros E c x. destruct (data_near Bs t HD) as (t1 & HB). rewrite moves_uvw.
  destruct (edge_y t t1 Bs s (own (start h i) c) HB Hm Hn Ha Hb k x Hk) as [H _]. rewrite E, Rmult_0_l, Rminus_0_r in H. exact H.
Qed.
Lemma rest_y1 : e2t (yedge s k) = 0 -> rests_y Bs t h i k (sh_b s).
Proof using All.
  intros E c x. destruct (data_near Bs t HD) as (t1 & HB). rewrite moves_uvw.
  destruct (edge_y t t1 Bs s (own (start h i) c) HB Hm Hn Ha Hb k x Hk) as [_ H]. rewrite E, Rmult_0_l, Rminus_0_r in H. exact H.
Qed.
End Rest.

Lemma mid_value e : e1r e = 1 -> bf exact_basis 1 0 e = 1 / 8.
Proof using . intro H. cbn [exact_basis bf flag]. rewrite H. unfold bardell. field. Qed.
Lemma mid l : 0 < l -> natural (l / 2) l = 0.
Proof using . intro. unfold natural. field. lra. Qed.
Lemma unit_moves a j x y : (a < sh_m s)%nat -> (j < sh_n s)%nat ->
  moves exact_basis h i (unitv (start h i + (3 * (j * sh_m s + a) + k))) k x y = bf exact_basis a (natural x (sh_a s)) (xedge s k) * bf exact_basis j (natural y (sh_b s)) (yedge s k).
Proof using All.
  intros H1 H2. rewrite moves_uvw.
  assert (HU : forall c, uvw_at exact_basis s c k x y = fld exact_basis s c k 0 0 (natural x (sh_a s)) (natural y (sh_b s))) by (intro; do 3 (destruct k as [|k0]; [reflexivity|clear k; rename k0 into k]); lia).
  rewrite HU. unfold fld. rewrite (ritz_unit (sh_m s) (sh_n s) _ k a j _ _ k H1 H2 Hk Hk); [rewrite Nat.eqb_refl; reflexivity|].
  intro q. unfold own, unitv. destruct (Nat.eqb_spec q (3 * (j * sh_m s + a) + k)), (Nat.eqb_spec (start h i + q) (start h i + (3 * (j * sh_m s + a) + k))); (reflexivity || lia).
Qed.
Hypotheses (M3 : (3 <= sh_m s)%nat) (N3 : (3 <= sh_n s)%nat).
Lemma move_x0 : e1t (xedge s k) = 1 -> e1r (yedge s k) = 1 -> moves_x h i k 0.
Proof using All.
  intros E1 E2. eexists. exists (sh_b s / 2). split; [lra|]. rewrite (unit_moves 0 1) by lia. rewrite (mid _ Hb), (mid_value _ E2), nat0.
  destruct (exact_end (xedge s k) 0 ltac:(lia)) as (E & _). cbn [exact_basis bf]. rewrite E. unfold end_val. cbn [Nat.eqb flag]. rewrite E1. lra.
Qed.
Lemma move_x1 : e2t (xedge s k) = 1 -> e1r (yedge s k) = 1 -> moves_x h i k (sh_a s).
Proof using All.
  intros E1 E2. eexists. exists (sh_b s / 2). split; [lra|]. rewrite (unit_moves 2 1) by lia. rewrite (mid _ Hb), (mid_value _ E2), (nat1 _ Ha).
  destruct (exact_end (xedge s k) 2 ltac:(lia)) as (_ & E & _). cbn [exact_basis bf]. rewrite E. unfold end_val. cbn [Nat.eqb flag]. rewrite E1. lra.
Qed.
Lemma move_y0 : e1t (yedge s k) = 1 -> e1r (xedge s k) = 1 -> moves_y h i k 0.
Proof using All.
  intros E1 E2. eexists. exists (sh_a s / 2). split; [lra|]. rewrite (unit_moves 1 0) by lia. rewrite (mid _ Ha), (mid_value _ E2), nat0.
  destruct (exact_end (yedge s k) 0 ltac:(lia)) as (E & _). cbn [exact_basis bf]. rewrite E. unfold end_val. cbn [Nat.eqb flag]. rewrite E1. lra.
Qed.
Lemma move_y1 : e2t (yedge s k) = 1 -> e1r (xedge s k) = 1 -> moves_y h i k (sh_b s).
Proof using All.
  intros E1 E2. eexists. exists (sh_a s / 2). split; [lra|]. rewrite (unit_moves 1 2) by lia. rewrite (mid _ Ha), (mid_value _ E2), (nat1 _ Hb).
  destruct (exact_end (yedge s k) 2 ltac:(lia)) as (_ & E & _). cbn [exact_basis bf]. rewrite E. unfold end_val. cbn [Nat.eqb flag]. rewrite E1. lra.
Qed.
End One.
