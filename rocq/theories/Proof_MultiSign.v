(* Sign of the work of the connections. *)
From Coq Require Import Reals List Arith Bool Lia Lra FunctionalExtensionality.
From Coquelicot Require Import Coquelicot.
From Verif Require Import Base_Sum Model_Types Model_Coo Model_Result Model_Num Model_DB Model_Shell Model_Multi
  Spec_Algebra Spec_Integral Spec_Panel Spec_Shell Spec_Fext Spec_Conn Spec_Multi Spec_MultiConn Proof_MultiConn.
Import ListNotations.
Open Scope R_scope.

Lemma rint_nonneg f b W : 0 < b -> is_RInt f 0 b W -> (forall x, 0 <= f x) -> 0 <= W.
Proof.
  intros Hb HW Hf. rewrite <- (@is_RInt_unique R_CompleteNormedModule f 0 b W HW). apply RInt_ge_0; [lra|exists W; exact HW|]. intros; apply Hf.
Qed.
Lemma rint_zero f b W : 0 < b -> is_RInt f 0 b W -> (forall x, 0 <= x <= b -> f x = 0) -> W = 0.
Proof.
  intros Hb HW Hf. rewrite <- (@is_RInt_unique R_CompleteNormedModule f 0 b W HW).
  rewrite (RInt_ext f (fun _ => 0)). { rewrite RInt_const. unfold scal. cbn. unfold mult. cbn. ring. }
  intros x Hx. apply Hf. rewrite Rmin_left, Rmax_right in Hx by lra. lra.
Qed.
Lemma square_nonneg g W : square_integral g W -> (forall x y, 0 <= g x y) -> 0 <= W.
Proof.
  intros [He HW] Hg. rewrite <- (@is_RInt_unique R_CompleteNormedModule _ _ _ W HW). apply RInt_ge_0; [lra|exists W; exact HW|].
  intros x Hx. apply RInt_ge_0; [lra|apply He|]. intros; apply Hg.
Qed.
Lemma square_zero g W : square_integral g W -> (forall x y, -1 <= x <= 1 -> -1 <= y <= 1 -> g x y = 0) -> W = 0.
Proof.
  intros [He HW] Hg. rewrite <- (@is_RInt_unique R_CompleteNormedModule _ _ _ W HW).
  assert (HI : forall x, -1 <= x <= 1 -> RInt (g x) (-1) 1 = 0).
  { intros x Hx. rewrite (RInt_ext (g x) (fun _ => 0)). { rewrite RInt_const. unfold scal. cbn. unfold mult. cbn. ring. }
    intros y Hy. rewrite Rmin_left, Rmax_right in Hy by lra. apply Hg; lra. }
  rewrite (RInt_ext _ (fun _ => 0)). { rewrite RInt_const. unfold scal. cbn. unfold mult. cbn. ring. }
  intros x Hx. rewrite Rmin_left, Rmax_right in Hx by lra. apply HI. lra.
Qed.
Lemma jump_work_nonneg js U V x y X Y : List.Forall (fun kj => 0 <= fst kj) js -> 0 <= jump_work js U V U V x y X Y.
Proof.
  intro H. unfold jump_work. induction H as [|kj js Hk _ IH]; cbn [suml]; [lra|].
  pose proof (Rle_0_sqr (snd kj U V x y X Y)) as Hs. unfold Rsqr in Hs. pose proof (Rmult_le_pos _ _ Hk Hs). lra.
Qed.
Lemma jump_work_zero (js : list (R * jump)) U V U' V' x y X Y : List.Forall (fun kj => snd kj U V x y X Y = 0) js -> jump_work js U V U' V' x y X Y = 0.
Proof.
  intro H. unfold jump_work. induction H as [|[k j] js Hk _ IH]; cbn [suml]; [lra|]. rewrite IH. cbn [fst snd] in *.
  assert (Hj : j U V x y X Y = 0) by exact Hk. rewrite Hj. ring.
Qed.
(* whether the jumps vanish does not depend on the stiffnesses *)
Ltac unfold_jumps H := repeat match type of H with List.Forall _ (_ :: _) => let A := fresh in let B := fresh in pose proof (List.Forall_inv H) as A; pose proof (List.Forall_inv_tail H) as B; clear H; rename B into H; cbn [snd fst] in A end.

Section Sign.
Variables (E : env) (Bs : basis) (h : nat -> xpanel).
Lemma conn_work_nonneg cn c W : sound E h (cn_p1 cn) -> sound E h (cn_p2 cn) -> conn_work E Bs h cn c c W -> 0 <= W.
Proof.
  intros (_ & a1 & b1 & h1 & A1 & B1 & D1 & F1) (_ & a2 & b2 & h2 & A2 & B2 & D2 & F2).
  pose proof (pen_pos _ _ _ _ A1 A2 h1 h2) as PA. pose proof (pen_pos _ _ _ _ B1 B2 h1 h2) as PB.
  pose proof (pen_pos _ _ _ _ D1 D2 h1 h2) as PD. pose proof (pen_pos _ _ _ _ F1 F2 h1 h2) as PF.
  unfold conn_work, pair_work. destruct (cn_func cn); try contradiction.
  - intros (y1 & y2 & _ & _ & HW). apply (rint_nonneg _ _ _ a1 HW). intro x. apply jump_work_nonneg. unfold penalty_of. repeat (apply List.Forall_cons; [cbn; lra|]). apply List.Forall_nil.
  - intros (y1 & y2 & _ & _ & HW). apply (rint_nonneg _ _ _ b1 HW). intro x. apply jump_work_nonneg. unfold penalty_of. repeat (apply List.Forall_cons; [cbn; lra|]). apply List.Forall_nil.
  - intros HW. apply (square_nonneg _ _ HW). intros x y.
    assert (HM : 0 < Rmin (sh_a (geometry h (cn_p1 cn))) (sh_b (geometry h (cn_p1 cn)))) by (apply Rmin_glb_lt; assumption).
    assert (HQ : 0 <= penalty_of E h A11 A11 (cn_p1 cn) (cn_p2 cn) / Rmin (sh_a (geometry h (cn_p1 cn))) (sh_b (geometry h (cn_p1 cn)))).
    { apply Rlt_le. apply Rdiv_lt_0_compat; [exact PA|exact HM]. }
    apply Rmult_le_pos; [apply Rmult_le_pos; lra|]. apply jump_work_nonneg. repeat (apply List.Forall_cons; [exact HQ|]). apply List.Forall_nil.
  - intros (y1 & y2 & _ & _ & HW). apply (rint_nonneg _ _ _ a1 HW). intro x. apply jump_work_nonneg. unfold penalty_of. repeat (apply List.Forall_cons; [cbn; lra|]). apply List.Forall_nil.
  - intros (y1 & y2 & _ & _ & HW). apply (rint_nonneg _ _ _ b1 HW). intro x. apply jump_work_nonneg. unfold penalty_of. repeat (apply List.Forall_cons; [cbn; lra|]). apply List.Forall_nil.
  - intros HW. apply (square_nonneg _ _ HW). intros x y.
    assert (HQ : 0 <= 10000 / (sh_a (geometry h (cn_p1 cn)) * sh_b (geometry h (cn_p1 cn)))).
    { apply Rlt_le. apply Rdiv_lt_0_compat; [lra|apply Rmult_lt_0_compat; assumption]. }
    apply Rmult_le_pos; [apply Rmult_le_pos; lra|]. apply jump_work_nonneg. repeat (apply List.Forall_cons; [exact HQ|]). apply List.Forall_nil.
Qed.
Lemma conn_work_zero cn c d W : sound E h (cn_p1 cn) -> no_jump Bs h cn c -> conn_work E Bs h cn c d W -> W = 0.
Proof.
  intros (_ & a1 & b1 & _). unfold conn_work, pair_work, no_jump. destruct (cn_func cn); try contradiction.
  - intros HJ (y1 & y2 & E1 & E2 & HW). apply (rint_zero _ _ _ a1 HW). intros x Hx. apply jump_work_zero. specialize (HJ y1 y2 x E1 E2 Hx).
    unfold jumps_SSycte in *. unfold_jumps HJ. repeat (apply List.Forall_cons; [assumption|]). apply List.Forall_nil.
  - intros HJ (y1 & y2 & E1 & E2 & HW). apply (rint_zero _ _ _ b1 HW). intros x Hx. apply jump_work_zero. specialize (HJ y1 y2 x E1 E2 Hx).
    unfold jumps_SSxcte in *. unfold_jumps HJ. repeat (apply List.Forall_cons; [assumption|]). apply List.Forall_nil.
  - intros HJ HW. apply (square_zero _ _ HW). intros x y Hx Hy. rewrite jump_work_zero; [ring|]. specialize (HJ x y Hx Hy).
    unfold jumps_SB in *. unfold_jumps HJ. repeat (apply List.Forall_cons; [assumption|]). apply List.Forall_nil.
  - intros HJ (y1 & y2 & E1 & E2 & HW). apply (rint_zero _ _ _ a1 HW). intros x Hx. apply jump_work_zero. specialize (HJ y1 y2 x E1 E2 Hx).
    unfold jumps_BFycte in *. unfold_jumps HJ. repeat (apply List.Forall_cons; [assumption|]). apply List.Forall_nil.
  - intros HJ (y1 & y2 & E1 & E2 & HW). apply (rint_zero _ _ _ b1 HW). intros x Hx. apply jump_work_zero. specialize (HJ y1 y2 x E1 E2 Hx).
    unfold jumps_BFxcte in *. unfold_jumps HJ. repeat (apply List.Forall_cons; [assumption|]). apply List.Forall_nil.
  - intros HJ HW. apply (square_zero _ _ HW). intros x y Hx Hy. rewrite jump_work_zero; [ring|]. specialize (HJ x y Hx Hy).
    unfold jumps_SB in *. unfold_jumps HJ. repeat (apply List.Forall_cons; [assumption|]). apply List.Forall_nil.
Qed.
End Sign.
