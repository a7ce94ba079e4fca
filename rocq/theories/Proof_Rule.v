(* Basic facts about the quadrature tables. *)
From Coq Require Import Reals ZArith List Arith Bool Lia Lra.
From Verif Require Import Base_Sum Data_Gauss Model_Types Model_Bardell.
Import ListNotations.
Open Scope R_scope.

Lemma lit_val_ge0 l : (0 <= fst l)%Z -> 0 <= lit_val l.
Proof.
  intro H. unfold lit_val. apply Rmult_le_pos; [apply IZR_le; exact H|].
  left. apply Rinv_0_lt_compat. apply pow_lt. lra.
Qed.

Lemma assoc_In {A} k (l : list (nat * A)) v : assoc k l = Some v -> In (k, v) l.
Proof.
  induction l as [|[k' v'] l IH]; cbn; [discriminate|].
  destruct (Nat.eqb_spec k k'); intro H; [inversion H; subst; auto|auto].
Qed.

Lemma gauss_weights_check :
  forallb (fun e => (length (snd e) =? fst e)%nat && forallb (fun t => (0 <=? fst (snd t))%Z) (snd e))%bool lit_gauss = true.
Proof. vm_compute. reflexivity. Qed.

Lemma code_rule_nonneg n t : In t (code_rule n) -> 0 <= snd t.
Proof.
  unfold code_rule. destruct (assoc n lit_gauss) as [l|] eqn:E.
  - intro H. apply in_map_iff in H. destruct H as [[x w] [<- H]]. cbn [snd].
    assert (Hc := gauss_weights_check). rewrite forallb_forall in Hc.
    specialize (Hc _ (assoc_In _ _ _ E)). cbn [fst snd] in Hc. apply andb_true_iff in Hc. destruct Hc as [_ Hc].
    rewrite forallb_forall in Hc. specialize (Hc _ H). cbn [snd] in Hc. apply lit_val_ge0. apply Z.leb_le. exact Hc.
  - intro H. apply repeat_spec in H. subst. cbn. lra.
Qed.

Lemma code_rule_length n : length (code_rule n) = n.
Proof.
  unfold code_rule. destruct (assoc n lit_gauss) as [l|] eqn:E.
  - rewrite map_length. assert (Hc := gauss_weights_check). rewrite forallb_forall in Hc.
    specialize (Hc _ (assoc_In _ _ _ E)). cbn [fst snd] in Hc. apply andb_true_iff in Hc. destruct Hc as [Hc _].
    apply Nat.eqb_eq. exact Hc.
  - apply repeat_length.
Qed.
