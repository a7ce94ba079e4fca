(* Energy of a list of mismatches between the fields of two blocks of coefficients: each mismatch is a
   combination of terms of the first block plus a combination of terms of the second. *)
From Coq Require Import Reals List Arith Bool Lia Lra.
From Coquelicot Require Import Coquelicot.
From Verif Require Import Base_Sum Model_Types Model_Coo Spec_Algebra Spec_Kinematics Spec_Panel Spec_Integral Proof_Coo Proof_Ana Proof_Terms.
Import ListNotations.
Open Scope R_scope.

(* coefficient, component, orders of differentiation along x and y *)
Record tm := mkTm { tk : R; tp : nat; tdx : nat; tdy : nat }.
Record mis := mkMis { mk : R; mA : list tm; mB : list tm }.

Lemma tsum_0 oA m n oB m' n' c d : tsum oA m n oB m' n' c d (fun _ _ _ _ _ _ => 0) = 0.
Proof. unfold tsum. apply dofsum_0; intros. apply dofsum_0; intros. ring. Qed.
Lemma tsum_suml {X} (l : list X) oA m n oB m' n' c d (V : X -> val4) :
  tsum oA m n oB m' n' c d (fun i k j l' p q => suml l (fun x => V x i k j l' p q)) = suml l (fun x => tsum oA m n oB m' n' c d (V x)).
Proof. induction l as [|x l IH]; cbn [suml]; [apply tsum_0|]. rewrite tsum_plus, IH. reflexivity. Qed.

(* value of the products of the terms of two lists *)
Definition pairs (la lb : list tm) (W : tm -> tm -> nat -> nat -> nat -> nat -> R) (k0 : R) : val4 :=
  fun i k j l p q => suml la (fun t => suml lb (fun t' =>
    term (tp t) (tp t') (fun i k j l => k0 * tk t * tk t' * W t t' i k j l) i k j l p q)).

Section Energy.
Variables (Z : Type) (isI : (Z -> R) -> R -> Prop).
Hypothesis isI_ext : forall g h I, (forall z, g z = h z) -> isI g I -> isI h I.
Hypothesis isI_plus : forall g h I J, isI g I -> isI h J -> isI (fun z => g z + h z) (I + J).
Hypothesis isI_0 : isI (fun _ => 0) 0.
Lemma isI_suml {X} (l : list X) (g : X -> Z -> R) I : (forall x, In x l -> isI (g x) (I x)) -> isI (fun z => suml l (fun x => g x z)) (suml l I).
Proof using isI_plus isI_0.
  induction l as [|x l IH]; intro H; cbn [suml]; [exact isI_0|]. apply isI_plus; [apply H; left; reflexivity|apply IH; intros; apply H; right; assumption].
Qed.

Variables (oA m1 n1 oB m2 n2 : nat) (FA GA FB GB : tm -> Z -> nat -> R).
Definition fA (t : tm) (c : nat -> R) (z : Z) : R := ritz m1 n1 (own oA c) (tp t) (FA t z) (GA t z).
Definition fB (t : tm) (c : nat -> R) (z : Z) : R := ritz m2 n2 (own oB c) (tp t) (FB t z) (GB t z).
Variables WAA WAB WBB : tm -> tm -> nat -> nat -> nat -> nat -> R.
Hypothesis HAA : forall t t' k0 c d, (tp t < 3)%nat -> (tp t' < 3)%nat -> (tdx t < 2)%nat -> (tdx t' < 2)%nat -> (tdy t < 2)%nat -> (tdy t' < 2)%nat ->
  isI (fun z => k0 * (fA t c z * fA t' d z)) (tsum oA m1 n1 oA m1 n1 c d (term (tp t) (tp t') (fun i k j l => k0 * WAA t t' i k j l))).
Hypothesis HAB : forall t t' k0 c d, (tp t < 3)%nat -> (tp t' < 3)%nat -> (tdx t < 2)%nat -> (tdx t' < 2)%nat -> (tdy t < 2)%nat -> (tdy t' < 2)%nat ->
  isI (fun z => k0 * (fA t c z * fB t' d z)) (tsum oA m1 n1 oB m2 n2 c d (term (tp t) (tp t') (fun i k j l => k0 * WAB t t' i k j l))).
Hypothesis HBB : forall t t' k0 c d, (tp t < 3)%nat -> (tp t' < 3)%nat -> (tdx t < 2)%nat -> (tdx t' < 2)%nat -> (tdy t < 2)%nat -> (tdy t' < 2)%nat ->
  isI (fun z => k0 * (fB t c z * fB t' d z)) (tsum oB m2 n2 oB m2 n2 c d (term (tp t) (tp t') (fun i k j l => k0 * WBB t t' i k j l))).

Definition tm_ok (t : tm) : Prop := (tp t < 3)%nat /\ (tdx t < 2)%nat /\ (tdy t < 2)%nat.
Definition mis_ok (m : mis) : Prop := List.Forall tm_ok (mA m) /\ List.Forall tm_ok (mB m).
Definition mismatch (m : mis) (c : nat -> R) (z : Z) : R :=
  suml (mA m) (fun t => tk t * fA t c z) + suml (mB m) (fun t => tk t * fB t c z).

Lemma prod2 {X Y} (la : list X) (lb : list Y) k0 f g :
  k0 * (suml la f * suml lb g) = suml la (fun t => suml lb (fun t' => k0 * f t * g t')).
Proof using .
  rewrite <- suml_scal_r, <- suml_scal. apply suml_ext; intros t _. rewrite <- suml_scal, <- suml_scal. apply suml_ext; intros t' _. ring.
Qed.

Lemma pairs_sum oX mX nX oY mY nY c d la lb W k0 :
  tsum oX mX nX oY mY nY c d (pairs la lb W k0) =
  suml la (fun t => suml lb (fun t' => tsum oX mX nX oY mY nY c d (term (tp t) (tp t') (fun i k j l => k0 * tk t * tk t' * W t t' i k j l)))).
Proof using . unfold pairs. rewrite tsum_suml. apply suml_ext; intros t _. rewrite tsum_suml. reflexivity. Qed.

(* K is the sum of the matrices of the three blocks *)
Theorem mismatch_energy (ms : list mis) K N c d : List.Forall mis_ok ms ->
  (forall c d, bilinear N K c d =
     tsum oA m1 n1 oA m1 n1 c d (fun i k j l p q => suml ms (fun m => pairs (mA m) (mA m) WAA (mk m) i k j l p q))
   + (tsum oA m1 n1 oB m2 n2 c d (fun i k j l p q => suml ms (fun m => pairs (mA m) (mB m) WAB (mk m) i k j l p q))
    + tsum oA m1 n1 oB m2 n2 d c (fun i k j l p q => suml ms (fun m => pairs (mA m) (mB m) WAB (mk m) i k j l p q)))
   + tsum oB m2 n2 oB m2 n2 c d (fun i k j l p q => suml ms (fun m => pairs (mB m) (mB m) WBB (mk m) i k j l p q))) ->
  isI (fun z => suml ms (fun m => mk m * (mismatch m c z * mismatch m d z))) (bilinear N K c d).
Proof using isI_ext isI_plus isI_0 HAA HAB HBB.
  intros Hok HK. rewrite HK. clear HK.
  eapply isI_ext with (g := fun z =>
     suml ms (fun m => mk m * (suml (mA m) (fun t => tk t * fA t c z) * suml (mA m) (fun t => tk t * fA t d z)))
   + (suml ms (fun m => mk m * (suml (mA m) (fun t => tk t * fA t c z) * suml (mB m) (fun t => tk t * fB t d z)))
    + suml ms (fun m => mk m * (suml (mA m) (fun t => tk t * fA t d z) * suml (mB m) (fun t => tk t * fB t c z))))
   + suml ms (fun m => mk m * (suml (mB m) (fun t => tk t * fB t c z) * suml (mB m) (fun t => tk t * fB t d z)))).
  { intro z. rewrite <- !suml_plus. apply suml_ext; intros m _. unfold mismatch. ring. }
  assert (HF : forall m t, In m ms -> In t (mA m) \/ In t (mB m) -> tm_ok t).
  { intros m t Hm Ht. rewrite List.Forall_forall in Hok. destruct (Hok m Hm) as [H1 H2]. rewrite List.Forall_forall in H1, H2. destruct Ht; auto. }
  repeat apply isI_plus; rewrite tsum_suml; apply isI_suml; intros m Hm; rewrite pairs_sum;
    (eapply isI_ext; [intro z; symmetry; apply prod2|]); apply isI_suml; intros t Ht; apply isI_suml; intros t' Ht';
    (destruct (HF m t Hm ltac:(auto)) as (T1 & T2 & T3); destruct (HF m t' Hm ltac:(auto)) as (T1' & T2' & T3')).
  - eapply isI_ext; [|apply HAA; assumption]. intro z. cbn beta. ring.
  - eapply isI_ext; [|apply HAB; assumption]. intro z. cbn beta. ring.
  - eapply isI_ext; [|apply HAB; assumption]. intro z. cbn beta. ring.
  - eapply isI_ext; [|apply HBB; assumption]. intro z. cbn beta. ring.
Qed.
End Energy.

(* the three blocks of a connection *)
Lemma three_blocks oA m1 n1 oB m2 n2 k11 k12 k22 (V11 V12 V22 : val4) N c d :
  (oA + DOF * (n1 * m1) <= oB)%nat -> (oB + DOF * (n2 * m2) <= N)%nat ->
  block_form oA m1 n1 V11 (dense k11) -> (forall r s, dense k12 r s = rectmat oA m1 n1 oB m2 n2 V12 r s) -> block_form oB m2 n2 V22 (dense k22) ->
  (forall i k j l p q, (i < m1)%nat -> (k < m1)%nat -> (j < n1)%nat -> (l < n1)%nat -> (p < DOF)%nat -> (q < DOF)%nat -> V11 i k j l p q = V11 k i l j q p) ->
  (forall i k j l p q, (i < m2)%nat -> (k < m2)%nat -> (j < n2)%nat -> (l < n2)%nat -> (p < DOF)%nat -> (q < DOF)%nat -> V22 i k j l p q = V22 k i l j q p) ->
  bilinear N (finalize_symmetric (dense (k11 ++ k12 ++ k22))) c d =
  tsum oA m1 n1 oA m1 n1 c d V11 + (tsum oA m1 n1 oB m2 n2 c d V12 + tsum oA m1 n1 oB m2 n2 d c V12) + tsum oB m2 n2 oB m2 n2 c d V22.
Proof.
  intros HA HB H11 H12 H22 S11 S22.
  rewrite (bilinear_ext N _ (fun r s => fullmat oA m1 n1 V11 r s + (fun r s => rectmat oA m1 n1 oB m2 n2 V12 r s + (fun r s => rectmat oA m1 n1 oB m2 n2 V12 s r) r s) r s
     + fullmat oB m2 n2 V22 r s)).
  - rewrite (bilinear_plus N (fun r s => fullmat oA m1 n1 V11 r s + _)), (bilinear_plus N (fullmat oA m1 n1 V11)), (bilinear_plus N (rectmat oA m1 n1 oB m2 n2 V12)).
    rewrite (bilinear_transpose N (rectmat oA m1 n1 oB m2 n2 V12)), !bilinear_diag, !bilinear_rect by lia. reflexivity.
  - intros r s.
    rewrite (finalize_ext _ (fun r s => (fun r s => dense k11 r s + rectmat oA m1 n1 oB m2 n2 V12 r s) r s + dense k22 r s)).
    2:{ intros. rewrite !dense_app, H12. ring. }
    rewrite finalize_plus, finalize_plus, finalize_rect by exact HA.
    rewrite (block_full _ _ _ _ _ S11 H11), (block_full _ _ _ _ _ S22 H22). reflexivity.
Qed.
