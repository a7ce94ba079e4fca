(* Matrices assembled from blocks whose entries are sums of products, and their bilinear forms. *)
From Coq Require Import Reals List Arith Bool Lia Lra.
From Coquelicot Require Import Coquelicot.
From Verif Require Import Base_Sum Model_Types Model_Coo Spec_Algebra Spec_Kinematics Spec_Panel Proof_Coo Proof_Ana.
Import ListNotations.
Open Scope R_scope.

(* values V i k j l p q of a block between (i, j) p in the block at oA and (k, l) q in the block at oB *)
Definition val4 : Type := nat -> nat -> nat -> nat -> nat -> nat -> R.
Definition rectmat (oA mA nA oB mB nB : nat) (V : val4) (r s : nat) : R :=
  if (inblk oA mA nA r && inblk oB mB nB s)%bool
  then V (ix oA mA r) (ix oB mB s) (jx oA mA r) (jx oB mB s) (cx oA r) (cx oB s) else 0.
Definition tsum (oA mA nA oB mB nB : nat) (c d : nat -> R) (V : val4) : R :=
  dofsum mA nA (fun i j p => dofsum mB nB (fun k l q =>
    c (dofpos oA mA i j + p)%nat * V i k j l p q * d (dofpos oB mB k l + q)%nat)).

Lemma bilinear_rect oA mA nA oB mB nB V N c d : (oA + DOF * (nA * mA) <= N)%nat -> (oB + DOF * (nB * mB) <= N)%nat ->
  bilinear N (rectmat oA mA nA oB mB nB V) c d = tsum oA mA nA oB mB nB c d V.
Proof.
  intros HA HB. unfold bilinear, rectmat, tsum.
  rewrite (sumn_ext N _ (fun r => if inblk oA mA nA r then
     (fun r i j p => dofsum mB nB (fun k l q => c r * V i k j l p q * d (dofpos oB mB k l + q)%nat)) r (ix oA mA r) (jx oA mA r) (cx oA r) else 0)).
  - exact (sum_block oA mA nA N (fun r i j p => dofsum mB nB (fun k l q => c r * V i k j l p q * d (dofpos oB mB k l + q)%nat)) HA).
  - intros r Hr. destruct (inblk oA mA nA r); cbn [andb].
    + rewrite <- (sum_block oB mB nB N (fun s k l q => c r * V (ix oA mA r) k (jx oA mA r) l (cx oA r) q * d s) HB).
      apply sumn_ext; intros s Hs. destruct (inblk oB mB nB s); ring.
    + apply sumn_0. intros s _. ring.
Qed.
Lemma bilinear_diag o m n V N c d : (o + DOF * (n * m) <= N)%nat -> bilinear N (fullmat o m n V) c d = tsum o m n o m n c d V.
Proof. intro H. apply bilinear_full. exact H. Qed.

Lemma bilinear_ext N K K' c d : (forall r s, K r s = K' r s) -> bilinear N K c d = bilinear N K' c d.
Proof. intro H. unfold bilinear. apply sumn_ext; intros. apply sumn_ext; intros. rewrite H. reflexivity. Qed.
Lemma bilinear_plus N K K' c d : bilinear N (fun r s => K r s + K' r s) c d = bilinear N K c d + bilinear N K' c d.
Proof.
  unfold bilinear. rewrite <- sumn_plus. apply sumn_ext; intros. rewrite <- sumn_plus. apply sumn_ext; intros. ring.
Qed.
Lemma bilinear_transpose N K c d : bilinear N (fun r s => K s r) c d = bilinear N K d c.
Proof. unfold bilinear. rewrite sumn_swap. apply sumn_ext; intros. apply sumn_ext; intros. ring. Qed.
Lemma bilinear_zero N c d : bilinear N (fun _ _ => 0) c d = 0.
Proof. apply sumn_0; intros. apply sumn_0; intros. ring. Qed.

Lemma dense_app A B r s : dense (A ++ B) r s = dense A r s + dense B r s.
Proof. apply suml_app. Qed.
Lemma finalize_plus K K' r s : finalize_symmetric (fun r s => K r s + K' r s) r s = finalize_symmetric K r s + finalize_symmetric K' r s.
Proof. unfold finalize_symmetric. destruct (r <=? s)%nat; reflexivity. Qed.
Lemma finalize_ext K K' r s : (forall r s, K r s = K' r s) -> finalize_symmetric K r s = finalize_symmetric K' r s.
Proof. intro H. unfold finalize_symmetric. rewrite !H. reflexivity. Qed.

(* the loops without the test row > col *)
Lemma rect_ikjl oA mA nA oB mB nB ker V r s : (forall i k j l, wf_block (ker i k j l)) ->
  (forall i k j l p q, (p < DOF)%nat -> (q < DOF)%nat -> loc (ker i k j l) p q = V i k j l p q) ->
  dense (loop_ikjl false oA oB mA nA mB nB ker) r s = rectmat oA mA nA oB mB nB V r s.
Proof.
  intros Hw HV. rewrite dense_ikjl by exact Hw. unfold loop_value, rectmat, skipped. cbn [andb].
  destruct (inblk oA mA nA r) eqn:EA; cbn [andb]; [|reflexivity]. destruct (inblk oB mB nB s) eqn:EB; [|reflexivity].
  apply HV; [apply (inblk_bounds _ _ _ _ EA)|apply (inblk_bounds _ _ _ _ EB)].
Qed.
Lemma rect_jlik oA mA nA oB mB nB ker V r s : (forall i k j l, wf_block (ker i k j l)) ->
  (forall i k j l p q, (p < DOF)%nat -> (q < DOF)%nat -> loc (ker i k j l) p q = V i k j l p q) ->
  dense (loop_jlik false oA oB mA nA mB nB ker) r s = rectmat oA mA nA oB mB nB V r s.
Proof.
  intros Hw HV. rewrite dense_jlik by exact Hw. unfold loop_value, rectmat, skipped. cbn [andb].
  destruct (inblk oA mA nA r) eqn:EA; cbn [andb]; [|reflexivity]. destruct (inblk oB mB nB s) eqn:EB; [|reflexivity].
  apply HV; [apply (inblk_bounds _ _ _ _ EA)|apply (inblk_bounds _ _ _ _ EB)].
Qed.
(* a block above the diagonal, mirrored *)
Lemma finalize_rect oA mA nA oB mB nB V r s : (oA + DOF * (nA * mA) <= oB)%nat ->
  finalize_symmetric (rectmat oA mA nA oB mB nB V) r s =
  rectmat oA mA nA oB mB nB V r s + rectmat oA mA nA oB mB nB V s r.
Proof.
  intro H. unfold finalize_symmetric, rectmat.
  assert (HA : forall r, inblk oA mA nA r = true -> (r < oB)%nat).
  { intros q. unfold inblk. rewrite andb_true_iff, Nat.leb_le, Nat.ltb_lt. lia. }
  assert (HB : forall r, inblk oB mB nB r = true -> (oB <= r)%nat).
  { intros q. unfold inblk. rewrite andb_true_iff, Nat.leb_le, Nat.ltb_lt. lia. }
  destruct (Nat.leb_spec r s).
  - destruct (inblk oA mA nA s) eqn:E1; cbn [andb]; [|ring]. destruct (inblk oB mB nB r) eqn:E2; [|ring].
    apply HA in E1. apply HB in E2. lia.
  - destruct (inblk oA mA nA r) eqn:E1; cbn [andb]; [|ring]. destruct (inblk oB mB nB s) eqn:E2; [|ring].
    apply HA in E1. apply HB in E2. lia.
Qed.
(* diagonal blocks, both loop orders *)
Lemma diag_form_ikjl o m n ker V : (forall i k j l, wf_block (ker i k j l)) ->
  (forall i k j l p q, (p < DOF)%nat -> (q < DOF)%nat -> loc (ker i k j l) p q = V i k j l p q) ->
  block_form o m n V (dense (loop_ikjl true o o m n m n ker)).
Proof. intros Hw HV r s. apply ana_dense; assumption. Qed.
Lemma diag_form_jlik o m n ker V : (forall i k j l, wf_block (ker i k j l)) ->
  (forall i k j l p q, (p < DOF)%nat -> (q < DOF)%nat -> loc (ker i k j l) p q = V i k j l p q) ->
  block_form o m n V (dense (loop_jlik true o o m n m n ker)).
Proof.
  intros Hw HV r s. rewrite dense_jlik by exact Hw. rewrite <- (dense_ikjl true o o m n m n ker) by exact Hw.
  apply ana_dense; assumption.
Qed.

(* ------------------------------------------------- sums of products *)
Definition term (pA pB : nat) (W : nat -> nat -> nat -> nat -> R) : val4 :=
  fun i k j l p q => if ((p =? pA) && (q =? pB))%nat%bool then W i k j l else 0.

Lemma tsum_ext oA mA nA oB mB nB c d V V' :
  (forall i k j l p q, (i < mA)%nat -> (k < mB)%nat -> (j < nA)%nat -> (l < nB)%nat -> (p < DOF)%nat -> (q < DOF)%nat -> V i k j l p q = V' i k j l p q) ->
  tsum oA mA nA oB mB nB c d V = tsum oA mA nA oB mB nB c d V'.
Proof.
  intro H. apply dofsum_ext; intros i j p Hi Hj Hp. apply dofsum_ext; intros k l q Hk Hl Hq. rewrite H by assumption. reflexivity.
Qed.
Lemma tsum_plus oA mA nA oB mB nB c d V V' :
  tsum oA mA nA oB mB nB c d (fun i k j l p q => V i k j l p q + V' i k j l p q) =
  tsum oA mA nA oB mB nB c d V + tsum oA mA nA oB mB nB c d V'.
Proof.
  unfold tsum. rewrite <- dofsum_plus. apply dofsum_ext; intros i j p _ _ _. rewrite <- dofsum_plus.
  apply dofsum_ext; intros k l q _ _ _. ring.
Qed.

(* one product: the fields of the two sides *)
Lemma dofsum_comp m n f (pA : nat) : (pA < 3)%nat ->
  dofsum m n (fun i j p => if (p =? pA)%nat then f i j else 0) = sumn n (fun j => sumn m (fun i => f i j)).
Proof.
  intro H. rewrite dofsum_3. apply sumn_ext; intros j _. apply sumn_ext; intros i _.
  destruct pA as [|[|[|pA]]]; try lia; cbn [Nat.eqb]; ring.
Qed.
Lemma tsum_term oA mA nA oB mB nB c d pA pB W : (pA < 3)%nat -> (pB < 3)%nat ->
  tsum oA mA nA oB mB nB c d (term pA pB W) =
  sumn nA (fun j => sumn mA (fun i => sumn nB (fun l => sumn mB (fun k =>
    own oA c (3 * (j * mA + i) + pA)%nat * W i k j l * own oB d (3 * (l * mB + k) + pB)%nat)))).
Proof.
  intros HA HB. unfold tsum, term.
  rewrite <- (dofsum_comp mA nA (fun i j => sumn nB (fun l => sumn mB (fun k =>
    own oA c (3 * (j * mA + i) + pA)%nat * W i k j l * own oB d (3 * (l * mB + k) + pB)%nat))) pA HA).
  apply dofsum_ext; intros i j p _ _ _. destruct (Nat.eqb_spec p pA) as [->|]; cbn [andb].
  - rewrite <- (dofsum_comp mB nB (fun k l => own oA c (3 * (j * mA + i) + pA)%nat * W i k j l * own oB d (3 * (l * mB + k) + pB)%nat) pB HB).
    apply dofsum_ext; intros k l q _ _ _. destruct (Nat.eqb_spec q pB) as [->|]; [|ring].
    unfold own, dofpos, DOF. rewrite <- !Nat.add_assoc. reflexivity.
  - apply dofsum_0; intros. ring.
Qed.
Lemma tsum_product oA mA nA oB mB nB c d pA pB k0 (F G g h : nat -> R) : (pA < 3)%nat -> (pB < 3)%nat ->
  tsum oA mA nA oB mB nB c d (term pA pB (fun i k j l => k0 * (F i * G k) * (g j * h l))) =
  k0 * (ritz mA nA (own oA c) pA F g * ritz mB nB (own oB d) pB G h).
Proof.
  intros HA HB. rewrite tsum_term by assumption. unfold ritz.
  rewrite <- sumn_scal_r, <- sumn_scal. apply sumn_ext; intros j _.
  rewrite <- sumn_scal_r, <- sumn_scal. apply sumn_ext; intros i _.
  rewrite <- sumn_scal, <- sumn_scal. apply sumn_ext; intros l _.
  rewrite <- sumn_scal, <- sumn_scal. apply sumn_ext; intros k _. ring.
Qed.

(* ------------------------------------------------- line integrals *)
Definition is_line (g : R -> R) (I : R) : Prop := is_RInt g (-1) 1 I.
Lemma line_ext g h I : (forall x, g x = h x) -> is_line g I -> is_line h I.
Proof. intros H HI. eapply is_RInt_ext; [|exact HI]. intros; apply H. Qed.
Lemma line_plus g h I J : is_line g I -> is_line h J -> is_line (fun x => g x + h x) (I + J).
Proof. intros A B. apply (is_RInt_plus (V := R_NormedModule)); assumption. Qed.
Lemma line_scal k g I : is_line g I -> is_line (fun x => k * g x) (k * I).
Proof. intros A. apply (is_RInt_scal (V := R_NormedModule)). exact A. Qed.
Lemma line_0 : is_line (fun _ => 0) 0.
Proof.
  unfold is_line. evar_last; [apply (@is_RInt_const R_NormedModule)|]. unfold scal; cbn; unfold mult; cbn. lra.
Qed.
Lemma line_sumn n (g : nat -> R -> R) I : (forall k, (k < n)%nat -> is_line (g k) (I k)) ->
  is_line (fun x => sumn n (fun k => g k x)) (sumn n I).
Proof.
  induction n as [|n IH]; intro H; cbn [sumn]; [apply line_0|].
  apply line_plus; [apply IH; intros; apply H; lia|apply H; lia].
Qed.

(* table along x, values along y *)
Lemma line_term_x oA mA nA oB mB nB c d pA pB k0 (F G : nat -> R -> R) (g h : nat -> R) (X : nat -> nat -> R) :
  (pA < 3)%nat -> (pB < 3)%nat -> (forall i k, (i < mA)%nat -> (k < mB)%nat -> is_line (fun x => F i x * G k x) (X i k)) ->
  is_line (fun x => k0 * (ritz mA nA (own oA c) pA (fun i => F i x) g * ritz mB nB (own oB d) pB (fun k => G k x) h))
    (tsum oA mA nA oB mB nB c d (term pA pB (fun i k j l => k0 * X i k * (g j * h l)))).
Proof.
  intros HA HB HX. rewrite tsum_term by assumption.
  apply (line_ext (fun x => sumn nA (fun j => sumn mA (fun i => sumn nB (fun l => sumn mB (fun k =>
    own oA c (3 * (j * mA + i) + pA)%nat * (k0 * (F i x * G k x) * (g j * h l)) * own oB d (3 * (l * mB + k) + pB)%nat)))))).
  - intro x. rewrite <- (tsum_product oA mA nA oB mB nB c d pA pB k0 (fun i => F i x) (fun k => G k x) g h HA HB). symmetry. apply tsum_term; assumption.
  - apply line_sumn; intros j Hj. apply line_sumn; intros i Hi. apply line_sumn; intros l Hl. apply line_sumn; intros k Hk.
    apply (line_ext (fun x => (own oA c (3 * (j * mA + i) + pA)%nat * k0 * (g j * h l) * own oB d (3 * (l * mB + k) + pB)%nat) * (F i x * G k x))); [intro; ring|].
    replace (own oA c (3 * (j * mA + i) + pA)%nat * (k0 * X i k * (g j * h l)) * own oB d (3 * (l * mB + k) + pB)%nat)
      with ((own oA c (3 * (j * mA + i) + pA)%nat * k0 * (g j * h l) * own oB d (3 * (l * mB + k) + pB)%nat) * X i k) by ring.
    apply line_scal. apply HX; assumption.
Qed.
(* table along y, values along x *)
Lemma line_term_y oA mA nA oB mB nB c d pA pB k0 (g h : nat -> R -> R) (F G : nat -> R) (Y : nat -> nat -> R) :
  (pA < 3)%nat -> (pB < 3)%nat -> (forall j l, (j < nA)%nat -> (l < nB)%nat -> is_line (fun y => g j y * h l y) (Y j l)) ->
  is_line (fun y => k0 * (ritz mA nA (own oA c) pA F (fun j => g j y) * ritz mB nB (own oB d) pB G (fun l => h l y)))
    (tsum oA mA nA oB mB nB c d (term pA pB (fun i k j l => k0 * (F i * G k) * Y j l))).
Proof.
  intros HA HB HY. rewrite tsum_term by assumption.
  apply (line_ext (fun y => sumn nA (fun j => sumn mA (fun i => sumn nB (fun l => sumn mB (fun k =>
    own oA c (3 * (j * mA + i) + pA)%nat * (k0 * (F i * G k) * (g j y * h l y)) * own oB d (3 * (l * mB + k) + pB)%nat)))))).
  - intro y. rewrite <- (tsum_product oA mA nA oB mB nB c d pA pB k0 F G (fun j => g j y) (fun l => h l y) HA HB). symmetry. apply tsum_term; assumption.
  - apply line_sumn; intros j Hj. apply line_sumn; intros i Hi. apply line_sumn; intros l Hl. apply line_sumn; intros k Hk.
    apply (line_ext (fun y => (own oA c (3 * (j * mA + i) + pA)%nat * k0 * (F i * G k) * own oB d (3 * (l * mB + k) + pB)%nat) * (g j y * h l y))); [intro; ring|].
    replace (own oA c (3 * (j * mA + i) + pA)%nat * (k0 * (F i * G k) * Y j l) * own oB d (3 * (l * mB + k) + pB)%nat)
      with ((own oA c (3 * (j * mA + i) + pA)%nat * k0 * (F i * G k) * own oB d (3 * (l * mB + k) + pB)%nat) * Y j l) by ring.
    apply line_scal. apply HY; assumption.
Qed.
