(* The shape functions are linearly independent: a panel that is not displaced has no coefficients but those its supports
   multiply by zero. *)
From Coq Require Import Reals List Arith Bool ZArith Lia Lra.
From Verif Require Import Base_Sum Model_Types Model_Result Model_DB Data_Bardell Model_Bardell Model_Shell Model_Field
  Spec_Algebra Spec_Kinematics Spec_Integral Spec_Bardell Spec_Panel Spec_Shell Proof_Poly Proof_Bardell.
From Coq Require Import List.
Import ListNotations.
Open Scope R_scope.

(* ------------------------------------------------- polynomials *)
Lemma sumn_front n f : sumn (S n) f = f 0%nat + sumn n (fun k => f (S k)).
Proof. change (S n) with (1 + n)%nat. rewrite sumn_add_len. cbn [sumn]. rewrite Rplus_0_l. reflexivity. Qed.
Lemma small_zero A M : (forall x, 0 < x <= 1 -> Rabs A <= x * M) -> A = 0.
Proof.
  intro H. destruct (Req_dec A 0) as [|HA]; [assumption|]. exfalso. pose proof (Rabs_pos_lt A HA) as HP. pose proof (H 1 ltac:(lra)) as H1. rewrite Rmult_1_l in H1.
  assert (HM : 0 < M) by lra. specialize (H (Rabs A / (2 * M))).
  assert (HX : 0 < Rabs A / (2 * M) <= 1).
  { split; [apply Rdiv_lt_0_compat; lra|]. apply (Rmult_le_reg_r (2 * M)); [lra|]. unfold Rdiv. rewrite Rmult_assoc, Rinv_l by lra. lra. }
  specialize (H HX). replace (Rabs A / (2 * M) * M) with (Rabs A / 2) in H by (field; lra). lra.
Qed.
Lemma poly_zero : forall n a, (forall x, 0 < x <= 1 -> sumn n (fun k => a k * x ^ k) = 0) -> forall k, (k < n)%nat -> a k = 0.
Proof.
  induction n as [|n IH]; intros a H k Hk; [lia|].
  assert (HT : forall x, sumn (S n) (fun k => a k * x ^ k) = a 0%nat + x * sumn n (fun k => a (S k) * x ^ k)).
  { intro x. rewrite sumn_front. cbn [pow]. rewrite <- sumn_scal. f_equal; [ring|]. apply sumn_ext; intros; ring. }
  assert (H0 : a 0%nat = 0).
  { apply (small_zero _ (sumn n (fun k => Rabs (a (S k))))). intros x Hx. specialize (H x Hx). rewrite HT in H.
    replace (a 0%nat) with (- (x * sumn n (fun k => a (S k) * x ^ k))) by lra. rewrite Rabs_Ropp, Rabs_mult, (Rabs_pos_eq x) by lra.
    apply Rmult_le_compat_l; [lra|]. eapply Rle_trans; [apply sumn_abs|]. apply sumn_le; intros i _. rewrite Rabs_mult.
    rewrite <- (Rmult_1_r (Rabs (a (S i)))) at 2. apply Rmult_le_compat_l; [apply Rabs_pos|]. rewrite <- RPow_abs, (Rabs_pos_eq x) by lra.
    rewrite <- (pow1 i). apply pow_incr. lra. }
  destruct k as [|k]; [exact H0|]. apply (IH (fun k => a (S k))); [|lia]. intros x Hx. specialize (H x Hx). rewrite HT, H0 in H.
  apply (Rmult_eq_reg_l x); lra.
Qed.

(* ------------------------------------------------- the coefficients of the shape functions *)
Lemma zeval_sum : forall l n x, (length l <= n)%nat -> zeval l x = sumn n (fun k => IZR (nth k l 0%Z) * x ^ k).
Proof.
  induction l as [|a l IH]; intros n x Hn.
  - cbn [zeval]. symmetry. apply sumn_0; intros k _. destruct k; cbn [nth]; ring.
  - destruct n as [|n]; [cbn in Hn; lia|]. rewrite sumn_front. cbn [zeval nth pow]. rewrite (IH n x) by (cbn in Hn; lia).
    rewrite <- sumn_scal. rewrite Rmult_1_r. f_equal. apply sumn_ext; intros; ring.
Qed.
Definition bc (i k : nat) : R := IZR (nth k (snd (bz i)) 0%Z) / IZR (fst (bz i)).
Definition tri_check (i : nat) : bool :=
  ((0 <? fst (bz i))%Z && (length (snd (bz i)) <=? 30)%nat &&
   ((i <? 4)%nat || negb (nth i (snd (bz i)) 0 =? 0)%Z) && forallb (fun k => (k <=? i)%nat || (k <? 4)%nat || (nth k (snd (bz i)) 0 =? 0)%Z) (seq 0 30))%bool.
Lemma tri_checked : forallb tri_check (seq 0 30) = true.
Proof. vm_compute. reflexivity. Qed.
Lemma tri i : (i < 30)%nat -> (0 < fst (bz i))%Z /\ (length (snd (bz i)) <= 30)%nat /\ ((4 <= i)%nat -> bc i i <> 0) /\
  forall k, (k < 30)%nat -> (i < k)%nat -> (4 <= k)%nat -> bc i k = 0.
Proof.
  intro Hi. pose proof tri_checked as H. rewrite forallb_forall in H. specialize (H i ltac:(apply in_seq; lia)). unfold tri_check in H.
  apply andb_prop in H. destruct H as [H H4]. apply andb_prop in H. destruct H as [H H3]. apply andb_prop in H. destruct H as [H1 H2].
  apply Z.ltb_lt in H1. apply Nat.leb_le in H2. split; [exact H1|]. split; [exact H2|]. split.
  - intros Hi4. apply orb_prop in H3. destruct H3 as [H3|H3]; [apply Nat.ltb_lt in H3; lia|]. apply negb_true_iff, Z.eqb_neq in H3.
    unfold bc, Rdiv. apply Rmult_integral_contrapositive_currified; [apply not_0_IZR; exact H3|]. apply Rinv_neq_0_compat, not_0_IZR. lia.
  - intros k Hk Hik Hk4. rewrite forallb_forall in H4. specialize (H4 k ltac:(apply in_seq; lia)).
    apply orb_prop in H4. destruct H4 as [H4|H4]; [apply orb_prop in H4; destruct H4 as [H4|H4]; [apply Nat.leb_le in H4; lia|apply Nat.ltb_lt in H4; lia]|].
    apply Z.eqb_eq in H4. unfold bc. rewrite H4. unfold Rdiv. ring.
Qed.
Lemma bardell_sum i x : (i < 30)%nat -> bardell i x = sumn 30 (fun k => bc i k * x ^ k).
Proof.
  intro Hi. destruct (tri i Hi) as (_ & HL & _). rewrite (bardell_qeval i Hi). unfold qeval. rewrite (zeval_sum _ 30 x HL). unfold Rdiv. rewrite Rmult_comm, <- sumn_scal.
  apply sumn_ext; intros k _. unfold bc, Rdiv. ring.
Qed.
Lemma last_term m k f : (k < m)%nat -> (forall i, (i < m)%nat -> i <> k -> f i = 0) -> sumn m f = f k.
Proof.
  intros Hk H. rewrite (sumn_ext m f (fun i => if (i =? k)%nat then f i else 0)).
  - rewrite sumn_single. destruct (Nat.ltb_spec k m); [reflexivity|lia].
  - intros i Hi. destruct (Nat.eqb_spec i k); [reflexivity|apply H; assumption].
Qed.
Lemma full_indep (a : nat -> R) : (forall x, 0 < x <= 1 -> sumn 30 (fun i => a i * bardell i x) = 0) -> forall i, (i < 30)%nat -> a i = 0.
Proof.
  intros H.
  assert (HC : forall k, (k < 30)%nat -> sumn 30 (fun i => a i * bc i k) = 0).
  { apply (poly_zero 30 (fun k => sumn 30 (fun i => a i * bc i k))). intros x Hx. rewrite <- (H x Hx).
    rewrite (sumn_ext 30 _ (fun k => sumn 30 (fun i => a i * bc i k * x ^ k))) by (intros; symmetry; apply sumn_scal_r).
    rewrite sumn_swap. apply sumn_ext; intros i Hi. rewrite (bardell_sum i x Hi), <- sumn_scal. apply sumn_ext; intros; ring. }
  assert (HT : forall t, (t <= 26)%nat -> forall i, (30 - t <= i < 30)%nat -> a i = 0).
  { induction t as [|t IH]; intros Ht i Hi; [lia|]. destruct (Nat.eq_dec i (30 - S t)) as [->|Hn]; [|apply IH; lia].
    set (k := (30 - S t)%nat) in *. pose proof (HC k ltac:(lia)) as HK. rewrite (last_term 30 k) in HK; [|lia|].
    - destruct (tri k ltac:(lia)) as (_ & _ & HZ & _). specialize (HZ ltac:(lia)). apply Rmult_integral in HK. destruct HK; [assumption|contradiction].
    - intros i Hi30 Hne. destruct (Nat.lt_ge_cases i k) as [Hlt|Hge].
      + destruct (tri i Hi30) as (_ & _ & _ & HB). rewrite (HB k) by lia. ring.
      + rewrite (IH ltac:(lia) i) by lia. ring. }
  assert (HF : forall k, (k < 4)%nat -> sumn 4 (fun i => a i * bc i k) = 0).
  { intros k Hk. rewrite <- (HC k ltac:(lia)). symmetry. apply sumn_shrink; [lia|]. intros i Hi Hi'. rewrite (HT 26%nat (le_n _) i) by lia. ring. }
  pose proof (HF 0%nat ltac:(lia)) as F0. pose proof (HF 1%nat ltac:(lia)) as F1. pose proof (HF 2%nat ltac:(lia)) as F2. pose proof (HF 3%nat ltac:(lia)) as F3.
  unfold bc in F0, F1, F2, F3. cbn [sumn bz fst snd nth] in F0, F1, F2, F3.
  intros i Hi. destruct i as [|[|[|[|i]]]]; [lra|lra|lra|lra|]. apply (HT 26%nat (le_n _)). lia.
Qed.
Lemma bardell_indep m (a : nat -> R) : (m <= 30)%nat -> (forall x, 0 < x <= 1 -> sumn m (fun i => a i * bardell i x) = 0) -> forall i, (i < m)%nat -> a i = 0.
Proof.
  intros Hm H i Hi. pose proof (full_indep (fun i => if (i <? m)%nat then a i else 0)) as HA. cbv beta in HA.
  assert (HX : forall x, 0 < x <= 1 -> sumn 30 (fun i => (if (i <? m)%nat then a i else 0) * bardell i x) = 0).
  { intros x Hx. transitivity (sumn m (fun i => a i * bardell i x)); [|exact (H x Hx)]. rewrite (sumn_shrink m 30 _ Hm).
    - apply sumn_ext; intros k Hk. replace (k <? m)%nat with true by (symmetry; apply Nat.ltb_lt; exact Hk). reflexivity.
    - intros k Hk Hk'. replace (k <? m)%nat with false by (symmetry; apply Nat.ltb_ge; lia). ring. }
  specialize (HA HX i ltac:(lia)). replace (i <? m)%nat with true in HA by (symmetry; apply Nat.ltb_lt; exact Hi). exact HA.
Qed.

(* ------------------------------------------------- panels *)
Lemma still_coefs s c d : (sh_m s <= 30)%nat -> (sh_n s <= 30)%nat ->
  (forall xi eta, -1 <= xi <= 1 -> -1 <= eta <= 1 -> fld exact_basis s c d 0 0 xi eta = 0) ->
  forall i j, (i < sh_m s)%nat -> (j < sh_n s)%nat -> c (3 * (j * sh_m s + i) + d)%nat * flag (xedge s d) i * flag (yedge s d) j = 0.
Proof.
  intros Hm Hn H i j Hi Hj.
  refine (bardell_indep (sh_m s) (fun i => c (3 * (j * sh_m s + i) + d)%nat * flag (xedge s d) i * flag (yedge s d) j) Hm _ i Hi).
  intros x Hx. refine (bardell_indep (sh_n s) (fun j => sumn (sh_m s) (fun i => c (3 * (j * sh_m s + i) + d)%nat * flag (xedge s d) i * flag (yedge s d) j * bardell i x)) Hn _ j Hj).
  intros y Hy. rewrite <- (H x y) by lra. unfold fld, ritz. apply sumn_ext; intros t _. rewrite Rmult_comm, <- sumn_scal. apply sumn_ext; intros k _.
  cbn [shape exact_basis bf]. ring.
Qed.

(* a basis whose functions are multiplied by the flags *)
Definition flagged (Bs : basis) (n : nat) : Prop := forall p i x e, (i < n)%nat -> shape Bs p i x e = flag e i * shape Bs p i x (mkEdge 1 1 1 1).
Lemma still_fld Bs s c d p q x y : flagged Bs 30 -> (sh_m s <= 30)%nat -> (sh_n s <= 30)%nat ->
  (forall i j, (i < sh_m s)%nat -> (j < sh_n s)%nat -> c (3 * (j * sh_m s + i) + d)%nat * flag (xedge s d) i * flag (yedge s d) j = 0) ->
  fld Bs s c d p q x y = 0.
Proof.
  intros HB Hm Hn H. unfold fld, ritz. apply sumn_0; intros j Hj. apply sumn_0; intros i Hi.
  rewrite (HB p i x), (HB q j y) by lia. pose proof (H i j Hi Hj) as HZ.
  transitivity (c (3 * (j * sh_m s + i) + d)%nat * flag (xedge s d) i * flag (yedge s d) j * (shape Bs p i x (mkEdge 1 1 1 1) * shape Bs q j y (mkEdge 1 1 1 1))); [ring|].
  rewrite HZ. ring.
Qed.
Lemma exact_flagged : flagged exact_basis 30.
Proof. intros p i x e _. destruct p as [|[|p]]; cbn [shape exact_basis bf bfp bfpp]; destruct i as [|[|[|[|i]]]]; cbn [flag e1t e1r e2t e2r]; ring. Qed.
Definition flag_check (t : list lit_entry) : bool :=
  forallb (fun i => match nth_error t i with Some (k, _) =>
    match k with Some k => (k =? i)%nat && (i <? 4)%nat | None => (4 <=? i)%nat end | None => false end)%bool (seq 0 30).
Lemma flags_checked : forallb flag_check [vec_f; vec_fp; vec_fpp] = true.
Proof. vm_compute. reflexivity. Qed.
Lemma flag_nth t i x e : flag_check t = true -> (i < 30)%nat -> nth i (vector_fun t x e) 0 = flag e i * nth i (vector_fun t x (mkEdge 1 1 1 1)) 0.
Proof.
  intros H Hi. unfold flag_check in H. rewrite forallb_forall in H. specialize (H i ltac:(apply in_seq; lia)).
  unfold vector_fun. destruct (nth_error t i) as [[k l]|] eqn:E; [|discriminate].
  rewrite !(nth_error_nth _ i 0 (map_nth_error _ i t E)). unfold lit_fun. cbn [fst snd].
  destruct k as [k|].
  - apply andb_prop in H. destruct H as [H1 H2]. apply Nat.eqb_eq in H1. apply Nat.ltb_lt in H2. subst k.
    destruct i as [|[|[|[|i]]]]; [| | | |lia]; cbn [flag_val flag e1t e1r e2t e2r]; ring.
  - apply Nat.leb_le in H. destruct i as [|[|[|[|i]]]]; try lia. cbn [flag_val flag]. ring.
Qed.
Lemma vec_flagged : flagged vec_basis 30.
Proof.
  pose proof flags_checked as H. cbn [forallb] in H. apply andb_prop in H. destruct H as [H0 H]. apply andb_prop in H. destruct H as [H1 H].
  apply andb_prop in H. destruct H as [H2 _].
  intros p i x e Hi. destruct p as [|[|p]]; cbn [shape vec_basis bf bfp bfpp]; apply flag_nth; assumption.
Qed.
