(* Integer polynomials (coefficients in increasing degree) and their evaluation over the reals. *)
From Coq Require Import Reals ZArith List Arith Bool Lia Lra.
From Coquelicot Require Import Coquelicot.
From Verif Require Import Base_Sum.
Import ListNotations.
Open Scope R_scope.

Fixpoint zeval (l : list Z) (x : R) : R :=
  match l with [] => 0 | a :: t => IZR a + x * zeval t x end.

Fixpoint zderiv_from (k : Z) (l : list Z) : list Z :=
  match l with [] => [] | a :: t => (k * a)%Z :: zderiv_from (k + 1) t end.
Definition zderiv (l : list Z) : list Z := match l with [] => [] | _ :: t => zderiv_from 1 t end.

Fixpoint zadd (p q : list Z) : list Z :=
  match p, q with
  | [], _ => q
  | _, [] => p
  | a :: p', b :: q' => (a + b)%Z :: zadd p' q'
  end.
Definition zscale (k : Z) (l : list Z) : list Z := map (Z.mul k) l.
Fixpoint zmul (p q : list Z) : list Z :=
  match p with [] => [] | a :: p' => zadd (if (a =? 0)%Z then [] else zscale a q) (0%Z :: zmul p' q) end.
Fixpoint zabs (l : list Z) : Z := match l with [] => 0%Z | a :: t => (Z.abs a + zabs t)%Z end.

(* integral over [-1, 1] times L, L being a multiple of every 2k+1 up to the length *)
Fixpoint zint_from (L : Z) (k : Z) (l : list Z) : Z :=
  match l with
  | [] => 0%Z
  | a :: t => ((if Z.even k then a * (2 * (L / (k + 1))) else 0) + zint_from L (k + 1) t)%Z
  end.

Lemma zeval_zadd p : forall q x, zeval (zadd p q) x = zeval p x + zeval q x.
Proof.
  induction p as [|a p IH]; intros [|b q] x; cbn [zadd zeval]; try ring.
  rewrite IH, plus_IZR. ring.
Qed.
Lemma zeval_zscale k l x : zeval (zscale k l) x = IZR k * zeval l x.
Proof. induction l as [|a l IH]; cbn [zscale map zeval]; [ring|]. unfold zscale in IH. rewrite IH, mult_IZR. ring. Qed.
Lemma zeval_zmul p q x : zeval (zmul p q) x = zeval p x * zeval q x.
Proof.
  induction p as [|a p IH]; cbn [zmul zeval]; [ring|].
  rewrite zeval_zadd. cbn [zeval]. rewrite IH.
  destruct (Z.eqb_spec a 0) as [->|_]; [cbn [zeval]|rewrite zeval_zscale]; ring.
Qed.

Lemma zeval_from l : forall k x, zeval l x = suml (combine (seq k (length l)) l) (fun t => IZR (snd t) * x ^ (fst t - k)).
Proof.
  induction l as [|a l IH]; intros k x; [reflexivity|].
  cbn [zeval length seq combine suml fst snd]. rewrite Nat.sub_diag, (IH (S k)). rewrite <- suml_scal.
  f_equal; [cbn; ring|]. apply suml_ext. intros [e c] H. cbn [fst snd].
  apply in_combine_l in H. apply in_seq in H. replace (e - k)%nat with (S (e - S k)) by lia. cbn [pow]. ring.
Qed.

Lemma zabs_ge0 l : (0 <= zabs l)%Z.
Proof. induction l as [|a l IH]; cbn; lia. Qed.

Lemma zeval_bound l x : -1 <= x <= 1 -> Rabs (zeval l x) <= IZR (zabs l).
Proof.
  intro Hx. induction l as [|a l IH]; cbn [zeval zabs]; [rewrite Rabs_R0; lra|].
  rewrite plus_IZR, abs_IZR. eapply Rle_trans; [apply Rabs_triang|].
  apply Rplus_le_compat_l. rewrite Rabs_mult. assert (Rabs x <= 1) by (apply Rabs_le; lra).
  assert (Hp := Rabs_pos x). assert (Hq := Rabs_pos (zeval l x)).
  eapply Rle_trans; [|exact IH]. rewrite <- (Rmult_1_l (Rabs (zeval l x))) at 2. apply Rmult_le_compat_r; assumption.
Qed.

Lemma zeval_deriv_from l : forall k x, zeval (zderiv_from k l) x = (IZR k) * zeval l x + x * zeval (zderiv l) x.
Proof.
  induction l as [|a l IH]; intros k x; cbn [zderiv_from zeval zderiv]; [ring|].
  rewrite IH, mult_IZR, plus_IZR, (IH 1%Z). ring.
Qed.

Lemma zeval_derive l : forall x, is_derive (zeval l) x (zeval (zderiv l) x).
Proof.
  induction l as [|a l IH]; intro x; cbn [zderiv].
  - apply (is_derive_const 0).
  - rewrite zeval_deriv_from. cbn [zeval].
    evar_last.
    + apply (is_derive_plus (fun _ => IZR a) (fun x => x * zeval l x)); [apply is_derive_const|]. apply (is_derive_mult (fun x => x) (zeval l)); [apply is_derive_id|apply IH|intros; apply Rmult_comm].
    + cbn. unfold plus, mult, zero, one; cbn. ring.
Qed.

Lemma zint_correct L l : forall k,
  (forall e, (k <= e < k + length l)%nat -> (L mod (Z.of_nat e + 1) = 0)%Z) -> (0 < L)%Z ->
  is_RInt (fun x => x ^ k * zeval l x) (-1) 1 (IZR (zint_from L (Z.of_nat k) l) / IZR L).
Proof.
  induction l as [|a l IH]; intros k Hk HL.
  - cbn [zint_from zeval]. evar_last.
    + apply (is_RInt_ext (fun _ => 0)); [intros x _; cbn; symmetry; apply Rmult_0_r|]. apply @is_RInt_const.
    + unfold scal; cbn; unfold mult; cbn. unfold Rdiv. ring.
  - cbn [zint_from zeval].
    apply (is_RInt_ext (fun x => plus (IZR a * x ^ k) (x ^ (S k) * zeval l x))).
    { intros x _. unfold plus; cbn. ring. }
    assert (HLR : IZR L <> 0). { apply not_0_IZR. lia. }
    rewrite plus_IZR. replace ((IZR (if Z.even (Z.of_nat k) then a * (2 * (L / (Z.of_nat k + 1))) else 0) + IZR (zint_from L (Z.of_nat k + 1) l)) / IZR L)
      with (plus (IZR (if Z.even (Z.of_nat k) then a * (2 * (L / (Z.of_nat k + 1))) else 0) / IZR L) (IZR (zint_from L (Z.of_nat (S k)) l) / IZR L)).
    2:{ unfold plus; cbn [AbelianGroup.plus]. rewrite Nat2Z.inj_succ. unfold Z.succ. cbn. field. exact HLR. }
    apply @is_RInt_plus.
    2:{ apply IH; [|exact HL]. intros e He. apply Hk. cbn. lia. }
    assert (Hk1 : INR (S k) <> 0) by (apply not_0_INR; lia).
    evar_last.
    { apply (is_RInt_derive (fun x => IZR a * x ^ (S k) / INR (S k))).
      - intros x _. auto_derive; [exact I|]. field. exact Hk1.
      - intros x _. apply (continuous_mult (K := R_AbsRing) (fun _ => IZR a) (fun x => x ^ k)); [apply continuous_const|].
        apply @ex_derive_continuous. auto_derive. exact I. }
    unfold minus, plus, opp; cbn [AbelianGroup.plus AbelianGroup.opp]. cbn -[pow INR Z.mul].
    specialize (Hk k). cbn [length] in Hk. specialize (Hk ltac:(lia)).
    rewrite pow1. 
    assert (HLe : IZR L = INR (S k) * IZR (L / (Z.of_nat k + 1))).
    { rewrite INR_IZR_INZ, <- mult_IZR. f_equal. rewrite Nat2Z.inj_succ. unfold Z.succ.
      apply Z.div_exact in Hk; [exact Hk|lia]. }
    rewrite HLe in HLR |- *.
    assert (Hq : IZR (L / (Z.of_nat k + 1)) <> 0) by (intro E; apply HLR; rewrite E; ring).
    destruct (Z.even (Z.of_nat k)) eqn:Ek.
    + rewrite !mult_IZR. replace ((-1) ^ (S k)) with (-1). { field. split; assumption. }
      apply Z.even_spec in Ek. destruct Ek as [q Ek]. cbn [pow].
      replace k with (2 * Z.to_nat q)%nat by lia. rewrite pow_1_even. ring.
    + assert (Eo : Z.odd (Z.of_nat k) = true) by (rewrite <- Z.negb_even, Ek; reflexivity).
      apply Z.odd_spec in Eo. destruct Eo as [q Eo].
      replace ((-1) ^ (S k)) with 1. { unfold Rdiv. ring. }
      replace (S k) with (2 * (Z.to_nat q + 1))%nat by lia. rewrite pow_1_even. reflexivity.
Qed.

Definition tenZ (d : nat) : Z := (10 ^ Z.of_nat d)%Z.
Lemma tenZ_IZR d : IZR (tenZ d) = 10 ^ d.
Proof. unfold tenZ. rewrite <- pow_IZR. reflexivity. Qed.
Lemma ten_neq d : (10 : R) ^ d <> 0.
Proof. apply pow_nonzero. lra. Qed.
