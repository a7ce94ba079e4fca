(* Exactness of the stored Gauss-Legendre rules: soundness of the fixed-point check. *)
From Coq Require Import Reals ZArith List Arith Bool Lia Lra.
From Coquelicot Require Import Coquelicot.
From Verif Require Import Base_Sum Data_Gauss Model_Types Model_Bardell Spec_Bardell Proof_Poly Proof_Rule Proof_Bardell Proof_GaussCheck.
Import ListNotations.
Open Scope R_scope.

(* ------------------------------------------------- soundness *)
Lemma advance_stage h t : advance (stage h t) = stage h (S t).
Proof. unfold advance, stage. rewrite map_map. reflexivity. Qed.
Lemma moments_sound h fuel : forall t, moments_ok fuel t (stage h t) = true ->
  forall k, (t <= k < t + fuel)%nat -> moment_ok k (stage h k) = true.
Proof.
  induction fuel as [|f IH]; intros t H k Hk; [lia|]. cbn [moments_ok] in H. apply andb_true_iff in H. destruct H as [H1 H2].
  rewrite advance_stage in H2. destruct (Nat.eq_dec k t) as [->|]; [exact H1|]. apply (IH (S t)); [exact H2|lia].
Qed.

Definition litsq (x : lit) : R := lit_val x * lit_val x.
Lemma eps_small : eps <= 1.
Proof.
  unfold eps. apply (Rmult_le_reg_r (IZR TWO)); [apply TWO_R|]. rewrite Rinv_l by (pose proof TWO_R; lra). rewrite Rmult_1_l. apply IZR_le. discriminate.
Qed.
Lemma sq_close x : (snd x <= 56)%nat -> -1 < lit_val x < 1 -> Rabs (fx (sq x) - litsq x) <= 4 * eps.
Proof.
  intros Hd Hx. unfold sq, litsq. cbv zeta. pose proof (to_fx_close x Hd) as H. pose proof (fx_mul (to_fx x) (to_fx x)) as Hm.
  set (X := fx (to_fx x)) in *. set (v := lit_val x) in *. set (S := fx (Z.shiftr _ _)) in *. pose proof eps_pos. pose proof eps_small.
  replace (S - v * v) with ((S - X * X) + (X - v) * (X - v + 2 * v)) by ring.
  eapply Rle_trans; [apply Rabs_triang|]. rewrite Rabs_mult.
  assert (Rabs (X - v + 2 * v) <= 3). { eapply Rle_trans; [apply Rabs_triang|]. rewrite Rabs_mult, (Rabs_right 2) by lra. assert (Rabs v <= 1) by (apply Rabs_le; lra). lra. }
  assert (Rabs (X - v) * Rabs (X - v + 2 * v) <= eps * 3) by (apply Rmult_le_compat; auto using Rabs_pos). lra.
Qed.

Lemma powz_close y a w v : 0 <= y <= 1 -> (Z.abs a <= TWO)%Z -> Rabs (fx a - y) <= 4 * eps -> Rabs v <= 2 -> Rabs (fx w - v) <= 2 * eps ->
  forall t, Rabs (fx (powz w a t) - v * y ^ t) <= (2 + 9 * INR t) * eps.
Proof.
  intros Hy Ha Hay Hv Hw. induction t as [|t IH].
  - cbn [powz pow INR]. rewrite Rmult_1_r, Rmult_0_r, Rplus_0_r. exact Hw.
  - cbn [powz]. replace (v * y ^ S t) with (v * y ^ t * y) by (cbn [pow]; ring). rewrite S_INR.
    replace (2 + 9 * (INR t + 1)) with ((2 + 9 * INR t) + 9) by ring. apply prod_step; try assumption.
    rewrite Rabs_mult. assert (Rabs (y ^ t) <= 1).
    { rewrite <- RPow_abs. rewrite <- (pow1 t). apply pow_incr. split; [apply Rabs_pos|]. apply Rabs_le. lra. }
    rewrite <- (Rmult_1_r 2). apply Rmult_le_compat; auto using Rabs_pos.
Qed.

Lemma total_stage h t : IZR (total (stage h t)) = suml h (fun e => IZR (powz (fst e) (snd e) t)).
Proof.
  induction h as [|[w a] h IH]; cbn [stage map total fold_right suml fst snd]; [reflexivity|].
  rewrite plus_IZR. unfold total, stage in IH. rewrite IH. reflexivity.
Qed.

(* sum over the half rule *)
Lemma half_sum (l : list (lit * lit)) (F : Z -> Z -> R) :
  suml (half l) (fun e => F (fst e) (snd e)) =
  suml l (fun t => if (fst (fst t) <? 0)%Z then 0 else F (mult_of (fst t) * to_fx (snd t))%Z (sq (fst t))).
Proof.
  induction l as [|[x w] l IH]; cbn [half flat_map suml fst snd]; [reflexivity|].
  fold (half l). rewrite suml_app, IH. destruct (fst x <? 0)%Z; cbn [suml fst snd]; ring.
Qed.
Lemma half_In l x w : In (x, w) l -> (fst x <? 0)%Z = false -> In ((mult_of x * to_fx w)%Z, sq x) (half l).
Proof.
  intros Hin Hx. unfold half. apply in_flat_map. exists (x, w). split; [exact Hin|]. cbn [fst snd]. rewrite Hx. left. reflexivity.
Qed.

Lemma sym_sum (F G : lit * lit -> R) l : forall r, sym_ok l r = true ->
  (forall x w y v, fst x = (- fst y)%Z -> snd x = snd y -> w = v -> F (x, w) = G (y, v)) -> suml l F = suml r G.
Proof.
  induction l as [|[x w] l IH]; intros [|[y v] r] H HF; cbn [sym_ok] in H; try discriminate; [reflexivity|].
  rewrite !andb_true_iff, !Z.eqb_eq, !Nat.eqb_eq in H. destruct H as [[[[H1 H2] H3] H4] H5].
  cbn [suml]. rewrite (IH r H5 HF). f_equal. apply HF; try assumption. destruct w, v; cbn in *; congruence.
Qed.

Lemma even_sum (g : lit -> R) l : sym_ok l (rev l) = true -> (forall x y, fst x = (- fst y)%Z -> snd x = snd y -> g x = g y) ->
  suml l (fun t => IZR (mult_of (fst t)) * (lit_val (snd t) * g (fst t))) = suml l (fun t => lit_val (snd t) * g (fst t)).
Proof.
  intros Hs Hg.
  set (pos := fun t : lit * lit => (if (0 <? fst (fst t))%Z then 1 else 0) * (lit_val (snd t) * g (fst t))).
  set (neg := fun t : lit * lit => (if (fst (fst t) <? 0)%Z then 1 else 0) * (lit_val (snd t) * g (fst t))).
  set (zer := fun t : lit * lit => (if (fst (fst t) =? 0)%Z then 1 else 0) * (lit_val (snd t) * g (fst t))).
  assert (Hpn : suml l pos = suml l neg).
  { rewrite (sym_sum pos neg l (rev l) Hs).
    - apply suml_perm. apply Permutation.Permutation_sym, Permutation.Permutation_rev.
    - intros x w y v Hx Hd ->. unfold pos, neg. cbn [fst snd]. rewrite (Hg x y Hx Hd), Hx.
      replace (0 <? - fst y)%Z with (fst y <? 0)%Z; [reflexivity|].
      destruct (Z.ltb_spec (fst y) 0), (Z.ltb_spec 0 (- fst y)); lia || reflexivity. }
  transitivity (suml l pos + suml l neg + suml l zer).
  - rewrite <- Hpn, <- !suml_plus. apply suml_ext. intros t _. unfold pos, zer, mult_of.
    destruct (Z.ltb_spec 0 (fst (fst t))), (Z.eqb_spec (fst (fst t)) 0); try lia; ring.
  - rewrite <- !suml_plus. apply suml_ext. intros t _. unfold pos, neg, zer.
    destruct (Z.ltb_spec 0 (fst (fst t))), (Z.ltb_spec (fst (fst t)) 0), (Z.eqb_spec (fst (fst t)) 0); try lia; ring.
Qed.
Lemma lit_neg x y : fst x = (- fst y)%Z -> snd x = snd y -> lit_val x = - lit_val y.
Proof. intros H1 H2. unfold lit_val. rewrite H1, H2, opp_IZR. unfold Rdiv. ring. Qed.

Lemma odd_sum l k : sym_ok l (rev l) = true -> Nat.odd k = true ->
  suml l (fun t => lit_val (snd t) * lit_val (fst t) ^ k) = 0.
Proof.
  intros Hs Hk.
  assert (H : suml l (fun t => lit_val (snd t) * lit_val (fst t) ^ k) = - suml l (fun t => lit_val (snd t) * lit_val (fst t) ^ k)).
  { rewrite (sym_sum _ (fun t => - (lit_val (snd t) * lit_val (fst t) ^ k)) l (rev l) Hs) at 1.
    - rewrite (suml_perm (rev l) l) by (apply Permutation.Permutation_sym, Permutation.Permutation_rev).
      rewrite (suml_ext l _ (fun t => -1 * (lit_val (snd t) * lit_val (fst t) ^ k))) by (intros; ring).
      rewrite suml_scal. ring.
    - intros x w y v H1 H2 ->. cbn [fst snd]. rewrite (lit_neg _ _ H1 H2).
      apply Nat.odd_spec in Hk. destruct Hk as [m ->]. replace (2 * m + 1)%nat with (S (2 * m)) by lia. cbn [pow].
      rewrite !pow_mult. replace ((- lit_val y) ^ 2) with (lit_val y ^ 2) by ring. ring. }
  lra.
Qed.

Lemma rule_of n : (2 <= n <= 64)%nat -> exists l, In (n, l) lit_gauss /\ assoc n lit_gauss = Some l /\ gauss_check (n, l) = true.
Proof.
  intro Hn. destruct (assoc n lit_gauss) as [l|] eqn:E.
  - exists l. pose proof (assoc_In _ _ _ E) as Hin. repeat split; [exact Hin|]. pose proof gauss_checked as H.
    rewrite forallb_forall in H. exact (H _ Hin).
  - exfalso. assert (Hin : In n (map fst lit_gauss)) by (rewrite gauss_keys; apply in_seq; lia).
    clear Hn. revert E Hin. generalize lit_gauss. induction l as [|[k v] l IH]; cbn [assoc map fst]; intros E Hin; [exact Hin|].
    destruct (Nat.eqb_spec n k); [discriminate|]. destruct Hin as [->|Hin]; [congruence|]. apply IH; assumption.
Qed.
Lemma no_rule n : ~ (2 <= n <= 64)%nat -> assoc n lit_gauss = None.
Proof.
  intro Hn. destruct (assoc n lit_gauss) as [l|] eqn:E; [|reflexivity]. exfalso. apply Hn.
  apply assoc_In in E. apply (in_map fst) in E. rewrite gauss_keys in E. apply in_seq in E. cbn in E. lia.
Qed.

Lemma lit_abs_lt x : (Z.abs (fst x) < tenZ (snd x))%Z -> -1 < lit_val x < 1.
Proof.
  intro H. apply IZR_lt in H. rewrite abs_IZR, tenZ_IZR in H. unfold lit_val.
  assert (Ht : 0 < (10:R) ^ snd x) by (apply pow_lt; lra). apply Rabs_def2 in H. destruct H as [H1 H2].
  split; apply (Rmult_lt_reg_r (10 ^ snd x)); try exact Ht; unfold Rdiv; rewrite Rmult_assoc, Rinv_l, Rmult_1_r by lra; lra.
Qed.

Lemma mult_of_bounds x : (0 <= mult_of x <= 2)%Z.
Proof. unfold mult_of. destruct (0 <? fst x)%Z; [split; discriminate|]. destruct (fst x =? 0)%Z; split; discriminate. Qed.
Lemma suml_bound {A} (l : list A) g B : (forall x, In x l -> Rabs (g x) <= B) -> Rabs (suml l g) <= INR (length l) * B.
Proof.
  induction l as [|x l IH]; intro H; cbn [suml length].
  - rewrite Rabs_R0. cbn. lra.
  - rewrite S_INR. eapply Rle_trans; [apply Rabs_triang|]. specialize (IH (fun y Hy => H y (or_intror Hy))). specialize (H x (or_introl eq_refl)). lra.
Qed.

Lemma even_moment n l t : gauss_check (n, l) = true -> (t < n)%nat ->
  Rabs (suml l (fun e => lit_val (snd e) * lit_val (fst e) ^ (2 * t)) - 2 / (2 * INR t + 1)) <= 1 / 10 ^ 16.
Proof.
  unfold gauss_check, shape_ok. cbv zeta. cbn [fst snd]. rewrite !andb_true_iff, !Nat.leb_le, !Nat.eqb_eq.
  intros [[[[[HL H64] Hl] Hs] _] [Hq Hm]] Ht.
  pose proof (moments_sound _ _ _ Hm t ltac:(lia)) as Hk. clear Hm. unfold moment_ok in Hk. cbv zeta in Hk. apply Z.leb_le in Hk.
  rewrite forallb_forall in Hl, Hq.
  pose proof TWO_R as HT. pose proof eps_pos as He.
  set (C := suml (half l) (fun e => fx (powz (fst e) (snd e) t))).
  (* rounding error *)
  assert (H2 : Rabs (suml l (fun e => lit_val (snd e) * lit_val (fst e) ^ (2 * t)) - C) <= 37000 * eps).
  { rewrite (suml_ext l (fun e => lit_val (snd e) * lit_val (fst e) ^ (2 * t)) (fun e => lit_val (snd e) * litsq (fst e) ^ t)).
    2:{ intros e _. unfold litsq. rewrite pow_mult. do 2 f_equal. ring. }
    rewrite <- (even_sum (fun x => litsq x ^ t) l Hs).
    2:{ intros x y Hx Hd. unfold litsq. rewrite (lit_neg _ _ Hx Hd). f_equal. ring. }
    unfold C. rewrite (half_sum l (fun w a => fx (powz w a t))), <- suml_minus.
    eapply Rle_trans; [apply (suml_bound _ _ ((2 + 9 * INR t) * eps))|].
    - intros [x w] Hin. pose proof (Hl _ Hin) as Hb. cbn [fst snd] in *.
      rewrite !andb_true_iff, !Nat.leb_le, !Z.ltb_lt, Z.leb_le in Hb. destruct Hb as [[[[Hd Hwp] Hw1] Hdx] Hx].
      rewrite (ten_at_ok _ Hdx) in Hx. rewrite (ten_at_ok _ Hd) in Hw1. apply lit_abs_lt in Hx.
      assert (Hw0 : 0 <= lit_val w) by (apply lit_val_ge0; lia).
      assert (Hwle : lit_val w <= 1).
      { unfold lit_val. apply IZR_le in Hw1. rewrite tenZ_IZR in Hw1. assert (Hp : 0 < (10:R) ^ snd w) by (apply pow_lt; lra).
        apply (Rmult_le_reg_r (10 ^ snd w)); [assumption|]. unfold Rdiv. rewrite Rmult_assoc, Rinv_l by lra. lra. }
      destruct (fst x <? 0)%Z eqn:Ex.
      + apply Z.ltb_lt in Ex. unfold mult_of. destruct (Z.ltb_spec 0 (fst x)); [lia|]. destruct (Z.eqb_spec (fst x) 0); [lia|].
        rewrite Rmult_0_l, Rminus_0_r, Rabs_R0. apply Rmult_le_pos; [|lra]. pose proof (pos_INR t). lra.
      + rewrite Rabs_minus_sym. specialize (Hq _ (half_In _ _ _ Hin Ex)). cbn [snd] in Hq. apply Z.leb_le in Hq.
        assert (Hmz : (0 <= mult_of x <= 2)%Z) by apply mult_of_bounds.
        destruct Hmz as [Hm0 Hm2]. apply IZR_le in Hm0, Hm2. rewrite <- Rmult_assoc.
        apply powz_close; [unfold litsq; split; nra|exact Hq|apply sq_close; assumption| |].
        * rewrite Rabs_right by (apply Rle_ge; apply Rmult_le_pos; assumption). rewrite <- (Rmult_1_r 2). apply Rmult_le_compat; assumption.
        * unfold fx. rewrite mult_IZR. pose proof (to_fx_close w Hd) as Hc. unfold fx in Hc.
          replace (IZR (mult_of x) * IZR (to_fx w) / IZR TWO - IZR (mult_of x) * lit_val w)
            with (IZR (mult_of x) * (IZR (to_fx w) / IZR TWO - lit_val w)) by (field; lra).
          rewrite Rabs_mult, (Rabs_right (IZR (mult_of x))) by (apply Rle_ge; assumption). apply Rmult_le_compat; auto using Rabs_pos.
    - rewrite HL. rewrite <- Rmult_assoc. apply Rmult_le_compat_r; [lra|].
      assert (Hn : INR n <= 64) by (rewrite (INR_IZR_INZ n); apply IZR_le; lia).
      assert (Htt : INR t <= 64) by (rewrite (INR_IZR_INZ t); apply IZR_le; lia).
      pose proof (pos_INR t). pose proof (pos_INR n). apply Rle_trans with (64 * (2 + 9 * 64)); [|lra]. apply Rmult_le_compat; lra. }
  (* computed moment *)
  assert (H3 : Rabs (C - 2 / (2 * INR t + 1)) <= 1 / (2 * 10 ^ 16)).
  { replace C with (IZR (total (stage (half l) t)) / IZR TWO).
    2:{ unfold C. rewrite total_stage. unfold Rdiv. rewrite <- suml_scal_r. apply suml_ext. intros e _. reflexivity. }
    apply IZR_le in Hk. rewrite !mult_IZR, abs_IZR, minus_IZR, !mult_IZR, tenZ_IZR in Hk.
    assert (HK : IZR (Z.of_nat (2 * t + 1)) = 2 * INR t + 1). { rewrite <- INR_IZR_INZ, plus_INR, mult_INR. cbn. ring. }
    rewrite HK in Hk. pose proof (pos_INR t) as Ht0. set (K := 2 * INR t + 1) in *. assert (HKp : 0 < K) by (unfold K; lra). clearbody K.
    set (T := IZR TWO) in *. set (A := IZR (total _)) in *. clearbody T A.
    assert (Hten : 0 < (10:R) ^ 16) by (apply pow_lt; lra). set (U := (10:R) ^ 16) in *. clearbody U.
    replace (A / T - 2 / K) with ((A * K - 2 * T) / (K * T)) by (field; lra).
    assert (HKT : 0 < K * T) by (apply Rmult_lt_0_compat; assumption).
    unfold Rdiv. rewrite Rabs_mult, (Rabs_right (/ _)) by (left; apply Rinv_0_lt_compat; exact HKT).
    apply (Rmult_le_reg_r (K * T * (2 * U))); [apply Rmult_lt_0_compat; lra|].
    replace (Rabs (A * K - 2 * T) * / (K * T) * (K * T * (2 * U))) with (Rabs (A * K - 2 * T) * (2 * U)) by (field; lra).
    replace (1 * / (2 * U) * (K * T * (2 * U))) with (K * T) by (field; lra). exact Hk. }
  assert (H4 : 37000 * eps <= 1 / (2 * 10 ^ 16)).
  { unfold eps. assert (Hten : 0 < (10:R) ^ 16) by (apply pow_lt; lra). apply (Rmult_le_reg_r (IZR TWO * (2 * 10 ^ 16))); [apply Rmult_lt_0_compat; lra|].
    replace (37000 * / IZR TWO * (IZR TWO * (2 * 10 ^ 16))) with (37000 * (2 * 10 ^ 16)) by (field; lra).
    replace (1 / (2 * 10 ^ 16) * (IZR TWO * (2 * 10 ^ 16))) with (IZR TWO) by (field; lra).
    rewrite <- tenZ_IZR, <- !mult_IZR. apply IZR_le. vm_compute. discriminate. }
  assert (H5 : 1 / (2 * 10 ^ 16) + 1 / (2 * 10 ^ 16) = 1 / 10 ^ 16) by (field; apply ten_neq).
  set (u := suml l _) in *. set (m := 2 / (2 * INR t + 1)) in *. clearbody u m C.
  replace (u - m) with ((u - C) + (C - m)) by ring. eapply Rle_trans; [apply Rabs_triang|]. lra.
Qed.

Definition exact_moment (k : nat) : R := if Nat.even k then 2 / (INR k + 1) else 0.
Theorem gauss_moment n k : (2 <= n <= 64)%nat -> (k < 2 * n)%nat ->
  Rabs (suml (code_rule n) (fun t => snd t * fst t ^ k) - exact_moment k) <= 1 / 10 ^ 16.
Proof.
  intros Hn Hk. destruct (rule_of n Hn) as (l & _ & Ha & Hc). unfold code_rule. rewrite Ha, suml_map. cbn [fst snd].
  unfold exact_moment. destruct (Nat.even k) eqn:Ek.
  - apply Nat.even_spec in Ek. destruct Ek as [t ->]. rewrite mult_INR. change (INR 2) with 2. apply (even_moment n); [exact Hc|lia].
  - assert (Ho : Nat.odd k = true) by (unfold Nat.odd; rewrite Ek; reflexivity).
    unfold gauss_check, shape_ok in Hc. cbv zeta in Hc. cbn [fst snd] in Hc. rewrite !andb_true_iff in Hc. destruct Hc as [[[_ Hs] _] _].
    replace (suml l _) with 0 by (symmetry; exact (odd_sum l k Hs Ho)). rewrite Rminus_0_r, Rabs_R0. assert (0 < (10:R) ^ 16) by (apply pow_lt; lra).
    left. apply Rmult_lt_0_compat; [lra|apply Rinv_0_lt_compat; assumption].
Qed.

(* ------------------------------------------------- polynomials with real coefficients *)

Lemma mono_RInt k : is_RInt (fun x => x ^ k) (-1) 1 (exact_moment k).
Proof.
  assert (Hk1 : INR (S k) <> 0) by (apply not_0_INR; lia).
  evar_last.
  { apply (is_RInt_derive (fun x => x ^ (S k) / INR (S k))).
    - intros x _. auto_derive; [exact I|]. field. exact Hk1.
    - intros x _. apply @ex_derive_continuous. auto_derive. exact I. }
  unfold minus, plus, opp; cbn [AbelianGroup.plus AbelianGroup.opp]. cbn -[pow INR]. rewrite pow1. unfold exact_moment.
  rewrite <- S_INR. destruct (Nat.even k) eqn:Ek.
  - apply Nat.even_spec in Ek. destruct Ek as [t Et]. cbn [pow]. replace ((-1) ^ k) with 1 by (rewrite Et; symmetry; apply pow_1_even).
    field. exact Hk1.
  - assert (Ho : Nat.odd k = true) by (unfold Nat.odd; rewrite Ek; reflexivity). apply Nat.odd_spec in Ho. destruct Ho as [t Et].
    replace (S k) with (2 * (t + 1))%nat at 2 by lia. rewrite pow_1_even. unfold Rdiv. ring.
Qed.

Lemma poly_RInt_from l : is_RInt (fun x => suml l (fun t => snd t * x ^ fst t)) (-1) 1 (suml l (fun t : nat * R => snd t * exact_moment (fst t))).
Proof.
  induction l as [|[k a] l IH]; cbn [suml fst snd].
  - evar_last; [apply @is_RInt_const|]. unfold scal; cbn; unfold mult; cbn. ring.
  - apply @is_RInt_plus; [|exact IH]. apply @is_RInt_scal. apply mono_RInt.
Qed.

Theorem gauss_poly n p : (2 <= n <= 64)%nat -> (length p <= 2 * n)%nat ->
  Rabs (suml (code_rule n) (fun t => snd t * poly p (fst t)) - RInt (poly p) (-1) 1) <= 1 / 10 ^ 16 * suml p Rabs.
Proof.
  intros Hn HL. unfold poly at 2. rewrite (is_RInt_unique _ _ _ _ (poly_RInt_from _)). unfold poly.
  rewrite (suml_ext (code_rule n) _ (fun t => suml (combine (seq 0 (length p)) p) (fun u => snd u * (snd t * fst t ^ fst u)))).
  2:{ intros t _. rewrite <- suml_scal. apply suml_ext. intros u _. ring. }
  rewrite suml_swap, <- suml_minus.
  eapply Rle_trans; [apply suml_abs|].
  apply Rle_trans with (suml (combine (seq 0 (length p)) p) (fun u => 1 / 10 ^ 16 * Rabs (snd u))).
  - apply suml_le. intros [k a] Hin. cbn [fst snd]. rewrite suml_scal.
    replace (a * _ - a * exact_moment k) with (a * (suml (code_rule n) (fun t => snd t * fst t ^ k) - exact_moment k)) by ring.
    rewrite Rabs_mult, Rmult_comm. apply Rmult_le_compat_r; [apply Rabs_pos|].
    apply gauss_moment; [exact Hn|]. apply in_combine_l in Hin. apply in_seq in Hin. lia.
  - rewrite suml_scal. apply Rmult_le_compat_l.
    { assert (0 < (10:R) ^ 16) by (apply pow_lt; lra). left. apply Rmult_lt_0_compat; [lra|apply Rinv_0_lt_compat; assumption]. }
    clear. generalize 0%nat. induction p as [|a p IH]; intro s; cbn [length seq combine suml snd]; [lra|]. apply Rplus_le_compat_l. apply IH.
Qed.

(* nodes and weights *)
Lemma lit_lt x y : (fst x * tenZ (snd y) < fst y * tenZ (snd x))%Z -> lit_val x < lit_val y.
Proof.
  intro H. apply IZR_lt in H. rewrite !mult_IZR, !tenZ_IZR in H. unfold lit_val.
  assert (Hx : 0 < (10:R) ^ snd x) by (apply pow_lt; lra). assert (Hy : 0 < (10:R) ^ snd y) by (apply pow_lt; lra).
  apply (Rmult_lt_reg_r (10 ^ snd x * 10 ^ snd y)); [apply Rmult_lt_0_compat; assumption|].
  replace (IZR (fst x) / 10 ^ snd x * (10 ^ snd x * 10 ^ snd y)) with (IZR (fst x) * 10 ^ snd y) by (field; lra).
  replace (IZR (fst y) / 10 ^ snd y * (10 ^ snd x * 10 ^ snd y)) with (IZR (fst y) * 10 ^ snd x) by (field; lra). exact H.
Qed.

Definition val2 (t : lit * lit) : R * R := (lit_val (fst t), lit_val (snd t)).
Lemma increasing_sound l : (forall t, In t l -> (snd (fst t) <= 56)%nat) -> increasing l = true -> forall k x y, nth_error (map val2 l) k = Some x -> nth_error (map val2 l) (S k) = Some y -> fst x < fst y.
Proof.
  induction l as [|[a w] l IH]; intros H56 H [|k] x y Hx Hy; try discriminate.
  - destruct l as [|[b v] l]; [discriminate|]. cbn in Hx, Hy. injection Hx as <-. injection Hy as <-. cbn [increasing] in H.
    apply andb_true_iff in H. destruct H as [H _]. apply Z.ltb_lt in H. rewrite (ten_at_ok (snd a)), (ten_at_ok (snd b)) in H by (apply (H56 (a, w)) || apply (H56 (b, v)); cbn; auto). apply lit_lt. exact H.
  - apply (IH (fun t Ht => H56 t (or_intror Ht)) ltac:(destruct l as [|[b v] l]; [reflexivity|cbn [increasing] in H; apply andb_true_iff in H; apply H]) k); assumption.
Qed.
Lemma sym_ok_sound l : forall r, sym_ok l r = true -> map val2 l = map (fun t => (- fst t, snd t)) (map val2 r).
Proof.
  induction l as [|[x w] l IH]; intros [|[y v] r] H; cbn [sym_ok] in H; try discriminate; [reflexivity|].
  rewrite !andb_true_iff, !Z.eqb_eq, !Nat.eqb_eq in H. destruct H as [[[[H1 H2] H3] H4] H5].
  cbn [map]. rewrite (IH r H5). f_equal. unfold val2; cbn [fst snd]. rewrite (lit_neg _ _ H1 H2). f_equal. unfold lit_val. rewrite H3, H4. reflexivity.
Qed.

Theorem gauss_nodes n : (2 <= n <= 64)%nat ->
  length (code_rule n) = n /\ (forall t, In t (code_rule n) -> -1 < fst t < 1 /\ 0 < snd t) /\
  (forall k x y, nth_error (code_rule n) k = Some x -> nth_error (code_rule n) (S k) = Some y -> fst x < fst y) /\
  code_rule n = map (fun t => (- fst t, snd t)) (rev (code_rule n)).
Proof.
  intro Hn. destruct (rule_of n Hn) as (l & _ & Ha & Hc). unfold code_rule. rewrite Ha. change (fun t => (lit_val (fst t), lit_val (snd t))) with val2.
  unfold gauss_check, shape_ok in Hc. cbn [fst snd] in Hc. rewrite !andb_true_iff in Hc. destruct Hc as [[[[[HL _] Hl] Hs] Hi] _].
  apply Nat.eqb_eq in HL. rewrite forallb_forall in Hl. rewrite map_length. split; [exact HL|]. split; [|split].
  - intros t Hin. apply in_map_iff in Hin. destruct Hin as ([x w] & <- & Hin). specialize (Hl _ Hin). cbn [fst snd val2] in *.
    rewrite !andb_true_iff, !Z.ltb_lt, !Nat.leb_le in Hl. destruct Hl as [[[[_ Hw] _] Hdx] Hx]. rewrite (ten_at_ok _ Hdx) in Hx. split; [apply lit_abs_lt; exact Hx|].
    unfold lit_val. apply Rmult_lt_0_compat; [apply IZR_lt; exact Hw|]. apply Rinv_0_lt_compat. apply pow_lt. lra.
  - apply increasing_sound; [|exact Hi]. intros t Hin. specialize (Hl _ Hin). rewrite !andb_true_iff, !Nat.leb_le in Hl. destruct Hl as [[[[_ _] _] Hdx] _]. exact Hdx.
  - rewrite <- map_rev. apply sym_ok_sound. exact Hs.
Qed.

Theorem no_rule_zero n t : ~ (2 <= n <= 64)%nat -> In t (code_rule n) -> t = (0, 0).
Proof. intros Hn. unfold code_rule. rewrite (no_rule n Hn). apply repeat_spec. Qed.

Theorem rule_or_zero n : (1 <= n)%nat ->
  ((2 <= n <= 64)%nat -> Rabs (suml (code_rule n) (fun t => snd t * 1) - 2) <= 1 / 10 ^ 16) /\
  (~ (2 <= n <= 64)%nat -> forall g, suml (code_rule n) (fun t => snd t * g (fst t)) = 0).
Proof.
  intro H1. split; intro Hn.
  - pose proof (gauss_moment n 0 Hn ltac:(lia)) as H. unfold exact_moment in H. cbn [Nat.even INR pow] in H.
    replace (2 / (0 + 1)) with 2 in H by field. exact H.
  - intro g. apply suml_0. intros t Ht. rewrite (no_rule_zero n t Hn Ht). cbn. ring.
Qed.
Theorem one_point_integrates_nothing : exists n, (1 <= n)%nat /\
  suml (code_rule n) (fun t => snd t * 1) = 0 /\ RInt (fun _ => 1) (-1) 1 = 2.
Proof.
  exists 1%nat. split; [lia|]. split.
  - apply (proj2 (rule_or_zero 1 ltac:(lia)) ltac:(lia) (fun _ => 1)).
  - rewrite RInt_const. unfold scal; cbn; unfold mult; cbn. ring.
Qed.
