(* Symmetric matrices: a stiffness without negative energy bounds every form that vanishes in its null states, and the pencil
   K + t G keeps no negative energy up to a largest t, at which it has a new null state. *)
From Coq Require Import Reals List Arith Bool Lia Lra Classical.
From Verif Require Import Base_Sum Spec_Algebra Spec_Modes Spec_Pull Spec_BayModes Proof_Modes Proof_Solve.
Open Scope R_scope.

Definition onev (i k : nat) : R := if (k =? i)%nat then 1 else 0.
Lemma dot_one N i v : (i < N)%nat -> sumn N (fun k => onev i k * v k) = v i.
Proof.
  intro Hi. rewrite (sumn_ext N _ (fun k => if (k =? i)%nat then v k else 0)) by (intros k _; unfold onev; destruct (k =? i)%nat; ring).
  rewrite sumn_single. destruct (Nat.ltb_spec i N); [reflexivity|lia].
Qed.
Lemma row_one N K i r : (i < N)%nat -> row N K (onev i) r = K r i.
Proof. intro Hi. unfold row. rewrite <- (dot_one N i (K r) Hi). apply sumn_ext. intros; ring. Qed.
Lemma row_lin N K a b x y r : row N K (fun k => a * x k + b * y k) r = a * row N K x r + b * row N K y r.
Proof. unfold row. rewrite <- !sumn_scal, <- sumn_plus. apply sumn_ext. intros; ring. Qed.
Lemma bil_lin_l N K a b x y d : bilinear N K (fun k => a * x k + b * y k) d = a * bilinear N K x d + b * bilinear N K y d.
Proof. rewrite !bilinear_row, <- !sumn_scal, <- sumn_plus. apply sumn_ext. intros; ring. Qed.
Lemma bil_mat N K G t x y : bilinear N (fun r s => K r s + t * G r s) x y = bilinear N K x y + t * bilinear N G x y.
Proof.
  unfold bilinear. rewrite <- sumn_scal, <- sumn_plus. apply sumn_ext. intros r _. rewrite <- sumn_scal, <- sumn_plus. apply sumn_ext. intros; ring.
Qed.
Lemma row_mat N K G t x i : row N (fun r s => K r s + t * G r s) x i = row N K x i + t * row N G x i.
Proof. unfold row. rewrite <- sumn_scal, <- sumn_plus. apply sumn_ext. intros; ring. Qed.
Lemma bil_lin_r N K a b x y d : symmetric K -> bilinear N K d (fun k => a * x k + b * y k) = a * bilinear N K d x + b * bilinear N K d y.
Proof. intro HS. rewrite (bilinear_swap N K d _ HS), bil_lin_l, !(bilinear_swap N K d _ HS). reflexivity. Qed.
Lemma quad_lin N K a b x y : symmetric K -> quad N K (fun k => a * x k + b * y k) = a * a * quad N K x + 2 * a * b * bilinear N K x y + b * b * quad N K y.
Proof. intro HS. unfold quad. rewrite bil_lin_l, !bil_lin_r by exact HS. rewrite (bilinear_swap N K y x HS). ring. Qed.

(* Cauchy and Schwarz *)
Lemma schwarz N K x y : symmetric K -> psd N K -> bilinear N K x y ^ 2 <= quad N K x * quad N K y.
Proof.
  intros HS HP. pose proof (HP x) as Hx. pose proof (HP y) as Hy. destruct (Req_dec (quad N K y) 0) as [H0|H0].
  - assert (HB : bilinear N K x y = 0).
    { apply (no_slope (quad N K x)). intro t. pose proof (HP (fun k => 1 * x k + t * y k)) as H. rewrite quad_lin in H by exact HS. rewrite H0 in H. lra. }
    rewrite HB, H0. lra.
  - pose proof (HP (fun k => quad N K y * x k + (- bilinear N K x y) * y k)) as H. rewrite quad_lin in H by exact HS.
    apply (Rmult_le_reg_l (quad N K y)); [lra|]. nra.
Qed.
Lemma null_bil N K z d : symmetric K -> psd N K -> quad N K z = 0 -> bilinear N K z d = 0.
Proof. intros HS HP H0. pose proof (schwarz N K z d HS HP) as H. rewrite H0 in H. pose proof (pow2_ge_0 (bilinear N K z d)). nra. Qed.
Lemma null_rows N K z i : symmetric K -> psd N K -> quad N K z = 0 -> (i < N)%nat -> row N K z i = 0.
Proof.
  intros HS HP H0 Hi. rewrite <- (null_bil N K z (onev i) HS HP H0), (bilinear_swap N K z _ HS), bilinear_row, (dot_one N i (row N K z) Hi). reflexivity.
Qed.

(* the square of a symmetric matrix *)
Definition sqm (N : nat) (K : nat -> nat -> R) (r t : nat) : R := sumn N (fun k => K r k * K k t).
Lemma sqm_sym N K : symmetric K -> symmetric (sqm N K).
Proof. intros HS r t. apply sumn_ext. intros k _. rewrite (HS r k), (HS k t). ring. Qed.
Lemma sqm_row N K v r : row N (sqm N K) v r = row N K (row N K v) r.
Proof.
  unfold row, sqm. rewrite (sumn_ext N _ (fun j => sumn N (fun k => K r k * K k j * v j))) by (intros; rewrite <- sumn_scal_r; reflexivity).
  rewrite sumn_swap. apply sumn_ext. intros k _. rewrite <- sumn_scal. apply sumn_ext. intros; ring.
Qed.
Lemma sqm_quad N K v : symmetric K -> quad N (sqm N K) v = sumn N (fun k => row N K v k ^ 2).
Proof.
  intro HS. unfold quad. rewrite bilinear_row. rewrite (sumn_ext N _ (fun i => v i * row N K (row N K v) i)) by (intros; rewrite sqm_row; reflexivity).
  rewrite <- bilinear_row, (bilinear_swap N K _ _ HS), bilinear_row. apply sumn_ext. intros; ring.
Qed.

Section BOUND.
Variables (N : nat) (K G : nat -> nat -> R).
Hypotheses (HK : symmetric K) (HG : symmetric G) (HP : psd N K) (HN : forall z d, quad N K z = 0 -> bilinear N G z d = 0).
Lemma preimage i : (i < N)%nat -> exists z, forall r, (r < N)%nat -> row N K (row N K z) r = K r i.
Proof using HK.
  intro Hi. destruct (psd_solves N (sqm N K) (fun r => K r i) (sqm_sym N K HK)) as [z Hz].
  - intro v. rewrite sqm_quad by exact HK. apply sumn_ge0. intros. apply pow2_ge_0.
  - intros d Hd. rewrite sqm_quad in Hd by exact HK.
    assert (H : row N K d i ^ 2 <= 0).
    { rewrite <- Hd. rewrite <- (dot_one N i (fun k => row N K d k ^ 2) Hi). apply sumn_le. intros k _. unfold onev.
      pose proof (pow2_ge_0 (row N K d k)). destruct (k =? i)%nat; lra. }
    assert (H0 : row N K d i = 0) by nra. rewrite <- H0. unfold dot, row. apply sumn_ext. intros k _. rewrite (HK k i). reflexivity.
  - exists z. intros r Hr. rewrite <- sqm_row. exact (Hz r Hr).
Qed.
Lemma preimages n : (n <= N)%nat -> exists Z : nat -> nat -> R, forall i, (i < n)%nat -> forall r, (r < N)%nat -> row N K (row N K (Z i)) r = K r i.
Proof using HK.
  induction n as [|n IH]; intro Hn; [exists (fun _ _ => 0); intros; lia|]. destruct IH as [Z HZ]; [lia|]. destruct (preimage n ltac:(lia)) as [z Hz].
  exists (fun i => if (i =? n)%nat then z else Z i). intros i Hi. destruct (Nat.eqb_spec i n) as [->|Hne]; [exact Hz|]. apply HZ. lia.
Qed.

Theorem form_bounded : exists C, 0 <= C /\ forall v, Rabs (quad N G v) <= C * quad N K v.
Proof using HK HG HP HN.
  destruct (preimages N (Nat.le_refl N)) as [Z HZ]. set (y := fun i => row N K (Z i)).
  assert (HY : forall i j, (i < N)%nat -> (j < N)%nat -> y i j = sumn N (fun k => y i k * y j k)).
  { intros i j Hi Hj. unfold y at 2.
    rewrite (sumn_ext N _ (fun k => y j k * row N K (Z i) k)) by (intros; ring). rewrite <- bilinear_row, (bilinear_swap N K _ _ HK), bilinear_row.
    rewrite (sumn_ext N _ (fun k => Z i k * K k j)) by (intros k Hk; unfold y; rewrite (HZ j Hj k Hk); reflexivity).
    unfold y, row. apply sumn_ext. intros k _. rewrite (HK k j). ring. }
  assert (HYs : forall i j, (i < N)%nat -> (j < N)%nat -> y i j = y j i).
  { intros i j Hi Hj. rewrite (HY i j Hi Hj), (HY j i Hj Hi). apply sumn_ext. intros; ring. }
  set (P := fun (v : nat -> R) i => sumn N (fun k => y i k * v k)).
  assert (HPz : forall v i, P v i = bilinear N K (Z i) v).
  { intros v i. unfold P. rewrite (bilinear_swap N K _ _ HK), bilinear_row. apply sumn_ext. intros k _. unfold y. ring. }
  assert (HPK : forall v r, (r < N)%nat -> row N K (P v) r = row N K v r).
  { intros v r Hr. unfold row at 1, P. rewrite (sumn_ext N _ (fun j => sumn N (fun k => v k * (K r j * y k j)))).
    2:{ intros j Hj. rewrite <- sumn_scal. apply sumn_ext. intros k Hk. rewrite (HYs j k Hj Hk). ring. }
    rewrite sumn_swap. unfold row. apply sumn_ext. intros k Hk. rewrite sumn_scal.
    change (sumn N (fun j => K r j * y k j)) with (row N K (y k) r). unfold y. rewrite (HZ k Hk r Hr). ring. }
  assert (HPG : forall v, quad N G v = quad N G (P v)).
  { intro v. set (w := fun k => 1 * v k + (-1) * P v k).
    assert (Hw : quad N K w = 0).
    { unfold quad. rewrite bilinear_row. apply sumn_0. intros i Hi. unfold w at 2. rewrite row_lin, (HPK v i Hi). ring. }
    pose proof (HN w v Hw) as H1. pose proof (HN w (P v) Hw) as H2. unfold w in H1, H2. rewrite bil_lin_l in H1, H2.
    rewrite (bilinear_swap N G v (P v) HG) in H2. unfold quad. lra. }
  set (q := fun i => quad N K (Z i)). assert (Hq : forall i, 0 <= q i) by (intro i; apply HP).
  assert (HB : forall v i, P v i ^ 2 <= q i * quad N K v).
  { intros v i. rewrite HPz. apply schwarz; assumption. }
  exists (sumn N (fun r => sumn N (fun s => Rabs (G r s) * (q r + q s)))). split.
  - apply sumn_ge0. intros r _. apply sumn_ge0. intros s _. apply Rmult_le_pos; [apply Rabs_pos|]. pose proof (Hq r); pose proof (Hq s); lra.
  - intro v. rewrite HPG. unfold quad at 1, bilinear. eapply Rle_trans; [apply sumn_abs|]. rewrite <- sumn_scal_r. apply sumn_le. intros r _.
    eapply Rle_trans; [apply sumn_abs|]. rewrite <- sumn_scal_r. apply sumn_le. intros s _.
    rewrite !Rabs_mult. pose proof (Rabs_pos (G r s)) as HGp. pose proof (HB v r) as Hr. pose proof (HB v s) as Hs.
    assert (H2 : Rabs (P v r) * Rabs (P v s) <= (q r + q s) * quad N K v).
    { pose proof (pow2_abs (P v r)) as E1. pose proof (pow2_abs (P v s)) as E2. rewrite <- E1 in Hr. rewrite <- E2 in Hs.
      pose proof (pow2_ge_0 (Rabs (P v r) - Rabs (P v s))). pose proof (pow2_ge_0 (Rabs (P v r))). pose proof (pow2_ge_0 (Rabs (P v s))).
      pose proof (Rabs_pos (P v r)). pose proof (Rabs_pos (P v s)). nra. }
    replace (Rabs (P v r) * Rabs (G r s) * Rabs (P v s)) with (Rabs (G r s) * (Rabs (P v r) * Rabs (P v s))) by ring.
    rewrite Rmult_assoc. apply Rmult_le_compat_l; assumption.
Qed.
End BOUND.

(* the largest t with no negative energy *)
Theorem limit_exists N K G : symmetric K -> symmetric G -> psd N K -> (forall z d, quad N K z = 0 -> bilinear N G z d = 0) ->
  (exists x, quad N G x < 0) -> exists l z, 0 < l /\ psd N (fun r s => K r s + l * G r s) /\ (forall i, (i < N)%nat -> row N K z i + l * row N G z i = 0) /\ 0 < quad N K z.
Proof.
  intros HK HG HP HN [x Hx].
  assert (HA : forall t, symmetric (fun r s => K r s + t * G r s)) by (intros t r s; rewrite (HK r s), (HG r s); reflexivity).
  assert (HQ : forall t v, quad N (fun r s => K r s + t * G r s) v = quad N K v + t * quad N G v) by (intros; apply bil_mat).
  destruct (form_bounded N K G HK HG HP HN) as (C & HC & HCb).
  set (S := fun t => psd N (fun r s => K r s + t * G r s)).
  assert (Hlow : S (/ (C + 1))).
  { intro v. rewrite HQ. pose proof (HCb v) as H. pose proof (HP v) as Hv. pose proof (Rle_abs (- quad N G v)) as H1. rewrite Rabs_Ropp in H1.
    apply (Rmult_le_reg_l (C + 1)); [lra|]. rewrite Rmult_0_r, Rmult_plus_distr_l, <- Rmult_assoc, Rinv_r by lra. nra. }
  destruct (completeness S) as [l [Hub Hlub]].
  - exists (quad N K x / - quad N G x). intros t Ht. specialize (Ht x). rewrite HQ in Ht. apply (Rmult_le_reg_r (- quad N G x)); [lra|].
    unfold Rdiv. rewrite Rmult_assoc, Rinv_l by lra. lra.
  - exists (/ (C + 1)). exact Hlow.
  - assert (Hl : 0 < l). { apply Rlt_le_trans with (/ (C + 1)); [apply Rinv_0_lt_compat; lra|]. apply Hub. exact Hlow. }
    assert (HSl : S l).
    { intro v. rewrite HQ. destruct (Rle_lt_dec 0 (quad N K v + l * quad N G v)) as [H|H]; [exact H|]. exfalso.
      assert (Hg : quad N G v < 0) by (pose proof (HP v); nra).
      assert (Hb : quad N K v / - quad N G v < l).
      { apply (Rmult_lt_reg_r (- quad N G v)); [lra|]. unfold Rdiv. rewrite Rmult_assoc, Rinv_l by lra. lra. }
      apply (Rlt_not_le _ _ Hb). apply Hlub. intros t Ht. specialize (Ht v). rewrite HQ in Ht. apply (Rmult_le_reg_r (- quad N G v)); [lra|].
      unfold Rdiv. rewrite Rmult_assoc, Rinv_l by lra. lra. }
    destruct (classic (exists z, quad N (fun r s => K r s + l * G r s) z = 0 /\ quad N K z <> 0)) as [(z & Hz & Hne)|Hno].
    + exists l, z. split; [exact Hl|]. split; [exact HSl|]. split; [|pose proof (HP z); lra].
      intros i Hi. rewrite <- row_mat. exact (null_rows N _ z i (HA l) HSl Hz Hi).
    + exfalso. assert (HN' : forall z d, quad N (fun r s => K r s + l * G r s) z = 0 -> bilinear N G z d = 0).
      { intros z d Hz. apply HN. destruct (Req_dec (quad N K z) 0) as [H|H]; [exact H|]. exfalso. apply Hno. exists z. split; assumption. }
      destruct (form_bounded N _ G (HA l) HG HSl HN') as (D & HD & HDb).
      assert (HSm : S (l + / (D + 1))).
      { intro v. rewrite HQ. pose proof (HDb v) as H. pose proof (HSl v) as Hv. rewrite HQ in H, Hv. pose proof (Rle_abs (- quad N G v)) as H1. rewrite Rabs_Ropp in H1.
        apply (Rmult_le_reg_l (D + 1)); [lra|]. replace ((D + 1) * (quad N K v + (l + / (D + 1)) * quad N G v)) with ((D + 1) * (quad N K v + l * quad N G v) + quad N G v) by (field; lra). nra. }
      pose proof (Hub _ HSm). assert (0 < / (D + 1)) by (apply Rinv_0_lt_compat; lra). lra.
Qed.
