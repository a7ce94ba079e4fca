(* A symmetric matrix without negative energy is solved for every load that does no work in its null states. *)
From Coq Require Import Reals List Arith Bool Lia Lra.
From Verif Require Import Base_Sum Spec_Algebra Spec_Modes Spec_Pull.
Open Scope R_scope.

Lemma row_S N K v i : row (S N) K v i = row N K v i + K i N * v N.
Proof. unfold row. cbn [sumn]. ring. Qed.
Lemma quad_S N K v : (forall r t, K r t = K t r) -> quad (S N) K v = quad N K v + 2 * v N * row N K v N + K N N * v N ^ 2.
Proof.
  intro HS. unfold quad, bilinear, row. cbn [sumn]. rewrite sumn_plus.
  rewrite (sumn_ext N (fun i => v i * K i N * v N) (fun i => v N * (K N i * v i))) by (intros; rewrite (HS i N); ring).
  rewrite (sumn_ext N (fun t => v N * K N t * v t) (fun i => v N * (K N i * v i))) by (intros; ring). rewrite sumn_scal. ring.
Qed.
Lemma row_ext N K v u i : (forall k, (k < N)%nat -> v k = u k) -> row N K v i = row N K u i.
Proof. intro H. apply sumn_ext; intros k Hk. rewrite (H k Hk). reflexivity. Qed.
Lemma quad_ext N K v u : (forall k, (k < N)%nat -> v k = u k) -> quad N K v = quad N K u.
Proof. intro H. apply sumn_ext; intros r Hr. apply sumn_ext; intros t Ht. rewrite (H r Hr), (H t Ht). reflexivity. Qed.
Lemma dot_ext N f v u : (forall k, (k < N)%nat -> v k = u k) -> dot N f v = dot N f u.
Proof. intro H. apply sumn_ext; intros r Hr. rewrite (H r Hr). reflexivity. Qed.
Definition put_last (v : nat -> R) (N : nat) (t : R) : nat -> R := fun k => if (k =? N)%nat then t else v k.
Lemma put_below v N t k : (k < N)%nat -> put_last v N t k = v k.
Proof. intro H. unfold put_last. destruct (Nat.eqb_spec k N); [lia|reflexivity]. Qed.
Lemma put_at v N t : put_last v N t N = t.
Proof. unfold put_last. rewrite Nat.eqb_refl. reflexivity. Qed.
Lemma quad_put N K v t : (forall r u, K r u = K u r) -> quad (S N) K (put_last v N t) = quad N K v + 2 * t * row N K v N + K N N * t ^ 2.
Proof.
  intro HS. rewrite quad_S by exact HS. rewrite put_at. rewrite (quad_ext N K _ v) by (intros; apply put_below; assumption).
  rewrite (row_ext N K _ v) by (intros; apply put_below; assumption). reflexivity.
Qed.
(* a quadratic that is never negative and has no square term has no linear term *)
Lemma no_slope A B : (forall t, 0 <= A + 2 * t * B) -> B = 0.
Proof.
  intro H. destruct (Req_dec B 0) as [|HB]; [assumption|]. exfalso. specialize (H (- (A + 1) / (2 * B))).
  replace (A + 2 * (- (A + 1) / (2 * B)) * B) with (-1) in H by (field; exact HB). lra.
Qed.
Lemma dot_S N f v : dot (S N) f v = dot N f v + f N * v N.
Proof. unfold dot. cbn [sumn]. ring. Qed.

Theorem psd_solves : forall N K f, (forall r t, K r t = K t r) -> psd N K -> (forall d, quad N K d = 0 -> dot N f d = 0) ->
  exists c, solves N K c f.
Proof.
  induction N as [|N IH]; intros K f HS HP HN; [exists (fun _ => 0); intros i Hi; lia|].
  destruct (Req_dec (K N N) 0) as [HZ|HZ].
  - (* the last row is zero *)
    assert (HR : forall v, row N K v N = 0).
    { intro v. apply (no_slope (quad N K v)). intro t. pose proof (HP (put_last v N t)) as H. rewrite quad_put in H by exact HS. rewrite HZ in H. lra. }
    assert (HE : forall i, (i < N)%nat -> K N i = 0).
    { intros i Hi. pose proof (HR (fun k => if (k =? i)%nat then 1 else 0)) as H. unfold row in H.
      rewrite (sumn_ext N _ (fun k => if (k =? i)%nat then K N k else 0)) in H by (intros k _; destruct (k =? i)%nat; ring).
      rewrite sumn_single in H. destruct (Nat.ltb_spec i N); [exact H|lia]. }
    assert (Hf : f N = 0).
    { specialize (HN (put_last (fun _ => 0) N 1)). rewrite quad_put in HN by exact HS. rewrite HZ, HR in HN.
      assert (Q0 : quad N K (fun _ => 0) = 0) by (unfold quad, bilinear; apply sumn_0; intros; apply sumn_0; intros; ring). rewrite Q0 in HN.
      specialize (HN ltac:(ring)). rewrite dot_S, put_at in HN. rewrite (dot_ext N f _ (fun _ => 0)) in HN by (intros; apply put_below; assumption).
      unfold dot in HN. rewrite (sumn_0 N) in HN by (intros; ring). lra. }
    destruct (IH K f HS) as [c Hc].
    + intro v. pose proof (HP (put_last v N 0)) as H. rewrite quad_put in H by exact HS. lra.
    + intros d Hd. specialize (HN (put_last d N 0)). rewrite quad_put in HN by exact HS. rewrite Hd in HN. specialize (HN ltac:(ring)).
      rewrite dot_S, put_at in HN. rewrite (dot_ext N f _ d) in HN by (intros; apply put_below; assumption). lra.
    + exists c. intros i Hi. rewrite row_S. destruct (Nat.eq_dec i N) as [->|Hn].
      * rewrite HR, HZ, Hf. ring.
      * rewrite (Hc i ltac:(lia)). rewrite (HS i N), (HE i ltac:(lia)). ring.
  - (* the last unknown is eliminated *)
    set (k := K N N) in *.
    set (S' := fun r t => K r t - K r N * K N t / k). set (g := fun r => f r - K r N * f N / k).
    assert (SS : forall r t, S' r t = S' t r) by (intros r t; unfold S'; rewrite (HS r t), (HS r N), (HS N t); field; exact HZ).
    assert (Rw : forall v i, row N S' v i = row N K v i - K i N * row N K v N / k).
    { intros v i. unfold row, S'. rewrite <- (sumn_ext N (fun j => K i j * v j - K i N / k * (K N j * v j))) by (intros; field; exact HZ).
      rewrite sumn_minus, sumn_scal. field. exact HZ. }
    assert (Qu : forall v, quad N S' v = quad N K v - row N K v N ^ 2 / k).
    { intro v. unfold quad, bilinear.
      rewrite (sumn_ext N _ (fun r => v r * row N S' v r)) by (intros; unfold row; rewrite <- sumn_scal; apply sumn_ext; intros; ring).
      rewrite (sumn_ext N (fun r => sumn N (fun s => v r * K r s * v s)) (fun r => v r * row N K v r)) by (intros; unfold row; rewrite <- sumn_scal; apply sumn_ext; intros; ring).
      rewrite (sumn_ext N (fun r => v r * row N S' v r) (fun r => v r * row N K v r - row N K v N / k * (K N r * v r))) by (intros r _; rewrite Rw, (HS r N); field; exact HZ).
      rewrite sumn_minus, sumn_scal. fold (row N K v N). field. exact HZ. }
    assert (Best : forall v, quad (S N) K (put_last v N (- row N K v N / k)) = quad N S' v).
    { intro v. rewrite quad_put by exact HS. fold k. rewrite Qu. field. exact HZ. }
    destruct (IH S' g SS) as [c Hc].
    + intro v. rewrite <- Best. apply HP.
    + intros d Hd. rewrite <- Best in Hd. specialize (HN _ Hd). rewrite dot_S, put_at in HN.
      rewrite (dot_ext N f _ d) in HN by (intros; apply put_below; assumption).
      unfold dot, g. rewrite (sumn_ext N _ (fun i => f i * d i - f N / k * (K N i * d i))) by (intros i _; rewrite (HS i N); field; exact HZ).
      rewrite sumn_minus, sumn_scal. fold (row N K d N). fold (dot N f d). replace (dot N f d) with (- (f N * (- row N K d N / k))) by lra. field. exact HZ.
    + exists (put_last c N ((f N - row N K c N) / k)). intros i Hi. rewrite row_S, put_at.
      rewrite (row_ext N K _ c) by (intros; apply put_below; assumption). destruct (Nat.eq_dec i N) as [->|Hn].
      * fold k. field. exact HZ.
      * specialize (Hc i ltac:(lia)). rewrite Rw in Hc. unfold g in Hc.
        replace (row N K c i) with (f i - K i N * f N / k + K i N * row N K c N / k) by lra. field. exact HZ.
Qed.
