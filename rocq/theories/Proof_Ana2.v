(* Rounding of the tables, and closed form against quadrature. *)
From Coq Require Import Reals List Arith Bool Lia Lra.
From Coquelicot Require Import Coquelicot.
From Verif Require Import Base_Sum Model_Types Model_Coo Model_Result Model_PlateAna Model_CylAna
  Model_Num Model_DB Spec_Algebra Spec_Kinematics Spec_Quadrature Spec_Panel Spec_Integral
  Proof_Coo Proof_Num Proof_Energy Proof_Total Proof_AnaKer Proof_Ana.
Import ListNotations.
Open Scope R_scope.

(* ------------------------------------------------- unit vectors *)
Lemma cfield_unit o m n r S : inblk o m n r = true ->
  cfield o m n (unitv r) S = S (ix o m r) (jx o m r) (cx o r).
Proof.
  intro Hr. unfold cfield.
  rewrite <- (sum_block o m n (o + DOF * (n * m)) (fun k i j d => unitv r k * S i j d)) by lia.
  assert (Hb : (o <= r < o + DOF * (n * m))%nat).
  { unfold inblk in Hr. apply andb_true_iff in Hr. rewrite Nat.leb_le, Nat.ltb_lt in Hr. exact Hr. }
  rewrite (sumn_ext _ _ (fun k => (if (k =? r)%nat then 1 else 0) * S (ix o m r) (jx o m r) (cx o r))).
  - rewrite sumn_scal_r. rewrite (sumn_single _ r (fun _ => 1)). destruct (Nat.ltb_spec r (o + DOF * (n * m))); [ring|lia].
  - intros k Hk. unfold unitv. destruct (Nat.eqb_spec k r) as [->|].
    + rewrite Hr. ring.
    + destruct (inblk o m n k); ring.
Qed.
Lemma cfield_unit_out o m n r S : inblk o m n r = false -> cfield o m n (unitv r) S = 0.
Proof.
  intro Hr. unfold cfield.
  rewrite <- (sum_block o m n (o + DOF * (n * m)) (fun k i j d => unitv r k * S i j d)) by lia.
  apply sumn_0. intros k _. unfold unitv. destruct (Nat.eqb_spec k r) as [->|]; [rewrite Hr; reflexivity|].
  destruct (inblk o m n k); ring.
Qed.

(* ------------------------------------------------- products of perturbed numbers *)
Lemma prod_rel del X Y x y : 0 <= del -> Rabs (X - x) <= del * Rabs x -> Rabs (Y - y) <= del * Rabs y ->
  Rabs (X * Y - x * y) <= (2 * del + del * del) * (Rabs x * Rabs y).
Proof.
  intros Hd Hx Hy. replace (X * Y - x * y) with ((X - x) * (Y - y) + x * (Y - y) + (X - x) * y) by ring.
  eapply Rle_trans; [apply Rabs_triang|]. eapply Rle_trans; [apply Rplus_le_compat_r, Rabs_triang|]. rewrite !Rabs_mult.
  pose proof (Rabs_pos x). pose proof (Rabs_pos y). pose proof (Rabs_pos (X - x)). pose proof (Rabs_pos (Y - y)).
  assert (Rabs (X - x) * Rabs (Y - y) <= (del * Rabs x) * (del * Rabs y)) by (apply Rmult_le_compat; assumption).
  assert (Rabs x * Rabs (Y - y) <= Rabs x * (del * Rabs y)) by (apply Rmult_le_compat_l; assumption).
  assert (Rabs (X - x) * Rabs y <= del * Rabs x * Rabs y) by (apply Rmult_le_compat_r; assumption). lra.
Qed.
Lemma prod_abs ep tau X Y x y : Rabs (X - x) <= ep -> Rabs (Y - y) <= ep -> Rabs x <= tau -> Rabs y <= tau ->
  Rabs (X * Y - x * y) <= ep * (2 * tau + ep).
Proof.
  intros Hx Hy Tx Ty. replace (X * Y - x * y) with ((X - x) * (Y - y) + x * (Y - y) + (X - x) * y) by ring.
  eapply Rle_trans; [apply Rabs_triang|]. eapply Rle_trans; [apply Rplus_le_compat_r, Rabs_triang|]. rewrite !Rabs_mult.
  pose proof (Rabs_pos x). pose proof (Rabs_pos y). pose proof (Rabs_pos (X - x)). pose proof (Rabs_pos (Y - y)).
  assert (Rabs (X - x) * Rabs (Y - y) <= ep * ep) by (apply Rmult_le_compat; assumption).
  assert (Rabs x * Rabs (Y - y) <= tau * ep) by (apply Rmult_le_compat; assumption).
  assert (Rabs (X - x) * Rabs y <= ep * tau) by (apply Rmult_le_compat; assumption). lra.
Qed.
(* ------------------------------------------------- one term of an entry *)
Definition term (tx ty : one_d) (s : shell) (J : R) (op : sop) (a b i k j l d e : nat) : R :=
  let '(ba, (pa, qa)) := op a d in
  let '(bb, (pb, qb)) := op b e in
  J * ((ba * bb) * (tx pa pb i k (xedge s d) (xedge s e) * ty qa qb j l (yedge s d) (yedge s e))).

Lemma V_gen_terms tx ty s J q M op i k j l d e :
  V_gen tx ty s J q M op i k j l d e = sumn q (fun a => sumn q (fun b => M a b * term tx ty s J op a b i k j l d e)).
Proof.
  unfold V_gen. rewrite <- sumn_scal. apply sumn_ext; intros a _. rewrite <- sumn_scal. apply sumn_ext; intros b _.
  unfold term. destruct (op a d) as [ba [pa qa]]. destruct (op b e) as [bb [pb qb]]. ring.
Qed.
Lemma term_integral tx ty Bs s J op a b i k j l d e m n :
  one_d_integrates tx Bs m -> one_d_integrates ty Bs n ->
  (i < m)%nat -> (k < m)%nat -> (j < n)%nat -> (l < n)%nat ->
  square_integral (fun xi eta => J * (S_of op Bs s xi eta a i j d * S_of op Bs s xi eta b k l e))
    (term tx ty s J op a b i k j l d e).
Proof.
  intros Hx Hy Hi Hk Hj Hl. unfold term, S_of.
  destruct (op a d) as [ba [pa qa]]. destruct (op b e) as [bb [pb qb]]. apply sqi_scal.
  eapply sqi_ext; [|apply sqi_scal, sqi_prod; [apply (Hx pa pb i k)|apply (Hy qa qb j l)]; assumption].
  intros x y. cbv beta. ring.
Qed.

(* every entry of a table within a relative distance of another table *)
Definition one_d_close (del : R) (t t' : one_d) (n : nat) : Prop :=
  forall p q i k e e', (i < n)%nat -> (k < n)%nat ->
  Rabs (t p q i k e e' - t' p q i k e e') <= del * Rabs (t' p q i k e e').

Lemma term_close del tx ty tx' ty' s J op a b i k j l d e m n : 0 <= del ->
  one_d_close del tx tx' m -> one_d_close del ty ty' n ->
  (i < m)%nat -> (k < m)%nat -> (j < n)%nat -> (l < n)%nat ->
  Rabs (term tx ty s J op a b i k j l d e - term tx' ty' s J op a b i k j l d e) <=
  (2 * del + del * del) * Rabs (term tx' ty' s J op a b i k j l d e).
Proof.
  intros Hdel Hx Hy Hi Hk Hj Hl. unfold term. destruct (op a d) as [ba [pa qa]]. destruct (op b e) as [bb [pb qb]].
  pose proof (prod_rel del _ _ _ _ Hdel (Hx pa pb i k (xedge s d) (xedge s e) Hi Hk) (Hy qa qb j l (yedge s d) (yedge s e) Hj Hl)) as H.
  set (A := tx _ _ _ _ _ _) in *. set (B := ty _ _ _ _ _ _) in *. set (A' := tx' _ _ _ _ _ _) in *. set (B' := ty' _ _ _ _ _ _) in *.
  replace (J * (ba * bb * (A * B)) - J * (ba * bb * (A' * B'))) with (J * (ba * bb) * (A * B - A' * B')) by ring.
  replace (J * (ba * bb * (A' * B'))) with (J * (ba * bb) * (A' * B')) by ring.
  rewrite !(Rabs_mult (J * (ba * bb))), (Rabs_mult A' B').
  pose proof (Rabs_pos (J * (ba * bb))).
  replace ((2 * del + del * del) * (Rabs (J * (ba * bb)) * (Rabs A' * Rabs B'))) with (Rabs (J * (ba * bb)) * ((2 * del + del * del) * (Rabs A' * Rabs B'))) by ring.
  apply Rmult_le_compat_l; assumption.
Qed.

Lemma V_gen_close del tx ty tx' ty' s J q M op i k j l d e m n : 0 <= del ->
  one_d_close del tx tx' m -> one_d_close del ty ty' n ->
  (i < m)%nat -> (k < m)%nat -> (j < n)%nat -> (l < n)%nat ->
  Rabs (V_gen tx ty s J q M op i k j l d e -
        sumn q (fun a => sumn q (fun b => M a b * term tx' ty' s J op a b i k j l d e))) <=
  (2 * del + del * del) * sumn q (fun a => sumn q (fun b => Rabs (M a b) * Rabs (term tx' ty' s J op a b i k j l d e))).
Proof.
  intros Hdel Hx Hy Hi Hk Hj Hl. rewrite V_gen_terms, <- sumn_minus.
  eapply Rle_trans; [apply sumn_abs|]. rewrite <- sumn_scal. apply sumn_le; intros a _.
  rewrite <- sumn_minus. eapply Rle_trans; [apply sumn_abs|]. rewrite <- sumn_scal. apply sumn_le; intros b _.
  rewrite <- Rmult_minus_distr_l, Rabs_mult.
  replace ((2 * del + del * del) * (Rabs (M a b) * _)) with
    (Rabs (M a b) * ((2 * del + del * del) * Rabs (term tx' ty' s J op a b i k j l d e))) by ring.
  apply Rmult_le_compat_l; [apply Rabs_pos|]. eapply term_close; eassumption.
Qed.

(* entry (r, t) of a closed-form matrix built from approximate tables *)
Theorem ana_rounded del T T' Bs s q M op o K : 0 <= del ->
  tables_symmetric T (Nat.max (sh_m s) (sh_n s)) -> tables_integrate T' Bs (Nat.max (sh_m s) (sh_n s)) ->
  one_d_close del (tab T) (tab T') (Nat.max (sh_m s) (sh_n s)) ->
  (forall a b, M a b = M b a) ->
  block_form o (sh_m s) (sh_n s) (V_ana T s (sh_a s * sh_b s / 4) q M op) K ->
  forall r t, exists I : nat -> nat -> R,
  (forall a b, panel_integral s (fun xi eta =>
      cfield o (sh_m s) (sh_n s) (unitv r) (S_of op Bs s xi eta a) * cfield o (sh_m s) (sh_n s) (unitv t) (S_of op Bs s xi eta b)) (I a b)) /\
  Rabs (finalize_symmetric K r t - sumn q (fun a => sumn q (fun b => M a b * I a b))) <=
  (2 * del + del * del) * sumn q (fun a => sumn q (fun b => Rabs (M a b) * Rabs (I a b))).
Proof.
  intros Hdel HT HT' HC HM HK r t. rewrite (ana_full _ _ _ _ _ _ _ _ HT HM HK). unfold fullmat.
  destruct (inblk o (sh_m s) (sh_n s) r) eqn:Er; [destruct (inblk o (sh_m s) (sh_n s) t) eqn:Et|]; cbn [andb].
  - destruct (inblk_bounds _ _ _ _ Er) as (Ri & Rj & Rc & _). destruct (inblk_bounds _ _ _ _ Et) as (Ti & Tj & Tc & _).
    exists (fun a b => term (tab T') (tab T') s (sh_a s * sh_b s / 4) op a b (ix o (sh_m s) r) (ix o (sh_m s) t) (jx o (sh_m s) r) (jx o (sh_m s) t) (cx o r) (cx o t)).
    split.
    + intros a b. unfold panel_integral. 
      eapply sqi_ext; [|apply (term_integral (tab T') (tab T') Bs s _ op a b _ _ _ _ _ _ (sh_m s) (sh_n s)); try assumption].
      * intros xi eta. cbv beta. rewrite !cfield_unit by assumption. f_equal. field.
      * apply tab_integrates. eapply tables_integrate_le; [|exact HT']; lia.
      * apply tab_integrates. eapply tables_integrate_le; [|exact HT']; lia.
    + apply (V_gen_close del (tab T) (tab T) (tab T') (tab T') s _ q M op _ _ _ _ _ _ (Nat.max (sh_m s) (sh_n s)) (Nat.max (sh_m s) (sh_n s))); try assumption; lia.
  - exists (fun _ _ => 0). split.
    + intros a b. unfold panel_integral. eapply sqi_ext; [|apply sqi_0]. intros xi eta. cbv beta.
      rewrite (cfield_unit_out _ _ _ t) by assumption. ring.
    + rewrite Rabs_R0. rewrite (sumn_0 q (fun a => sumn q (fun b => M a b * 0))), (sumn_0 q (fun a => sumn q (fun b => Rabs (M a b) * 0))).
      * rewrite Rminus_0_r, Rabs_R0. lra.
      * intros. apply sumn_0. intros; ring.
      * intros. apply sumn_0. intros; ring.
  - exists (fun _ _ => 0). split.
    + intros a b. unfold panel_integral. eapply sqi_ext; [|apply sqi_0]. intros xi eta. cbv beta.
      rewrite (cfield_unit_out _ _ _ r) by assumption. ring.
    + rewrite Rabs_R0. rewrite (sumn_0 q (fun a => sumn q (fun b => M a b * 0))), (sumn_0 q (fun a => sumn q (fun b => Rabs (M a b) * 0))).
      * rewrite Rminus_0_r, Rabs_R0. lra.
      * intros. apply sumn_0. intros; ring.
      * intros. apply sumn_0. intros; ring.
Qed.
