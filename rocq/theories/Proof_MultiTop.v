(* Assemblies: slices, forms of the matrices, forces, fields of groups. *)
From Coq Require Import Reals List Arith Bool Lia Lra FunctionalExtensionality.
From Coquelicot Require Import Coquelicot.
From Verif Require Import Base_Sum Model_Types Model_Coo Model_Result Model_Num Model_DB Model_Shell Model_Fext Model_Field Model_Conn Model_Multi
  Spec_Algebra Spec_Integral Spec_Panel Spec_Shell Spec_Fext Spec_Conn Spec_Multi Spec_MultiConn
  Proof_Coo Proof_Ana Proof_Terms Proof_Shell Proof_Api Proof_Total Proof_FintApi Proof_Place Proof_Multi Proof_MultiConn Proof_MultiSign.
Import ListNotations.
Open Scope R_scope.

Lemma forall2_len {A B} (P : A -> B -> Prop) l m : Forall2 P l m -> length l = length m.
Proof. induction 1; cbn; congruence. Qed.
(* ------------------------------------------------- slices *)
Lemma new_assembly_ok ids cn w : ids <> [] -> NoDup ids -> assembled (fst (new_assembly ids cn w)) (snd (new_assembly ids cn w)).
Proof. intros H1 H2. unfold new_assembly, assembled. cbn. split; [exact H1|]. split; [exact H2|]. apply set_spans_laid. exact H2. Qed.
Lemma laid_cover h ids : forall o k, laid_out h ids o -> (o <= k < o + total_width h ids)%nat -> exists i, In i ids /\ in_slice h i k.
Proof.
  induction ids as [|i ids IH]; intros o k L Hk; [unfold total_width in Hk; cbn in Hk; lia|]. cbn [laid_out] in L. destruct L as (L1 & L2 & L3).
  unfold total_width in Hk. cbn [map list_sum fold_right] in Hk. fold (list_sum (map (fun i => width (h i)) ids)) in Hk. fold (total_width h ids) in Hk.
  destruct (Nat.lt_ge_cases k (o + width (h i))) as [Hlt|Hge].
  - exists i. split; [left; reflexivity|]. exists o, (o + width (h i))%nat. repeat split; try assumption; lia.
  - destruct (IH _ k L3) as (j & J1 & J2); [lia|]. exists j. split; [right; exact J1|exact J2].
Qed.
Lemma laid_disjoint h ids : forall o i j k, NoDup ids -> laid_out h ids o -> In i ids -> In j ids -> in_slice h i k -> in_slice h j k -> i = j.
Proof.
  induction ids as [|q ids IH]; intros o i j k ND L Hi Hj (a & b & A1 & A2 & A3) (a' & b' & B1 & B2 & B3); [contradiction|].
  apply NoDup_cons_iff in ND. destruct ND as [Nq ND]. cbn [laid_out] in L. destruct L as (L1 & L2 & L3).
  destruct Hi as [<-|Hi], Hj as [<-|Hj].
  - reflexivity.
  - destruct (laid_bound _ _ _ _ L3 Hj) as (z & Z1 & _ & Z2 & _). assert (z = a') by congruence. assert (b = (o + width (h q))%nat) by congruence. lia.
  - destruct (laid_bound _ _ _ _ L3 Hi) as (z & Z1 & _ & Z2 & _). assert (z = a) by congruence. assert (b' = (o + width (h q))%nat) by congruence. lia.
  - apply (IH _ i j k ND L3 Hi Hj); [exists a, b|exists a', b']; auto.
Qed.
Lemma slice_range h ids i k : laid_out h ids 0 -> In i ids -> in_slice h i k -> (k < total_width h ids)%nat.
Proof. intros L Hi (a & b & A1 & A2 & A3). destruct (laid_bound _ _ _ _ L Hi) as (z & Z1 & Z2 & _ & Z3). assert (b = (z + width (h i))%nat) by congruence. lia. Qed.
(* the parts of a vector made of the panels' own vectors *)
Lemma pslice_concat h ids : forall (cs : list (list R)) (pre : list R) o, laid_out h ids o -> length pre = o -> Forall2 (fun i c => length c = width (h i)) ids cs ->
  Forall2 (fun i c => pslice (xp_start (h i)) (xp_end (h i)) (pre ++ concat cs) = c) ids cs.
Proof.
  induction ids as [|i ids IH]; intros cs pre o L Hp HF; inversion HF as [|? c ? cs' Hc HF']; subst; constructor.
  - cbn [laid_out] in L. destruct L as (L1 & L2 & _). unfold pslice. rewrite L1, L2. cbn [default concat].
    replace (length pre + width (h i) - length pre)%nat with (length c) by lia.
    rewrite skipn_app, skipn_all, Nat.sub_diag. cbn [skipn app]. rewrite firstn_app, firstn_all, Nat.sub_diag. cbn [firstn]. apply app_nil_r.
  - cbn [laid_out] in L. destruct L as (_ & _ & L3). cbn [concat]. rewrite app_assoc. apply (IH cs' (pre ++ c) (length pre + width (h i))%nat L3); [|exact HF'].
    rewrite app_length. lia.
Qed.

(* ------------------------------------------------- forms of block-diagonal matrices *)
Lemma bilinear_cext N K c c' d d' : (forall k, (k < N)%nat -> c k = c' k) -> (forall k, (k < N)%nat -> d k = d' k) -> bilinear N K c d = bilinear N K c' d'.
Proof. intros H1 H2. unfold bilinear. apply sumn_ext; intros r Hr. apply sumn_ext; intros t Ht. rewrite H1, H2 by assumption. reflexivity. Qed.
Lemma bilinear_block n M bs N c d : bilinear (n + N) (block_diag ((n, M) :: bs)) c d = bilinear n M c d + bilinear N (block_diag bs) (own n c) (own n d).
Proof.
  unfold bilinear. rewrite sumn_add_len. f_equal.
  - apply sumn_ext; intros r Hr. rewrite sumn_add_len. rewrite (sumn_0 N).
    + rewrite Rplus_0_r. apply sumn_ext; intros t Ht. cbn [block_diag]. apply Nat.ltb_lt in Hr, Ht. rewrite Hr, Ht. reflexivity.
    + intros t Ht. cbn [block_diag]. replace (n + t <? n)%nat with false by (symmetry; apply Nat.ltb_ge; lia). rewrite andb_false_r.
      replace (n <=? r)%nat with false by (symmetry; apply Nat.leb_gt; lia). cbn [andb]. ring.
  - apply sumn_ext; intros r Hr. rewrite sumn_add_len. rewrite (sumn_0 n).
    + rewrite Rplus_0_l. apply sumn_ext; intros t Ht. cbn [block_diag]. replace (n + r <? n)%nat with false by (symmetry; apply Nat.ltb_ge; lia).
      replace (n <=? n + r)%nat with true by (symmetry; apply Nat.leb_le; lia). replace (n <=? n + t)%nat with true by (symmetry; apply Nat.leb_le; lia). cbn [andb].
      replace (n + r - n)%nat with r by lia. replace (n + t - n)%nat with t by lia. reflexivity.
    + intros t Ht. cbn [block_diag]. replace (n + r <? n)%nat with false by (symmetry; apply Nat.ltb_ge; lia). cbn [andb].
      replace (n <=? t)%nat with false by (symmetry; apply Nat.leb_gt; lia). rewrite andb_false_r. ring.
Qed.
Lemma own_own o n c : own n (own o c) = own (o + n) c.
Proof. extensionality k. unfold own. rewrite Nat.add_assoc. reflexivity. Qed.
Lemma diagonal_forms_from h ids : forall o Ks c d, laid_out h ids o -> length Ks = length ids ->
  bilinear (total_width h ids) (diagonal h ids Ks) (own o c) (own o d) = own_forms h ids Ks c d.
Proof.
  induction ids as [|i ids IH]; intros o Ks c d L HL; destruct Ks as [|K Ks]; try discriminate; [reflexivity|].
  cbn [laid_out] in L. destruct L as (L1 & _ & L3). unfold diagonal, total_width, own_forms. cbn [map combine suml].
  change (list_sum (width (h i) :: map (fun i => width (h i)) ids)) with (width (h i) + total_width h ids)%nat.
  rewrite bilinear_block. cbn [fst snd]. rewrite L1. cbn [default]. f_equal.
  rewrite !own_own. fold (diagonal h ids Ks) (own_forms h ids Ks c d). apply IH; [exact L3|]. cbn in HL. lia.
Qed.
Lemma diagonal_forms h ids Ks c d : laid_out h ids 0 -> length Ks = length ids -> bilinear (total_width h ids) (diagonal h ids Ks) c d = own_forms h ids Ks c d.
Proof. intros L HL. rewrite <- (diagonal_forms_from h ids 0 Ks c d L HL). apply bilinear_cext; reflexivity. Qed.
Lemma stacked_at h ids : forall o vs i v k, NoDup ids -> laid_out h ids o -> In (i, v) (combine ids vs) -> length vs = length ids ->
  forall a, xp_start (h i) = Some a -> (k < width (h i))%nat -> block_vector (combine (map (fun i => width (h i)) ids) vs) (a + k - o) = v k.
Proof.
  induction ids as [|j ids IH]; intros o vs i v k ND L HI HL a Ha Hk; destruct vs as [|u vs]; try contradiction.
  apply NoDup_cons_iff in ND. destruct ND as [Nj ND].
  cbn [laid_out] in L. destruct L as (L1 & _ & L3). cbn [map combine block_vector]. destruct HI as [HI|HI].
  - apply pair_equal_spec in HI. destruct HI as [<- <-]. assert (a = o) by congruence. subst a. replace (o + k - o)%nat with k by lia.
    apply Nat.ltb_lt in Hk. rewrite Hk. reflexivity.
  - assert (Hi : In i ids) by (eapply in_combine_l; exact HI).
    destruct (laid_bound _ _ _ _ L3 Hi) as (z & Z1 & _ & Z2 & _). assert (z = a) by congruence. subst z.
    replace (a + k - o <? width (h j))%nat with false by (symmetry; apply Nat.ltb_ge; lia).
    replace (a + k - o - width (h j))%nat with (a + k - (o + width (h j)))%nat by lia. apply (IH _ vs i v k ND L3 HI); [cbn in HL; lia|exact Ha|exact Hk].
Qed.

(* ------------------------------------------------- the stiffness and the internal force with connections *)
Lemma kept_assembled E w w' s : wkept E w w' -> assembled w s -> assembled w' s.
Proof. intros HK (A1 & A2 & A3). split; [exact A1|]. split; [exact A2|]. apply (kept_laid E w w' HK). exact A3. Qed.
Definition soundly (E : env) (M : nat) (w : world) (s : assembly) : Prop :=
  forall i, In i (as_panels s) -> sound E (w_panel w) i /\ (sh_m (geometry (w_panel w) i) <= M)%nat /\ (sh_n (geometry (w_panel w) i) <= M)%nat.
Lemma kept_usable E w w' ids cn : wkept E w w' -> usable (w_panel w) ids cn -> usable (w_panel w') ids cn.
Proof.
  intros HK (U1 & U2 & U3 & U4). split; [exact U1|]. split; [exact U2|]. split; [apply (kept_keys E w w' HK); exact U3|].
  destruct U4 as [U4|U4]; [left; apply (kept_in_order E w w' HK); exact U4|right; apply (kept_reversible E w w' HK); exact U4].
Qed.

Section Conn.
Variables (E : env) (Bs : basis) (M k : nat) (w : world) (s : assembly).
Hypothesis HA : assembled w s.
Hypothesis Hc : as_kC_conn s = None.
Hypothesis Hl : w_conn w k <> [].
Hypothesis HU : List.Forall (usable (w_panel w) (as_panels s)) (w_conn w k).
Hypothesis HS : forall i, In i (as_panels s) -> sound E (w_panel w) i /\ (sh_m (geometry (w_panel w) i) <= M)%nat /\ (sh_n (geometry (w_panel w) i) <= M)%nat.
Hypothesis HT : tables_integrate (e_tables E) Bs M.
Notation h := (w_panel w). Notation ids := (as_panels s). Notation size := (total_width (w_panel w) (as_panels s)).

(* in a later state of the same objects *)
Lemma conn_later w1 arg : wkept E w w1 -> w_conn w1 = w_conn w -> (match arg with Some k' => Some k' | None => as_conn s end) = Some k ->
  exists w2 K, get_kC_conn E Bs arg true w1 s = (w2, mkAsm ids (as_conn s) (Some (CMat size K)) (as_cores s), Ok (CMat size K)) /\
    (forall r t, K r t = K t r) /\
    forall c d, exists Ws, Forall2 (fun cn => conn_work E Bs h cn c d) (w_conn w k) Ws /\ bilinear size K c d = suml Ws (fun W => W).
Proof using HA Hc Hl HU HS HT.
  intros HK HC Harg. destruct (get_conn_run E Bs arg w1 s k M) as (w2 & K & G1 & G2 & G3 & G4 & G5 & G6).
  - apply (kept_assembled E w w1); assumption.
  - exact Harg.
  - exact Hc.
  - rewrite HC. exact Hl.
  - rewrite HC. revert HU. apply List.Forall_impl. intros cn. apply (kept_usable E w w1 ids cn HK).
  - intros i Hi. rewrite (kept_geometry E w w1 HK). destruct (HS i Hi) as (S1 & S2). split; [apply (kept_sound E w w1 HK); exact S1|exact S2].
  - exact HT.
  - rewrite (kept_total E w w1 HK) in *. exists w2, K. split; [exact G1|]. split; [exact G5|].
    intros c d. destruct (G6 c d) as (Ws & W1 & W2). exists Ws. split; [|exact W2]. rewrite HC in W1.
    revert W1. apply forall2_impl. intros cn W _. apply (kept_work E w w1 HK).
Qed.

Theorem asm_kC_energy arg c fin Ks : (match arg with Some k' => Some k' | None => as_conn s end) = Some k ->
  (forall l, c = Some (CVec l) -> length l = size) -> Forall2 (own_kC E h fin c) ids Ks ->
  exists w' s' K KC, asm_kC E Bs arg c fin w s = (w', s', Ok (Some K)) /\
    (forall r t, K r t = diagonal h ids Ks r t + KC r t) /\ (forall r t, KC r t = KC t r) /\
    forall u v, exists Ws, Forall2 (fun cn => conn_work E Bs h cn u v) (w_conn w k) Ws /\ bilinear size KC u v = suml Ws (fun W => W) /\
      bilinear size K u v = own_forms h ids Ks u v + suml Ws (fun W => W).
Proof using HA Hc Hl HU HS HT.
  intros Harg Hlen HF. destruct (asm_kC_diagonal E w s HA Bs arg c fin Ks Hlen HF) as (w1 & T1 & HR).
  assert (HK : wkept E w w1). { apply (touched_kept E _ ids w w1 (fun _ o p p' a H => calc_kC_kept E _ p p' a H) T1). }
  destruct (conn_later w1 arg HK (tc_conn _ _ _ _ T1) Harg) as (w2 & KC & G1 & G2 & G3). rewrite G1 in HR.
  cbn [add_connmat] in HR. rewrite Nat.eqb_refl in HR.
  eexists. eexists. eexists. exists KC. split; [exact HR|]. split; [intros; reflexivity|]. split; [exact G2|].
  intros u v. destruct (G3 u v) as (Ws & W1 & W2). exists Ws. split; [exact W1|]. split; [exact W2|].
  rewrite <- W2. cbv beta. rewrite bilinear_plus. f_equal. apply diagonal_forms; [apply HA|]. symmetry. exact (forall2_len _ _ _ HF).
Qed.

Theorem asm_fint_total c vs : as_conn s = Some k -> length c = size -> Forall2 (own_fint E h c) ids vs ->
  exists w' s' f KC, asm_fint E Bs c w s = (w', s', Ok f) /\
    (forall r, f r = stacked h ids vs r + sumn size (fun t => KC r t * nth t c 0)) /\ (forall r t, KC r t = KC t r) /\
    (forall u v, exists Ws, Forall2 (fun cn => conn_work E Bs h cn u v) (w_conn w k) Ws /\ bilinear size KC u v = suml Ws (fun W => W)).
Proof using HA Hc Hl HU HS HT.
  intros Hk Hlen HF. destruct (asm_fint_stacked E w s HA Bs c vs Hlen HF) as (w1 & T1 & HR).
  assert (HK : wkept E w w1).
  { apply (touched_kept E _ ids w w1) in T1; [exact T1|]. intros q o p p' a H. unfold mbind in H.
    destruct (calc_fint E c (SInt size) o None None None p) as [q' [u|]] eqn:EF; [|discriminate]. unfold mret in H.
    apply pair_equal_spec in H. destruct H as [<- _]. eapply calc_fint_kept. exact EF. }
  destruct (conn_later w1 None HK (tc_conn _ _ _ _ T1) Hk) as (w2 & KC & G1 & G2 & G3). rewrite G1 in HR.
  cbn [conn_times] in HR. rewrite Hlen, Nat.eqb_refl in HR. cbn [andb] in HR. 
  eexists. eexists. eexists. exists KC. split; [exact HR|]. split; [intro; reflexivity|]. split; [exact G2|exact G3].
Qed.
End Conn.

(* ------------------------------------------------- fields *)
Lemma group_grid_each one h ids c group gx gy : forall fs, group_grid one h ids c group gx gy = Ok fs ->
  for_group h group (fun i f => one (h i) c (meshgrid (linspace (sh_a (pn_sh (xp (h i)))) gx) (linspace (sh_b (pn_sh (xp (h i)))) gy)) = Ok f) ids fs.
Proof.
  induction ids as [|i ids IH]; intros fs H; cbn [group_grid] in H; [injection H as <-; constructor|].
  destruct (xp_group (h i) =? group)%nat eqn:EG.
  - apply Nat.eqb_eq in EG. apply rbind_inv in H. destruct H as (f & Hf & H). apply rbind_inv in H. destruct H as (fs' & H' & H). injection H as <-.
    apply fg_in; [exact EG|exact Hf|apply IH; exact H'].
  - apply Nat.eqb_neq in EG. apply fg_out; [exact EG|apply IH; exact H].
Qed.
Lemma group_gauss_each one h ids c group X Y : forall fs, group_gauss one h ids c group (Some X) (Some Y) = Ok fs ->
  for_group h group (fun i f => one (h i) c (meshgrid X Y) = Ok f) ids fs.
Proof.
  induction ids as [|i ids IH]; intros fs H; cbn [group_gauss] in H; [injection H as <-; constructor|].
  destruct (xp_group (h i) =? group)%nat eqn:EG.
  - apply Nat.eqb_eq in EG. destruct (pn_model (xp (h i))) as [[mdl|]|]; try discriminate. cbn [default] in H.
    apply rbind_inv in H. destruct H as (f & Hf & H). apply rbind_inv in H. destruct H as (fs' & H' & H). injection H as <-.
    apply fg_in; [exact EG|exact Hf|apply IH; exact H'].
  - apply Nat.eqb_neq in EG. apply fg_out; [exact EG|apply IH; exact H].
Qed.
Lemma for_group_impl h group (P Q : nat -> mfield -> Prop) ids fs : (forall i f, In i ids -> P i f -> Q i f) -> for_group h group P ids fs -> for_group h group Q ids fs.
Proof. intros H HF. induction HF; [constructor|apply fg_in; auto|apply fg_out; auto]; try (apply IHHF; intros; apply H; [right; assumption|assumption]). apply H; [left; reflexivity|assumption]. Qed.
