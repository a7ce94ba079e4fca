(* After calc_kC an assembly has the layout it had, so that calc_kG and calc_kM on the same object give matrices for it; the cylinder
   driver with constant loads. *)
From Coq Require Import Reals List Arith Bool Lia Lra.
From Verif Require Import Proof_Num.
From Verif Require Import Base_Sum Model_Types Model_Coo Model_Result Model_Num Model_DB Model_Shell Model_Fext Model_Multi Model_New Model_Cylinder
  Spec_Algebra Spec_Kinematics Spec_Panel Spec_Shell Spec_Bardell Spec_Modes Spec_Multi Spec_MultiConn Spec_Tied Spec_AsmResponse Spec_Limit Spec_LimitAsm
  Proof_Shell Proof_Total Proof_Modes Proof_MultiApi Proof_Multi Proof_MultiConn Proof_MultiTop Proof_Cylinder Proof_CylBlade Proof_AsmResponse Proof_LimitAsm.
From Coq Require Import List.
Import ListNotations.
Open Scope R_scope.

Definition laminated (p : panel) : Prop := pn_lam p <> None /\ pn_plyts p <> [] /\ exists m, pn_model p = Some (Known m).
Definition later (p p' : panel) : Prop := chosen_model p' = chosen_model p /\ (pn_rho p' = pn_rho p /\ pn_offset p' = pn_offset p) /\ (laminated p -> laminated p').
Lemma later_refl p : later p p.
Proof. repeat split; auto; apply H. Qed.
Lemma later_trans p p' p2 : later p p' -> later p' p2 -> later p p2.
Proof. intros (A1 & (A2 & A4) & A3) (B1 & (B2 & B4) & B3). split; [congruence|]. split; [split; congruence|auto]. Qed.
Definition wmodel (w w' : world) : Prop := forall i, later (xp (w_panel w i)) (xp (w_panel w' i)).
Definition inv {A} (m : amethod A) : Prop := forall w s w' s' a, m w s = (w', s', Ok a) -> wmodel w w'.
Lemma inv_bind {A B} (m : amethod A) (f : A -> amethod B) : inv m -> (forall a, inv (f a)) -> inv (abind m f).
Proof.
  intros Hm Hf w s w' s' b H. unfold abind in H. destruct (m w s) as [[w1 s1] [a|e]] eqn:E1; [|discriminate].
  intro i. exact (later_trans _ _ _ (Hm _ _ _ _ _ E1 i) (Hf a _ _ _ _ _ H i)).
Qed.
Lemma inv_same {A} (m : amethod A) : (forall w s w' s' a, m w s = (w', s', Ok a) -> w_panel w' = w_panel w) -> inv m.
Proof. intros H w s w' s' a E i. rewrite (H _ _ _ _ _ E). apply later_refl. Qed.
Lemma inv_ret {A} (a : A) : inv (aret a).
Proof. apply inv_same. intros w s w' s' b H. injection H as <- _ _. reflexivity. Qed.
Lemma inv_raise {A} e : inv (@araise A e).
Proof. apply inv_same. intros w s w' s' b H. discriminate. Qed.
Lemma inv_lift {A} (x : res A) : inv (alift x).
Proof. apply inv_same. intros w s w' s' b H. unfold alift in H. injection H as <- _ _. reflexivity. Qed.
Lemma inv_world : inv aworld.
Proof. apply inv_same. intros w s w' s' b H. injection H as <- _ _. reflexivity. Qed.
Lemma inv_self : inv aself.
Proof. apply inv_same. intros w s w' s' b H. injection H as <- _ _. reflexivity. Qed.
Lemma inv_size : inv asm_size.
Proof. apply inv_same. intros w s w' s' b H. injection H as <- _ _. reflexivity. Qed.
Lemma inv_write k pos cn : inv (write_conn k pos cn).
Proof. apply inv_same. intros w s w' s' b H. injection H as <- _. reflexivity. Qed.
Lemma inv_panel {A} i (f : method A) : (forall p p' a, f p = (p', Ok a) -> later p p') -> inv (on_panel i f).
Proof.
  intros Hf w s w' s' a H j. unfold on_panel in H. destruct (f (xp (w_panel w i))) as [p' r] eqn:E. injection H as <- _ ->.
  cbn [w_panel put_panel]. unfold put. destruct (Nat.eqb_spec j i) as [->|_]; [|apply later_refl]. exact (Hf _ _ _ E).
Qed.
Lemma rebuilt_later E p p1 q : rebuild E p = (p1, Ok tt) -> same_rebuilt p1 q -> later p q /\ laminated q.
Proof.
  intros HR HS. destruct (rebuild_kept E p p1 HR) as (_ & HL & HP & HN). apply rebuild_inv in HR. destruct HR as (HI & _ & Hm & _).
  assert (HQ : laminated q) by (split; [rewrite (sr_lam _ _ HS), HL; discriminate|split; [rewrite (sr_plyts _ _ HS), HP; exact HN|eexists; rewrite (sr_model _ _ HS); exact Hm]]).
  split; [|exact HQ]. split; [unfold chosen_model at 1; rewrite (sr_model _ _ HS), Hm; reflexivity|]. split; [|auto].
  rewrite (si_rho _ _ (sr_in _ _ HS)), (si_offset _ _ (sr_in _ _ HS)). split; [exact (si_rho _ _ HI)|exact (si_offset _ _ HI)].
Qed.
Lemma rebuild_model E p p' u : rebuild E p = (p', Ok u) -> later p p'.
Proof. destruct u. intro H. exact (proj1 (rebuilt_later E p p' p' H (same_rebuilt_refl p'))). Qed.
Lemma calc_kC_built E A p p' K : calc_kC E A p = (p', Ok K) -> later p p' /\ laminated p'.
Proof. intro H. apply calc_kC_inv in H. destruct H as (mdl & kC & kGc & [(p1 & Hp1 & Hs) Hm Hr _ _ _ _ _]). exact (rebuilt_later E p p1 p' Hp1 Hs). Qed.
Lemma calc_kC_model E A p p' K : calc_kC E A p = (p', Ok K) -> later p p'.
Proof. intro H. exact (proj1 (calc_kC_built E A p p' K H)). Qed.
Ltac inv_step := first [apply inv_ret|apply inv_raise|apply inv_lift|apply inv_world|apply inv_self|apply inv_size|apply inv_write
  |apply inv_panel; intros; first [eapply rebuild_model; eassumption|eapply calc_kC_model; eassumption]
  |apply inv_bind; [|intro]].
Lemma inv_kt_kr E i j t : inv (calc_kt_kr E i j t).
Proof. unfold calc_kt_kr. repeat inv_step. destruct (pn_lam _); [destruct (pn_lam _)|]; repeat inv_step. Qed.
Lemma inv_add E Bs size cn i j acc : inv (add_conn E Bs size cn i j acc).
Proof. unfold add_conn. cbv zeta. destruct (cn_func cn); repeat first [apply inv_kt_kr|inv_step]. Qed.
Lemma inv_loop E Bs size k : forall l pos prev acc, inv (conn_loop E Bs size k pos l prev acc).
Proof.
  induction l as [|cn l IH]; intros pos prev acc; cbn [conn_loop]; [inv_step|]. repeat inv_step.
  match goal with |- inv (match ?x with _ => _ end) => destruct x end; [repeat first [apply inv_add|apply IH|inv_step]|].
  destruct (cn_func cn); try destruct (cn_tsl cn); inv_step.
Qed.
Lemma inv_get E Bs arg fin : inv (get_kC_conn E Bs arg fin).
Proof.
  unfold get_kC_conn. inv_step; [inv_step|]. destruct (match arg with Some k => Some k | None => as_conn a end) as [k|]; [|inv_step]. destruct (as_kC_conn a); [inv_step|].
  repeat first [apply inv_loop|inv_step]. apply inv_same. intros w s w' s' b H. injection H as <- _ _. reflexivity.
Qed.
Lemma inv_sum E size c : forall ids acc, inv (sum_panels (fun o => calc_kC E (md_args size o c false)) ids acc).
Proof.
  induction ids as [|i ids IH]; intro acc; cbn [sum_panels]; [inv_step|]. inv_step; [inv_step|]. destruct (xp_start _); [|inv_step]. inv_step; [inv_step|]. apply IH.
Qed.
Theorem asm_kC_model E Bs arg c fin : inv (asm_kC E Bs arg c fin).
Proof.
  unfold asm_kC. inv_step; [inv_step|]. inv_step; [unfold acheck; destruct c; repeat inv_step|]. repeat first [apply inv_sum|apply inv_get|inv_step].
Qed.

Section Asm.
Variables (E : env) (k : nat) (arg : option nat) (w : world) (s : assembly).
Notation ids := (as_panels s). Notation size := (total_width (w_panel w) (as_panels s)).
Hypothesis HG : stiff_assembly E k arg w s.
Lemma own_layout : same_layout w s w s.
Proof using HG.
  destruct HG as (HA & _ & _ & _ & _ & M & HS & _). split; [reflexivity|]. split; [exact HA|]. intros i Hi p q. repeat split; try reflexivity; destruct (HS i Hi) as (((C & _) & _) & _); apply C.
Qed.
Lemma kC_layout w' s' K : asm_kC E exact_basis arg None true w s = (w', s', Ok K) -> same_layout w s w' s' /\ forall i, pn_N (xp (w_panel w' i)) = pn_N (xp (w_panel w i)) /\ geometry (w_panel w') i = geometry (w_panel w) i.
Proof using HG.
  intro HR. pose proof (asm_kC_model _ _ _ _ _ _ _ _ _ _ HR) as HM. destruct (asm_facts E k arg w s HG) as (w1 & s1 & K1 & HR1 & _ & _ & HW & HI & _). rewrite HR in HR1. injection HR1 as -> -> ->.
  destruct own_layout as (_ & HA & HC). split.
  - split; [exact HI|]. split.
    + destruct HA as (A1 & A2 & A3). destruct (kept_assembled E w w1 s HW (conj A1 (conj A2 A3))) as (B1 & B2 & B3). unfold assembled. rewrite HI. auto.
    + intros i Hi p q. destruct (HW i) as [[P1 P2 P3 P4 P5 P6 P7] Q1 Q2 Q3 Q4]. destruct (HC i Hi) as (_ & _ & _ & C & _). repeat split; [exact P2|exact P1|exact (proj1 (HM i))| | | | |exact Q1]; apply (P6 C).
  - intro i. destruct (HW i) as [[P1 P2 P3 P4 P5 P6 P7] _ _ _ _]. split; [exact P7|]. exact P1.
Qed.
Lemma kG_runs wg sg : same_layout w s wg sg -> exists wg' sg' G, asm_kG E None true wg sg = (wg', sg', Ok (Some G)).
Proof using Type.
  intro HL. destruct (own_kG_each E w s wg sg HL) as (Ks & HF). destruct HL as (_ & HA & _). destruct (asm_kG_diagonal E wg sg HA None true Ks ltac:(discriminate) HF) as (w2 & HR2 & _).
  eexists. eexists. eexists. exact HR2.
Qed.
Lemma compressed_kept w' s' : as_panels s' = ids -> (forall i, pn_N (xp (w_panel w' i)) = pn_N (xp (w_panel w i)) /\ geometry (w_panel w') i = geometry (w_panel w) i) -> compressed_assembly w s -> compressed_assembly w' s'.
Proof using Type.
  intros HI HN (P1 & i & Nxx & Nyy & Hi & HP & Hx & Hm & Hn). unfold compressed_assembly. rewrite HI. split.
  - intros j Hj. rewrite (proj1 (HN j)). exact (P1 j Hj).
  - exists i, Nxx, Nyy. rewrite (proj1 (HN i)), (proj2 (HN i)). repeat split; assumption.
Qed.
Hypothesis HT : all_tied k w s.
(* calc_kC and then calc_kG of the same object *)
Theorem in_turn : compressed_assembly w s -> exists w1 s1 K w2 s2 G l z, asm_kC E exact_basis arg None true w s = (w1, s1, Ok (Some K)) /\
  asm_kG E None true w1 s1 = (w2, s2, Ok (Some G)) /\ first_load (asm_displaced w s) size K G l z.
Proof using HG HT.
  intro HC. destruct (asm_facts E k arg w s HG) as (w1 & s1 & K & HR & _). destruct (kC_layout _ _ _ HR) as (HL & HN). destruct (kG_runs _ _ HL) as (w2 & s2 & G & HR2).
  pose proof (compressed_kept w1 s1 (proj1 HL) HN HC) as HC1.
  destruct (asm_first_load E k arg w s HG HT w1 s1 HL _ _ _ _ _ _ HR HR2) as (l & z & F).
  { exact (geo_pushed E k arg w s HG w1 s1 HL _ _ _ HC1 HR2). }
  exists w1, s1, K, w2, s2, G, l, z. auto.
Qed.
End Asm.

Section Mass.
Variables (E : env) (k : nat) (arg : option nat) (w : world) (s : assembly).
Notation ids := (as_panels s). Notation size := (total_width (w_panel w) (as_panels s)).
Hypothesis HG : stiff_assembly E k arg w s.
(* calc_kC leaves every panel with its laminate *)
Lemma kC_laminated w' s' K : asm_kC E exact_basis arg None true w s = (w', s', Ok K) -> forall i, In i ids -> laminated (xp (w_panel w' i)).
Proof using HG.
  intros HR i Hi. destruct HG as (HA & Hc & Harg & Hl & HU & M & HS & HM & HT).
  assert (HE : forall i, In i (as_panels s) -> elastic E (xp (w_panel w i))) by (intros j Hj; apply (HS j Hj)).
  assert (HS' : forall i, In i (as_panels s) -> sound E (w_panel w) i /\ (sh_m (geometry (w_panel w) i) <= M)%nat /\ (sh_n (geometry (w_panel w) i) <= M)%nat).
  { intros j Hj. destruct (HS j Hj) as ((S1 & _) & S2). split; assumption. }
  pose proof (own_kC_each E M w s HA HS' HE) as HF.
  destruct HF as (Ks & HF). destruct (asm_kC_diagonal E w s HA exact_basis arg None true Ks ltac:(discriminate) HF) as (w1 & T1 & HR2). rewrite HR in HR2.
  destruct (get_kC_conn E exact_basis arg true w1 s) as [[w2 s2] [m|e]] eqn:EG; [|discriminate]. injection HR2 as -> -> _.
  apply (inv_get _ _ _ _ _ _ _ _ _ EG i). destruct T1 as [T1 T2 T3]. destruct (T3 i Hi) as (o & p' & a & _ & H2 & ->). exact (proj2 (calc_kC_built _ _ _ _ _ H2)).
Qed.
Lemma kM_runs wg sg : assembled wg sg -> (forall i, In i (as_panels sg) -> laminated (xp (w_panel wg i))) -> exists wg' sg' M, asm_kM E true wg sg = (wg', sg', Ok (Some M)).
Proof using Type.
  intros HA HP. assert (HF : exists Ms, Forall2 (own_kM E (w_panel wg) true) (as_panels sg) Ms).
  { apply exists_list. intros i Hi. destruct (HP i Hi) as (H1 & _ & mdl & EM). destruct (pn_lam (xp (w_panel wg i))) as [lam|] eqn:EL; [|congruence].
    destruct (calc_kM_ok E SNone 0 0 None None None None true (xp (w_panel wg i)) mdl lam EM EL) as (p1 & K1 & HK1); try exact I; try (cbn; lia).
    exists K1, p1. exact HK1. }
  destruct HF as (Ks & HF). destruct (asm_kM_diagonal E wg sg HA true Ks HF) as (w2 & HR2 & _). eexists. eexists. eexists. exact HR2.
Qed.
Lemma kC_mass w' s' K : asm_kC E exact_basis arg None true w s = (w', s', Ok (Some K)) -> forall i, In i ids ->
  pn_rho (xp (w_panel w' i)) = pn_rho (xp (w_panel w i)) /\ pn_plyts (xp (w_panel w' i)) = rebuilt_plyts (xp (w_panel w i)) /\ pn_offset (xp (w_panel w' i)) = pn_offset (xp (w_panel w i)).
Proof using HG.
  intros HR i Hi. destruct (asm_facts E k arg w s HG) as (w1 & s1 & K1 & HR1 & _ & _ & HW & _). rewrite HR in HR1. injection HR1 as <- <- <-.
  destruct (asm_kC_model _ _ _ _ _ _ _ _ _ _ HR i) as (_ & (-> & ->) & _). split; [reflexivity|]. split; [|reflexivity]. rewrite <- (kp_plyts _ _ _ (kx_panel _ _ _ (HW i))). unfold rebuilt_plyts.
  destruct (kC_laminated _ _ _ HR i Hi) as (_ & HN & _). destruct (pn_plyts (xp (w_panel w' i))) as [|t l]; [congruence|]. reflexivity.
Qed.
Hypothesis HT : all_tied k w s.
Notation mass i := (pn_rho (xp (w_panel w i)) * suml (rebuilt_plyts (xp (w_panel w i))) (fun t => t)).
(* calc_kC and then calc_kM of the same object *)
Theorem freq_in_turn : (forall i, In i ids -> 0 <= mass i) -> (exists i, In i ids /\ 0 < mass i /\ (5 <= sh_m (geometry (w_panel w) i))%nat /\ (5 <= sh_n (geometry (w_panel w) i))%nat) ->
  exists w1 s1 K w2 s2 M l z, asm_kC E exact_basis arg None true w s = (w1, s1, Ok (Some K)) /\
  asm_kM E true w1 s1 = (w2, s2, Ok (Some M)) /\ first_frequency (asm_displaced w s) size K M l z.
Proof using HG HT.
  intros H0 (i & Hi & H1 & Hm & Hn). destruct (asm_facts E k arg w s HG) as (w1 & s1 & K & HR & _ & _ & HW & HI & _). destruct (kC_layout E k arg w s HG _ _ _ HR) as (HL & _).
  pose proof (kC_laminated _ _ _ HR) as HB. destruct (kM_runs w1 s1 (proj1 (proj2 HL))) as (w2 & s2 & M & HR2). { rewrite HI. exact HB. }
  assert (HM : forall j, In j ids -> pn_rho (xp (w_panel w1 j)) * fold_left Rplus (pn_plyts (xp (w_panel w1 j))) 0 = mass j).
  { intros j Hj. destruct (asm_kC_model _ _ _ _ _ _ _ _ _ _ HR j) as (_ & (-> & _) & _). f_equal. rewrite <- (kp_plyts _ _ _ (kx_panel _ _ _ (HW j))). unfold rebuilt_plyts.
    destruct (HB j Hj) as (_ & HN & _). destruct (pn_plyts (xp (w_panel w1 j))) as [|t l]; [congruence|].
    assert (HS : forall l a, fold_left Rplus l a = a + suml l (fun t => t)) by (induction l0 as [|x l0 IH]; intro a; cbn [fold_left suml]; [ring|rewrite IH; ring]). rewrite HS. ring. }
  destruct (asm_first_frequency E k arg w s HG HT w1 s1 HL _ _ _ _ _ _ HR HR2) as (l & z & F).
  - intros j Hj. rewrite HM by exact Hj. exact (H0 j Hj).
  - exists i. split; [exact Hi|]. rewrite HM by exact Hi. auto.
  - exists w1, s1, K, w2, s2, M, l, z. auto.
Qed.
End Mass.

Section Cylinder.
Variables (height r : R) (stack : list R) (plyt : R) (laminaprop : list R) (n m n' k q : nat) (w : world).
Lemma cte_compressed Nxxs W0 s : create_cylinder_assy height r stack plyt laminaprop n m n' k q w = (W0, Ok s) -> (forall i, (i < n)%nat -> nth i Nxxs 0 <= 0) ->
  (exists i, (i < n)%nat /\ nth i Nxxs 0 < 0) -> (5 <= m)%nat -> (5 <= n')%nat -> compressed_assembly (set_constant_loads n k Nxxs W0) s.
Proof using Type.
  intros H HN (i0 & Hi0 & HN0) Hm Hn. assert (Hge : (2 <= n)%nat) by (unfold create_cylinder_assy in H; destruct (Nat.ltb_spec n 2); [discriminate|lia]).
  rewrite cyl_create in H by exact Hge. injection H as <- <-.
  assert (EW : forall i, (i < n)%nat -> xp (w_panel (set_constant_loads n k Nxxs (cyl_world height r stack plyt laminaprop n m n' k q w)) (k + i)) = with_x2u (with_Nxx (cyl_shell height r stack plyt laminaprop n m n') (nth i Nxxs 0)) 1).
  { intros i Hi. destruct (cyl_panel height r stack plyt laminaprop n m n' k q w i Hi) as (E & _).
    unfold set_constant_loads. rewrite (loop_object (fun i o => with_panel o (with_x2u (with_Nxx (xp o) (nth i Nxxs 0)) 1))) by exact Hi. cbn [with_panel xp]. rewrite E. reflexivity. }
  split.
  - intros j Hj. cbn [as_panels cyl_asm] in Hj. apply in_seq in Hj. replace j with (k + (j - k))%nat by lia. rewrite EW by lia. exists (nth (j - k) Nxxs 0), 0. repeat split; [apply HN; lia|lra].
  - exists (k + i0)%nat, (nth i0 Nxxs 0), 0. unfold geometry. rewrite EW by exact Hi0. split; [cbn [as_panels cyl_asm]; apply in_seq; lia|]. repeat split; [exact HN0|exact Hm|exact Hn].
Qed.
End Cylinder.
