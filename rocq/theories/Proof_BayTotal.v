(* A bay that has everything its calls need always returns its matrices. *)
From Coq Require Import Reals List Arith Bool Lia Lra.
From Verif Require Import Base_Sum Model_Types Model_Coo Model_Result Model_Num Model_DB Model_Shell Model_Fext Model_Multi Model_New Model_StiffKer Model_Bay
  Spec_Algebra Spec_Panel Spec_Shell Spec_Rebuild Spec_Bay Spec_BayWork Proof_Shell Proof_Place Proof_Multi Proof_Hist Proof_StiffKer Proof_Ana Proof_Total Proof_Pd Proof_Bay Proof_BayMade Proof_BayWork.
Import ListNotations.
Open Scope R_scope.

Definition tot {A} (P : bay -> Prop) (f : bmethod A) (Q : A -> bay -> Prop) : Prop := forall B, P B -> exists B' a, f B = (B', Ok a) /\ Q a B'.
Lemma tot_bind {A C} P (x : bmethod A) Q (f : A -> bmethod C) S : tot P x Q -> (forall a, tot (Q a) (f a) S) -> tot P (bbind x f) S.
Proof. intros Hx Hf B HB. destruct (Hx B HB) as (B1 & a & E1 & H1). destruct (Hf a B1 H1) as (B2 & c & E2 & H2). exists B2, c. unfold bbind. rewrite E1. auto. Qed.
Lemma tot_ret {A} (a : A) (P : bay -> Prop) (Q : A -> bay -> Prop) : (forall B, P B -> Q a B) -> tot P (bret a) Q.
Proof. intros H B HB. exists B, a. split; [reflexivity|auto]. Qed.
Lemma tot_get (P : bay -> Prop) (Q : bay -> bay -> Prop) : (forall B, P B -> Q B B) -> tot P bget Q.
Proof. intros H B HB. exists B, B. split; [reflexivity|auto]. Qed.
Lemma tot_weak {A} (P P1 : bay -> Prop) (f : bmethod A) (Q Q' : A -> bay -> Prop) : tot P f Q -> (forall B, P1 B -> P B) -> (forall a B, Q a B -> Q' a B) -> tot P1 f Q'.
Proof. intros H H1 H2 B HB. destruct (H B (H1 B HB)) as (B' & a & HE & HQ). exists B', a. auto. Qed.
Lemma tot_each {A} (f : nat -> bmethod A) (P : nat -> bay -> Prop) n : (forall i, (i < n)%nat -> tot (P i) (f i) (fun _ => P (S i))) ->
  forall k i, (i + k <= n)%nat -> tot (P i) (each f i k) (fun _ => P (i + k)%nat).
Proof.
  intro Hf. induction k as [|k IH]; intros i Hi; cbn [each].
  - apply tot_ret. intros B HB. rewrite Nat.add_0_r. exact HB.
  - eapply tot_bind; [apply Hf; lia|]. intro a. cbv beta. eapply tot_bind; [apply IH; lia|]. intro l. cbv beta. apply tot_ret. intros B HB. replace (i + S k)%nat with (S i + k)%nat by lia. exact HB.
Qed.
Lemma nth_lt {A} (l : list A) i : (i < length l)%nat -> exists a, nth_error l i = Some a.
Proof. intro H. destruct (nth_error l i) eqn:E; [eauto|]. apply nth_error_None in E. lia. Qed.
Lemma alike_complete p q : alike p q -> complete p -> complete q.
Proof.
  intros [[] ? ? Hst ? ? ? ? ? Hp Hl] Hc. apply status_complete. apply status_complete in Hc. rewrite Hst, Hp, Hl, si_stack. exact Hc.
Qed.
Lemma alike_ready p q : alike p q -> part_ready p -> part_ready q.
Proof. intros HA [H1 H2]. split; [exact (alike_complete _ _ HA H1)|]. destruct HA as [[]]. congruence. Qed.

Lemma kC_total E N o p : part_ready p -> (o + ndof (pn_sh p) <= N)%nat -> exists p' K, calc_kC E (mkKargs (SInt N) o o false None None None None None false) p = (p', Ok K).
Proof. intros [H1 H2] H. apply calc_kC_ok; cbn; auto. Qed.
Lemma kG_total E N o p : part_ready p -> (o + ndof (pn_sh p) <= N)%nat -> exists p' K, calc_kG E (mkKargs (SInt N) o o false None None None None None false) p = (p', Ok K).
Proof. intros [H1 H2] H. apply calc_kG_ok; cbn; auto. Qed.
Lemma coo_mat_ok N M B : fits N M -> coo_mat N M B = (B, Ok (dense M)).
Proof. intro H. unfold coo_mat, bbind, blift. rewrite (to_shape_ok _ _ H). reflexivity. Qed.
Lemma ndof3 s : ndof s = (3 * sh_m s * sh_n s)%nat.
Proof. unfold ndof. lia. Qed.
Ltac fits_ikjl := eapply within_fits; [apply within_ikjl; wf3|unfold DOF in *; nia|unfold DOF in *; nia].
Lemma fits_fkCf N T Bs s ys bf df E1 F1 S1 J : (3 * sh_m s * sh_n s <= N)%nat -> fits N (fkCf T Bs s ys bf df E1 F1 S1 J 0 0).
Proof. intro. cbv delta [fkCf] beta zeta. fits_ikjl. Qed.
Lemma fits_fkGf N T Bs s ys Fx : (3 * sh_m s * sh_n s <= N)%nat -> fits N (fkGf T Bs s ys Fx 0 0).
Proof. intro. cbv delta [fkGf] beta zeta. fits_ikjl. Qed.
Lemma fits_fkMf N T Bs s ys rho h hb hf bf df : (3 * sh_m s * sh_n s <= N)%nat -> fits N (fkMf T Bs s ys rho h hb hf bf df 0 0).
Proof. intro. cbv delta [fkMf] beta zeta. fits_ikjl. Qed.
Lemma fits_fkCss N T Bs kt kr s ys : (3 * sh_m s * sh_n s <= N)%nat -> fits N (fkCss T Bs kt kr s ys 0 0).
Proof. intro. cbv delta [fkCss] beta zeta. fits_ikjl. Qed.
Lemma fits_fkCsf N T Bs kt kr s q ys bf o : (3 * sh_m s * sh_n s <= N)%nat -> (o + 3 * sh_m q * sh_n q <= N)%nat -> fits N (fkCsf T Bs kt kr s q ys bf 0 o).
Proof. intros. cbv delta [fkCsf] beta zeta. fits_ikjl. Qed.
Lemma fits_fkCff N T Bs kt kr a bf q o : (o + 3 * sh_m q * sh_n q <= N)%nat -> fits N (fkCff T Bs kt kr a bf q o o).
Proof. intros. cbv delta [fkCff] beta zeta. fits_ikjl. Qed.

Section Total.
Variables (V : benv) (B0 : bay).
Notation E := (b_env V).
Hypotheses (HR : bay_ready B0) (HG : good B0).

Definition hom (B : bay) : Prop := forall p q, In p (by_panels B) -> In q (by_panels B) -> pn_r p = pn_r q.
Definition kn (B : bay) : Prop := forall s q, In s (by_s2 B) -> s2_flange s = Some q -> known q.
Record st (B : bay) : Prop := { st_inv : inv V B0 B; st_hom : hom B; st_kn : kn B; st_model : exists mdl, by_model B = Some (Known mdl) }.

Lemma in_set_at {A} i (a x : A) l : In x (set_at i a l) -> x = a \/ In x l.
Proof. revert i. induction l as [|y l IH]; intros [|i] H; cbn in *; auto; destruct H as [H|H]; auto. destruct (IH _ H); auto. Qed.
Lemma st_set_s2 B j s t : st B -> nth_error (by_s2 B0) j = Some s -> s2_inv s t -> (forall q, s2_flange t = Some q -> known q) -> st (set_s2 B (set_at j t (by_s2 B))).
Proof.
  intros [H1 H2 H3 H4] Hs Ht Hk. constructor; [eapply inv_set_s2; eassumption|exact H2| |exact H4].
  intros u q Hu Hq. cbn in Hu. destruct (in_set_at _ _ _ _ Hu) as [->|Hu']; [auto|eapply H3; eassumption].
Qed.
Lemma st_set_s1 B j s t : st B -> nth_error (by_s1 B0) j = Some s -> s1_inv s t -> st (set_s1 B (set_at j t (by_s1 B))).
Proof. intros [H1 H2 H3 H4] Hs Ht. constructor; [eapply inv_set_s1; eassumption|exact H2|exact H3|exact H4]. Qed.

Lemma p_inv_model p q : p_inv V p q -> pn_model q = Some (Known (chosen_model p)).
Proof. intros (p1 & H & He). rewrite (eq_model _ _ He). apply rebuild_inv in H. tauto. Qed.
Lemma p_inv_sh p q : p_inv V p q -> pn_sh q = pn_sh p.
Proof. intro H. apply p_inv_alike in H. destruct H as [[]]. assumption. Qed.
Lemma p_inv_r0 p q : p_inv V p q -> r0 q = r0 p.
Proof. intro H. apply p_inv_alike in H. destruct H. assumption. Qed.
Lemma two_go {A} B i j (f : panel -> panel -> res A) : st B -> (i < length (by_panels B0))%nat -> (j < length (by_panels B0))%nat -> exists p q, two_panels B i j f = f p q.
Proof.
  intros HS Hi Hj. destruct (nth_lt _ _ Hi) as [p Hp]. destruct (nth_lt _ _ Hj) as [q Hq].
  destruct (Forall2_nth_l _ _ _ _ _ (i_panels _ _ _ (st_inv _ HS)) Hp) as (p' & Ep & Ip). destruct (Forall2_nth_l _ _ _ _ _ (i_panels _ _ _ (st_inv _ HS)) Hq) as (q' & Eq & Iq).
  exists p', q'. unfold two_panels. rewrite Ep, Eq.
  assert (HA : agree_panels p' q' = true).
  { unfold agree_panels. rewrite (p_inv_model _ _ Ip), (p_inv_model _ _ Iq), (p_inv_sh _ _ Ip), (p_inv_sh _ _ Iq), (st_hom _ HS p' q') by (eapply nth_error_In; eassumption).
    apply nth_error_In in Hp, Hq. destruct (rd_one _ HR p q Hp Hq) as [_ ->]. destruct (rd_parts _ HR p Hp) as (_ & -> & ->). destruct (rd_parts _ HR q Hq) as (_ & -> & ->).
    rewrite !Nat.eqb_refl. unfold same_r, same_model. destruct (chosen_model q), (pn_r q'); cbn; auto; unfold req; destruct (Req_EM_T _ _); congruence. }
  rewrite HA. reflexivity.
Qed.

(* ---------------------------------------------------------------- 1D stiffeners *)
Lemma re_s1_go j s B : nth_error (by_s1 B0) j = Some s -> st B ->
  exists B' t h, re_s1 V j B = (B', Ok tt) /\ st B' /\ nth_error (by_s1 B') j = Some t /\ s1_fresh V B0 s t h.
Proof.
  intros Hs HS. destruct (Forall2_nth_l _ _ _ _ _ (i_s1 _ _ _ (st_inv _ HS)) Hs) as (t & Et & It).
  destruct (rd_s1 _ HR s (nth_error_In _ _ Hs)) as (L1 & L2 & _).
  assert (HRe : exists t', s1_rebuild V B t = Ok t').
  { unfold s1_rebuild. match goal with |- context [two_panels B _ _ ?f] => destruct (two_go B (s1_p1 t) (s1_p2 t) f HS) as (p & q & HH); [rewrite (s1i_p1 _ _ It); exact L1|rewrite (s1i_p2 _ _ It); exact L2|] end. rewrite HH. eexists. reflexivity. }
  destruct HRe as [t' Ht']. destruct (s1_rebuild_fresh _ _ _ _ _ _ (st_inv _ HS) It Ht') as (h & HF).
  exists (set_s1 B (set_at j t' (by_s1 B))), t', h. split.
  - unfold re_s1, get_s1, bbind, bget, blift, put_s1, bmod. rewrite Et, Ht'. reflexivity.
  - split; [eapply st_set_s1; [exact HS|exact Hs|exact (fr_inv _ _ _ _ _ HF)]|]. split; [cbn; eapply nth_set_same; exact Et|exact HF].
Qed.
Lemma on_base1_go {A} (m : method A) j s t h B : nth_error (by_s1 B0) j = Some s -> st B -> nth_error (by_s1 B) j = Some t -> s1_fresh V B0 s t h ->
  (forall D, s1_bdef s = Some D -> exists b' a, m (base_shell B0 D (s1_rho s) h (s1_ys s) (s1_bb s)) = (b', Ok a)) ->
  exists B' o b, on_base1 j m B = (B', Ok o) /\ st B' /\ nth_error (by_s1 B') j = Some (s1_with_base t b).
Proof.
  intros Hs HS Et HF Hm. unfold on_base1, get_s1, bbind, put_s1, bmod, blift. rewrite Et, (fr_base _ _ _ _ _ HF).
  destruct (s1_bdef s) as [D|] eqn:ED; cbn [option_map].
  - destruct (Hm D eq_refl) as (b' & a & ->). do 2 eexists. exists (Some b'). split; [reflexivity|].
    split; [eapply st_set_s1; [exact HS|exact Hs|]; eapply s1_fresh_base; [exact HF|rewrite ED; discriminate]|cbn; eapply nth_set_same; exact Et].
  - exists B, None, (s1_base t). split; [reflexivity|]. split; [exact HS|]. rewrite Et. destruct t; reflexivity.
Qed.
Lemma base_shell_ready D rho h ys bb : lam_ready D -> part_ready (base_shell B0 D rho h ys bb).
Proof. intros (H1 & H2 & H3). split; [|reflexivity]. unfold complete. cbn. split; [discriminate|]. auto. Qed.

Lemma s1_kC_go N j s B : nth_error (by_s1 B0) j = Some s -> (skin_dim B0 <= N)%nat -> st B -> exists B' K, s1_kC V N 0 0 j B = (B', Ok K) /\ st B'.
Proof.
  intros Hs HN HS. destruct (re_s1_go j s B Hs HS) as (B1 & t & h & H1 & S1 & Et & HF). unfold s1_kC. unfold bbind at 1. rewrite H1.
  destruct (on_base1_go (calc_kC E (mkKargs (SInt N) 0 0 false None None None None None false)) j s t h B1 Hs S1 Et HF) as (B2 & o & b & H2 & S2 & Et2).
  { intros D HD. destruct (rd_s1 _ HR s (nth_error_In _ _ Hs)) as (_ & _ & HL). apply kC_total; [apply base_shell_ready, HL, HD|]. rewrite ndof3. cbn. unfold skin_dim in HN. lia. }
  unfold bbind at 1. rewrite H2. unfold bbind at 1, get_s1. rewrite Et2. unfold bbind at 1, bget. cbn [s1_with_base s1_flam].
  destruct (s1_flam t); [|exists B2, o; split; [reflexivity|exact S2]].
  unfold bbind. rewrite coo_mat_ok by (apply fits_fkCf; rewrite (i_sh _ _ _ (st_inv _ S2)); exact HN). do 2 eexists. split; [reflexivity|exact S2].
Qed.
Lemma s1_kG_go N j s B : nth_error (by_s1 B0) j = Some s -> (skin_dim B0 <= N)%nat -> st B -> exists B' K, s1_kG V None N 0 0 j B = (B', Ok K) /\ st B'.
Proof.
  intros Hs HN HS. destruct (re_s1_go j s B Hs HS) as (B1 & t & h & H1 & S1 & Et & HF). unfold s1_kG. unfold bbind at 1. rewrite H1.
  unfold bbind at 1, get_s1. rewrite Et. unfold bbind at 1, bget. destruct (s1_flam t); [|exists B1, None; split; [reflexivity|exact S1]].
  unfold bbind. rewrite coo_mat_ok by (apply fits_fkGf; rewrite (i_sh _ _ _ (st_inv _ S1)); exact HN). do 2 eexists. split; [reflexivity|exact S1].
Qed.
Lemma s1_kM_go N j s B : nth_error (by_s1 B0) j = Some s -> s1_bdef s = None -> (skin_dim B0 <= N)%nat -> st B -> exists B' K, s1_kM V N 0 0 j B = (B', Ok K) /\ st B'.
Proof.
  intros Hs HD HN HS. destruct (re_s1_go j s B Hs HS) as (B1 & t & h & H1 & S1 & Et & HF). unfold s1_kM. unfold bbind at 1. rewrite H1.
  destruct (on_base1_go (calc_kM E (SInt N) 0 0 None None None None false) j s t h B1 Hs S1 Et HF) as (B2 & o & b & H2 & S2 & Et2); [congruence|].
  unfold bbind at 1. rewrite H2. unfold bbind at 1, get_s1. rewrite Et2. unfold bbind at 1, bget. cbn [s1_with_base s1_flam].
  destruct (s1_flam t); [|exists B2, o; split; [reflexivity|exact S2]]. cbn [s1_with_base s1_p1 s1_p2].
  destruct (rd_s1 _ HR s (nth_error_In _ _ Hs)) as (L1 & L2 & _). destruct (fr_inv _ _ _ _ _ HF) as [I1 I2 _ _ _ _ _ _ _ _ _].
  destruct (two_go B2 (s1_p1 t) (s1_p2 t) (fun p q => Ok (skin_h p q)) S2) as (p & q & HH); [rewrite I1; exact L1|rewrite I2; exact L2|].
  unfold bbind, blift. rewrite HH. rewrite coo_mat_ok by (apply fits_fkMf; rewrite (i_sh _ _ _ (st_inv _ S2)); exact HN). do 2 eexists. split; [reflexivity|exact S2].
Qed.

(* ---------------------------------------------------------------- 2D stiffeners *)
Lemma re_s2_go j s B : nth_error (by_s2 B0) j = Some s -> st B ->
  exists B' t, re_s2 V j B = (B', Ok tt) /\ st B' /\ nth_error (by_s2 B') j = Some t /\ forall q, s2_flange t = Some q -> pn_lam q <> None.
Proof.
  intros Hs HS. destruct (Forall2_nth_l _ _ _ _ _ (i_s2 _ _ _ (st_inv _ HS)) Hs) as (t & Et & It).
  destruct (rd_s2 _ HR s (nth_error_In _ _ Hs)) as (L1 & L2 & _).
  assert (HRe : exists t', s2_rebuild V B t = Ok t' /\ forall q, s2_flange t' = Some q -> (known q /\ pn_lam q <> None)).
  { unfold s2_rebuild. match goal with |- context [two_panels B _ _ ?f] => destruct (two_go B (s2_p1 t) (s2_p2 t) f HS) as (p & q & HH); [rewrite (s2i_p1 _ _ It); exact L1|rewrite (s2i_p2 _ _ It); exact L2|] end.
    rewrite HH. eexists. split; [reflexivity|]. cbn. intros q' Hq'. destruct (s2_flange t) as [q1|] eqn:Eq1; [|discriminate]. injection Hq' as <-.
    split; [|discriminate]. exact (st_kn _ HS t q1 (nth_error_In _ _ Et) Eq1). }
  destruct HRe as (t' & Ht' & Hk).
  assert (HRun : re_s2 V j B = (set_s2 B (set_at j t' (by_s2 B)), Ok tt)).
  { unfold re_s2, get_s2, bbind, bget, blift, put_s2, bmod. rewrite Et, Ht'. reflexivity. }
  exists (set_s2 B (set_at j t' (by_s2 B))), t'. split; [exact HRun|].
  assert (HN : nth_error (by_s2 (set_s2 B (set_at j t' (by_s2 B)))) j = Some t') by (cbn; eapply nth_set_same; exact Et).
  split; [|split; [exact HN|intros q Hq; apply Hk, Hq]].
  pose proof (re_s2_run _ _ _ _ _ _ (st_inv _ HS) HRun) as HI. destruct HS as [H1 H2 H3 H4]. constructor; [exact HI|exact H2| |exact H4].
  intros u q Hu Hq. cbn in Hu. destruct (in_set_at _ _ _ _ Hu) as [->|Hu']; [apply Hk, Hq|eapply H3; eassumption].
Qed.
Lemma on_flange_go {A} (m : method A) j s q0 B t : nth_error (by_s2 B0) j = Some s -> s2_flange s = Some q0 -> st B -> nth_error (by_s2 B) j = Some t ->
  (forall p q, f_inv p q -> f_inv p (fst (m q))) ->
  (forall q, f_inv q0 q -> known q -> s2_flange t = Some q -> exists q' a, m q = (q', Ok a) /\ known q') ->
  exists B' a q', on_flange j m B = (B', Ok (Some a)) /\ st B' /\ nth_error (by_s2 B') j = Some (s2_with t (s2_base t) (Some q')) /\ by_panels B' = by_panels B /\
    exists q, f_inv q0 q /\ m q = (q', Ok a).
Proof.
  intros Hs Hq HS Et Hf Hm. destruct (Forall2_nth_l _ _ _ _ _ (i_s2 _ _ _ (st_inv _ HS)) Hs) as (t' & Et' & It). rewrite Et in Et'. injection Et' as <-.
  pose proof (s2i_flange _ _ It) as HF. rewrite Hq in HF. destruct (s2_flange t) as [q|] eqn:Eq; [|contradiction]. cbn in HF.
  pose proof (st_kn _ HS t q (nth_error_In _ _ Et) Eq) as Hk. destruct (Hm q HF Hk eq_refl) as (q' & a & Ha & Hk').
  exists (set_s2 B (set_at j (s2_with t (s2_base t) (Some q')) (by_s2 B))), a, q'.
  split; [unfold on_flange, get_s2, bbind, put_s2, bmod, blift; rewrite Et, Eq, Ha; reflexivity|].
  split; [eapply st_set_s2; [exact HS|exact Hs| |]|].
  - apply s2_with_inv; [exact It|exact (s2i_base _ _ It)|]. rewrite Hq. cbn. pose proof (Hf q0 q HF) as H. rewrite Ha in H. exact H.
  - cbn. intros x Hx. injection Hx as <-. exact Hk'.
  - split; [cbn; eapply nth_set_same; exact Et|]. split; [reflexivity|]. exists q. auto.
Qed.
Lemma on_base2_go {A} (m : method A) j s B t : nth_error (by_s2 B0) j = Some s -> st B -> nth_error (by_s2 B) j = Some t ->
  (forall p q, f_inv p q -> f_inv p (fst (m q))) ->
  (forall b q, s2_base s = Some b -> f_inv b q -> exists q' a, m q = (q', Ok a)) ->
  exists B' o ob, on_base2 j m B = (B', Ok o) /\ st B' /\ nth_error (by_s2 B') j = Some (s2_with t ob (s2_flange t)) /\ by_panels B' = by_panels B /\
    match s2_base s with None => ob = None | Some b => exists q q' a, f_inv b q /\ m q = (q', Ok a) /\ ob = Some q' end.
Proof.
  intros Hs HS Et Hf Hm. destruct (Forall2_nth_l _ _ _ _ _ (i_s2 _ _ _ (st_inv _ HS)) Hs) as (t' & Et' & It). rewrite Et in Et'. injection Et' as <-.
  pose proof (s2i_base _ _ It) as HF. unfold on_base2, get_s2, bbind, put_s2, bmod, blift. rewrite Et. destruct (s2_base s) as [b|] eqn:Eb.
  - destruct (s2_base t) as [q|] eqn:Eq; [|contradiction]. cbn in HF. destruct (Hm b q eq_refl HF) as (q' & a & Ha). rewrite Ha.
    do 2 eexists. exists (Some q'). split; [reflexivity|]. split; [eapply st_set_s2; [exact HS|exact Hs| |]|].
    + apply s2_with_inv; [exact It| |exact (s2i_flange _ _ It)]. rewrite Eb. cbn. pose proof (Hf b q HF) as H. rewrite Ha in H. exact H.
    + cbn. intros x Hx. exact (st_kn _ HS t x (nth_error_In _ _ Et) Hx).
    + split; [cbn; eapply nth_set_same; exact Et|]. split; [reflexivity|]. exists q, q', a. auto.
  - destruct (s2_base t) as [q|] eqn:Eq; [contradiction|]. exists B, None, None. split; [reflexivity|]. split; [exact HS|]. split; [|auto]. rewrite Et. destruct t; cbn in *; subst; reflexivity.
Qed.
Lemma f_inv_sh p q : f_inv p q -> pn_sh q = pn_sh p.
Proof. intros [[[]] _]. assumption. Qed.
Lemma kC_go N o p q : part_ready p -> f_inv p q -> (o + ndof (pn_sh p) <= N)%nat -> exists q' K, calc_kC E (mkKargs (SInt N) o o false None None None None None false) q = (q', Ok K) /\ known q'.
Proof.
  intros Hr HF HN. destruct (kC_total E N o q) as (q' & K & HK); [apply (alike_ready p); [exact (proj1 HF)|exact Hr]|rewrite (f_inv_sh _ _ HF); exact HN|].
  exists q', K. split; [exact HK|]. destruct (calc_kC_inv _ _ _ _ _ HK) as (mdl & ? & ? & []). exists mdl. assumption.
Qed.
Lemma kG_go N o p q : part_ready p -> f_inv p q -> (o + ndof (pn_sh p) <= N)%nat -> exists q' K, calc_kG E (mkKargs (SInt N) o o false None None None None None false) q = (q', Ok K) /\ known q'.
Proof.
  intros Hr HF HN. destruct (kG_total E N o q) as (q' & K & HK); [apply (alike_ready p); [exact (proj1 HF)|exact Hr]|rewrite (f_inv_sh _ _ HF); exact HN|].
  exists q', K. split; [exact HK|]. destruct (calc_kG_inv _ _ _ _ _ HK) as (mdl & ? & []). exists mdl. assumption.
Qed.
Lemma rebuild_go p q : part_ready p -> f_inv p q -> exists q', rebuild E q = (q', Ok tt) /\ known q' /\ pn_lam q' <> None.
Proof.
  intros Hr HF. destruct (rebuild_ok E q) as (q' & Hq'); [apply (alike_complete p); [exact (proj1 HF)|exact (proj1 Hr)]|].
  exists q'. split; [exact Hq'|]. split; [exact (rebuild_known _ _ _ _ Hq')|]. rewrite (f_inv_lam _ _ _ _ HF Hq'). discriminate.
Qed.
Lemma flange_size_go j s q0 B t : nth_error (by_s2 B0) j = Some s -> s2_flange s = Some q0 -> st B -> nth_error (by_s2 B) j = Some t ->
  exists B' , on_flange j get_size B = (B', Ok (Some (flange_dim s))) /\ st B' /\ by_panels B' = by_panels B.
Proof.
  intros Hs Hq HS Et. destruct (on_flange_go get_size j s q0 B t Hs Hq HS Et f_inv_size) as (B' & a & q' & H1 & H2 & H3 & H4 & q & HF & Ha).
  { intros q HF [mdl Hk] _. destruct (get_size q) as [q' [a|e]] eqn:Eg; unfold get_size, mbind, the_model, mget in Eg; rewrite Hk in Eg; cbn in Eg; [|discriminate].
    exists q', a. split; [reflexivity|]. apply pair_equal_spec in Eg. destruct Eg as [<- _]. exists mdl. exact Hk. }
  exists B'. split; [|auto]. rewrite H1. do 3 f_equal. destruct (get_size_inv _ _ _ Ha) as (mdl & _ & -> & _). unfold flange_dim. rewrite Hq, (f_inv_sh _ _ HF). unfold db_dofs. reflexivity.
Qed.

Lemma s2_kC_go N o j s B : nth_error (by_s2 B0) j = Some s -> (skin_dim B0 <= N)%nat -> (o + flange_dim s <= N)%nat -> st B -> exists B' K, s2_kC V N o o j B = (B', Ok K) /\ st B'.
Proof using HR HG.
  intros Hs HN Ho HS. destruct (rd_s2 _ HR s (nth_error_In _ _ Hs)) as (L1 & L2 & Hb & q0 & mdl & Hq & Hr & Hm).
  assert (HD : (o + ndof (pn_sh q0) <= N)%nat) by (unfold flange_dim in Ho; rewrite Hq in Ho; rewrite ndof3; exact Ho).
  assert (HG2 := proj1 (Forall_forall _ _) (g_s2 _ HG) s (nth_error_In _ _ Hs)). destruct HG2 as (_ & _ & Hlk).
  destruct (re_s2_go j s B Hs HS) as (B1 & t1 & H1 & S1 & E1 & _). unfold s2_kC. cbv zeta. unfold bbind at 1. rewrite H1. clear H1.
  destruct (on_base2_go (calc_kC E (mkKargs (SInt N) 0 0 false None None None None None false)) j s B1 t1 Hs S1 E1 (f_inv_kC _ _)) as (B2 & k0 & b2 & H2 & S2 & E2 & _ & Hb2).
  { intros b q Eb HF. destruct (kC_go N 0 b q (Hb b Eb) HF) as (q' & K & HK & _); [|eauto]. destruct (Hlk b Eb) as (_ & _ & l3 & l4). rewrite ndof3, l3, l4. exact HN. }
  unfold bbind at 1. rewrite H2. clear H2.
  destruct (on_flange_go (calc_kC E (mkKargs (SInt N) o o false None None None None None false)) j s q0 B2 _ Hs Hq S2 E2 (f_inv_kC _ _)) as (B3 & kf & q3 & H3 & S3 & E3 & _).
  { intros q HF _ _. apply (kC_go N o q0 q Hr HF HD). }
  unfold bbind at 1. rewrite H3. clear H3. unfold bbind at 1, get_s2 at 1. rewrite E3. cbn [s2_with s2_base s2_flange s2_p1] in *.
  (* the side the flange stands on is rebuilt *)
  assert (HX : exists B4 t4, (match b2 with None => on_skin (s2_p1 t1) (rebuild E) | Some _ => bay_do _ <- on_base2 j (rebuild E); bret tt end) B3 = (B4, Ok tt) /\ st B4 /\
     nth_error (by_s2 B4) j = Some t4 /\ s2_p1 t4 = s2_p1 s /\ match s2_base s with None => s2_base t4 = None | Some _ => exists b, s2_base t4 = Some b /\ pn_lam b <> None end).
  { destruct (Forall2_nth_l _ _ _ _ _ (i_s2 _ _ _ (st_inv _ S3)) Hs) as (t3' & Et3 & It3). rewrite E3 in Et3. injection Et3 as <-. pose proof (s2i_p1 _ _ It3) as HP1. cbn in HP1.
    destruct (s2_base s) as [b|] eqn:Eb.
    - destruct Hb2 as (? & b2' & ? & _ & _ & ->).
      destruct (on_base2_go (rebuild E) j s B3 _ Hs S3 E3 (f_inv_rebuild _)) as (B4 & o4 & b4 & H4 & S4 & E4 & _ & Hb4).
      { rewrite Eb. intros b' q' Eb' HF. injection Eb' as <-. destruct (rebuild_go b q' (Hb b eq_refl) HF) as (q'' & Hq'' & _). eauto. }
      rewrite Eb in Hb4. destruct Hb4 as (b5 & b6 & [] & HF6 & HR6 & ->). do 2 eexists. unfold bbind. rewrite H4. split; [reflexivity|]. split; [exact S4|]. split; [exact E4|]. split; [exact HP1|].
      exists b6. split; [reflexivity|]. rewrite (f_inv_lam _ _ _ _ HF6 HR6). discriminate.
    - subst b2. rewrite HP1. destruct (nth_lt _ _ L1) as [p Hp]. destruct (Forall2_nth_l _ _ _ _ _ (i_panels _ _ _ (st_inv _ S3)) Hp) as (p3 & Ep & Ip).
      destruct (rebuild_ok E p3) as (p4 & Hp4); [apply (alike_complete p); [exact (p_inv_alike _ _ _ Ip)|]; apply (rd_parts _ HR p (nth_error_In _ _ Hp))|].
      exists (set_panels B3 (set_at (s2_p1 s) p4 (by_panels B3))). eexists. unfold on_skin. rewrite Ep, Hp4. split; [reflexivity|]. split; [|split; [exact E3|split; [exact HP1|reflexivity]]].
      destruct S3 as [S31 S32 S33 S34]. constructor; [|  |exact S33|exact S34].
      + eapply inv_set_panel; [exact S31|exact Hp|]. exact (proj1 (skin_rebuild _ _ _ _ _ Ip Hp4)).
      + assert (Hr4 : pn_r p4 = pn_r p3) by (apply rebuild_inv in Hp4; tauto). apply nth_error_In in Ep.
        intros x y Hx Hy. cbn in Hx, Hy. destruct (in_set_at _ _ _ _ Hx) as [->|Hx'], (in_set_at _ _ _ _ Hy) as [->|Hy']; try reflexivity; rewrite ?Hr4; apply S32; assumption. }
  destruct HX as (B4 & t4 & H4 & S4 & E4 & HP4 & HB4). unfold bbind at 1. rewrite H4. clear H4.
  destruct (on_flange_go (rebuild E) j s q0 B4 _ Hs Hq S4 E4 (f_inv_rebuild _)) as (B5 & [] & q5 & H5 & S5 & E5 & EP5 & q4 & HF5 & HR5).
  { intros q HF _ _. destruct (rebuild_go q0 q Hr HF) as (q' & H1 & H2 & _). exists q', tt. auto. }
  unfold bbind at 1. rewrite H5. clear H5. unfold bbind at 1, get_s2 at 1. rewrite E5. unfold bbind at 1, bget at 1. cbn [s2_with s2_base s2_flange s2_p1].
  assert (HK : exists kk, bay_kt_kr (match s2_base t4 with None => nth_error (by_panels B5) (s2_p1 t4) | b => b end) (Some q5) = Ok kk).
  { assert (HX : exists b, match s2_base t4 with None => nth_error (by_panels B5) (s2_p1 t4) | b => b end = Some b /\ pn_lam b <> None).
    { destruct (s2_base s) as [b|]; [destruct HB4 as (b' & -> & Hl); eauto|]. rewrite HB4, HP4. destruct (nth_lt _ _ L1) as [p Hp].
      destruct (Forall2_nth_l _ _ _ _ _ (i_panels _ _ _ (st_inv _ S5)) Hp) as (p3 & Ep & Ip). exists p3. split; [exact Ep|]. rewrite (p_inv_lam _ _ _ Ip). discriminate. }
    destruct HX as (b & -> & Hl). pose proof (f_inv_lam _ _ _ _ HF5 HR5) as Hl5. unfold bay_kt_kr. rewrite Hl5. destruct (pn_lam b); [|congruence]. eexists. reflexivity. }
  destruct HK as [kk Hkk]. unfold bbind at 1, blift at 1. rewrite Hkk.
  assert (Hsh5 : pn_sh q5 = pn_sh q0). { rewrite <- (f_inv_sh _ _ HF5). apply rebuild_inv in HR5. destruct HR5 as [[] _]. assumption. }
  assert (Hsh : by_sh B5 = by_sh B0) by exact (i_sh _ _ _ (st_inv _ S5)). rewrite ndof3 in HD.
  unfold bbind. rewrite coo_mat_ok by (apply fits_fkCss; rewrite Hsh; exact HN).
  rewrite coo_mat_ok by (apply fits_fkCsf; [rewrite Hsh; exact HN|rewrite Hsh5; exact HD]).
  rewrite coo_mat_ok by (apply fits_fkCff; rewrite Hsh5; exact HD). do 2 eexists. split; [reflexivity|exact S5].
Qed.
Lemma s2_kG_go c N o j s B : nth_error (by_s2 B0) j = Some s -> (o + flange_dim s <= N)%nat -> st B -> exists B' K, s2_kG V c N o o j B = (B', Ok K) /\ st B'.
Proof.
  intros Hs Ho HS. destruct (rd_s2 _ HR s (nth_error_In _ _ Hs)) as (L1 & L2 & Hb & q0 & mdl & Hq & Hr & Hm).
  assert (HD : (o + ndof (pn_sh q0) <= N)%nat) by (unfold flange_dim in Ho; rewrite Hq in Ho; rewrite ndof3; exact Ho).
  destruct (re_s2_go j s B Hs HS) as (B1 & t1 & H1 & S1 & E1 & _). unfold s2_kG. unfold bbind at 1. rewrite H1.
  destruct (on_flange_go (calc_kG E (mkKargs (SInt N) o o false None None None None None false)) j s q0 B1 _ Hs Hq S1 E1 (f_inv_kG _ _)) as (B3 & kf & q3 & H3 & S3 & E3 & _).
  { intros q HF _ _. apply (kG_go N o q0 q Hr HF HD). }
  exists B3, (Some kf). auto.
Qed.
Lemma s2_kM_go N o j s B : nth_error (by_s2 B0) j = Some s -> s2_base s = None -> (o + flange_dim s <= N)%nat -> st B -> exists B' K, s2_kM V N o o j B = (B', Ok K) /\ st B'.
Proof.
  intros Hs Hn Ho HS. destruct (rd_s2 _ HR s (nth_error_In _ _ Hs)) as (L1 & L2 & Hb & q0 & mdl & Hq & Hr & Hm).
  assert (HD : (o + ndof (pn_sh q0) <= N)%nat) by (unfold flange_dim in Ho; rewrite Hq in Ho; rewrite ndof3; exact Ho).
  destruct (re_s2_go j s B Hs HS) as (B1 & t1 & H1 & S1 & E1 & Hl). unfold s2_kM. unfold bbind at 1. rewrite H1.
  destruct (on_base2_go (calc_kM E (SInt N) 0 0 None None None None false) j s B1 t1 Hs S1 E1 (f_inv_kM _ _ _ _)) as (B2 & k0 & b2 & H2 & S2 & E2 & _ & Hb2); [congruence|].
  unfold bbind at 1. rewrite H2.
  destruct (on_flange_go (calc_kM E (SInt N) o o None None None None false) j s q0 B2 _ Hs Hq S2 E2 (f_inv_kM _ _ _ _)) as (B3 & kf & q3 & H3 & S3 & E3 & _).
  { intros q HF [m Hk] Ef. cbn in Ef. specialize (Hl q Ef). destruct (pn_lam q) as [lam|] eqn:El; [|congruence].
    destruct (calc_kM_ok E (SInt N) o o None None None None false q m lam Hk El) as (q' & K & HK); cbn; auto; try (rewrite (f_inv_sh _ _ HF); exact HD).
    exists q', K. split; [exact HK|]. destruct (calc_kM_inv _ _ _ _ _ _ _ _ _ _ _ _ HK) as (m' & ? & []). exists m'. congruence. }
  unfold bbind. rewrite H3. do 2 eexists. split; [reflexivity|exact S3].
Qed.

(* ---------------------------------------------------------------- the bay *)
Lemma the_panel : exists p0, In p0 (by_panels B0).
Proof. destruct (by_panels B0) as [|p l] eqn:H; [destruct (rd_some _ HR H)|exists p; left; reflexivity]. Qed.
Definition pre_ok (p0 : panel) (i : nat) (B : bay) : Prop :=
  pre V B0 i B /\ (forall q, In q (by_panels B) -> pn_r q = pn_r p0) /\ (by_model B = None /\ i = 0%nat \/ by_model B = Some (Known (chosen_model p0))).
Lemma re_panel_go p0 i : In p0 (by_panels B0) -> (i < length (by_panels B0))%nat -> tot (pre_ok p0 i) (re_panel V i) (fun _ => pre_ok p0 (S i)).
Proof.
  intros H0 Hi B HP. destruct HP as (HP & Hr & Hm). destruct (nth_lt _ _ Hi) as [p Hp]. pose proof (nth_error_In _ _ Hp) as Hin.
  assert (Ep : nth_error (by_panels B) i = Some p). { destruct HP as (_ & _ & _ & _ & _ & P6 & _). rewrite P6; auto. }
  destruct (rd_parts _ HR p Hin) as ((Hc & _) & _). destruct (rebuild_ok E p Hc) as [p' Hp']. destruct (rd_one _ HR p p0 Hin H0) as [Hr0 Hc0].
  pose proof (rebuild_inv _ _ _ _ Hp') as (_ & Rr & Rm & _).
  set (B3 := set_panels B (set_at i p' (by_panels B))).
  assert (H3 : nth_error (by_panels B3) i = Some p') by (cbn; eapply nth_set_same; exact Ep).
  assert (Hr3 : forall q, In q (by_panels B3) -> pn_r q = pn_r p0). { intros q Hq. cbn in Hq. destruct (in_set_at _ _ _ _ Hq) as [->|Hq']; [congruence|auto]. }
  assert (HS : on_skin i (rebuild E) B = (B3, Ok tt)) by (unfold on_skin; rewrite Ep, Hp'; reflexivity).
  destruct Hm as [[Hm _]|Hm].
  - assert (HRun : re_panel V i B = (set_bmodel B3 (pn_model p'), Ok tt)).
    { unfold re_panel. unfold bbind at 1. rewrite HS. unfold bbind, bget. rewrite H3. replace (by_model B3) with (@None model_name) by (symmetry; exact Hm). reflexivity. }
    do 2 eexists. split; [exact HRun|]. split; [exact (re_panel_run _ _ _ _ _ _ HP HRun)|]. split; [exact Hr3|]. right. cbn. rewrite Rm, Hc0. reflexivity.
  - assert (HRun : re_panel V i B = (B3, Ok tt)).
    { unfold re_panel. unfold bbind at 1. rewrite HS. unfold bbind, bget. rewrite H3. replace (by_model B3) with (Some (Known (chosen_model p0))) by (symmetry; exact Hm).
      rewrite Rm, Hc0. destruct (chosen_model p0); reflexivity. }
    do 2 eexists. split; [exact HRun|]. split; [exact (re_panel_run _ _ _ _ _ _ HP HRun)|]. split; [exact Hr3|]. right. exact Hm.
Qed.
Lemma each_go {A} (f : nat -> bmethod A) n : (forall i B, (i < n)%nat -> st B -> exists B' a, f i B = (B', Ok a) /\ st B') -> forall B, st B -> exists B' l, each f 0 n B = (B', Ok l) /\ st B'.
Proof. intros Hf B HS. apply (tot_each f (fun _ => st) n); [|lia|exact HS]. intros i Hi B1 HB1. apply Hf; assumption. Qed.
Lemma bay_rebuild_go : exists B1, bay_rebuild V B0 = (B1, Ok tt) /\ st B1.
Proof using HR HG.
  destruct the_panel as [p0 H0].
  destruct (tot_each (re_panel V) (pre_ok p0) (length (by_panels B0)) (fun i Hi => re_panel_go p0 i H0 Hi) (length (by_panels B0)) 0%nat (Nat.le_refl _) B0) as (B1 & l & H1 & HP & Hr1 & Hm1).
  { split; [|split; [intros q Hq; apply (rd_one _ HR q p0 Hq H0)|]].
    - unfold pre. do 5 (split; [reflexivity|]). split; [auto|]. intros i q Hi. lia.
    - destruct (rd_model _ HR p0 H0); auto. }
  assert (S1 : st B1).
  { cbn in HP. destruct HP as (P1 & P2 & P3 & P4 & P5 & P6 & P7). constructor.
    - constructor; auto.
      + apply nth_Forall2; [exact P5|]. intros j b Hb. apply (P7 j b); [|exact Hb]. rewrite <- P5. apply nth_error_Some. congruence.
      + rewrite P3. apply Forall2_same. eapply Forall_impl; [|exact (g_s1 _ HG)]. intros s. apply s1_inv_refl.
      + rewrite P4. apply Forall2_same. apply Forall_forall. intros s _. apply s2_inv_refl.
    - intros p q Hp Hq. rewrite (Hr1 p Hp), (Hr1 q Hq). reflexivity.
    - intros s q Hs Hq. rewrite P4 in Hs. destruct (rd_s2 _ HR s Hs) as (_ & _ & _ & q0 & mdl & Hq0 & _ & Hk). rewrite Hq in Hq0. injection Hq0 as <-. exists mdl. exact Hk.
    - destruct Hm1 as [[_ Hm1]|Hm1]; [|eauto]. destruct (by_panels B0); [destruct H0|cbn in Hm1; discriminate]. }
  unfold bay_rebuild. fold (re_panel V). unfold bbind at 1, each_panel. fold (re_panel V).
  match goal with |- context [each ?f 0 (length (by_panels B0)) B0] => change f with (re_panel V) end. rewrite H1.
  unfold bbind at 1, each_s1. destruct (each_go (re_s1 V) (length (by_s1 B1))) with (B := B1) as (B2 & l2 & H2 & S2); [|exact S1|].
  { intros i B Hi HS. rewrite <- (F2_length _ _ _ (i_s1 _ _ _ (st_inv _ S1))) in Hi. destruct (nth_lt _ _ Hi) as [s Hs]. destruct (re_s1_go i s B Hs HS) as (B' & t & h & HH & HS' & _). eauto. }
  rewrite H2. unfold bbind at 1, bget. unfold bbind. destruct (each_go (re_s2 V) (length (by_s2 B2))) with (B := B2) as (B3 & l3 & H3 & S3); [|exact S2|].
  { intros i B Hi HS. rewrite <- (F2_length _ _ _ (i_s2 _ _ _ (st_inv _ S2))) in Hi. destruct (nth_lt _ _ Hi) as [s Hs]. destruct (re_s2_go i s B Hs HS) as (B' & t & HH & HS' & _). eauto. }
  rewrite H3. exists B3. split; [reflexivity|exact S3].
Qed.
Lemma st_flange B j s : nth_error (by_s2 B0) j = Some s -> st B -> exists B', on_flange j get_size B = (B', Ok (Some (flange_dim s))) /\ st B'.
Proof.
  intros Hs HS. destruct (rd_s2 _ HR s (nth_error_In _ _ Hs)) as (_ & _ & _ & q0 & mdl & Hq & _).
  destruct (Forall2_nth_l _ _ _ _ _ (i_s2 _ _ _ (st_inv _ HS)) Hs) as (t & Et & _). destruct (flange_size_go j s q0 B t Hs Hq HS Et) as (B' & H1 & H2 & _). eauto.
Qed.
Lemma bay_size_go B : st B -> exists B', bay_size B = (B', Ok (bay_dim B0)) /\ st B'.
Proof.
  intro HS. destruct (bay_size B) as [B' r] eqn:EB.
  assert (HX : exists n, r = Ok n /\ st B').
  { unfold bay_size in EB. unfold bbind at 1, bget in EB. destruct (st_model _ HS) as [mdl Hm]. rewrite Hm in EB. unfold bbind at 1 in EB.
    destruct (each_go (fun j => bay_do o <- on_flange j get_size; match o with Some n => bret n | None => braise AttributeError end) (length (by_s2 B))) with (B := B) as (B3 & l3 & H3 & S3); [|exact HS|].
    { intros i B1 Hi HS1. rewrite <- (F2_length _ _ _ (i_s2 _ _ _ (st_inv _ HS))) in Hi. destruct (nth_lt _ _ Hi) as [s Hs]. destruct (st_flange B1 i s Hs HS1) as (B2 & H1 & H2).
      unfold bbind. rewrite H1. do 2 eexists. split; [reflexivity|exact H2]. }
    rewrite H3 in EB. unfold bbind, bmod in EB. apply pair_equal_spec in EB. destruct EB as [<- <-]. eexists. split; [reflexivity|].
    destruct S3 as [[] ? ? ?]. constructor; auto. constructor; auto. }
  destruct HX as (n & -> & S2). destruct (ens_size _ _ _ _ _ (st_inv _ HS) EB) as [_ Hn]. rewrite (Hn n eq_refl) in *. eauto.
Qed.
Lemma panels_go (m : method matrix) B :
  (forall p q, In p (by_panels B0) -> p_inv V p q -> exists q' K, m q = (q', Ok K) /\ p_inv V p q' /\ pn_r q' <> None) -> st B ->
  exists B' l, each_panel (fun i => on_skin i m) B = (B', Ok l) /\ st B' /\ l <> [].
Proof.
  intros Hm HS. set (n := length (by_panels B0)). unfold each_panel. rewrite <- (F2_length _ _ _ (i_panels _ _ _ (st_inv _ HS))). fold n.
  set (P := fun i B => inv V B0 B /\ kn B /\ (exists mdl, by_model B = Some (Known mdl)) /\ forall k q, (k < i)%nat -> nth_error (by_panels B) k = Some q -> pn_r q <> None).
  assert (Hstep : forall i, (i < n)%nat -> tot (P i) (on_skin i m) (fun _ => P (S i))).
  { intros i Hi B1 (HI & Hk & Hmd & Hr). destruct (nth_lt _ _ Hi) as [p Hp]. destruct (Forall2_nth_l _ _ _ _ _ (i_panels _ _ _ HI) Hp) as (q & Eq & Iq).
    destruct (Hm p q (nth_error_In _ _ Hp) Iq) as (q' & K & HK & Iq' & Hr'). do 2 eexists. split; [unfold on_skin; rewrite Eq, HK; reflexivity|].
    split; [eapply inv_set_panel; eassumption|]. split; [exact Hk|]. split; [exact Hmd|]. intros k x Hk' Hx. cbn in Hx. rewrite nth_set_at in Hx.
    destruct (Nat.eqb_spec k i) as [->|Hne]; [rewrite Eq in Hx; injection Hx as <-; exact Hr'|]. apply (Hr k x); [lia|exact Hx]. }
  destruct (tot_each _ P n Hstep n 0%nat (Nat.le_refl _) B) as (B' & l & HE & HI & Hk & Hmd & Hr).
  { destruct HS as [S1 S2 S3 S4]. split; [exact S1|]. split; [exact S3|]. split; [exact S4|]. intros k q Hk. lia. }
  exists B', l. split; [exact HE|]. split.
  - constructor; auto. intros x y Hx Hy. destruct (In_nth_error _ _ Hx) as [i Ei]. destruct (In_nth_error _ _ Hy) as [j Ej].
    assert (HL : length (by_panels B') = n) by (rewrite <- (F2_length _ _ _ (i_panels _ _ _ HI)); reflexivity).
    destruct (Forall2_nth _ _ _ _ _ (i_panels _ _ _ HI) Ei) as (p & Ep & Ip). destruct (Forall2_nth _ _ _ _ _ (i_panels _ _ _ HI) Ej) as (q & Eq & Iq).
    assert (Hx' : pn_r x <> None) by (apply (Hr i x); [cbn; rewrite <- HL; apply nth_error_Some; congruence|exact Ei]).
    assert (Hy' : pn_r y <> None) by (apply (Hr j y); [cbn; rewrite <- HL; apply nth_error_Some; congruence|exact Ej]).
    pose proof (p_inv_r0 _ _ Ip) as R1. pose proof (p_inv_r0 _ _ Iq) as R2. destruct (rd_one _ HR p q (nth_error_In _ _ Ep) (nth_error_In _ _ Eq)) as [R3 _].
    unfold r0 in R1, R2. rewrite R3 in R1. destruct (pn_r x), (pn_r y); congruence.
  - destruct the_panel as [p0 H0]. intros ->. destruct n as [|n'] eqn:En; [unfold n in En; destruct (by_panels B0); [destruct H0|discriminate En]|].
    cbn [each] in HE. unfold bbind at 1 in HE. destruct (on_skin 0 m B) as [B1 [K|e]]; [|discriminate HE]. unfold bbind at 1 in HE.
    destruct (each (fun i => on_skin i m) 1 n' B1) as [B2 [l|e]]; discriminate HE.
Qed.
Lemma sum_s2_go (f : nat -> nat -> bmethod (option matrix)) :
  (forall j s B, nth_error (by_s2 B0) j = Some s -> st B -> exists B' K, f (slice_of B0 j) j B = (B', Ok K) /\ st B') ->
  forall k j acc B, (j + k = length (by_s2 B0))%nat -> acc <> None -> st B -> exists B' K, sum_s2 f j k (slice_of B0 j) acc B = (B', Ok K) /\ K <> None.
Proof.
  intro Hf. induction k as [|k IH]; intros j acc B Hj Ha HS; cbn [sum_s2].
  - do 2 eexists. split; [reflexivity|exact Ha].
  - assert (Hl : (j < length (by_s2 B0))%nat) by lia. destruct (nth_lt _ _ Hl) as [s Hs]. destruct (Hf j s B Hs HS) as (B1 & K & H1 & S1). unfold bbind at 1. rewrite H1.
    destruct (st_flange B1 j s Hs S1) as (B2 & H2 & S2). unfold bbind at 1. rewrite H2. cbn [default].
    replace (slice_of B0 j + flange_dim s)%nat with (slice_of B0 (S j)).
    + apply IH; [lia| |exact S2]. destruct K; [|exact Ha]. destruct acc; discriminate.
    + unfold slice_of. rewrite (firstn_S_nth _ _ _ Hs), flanges_app. unfold flanges_dim. cbn. lia.
Qed.
Lemma oadd_some l : forall acc, acc <> None \/ l <> [] -> fold_left oadd l acc <> None.
Proof. induction l as [|M l IH]; intros acc [H|H]; cbn; auto; try congruence; apply IH; left; destruct acc; discriminate. Qed.
Lemma oplus_some l : forall acc, acc <> None -> fold_left oplus l acc <> None.
Proof. induction l as [|M l IH]; intros acc H; cbn; auto. apply IH. destruct M; [destruct acc; discriminate|exact H]. Qed.
Theorem bay_matrix_total (Kp : nat -> method matrix) (K1 : nat -> nat -> bmethod (option matrix)) (K2 : nat -> nat -> nat -> bmethod (option matrix)) :
  (forall p q, In p (by_panels B0) -> p_inv V p q -> exists q' K, Kp (bay_dim B0) q = (q', Ok K) /\ p_inv V p q' /\ pn_r q' <> None) ->
  (forall j s B, nth_error (by_s1 B0) j = Some s -> st B -> exists B' K, K1 (bay_dim B0) j B = (B', Ok K) /\ st B') ->
  (forall j s B, nth_error (by_s2 B0) j = Some s -> st B -> exists B' K, K2 (bay_dim B0) (slice_of B0 j) j B = (B', Ok K) /\ st B') ->
  exists B' K, bay_matrix V Kp K1 K2 B0 = (B', Ok K).
Proof using HR HG.
  intros Hp H1 H2. unfold bay_matrix. destruct bay_rebuild_go as (B1 & E1 & S1). unfold bbind at 1. rewrite E1.
  destruct (bay_size_go B1 S1) as (B2 & E2 & S2). unfold bbind at 1. rewrite E2.
  destruct (panels_go (Kp (bay_dim B0)) B2 Hp S2) as (B3 & l0 & E3 & S3 & Hl0). unfold bbind at 1. rewrite E3.
  unfold bbind at 1, each_s1. destruct (each_go (K1 (bay_dim B0)) (length (by_s1 B3))) with (B := B3) as (B4 & l1 & E4 & S4); [|exact S3|].
  { intros i B Hi HS. rewrite <- (F2_length _ _ _ (i_s1 _ _ _ (st_inv _ S3))) in Hi. destruct (nth_lt _ _ Hi) as [s Hs]. exact (H1 i s B Hs HS). }
  rewrite E4. unfold bbind at 1, bget. unfold bbind at 1, blift. destruct (st_model _ S4) as [mdl Hm].
  assert (Hsk : skin_size B4 = Ok (slice_of B0 0)). { unfold skin_size. rewrite Hm, (i_sh _ _ _ (st_inv _ S4)). f_equal. unfold slice_of, skin_dim, db_dofs. cbn. lia. }
  rewrite Hsk. rewrite <- (F2_length _ _ _ (i_s2 _ _ _ (st_inv _ S4))).
  destruct (sum_s2_go (K2 (bay_dim B0)) H2 (length (by_s2 B0)) 0%nat (fold_left oplus l1 (fold_left oadd l0 None)) B4 eq_refl) as (B5 & K & E5 & HK); [|exact S4|].
  { apply oplus_some, oadd_some. right. exact Hl0. }
  unfold bbind. rewrite E5. destruct K as [K|]; [|congruence]. do 2 eexists. reflexivity.
Qed.
Lemma skin_fits : (skin_dim B0 <= bay_dim B0)%nat. Proof. unfold bay_dim. lia. Qed.
Lemma skin_ready p q : In p (by_panels B0) -> p_inv V p q -> part_ready q /\ (0 + ndof (pn_sh q) <= bay_dim B0)%nat.
Proof.
  intros Hp Iq. destruct (rd_parts _ HR p Hp) as (Hr & H1 & H2). split; [apply (alike_ready p); [exact (p_inv_alike _ _ _ Iq)|exact Hr]|].
  rewrite (p_inv_sh _ _ Iq), ndof3, H1, H2. exact skin_fits.
Qed.
Theorem bay_kC_total : exists B' K, bay_kC V B0 = (B', Ok K).
Proof using HR HG.
  apply bay_matrix_total.
  - intros p q Hp Iq. destruct (skin_ready p q Hp Iq) as [H1 H2]. destruct (kC_total E _ 0 q H1 H2) as (q' & K & HK). exists q', K. split; [exact HK|].
    split; [exact (proj1 (skin_kC _ _ _ _ _ _ _ Iq HK))|]. destruct (calc_kC_inv _ _ _ _ _ HK) as (mdl & ? & ? & []). congruence.
  - intros j s B Hs HS. apply (s1_kC_go _ j s B Hs skin_fits HS).
  - intros j s B Hs HS. apply (s2_kC_go _ _ j s B Hs skin_fits); [|exact HS]. exact (proj2 (slice_fits _ _ _ Hs)).
Qed.
Theorem bay_kG_total : exists B' K, bay_kG V None B0 = (B', Ok K).
Proof using HR HG.
  apply bay_matrix_total.
  - intros p q Hp Iq. destruct (skin_ready p q Hp Iq) as [H1 H2]. destruct (kG_total E _ 0 q H1 H2) as (q' & K & HK). exists q', K. split; [exact HK|].
    split; [exact (proj1 (skin_kG _ _ _ _ _ _ _ _ Iq HK))|]. destruct (calc_kG_inv _ _ _ _ _ HK) as (mdl & ? & []). congruence.
  - intros j s B Hs HS. apply (s1_kG_go _ j s B Hs skin_fits HS).
  - intros j s B Hs HS. apply (s2_kG_go _ _ _ j s B Hs); [|exact HS]. exact (proj2 (slice_fits _ _ _ Hs)).
Qed.
Theorem bay_kM_total : (forall s, In s (by_s1 B0) -> s1_bdef s = None) -> (forall s, In s (by_s2 B0) -> s2_base s = None) -> exists B' K, bay_kM V B0 = (B', Ok K).
Proof using HR HG.
  intros N1 N2. apply bay_matrix_total.
  - intros p q Hp Iq. destruct (skin_ready p q Hp Iq) as [H1 H2].
    destruct (calc_kM_ok E (SInt (bay_dim B0)) 0 0 None None None None false q _ _ (p_inv_model _ _ Iq) (p_inv_lam _ _ _ Iq)) as (q' & K & HK); cbn; auto.
    exists q', K. split; [exact HK|]. split; [exact (proj1 (skin_kM _ _ _ _ _ _ _ Iq HK))|]. destruct (calc_kM_inv _ _ _ _ _ _ _ _ _ _ _ _ HK) as (mdl & ? & []). congruence.
  - intros j s B Hs HS. apply (s1_kM_go _ j s B Hs); [apply N1; eapply nth_error_In; exact Hs|exact skin_fits|exact HS].
  - intros j s B Hs HS. apply (s2_kM_go _ _ j s B Hs); [apply N2; eapply nth_error_In; exact Hs| |exact HS]. exact (proj2 (slice_fits _ _ _ Hs)).
Qed.
End Total.
