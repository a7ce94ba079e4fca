(* The matrices of a bay as virtual work. *)
From Coq Require Import Reals List Arith Bool Lia Lra FunctionalExtensionality.
From Coquelicot Require Import Coquelicot.
From Verif Require Import Base_Sum Model_Types Model_Coo Model_Result Model_Num Model_DB Model_Shell Model_Fext Model_Multi Model_StiffKer Model_Bay
  Spec_Algebra Spec_Panel Spec_Shell Spec_Kinematics Spec_Quadrature Spec_Integral Spec_Fext Spec_Conn Spec_Multi Spec_Stiff Spec_Bay Spec_BayWork
  Proof_Shell Proof_Hist Proof_Terms Proof_StiffKer Proof_Ana Proof_Bay Proof_BayMade.
Import ListNotations.
Open Scope R_scope.

Lemma tables_le T Bs n m : tables_integrate T Bs n -> (m <= n)%nat -> tables_integrate T Bs m.
Proof. intros H Hm i k e e' Hi Hk. apply H; lia. Qed.
Lemma bilinear_entries N Ms c d : bilinear N (entries Ms) c d = suml Ms (fun M => bilinear N M c d).
Proof.
  induction Ms as [|M Ms IH]; [apply bilinear_zero|]. change (entries (M :: Ms)) with (fun r t => M r t + entries Ms r t).
  rewrite bilinear_plus. change (fun r t => entries Ms r t) with (entries Ms). rewrite IH. reflexivity.
Qed.
Lemma F2_works (P : panel -> matrix -> Prop) (Q : panel -> R -> Prop) (f : matrix -> R) l Ks : (forall p K, P p K -> Q p (f K)) -> Forall2 P l Ks -> Forall2 Q l (map f Ks).
Proof. intros H. induction 1; constructor; auto. Qed.
Lemma F2_works_in {A} (P : A -> matrix -> Prop) (Q : A -> R -> Prop) (f : matrix -> R) l Ks : (forall p K, In p l -> P p K -> Q p (f K)) -> Forall2 P l Ks -> Forall2 Q l (map f Ks).
Proof. intros H F. induction F; constructor; [apply H; [left; reflexivity|assumption]|]. apply IHF. intros. apply H; [right; assumption|assumption]. Qed.
Lemma total_map {A} (f : A -> R) l : total_work (map f l) = suml l f.
Proof. unfold total_work. induction l as [|a l IH]; cbn; [reflexivity|]. rewrite IH. reflexivity. Qed.
Lemma slices_works B (P : nat -> stiff2 -> matrix -> Prop) (Q : nat -> stiff2 -> R -> Prop) (f : matrix -> R) Ks :
  (forall j s K, nth_error (by_s2 B) j = Some s -> P (slice_of B j) s K -> Q (slice_of B j) s (f K)) -> length Ks = length (by_s2 B) ->
  (forall j M, nth_error Ks j = Some M -> exists s, nth_error (by_s2 B) j = Some s /\ P (slice_of B j) s M) -> at_slices B Q (map f Ks).
Proof.
  intros H HL HK. split; [rewrite map_length; exact HL|]. intros j s W Hs HW. rewrite nth_error_map in HW. destruct (nth_error Ks j) as [M|] eqn:EM; [|discriminate].
  injection HW as <-. destruct (HK j M EM) as (s' & Hs' & HP). assert (s' = s) by congruence. subst s'. exact (H _ _ _ Hs HP).
Qed.
Lemma flanges_nth l : forall j s, nth_error l j = Some s -> (flanges_dim (firstn j l) + flange_dim s <= flanges_dim l)%nat.
Proof. induction l as [|a l IH]; intros [|j] s H; try discriminate; cbn in H |- *; [injection H as ->; lia|]. specialize (IH _ _ H). unfold flanges_dim in IH. lia. Qed.
Lemma slice_fits B j s : nth_error (by_s2 B) j = Some s -> (skin_dim B <= slice_of B j)%nat /\ (slice_of B j + flange_dim s <= bay_dim B)%nat.
Proof. intro H. unfold slice_of, bay_dim. pose proof (flanges_nth _ _ _ H). lia. Qed.

Section Work.
Variables (V : benv) (B : bay) (n : nat).
Notation E := (b_env V). Notation N := (bay_dim B).
Hypothesis HB : built V B.
Hypothesis HT : tables_integrate (e_tables E) (e_basis E) n.
Hypothesis Hn : bay_terms B n.
Hypothesis HL : bay_lengths B.
Variables (c d : nat -> R).

Lemma skin_tables : tables_integrate (e_tables E) (e_basis E) (Nat.max (sh_m (by_sh B)) (sh_n (by_sh B))).
Proof using HT Hn. eapply tables_le; [exact HT|]. destruct Hn as (? & ? & _). lia. Qed.
Lemma skin_fits : (0 + 3 * (sh_m (by_sh B) * sh_n (by_sh B)) <= N)%nat.
Proof. unfold bay_dim, skin_dim. lia. Qed.
Lemma made_of : List.Forall made1 (by_s1 B).
Proof using HB. exact (g_s1 _ (built_good _ _ HB)). Qed.
Lemma plied_of : List.Forall plied (by_s2 B).
Proof using HB. eapply List.Forall_impl; [|exact (g_s2 _ (built_good _ _ HB))]. intros s [H _]. exact H. Qed.

Lemma s1_works s M : s1_part V B (alone_kC E) (kCf_of V B) N s M -> stiff1_work V B N c d s (bilinear N M c d).
Proof using HT Hn HL.
  intros (h & Kb & Hh & Hb & HM). unfold stiff1_work. exists h, (bilinear N Kb c d), (bilinear N (flange_part V (kCf_of V B s) s h) c d). split; [exact Hh|]. split; [|split].
  - unfold pad_part in Hb. destruct (s1_bdef s); [exists Kb; auto|]. subst Kb. apply bilinear_zero.
  - unfold flange_part. destruct (s1_fdef s) as [D|] eqn:ED; [|apply bilinear_zero]. cbv zeta. unfold kCf_of.
    exact (fkCf_work _ _ _ 0%nat _ _ c d skin_tables skin_fits (proj1 HL) (proj1 (proj2 HL)) _ _ _ _ _ _).
  - rewrite <- bilinear_plus. apply bilinear_ext. exact HM.
Qed.
Lemma s1_works_geo s M : s1_geo V B s M -> stiff1_geo V B c d s (bilinear N M c d).
Proof using HT Hn HL.
  intros (h & HM). unfold stiff1_geo. rewrite (bilinear_ext _ _ (flange_part V (kGf_of V B s) s h)) by exact HM. unfold flange_part.
  destruct (s1_fdef s) as [D|] eqn:ED; [|apply bilinear_zero]. unfold kGf_of.
  exact (fkGf_work _ _ _ 0%nat _ _ c d skin_tables skin_fits (proj1 HL) (proj1 (proj2 HL)) _).
Qed.
Lemma pad_has_no_mass sz o fin D rho h ys bb p' K : calc_kM E sz o o None None None None fin (base_shell B D rho h ys bb) = (p', Ok K) -> False.
Proof. unfold calc_kM, mbind, the_model, mget. cbn. discriminate. Qed.
Lemma s1_works_inertia s M : s1_part V B (fun N o p K => exists p', calc_kM E (SInt N) o o None None None None true p = (p', Ok K)) (kMf_of V B) N s M ->
  s1_bdef s = None /\ stiff1_inertia V B c d s (bilinear N M c d).
Proof using HT Hn HL.
  intros (h & Kb & Hh & Hb & HM). unfold pad_part in Hb. destruct (s1_bdef s) as [D|] eqn:Ebd; [destruct Hb as (p' & Hb); destruct (pad_has_no_mass _ _ _ _ _ _ _ _ _ _ Hb)|].
  split; [reflexivity|]. exists h. split; [exact Hh|]. rewrite (bilinear_ext _ _ (flange_part V (kMf_of V B s) s h)).
  2:{ intros. rewrite HM, Hb. lra. }
  unfold flange_part. destruct (s1_fdef s) as [D|] eqn:ED; [|apply bilinear_zero]. unfold kMf_of.
  pose proof (fkMf_work _ _ _ 0%nat _ (s1_ys s) c d skin_tables skin_fits (proj1 HL) (proj1 (proj2 HL)) (s1_rho s) h 0 (lam_height (s1_fdef s)) (s1_bf s) (flange_axis s h)) as HW.
  unfold line_work in *. rewrite ED in *. eapply is_RInt_ext; [|exact HW]. intros x _. cbv beta zeta. unfold flange_inertia, sixth, k6. change (own 0 c) with c. change (own 0 d) with d.
  match goal with |- ?a = ?b => change (@eq R a b) end. ring.
Qed.
Lemma s2_works j s M : nth_error (by_s2 B) j = Some s -> s2_part V B (alone_kC E) true N (slice_of B j) s M -> stiff2_work V B N c d (slice_of B j) s (bilinear N M c d).
Proof using HB HT Hn HL.
  intros Hs (Kb & Kf & Hb & Hf & HM). pose proof (nth_error_In _ _ Hs) as HI. destruct (slice_fits _ _ _ Hs) as [F1 F2].
  assert (HG : good2 (by_sh B) s) by (exact (Forall_nth _ _ _ _ (g_s2 _ (built_good _ _ HB)) Hs)).
  destruct (s2_flange s) as [q|] eqn:Eq.
  - destruct Hf as (K & l & HK & Hl & HKf). unfold stiff2_work. exists (bilinear N Kb c d), (bilinear N K c d), (bilinear N (joint V B s q l (slice_of B j)) c d). rewrite Eq. split; [|split; [split|]].
    + destruct (s2_base s); [exists Kb; auto|]. subst Kb. apply bilinear_zero.
    + exists K. auto.
    + exists l, (fst (kt_kr Ycte l (rebuilt_lam E q) 0 0)), (default 0 (snd (kt_kr Ycte l (rebuilt_lam E q) 0 0))). split; [exact Hl|]. split; [reflexivity|].
      unfold joint. destruct Hn as (N1 & N2 & N3). destruct (N3 s q HI Eq) as [N4 N5]. destruct HL as (L1 & L2 & L3). unfold flange_dim in F2. rewrite Eq in F2. unfold skin_dim in F1.
      apply skin_flange_work; try assumption.
      * eapply tables_le; [exact HT|]. lia.
      * lia.
      * lia.
      * exact (L3 s q HI Eq).
      * exact (proj1 (proj2 HG) q Eq).
    + rewrite Rplus_assoc, <- !bilinear_plus. apply bilinear_ext. intros. rewrite HM, HKf. reflexivity.
  - unfold stiff2_work. exists (bilinear N Kb c d), 0, 0. rewrite Eq. split; [|split; [auto|]].
    + destruct (s2_base s); [exists Kb; auto|]. subst Kb. apply bilinear_zero.
    + subst Kf. rewrite !Rplus_0_r. apply bilinear_ext. intros. rewrite HM. lra.
Qed.
Lemma s2_works_geo j s M : s2_geo V N (slice_of B j) s M -> stiff2_geo V N c d (slice_of B j) s (bilinear N M c d).
Proof. unfold s2_geo, stiff2_geo. destruct (s2_flange s); [intro H; exists M; auto|]. intros ->. apply bilinear_zero. Qed.
Lemma kM_of_work o p K : kM_of V N o p K -> geometry_ok (chosen_model p) (kernel_view p) -> tables_integrate (e_tables E) (e_basis E) (Nat.max (sh_m (pn_sh p)) (sh_n (pn_sh p))) ->
  (o + ndof (pn_sh p) <= N)%nat -> panel_inertia E o p c d (bilinear N K c d).
Proof. intros -> Hg Ht Ho. unfold panel_inertia. apply fkM_energy; assumption. Qed.
Lemma s2_works_inertia j s M : (forall b, s2_base s = Some b -> geometry_ok (chosen_model b) (kernel_view b)) -> (forall q, s2_flange s = Some q -> geometry_ok (chosen_model q) (kernel_view q)) ->
  nth_error (by_s2 B) j = Some s -> s2_mass V N (slice_of B j) s M -> stiff2_inertia V c d (slice_of B j) s (bilinear N M c d).
Proof using HB HT Hn.
  intros Hgb Hgq Hs (Kb & Kf & Hb & Hf & HM). pose proof (nth_error_In _ _ Hs) as HI. destruct (slice_fits _ _ _ Hs) as [F1 F2].
  assert (HG : good2 (by_sh B) s) by (exact (Forall_nth _ _ _ _ (g_s2 _ (built_good _ _ HB)) Hs)). destruct HG as [_ [_ HG]].
  exists (bilinear N Kb c d), (bilinear N Kf c d). split; [|split].
  - destruct (s2_base s) as [b|] eqn:Eb; [|subst Kb; apply bilinear_zero]. destruct (HG b eq_refl) as (_ & _ & G1 & G2). apply kM_of_work; [exact Hb|exact (Hgb b eq_refl)| |].
    + rewrite G1, G2. exact skin_tables.
    + unfold ndof. rewrite G1, G2. exact skin_fits.
  - destruct (s2_flange s) as [q|] eqn:Eq; [|subst Kf; apply bilinear_zero]. apply kM_of_work; [exact Hf|exact (Hgq q eq_refl)| |].
    + destruct Hn as (N1 & N2 & N3). destruct (N3 s q HI Eq) as [N4 N5]. eapply tables_le; [exact HT|]. lia.
    + unfold flange_dim in F2. rewrite Eq in F2. unfold ndof. lia.
  - rewrite <- bilinear_plus. apply bilinear_ext. exact HM.
Qed.

Theorem kC_is_work B' K : bay_kC V B = (B', Ok K) -> exists Ws W1s W2s,
  Forall2 (fun p W => own_work (alone_kC E) N 0 p c d W) (by_panels B) Ws /\
  Forall2 (stiff1_work V B N c d) (by_s1 B) W1s /\ at_slices B (stiff2_work V B N c d) W2s /\
  bilinear N K c d = total_work Ws + total_work W1s + total_work W2s.
Proof using All.
  intro H. destruct (bay_kC_parts _ _ _ _ made_of H) as (_ & Ks & K1s & K2s & F0 & F1 & L2 & F2 & HK). set (f := fun M => bilinear N M c d).
  exists (map f Ks), (map f K1s), (map f K2s). split; [|split; [|split]].
  - eapply F2_works; [|exact F0]. intros p M HM. exists M. auto.
  - eapply F2_works_in; [|exact F1]. intros s M _ HM. apply s1_works. exact HM.
  - eapply slices_works; [|exact L2|exact F2]. intros. apply s2_works; assumption.
  - rewrite (bilinear_ext _ _ (fun r t => entries Ks r t + entries K1s r t + entries K2s r t)) by exact HK. rewrite !bilinear_plus, !bilinear_entries, !total_map. reflexivity.
Qed.
Theorem kG_is_work cc B' K : bay_kG V cc B = (B', Ok K) -> (cc <> None -> by_s1 B = []) /\ exists Ws W1s W2s,
  Forall2 (fun p W => own_work (alone_kG E cc) N 0 p c d W) (by_panels B) Ws /\
  Forall2 (stiff1_geo V B c d) (by_s1 B) W1s /\ at_slices B (stiff2_geo V N c d) W2s /\
  bilinear N K c d = total_work Ws + total_work W1s + total_work W2s.
Proof using All.
  intro H. destruct (bay_kG_parts _ _ _ _ _ made_of H) as (_ & Ks & K1s & K2s & F0 & F1 & L2 & F2 & HK). set (f := fun M => bilinear N M c d).
  split; [intro Hc; destruct F1 as [|s M l l' [H1 _] _]; [reflexivity|contradiction]|].
  exists (map f Ks), (map f K1s), (map f K2s). split; [|split; [|split]].
  - eapply F2_works; [|exact F0]. intros p M HM. exists M. auto.
  - eapply F2_works_in; [|exact F1]. intros s M _ [_ HM]. apply s1_works_geo. exact HM.
  - eapply slices_works; [|exact L2|exact F2]. intros. apply s2_works_geo; assumption.
  - rewrite (bilinear_ext _ _ (fun r t => entries Ks r t + entries K1s r t + entries K2s r t)) by exact HK. rewrite !bilinear_plus, !bilinear_entries, !total_map. reflexivity.
Qed.
Theorem kM_is_work B' K : bay_kM V B = (B', Ok K) ->
  (forall s p, In s (by_s2 B) -> s2_base s = Some p \/ s2_flange s = Some p -> geometry_ok (chosen_model p) (kernel_view p)) ->
  (forall s, In s (by_s1 B) -> s1_bdef s = None) /\ exists Ws W1s W2s,
  Forall2 (fun p W => own_work (alone_kM E) N 0 p c d W) (by_panels B) Ws /\
  Forall2 (stiff1_inertia V B c d) (by_s1 B) W1s /\ at_slices B (stiff2_inertia V c d) W2s /\
  bilinear N K c d = total_work Ws + total_work W1s + total_work W2s.
Proof using All.
  intros H Hg. destruct (bay_kM_parts _ _ _ _ made_of plied_of H) as (_ & Ks & K1s & K2s & F0 & F1 & L2 & F2 & HK). set (f := fun M => bilinear N M c d).
  split.
  { intros s Hs. clear - F1 HT Hn HL Hs c d. induction F1; [destruct Hs|]. destruct Hs as [->|Hs]; [|exact (IHF1 Hs)]. exact (proj1 (s1_works_inertia _ _ H)). }
  exists (map f Ks), (map f K1s), (map f K2s). split; [|split; [|split]].
  - eapply F2_works; [|exact F0]. intros p M HM. exists M. auto.
  - eapply F2_works_in; [|exact F1]. intros s M _ HM. exact (proj2 (s1_works_inertia _ _ HM)).
  - eapply slices_works; [|exact L2|exact F2]. intros j s M Hs HM. pose proof (nth_error_In _ _ Hs) as HI. apply s2_works_inertia; try assumption; intros; apply (Hg s); auto.
  - rewrite (bilinear_ext _ _ (fun r t => entries Ks r t + entries K1s r t + entries K2s r t)) by exact HK. rewrite !bilinear_plus, !bilinear_entries, !total_map. reflexivity.
Qed.
End Work.
