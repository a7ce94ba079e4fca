(* Stiffeners that are not compressed do not lower the buckling load of a bay. *)
From Coq Require Import Reals List Arith Bool Lia Lra Classical.
From Coquelicot Require Import Coquelicot.
From Verif Require Import Proof_Num.
From Verif Require Import Proof_Rigid Base_Sum Model_Types Model_Coo Model_Result Model_Num Model_DB Model_Bardell Model_Shell Model_Multi Model_Bay
  Spec_Algebra Spec_Kinematics Spec_Quadrature Spec_Panel Spec_Shell Spec_Bardell Spec_Integral Spec_Fext Spec_Conn Spec_Stiff Spec_Modes Spec_Rigid Spec_Pull Spec_Bay Spec_BayWork Spec_Blade Spec_BayResponse Spec_BayModes Spec_Limit Spec_LimitBay
  Proof_Shell Proof_Api Proof_AnaApi Proof_Modes Proof_Ana Proof_Bay Proof_BayMade Proof_BayWork Proof_BayTotal Proof_BayResponse Proof_BayModes Proof_Limit Proof_LimitPanel Proof_Indep Proof_ConnZero Proof_MultiSign Proof_LimitBay.
From Coq Require Import List.
Import ListNotations.
Open Scope R_scope.

Lemma own_geo E N n o p c W : (n <= 30)%nat -> tables_integrate (e_tables E) exact_basis n -> elastic E p -> (sh_m (pn_sh p) <= n)%nat -> (sh_n (pn_sh p) <= n)%nat -> (o + ndof (pn_sh p) <= N)%nat ->
  own_work (alone_kG E None) N o p c c W ->
  panel_integral (kernel_view p) (membrane_work exact_basis (kernel_view p) (fst (fst (pn_N p))) (snd (fst (pn_N p))) (snd (pn_N p)) (own o c) (own o c)) W.
Proof.
  intros _ HT (E1 & E2 & E3 & E4 & E5) Hm Hn Ho (K & (p' & HR) & ->).
  pose proof (calc_kG_analytic _ _ _ _ _ HR eq_refl eq_refl) as HA. destruct (pn_N p) as [[Nxx Nyy] Nxy]. destruct HA as (kG & HK & _ & HkG). cbn [ka_fin finalized ka_row0 ka_col0 fst snd] in *. subst K kG.
  refine (fkG0_energy _ _ exact_basis _ Nxx Nyy Nxy o N c c E2 _ Ho). apply (tables_integrate_le _ _ n); [|exact HT]. apply Nat.max_lub; assumption.
Qed.
Lemma own_pulled s c Nxx Nyy W : 0 <= sh_a s * sh_b s -> 0 <= Nxx -> 0 <= Nyy -> panel_integral s (membrane_work exact_basis s Nxx Nyy 0 c c) W -> 0 <= W.
Proof.
  intros Hab Hx Hy HI. refine (panel_integral_ge0 s _ W Hab _ HI). intros u v. unfold membrane_work.
  pose proof (Rle_0_sqr (d_wx exact_basis s c u v)) as S1. pose proof (Rle_0_sqr (d_wy exact_basis s c u v)) as S2. unfold Rsqr in *. nra.
Qed.
Lemma line_pulled s ys Fx c W : 0 < sh_a s -> 0 <= Fx -> Spec_Stiff.line_work s ys (flange_force_work exact_basis s Fx c c) W -> 0 <= W.
Proof.
  intros Ha HF HW. unfold Spec_Stiff.line_work in HW. refine (rint_nonneg _ _ _ Ha HW _). intro x. unfold flange_force_work. set (g := d_wx _ _ _ _ _). pose proof (Rle_0_sqr g). unfold Rsqr in *. nra.
Qed.
Lemma unpushed_extended B B2 : unpushed_more B B2 -> extended B B2.
Proof. intros (X1 & X2 & X3 & (l1 & X4 & _) & (l2 & X5 & _)). split; [exact X1|]. split; [exact X2|]. split; [exact X3|]. split; [exists l1; exact X4|exists l2; exact X5]. Qed.

Section More.
Variables (V : benv) (B B2 : bay) (p0 p2 : panel) (n n2 : nat).
Hypothesis HS : stiff_bay V B p0 n.
Hypothesis HS2 : stiff_bay V B2 p2 n2.
Hypothesis HU : unpushed_more B B2.
Notation E := (b_env V). Notation N := (bay_dim B). Notation N2 := (bay_dim B2).
Let HX := unpushed_extended _ _ HU.
Lemma geo_once c o p W W2 : elastic E p -> (sh_m (pn_sh p) <= n)%nat -> (sh_n (pn_sh p) <= n)%nat -> (o + ndof (pn_sh p) <= N)%nat ->
  own_work (alone_kG E None) N o p c c W -> own_work (alone_kG E None) N2 o p c c W2 -> W = W2.
Proof using HS HU.
  intros HE Hm Hn Ho H1 H2. pose proof (dims_more B B2 HX) as HD.
  pose proof (own_geo E N n o p c W (sb_small _ _ _ _ HS) (sb_tables _ _ _ _ HS) HE Hm Hn Ho H1) as HI.
  pose proof (own_geo E N2 n o p c W2 (sb_small _ _ _ _ HS) (sb_tables _ _ _ _ HS) HE Hm Hn ltac:(lia) H2) as HI2. exact (integral_once _ _ _ _ HI HI2).
Qed.
Lemma geo1_once c s W W2 : stiff1_geo V B c c s W -> stiff1_geo V B2 c c s W2 -> W = W2.
Proof using HU.
  unfold stiff1_geo. destruct (s1_fdef s); [|congruence]. pose proof (proj1 HU) as X1. rewrite X1. intros H1 H2. unfold Spec_Stiff.line_work in *. exact (rint_once _ _ _ _ _ H1 H2).
Qed.
Lemma geo2_once c j s W W2 : nth_error (by_s2 B) j = Some s -> stiff2_geo V N c c (slice_of B j) s W -> stiff2_geo V N2 c c (slice_of B j) s W2 -> W = W2.
Proof using HS HU.
  intros Hj. unfold stiff2_geo. destruct (s2_flange s) as [q|] eqn:Eq; [|congruence]. pose proof (nth_error_In _ _ Hj) as Hs. destruct (sb_terms _ _ _ _ HS) as (_ & _ & T3). destruct (T3 s q Hs Eq) as (T4 & T5).
  destruct (slice_fits _ _ _ Hj) as [G1 G2]. unfold flange_dim in G2. rewrite Eq in G2. apply geo_once; [exact (proj1 (sb_flanges _ _ _ _ HS s q Hs Eq))|exact T4|exact T5|unfold ndof; lia].
Qed.
Lemma bay_geo_more B' G B2' G2 c : bay_kG V None B = (B', Ok G) -> bay_kG V None B2 = (B2', Ok G2) -> quad N G c <= quad N2 G2 c.
Proof using HS HS2 HU.
  intros HK HK2.
  destruct (kG_is_work V B n (sb_built _ _ _ _ HS)) with (c := c) (d := c) (cc := @None carg) (B' := B') (K := G) as (_ & Ws & W1s & W2s & F0 & F1 & (L2 & F2) & HQ).
  { rewrite (sb_basis _ _ _ _ HS). exact (sb_tables _ _ _ _ HS). } { exact (sb_terms _ _ _ _ HS). } { exact (bay_lengths_ok _ _ _ _ HS). } { exact HK. }
  destruct (kG_is_work V B2 n2 (sb_built _ _ _ _ HS2)) with (c := c) (d := c) (cc := @None carg) (B' := B2') (K := G2) as (_ & Ws' & W1s' & W2s' & F0' & F1' & (L2' & F2') & HQ').
  { rewrite (sb_basis _ _ _ _ HS2). exact (sb_tables _ _ _ _ HS2). } { exact (sb_terms _ _ _ _ HS2). } { exact (bay_lengths_ok _ _ _ _ HS2). } { exact HK2. }
  pose proof HU as (X1 & X2 & X3 & (l1 & X4 & Y4) & (l2 & X5 & Y5)).
  assert (G0 : Ws = Ws').
  { rewrite X3 in F0'. eapply works_once; [|exact F0|exact F0']. intros p W W' Hp. destruct (panel_fits V B p0 n HS p Hp) as (A1 & A2 & A3). exact (geo_once c 0 p W W' (proj1 (sb_panels _ _ _ _ HS p Hp)) A1 A2 A3). }
  rewrite X4 in F1'. destruct (total_split _ _ _ _ F1') as (Wa & Wb & -> & Fa & Fb).
  assert (G1 : W1s = Wa) by (eapply works_once; [|exact F1|exact Fa]; intros s W W' Hs; exact (geo1_once c s W W')).
  assert (Q1 : forall s W, In s l1 -> stiff1_geo V B2 c c s W -> 0 <= W).
  { intros s W Hs. unfold stiff1_geo. destruct (s1_fdef s); [|intro; lra]. rewrite (sb_basis _ _ _ _ HS2). apply line_pulled; [exact (sb_a _ _ _ _ HS2)|exact (Y4 s Hs)]. }
  destruct (works_sum _ _ _ (fun s W Hs HW => conj (Q1 s W Hs HW) I) Fb) as [Pb _] || destruct (works_sum _ _ _ Q1 Fb) as [Pb _].
  assert (P2 : forall j W, (length (by_s2 B) <= j)%nat -> nth_error W2s' j = Some W -> 0 <= W).
  { intros j W Hj HW. destruct (nth_error (by_s2 B2) j) as [s|] eqn:Es.
    - pose proof (F2' j s W Es HW) as HP. unfold stiff2_geo in HP. destruct (s2_flange s) as [q|] eqn:Eq; [|lra]. pose proof (nth_error_In _ _ Es) as Hs.
      assert (Hl : In s l2) by (rewrite X5, nth_error_app2 in Es by lia; exact (nth_error_In _ _ Es)).
      destruct (Y5 s q Hl Eq) as (Nxx & Nyy & R1 & R2 & R3). destruct (sb_terms _ _ _ _ HS2) as (_ & _ & T3). destruct (T3 s q Hs Eq) as (T4 & T5).
      destruct (slice_fits _ _ _ Es) as [J1 J2]. unfold flange_dim in J2. rewrite Eq in J2. pose proof (proj1 (sb_flanges _ _ _ _ HS2 s q Hs Eq)) as HE.
      assert (HI := own_geo E N2 n2 (slice_of B2 j) q c W (sb_small _ _ _ _ HS2) (sb_tables _ _ _ _ HS2) HE T4 T5 ltac:(unfold ndof; lia) HP). rewrite R1 in HI. cbn [fst snd] in HI.
      refine (own_pulled _ _ Nxx Nyy W _ R2 R3 HI). exact (proj2 (proj2 (proj2 (proj2 HE)))).
    - apply nth_error_None in Es. assert (j < length W2s')%nat by (apply nth_error_Some; congruence). lia. }
  assert (J2 : W2s' = W2s ++ skipn (length W2s) W2s').
  { rewrite <- (firstn_skipn (length W2s) W2s') at 1. f_equal. rewrite X5, app_length in L2'.
    apply list_ext. intro j. destruct (Nat.lt_ge_cases j (length W2s)) as [Hj|Hj].
    - rewrite nth_first by exact Hj. destruct (nth_error (by_s2 B) j) as [s|] eqn:Es; [|apply nth_error_None in Es; lia].
      assert (Es2 : nth_error (by_s2 B2) j = Some s) by (rewrite X5, nth_error_app1 by lia; exact Es).
      destruct (nth_error W2s j) as [W|] eqn:EW; [|apply nth_error_None in EW; lia]. destruct (nth_error W2s' j) as [W'|] eqn:EW'; [|apply nth_error_None in EW'; lia].
      f_equal. symmetry. pose proof (F2' j s W' Es2 EW') as HW'. rewrite (slice_more B B2 HX j s Es) in HW'. exact (geo2_once c j s W W' Es (F2 j s W Es EW) HW').
    - rewrite (proj2 (nth_error_None W2s j)) by lia. apply nth_error_None. rewrite firstn_length. lia. }
  assert (P3 : 0 <= total_work (skipn (length W2s) W2s')).
  { refine (proj1 (slices_sum (fun _ _ => True) _ _ eq_refl _)). intros j W HW. apply (P2 (length W2s + j)%nat); [lia|]. rewrite <- HW. rewrite <- (firstn_skipn (length W2s) W2s') at 1.
    rewrite nth_error_app2; [|rewrite firstn_length; lia]. rewrite firstn_length. f_equal. rewrite X5, app_length in L2'. lia. }
  unfold quad. rewrite HQ, HQ', J2, !total_app, <- G0, <- G1. lra.
Qed.
End More.
