(* The lowest buckling load and the lowest frequency of a held stiffened bay. *)
From Coq Require Import Reals List Arith Bool Lia Lra Classical.
From Coquelicot Require Import Coquelicot.
From Verif Require Import Proof_Num.
From Verif Require Import Proof_Rigid Base_Sum Model_Types Model_Coo Model_Result Model_Num Model_DB Model_Bardell Model_Shell Model_Multi Model_Bay
  Spec_Algebra Spec_Kinematics Spec_Quadrature Spec_Panel Spec_Shell Spec_Bardell Spec_Integral Spec_Fext Spec_Conn Spec_Stiff Spec_Modes Spec_Rigid Spec_Pull Spec_Bay Spec_BayWork Spec_Blade Spec_BayResponse Spec_BayModes Spec_Limit Spec_LimitBay
  Proof_Shell Proof_Api Proof_AnaApi Proof_Modes Proof_Ana Proof_Bay Proof_BayMade Proof_BayWork Proof_BayTotal Proof_BayResponse Proof_BayModes Proof_Limit Proof_LimitPanel Proof_Indep Proof_ConnZero Proof_MultiSign.
From Coq Require Import List.
Import ListNotations.
Open Scope R_scope.

Lemma line_zero s ys f W : (forall x y, f x y = 0) -> Spec_Stiff.line_work s ys f W -> W = 0.
Proof.
  intros H HW. unfold Spec_Stiff.line_work in HW. rewrite <- (is_RInt_unique _ _ _ _ HW). rewrite (RInt_ext _ (fun _ => 0)); [|intros; apply H].
  rewrite RInt_const. unfold scal; cbn; unfold mult; cbn. ring.
Qed.
Lemma jumps_zero kt kr s1 s2 y1 y2 U T U' T' W : (forall k x y, U k x y = 0) -> (forall k x y, T k x y = 0) -> work_along_x (jumps_BFycte kt kr) s1 s2 y1 y2 U T U' T' W -> W = 0.
Proof.
  intros HU HT HW. unfold work_along_x in HW. rewrite <- (is_RInt_unique _ _ _ _ HW). rewrite (RInt_ext _ (fun _ => 0)).
  - rewrite RInt_const. unfold scal; cbn; unfold mult; cbn. ring.
  - intros x _. unfold jump_work, jumps_BFycte. cbn. rewrite !HU, !HT. ring.
Qed.
Lemma total_zero Ws : (forall W, In W Ws -> W = 0) -> total_work Ws = 0.
Proof. induction Ws as [|W Ws IH]; intro H; unfold total_work, suml in *; cbn [map fold_right]; [reflexivity|]. rewrite IH by (intros; apply H; right; assumption). rewrite (H W) by (left; reflexivity). ring. Qed.
Lemma F2_zero {A} (P : A -> R -> Prop) l Ws : Forall2 P l Ws -> (forall x W, In x l -> P x W -> W = 0) -> total_work Ws = 0.
Proof.
  intros H HP. apply total_zero. induction H as [|x W l Ws Hx _ IH]; [intros W []|]. intros W' [<-|HW]; [exact (HP x W (or_introl eq_refl) Hx)|].
  apply IH; [|exact HW]. intros y U Hy. apply HP. right; exact Hy.
Qed.
Lemma slices_zero B (P : nat -> stiff2 -> R -> Prop) Ws : at_slices B P Ws -> (forall j s W, nth_error (by_s2 B) j = Some s -> P (slice_of B j) s W -> W = 0) -> total_work Ws = 0.
Proof.
  intros [L H] HP. apply total_zero. intros W HW. destruct (In_nth_error _ _ HW) as [j Hj]. destruct (nth_error (by_s2 B) j) as [s|] eqn:Es.
  - exact (HP j s W Es (H j s W Es Hj)).
  - apply nth_error_None in Es. assert (j < length Ws)%nat by (apply nth_error_Some; congruence). lia.
Qed.
Lemma same_still s t c : same_skin s t -> motionless t c -> motionless s c.
Proof. intros HS H xi eta Hx Hy. destruct (H xi eta Hx Hy) as (A1 & A2 & A3). unfold d_u, d_v, d_w in *. rewrite !(same_fld exact_basis s t c _ _ _ _ _ HS). repeat split; assumption. Qed.
Lemma own0 c k : own 0 c k = c k. Proof. reflexivity. Qed.

Section Bay.
Variables (V : benv) (B : bay) (p0 : panel) (n : nat).
Hypothesis HB : held_bay V B p0 n.
Notation N := (bay_dim B).
Notation E := (b_env V).
Let HS := hb_stiff _ _ _ _ HB.
Lemma le30 k : (k <= n)%nat -> (k <= 30)%nat. Proof using HB. pose proof (sb_small _ _ _ _ HS). lia. Qed.
Lemma part_tables p : (sh_m (pn_sh p) <= n)%nat -> (sh_n (pn_sh p) <= n)%nat -> tables_integrate (e_tables E) exact_basis (Nat.max (sh_m (pn_sh p)) (sh_n (pn_sh p))).
Proof using HB. intros Hm Hn. apply (tables_integrate_le _ _ n); [|exact (sb_tables _ _ _ _ HS)]. apply Nat.max_lub; assumption. Qed.
Lemma view_still p o z : motionless (pn_sh p) (own o z) -> motionless (kernel_view p) (own o z).
Proof using. intro H. exact H. Qed.

Lemma own_still o p z W : elastic E p -> (sh_m (pn_sh p) <= n)%nat -> (sh_n (pn_sh p) <= n)%nat -> (o + ndof (pn_sh p) <= N)%nat -> motionless (pn_sh p) (own o z) ->
  own_work (alone_kC E) N o p z z W -> W = 0.
Proof using HB.
  intros (E1 & E2 & E3 & E4 & E5) Hm Hn Ho HZ (K & (p' & HR) & ->).
  pose proof (kC_energy E (mkKargs (SInt N) o o true None None None None None false) p p' K N HR eq_refl eq_refl eq_refl eq_refl eq_refl eq_refl E1 E2 Ho E3 (part_tables p Hm Hn) z z) as HI.
  cbn [ka_row0 ka_col0] in HI. refine (integral_zero _ _ _ _ HI). intros x y. unfold form. apply sumn_0; intros i Hi. apply sumn_0; intros j Hj.
  assert (HF : lin_strain (curvature (chosen_model p) (kernel_view p)) exact_basis (kernel_view p) (own o z) x y i = 0).
  { pose proof (le30 _ Hm : (sh_m (kernel_view p) <= 30)%nat) as Hm'. pose proof (le30 _ Hn : (sh_n (kernel_view p) <= 30)%nat) as Hn'. pose proof (view_still p o z HZ) as HZ'. unfold lin_strain, d_ux, d_uy, d_vx, d_vy, d_w, d_wxx, d_wyy, d_wxy.
    destruct i as [|[|[|[|[|[|i]]]]]]; rewrite ?(still_all (kernel_view p) (own o z) Hm' Hn' HZ' exact_basis) by (exact exact_flagged || lia); try ring; try reflexivity. }
  rewrite HF. ring.
Qed.
Lemma own_unloaded o p z d W : elastic E p -> (sh_m (pn_sh p) <= n)%nat -> (sh_n (pn_sh p) <= n)%nat -> (o + ndof (pn_sh p) <= N)%nat -> motionless (pn_sh p) (own o z) ->
  own_work (alone_kG E None) N o p z d W -> W = 0.
Proof using HB.
  intros (E1 & E2 & E3 & E4 & E5) Hm Hn Ho HZ (K & (p' & HR) & ->).
  pose proof (calc_kG_analytic _ _ _ _ _ HR eq_refl eq_refl) as HA. destruct (pn_N p) as [[Nxx Nyy] Nxy]. destruct HA as (kG & HK & _ & HkG). cbn [ka_fin finalized ka_row0 ka_col0] in *. subst K kG.
  refine (integral_zero _ _ _ _ (fkG0_energy _ _ exact_basis _ _ _ _ o N z d E2 (part_tables p Hm Hn) Ho)). intros x y.
  apply still_membrane; [exact exact_flagged|exact (le30 _ Hm)|exact (le30 _ Hn)|exact HZ].
Qed.
Lemma own_weightless o p z d W : elastic E p -> (sh_m (pn_sh p) <= n)%nat -> (sh_n (pn_sh p) <= n)%nat -> (o + ndof (pn_sh p) <= N)%nat -> motionless (pn_sh p) (own o z) ->
  own_work (alone_kM E) N o p z d W -> W = 0.
Proof using HB.
  intros (E1 & E2 & E3 & E4 & E5) Hm Hn Ho HZ (K & (p1 & p' & HR & HK) & ->).
  destruct (rebuild_inv _ _ _ _ HR) as (HI & Hr & Hmm & _ & _ & _ & _ & _ & _ & _ & _ & _ & Hbe & Hga & _). destruct HI.
  rewrite (calc_kM_analytic _ _ _ _ _ _ _ _ _ _ HK). cbn [finalized].
  assert (HC : chosen_model p1 = chosen_model p) by (unfold chosen_model at 1; rewrite Hmm; reflexivity).
  assert (HV : kernel_view p1 = kernel_view p) by (unfold kernel_view; rewrite Hr, Hbe, Hga, si_sh; reflexivity).
  rewrite HC, HV. refine (integral_zero _ _ _ _ (fkM_energy _ _ exact_basis _ _ _ _ o N z d E2 (part_tables p Hm Hn) Ho)). intros x y.
  apply still_kinetic; [exact exact_flagged|exact (le30 _ Hm)|exact (le30 _ Hn)|exact HZ].
Qed.
Lemma inertia_free o p z d W : (sh_m (pn_sh p) <= n)%nat -> (sh_n (pn_sh p) <= n)%nat -> motionless (pn_sh p) (own o z) -> panel_inertia E o p z d W -> W = 0.
Proof using HB.
  intros Hm Hn HZ HW. unfold panel_inertia in HW. rewrite (sb_basis _ _ _ _ HS) in HW. refine (integral_zero _ _ _ _ HW). intros x y.
  apply still_kinetic; [exact exact_flagged|exact (le30 _ Hm)|exact (le30 _ Hn)|exact HZ].
Qed.

Section Still.
Variable z : nat -> R.
Hypothesis HZ : bay_motionless B z.
Let HM0 := proj1 HZ.
Lemma skin_fld Bs d p q x y : flagged Bs 30 -> (d < 3)%nat -> fld Bs (by_sh B) z d p q x y = 0.
Proof using HB HZ. destruct (sb_terms _ _ _ _ HS) as (T1 & T2 & _). apply still_all; [exact (le30 _ T1)|exact (le30 _ T2)|exact HM0]. Qed.
Lemma skin_still p : In p (by_panels B) -> motionless (pn_sh p) (own 0 z).
Proof using HB HZ. intro Hp. destruct (sb_panels _ _ _ _ HS p Hp) as [_ HV]. exact (same_still _ _ _ HV HM0). Qed.
Lemma flange_still j s q : nth_error (by_s2 B) j = Some s -> s2_flange s = Some q -> elastic E q /\ (sh_m (pn_sh q) <= n)%nat /\ (sh_n (pn_sh q) <= n)%nat /\ (slice_of B j + ndof (pn_sh q) <= N)%nat /\ motionless (pn_sh q) (own (slice_of B j) z).
Proof using HB HZ.
  intros Hj Hq. pose proof (nth_error_In _ _ Hj) as Hs. destruct (sb_terms _ _ _ _ HS) as (_ & _ & T3). destruct (T3 s q Hs Hq) as (T4 & T5). destruct (slice_fits _ _ _ Hj) as [F1 F2].
  unfold flange_dim in F2. rewrite Hq in F2. split; [exact (proj1 (sb_flanges _ _ _ _ HS s q Hs Hq))|]. split; [exact T4|]. split; [exact T5|]. split; [unfold ndof; lia|exact (proj2 HZ j s q Hj Hq)].
Qed.
Lemma pad_still s b : In s (by_s2 B) -> s2_base s = Some b -> elastic E b /\ (sh_m (pn_sh b) <= n)%nat /\ (sh_n (pn_sh b) <= n)%nat /\ (0 + ndof (pn_sh b) <= N)%nat /\ motionless (pn_sh b) (own 0 z).
Proof using HB HZ.
  intros Hs Hb. pose proof (hb_pads _ _ _ _ HB s b Hs Hb) as HV. pose proof HV as (_ & _ & G1 & G2 & _). destruct (sb_terms _ _ _ _ HS) as (T1 & T2 & _).
  split; [exact (sb_pads2 _ _ _ _ HS s b Hs Hb)|]. rewrite G1, G2. split; [exact T1|]. split; [exact T2|]. split; [unfold ndof, bay_dim, skin_dim; rewrite G1, G2; lia|exact (same_still _ _ _ HV HM0)].
Qed.

Lemma still_energy B' K : bay_kC V B = (B', Ok K) -> quad N K z = 0.
Proof using HB HZ.
  intro HK. destruct (kC_is_work V B n (sb_built _ _ _ _ HS)) with (c := z) (d := z) (B' := B') (K := K) as (Ws & W1s & W2s & F0 & F1 & F2 & HQ).
  { rewrite (sb_basis _ _ _ _ HS). exact (sb_tables _ _ _ _ HS). } { exact (sb_terms _ _ _ _ HS). } { exact (bay_lengths_ok V B p0 n HS). } { exact HK. }
  unfold quad. rewrite HQ. rewrite (F2_zero _ _ _ F0), (F2_zero _ _ _ F1), (slices_zero _ _ _ F2); [ring| | |].
  - intros j s W Hj (Wb & Wq & Wj & H1 & H2 & ->). pose proof (nth_error_In _ _ Hj) as Hs.
    assert (Wb = 0). { destruct (s2_base s) as [b|] eqn:Eb; [|exact H1]. destruct (pad_still s b Hs Eb) as (P1 & P2 & P3 & P4 & P5). exact (own_still 0 b z Wb P1 P2 P3 P4 P5 H1). }
    destruct (s2_flange s) as [q|] eqn:Eq; [|lra]. destruct H2 as (H2 & l & kt & kr & _ & _ & HW). destruct (flange_still j s q Hj Eq) as (P1 & P2 & P3 & P4 & P5).
    pose proof (own_still _ q z Wq P1 P2 P3 P4 P5 H2). rewrite (sb_basis _ _ _ _ HS) in HW.
    assert (Wj = 0); [|lra]. refine (jumps_zero _ _ _ _ _ _ _ _ _ _ _ _ _ HW).
    + intros k x y. unfold ritz_field, d_u, d_v, d_w, d_wx, d_wy. cbv zeta. destruct k as [|[|[|[|k]]]]; rewrite skin_fld by (exact exact_flagged || lia); try ring; reflexivity.
    + intros k x y. unfold ritz_field, d_u, d_v, d_w, d_wx, d_wy. cbv zeta. destruct k as [|[|[|[|k]]]]; rewrite (still_all _ _ (le30 _ P2) (le30 _ P3) P5) by (exact exact_flagged || lia); try ring; reflexivity.
  - intros s W Hs (h & Wb & Wf & Hh & H1 & H2 & ->). destruct (sb_terms _ _ _ _ HS) as (T1 & T2 & _).
    assert (Wb = 0).
    { destruct (s1_bdef s) as [D|] eqn:ED; [|exact H1]. refine (own_still 0 _ z Wb (sb_pads _ _ _ _ HS s D h Hs ED Hh) _ _ _ _ H1); [exact T1|exact T2|unfold ndof, bay_dim, skin_dim; cbn; lia|].
      apply (same_still _ (by_sh B)); [|exact HM0]. repeat split; reflexivity. }
    assert (Wf = 0); [|lra]. destruct (s1_fdef s) as [D|]; [|exact H2]. cbv zeta in H2. rewrite (sb_basis _ _ _ _ HS) in H2. refine (line_zero _ _ _ _ _ H2). intros x y.
    unfold flange_work, fibre_strain, d_ux, d_wxx, d_wxy. cbv zeta. rewrite !skin_fld by (exact exact_flagged || lia). ring.
  - intros p W Hp HW. destruct (panel_fits V B p0 n HS p Hp) as (A1 & A2 & A3). exact (own_still 0 p z W (proj1 (sb_panels _ _ _ _ HS p Hp)) A1 A2 A3 (skin_still p Hp) HW).
Qed.
Lemma still_geo B' G d : bay_kG V None B = (B', Ok G) -> bilinear N G z d = 0.
Proof using HB HZ.
  intro HK. destruct (kG_is_work V B n (sb_built _ _ _ _ HS)) with (c := z) (d := d) (cc := @None carg) (B' := B') (K := G) as (_ & Ws & W1s & W2s & F0 & F1 & F2 & HQ).
  { rewrite (sb_basis _ _ _ _ HS). exact (sb_tables _ _ _ _ HS). } { exact (sb_terms _ _ _ _ HS). } { exact (bay_lengths_ok V B p0 n HS). } { exact HK. }
  rewrite HQ. rewrite (F2_zero _ _ _ F0), (F2_zero _ _ _ F1), (slices_zero _ _ _ F2); [ring| | |].
  - intros j s W Hj HW. unfold stiff2_geo in HW. destruct (s2_flange s) as [q|] eqn:Eq; [|exact HW]. destruct (flange_still j s q Hj Eq) as (P1 & P2 & P3 & P4 & P5). exact (own_unloaded _ q z d W P1 P2 P3 P4 P5 HW).
  - intros s W Hs HW. unfold stiff1_geo in HW. destruct (s1_fdef s); [|exact HW]. rewrite (sb_basis _ _ _ _ HS) in HW. refine (line_zero _ _ _ _ _ HW). intros x y.
    unfold flange_force_work, d_wx. rewrite !skin_fld by (exact exact_flagged || lia). ring.
  - intros p W Hp HW. destruct (panel_fits V B p0 n HS p Hp) as (A1 & A2 & A3). exact (own_unloaded 0 p z d W (proj1 (sb_panels _ _ _ _ HS p Hp)) A1 A2 A3 (skin_still p Hp) HW).
Qed.
Lemma still_mass B' M d : heavy B -> bay_kM V B = (B', Ok M) -> bilinear N M z d = 0.
Proof using HB HZ.
  intros HV HM. destruct (kM_is_work V B n (sb_built _ _ _ _ HS)) with (c := z) (d := d) (B' := B') (K := M) as (_ & Ws & W1s & W2s & F0 & F1 & F2 & HQ).
  { rewrite (sb_basis _ _ _ _ HS). exact (sb_tables _ _ _ _ HS). } { exact (sb_terms _ _ _ _ HS). } { exact (bay_lengths_ok V B p0 n HS). } { exact HM. }
  { intros s p Hs [Hp|Hp]; [exact (proj1 (proj2 (sb_pads2 _ _ _ _ HS s p Hs Hp)))|exact (proj1 (proj2 (proj1 (sb_flanges _ _ _ _ HS s p Hs Hp))))]. }
  rewrite HQ. rewrite (F2_zero _ _ _ F0), (F2_zero _ _ _ F1), (slices_zero _ _ _ F2); [ring| | |].
  - intros j s W Hj (Wb & Wq & H1 & H2 & ->). pose proof (nth_error_In _ _ Hj) as Hs.
    assert (Wb = 0). { destruct (s2_base s) as [b|] eqn:Eb; [|exact H1]. destruct (pad_still s b Hs Eb) as (P1 & P2 & P3 & P4 & P5). exact (inertia_free 0 b z d Wb P2 P3 P5 H1). }
    assert (Wq = 0); [|lra]. destruct (s2_flange s) as [q|] eqn:Eq; [|exact H2]. destruct (flange_still j s q Hj Eq) as (P1 & P2 & P3 & P4 & P5). exact (inertia_free _ q z d Wq P2 P3 P5 H2).
  - rewrite (hv_s1 _ HV). intros s W [].
  - intros p W Hp HW. destruct (panel_fits V B p0 n HS p Hp) as (A1 & A2 & A3). exact (own_weightless 0 p z d W (proj1 (sb_panels _ _ _ _ HS p Hp)) A1 A2 A3 (skin_still p Hp) HW).
Qed.
End Still.

Lemma bay_moving B' K z : bay_kC V B = (B', Ok K) -> bay_displaced B z <-> quad N K z <> 0.
Proof using HB.
  intro HK. split; intros H HC; apply H; [exact (bay_still V B p0 n HS B' K HK z (hb_held _ _ _ _ HB) HC)|exact (still_energy z HC B' K HK)].
Qed.
Theorem bay_first_load B' K B2 G : bay_kC V B = (B', Ok K) -> bay_kG V None B = (B2, Ok G) -> (exists x, quad N G x < 0) -> exists l z, first_load (bay_displaced B) N K G l z.
Proof using HB.
  intros HK HG HX. apply first_load_of; [exact (bay_sym V B B' K HK)|exact (bay_matrix_sym _ _ _ _ _ _ _ HG)|exact (bay_psd V B p0 n HS B' K HK)|intro z; exact (bay_moving B' K z HK)| |exact HX].
  intros z d Hz. apply NNPP in Hz. exact (still_geo z Hz B2 G d HG).
Qed.
Theorem bay_first_frequency B' K B2 M : heavy B -> bay_kC V B = (B', Ok K) -> bay_kM V B = (B2, Ok M) -> (exists x, 0 < quad N M x) -> exists l z, first_frequency (bay_displaced B) N K M l z.
Proof using HB.
  intros HV HK HM HX. apply first_frequency_of; [exact (bay_sym V B B' K HK)|exact (bay_matrix_sym _ _ _ _ _ _ _ HM)|exact (bay_psd V B p0 n HS B' K HK)|exact (bay_mass_psd V B p0 n HS HV B2 M HM)|intro z; exact (bay_moving B' K z HK)| |exact HX].
  intros z d Hz. apply NNPP in Hz. exact (still_mass z Hz B2 M d HV HM).
Qed.

(* ------------------------------------------------- compression *)
Lemma own_pushed o p c W Nxx Nyy : elastic E p -> (sh_m (pn_sh p) <= n)%nat -> (sh_n (pn_sh p) <= n)%nat -> (o + ndof (pn_sh p) <= N)%nat -> pn_N p = (Nxx, Nyy, 0) -> Nxx <= 0 -> Nyy <= 0 ->
  own_work (alone_kG E None) N o p c c W -> W <= 0 /\
  (Nxx < 0 -> 0 < sh_a (pn_sh p) * sh_b (pn_sh p) -> forall xi eta, -1 <= xi <= 1 -> -1 <= eta <= 1 -> d_wx exact_basis (kernel_view p) (own o c) xi eta <> 0 -> W < 0).
Proof using HB.
  intros (E1 & E2 & E3 & E4 & E5) Hm Hn Ho HN Hx Hy (K & (p' & HR) & ->).
  pose proof (calc_kG_analytic _ _ _ _ _ HR eq_refl eq_refl) as HA. rewrite HN in HA. destruct HA as (kG & HK & _ & HkG). cbn [ka_fin finalized ka_row0 ka_col0] in *. subst K kG.
  pose proof (fkG0_energy _ _ exact_basis _ Nxx Nyy 0 o N c c E2 (part_tables p Hm Hn) Ho) as HI.
  set (I := bilinear _ _ _ _) in *. set (s := kernel_view p) in *.
  assert (HI' : panel_integral s (fun u v => - membrane_work exact_basis s Nxx Nyy 0 (own o c) (own o c) u v) (- I)).
  { replace (- I) with (-1 * I) by ring. unfold panel_integral in *. eapply sqi_ext; [|apply (sqi_scal (-1)); exact HI]. intros; cbv beta. ring. }
  assert (Hp : forall u v, 0 <= - membrane_work exact_basis s Nxx Nyy 0 (own o c) (own o c) u v).
  { intros u v. unfold membrane_work. pose proof (Rle_0_sqr (d_wx exact_basis s (own o c) u v)) as S1. pose proof (Rle_0_sqr (d_wy exact_basis s (own o c) u v)) as S2. unfold Rsqr in *. nra. }
  pose proof (panel_integral_ge0 s _ _ E5 Hp HI') as H0. split; [lra|]. intros Hx' Hab xi eta Hxi Heta Hd. assert (Hab' : 0 < sh_a s * sh_b s) by exact Hab.
  destruct (Req_dec I 0) as [HZ|HZ]; [exfalso|lra]. rewrite HZ, Ropp_0 in HI'.
  assert (HQ' : 0 < sh_a s / 2 * (sh_b s / 2)) by nra.
  assert (HF := zero_square _ xi eta HI'). cbv beta in HF.
  assert (HE : sh_a s / 2 * (sh_b s / 2) * - membrane_work exact_basis s Nxx Nyy 0 (own o c) (own o c) xi eta = 0).
  { apply HF; [|exact Hxi|exact Heta|].
    - intros u v. apply Rmult_le_pos; [lra|apply Hp].
    - assert (Hm' : (sh_m s <= 30)%nat) by exact (le30 _ Hm). assert (Hn' : (sh_n s <= 30)%nat) by exact (le30 _ Hn). apply continuity_2d_pt_mult; [apply continuity_2d_pt_const|]. unfold membrane_work, d_wx, d_wy.
      apply continuity_2d_pt_opp. repeat first [apply continuity_2d_pt_plus|apply continuity_2d_pt_mult|apply continuity_2d_pt_const|apply cont_fld_exact; assumption]. }
  apply Rmult_integral in HE. destruct HE as [HE|HE]; [lra|]. revert HE. unfold membrane_work.
  assert (S1 : 0 < d_wx exact_basis s (own o c) xi eta * d_wx exact_basis s (own o c) xi eta) by nra. pose proof (Rle_0_sqr (d_wy exact_basis s (own o c) xi eta)) as S2. unfold Rsqr in *. nra.
Qed.
Lemma line_pushed ys Fx c W : Fx <= 0 -> Spec_Stiff.line_work (by_sh B) ys (flange_force_work exact_basis (by_sh B) Fx c c) W -> W <= 0.
Proof using HB.
  intros HF HW. unfold Spec_Stiff.line_work in HW. assert (H : 0 <= - W); [|lra].
  refine (rint_nonneg _ _ _ (sb_a _ _ _ _ HS) (is_RInt_opp _ _ _ _ HW) _). intro x. unfold opp; cbn. unfold flange_force_work. set (g := d_wx _ _ _ _ _). pose proof (Rle_0_sqr g). unfold Rsqr in *. nra.
Qed.
Lemma total_le Ws : (forall W, In W Ws -> W <= 0) -> total_work Ws <= 0.
Proof using. induction Ws as [|W Ws IH]; intro H; unfold total_work, suml in *; cbn [map fold_right]; [lra|]. pose proof (H W (or_introl eq_refl)). pose proof (IH (fun W' HW => H W' (or_intror HW))). lra. Qed.
Lemma total_lt Ws U : (forall W, In W Ws -> W <= 0) -> In U Ws -> U < 0 -> total_work Ws < 0.
Proof using.
  induction Ws as [|W Ws IH]; intros H HU Hn; [destruct HU|]. pose proof (total_le Ws (fun W' HW => H W' (or_intror HW))) as HL. pose proof (H W (or_introl eq_refl)) as HW.
  unfold total_work, suml in *; cbn [map fold_right]. destruct HU as [->|HU]; [lra|]. pose proof (IH (fun W' HW' => H W' (or_intror HW')) HU Hn). lra.
Qed.
Lemma F2_in {A} (P : A -> R -> Prop) l Ws : Forall2 P l Ws -> (forall W, In W Ws -> exists x, In x l /\ P x W) /\ forall x, In x l -> exists W, In W Ws /\ P x W.
Proof using.
  intro H. induction H as [|x W l Ws Hx _ [I1 I2]]; [split; intros ? []|]. split.
  - intros W' [<-|HW]; [exists x; split; [left; reflexivity|exact Hx]|]. destruct (I1 W' HW) as (y & Hy & HP). exists y. split; [right; exact Hy|exact HP].
  - intros y [<-|Hy]; [exists W; split; [left; reflexivity|exact Hx]|]. destruct (I2 y Hy) as (W' & HW & HP). exists W'. split; [right; exact HW|exact HP].
Qed.
Lemma pushed_works B2 G c xi eta : pushed B -> bay_kG V None B = (B2, Ok G) -> -1 <= xi <= 1 -> -1 <= eta <= 1 -> d_wx exact_basis (by_sh B) c xi eta <> 0 -> quad N G c < 0.
Proof using HB.
  intros [Q1 Q2 Q3 (p & Nxx & Nyy & Q4 & Q5 & Q6)] HK Hxi Heta Hd.
  destruct (kG_is_work V B n (sb_built _ _ _ _ HS)) with (c := c) (d := c) (cc := @None carg) (B' := B2) (K := G) as (_ & Ws & W1s & W2s & F0 & F1 & (L2 & F2) & HQ).
  { rewrite (sb_basis _ _ _ _ HS). exact (sb_tables _ _ _ _ HS). } { exact (sb_terms _ _ _ _ HS). } { exact (bay_lengths_ok V B p0 n HS). } { exact HK. }
  unfold quad. rewrite HQ.
  assert (T1 : total_work W1s <= 0).
  { apply total_le. intros W HW. destruct (proj1 (F2_in _ _ _ F1) W HW) as (s & Hs & HP). unfold stiff1_geo in HP. destruct (s1_fdef s); [|lra].
    rewrite (sb_basis _ _ _ _ HS) in HP. exact (line_pushed _ _ c W (Q2 s Hs) HP). }
  assert (T2 : total_work W2s <= 0).
  { apply total_le. intros W HW. destruct (In_nth_error _ _ HW) as [j Hj]. destruct (nth_error (by_s2 B) j) as [s|] eqn:Es.
    - pose proof (F2 j s W Es Hj) as HP. unfold stiff2_geo in HP. destruct (s2_flange s) as [q|] eqn:Eq; [|lra]. destruct (Q3 s q (nth_error_In _ _ Es) Eq) as (Nx & Ny & R1 & R2 & R3).
      pose proof (nth_error_In _ _ Es) as Hs. destruct (sb_terms _ _ _ _ HS) as (_ & _ & T3). destruct (T3 s q Hs Eq) as (T4 & T5). destruct (slice_fits _ _ _ Es) as [G1 G2]. unfold flange_dim in G2. rewrite Eq in G2.
      refine (proj1 (own_pushed _ q c W Nx Ny (proj1 (sb_flanges _ _ _ _ HS s q Hs Eq)) T4 T5 _ R1 R2 R3 HP)). unfold ndof; lia.
    - apply nth_error_None in Es. assert (j < length W2s)%nat by (apply nth_error_Some; congruence). lia. }
  assert (T0 : total_work Ws < 0); [|lra].
  destruct (proj2 (F2_in _ _ _ F0) p Q4) as (U & HU & HP).
  apply (total_lt Ws U); [|exact HU|].
  - intros W HW. destruct (proj1 (F2_in _ _ _ F0) W HW) as (q & Hq & HP'). destruct (Q1 q Hq) as (Nx & Ny & R1 & R2 & R3). destruct (panel_fits V B p0 n HS q Hq) as (A1 & A2 & A3).
    exact (proj1 (own_pushed 0 q c W Nx Ny (proj1 (sb_panels _ _ _ _ HS q Hq)) A1 A2 A3 R1 R2 R3 HP')).
  - destruct (Q1 p Q4) as (Nx & Ny & R1 & R2 & R3). rewrite Q5 in R1. injection R1 as <- <-. destruct (panel_fits V B p0 n HS p Q4) as (A1 & A2 & A3). destruct (sb_panels _ _ _ _ HS p Q4) as [HE HV]. pose proof HV as (Va & Vb & _).
    refine (proj2 (own_pushed 0 p c U Nxx Nyy HE A1 A2 A3 Q5 R2 R3 HP) Q6 _ xi eta Hxi Heta _).
    + rewrite Va, Vb. apply Rmult_lt_0_compat; [exact (sb_a _ _ _ _ HS)|exact (sb_b _ _ _ _ HS)].
    + unfold d_wx in *. change (2 / sh_a (pn_sh p) * fld exact_basis (pn_sh p) c 2 1 0 xi eta <> 0). rewrite Va, (same_fld exact_basis _ _ c _ _ _ _ _ HV). exact Hd.
Qed.

(* ------------------------------------------------- mass *)
Lemma weight_pos o p x W : elastic E p -> (sh_m (pn_sh p) <= n)%nat -> (sh_n (pn_sh p) <= n)%nat -> (o + ndof (pn_sh p) <= N)%nat -> 0 < sh_a (pn_sh p) * sh_b (pn_sh p) ->
  0 < pn_rho p * suml (rebuilt_plyts p) (fun t => t) -> ~ motionless (pn_sh p) (own o x) -> own_work (alone_kM E) N o p x x W -> 0 < W.
Proof using HB.
  intros (E1 & E2 & E3 & E4 & E5) Hm0 Hn0 Ho Hab Hr0 Hd (K & (p1 & p' & HR & HK) & ->).
  destruct (rebuild_inv _ _ _ _ HR) as (HI0 & Hr1 & Hmm & _ & _ & _ & _ & _ & HPl & _ & _ & _ & Hbe & Hga & _). destruct HI0.
  rewrite (calc_kM_analytic _ _ _ _ _ _ _ _ _ _ HK). cbn [finalized].
  assert (HC : chosen_model p1 = chosen_model p) by (unfold chosen_model at 1; rewrite Hmm; reflexivity).
  assert (HV : kernel_view p1 = kernel_view p) by (unfold kernel_view; rewrite Hr1, Hbe, Hga, si_sh; reflexivity).
  rewrite HC, HV. pose proof (fkM_energy (chosen_model p) (e_tables E) exact_basis (kernel_view p) (pn_rho p1) (fold_left Rplus (pn_plyts p1) 0) (pn_offset p1) o N x x E2 (part_tables p Hm0 Hn0) Ho) as HI.
  set (I := bilinear _ _ _ _) in *. set (s := kernel_view p) in *. 
  assert (Hr : 0 < pn_rho p1 * fold_left Rplus (pn_plyts p1) 0). { rewrite si_rho, HPl. change (fold_left Rplus (rebuilt_plyts p) 0) with (total (rebuilt_plyts p)). rewrite total_suml. exact Hr0. }
  set (h := fold_left Rplus (pn_plyts p1) 0) in *. set (rho := pn_rho p1) in *. set (off := pn_offset p1) in *.
  assert (Hm : (sh_m s <= 30)%nat) by exact (le30 _ Hm0). assert (Hn : (sh_n s <= 30)%nat) by exact (le30 _ Hn0).
  assert (Hab' : 0 < sh_a s * sh_b s) by exact Hab.
  pose proof (panel_integral_ge0 s _ _ (Rlt_le _ _ Hab') (fun a b => kinetic_ge0 exact_basis s h rho off (own o x) a b (Rlt_le _ _ Hr)) HI) as H0.
  destruct (Req_dec I 0) as [HZ|HZ]; [exfalso|lra]. rewrite HZ in HI. apply Hd. intros xi eta Hxi Heta.
  change (d_u exact_basis s (own o x) xi eta = 0 /\ d_v exact_basis s (own o x) xi eta = 0 /\ d_w exact_basis s (own o x) xi eta = 0).
  assert (HQ' : 0 < sh_a s / 2 * (sh_b s / 2)) by nra.
  assert (HF := zero_square _ xi eta HI). cbv beta in HF.
  assert (HE : sh_a s / 2 * (sh_b s / 2) * kinetic exact_basis s twelfth h rho off (own o x) (own o x) xi eta = 0).
  { apply HF; [|exact Hxi|exact Heta|].
    - intros u v. apply Rmult_le_pos; [lra|apply kinetic_ge0; lra].
    - apply continuity_2d_pt_mult; [apply continuity_2d_pt_const|]. unfold kinetic, d_u, d_v, d_w, d_wx, d_wy.
      repeat first [apply continuity_2d_pt_plus|apply continuity_2d_pt_mult|apply continuity_2d_pt_const|apply cont_fld_exact; assumption]. }
  apply Rmult_integral in HE. destruct HE as [HE|HE]; [lra|]. unfold kinetic in HE. cbv zeta in HE.
  set (u := d_u exact_basis s (own o x) xi eta) in *. set (v := d_v exact_basis s (own o x) xi eta) in *. set (w := d_w exact_basis s (own o x) xi eta) in *.
  set (wx := d_wx exact_basis s (own o x) xi eta) in *. set (wy := d_wy exact_basis s (own o x) xi eta) in *.
  assert (Hh : 0 < h * h) by (assert (h <> 0) by (intros ->; lra); nra).
  assert (Ht : 0 < h * h * twelfth) by (unfold twelfth; nra).
  assert (HA : (u + off * wx) * (u + off * wx) + (v + off * wy) * (v + off * wy) + w * w + h * h * twelfth * (wx * wx + wy * wy) = 0).
  { apply (Rmult_eq_reg_l (rho * h)); [|lra]. rewrite Rmult_0_r, <- HE. ring. }
  assert (Sq : forall a, 0 <= a * a) by (intro; nra).
  pose proof (Sq (u + off * wx)). pose proof (Sq (v + off * wy)). pose proof (Sq w). pose proof (Sq wx). pose proof (Sq wy).
  assert (P : 0 <= h * h * twelfth * (wx * wx + wy * wy)) by (apply Rmult_le_pos; lra).
  assert (Z0 : forall a, a * a = 0 -> a = 0) by (intros a Ha; apply Rmult_integral in Ha; tauto).
  assert (P0 : h * h * twelfth * (wx * wx + wy * wy) = 0) by lra. apply Rmult_integral in P0. destruct P0 as [P0|P0]; [lra|].
  assert (X : wx = 0) by (apply Z0; lra). assert (Y : wy = 0) by (apply Z0; lra). assert (W : w = 0) by (apply Z0; lra).
  assert (Uz : u + off * wx = 0) by (apply Z0; lra). assert (Vz : v + off * wy = 0) by (apply Z0; lra). rewrite X in Uz. rewrite Y in Vz. repeat split; lra.
Qed.
Lemma mass_pos B2 M p x : heavy B -> bay_kM V B = (B2, Ok M) -> In p (by_panels B) -> 0 < pn_rho p * suml (rebuilt_plyts p) (fun t => t) -> ~ motionless (by_sh B) x -> 0 < quad N M x.
Proof using HB.
  intros HV HM Hp Hr Hx. pose proof (bay_mass_psd V B p0 n HS HV B2 M HM x) as H0. destruct (Req_dec (quad N M x) 0) as [HZ|HZ]; [exfalso|lra].
  destruct (kM_is_work V B n (sb_built _ _ _ _ HS)) with (c := x) (d := x) (B' := B2) (K := M) as (_ & Ws & W1s & W2s & F0 & F1 & (L2 & F2) & HQ).
  { rewrite (sb_basis _ _ _ _ HS). exact (sb_tables _ _ _ _ HS). } { exact (sb_terms _ _ _ _ HS). } { exact (bay_lengths_ok V B p0 n HS). } { exact HM. }
  { intros s q Hs [Hq|Hq]; [exact (proj1 (proj2 (sb_pads2 _ _ _ _ HS s q Hs Hq)))|exact (proj1 (proj2 (proj1 (sb_flanges _ _ _ _ HS s q Hs Hq))))]. }
  destruct (works_sum _ _ _ (fun q W Hq HW => skin_mass V B p0 n HS HV q x W Hq HW) F0) as [P0 P1].
  rewrite (hv_s1 _ HV) in F1. inversion F1; subst.
  destruct (slices_sum (fun _ _ => True) _ W2s L2) as [P2 _].
  { intros j W HW. destruct (nth_error (by_s2 B) j) as [s|] eqn:Es.
    - destruct (F2 j s W Es HW) as (Wb & Wq & Hb & Hq & ->). pose proof (nth_error_In _ _ Es) as Hs.
      assert (0 <= Wb) by (destruct (s2_base s) as [b|] eqn:Eb; [|lra]; exact (part_mass V 0 b x Wb (sb_pads2 _ _ _ _ HS s b Hs Eb) (hv_s2 _ HV s b Hs (or_introl Eb)) Hb)).
      assert (0 <= Wq) by (destruct (s2_flange s) as [q|] eqn:Eq; [|lra]; exact (part_mass V _ q x Wq (proj1 (sb_flanges _ _ _ _ HS s q Hs Eq)) (hv_s2 _ HV s q Hs (or_intror Eq)) Hq)).
      lra.
    - apply nth_error_None in Es. assert (j < length W2s)%nat by (apply nth_error_Some; congruence). lia. }
  unfold quad in HZ. rewrite HQ in HZ. assert (Z0 : total_work Ws = 0) by (unfold total_work, suml in *; cbn [map fold_right] in *; lra).
  pose proof (P1 Z0 p Hp) as HW. destruct (panel_fits V B p0 n HS p Hp) as (A1 & A2 & A3). destruct (sb_panels _ _ _ _ HS p Hp) as [HE HVs]. pose proof HVs as (Va & Vb & _).
  assert (0 < 0); [|lra]. refine (weight_pos 0 p x 0 HE A1 A2 A3 _ Hr _ HW).
  - rewrite Va, Vb. apply Rmult_lt_0_compat; [exact (sb_a _ _ _ _ HS)|exact (sb_b _ _ _ _ HS)].
  - intro HC. apply Hx. apply (same_still (by_sh B) (pn_sh p)); [|exact HC]. destruct HVs as (V1 & V2 & V3 & V4 & V5 & V6 & V7 & V8 & V9 & V10). repeat split; symmetry; assumption.
Qed.
End Bay.

(* ------------------------------------------------- the bubble on the skin *)
Lemma skin_bubble s pp qq xi eta : (5 <= sh_m s)%nat -> (5 <= sh_n s)%nat ->
  fld exact_basis s (bubble (sh_m s) 0) 2 pp qq xi eta = shape exact_basis pp 4 xi (xedge s 2) * shape exact_basis qq 4 eta (yedge s 2).
Proof. intros Hm Hn. exact (bubble_fld s 0 pp qq xi eta Hm Hn). Qed.
Lemma skin_slope s : (5 <= sh_m s)%nat -> (5 <= sh_n s)%nat -> sh_a s <> 0 -> d_wx exact_basis s (bubble (sh_m s) 0) (1/2) 0 <> 0.
Proof.
  intros Hm Hn Ha. unfold d_wx. rewrite skin_bubble by assumption.
  unfold shape, exact_basis. cbn [bf bfp bfpp flag]. rewrite bardell4_slope, bardell4.
  intro HC. apply Rmult_integral in HC. destruct HC as [HC|HC]; [|lra].
  assert (HX : 2 / sh_a s * sh_a s = 2) by (field; exact Ha). rewrite HC in HX. lra.
Qed.
Lemma skin_moves s : (5 <= sh_m s)%nat -> (5 <= sh_n s)%nat -> ~ motionless s (bubble (sh_m s) 0).
Proof.
  intros Hm Hn HC. destruct (HC 0 0 ltac:(lra) ltac:(lra)) as (_ & _ & H). revert H. unfold d_w. rewrite skin_bubble by assumption.
  unfold shape, exact_basis. cbn [bf bfp bfpp flag]. rewrite bardell4. lra.
Qed.
