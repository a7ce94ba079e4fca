(* A 4 x 4-term panel in a flow, integrated exactly with 7 x 7 points. *)
From Coq Require Import Reals List Arith Bool Lia Lra.
From Coquelicot Require Import Coquelicot.
From Verif Require Import Base_Sum Model_Types Model_Coo Model_Result Model_Num Model_DB Model_Shell
  Spec_Algebra Spec_Kinematics Spec_Quadrature Spec_Panel Spec_Shell Spec_Bardell Spec_Integral Spec_Aero
  Proof_Coo Proof_Num Proof_Ana Proof_AnaKer Proof_Ana3 Proof_Bardell Proof_Poly Proof_Aero Ex_Panel Ex_Exact.
Import ListNotations.
Open Scope R_scope.

Definition wing_shell (xw : edge) : shell := mkShell 2 3 0 4 4 (-1) 1 (-1) 1 0 0 free free xw free free ss.
Definition wing (fx : bool) (xw : edge) (r be ga rho M V : option R) : panel :=
  mkPanel (wing_shell xw) r (Some (Known PlateModel)) 7 7 [0; 90] (Some (1/8)) [1/8; 1/8] [1; 2; 3] [[1; 2; 3]; [1; 2; 3]] (1300) [1300; 1300] (1/10) false (Some ex_lam) None None
    (1, 2, 3) (0, 0, 0) (Some fx) be ga rho M V None None None None None.

Lemma wing_whole fx xw r be ga rho M V : whole_window (pn_sh (wing fx xw r be ga rho M V)).
Proof. unfold whole_window, xregion, yregion, interval. cbn. destruct (Req_EM_T (-1) (-1)); [|congruence]. split; reflexivity. Qed.
Lemma wing_rule fx xw r be ga rho M V : aero_rule exact_env (wing fx xw r be ga rho M V).
Proof. unfold aero_rule. cbn [wing pn_nx pn_ny pn_sh wing_shell sh_m sh_n]. repeat split; try reflexivity; apply nc7_exact. Qed.
Lemma wing_held fx r be ga rho M V : held_along_flow (pn_sh (wing fx ss r be ga rho M V)) fx.
Proof. destruct fx; split; reflexivity. Qed.

Lemma wing_runs fx xw r be ga rho M V fin : aero_known (wing fx xw r be ga rho M V) ->
  exists p' K, calc_kA exact_env (SStr 5) 2 2 fin (wing fx xw r be ga rho M V) = (p', Ok K).
Proof. intro H. eapply calc_kA_ok; try reflexivity; [exact H|cbn; lia|cbn; lia]. Qed.

Lemma sqi_unique g I J : square_integral g I -> square_integral g J -> I = J.
Proof.
  intros [_ H1] [_ H2]. rewrite <- (@is_RInt_unique R_CompleteNormedModule _ _ _ _ H1). exact (@is_RInt_unique R_CompleteNormedModule _ _ _ _ H2).
Qed.

Notation nc := (rule_1d (e_rule exact_env) 7 exact_basis).

Lemma nc_val p q i k e e' u v : (forall x, shape exact_basis p i x e = u x) -> (forall x, shape exact_basis q k x e' = v x) ->
  nc p q i k e e' = 41/420 * (u (-1) * v (-1)) + (216/420 * (u (-(2/3)) * v (-(2/3))) + (27/420 * (u (-(1/3)) * v (-(1/3))) +
    (272/420 * (u 0 * v 0) + (27/420 * (u (1/3) * v (1/3)) + (216/420 * (u (2/3) * v (2/3)) + (41/420 * (u 1 * v 1) + 0)))))).
Proof. intros Hu Hv. unfold rule_1d. cbn [exact_env e_rule Nat.eqb nc7 suml fst snd]. rewrite !Hu, !Hv. reflexivity. Qed.

Lemma f1_ss x : shape exact_basis 0 1 x ss = 1/8 - 1/8 * x - 1/8 * x^2 + 1/8 * x^3.
Proof. cbn [shape exact_basis bf flag ss e1r]. unfold bardell. ring. Qed.
Lemma f3_ss x : shape exact_basis 0 3 x ss = - 1/8 - 1/8 * x + 1/8 * x^2 + 1/8 * x^3.
Proof. cbn [shape exact_basis bf flag ss e2r]. unfold bardell. ring. Qed.
Lemma f3p_ss x : shape exact_basis 1 3 x ss = - 1/8 + 1/4 * x + 3/8 * x^2.
Proof. cbn [shape exact_basis bfp flag ss e2r]. rewrite Derive_bardell by lia. unfold qeval. cbn -[IZR]. field. Qed.
Lemma f0_free x : shape exact_basis 0 0 x free = 1/2 - 3/4 * x + 1/4 * x^3.
Proof. cbn [shape exact_basis bf flag free e1t]. unfold bardell. ring. Qed.
Lemma f0p_free x : shape exact_basis 1 0 x free = - 3/4 + 3/4 * x^2.
Proof. cbn [shape exact_basis bfp flag free e1t]. rewrite Derive_bardell by lia. unfold qeval. cbn -[IZR]. field. Qed.

Lemma nc_11 : nc 0%nat 0%nat 1%nat 1%nat ss ss = 2 / 105.
Proof. rewrite (nc_val _ _ _ _ _ _ _ _ f1_ss f1_ss). field. Qed.
Lemma nc_13 : nc 0%nat 0%nat 1%nat 3%nat ss ss = - (1 / 70).
Proof. rewrite (nc_val _ _ _ _ _ _ _ _ f1_ss f3_ss). field. Qed.
Lemma nc_13p : nc 0%nat 1%nat 1%nat 3%nat ss ss = - (1 / 60).
Proof. rewrite (nc_val _ _ _ _ _ _ _ _ f1_ss f3p_ss). field. Qed.
Lemma nc_0p0 : nc 1%nat 0%nat 0%nat 0%nat free free = - (1 / 2).
Proof. rewrite (nc_val _ _ _ _ _ _ _ _ f0p_free f0_free). field. Qed.
Lemma nc_00p : nc 0%nat 1%nat 0%nat 0%nat free free = - (1 / 2).
Proof. rewrite (nc_val _ _ _ _ _ _ _ _ f0_free f0p_free). field. Qed.

(* entries (19, 25) and (16, 40) of the computed matrices, flow along x *)
Notation full V := (fullmat 2 4 4 V).
Notation Vn xw be ga := (V_gen nc nc (wing_shell xw) (2 * 3 / 4) 2 (Mneg be ga) (opA true (wing_shell xw))).
Notation Vp xw be ga := (V_gen nc nc (wing_shell xw) (2 * 3 / 4) 2 (Mpos be ga) (opA true (wing_shell xw))).

Lemma full_19_25 V : full V 19%nat 25%nat = V 1%nat 3%nat 1%nat 1%nat 2%nat 2%nat.
Proof. reflexivity. Qed.
Lemma full_25_19 V : full V 25%nat 19%nat = V 3%nat 1%nat 1%nat 1%nat 2%nat 2%nat.
Proof. reflexivity. Qed.
Lemma full_16_40 V : full V 16%nat 40%nat = V 0%nat 0%nat 1%nat 3%nat 2%nat 2%nat.
Proof. reflexivity. Qed.

Section Entries.
Variables (xw : edge) (r be ga rho M V : option R).
Notation p := (wing true xw r be ga rho M V).
Variables (fin : bool) (p' : panel) (K : matrix) (b g : R).
Hypotheses (H : calc_kA exact_env (SStr 5) 2 2 fin p = (p', Ok K)) (Hb : pn_beta p' = Some b) (Hg : pn_gamma p' = Some g).
Lemma wing_upper r0 t : (r0 <= t)%nat -> K r0 t = full (Vn xw b g) r0 t.
Proof using All.
  intro Hrt. destruct (kA_form exact_env p true) with (sz := SStr 5) (o := 2%nat) (p' := p') (K := K) (fin := fin)
    as (b' & g' & kA & E1 & E2 & HK & HF); try reflexivity; try (cbn; lra); try (cbn; lia).
  - apply wing_whole.
  - apply wing_rule.
  - exact H.
  - rewrite Hb in E1. injection E1 as <-. rewrite Hg in E2. injection E2 as <-.
    etransitivity; [|exact (block_upper _ _ _ _ _ HF r0 t Hrt)].
    rewrite HK. destruct fin; [|reflexivity]. unfold make_skew. apply Nat.leb_le in Hrt. rewrite Hrt. reflexivity.
Qed.
Lemma wing_true r0 t : (r0 < 50)%nat -> (t < 50)%nat ->
  panel_integral (wing_shell xw) (pressure_work exact_basis (wing_shell xw) true b g (own 2 (unitv r0)) (own 2 (unitv t)))
    (full (Vp xw b g) r0 t).
Proof using All.
  intros Hr Ht.
  pose proof (full_work exact_env p true) as F. specialize (F eq_refl eq_refl).
  assert (P1 : sh_a (pn_sh p) <> 0) by (cbn; lra). assert (P2 : sh_b (pn_sh p) <> 0) by (cbn; lra).
  assert (P3 : (sh_m (pn_sh p) <= 30)%nat) by (cbn; lia). assert (P4 : (sh_n (pn_sh p) <= 30)%nat) by (cbn; lia).
  specialize (F P1 P2 P3 P4 (wing_whole _ _ _ _ _ _ _ _) (wing_rule _ _ _ _ _ _ _ _) b g 2%nat 50%nat (unitv r0) (unitv t)).
  assert (P5 : (2 + ndof (pn_sh p) <= 50)%nat) by (cbn; lia). specialize (F P5).
  rewrite bilinear_unit in F by assumption. exact F.
Qed.
End Entries.

Lemma f1p_ss x : shape exact_basis 1 1 x ss = - 1/8 - 1/4 * x + 3/8 * x^2.
Proof. cbn [shape exact_basis bfp flag ss e1r]. rewrite Derive_bardell by lia. unfold qeval. cbn -[IZR]. field. Qed.
Lemma nc_1p3 : nc 1%nat 0%nat 1%nat 3%nat ss ss = 1 / 60.
Proof. rewrite (nc_val _ _ _ _ _ _ _ _ f1p_ss f3_ss). field. Qed.
Lemma nc_31 : nc 0%nat 0%nat 3%nat 1%nat ss ss = - (1 / 70).
Proof. rewrite (nc_val _ _ _ _ _ _ _ _ f3_ss f1_ss). field. Qed.
Lemma Vn_held b g : Vn ss b g 1%nat 3%nat 1%nat 1%nat 2%nat 2%nat = - b / 2100 - g / 2450.
Proof.
  unfold V_gen. cbn [sumn opA Mneg xedge yedge wing_shell sh_xw sh_yw sh_a].
  change (sh_xw (wing_shell ss)) with ss. rewrite nc_11, nc_13, nc_1p3. field.
Qed.
Lemma Vp_gamma g : Vp ss 0 g 3%nat 1%nat 1%nat 1%nat 2%nat 2%nat = - g / 2450.
Proof.
  unfold V_gen. cbn [sumn opA Mpos xedge yedge wing_shell sh_xw sh_yw sh_a].
  change (sh_xw (wing_shell ss)) with ss. rewrite nc_11, nc_31. field.
Qed.
Lemma Vn_free b : Vn free b 0 0%nat 0%nat 1%nat 3%nat 2%nat 2%nat = - (3 / 280) * b.
Proof.
  unfold V_gen. cbn [sumn opA Mneg xedge yedge wing_shell sh_xw sh_yw sh_a].
  change (sh_xw (wing_shell free)) with free. rewrite nc_13, nc_0p0. field.
Qed.
Lemma Vp_free b : Vp free b 0 0%nat 0%nat 1%nat 3%nat 2%nat 2%nat = 3 / 280 * b.
Proof.
  unfold V_gen. cbn [sumn opA Mpos xedge yedge wing_shell sh_xw sh_yw sh_a].
  change (sh_xw (wing_shell free)) with free. rewrite nc_13, nc_00p. field.
Qed.

Lemma wing_coeffs fx xw r b g rho M V fin p' K :
  calc_kA exact_env (SStr 5) 2 2 fin (wing fx xw r (Some b) (Some g) rho M V) = (p', Ok K) -> pn_beta p' = Some b /\ pn_gamma p' = Some g.
Proof.
  intro H. destruct (calc_kA_inv _ _ _ _ _ _ _ _ H) as (mdl & be & ga & kA & fx' & _ & HC & Hbe & Hga & _).
  destruct HC as [[E1 ->]|[E1 _]]; [|discriminate]. cbn in E1. injection E1 as <-. auto.
Qed.
Lemma wing_flow fx xw r rho M V fin p' K : 1 < M ->
  calc_kA exact_env (SStr 5) 2 2 fin (wing fx xw r None None (Some rho) (Some M) (Some V)) = (p', Ok K) ->
  pn_beta p' = Some (piston_beta rho V M) /\ pn_gamma p' = Some (piston_gamma rho V M (radius_of (wing fx xw r None None (Some rho) (Some M) (Some V)))).
Proof.
  intros HM H. destruct (calc_kA_inv _ _ _ _ _ _ _ _ H) as (mdl & be & ga & kA & fx' & _ & HC & Hbe & Hga & _).
  destruct HC as [[E1 _]|(_ & M' & rho' & V' & E1 & _ & E2 & E3 & -> & ->)]; [discriminate|].
  cbn [wing pn_Mach pn_rho_air pn_V] in E1, E2, E3. injection E1 as <-. injection E2 as <-. injection E3 as <-.
  unfold used_mach in *. destruct (Req_EM_T M 1); [lra|]. auto.
Qed.
