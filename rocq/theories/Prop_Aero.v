(* Properties of the aerodynamic matrices. *)
From Coq Require Import Reals List Arith Bool Lia Lra.
From Coquelicot Require Import Coquelicot.
From Verif Require Import Base_Sum Model_Types Model_Coo Model_Result Model_Num Model_DB Model_Shell
  Spec_Algebra Spec_Kinematics Spec_Quadrature Spec_Panel Spec_Shell Spec_Bardell Spec_Integral Spec_Aero Spec_Flow
  Proof_Aero Ex_Panel Ex_Exact Ex_Aero.
Import ListNotations.
Open Scope R_scope.

Lemma flown_rule E p fx : flown E p fx -> aero_rule E p.
Proof. unfold flown, aero_rule. tauto. Qed.
Lemma wing_flown fx xw r be ga rho M V : flown exact_env (wing fx xw r be ga rho M V) fx.
Proof.
  destruct (wing_rule fx xw r be ga rho M V) as (A & B & C & D).
  split; [reflexivity|]. split; [reflexivity|]. split; [cbn; lra|]. split; [cbn; lra|]. split; [cbn; lia|]. split; [cbn; lia|].
  split; [apply wing_whole|]. auto.
Qed.

(* C26, without curvature correction: c'.kA.d is the work of the pressure beta*slope on the field c,
   for every pair of vectors, when the deflection is held at both ends along the flow.
   Missing: gamma <> 0 and free ends, where the property is false (below). *)
Theorem C26_work_of_the_pressure_partial : forall E p along_x sz o p' K be N c d,
  flown E p along_x -> held_along_flow (pn_sh p) along_x ->
  calc_kA E sz o o true p = (p', Ok K) -> pn_beta p' = Some be -> pn_gamma p' = Some 0 ->
  (o + ndof (pn_sh p) <= N)%nat ->
  panel_integral (pn_sh p) (pressure_work exact_basis (pn_sh p) along_x be 0 (own o c) (own o d)) (bilinear N K c d).
Proof.
  intros E p fx sz o p' K be N c d HF. pose proof (flown_rule _ _ _ HF) as HQ. destruct HF as (A & B & C & D & M1 & M2 & W & _).
  exact (kA_work E p fx A B C D M1 M2 W HQ sz o p' K be N c d).
Qed.
Print Assumptions C26_work_of_the_pressure_partial.

(* the entries on and above the diagonal are right with gamma as well (flow along x), finalized or not *)
Theorem C26_upper_entries_partial : forall E p along_x sz o fin p' K be ga,
  flown E p along_x -> held_along_flow (pn_sh p) along_x ->
  calc_kA E sz o o fin p = (p', Ok K) -> pn_beta p' = Some be -> pn_gamma p' = Some ga -> along_x = true \/ ga = 0 ->
  forall r t, (r <= t)%nat ->
  panel_integral (pn_sh p) (pressure_work exact_basis (pn_sh p) along_x be ga (own o (unitv r)) (own o (unitv t))) (K r t).
Proof.
  intros E p fx sz o fin p' K be ga HF. pose proof (flown_rule _ _ _ HF) as HQ. destruct HF as (A & B & C & D & M1 & M2 & W & _).
  exact (kA_upper E p fx A B C D M1 M2 W HQ sz o fin p' K be ga).
Qed.
Print Assumptions C26_upper_entries_partial.

Example C26_hypotheses_met : forall fx, exists p' K,
  calc_kA exact_env (SStr 5) 2 2 true (wing fx ss None None None (Some 1) (Some 2) (Some 3)) = (p', Ok K) /\
  flown exact_env (wing fx ss None None None (Some 1) (Some 2) (Some 3)) fx /\
  held_along_flow (pn_sh (wing fx ss None None None (Some 1) (Some 2) (Some 3))) fx /\
  pn_beta p' = Some (piston_beta 1 3 2) /\ pn_gamma p' = Some 0 /\
  (fx = true -> K 19%nat 25%nat <> 0).
Proof.
  intro fx. destruct (wing_runs fx ss None None None (Some 1) (Some 2) (Some 3) true) as (p' & K & H).
  { right. exists 2, 1, 3. repeat split; lra. }
  exists p', K. destruct (wing_flow _ _ _ _ _ _ _ _ _ (ltac:(lra) : 1 < 2) H) as [Hb Hg].
  assert (Hg0 : pn_gamma p' = Some 0).
  { rewrite Hg. unfold piston_gamma, radius_of. cbn [wing pn_r]. destruct (Req_EM_T 0 0) as [_|F]; [reflexivity|exfalso; apply F; reflexivity]. }
  split; [exact H|]. split; [apply wing_flown|]. split; [apply wing_held|]. split; [exact Hb|]. split; [exact Hg0|].
  intros ->. rewrite (wing_upper _ _ _ _ _ _ _ _ _ _ _ _ H Hb Hg0) by lia. rewrite full_19_25, Vn_held.
  unfold piston_beta. replace (2 ^ 2 - 1) with 3 by ring. pose proof (sqrt_lt_R0 3 ltac:(lra)) as S.
  pose proof (Rdiv_lt_0_compat (1 * 3 ^ 2) (sqrt 3) ltac:(lra) S). lra.
Qed.

(* with a curvature term the matrix is wrong: the entries below the diagonal have the opposite sign *)
Theorem C26_refuted : exists E p along_x sz o p' K be ga c d,
  flown E p along_x /\ held_along_flow (pn_sh p) along_x /\
  calc_kA E sz o o true p = (p', Ok K) /\ pn_beta p' = Some be /\ pn_gamma p' = Some ga /\
  ~ panel_integral (pn_sh p) (pressure_work exact_basis (pn_sh p) along_x be ga (own o c) (own o d))
      (bilinear (o + ndof (pn_sh p)) K c d).
Proof.
  destruct (wing_runs true ss None (Some 0) (Some 1) None None None true) as (p' & K & H); [left; discriminate|].
  exists exact_env, (wing true ss None (Some 0) (Some 1) None None None), true, (SStr 5), 2%nat, p', K, 0, 1, (unitv 25), (unitv 19).
  destruct (wing_coeffs _ _ _ _ _ _ _ _ _ _ _ H) as [Hb Hg].
  split; [apply wing_flown|]. split; [apply wing_held|]. split; [exact H|]. split; [exact Hb|]. split; [exact Hg|].
  rewrite bilinear_unit by (cbn; lia). rewrite (kA_lower _ _ _ _ _ _ _ H 19 25) by lia.
  rewrite (wing_upper _ _ _ _ _ _ _ _ _ _ _ _ H Hb Hg) by lia. rewrite full_19_25, Vn_held. intro A.
  pose proof (wing_true _ _ _ _ _ _ _ _ _ _ _ _ H Hb Hg 25 19 ltac:(lia) ltac:(lia)) as B.
  pose proof (sqi_unique _ _ _ A B) as F. rewrite full_25_19, Vp_gamma in F. lra.
Qed.
Print Assumptions C26_refuted.

(* with ends free to deflect along the flow it is wrong without a curvature term too *)
Theorem C26_free_ends_refuted : exists E p along_x sz o p' K be c d,
  flown E p along_x /\
  calc_kA E sz o o true p = (p', Ok K) /\ pn_beta p' = Some be /\ pn_gamma p' = Some 0 /\
  ~ panel_integral (pn_sh p) (pressure_work exact_basis (pn_sh p) along_x be 0 (own o c) (own o d))
      (bilinear (o + ndof (pn_sh p)) K c d).
Proof.
  destruct (wing_runs true free None (Some 1) (Some 0) None None None true) as (p' & K & H); [left; discriminate|].
  exists exact_env, (wing true free None (Some 1) (Some 0) None None None), true, (SStr 5), 2%nat, p', K, 1, (unitv 16), (unitv 40).
  destruct (wing_coeffs _ _ _ _ _ _ _ _ _ _ _ H) as [Hb Hg].
  split; [apply wing_flown|]. split; [exact H|]. split; [exact Hb|]. split; [exact Hg|].
  rewrite bilinear_unit by (cbn; lia).
  rewrite (wing_upper _ _ _ _ _ _ _ _ _ _ _ _ H Hb Hg) by lia. rewrite full_16_40, Vn_free. intro A.
  pose proof (wing_true _ _ _ _ _ _ _ _ _ _ _ _ H Hb Hg 16 40 ltac:(lia) ltac:(lia)) as B.
  pose proof (sqi_unique _ _ _ A B) as F. rewrite full_16_40, Vp_free in F. lra.
Qed.
Print Assumptions C26_free_ends_refuted.

(* ------------------------------------------------- C27 *)
(* the first call uses the stored flow (Mach 1 is read as 1.0001) *)
Theorem C27_first_call_partial : forall E sz row0 col0 fin p p' K,
  calc_kA E sz row0 col0 fin p = (p', Ok K) -> pn_beta p = None ->
  exists rho M V, pn_rho_air p = Some rho /\ pn_Mach p = Some M /\ pn_V p = Some V /\ 1 <= M /\
    let M' := if Req_EM_T M 1 then 10001 / 10000 else M in
    pn_beta p' = Some (piston_beta rho V M') /\
    pn_gamma p' = Some (piston_gamma rho V M' (match pn_r p with Some r => r | None => 0 end)).
Proof.
  intros E sz row0 col0 fin p p' K H Hn. destruct (calc_kA_inv _ _ _ _ _ _ _ _ H) as (mdl & be & ga & kA & fx' & _ & HC & Hbe & Hga & _).
  destruct HC as [[E1 _]|(_ & M & rho & V & E1 & HM & E2 & E3 & Eb & Eg)]; [rewrite Hn in E1; discriminate|].
  exists rho, M, V. split; [exact E2|]. split; [exact E1|]. split; [exact E3|]. split; [exact HM|].
  cbv zeta. split; [rewrite Hbe, Eb; reflexivity|rewrite Hga, Eg; reflexivity].
Qed.
Print Assumptions C27_first_call_partial.

(* no flow, or a subsonic one, is refused *)
Theorem C27_unknown_flow_is_refused : forall E sz row0 col0 fin p p' K,
  pn_beta p = None -> (forall M, pn_Mach p = Some M -> M < 1) -> calc_kA E sz row0 col0 fin p <> (p', Ok K).
Proof.
  intros E sz row0 col0 fin p p' K Hn HM H. destruct (C27_first_call_partial _ _ _ _ _ _ _ _ H Hn) as (rho & M & V & _ & E1 & _ & H1 & _).
  specialize (HM M E1). lra.
Qed.
Print Assumptions C27_unknown_flow_is_refused.

(* what happens instead: once a matrix has been computed, the flow on the panel is ignored *)
Theorem C27_later_flow_is_ignored : forall E sz row0 col0 fin p p1 K1 rho M V p2 K2,
  calc_kA E sz row0 col0 fin p = (p1, Ok K1) ->
  calc_kA E sz row0 col0 fin (in_flow p1 rho M V) = (p2, Ok K2) ->
  K2 = K1.
Proof.
  intros E sz row0 col0 fin p p1 K1 rho M V p2 K2 H1 H2.
  destruct (calc_kA_inv _ _ _ _ _ _ _ _ H1) as (mdl & be & ga & kA & fx & Hm & _ & Hb & Hg & Hs & Hr & Hf & HkA & HK & _ & Hx & Hy & Hmm & Hff).
  destruct (calc_kA_inv _ _ _ _ _ _ _ _ H2) as (mdl' & be' & ga' & kA' & fx' & Hm' & HC & Hb' & Hg' & Hs' & Hr' & Hf' & HkA' & HK' & _).
  cbn [in_flow pn_model pn_beta pn_gamma pn_sh pn_flow_x pn_nx pn_ny] in Hm', HC, Hs', Hf', HkA'.
  rewrite Hmm, Hm in Hm'. injection Hm' as <-. rewrite Hff, Hf in Hf'. injection Hf' as <-.
  rewrite Hb in HC. destruct HC as [[EB EG]|[EB _]]; [|discriminate]. injection EB as <-. rewrite Hg in EG. subst ga'.
  assert (HR : radius_of (in_flow p1 rho M V) = radius_of p).
  { unfold radius_of at 1. cbn [in_flow pn_r]. rewrite Hr. reflexivity. }
  assert (HV : kernel_view p2 = kernel_view p1).
  { unfold kernel_view. rewrite Hs', Hb', Hg', Hr', HR, Hs, Hb, Hg, Hr. reflexivity. }
  rewrite HK', HK, HkA', HkA, HV, Hx, Hy. reflexivity.
Qed.
Print Assumptions C27_later_flow_is_ignored.

Theorem C27_refuted : exists E sz o p p1 K1 rho M V p2 K2 q K,
  calc_kA E sz o o true p = (p1, Ok K1) /\
  calc_kA E sz o o true (in_flow p1 rho M V) = (p2, Ok K2) /\
  calc_kA E sz o o true (in_flow p rho M V) = (q, Ok K) /\
  K2 <> K.
Proof.
  destruct (wing_runs true ss None None None (Some 1) (Some 2) (Some 3) true) as (p1 & K1 & H1).
  { right. exists 2, 1, 3. repeat split; lra. }
  destruct (wing_runs true ss None None None (Some 1) (Some 2) (Some 6) true) as (q & K & H3).
  { right. exists 2, 1, 6. repeat split; lra. }
  assert (H2 : exists p2 K2, calc_kA exact_env (SStr 5) 2 2 true (in_flow p1 1 2 6) = (p2, Ok K2)).
  { destruct (calc_kA_inv _ _ _ _ _ _ _ _ H1) as (mdl & be & ga & kA & fx & Hm & _ & Hb & Hg & Hs & Hr & Hf & HkA & HK & _ & Hx & Hy & Hmm & Hff).
    eapply calc_kA_ok.
    - cbn [in_flow pn_model]. rewrite Hmm. exact Hm.
    - cbn [in_flow pn_flow_x]. rewrite Hff. exact Hf.
    - left. cbn [in_flow pn_beta]. rewrite Hb. discriminate.
    - cbn [in_flow pn_sh]. rewrite Hs. cbn. lia.
    - cbn [in_flow pn_sh]. rewrite Hs. cbn. lia. }
  destruct H2 as (p2 & K2 & H2).
  exists exact_env, (SStr 5), 2%nat, (wing true ss None None None (Some 1) (Some 2) (Some 3)), p1, K1, 1, 2, 6, p2, K2, q, K.
  split; [exact H1|]. split; [exact H2|]. split; [exact H3|].
  rewrite (C27_later_flow_is_ignored _ _ _ _ _ _ _ _ _ _ _ _ _ H1 H2). intro F.
  assert (G : K1 19%nat 25%nat = K 19%nat 25%nat) by (rewrite F; reflexivity).
  destruct (wing_flow _ _ _ _ _ _ _ _ _ (ltac:(lra) : 1 < 2) H1) as [Hb1 Hg1].
  destruct (wing_flow _ _ _ _ _ _ _ _ _ (ltac:(lra) : 1 < 2) H3) as [Hb3 Hg3].
  rewrite (wing_upper _ _ _ _ _ _ _ _ _ _ _ _ H1 Hb1 Hg1) in G by lia.
  rewrite (wing_upper _ _ _ _ _ _ _ _ _ _ _ _ H3 Hb3 Hg3) in G by lia.
  rewrite !full_19_25, !Vn_held in G. unfold piston_gamma, radius_of in G. cbn [wing pn_r] in G.
  destruct (Req_EM_T 0 0) as [_|F0]; [|apply F0; reflexivity].
  unfold piston_beta in G. replace (2 ^ 2 - 1) with 3 in G by ring. pose proof (sqrt_lt_R0 3 ltac:(lra)) as S.
  pose proof (Rdiv_lt_0_compat 1 (sqrt 3) ltac:(lra) S) as P. unfold Rdiv in *. lra.
Qed.
Print Assumptions C27_refuted.

(* ------------------------------------------------- C28 *)
(* calc_cA never returns a matrix: the function it calls is in neither compiled module *)
Theorem C28_refuted : forall E aeromu sz fin p mdl, pn_model p = Some (Known mdl) ->
  exists p', calc_cA E aeromu sz fin p = (p', Err AttributeError).
Proof.
  intros E aeromu sz fin p mdl Hm. unfold calc_cA, get_size, the_model, mbind, mget, mmod, mret, mraise.
  destruct sz; rewrite ?Hm; cbn [set_size pn_model]; rewrite ?Hm; eexists; reflexivity.
Qed.
Print Assumptions C28_refuted.
