(* C109: the aerodynamic matrix of a stiffened bay. *)
From Coq Require Import Reals List Arith Lia Lra.
From Verif Require Import Base_Sum Model_Types Model_Coo Model_Result Model_Num Model_DB Model_Shell Model_Bay
  Spec_Algebra Spec_Panel Spec_Shell Spec_Aero Spec_Integral Spec_Bardell Spec_Flow Spec_Bay Spec_BayWork Spec_BayAero Proof_Aero Proof_BayAero Ex_Exact Ex_Aero Ex_BayAero.
From Coq Require Import List.
Import ListNotations.
Open Scope R_scope.

(* once the size of the bay is known, calc_kA returns a matrix *)
Theorem C109_returns_partial : forall V B, built V B -> bay_ready B -> by_size B <> None -> complete_flow B -> exists B' K, bay_kA V B = (B', Ok K).
Proof. exact bay_kA_total. Qed.
Print Assumptions C109_returns_partial.

(* it is the matrix of the first panel alone, in the flow of the bay *)
Theorem C109_first_panel : forall V B B' K, built V B -> bay_kA V B = (B', Ok K) ->
  exists p l q q', by_panels B = p :: l /\ flow_over B p q /\ calc_kA (b_env V) SNone 0 0 true q = (q', Ok K).
Proof. exact bay_kA_first. Qed.
Print Assumptions C109_first_panel.

Theorem C109_skew : forall V B B' K, built V B -> bay_kA V B = (B', Ok K) -> forall i j, i <> j -> K j i = - K i j.
Proof.
  intros V B B' K HB H i j Hij. destruct (bay_kA_first _ _ _ _ HB H) as (p & l & q & q' & _ & _ & HK).
  destruct (Nat.lt_ge_cases i j) as [L|L]; [exact (kA_lower _ _ _ _ _ _ _ HK i j L)|]. rewrite (kA_lower _ _ _ _ _ _ _ HK j i) by lia. ring.
Qed.
Print Assumptions C109_skew.

(* a flat bay: the virtual work of the piston-theory pressure of the flow of the bay, when the first panel
   covers the bay and its edges across the flow are held *)
Theorem C109_work_of_the_pressure_partial : forall V B B' K p l along_x N c d,
  built V B -> by_panels B = p :: l -> pn_beta p = None -> flown_bay V B p along_x -> held_along_flow (pn_sh p) along_x ->
  by_r B = None \/ by_r B = Some 0 -> bay_kA V B = (B', Ok K) -> (ndof (pn_sh p) <= N)%nat ->
  exists rho M U, by_rho_air B = Some rho /\ by_Mach B = Some M /\ by_V B = Some U /\ 1 <= M /\
    panel_integral (pn_sh p) (pressure_work exact_basis (pn_sh p) along_x (piston_beta rho U (if Req_EM_T M 1 then 10001 / 10000 else M)) 0 (own 0 c) (own 0 d)) (bilinear N K c d).
Proof. exact bay_kA_work. Qed.
Print Assumptions C109_work_of_the_pressure_partial.

(* the parameter beta of the bay is read but not used: without a Mach number the bay has no matrix *)
Theorem C109_given_beta_refuted : forall V B p l B' K,
  built V B -> by_panels B = p :: l -> pn_beta p = None -> by_Mach B = None -> bay_kA V B <> (B', Ok K).
Proof.
  intros V B p l B' K HB HP Hb HM H. destruct (bay_kA_first _ _ _ _ HB H) as (p0 & l0 & q & q' & HP' & HO & HK). rewrite HP in HP'. injection HP' as <- <-.
  destruct (flow_over_coeffs _ _ _ _ _ _ HO Hb HK) as (rho & M & U & _ & A2 & _). congruence.
Qed.
Print Assumptions C109_given_beta_refuted.

(* and a flow assigned after the first call has no effect *)
Theorem C109_later_flow_refuted : forall V B B1 K1 rho ss M U B2 K2,
  built V B -> bay_kA V B = (B1, Ok K1) -> bay_kA V (new_flow B1 rho ss M U) = (B2, Ok K2) -> K2 = K1.
Proof. exact bay_kA_again. Qed.
Print Assumptions C109_later_flow_refuted.

Example C109_case : forall M, 1 <= M -> built wind_V (wind_bay M) /\ bay_ready (wind_bay M) /\ by_size (wind_bay M) <> None /\ complete_flow (wind_bay M) /\
  by_panels (wind_bay M) = [wind_skin] /\ pn_beta wind_skin = None /\ flown_bay wind_V (wind_bay M) wind_skin true /\ held_along_flow (pn_sh wind_skin) true /\ by_r (wind_bay M) = None.
Proof.
  intros M HM. split; [apply wind_built|]. split; [apply wind_ready|]. split; [discriminate|]. split; [apply wind_flow; exact HM|].
  split; [reflexivity|]. split; [reflexivity|]. split; [apply wind_flown|]. split; [apply (wing_held true None None None None None None)|reflexivity].
Qed.
(* the second call returns too *)
Example C109_later_flow_case : exists B1 K1 B2, bay_kA wind_V (wind_bay 2) = (B1, Ok K1) /\
  bay_kA wind_V (new_flow B1 (Some 7) (Some 300) (Some 5) (Some 1500)) = (B2, Ok K1).
Proof.
  destruct (bay_kA_total wind_V (wind_bay 2) (wind_built 2) (wind_ready 2)) as (B1 & K1 & H1); [discriminate|apply wind_flow; lra|].
  destruct (ready_again _ _ _ _ wind_skin (Some 7) (Some 300) (Some 5) (Some 1500) (wind_ready 2) eq_refl eq_refl eq_refl H1) as [HR HS].
  destruct (bay_kA_runs wind_V (new_flow B1 (Some 7) (Some 300) (Some 5) (Some 1500))) as (B2 & K2 & H2).
  - apply good_new_flow. pose proof (built_kA wind_V _ (wind_built 2)) as HB. rewrite H1 in HB. exact (Proof_BayMade.built_good _ _ HB).
  - exact HR.
  - exact HS.
  - unfold complete_flow. cbn. destruct (bay_kA_step _ _ _ _ (Proof_BayMade.built_good _ _ (wind_built 2)) H1) as (_ & _ & _ & _ & _ & _ & _ & _ & _ & _ & _ & HF & _). rewrite HF.
    do 4 (split; [discriminate|]). exists 5. split; [reflexivity|lra].
  - exists B1, K1, B2. split; [exact H1|]. rewrite H2. f_equal. f_equal. exact (bay_kA_again _ _ _ _ _ _ _ _ _ _ (wind_built 2) H1 H2).
Qed.
