(* C106: buckling loads and frequencies of stiffened bays are real numbers; modes of different eigenvalues are not coupled. *)
From Coq Require Import Reals List Arith Bool Lia Lra.
From Verif Require Import Base_Sum Model_Types Model_Coo Model_Result Model_Num Model_DB Model_Shell Model_Multi Model_Bay
  Spec_Algebra Spec_Kinematics Spec_Panel Spec_Shell Spec_Bardell Spec_Integral Spec_Modes Spec_Rigid Spec_Tied Spec_Pull Spec_Bay Spec_BayWork Spec_Blade Spec_BayResponse Spec_BayModes
  Proof_Modes Proof_BayResponse Proof_BayModes Ex_Bay Ex_BayResponse Ex_BayModes.
From Verif Require Prop_Stiffness.
From Coq Require Import List.
Import ListNotations.
Open Scope R_scope.

(* (K + l G) z = 0 for a complex l and constants z that displace the bay: l is real and not zero. G may be that of any load, also of
   an earlier displacement, and of any bay *)
Theorem C106_buckling : forall V B p0 n B' K cc B2 B2' G, stiff_bay V B p0 n -> anchored (skin_curve p0) (by_sh B) ->
  bay_kC V B = (B', Ok K) -> bay_kG V cc B2 = (B2', Ok G) ->
  forall lr li x y, buckling (bay_dim B) K G lr li x y -> moves B x y -> li = 0 /\ lr <> 0.
Proof.
  intros V B p0 n B' K cc B2 B2' G HS HA HK HG lr li x y Hb Hm. pose proof (moving_energy V B p0 n HS B' K x y HA HK Hm) as HE.
  apply (buckling_real (bay_dim B) K G lr li x y); [exact (bay_sym V B B' K HK)|exact (bay_matrix_sym _ _ _ _ _ _ _ HG)|exact Hb|lra].
Qed.
Print Assumptions C106_buckling.
(* K z = l M z: l, the square of the circular frequency, is real and positive, and is the ratio of the energies of the mode *)
Theorem C106_vibration : forall V B p0 n B' K B2' M, stiff_bay V B p0 n -> anchored (skin_curve p0) (by_sh B) -> heavy B ->
  bay_kC V B = (B', Ok K) -> bay_kM V B = (B2', Ok M) ->
  forall lr li x y, vibration (bay_dim B) K M lr li x y -> moves B x y ->
  li = 0 /\ 0 < lr /\ 0 < energy (bay_dim B) M x y /\ lr = energy (bay_dim B) K x y / energy (bay_dim B) M x y.
Proof.
  intros V B p0 n B' K B2' M HS HA HV HK HM lr li x y Hv Hm. pose proof (moving_energy V B p0 n HS B' K x y HA HK Hm) as HE.
  destruct (pair_energy _ K M lr li x y (bay_sym V B B' K HK) (bay_matrix_sym _ _ _ _ _ _ _ HM) Hv) as [A C].
  pose proof (energy_nonneg _ M x y (bay_mass_psd V B p0 n HS HV B2' M HM)) as EM.
  assert (PM : 0 < energy (bay_dim B) M x y).
  { destruct EM as [EM|EM]; [exact EM|]. rewrite <- EM in A. lra. }
  assert (PL : lr = energy (bay_dim B) K x y / energy (bay_dim B) M x y) by (rewrite A; field; lra).
  split; [apply Rmult_integral in C; destruct C; lra|]. split; [rewrite PL; apply Rdiv_lt_0_compat; assumption|]. split; assumption.
Qed.
Print Assumptions C106_vibration.

(* two modes of different eigenvalues: no energy of the one in the other *)
Theorem C106_bay_modes_uncoupled : forall V B B' K B2' M cc B3 B3' G, bay_kC V B = (B', Ok K) -> bay_kM V B = (B2', Ok M) -> bay_kG V cc B3 = (B3', Ok G) ->
  forall N l1 l2 x y, l1 <> l2 ->
  (real_mode N K M l1 x -> real_mode N K M l2 y -> uncoupled N K M x y) /\
  (real_buckle N K G l1 x -> real_buckle N K G l2 y -> uncoupled N K G x y).
Proof.
  intros V B B' K B2' M cc B3 B3' G HK HM HG N l1 l2 x y Hl. pose proof (bay_sym V B B' K HK) as SK.
  split; [apply modes_uncoupled|apply buckles_uncoupled]; try assumption; [exact (bay_matrix_sym _ _ _ _ _ _ _ HM)|exact (bay_matrix_sym _ _ _ _ _ _ _ HG)].
Qed.
Print Assumptions C106_bay_modes_uncoupled.
Theorem C106_panel_modes_uncoupled : forall E A p p' K sz r0 c0 ho ro nxo nyo q q' M A' s s' G,
  calc_kC E A p = (p', Ok K) -> ka_fin A = true -> calc_kM E sz r0 c0 ho ro nxo nyo true q = (q', Ok M) -> calc_kG E A' s = (s', Ok G) -> ka_fin A' = true ->
  forall N l1 l2 x y, l1 <> l2 ->
  (real_mode N K M l1 x -> real_mode N K M l2 y -> uncoupled N K M x y) /\
  (real_buckle N K G l1 x -> real_buckle N K G l2 y -> uncoupled N K G x y).
Proof.
  intros E A p p' K sz r0 c0 ho ro nxo nyo q q' M A' s s' G HK H1 HM HG H2 N l1 l2 x y Hl.
  pose proof (Prop_Stiffness.C17_kC_symmetric E A p p' K HK H1) as SK.
  split; [apply modes_uncoupled|apply buckles_uncoupled]; try assumption; [exact (Prop_Stiffness.C17_kM_symmetric _ _ _ _ _ _ _ _ _ _ _ HM)|exact (Prop_Stiffness.C17_kG_symmetric E A' s s' G HG H2)].
Qed.
Print Assumptions C106_panel_modes_uncoupled.

(* the held bay of C105 with one 2D stiffener without pad: its matrices are returned *)
Example C106_case : stiff_bay bay_env held_T held_p0 4 /\ anchored (skin_curve held_p0) (by_sh held_T) /\ heavy held_T /\
  (exists B' K, bay_kC bay_env held_T = (B', Ok K)) /\ (exists B' M, bay_kM bay_env held_T = (B', Ok M)) /\ (exists B' G, bay_kG bay_env None held_T = (B', Ok G)) /\
  length (by_s2 held_T) = 1%nat /\ bay_dim held_T = 96%nat.
Proof.
  split; [exact held_T_stiff|]. split; [exact held_T_anchored|]. split; [exact held_T_heavy|]. split; [exact (bay_runs _ _ _ _ held_T_stiff)|]. split; [exact held_T_mass|]. split; [exact held_T_geo|].
  rewrite held_T_eq. split; reflexivity.
Qed.
