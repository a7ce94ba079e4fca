(* C110: the lowest buckling load and the lowest frequency of a held stiffened bay. *)
From Coq Require Import Reals List Arith Bool Lia Lra.
From Verif Require Import Base_Sum Model_Types Model_Coo Model_Result Model_Num Model_DB Model_Shell Model_Multi Model_Bay
  Spec_Algebra Spec_Kinematics Spec_Panel Spec_Shell Spec_Bardell Spec_Integral Spec_Modes Spec_Rigid Spec_Bay Spec_BayWork Spec_Blade Spec_BayResponse Spec_BayModes Spec_Limit Spec_LimitBay
  Proof_BayResponse Proof_Limit Proof_LimitPanel Proof_LimitBay Proof_LimitMore Ex_Panel Ex_Exact Ex_Bay Ex_BayResponse Ex_BayModes Ex_LimitBay.
From Coq Require Import List.
Import ListNotations.
Open Scope R_scope.

(* K comes from the calc_kC and G from the calc_kG of the bay: unless no displacement releases work of the loads, there is a lowest
   load factor at which the bay buckles. Below it the bay is stable, above it is not *)
Theorem C110_lowest_buckling_load : forall V B p0 n B' K B2 G, held_bay V B p0 n -> bay_kC V B = (B', Ok K) -> bay_kG V None B = (B2, Ok G) ->
  (exists x, quad (bay_dim B) G x < 0) -> exists l z, first_load (bay_displaced B) (bay_dim B) K G l z.
Proof. intros V B p0 n B' K B2 G HB. exact (bay_first_load V B p0 n HB B' K B2 G). Qed.
Print Assumptions C110_lowest_buckling_load.
(* five terms or more in each direction of the skin, a panel compressed along x and no part pulled: the bay buckles *)
Theorem C110_compressed_bays_buckle : forall V B p0 n B' K B2 G, held_bay V B p0 n -> bay_kC V B = (B', Ok K) -> bay_kG V None B = (B2, Ok G) ->
  pushed B -> (5 <= sh_m (by_sh B))%nat -> (5 <= sh_n (by_sh B))%nat -> exists l z, first_load (bay_displaced B) (bay_dim B) K G l z.
Proof.
  intros V B p0 n B' K B2 G HB HK HG HP Hm Hn. apply (bay_first_load V B p0 n HB B' K B2 G HK HG). eexists.
  apply (pushed_works V B p0 n HB B2 G _ (1/2) 0 HP HG); [lra|lra|]. apply skin_slope; [exact Hm|exact Hn|]. pose proof (sb_a _ _ _ _ (hb_stiff _ _ _ _ HB)). lra.
Qed.
Print Assumptions C110_compressed_bays_buckle.
(* a bay without 1D stiffeners whose parts have no negative mass, with a panel that weighs: it has a lowest frequency *)
Theorem C110_lowest_frequency : forall V B p0 n B' K B2 M p, held_bay V B p0 n -> bay_kC V B = (B', Ok K) -> bay_kM V B = (B2, Ok M) ->
  heavy B -> In p (by_panels B) -> 0 < pn_rho p * suml (rebuilt_plyts p) (fun t => t) -> (5 <= sh_m (by_sh B))%nat -> (5 <= sh_n (by_sh B))%nat ->
  exists l z, first_frequency (bay_displaced B) (bay_dim B) K M l z.
Proof.
  intros V B p0 n B' K B2 M p HB HK HM HV Hp Hr Hm Hn. apply (bay_first_frequency V B p0 n HB B' K B2 M HV HK HM). eexists.
  apply (mass_pos V B p0 n HB B2 M p _ HV HM Hp Hr). apply skin_moves; assumption.
Qed.
Print Assumptions C110_lowest_frequency.
(* stiffeners that are not compressed do not lower the buckling load *)
Theorem C110_stiffeners_raise_the_load : forall V B B2 p0 p2 n n2 B' K Bg G B2' K2 Bg2 G2 l z l2 z2, held_bay V B p0 n -> held_bay V B2 p2 n2 -> unpushed_more B B2 ->
  bay_kC V B = (B', Ok K) -> bay_kG V None B = (Bg, Ok G) -> bay_kC V B2 = (B2', Ok K2) -> bay_kG V None B2 = (Bg2, Ok G2) ->
  first_load (bay_displaced B) (bay_dim B) K G l z -> first_load (bay_displaced B2) (bay_dim B2) K2 G2 l2 z2 -> l <= l2.
Proof.
  intros V B B2 p0 p2 n n2 B' K Bg G B2' K2 Bg2 G2 l z l2 z2 HB HB2 HU HK HG HK2 HG2 F F2. pose proof (hb_stiff _ _ _ _ HB) as HS. pose proof (hb_stiff _ _ _ _ HB2) as HS2.
  refine (stable_below _ _ _ _ _ _ _ F2 _). intro c. pose proof (fl_limit _ _ _ _ _ _ F c). pose proof (fl_pos _ _ _ _ _ _ F).
  pose proof (bay_more V B B2 p0 p2 n n2 HS HS2 (unpushed_extended _ _ HU) B' K B2' K2 c HK HK2). pose proof (bay_geo_more V B B2 p0 p2 n n2 HS HS2 HU Bg G Bg2 G2 c HG HG2). nra.
Qed.
Print Assumptions C110_stiffeners_raise_the_load.

(* two panels of 2 x 3 held along x = 0 and compressed along x, with 5 x 5 terms, without and with a 2D blade stiffener: both buckle,
   the stiffened one not earlier, and it vibrates *)
Example C110_case : exists K G K2 G2 M l z l2 z2 w y,
  (exists B', bay_kC bay_env press_bay = (B', Ok K)) /\ (exists B', bay_kG bay_env None press_bay = (B', Ok G)) /\
  (exists B', bay_kC bay_env press_T = (B', Ok K2)) /\ (exists B', bay_kG bay_env None press_T = (B', Ok G2)) /\ (exists B', bay_kM bay_env press_T = (B', Ok M)) /\
  first_load (bay_displaced press_bay) (bay_dim press_bay) K G l z /\ first_load (bay_displaced press_T) (bay_dim press_T) K2 G2 l2 z2 /\ l <= l2 /\
  first_frequency (bay_displaced press_T) (bay_dim press_T) K2 M w y /\ bay_dim press_bay = 75%nat /\ bay_dim press_T = 150%nat.
Proof.
  destruct (bay_runs _ _ _ _ press_stiff) as (B1 & K & HK). destruct press_geo as (B2 & G & HG). destruct (bay_runs _ _ _ _ press_T_stiff) as (B3 & K2 & HK2). destruct press_T_geo as (B4 & G2 & HG2). destruct press_T_mass as (B5 & M & HM).
  assert (T : (5 <= sh_m (by_sh press_T))%nat /\ (5 <= sh_n (by_sh press_T))%nat) by (rewrite press_T_eq; cbn; lia).
  destruct (C110_compressed_bays_buckle _ _ _ _ _ _ _ _ press_held HK HG press_pushed ltac:(cbn; lia) ltac:(cbn; lia)) as (l & z & F).
  destruct (C110_compressed_bays_buckle _ _ _ _ _ _ _ _ press_T_held HK2 HG2 press_T_pushed (proj1 T) (proj2 T)) as (l2 & z2 & F2).
  destruct press_T_weighs as (p & Hp & Hr). destruct (C110_lowest_frequency _ _ _ _ _ _ _ _ p press_T_held HK2 HM press_T_heavy Hp Hr (proj1 T) (proj2 T)) as (w & y & F3).
  pose proof (C110_stiffeners_raise_the_load _ _ _ _ _ _ _ _ _ _ _ _ _ _ _ _ _ _ _ press_held press_T_held press_more HK HG HK2 HG2 F F2) as HL.
  exists K, G, K2, G2, M, l, z, l2, z2, w, y. repeat (split; [first [eexists; eassumption|assumption]|]). rewrite press_T_eq. reflexivity.
Qed.
