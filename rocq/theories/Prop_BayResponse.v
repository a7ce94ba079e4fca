(* C105: a stiffened bay resists every displacement but the motions of its parts without strain; a supported one has one response
   to every load, and stiffeners do not make it softer. *)
From Coq Require Import Reals List Arith Bool Lia Lra.
From Verif Require Import Base_Sum Model_Types Model_Coo Model_Result Model_Num Model_DB Model_Shell Model_Multi Model_Bay
  Spec_Algebra Spec_Kinematics Spec_Panel Spec_Shell Spec_Bardell Spec_Integral Spec_Modes Spec_Rigid Spec_Tied Spec_Pull Spec_Bay Spec_BayWork Spec_Blade Spec_BayResponse
  Proof_BayResponse Ex_Bay Ex_BayResponse.
From Verif Require Proof_Modes Proof_Response.
From Coq Require Import List.
Import ListNotations.
Open Scope R_scope.

(* calc_kC returns a symmetric matrix whose energy is not negative *)
Theorem C105_stores_energy : forall V B p0 n, stiff_bay V B p0 n -> exists B' K, bay_kC V B = (B', Ok K) /\ symmetric K /\ psd (bay_dim B) K.
Proof. intros V B p0 n HS. destruct (bay_runs V B p0 n HS) as (B' & K & HK). exists B', K. split; [exact HK|]. split; [exact (bay_sym V B B' K HK)|exact (bay_psd V B p0 n HS B' K HK)]. Qed.
Print Assumptions C105_stores_energy.
(* displacements without energy: the skin and each flange move without strain, and the root of each flange follows the skin *)
Theorem C105_nothing_else : forall V B p0 n B' K c, stiff_bay V B p0 n -> bay_kC V B = (B', Ok K) -> quad (bay_dim B) K c = 0 ->
  (exists u0 v0 w0 th al be, rigid (skin_curve p0) (by_sh B) c u0 v0 w0 th al be) /\
  forall j s q, nth_error (by_s2 B) j = Some s -> s2_flange s = Some q -> root_closed B s q (slice_of B j) c /\
    exists u0 v0 w0 th al be, rigid (skin_curve q) (pn_sh q) (own (slice_of B j) c) u0 v0 w0 th al be.
Proof. intros V B p0 n B' K c HS HK. exact (bay_null V B p0 n HS B' K HK c). Qed.
Print Assumptions C105_nothing_else.
(* once the skin is held, nothing moves without energy: not the flanges either, whose own edges may be free *)
Theorem C105_held : forall V B p0 n B' K c, stiff_bay V B p0 n -> anchored (skin_curve p0) (by_sh B) -> bay_kC V B = (B', Ok K) -> quad (bay_dim B) K c = 0 -> bay_motionless B c.
Proof. intros V B p0 n B' K c HS HA HK. exact (bay_still V B p0 n HS B' K HK c HA). Qed.
Print Assumptions C105_held.

(* K c = f has a solution for every f that does no work in constants that displace nothing, and all solutions displace the skin
   and the flanges by the same amount *)
Theorem C105_exists : forall V B p0 n B' K f, stiff_bay V B p0 n -> anchored (skin_curve p0) (by_sh B) -> bay_kC V B = (B', Ok K) ->
  (forall d, bay_motionless B d -> dot (bay_dim B) f d = 0) -> exists c, solves (bay_dim B) K c f.
Proof. intros V B p0 n B' K f HS HA HK. exact (bay_solved V B p0 n HS B' K HK f HA). Qed.
Print Assumptions C105_exists.
Theorem C105_unique : forall V B p0 n B' K f c d, stiff_bay V B p0 n -> anchored (skin_curve p0) (by_sh B) -> bay_kC V B = (B', Ok K) ->
  solves (bay_dim B) K c f -> solves (bay_dim B) K d f -> same_disp (by_sh B) c d /\
  forall j s q, nth_error (by_s2 B) j = Some s -> s2_flange s = Some q -> same_disp (pn_sh q) (own (slice_of B j) c) (own (slice_of B j) d).
Proof. intros V B p0 n B' K f c d HS HA HK. exact (bay_once V B p0 n HS B' K HK c d f HA). Qed.
Print Assumptions C105_unique.
(* two loads do the same work in the response to each other; the response has the least potential energy *)
Theorem C105_reciprocity : forall V B B' K f g c d, bay_kC V B = (B', Ok K) -> solves (bay_dim B) K c f -> solves (bay_dim B) K d g ->
  dot (bay_dim B) f d = dot (bay_dim B) g c.
Proof.
  intros V B B' K f g c d HK Hc Hd. assert (HY : symmetric K) by exact (bay_sym V B B' K HK).
  rewrite <- (Proof_Response.solved_dot _ _ _ _ d HY Hc), <- (Proof_Response.solved_dot _ _ _ _ c HY Hd). apply Proof_Modes.bilinear_swap. exact HY.
Qed.
Print Assumptions C105_reciprocity.
Theorem C105_least_energy : forall V B p0 n B' K f c, stiff_bay V B p0 n -> bay_kC V B = (B', Ok K) -> solves (bay_dim B) K c f ->
  forall d, / 2 * quad (bay_dim B) K c - dot (bay_dim B) f c <= / 2 * quad (bay_dim B) K d - dot (bay_dim B) f d.
Proof.
  intros V B p0 n B' K f c HS HK Hc d. destruct (solved_least _ K c f d (bay_sym V B B' K HK) (bay_psd V B p0 n HS B' K HK) Hc). lra.
Qed.
Print Assumptions C105_least_energy.

(* further stiffeners: no displacement of the skin and the flanges takes less energy, and no load on them does more work *)
Theorem C105_stiffeners_stiffen : forall V B B2 p0 p2 n n2 B' K B2' K2, stiff_bay V B p0 n -> stiff_bay V B2 p2 n2 -> extended B B2 ->
  bay_kC V B = (B', Ok K) -> bay_kC V B2 = (B2', Ok K2) ->
  (forall c, quad (bay_dim B) K c <= quad (bay_dim B2) K2 c) /\
  forall f c c2, (forall i, (bay_dim B <= i)%nat -> f i = 0) -> solves (bay_dim B) K c f -> solves (bay_dim B2) K2 c2 f ->
  dot (bay_dim B2) f c2 <= dot (bay_dim B) f c.
Proof.
  intros V B B2 p0 p2 n n2 B' K B2' K2 HS HS2 HX HK HK2. pose proof (bay_more V B B2 p0 p2 n n2 HS HS2 HX B' K B2' K2) as HM. split; [intro c; exact (HM c HK HK2)|].
  intros f c c2 Hf Hc Hc2. pose proof (dot_more _ _ f c2 (dims_more B B2 HX) Hf) as E1.
  destruct (solved_least _ K c f c2 (bay_sym V B B' K HK) (bay_psd V B p0 n HS B' K HK) Hc) as [L1 _].
  destruct (solved_least _ K2 c2 f c2 (bay_sym V B2 B2' K2 HK2) (bay_psd V B2 p2 n2 HS2 B2' K2 HK2) Hc2) as [_ L2]. specialize (HM c2 HK HK2). lra.
Qed.
Print Assumptions C105_stiffeners_stiffen.
(* the calls that add a stiffener *)
Theorem C105_added_1d : forall V ys rho bb bf bd fd B B2, add_bladestiff1d V ys rho bb bf bd fd B = (B2, Ok tt) -> extended B B2.
Proof. exact add1_extends. Qed.
Print Assumptions C105_added_1d.
Theorem C105_added_2d : forall V ys rho bb bf bd fd mf nf B B2, add_bladestiff2d V ys rho bb bf bd fd mf nf B = (B2, Ok tt) -> extended B B2.
Proof. exact add2_extends. Qed.
Print Assumptions C105_added_2d.

(* a bay of 2 x 3 with 4 x 4 terms held along x = 0, with a padded 1D stiffener and, in the second, a padded 2D one of free edges *)
Example C105_case : stiff_bay bay_env held_1d held_p0 4 /\ stiff_bay bay_env held_2d held_p0 4 /\ anchored (skin_curve held_p0) (by_sh held_2d) /\ extended held_1d held_2d /\
  length (by_s1 held_2d) = 1%nat /\ length (by_s2 held_2d) = 1%nat /\ bay_dim held_1d = 48%nat /\ bay_dim held_2d = 96%nat.
Proof.
  split; [exact held_stiff_1d|]. split; [exact held_stiff_2d|]. split; [exact held_anchored|]. split; [exact held_extended|]. rewrite held_2d_eq, held_1d_eq. repeat split.
Qed.
