(* The matrices of a bay are symmetric; its mass matrix is a kinetic energy. *)
From Coq Require Import Reals List Arith Bool ZArith Lia Lra.
From Coquelicot Require Import Coquelicot.
From Verif Require Import Base_Sum Model_Types Model_Coo Model_Result Model_Num Model_DB Model_Bardell Model_Shell Model_Multi Model_Bay
  Spec_Algebra Spec_Kinematics Spec_Quadrature Spec_Panel Spec_Shell Spec_Bardell Spec_Integral Spec_Modes Spec_Rigid Spec_Pull
  Spec_Bay Spec_BayWork Spec_Blade Spec_BayResponse Spec_BayModes
  Proof_Shell Proof_Api Proof_AnaApi Proof_Ana Proof_Modes Proof_Bay Proof_BayMade Proof_BayWork Proof_BayTotal Proof_BayResponse.
From Coq Require Import List.
Import ListNotations.
Open Scope R_scope.

(* ------------------------------------------------- modes of symmetric matrices *)
Lemma modes_uncoupled N K M l1 l2 x y : symmetric K -> symmetric M -> l1 <> l2 -> real_mode N K M l1 x -> real_mode N K M l2 y -> uncoupled N K M x y.
Proof.
  intros HK HM Hl Hx Hy.
  assert (A : bilinear N K x y = l2 * bilinear N M x y).
  { rewrite !bilinear_row, <- sumn_scal. apply sumn_ext. intros i Hi. rewrite (Hy i Hi). ring. }
  assert (B : bilinear N K x y = l1 * bilinear N M x y).
  { rewrite (bilinear_swap N K x y HK), (bilinear_swap N M x y HM), !bilinear_row, <- sumn_scal. apply sumn_ext. intros i Hi. rewrite (Hx i Hi). ring. }
  assert (C : (l1 - l2) * bilinear N M x y = 0) by lra. apply Rmult_integral in C. destruct C as [C|C]; [lra|]. split; [rewrite A, C; ring|exact C].
Qed.
Lemma buckles_uncoupled N K G l1 l2 x y : symmetric K -> symmetric G -> l1 <> l2 -> real_buckle N K G l1 x -> real_buckle N K G l2 y -> uncoupled N K G x y.
Proof.
  intros HK HG Hl Hx Hy.
  assert (A : bilinear N K x y = - l2 * bilinear N G x y).
  { rewrite !bilinear_row, <- sumn_scal. apply sumn_ext. intros i Hi. pose proof (Hy i Hi). replace (row N K y i) with (- l2 * row N G y i) by lra. ring. }
  assert (B : bilinear N K x y = - l1 * bilinear N G x y).
  { rewrite (bilinear_swap N K x y HK), (bilinear_swap N G x y HG), !bilinear_row, <- sumn_scal. apply sumn_ext. intros i Hi. pose proof (Hx i Hi). replace (row N K x i) with (- l1 * row N G x i) by lra. ring. }
  assert (C : (l1 - l2) * bilinear N G x y = 0) by lra. apply Rmult_integral in C. destruct C as [C|C]; [lra|]. split; [rewrite A, C; ring|exact C].
Qed.

(* ------------------------------------------------- bays *)
Lemma bay_matrix_sym V f g h B B' K : bay_matrix V f g h B = (B', Ok K) -> symmetric K.
Proof.
  unfold bay_matrix.
  do 7 (unfold bbind at 1; match goal with |- context [match ?x with _ => _ end] => destruct x as [? [?|?]] end; [|discriminate]).
  match goal with |- context [match ?x with _ => _ end] => destruct x as [M|] end; [|discriminate]. unfold bret. intro H. injection H as _ <-. apply finalize_is_sym.
Qed.
Section Mass.
Variables (V : benv) (B : bay) (p0 : panel) (n : nat).
Hypothesis HS : stiff_bay V B p0 n.
Hypothesis HV : heavy B.
Notation E := (b_env V). Notation N := (bay_dim B).
Lemma skin_mass p c W : In p (by_panels B) -> own_work (alone_kM E) N 0 p c c W -> 0 <= W.
Proof using HS HV.
  intros Hp (K & (p1 & p' & HR & HK) & ->). destruct (sb_panels _ _ _ _ HS p Hp) as ((_ & E2 & _ & _ & E5) & _). destruct (panel_fits V B p0 n HS p Hp) as (F1 & F2 & F3).
  destruct (rebuild_inv _ _ _ _ HR) as (HI & Hr & Hm & _ & _ & _ & _ & _ & HP & _). destruct HI. 
  apply (massive_psd E (SInt N) 0 None None p1 p' K N); [|exact HK| |].
  - split; [|rewrite si_sh; split; [exact E5|]].
    + unfold kernel_view, chosen_model in *. rewrite Hm, Hr, si_sh in *. exact E2.
    + rewrite si_rho, HP. change (fold_left Rplus (rebuilt_plyts p) 0) with (total (rebuilt_plyts p)). rewrite total_suml. exact (hv_skin _ HV p Hp).
  - rewrite si_sh. exact F3.
  - rewrite si_sh, (sb_basis _ _ _ _ HS). eapply tables_integrate_le; [|exact (sb_tables _ _ _ _ HS)]. apply Nat.max_lub; assumption.
Qed.
Lemma part_mass o p c W : elastic E p -> 0 <= pn_rho p * suml (pn_plyts p) (fun t => t) -> panel_inertia E o p c c W -> 0 <= W.
Proof. intros (_ & _ & _ & _ & E5) HM HW. unfold panel_inertia in HW. eapply panel_integral_ge0; [exact E5| |exact HW]. intros x y. apply kinetic_ge0. exact HM. Qed.
Lemma bay_mass_psd B' M : bay_kM V B = (B', Ok M) -> psd N M.
Proof using HS HV.
  intros HM c. destruct (kM_is_work V B n (sb_built _ _ _ _ HS)) with (c := c) (d := c) (B' := B') (K := M) as (_ & Ws & W1s & W2s & F0 & F1 & (L2 & F2) & HQ).
  { rewrite (sb_basis _ _ _ _ HS). exact (sb_tables _ _ _ _ HS). } { exact (sb_terms _ _ _ _ HS). } { exact (bay_lengths_ok V B p0 n HS). } { exact HM. }
  { intros s p Hs [Hp|Hp]; [exact (proj1 (proj2 (sb_pads2 _ _ _ _ HS s p Hs Hp)))|exact (proj1 (proj2 (proj1 (sb_flanges _ _ _ _ HS s p Hs Hp))))]. }
  destruct (works_sum _ _ _ (fun p W Hp HW => skin_mass p c W Hp HW) F0) as [P0 _].
  rewrite (hv_s1 _ HV) in F1. inversion F1; subst.
  destruct (slices_sum (fun _ _ => True) _ W2s L2) as [P2 _].
  { intros j W HW. destruct (nth_error (by_s2 B) j) as [s|] eqn:Es.
    - destruct (F2 j s W Es HW) as (Wb & Wq & Hb & Hq & ->). pose proof (nth_error_In _ _ Es) as Hs.
      assert (0 <= Wb) by (destruct (s2_base s) as [b|] eqn:Eb; [|lra]; exact (part_mass 0 b c Wb (sb_pads2 _ _ _ _ HS s b Hs Eb) (hv_s2 _ HV s b Hs (or_introl Eb)) Hb)).
      assert (0 <= Wq) by (destruct (s2_flange s) as [q|] eqn:Eq; [|lra]; exact (part_mass _ q c Wq (proj1 (sb_flanges _ _ _ _ HS s q Hs Eq)) (hv_s2 _ HV s q Hs (or_intror Eq)) Hq)).
      lra.
    - apply nth_error_None in Es. assert (j < length W2s)%nat by (apply nth_error_Some; congruence). lia. }
  unfold quad. rewrite HQ. unfold total_work, suml in *; cbn [map fold_right] in *. lra.
Qed.
Lemma moving_energy B' K x y : anchored (skin_curve p0) (by_sh B) -> bay_kC V B = (B', Ok K) -> moves B x y -> 0 < energy N K x y.
Proof using HS.
  intros HA HK HM. pose proof (bay_psd V B p0 n HS B' K HK) as HP. pose proof (HP x) as Px. pose proof (HP y) as Py. unfold energy.
  destruct (Req_dec (quad N K x) 0) as [Zx|Zx]; [|lra]. destruct (Req_dec (quad N K y) 0) as [Zy|Zy]; [|lra].
  exfalso. apply HM. split; eapply (bay_still V B p0 n HS B' K HK); eassumption.
Qed.
End Mass.
