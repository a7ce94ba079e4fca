(* An environment whose tables hold exact integrals and whose 7-point rule is exact for the cubic
   functions, used to show that the hypotheses of the analytical theorems can be met. *)
From Coq Require Import Reals List Arith Bool ZArith Lia Lra.
From Coquelicot Require Import Coquelicot.
From Verif Require Import Base_Sum Model_Types Model_Coo Model_Result Model_Num Model_DB Model_Bardell Model_Shell
  Spec_Algebra Spec_Kinematics Spec_Quadrature Spec_Panel Spec_Shell Spec_Bardell Spec_Integral
  Proof_Poly Proof_Bardell Proof_Gauss Proof_Shell Proof_Total Proof_Api Ex_Panel.
Import ListNotations.
Open Scope R_scope.

(* closed Newton-Cotes rule with 7 points *)
Definition nc7 : list (R * R) :=
  [(-1, 41/420); (-(2/3), 216/420); (-(1/3), 27/420); (0, 272/420); (1/3, 27/420); (2/3, 216/420); (1, 41/420)].
Definition exact_env : env := mkEnv (fun n => if (n =? 7)%nat then nc7 else code_rule n) exact_basis exact_tables ex_lib.

Lemma cubic p i : (i < 4)%nat -> exists c0 c1 c2 c3, forall x e,
  shape exact_basis p i x e = flag e i * (c0 + c1 * x + c2 * x ^ 2 + c3 * x ^ 3).
Proof.
  intro Hi. 
  destruct i as [|[|[|[|i]]]]; try (exfalso; lia); destruct p as [|[|p]]; cbn [shape exact_basis bf bfp bfpp].
  - exists (1/2), (-(3/4)), 0, (1/4). intros. unfold bardell. ring.
  - exists (-(3/4)), 0, (3/4), 0. intros. rewrite Derive_bardell by lia. unfold qeval. cbn -[IZR]. field.
  - exists 0, (3/2), 0, 0. intros. rewrite Derive2_bardell by lia. unfold qeval. cbn -[IZR]. field.
  - exists (1/8), (-(1/8)), (-(1/8)), (1/8). intros. unfold bardell. ring.
  - exists (-(1/8)), (-(1/4)), (3/8), 0. intros. rewrite Derive_bardell by lia. unfold qeval. cbn -[IZR]. field.
  - exists (-(1/4)), (3/4), 0, 0. intros. rewrite Derive2_bardell by lia. unfold qeval. cbn -[IZR]. field.
  - exists (1/2), (3/4), 0, (-(1/4)). intros. unfold bardell. ring.
  - exists (3/4), 0, (-(3/4)), 0. intros. rewrite Derive_bardell by lia. unfold qeval. cbn -[IZR]. field.
  - exists 0, (-(3/2)), 0, 0. intros. rewrite Derive2_bardell by lia. unfold qeval. cbn -[IZR]. field.
  - exists (-(1/8)), (-(1/8)), (1/8), (1/8). intros. unfold bardell. field.
  - exists (-(1/8)), (1/4), (3/8), 0. intros. rewrite Derive_bardell by lia. unfold qeval. cbn -[IZR]. field.
  - exists (1/4), (3/4), 0, 0. intros. rewrite Derive2_bardell by lia. unfold qeval. cbn -[IZR]. field.
Qed.

Lemma nc7_exact : rule_integrates (e_rule exact_env) 7 exact_basis 4.
Proof.
  intros p q i k e e' Hi Hk.
  destruct (cubic p i Hi) as (a0 & a1 & a2 & a3 & HA). destruct (cubic q k Hk) as (b0 & b1 & b2 & b3 & HB).
  set (f := flag e i * flag e' k).
  pose (l := [(0%nat, f * (a0 * b0)); (1%nat, f * (a0 * b1 + a1 * b0)); (2%nat, f * (a0 * b2 + a1 * b1 + a2 * b0));
     (3%nat, f * (a0 * b3 + a1 * b2 + a2 * b1 + a3 * b0)); (4%nat, f * (a1 * b3 + a2 * b2 + a3 * b1));
     (5%nat, f * (a2 * b3 + a3 * b2)); (6%nat, f * (a3 * b3))]).
  pose proof (poly_RInt_from l) as H.
  replace (suml (e_rule exact_env 7%nat) _) with (suml l (fun t : nat * R => snd t * exact_moment (fst t))).
  - eapply is_RInt_ext; [|exact H]. intros x _. cbv beta. rewrite HA, HB. unfold l, f. cbn [suml map fold_right fst snd]. unfold suml. cbn -[IZR Rmult Rplus pow]. ring.
  - cbn [exact_env e_rule Nat.eqb]. unfold nc7. unfold l, suml. cbn -[IZR Rmult Rplus pow shape exact_moment].
    rewrite !HA, !HB. unfold exact_moment, f. cbn -[IZR Rmult Rplus pow].
    field.
Qed.

(* a panel with 4 x 4 terms, integrated with 7 x 7 points when integrated numerically *)
Definition ex4_shell : shell := mkShell 2 3 0 4 4 (-1) 1 (-1) 1 0 0 free free ss free free ss.
Definition ex4_panel (r : option R) : panel :=
  mkPanel ex4_shell r None 7 7 [0; 90] (Some (1/8)) [] [1; 2; 3] [] (1300) [] (1/10) false None None None
    (1, 2, 3) (0, 0, 0) (Some true) None None (Some 1) (Some 2) (Some 3) None None None None None.
Definition ex4_built : panel :=
  mkPanel ex4_shell None (Some (Known PlateModel)) 7 7 [0; 90] (Some (1/8)) [1/8; 1/8] [1; 2; 3] [[1; 2; 3]; [1; 2; 3]] (1300) [1300; 1300] (1/10) false (Some ex_lam) None None
    (1, 2, 3) (0, 0, 0) (Some true) None None (Some 1) (Some 2) (Some 3) None None None None None.
Definition ana_args (fin : bool) : kargs := mkKargs (SStr 5) 2 2 fin None None None None None false.
Definition num_args (fin : bool) : kargs := mkKargs (SStr 5) 2 2 fin (Some (CVec (repeat 0 53))) None None None None false.

Lemma ex4_complete r : complete (ex4_panel r).
Proof. unfold complete, ex4_panel; cbn. repeat split; try discriminate; [right|right]; discriminate. Qed.
Lemma ex4_geometry r : r <> Some 0 -> geometry_ok (chosen_model (ex4_panel r)) (kernel_view (ex4_panel r)).
Proof.
  intro Hr. unfold geometry_ok, kernel_view, chosen_model. cbn. repeat split; try lra.
  destruct r; [|discriminate]. intros _ H. apply Hr. congruence.
Qed.
Lemma ex4_kC_runs E fin r : exists p' K, calc_kC E (ana_args fin) (ex4_panel r) = (p', Ok K).
Proof. apply calc_kC_ok; try reflexivity; try (cbn; lia); solve [apply ex4_complete | discriminate]. Qed.
Lemma ex4_kC_num_runs E fin r : exists p' K, calc_kC E (num_args fin) (ex4_panel r) = (p', Ok K).
Proof. apply calc_kC_ok; try reflexivity; try (cbn; lia); solve [apply ex4_complete | discriminate]. Qed.
Lemma ex4_kG_runs E fin r : exists p' K, calc_kG E (ana_args fin) (ex4_panel r) = (p', Ok K).
Proof. apply calc_kG_ok; try reflexivity; try (cbn; lia). apply ex4_complete. Qed.
Lemma ex4_kG_num_runs E fin r : exists p' K, calc_kG E (num_args fin) (ex4_panel r) = (p', Ok K).
Proof. apply calc_kG_ok; try reflexivity; try (cbn; lia). apply ex4_complete. Qed.
Definition ex4_h : arr2 := (7%nat, 7%nat, fun _ _ => fold_left Rplus (pn_plyts ex4_built) 0).
Definition ex4_rho : arr2 := (7%nat, 7%nat, fun _ _ => 1300).
Lemma ex4_kM_runs E fin : exists p' K, calc_kM E (SStr 5) 2 2 None None None None fin ex4_built = (p', Ok K).
Proof. eapply calc_kM_ok; try reflexivity; cbn; lia. Qed.
Lemma ex4_kM_num_runs E fin : exists p' K, calc_kM E (SStr 5) 2 2 (Some ex4_h) (Some ex4_rho) None None fin ex4_built = (p', Ok K).
Proof. eapply calc_kM_ok; try reflexivity; cbn; lia. Qed.
Lemma ex4_whole r : whole_window (kernel_view (ex4_panel r)).
Proof. unfold whole_window, xregion, yregion, interval. cbn. destruct (Req_EM_T (-1) (-1)); [|congruence]. split; reflexivity. Qed.
