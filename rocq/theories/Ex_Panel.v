(* Concrete panels used to show that hypotheses can be met. *)
From Coq Require Import Reals List Arith Bool Lia Lra.
From Verif Require Import Base_Sum Model_Types Model_Coo Model_Result Model_Num Model_DB Model_Bardell Model_Shell
  Spec_Algebra Spec_Kinematics Spec_Quadrature Spec_Panel Spec_Shell Proof_Shell Proof_Total Proof_Api Proof_Rule.
Import ListNotations.
Open Scope R_scope.

(* a laminate library: every laminate has stiffness diag(1..6), thickness the sum of the plies *)
Definition ex_ABD (i j : nat) : R := if (i =? j)%nat then INR (i + 1) else 0.
Definition ex_lib : lamlib := fun stack ts props rhos off =>
  mkLam ex_ABD (fold_left Rplus ts 0) (fold_left Rplus rhos 0 * fold_left Rplus ts 0 / INR (length rhos)).

(* the compiled tables of the package *)
Definition ex_env : env := mkEnv code_rule code_basis code_tables ex_lib.

Definition ss : edge := mkEdge 0 1 0 1.
Definition free : edge := mkEdge 1 1 1 1.
Definition ex_shell : shell := mkShell 2 3 0 4 5 (-1) 1 (-1) 1 0 0 free free ss free free ss.

(* a plate, or a cylindrical panel of radius 10 *)
Definition ex_panel (r : option R) : panel :=
  mkPanel ex_shell r None 6 7 [0; 90] (Some (1/8)) [] [1; 2; 3] [] (1300) [] (1/10) false None None None
    (1, 2, 3) (0, 0, 0) (Some true) None None (Some 1) (Some 2) (Some 3) None None None None None.

Lemma ex_complete r : complete (ex_panel r).
Proof. unfold complete, ex_panel; cbn. repeat split; try discriminate; [right|right]; discriminate. Qed.

Lemma ex_geometry r : r <> Some 0 ->
  geometry_ok (chosen_model (ex_panel r)) (kernel_view (ex_panel r)).
Proof.
  intro Hr. unfold geometry_ok, kernel_view, chosen_model. cbn. repeat split; try lra.
  destruct r; [|discriminate]. intros _ H. apply Hr. congruence.
Qed.

Lemma ex_ABD_is : is_ABD ex_ABD.
Proof.
  split; intros i j Hi Hj; unfold ex_ABD.
  - destruct (Nat.eqb_spec i j), (Nat.eqb_spec j i); subst; congruence || reflexivity.
  - destruct (Nat.eqb_spec i (3 + j)), (Nat.eqb_spec j (3 + i)); lia || reflexivity.
Qed.

Lemma ex_ABD_psd : psd_form 6 ex_ABD.
Proof.
  intro x. unfold form, ex_ABD. cbn. nra.
Qed.

Lemma ex_window : window_ok (kernel_view (ex_panel None)).
Proof. unfold window_ok, xregion, yregion, interval. cbn. destruct (Req_EM_T (-1) (-1)); [|congruence]. cbn. lra. Qed.

(* the Ritz vector (0, 1, 2, ...) *)
Definition ex_vec (n : nat) : list R := map INR (seq 0 n).

(* numeric stiffness about a deformed state, geometrically nonlinear *)
Definition ex_args (NL : bool) : kargs := mkKargs (SStr 5) 2 2 true (Some (CVec (ex_vec 65))) None None None None NL.

Lemma ex_kC_runs r NL : exists p' K, calc_kC ex_env (ex_args NL) (ex_panel r) = (p', Ok K).
Proof.
  apply calc_kC_ok; try reflexivity; try (cbn; lia).
  - apply ex_complete.
  - discriminate.
Qed.
Lemma ex_kG_runs r NL : exists p' K, calc_kG ex_env (ex_args NL) (ex_panel r) = (p', Ok K).
Proof.
  apply calc_kG_ok; try reflexivity; try (cbn; lia).
  apply ex_complete.
Qed.

(* the same plate after its laminate has been built *)
Definition ex_lam : laminate := ex_lib [0; 90] [1/8; 1/8] [[1; 2; 3]; [1; 2; 3]] [1300; 1300] (1/10).
Definition ex_built : panel :=
  mkPanel ex_shell None (Some (Known PlateModel)) 6 7 [0; 90] (Some (1/8)) [1/8; 1/8] [1; 2; 3] [[1; 2; 3]; [1; 2; 3]] (1300) [1300; 1300] (1/10) false (Some ex_lam) None None
    (1, 2, 3) (0, 0, 0) (Some true) None None (Some 1) (Some 2) (Some 3) None None None None None.
Lemma ex_kM_runs : exists p' K,
  calc_kM ex_env (SStr 5) 2 2 (Some (6%nat, 7%nat, fun i j => INR i + 1)) (Some (6%nat, 7%nat, fun i j => INR j + 1)) None None true ex_built = (p', Ok K).
Proof.
  eapply calc_kM_ok; try reflexivity; cbn; lia.
Qed.
