(* A loaded panel, and a plate on which a prescribed line of u gives no stiffness. *)
From Coq Require Import Reals List Arith Bool Lia Lra Permutation.
From Coquelicot Require Import Coquelicot.
From Verif Require Import Base_Sum Model_Types Model_Coo Model_Result Model_Num Model_DB Model_Bardell Model_Shell Model_Field Model_Fext
  Spec_Algebra Spec_Kinematics Spec_Quadrature Spec_Integral Spec_Bardell Spec_Panel Spec_Shell Spec_Field Spec_Fext Proof_Shell Proof_Total Proof_Gauss
  Proof_Ana Proof_Terms Proof_BardellInt Proof_FieldApi Proof_FieldEdge Proof_Fext Proof_FextApi Proof_Pd Ex_Panel Ex_Fint.
Import ListNotations.
Open Scope R_scope.

(* a history of six definitions, one of them rejected *)
Definition some_calls : list load_call :=
  [ PointLoad 1 (1/2) 0 0 (-10) true;
    LineLoadX 2 (Some (fun y => 3 * y)) None None false;
    LineLoadY 0 None None None false;
    PointPd 1 1 100 (1/10) 0 0 100 0 true;
    LinePdY 3 (Some 5) None None (Some (fun _ => 1)) None None false;
    PointLoad 0 0 1 2 3 false ].

Lemma some_calls_run : exists L outs, run_calls some_calls no_loads = (L, outs) /\
  map snd outs = [Ok tt; Ok tt; Err ValueError; Ok tt; Ok tt; Ok tt].
Proof.
  destruct (run_calls some_calls no_loads) as [L outs] eqn:H. exists L, outs. split; [reflexivity|].
  assert (T : any_const (Some 5) None None = true) by (unfold any_const, truthy; destruct (Req_EM_T 5 0); [lra|reflexivity]).
  unfold some_calls in H. cbn [run_calls call_method] in H. unfold add_distr_pd_fixed_y, pd_entry in H. rewrite T in H. cbn in H.
  apply pair_equal_spec in H. destruct H as [_ <-]. reflexivity.
Qed.

Definition line_shell : shell := one_shell.
Definition line_u : nat -> R := fun k => if (k =? 0)%nat then 1 else 0.
Lemma line_field y : uvw_at code_basis line_shell (own 0 line_u) 0 0 y = F0 (natural y 3).
Proof.
  unfold uvw_at, d_u, fld, ritz. change (sh_m line_shell) with 1%nat. change (sh_n line_shell) with 1%nat. cbn [sumn].
  change (xedge line_shell 0) with free. change (yedge line_shell 0) with free. rewrite !shape0. change (sh_a line_shell) with 2. change (sh_b line_shell) with 3.
  unfold own, line_u. cbn -[Rmult Rplus Rdiv F0]. replace (F0 (natural 0 2)) with 1 by (unfold F0, natural; field). ring.
Qed.
Lemma F0_square : is_line (fun t => F0 t * F0 t) (26 / 35).
Proof.
  unfold is_line. evar_last.
  - eapply is_RInt_ext; [|exact (poly_RInt_from (combine (seq 0 7) [1/4; -(3/4); 9/16; 1/4; -(3/8); 0; 1/16]))].
    intros t _. cbn -[pow Rmult Rplus Rdiv]. unfold F0. match goal with |- ?a = ?b => change (@eq R a b) end. field.
  - cbn -[Rmult Rplus Rdiv exact_moment]. unfold exact_moment. cbn -[INR]. rewrite !INR_IZR_INZ. cbn [Z.of_nat Pos.of_succ_nat Pos.succ]. field.
Qed.
Theorem line_pd_refuted : exists s xp M c I,
  fkCld_xcte code_tables code_basis 1 0 0 s xp (3 * (sh_m s * sh_n s)) 0 0 = Ok M /\
  quad (3 * (sh_m s * sh_n s)) (finalize_symmetric (dense M)) c = 0 /\
  is_RInt (fun y => 1 * uvw_at code_basis s (own 0 c) 0 xp y ^ 2) 0 (sh_b s) I /\ 0 < I.
Proof.
  assert (HM : exists M, fkCld_xcte code_tables code_basis 1 0 0 line_shell 0 (3 * (sh_m line_shell * sh_n line_shell)) 0 0 = Ok M) by (eexists; reflexivity).
  destruct HM as [M HM]. exists line_shell, 0, M, line_u, (3 / 2 * (26 / 35)). split; [exact HM|]. split; [|split; [|lra]].
  - unfold quad. apply (ldx_blind _ _ _ _ _ _ _ _ _ _ _ _ HM); [|cbn; lia|].
    + intros i k e e' _ _. apply code_tables_sym.
    + intro t. unfold own, line_u. destruct (Nat.eqb_spec (0 + (3 * t + 2)) 0); [lia|reflexivity].
  - change (sh_b line_shell) with 3. eapply is_RInt_ext; [|apply side_of_line; [lra|exact F0_square]].
    intros y _. cbn beta. rewrite line_field. match goal with |- ?a = ?b => change (@eq R a b) end. ring.
Qed.
