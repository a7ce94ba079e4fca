(* A rule that is exact for the polynomials of degree 13, and a panel integrated with it. *)
From Coq Require Import Reals List Arith Bool Lia Lra.
From Coquelicot Require Import Coquelicot.
From Verif Require Import Base_Sum Model_Types Model_Coo Model_Result Model_Num Model_DB Model_Bardell Model_Shell
  Spec_Algebra Spec_Kinematics Spec_Quadrature Spec_Panel Spec_Shell Spec_Bardell Spec_Integral
  Proof_Poly Proof_Bardell Proof_Gauss Proof_Shell Proof_Total Proof_Api Proof_FintApi Ex_Panel Ex_Exact Spec_Window Proof_Window.
Import ListNotations.
Open Scope R_scope.

(* closed Newton-Cotes rule with 13 points *)
Definition nc13 : list (R * R) :=
  [(-(1), 1364651/31531500); (-(5/6), 9903168/31531500); (-(2/3), -(7587864/31531500)); (-(1/2), 35725120/31531500);
   (-(1/3), -(51491295/31531500)); (-(1/6), 87516288/31531500); (0, -(87797136/31531500)); (1/6, 87516288/31531500);
   (1/3, -(51491295/31531500)); (1/2, 35725120/31531500); (2/3, -(7587864/31531500)); (5/6, 9903168/31531500); (1, 1364651/31531500)].
Definition win_env : env := mkEnv (fun n => if (n =? 13)%nat then nc13 else code_rule n) exact_basis exact_tables ex_lib.

Lemma poly_monos l : forall o x, x ^ o * Spec_Window.poly l x = suml (combine (seq o (length l)) l) (fun t => snd t * x ^ fst t).
Proof.
  induction l as [|a l IH]; intros o x.
  - cbn. unfold suml. cbn. ring.
  - cbn [length seq combine Spec_Window.poly]. unfold suml in *. cbn [map fold_right fst snd]. 
    rewrite <- (IH (S o) x). cbn [pow]. ring.
Qed.
Lemma nc13_moment k : (k <= 13)%nat -> suml nc13 (fun t => snd t * fst t ^ k) = exact_moment k.
Proof.
  intro Hk. unfold nc13, suml, exact_moment. cbn [map fold_right fst snd].
  do 14 (destruct k as [|k]; [cbn -[IZR Rmult Rplus Rdiv Ropp]; lra|]). lia.
Qed.
Lemma nc13_exact : rule_exact (e_rule win_env) 13 13.
Proof.
  split; [reflexivity|]. intros f (l & HL & Hf). change (e_rule win_env 13%nat) with nc13.
  pose (tl := combine (seq 0 (length l)) l).
  assert (Hp : forall x, f x = suml tl (fun t => snd t * x ^ fst t)).
  { intro x. rewrite Hf. unfold tl. rewrite <- (poly_monos l 0 x). cbn. ring. }
  replace (suml nc13 (fun t => snd t * f (fst t))) with (suml tl (fun t : nat * R => snd t * exact_moment (fst t))).
  - eapply is_RInt_ext; [|exact (poly_RInt_from tl)]. intros x _. cbv beta. symmetry. apply Hp.
  - rewrite (suml_ext nc13 _ (fun t => suml tl (fun u => snd u * (snd t * fst t ^ fst u)))).
    2:{ intros t _. rewrite Hp. rewrite <- suml_scal. apply suml_ext. intros u _. ring. }
    rewrite suml_swap. apply suml_ext. intros [k a] Hin. cbn [fst snd]. rewrite suml_scal. rewrite nc13_moment; [reflexivity|].
    unfold tl in Hin. apply in_combine_l in Hin. apply in_seq in Hin. lia.
Qed.
Lemma rule_exact_weaken Q n d e : (d <= e)%nat -> rule_exact Q n e -> rule_exact Q n d.
Proof. intros H [H1 H2]. split; [exact H1|]. intros f Hf. apply H2. apply (pu_weaken d e); assumption. Qed.

(* linear and nonlinear arguments, 13 points in each direction *)
Definition win_args (NL : bool) : kargs := mkKargs (SStr 5) 2 2 true (Some (CVec (repeat 1 53))) None (Some 13%nat) (Some 13%nat) None NL.
Lemma win_kC_runs NL r x1 x2 y1 y2 : exists p' K, calc_kC win_env (win_args NL) (limits (ex4_panel r) x1 x2 y1 y2) = (p', Ok K).
Proof. apply calc_kC_ok; try reflexivity; try (cbn; lia); try solve [apply (ex4_complete r) | discriminate]. Qed.
Lemma win_kG_runs NL r x1 x2 y1 y2 : exists p' K, calc_kG win_env (win_args NL) (limits (ex4_panel r) x1 x2 y1 y2) = (p', Ok K).
Proof. apply calc_kG_ok; try reflexivity; try (cbn; lia). apply (ex4_complete r). Qed.
Definition win_h : arr2 := (13%nat, 13%nat, fun _ _ => 1/4).
Definition win_rho : arr2 := (13%nat, 13%nat, fun _ _ => 1300).
Lemma win_kM_runs x1 x2 y1 y2 : exists p' K, calc_kM win_env (SStr 5) 2 2 (Some win_h) (Some win_rho) (Some 13%nat) (Some 13%nat) true (limits ex4_built x1 x2 y1 y2) = (p', Ok K).
Proof. eapply calc_kM_ok; try reflexivity; cbn; lia. Qed.
Lemma win_fint_runs x1 x2 y1 y2 : exists p' u, calc_fint win_env (repeat 1 53) (SStr 5) 2 (Some 13%nat) (Some 13%nat) (Some (FMat ex_ABD)) (limits ex4_built x1 x2 y1 y2) = (p', Ok u).
Proof. eapply calc_fint_ok; try reflexivity; try (cbn; lia); try (intro; discriminate); try exact I. Qed.
(* One term, two points: the stiffness over a window given in full. *)
From Verif Require Import Ex_Fint Ex_Rebuild Proof_Aero Model_Fext Proof_Num.
Definition two_args : kargs := mkKargs SNone 0 0 true (Some (CVec [0; 0; 0])) None (Some 2%nat) (Some 2%nat) None false.
Lemma two_runs x1 x2 y1 y2 : exists p' K, calc_kC thin_env two_args (limits (thin_panel 1 1) x1 x2 y1 y2) = (p', Ok K).
Proof. apply calc_kC_ok; try exact I; try reflexivity; try discriminate; try (cbn; lia). apply (thin_complete 1 1). Qed.
Definition thin_F (i j : nat) : R := if ((i =? 0) && (j =? 0))%nat%bool then 1 * 1 else 0.
Lemma thin_F_is : is_ABD thin_F.
Proof.
  split; intros i j Hi Hj; unfold thin_F.
  - rewrite andb_comm. reflexivity.
  - replace (3 + j =? 0)%nat with false by (symmetry; apply Nat.eqb_neq; lia). replace (3 + i =? 0)%nat with false by (symmetry; apply Nat.eqb_neq; lia).
    rewrite !andb_false_r. reflexivity.
Qed.
Lemma two_lam : laminate_used thin_env two_args (thin_panel 1 1) = FMat thin_F.
Proof. reflexivity. Qed.
Definition ux2 (xi eta : R) : R := (F0' xi * F0 eta) ^ 2.
Notation s2 := (kernel_view (thin_panel 1 1)).
Lemma two_form xi eta :
  let eps v := dstrain (curvature (chosen_model (thin_panel 1 1)) s2) code_basis s2 (state false (own 0 (given_vector (ka_c two_args)))) (own 0 v) xi eta in
  form 6 thin_F (eps (unitv 0)) (eps (unitv 0)) = ux2 xi eta.
Proof.
  cbv zeta. unfold form, thin_F. cbn [sumn Nat.eqb andb].
  assert (EE : dstrain (curvature (chosen_model (thin_panel 1 1)) s2) code_basis s2 (state false (own 0 (given_vector (ka_c two_args)))) (own 0 (unitv 0)) xi eta 0 = F0' xi * F0 eta).
  { unfold dstrain, lin_strain, state, d_ux, d_wx, fld, ritz. change (xedge s2 2) with free. change (yedge s2 2) with free. change (xedge s2 0) with free. change (yedge s2 0) with free.
    change (sh_m s2) with 1%nat. change (sh_n s2) with 1%nat. change (sh_a s2) with 2. cbn [sumn]. rewrite !shape0, !shape0'.
    unfold own, unitv. cbn -[Rmult Rplus Rdiv IZR]. field. }
  rewrite EE. unfold ux2. ring.
Qed.
Lemma two_value x1 x2 p' K : given x1 x2 -> calc_kC thin_env two_args (limits (thin_panel 1 1) x1 x2 (-1) 1) = (p', Ok K) ->
  K 0%nat 0%nat = suml (combine (seq 0 2) (code_rule 2)) (fun px => suml (combine (seq 0 2) (code_rule 2)) (fun py =>
    snd (snd px) * snd (snd py) * ((x2 - x1) / 2) * ((2 - 0) / 2) * ux2 (natural (node x1 x2 (fst (snd px))) 2) (natural (node 0 2 (fst (snd py))) 2))).
Proof.
  intros Hgv H. rewrite <- (bilinear_unit 3 K 0 0) by lia.
  rewrite (kC_window thin_env two_args (thin_panel 1 1) thin_F 3) with (x1 := x1) (x2 := x2) (y1 := -1) (y2 := 1) (p' := p');
    [|left; discriminate|reflexivity|reflexivity|reflexivity|reflexivity|split; [|split]; cbn; (lra || discriminate)|apply two_lam|apply thin_F_is|exact (code_basis_poly 1)|exact H|cbn; lia].
  unfold integrate, xregion, yregion. cbn [shell_limits sh_x1 sh_x2 sh_y1 sh_y2 sh_a sh_b].
  rewrite interval_given by exact Hgv. unfold interval at 1. destruct (Req_EM_T (-1) (-1)) as [_|n]; [|exfalso; apply n; reflexivity].
  apply suml_ext. intros px _. apply suml_ext. intros py _. rewrite two_form. change (sh_a s2) with 2. change (sh_b s2) with 2. ring.
Qed.
(* the two nodes are opposite and the two weights equal *)
Lemma code_rule2 : exists g w, code_rule 2 = [(- g, w); (g, w)] /\ 1/2 < g < 3/5 /\ 0 < w.
Proof.
  exists (lit_val (577350269189625764509148780501957455647601751270126876, 54%nat)%Z), (lit_val (1, 0%nat)%Z). split; [|split].
  - replace (- lit_val (577350269189625764509148780501957455647601751270126876, 54%nat)%Z)
      with (lit_val (-577350269189625764509148780501957455647601751270126876, 54%nat)%Z); [reflexivity|].
    unfold lit_val. cbn [fst snd]. unfold Rdiv. rewrite Ropp_mult_distr_l, <- opp_IZR. reflexivity.
  - unfold lit_val. cbn [fst snd]. lra.
  - unfold lit_val. cbn [fst snd]. lra.
Qed.
Lemma two_windows p1 p2 K1 K2 : calc_kC thin_env two_args (limits (thin_panel 1 1) 0 1 (-1) 1) = (p1, Ok K1) ->
  calc_kC thin_env two_args (limits (thin_panel 1 1) 0 2 (-1) 1) = (p2, Ok K2) -> K1 0%nat 0%nat < K2 0%nat 0%nat.
Proof.
  intros H1 H2. rewrite (two_value 0 1 _ _ ltac:(split; intro; lra) H1), (two_value 0 2 _ _ ltac:(split; intro; lra) H2).
  destruct code_rule2 as (g & w & E & Hg & Hw). rewrite E. unfold suml. cbn [combine seq map fold_right fst snd]. unfold natural, node, ux2.
  set (S := w * (F0 (- g) ^ 2 + F0 g ^ 2)).
  match goal with |- ?A < ?B =>
    replace A with (9/16 * w * S * ((3 - g*g) * (3 - g*g) / 16 + g*g / 4)) by (unfold S, F0, F0'; field);
    replace B with (9/16 * w * S * (2 * ((1 - g*g) * (1 - g*g)))) by (unfold S, F0, F0'; field) end.
  assert (HF : 0 < F0 (- g)) by (unfold F0; nra).
  assert (HS : 0 < S). { unfold S. apply Rmult_lt_0_compat; [exact Hw|]. assert (0 < F0 (- g) ^ 2) by (apply pow_lt; exact HF). assert (0 <= F0 g ^ 2) by apply pow2_ge_0. lra. }
  apply Rmult_lt_compat_l; [apply Rmult_lt_0_compat; [lra|exact HS]|].
  assert (Hq : 1/4 < g*g < 9/25) by nra. nra.
Qed.
Lemma two_whole p2 p3 K2 K3 : calc_kC thin_env two_args (limits (thin_panel 1 1) 0 2 (-1) 1) = (p2, Ok K2) ->
  calc_kC thin_env two_args (limits (thin_panel 1 1) (-1) 1 (-1) 1) = (p3, Ok K3) -> K3 0%nat 0%nat = K2 0%nat 0%nat.
Proof.
  intros H2 H3. rewrite <- (bilinear_unit 3 K2 0 0), <- (bilinear_unit 3 K3 0 0) by lia.
  assert (W := kC_window thin_env two_args (thin_panel 1 1) thin_F 3 ltac:(left; discriminate) eq_refl eq_refl eq_refl eq_refl
    ltac:(split; [|split]; cbn; (lra || discriminate)) two_lam thin_F_is (code_basis_poly 1)).
  rewrite (W _ _ _ _ _ _ 3%nat _ _ H2), (W _ _ _ _ _ _ 3%nat _ _ H3) by (cbn; lia).
  rewrite integrate_whole_x; [reflexivity|]. cbn. intro; lra.
Qed.
