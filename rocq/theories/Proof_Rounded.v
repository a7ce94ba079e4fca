(* Geometric stiffness and mass with the stored tables. *)
From Coq Require Import Reals List Arith Bool Lia Lra.
From Coquelicot Require Import Coquelicot.
From Verif Require Import Base_Sum Model_Types Model_Coo Model_Result Model_Num Model_DB Model_Bardell Model_Shell
  Spec_Algebra Spec_Kinematics Spec_Quadrature Spec_Panel Spec_Shell Spec_Bardell Spec_Integral Spec_Rounded
  Proof_Coo Proof_Num Proof_Energy Proof_Shell Proof_Total Proof_Api Proof_Bardell Proof_BardellInt
  Proof_AnaKer Proof_Ana Proof_Ana2 Proof_Ana3 Proof_AnaApi.
Import ListNotations.
Open Scope R_scope.

Lemma calc_kG_rounded :
  forall E A p p' K Nxx Nyy Nxy,
  calc_kG E A p = (p', Ok K) -> ka_c A = None -> ka_NL A = false -> ka_fin A = true -> ka_row0 A = ka_col0 A ->
  geometry_ok (chosen_model p) (kernel_view p) -> pn_N p = (Nxx, Nyy, Nxy) ->
  e_tables E = code_tables -> (sh_m (pn_sh p) <= 30)%nat -> (sh_n (pn_sh p) <= 30)%nat ->
  forall r t, exists I : nat -> nat -> R,
  (forall a b, (a < 2)%nat -> (b < 2)%nat -> panel_integral (kernel_view p) (fun xi eta =>
    slope exact_basis (kernel_view p) (own (ka_col0 A) (unitv r)) xi eta a *
    slope exact_basis (kernel_view p) (own (ka_col0 A) (unitv t)) xi eta b) (I a b)) /\
  Rabs (K r t - (Nxx * I 0%nat 0%nat + Nyy * I 1%nat 1%nat + Nxy * (I 0%nat 1%nat + I 1%nat 0%nat))) <=
  11 / 10 ^ 15 * (Rabs Nxx * Rabs (I 0%nat 0%nat) + Rabs Nyy * Rabs (I 1%nat 1%nat) +
                  Rabs Nxy * (Rabs (I 0%nat 1%nat) + Rabs (I 1%nat 0%nat))).
Proof.
  intros E A p p' K Nxx Nyy Nxy H H1 H3 Hf Hrc Hg HN HE Hm Hn r t.
  pose proof (calc_kG_analytic _ _ _ _ _ H H1 H3) as HA. rewrite HN in HA.
  destruct HA as (kG & HK & _ & HkG). set (s := kernel_view p) in *.
  rewrite Hf in HK. cbn [finalized] in HK.
  assert (HB : block_form (ka_col0 A) (sh_m s) (sh_n s) (V_ana code_tables s (sh_a s * sh_b s / 4) 2 (Nmat Nxx Nyy Nxy) (opG s)) (dense kG)).
  { rewrite HkG, Hrc, HE. apply fkG0_dense. exact Hg. }
  destruct (ana_rounded (5 / 10 ^ 15) code_tables exact_tables exact_basis s 2 (Nmat Nxx Nyy Nxy) (opG s) (ka_col0 A) (dense kG)
     ltac:(lra) (code_tables_symmetric _)
     (exact_tables_integrate (Nat.max (sh_m s) (sh_n s)) (Nat.max_lub _ _ _ Hm Hn))
     (code_one_d_close (Nat.max (sh_m s) (sh_n s)) (Nat.max_lub _ _ _ Hm Hn)) ltac:(intros; apply Nmat_sym) HB r t) as (I & HI & HR).
  exists I. split.
  - intros a b Ha Hb. eapply panel_integral_ext; [|apply (HI a b)]. intros; cbv beta zeta. rewrite !cfield_opG by assumption.
    destruct a as [|[|a]]; try lia; destruct b as [|[|b]]; try lia; reflexivity.
  - rewrite HK. cbn [sumn Nmat] in HR.
    match type of HR with Rabs (_ - ?u) <= ?c * ?v =>
      replace u with (Nxx * I 0%nat 0%nat + Nyy * I 1%nat 1%nat + Nxy * (I 0%nat 1%nat + I 1%nat 0%nat)) in HR by ring;
      replace v with (Rabs Nxx * Rabs (I 0%nat 0%nat) + Rabs Nyy * Rabs (I 1%nat 1%nat) +
                  Rabs Nxy * (Rabs (I 0%nat 1%nat) + Rabs (I 1%nat 0%nat))) in HR by ring end.
    eapply Rle_trans; [exact HR|]. apply Rmult_le_compat_r; [|lra].
    repeat apply Rplus_le_le_0_compat; repeat apply Rmult_le_pos; try apply Rabs_pos.
    apply Rplus_le_le_0_compat; apply Rabs_pos.
Qed.

Lemma calc_kM_rounded :
  forall E sz row0 col0 nxo nyo p p' K,
  calc_kM E sz row0 col0 None None nxo nyo true p = (p', Ok K) -> row0 = col0 ->
  geometry_ok (chosen_model p) (kernel_view p) ->
  e_tables E = code_tables -> (sh_m (pn_sh p) <= 30)%nat -> (sh_n (pn_sh p) <= 30)%nat ->
  forall r t, exists I : nat -> R,
  let h := fold_left Rplus (pn_plyts p) 0 in
  let m := inertia (833333333333333 / 10000000000000000) h (pn_rho p) in
  (forall a, (a < 5)%nat -> panel_integral (kernel_view p) (fun xi eta =>
    motion exact_basis (kernel_view p) (pn_offset p) (own col0 (unitv r)) xi eta a *
    motion exact_basis (kernel_view p) (pn_offset p) (own col0 (unitv t)) xi eta a) (I a)) /\
  Rabs (K r t - sumn 5 (fun a => m a * I a)) <= 11 / 10 ^ 15 * sumn 5 (fun a => Rabs (m a) * Rabs (I a)).
Proof.
  intros E sz row0 col0 nxo nyo p p' K H -> Hg HE Hm Hn r t.
  apply calc_kM_analytic in H. set (h := fold_left Rplus (pn_plyts p) 0) in *. set (s := kernel_view p) in *.
  cbn [finalized] in H.
  assert (HB : block_form col0 (sh_m s) (sh_n s) (V_ana code_tables s (sh_a s * sh_b s / 4) 5 (Mmat h (pn_rho p)) (opM (pn_offset p) s))
     (dense (fkM (chosen_model p) (e_tables E) s (pn_rho p) h (pn_offset p) col0 col0))).
  { rewrite HE. apply fkM_dense. exact Hg. }
  destruct (ana_rounded (5 / 10 ^ 15) code_tables exact_tables exact_basis s 5 (Mmat h (pn_rho p)) (opM (pn_offset p) s) col0 _
     ltac:(lra) (code_tables_symmetric _)
     (exact_tables_integrate (Nat.max (sh_m s) (sh_n s)) (Nat.max_lub _ _ _ Hm Hn))
     (code_one_d_close (Nat.max (sh_m s) (sh_n s)) (Nat.max_lub _ _ _ Hm Hn)) ltac:(intros; apply Mmat_sym) HB r t) as (I & HI & HR).
  exists (fun a => I a a). cbv zeta. split.
  - intros a Ha. eapply panel_integral_ext; [|apply (HI a a)]. intros; cbv beta zeta. rewrite !cfield_opM, !cfield_Mop by assumption.
    change (shift col0) with (own col0).
    destruct a as [|[|[|[|[|a]]]]]; try lia; reflexivity.
  - rewrite H. cbn [sumn Mmat inertia] in HR |- *. fold twelfth.
    match goal with |- Rabs (_ - ?u) <= ?c * ?v => match type of HR with Rabs (_ - ?u') <= ?c' * ?v' =>
      replace u' with u in HR by ring;
      replace v' with v in HR by (rewrite ?Rabs_R0; ring) end end.
    eapply Rle_trans; [exact HR|]. apply Rmult_le_compat_r; [|lra].
    repeat apply Rplus_le_le_0_compat; try lra; apply Rmult_le_pos; apply Rabs_pos.
Qed.
