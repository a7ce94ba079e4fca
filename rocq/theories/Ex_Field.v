(* A plate with one term per direction: the nonlinear shear strain. *)
From Coq Require Import Reals List Arith Bool Lia Lra Permutation.
From Coquelicot Require Import Coquelicot.
From Verif Require Import Base_Sum Model_Types Model_Coo Model_Result Model_Num Model_DB Model_Bardell Model_Shell Model_Field
  Spec_Algebra Spec_Kinematics Spec_Quadrature Spec_Panel Spec_Shell Spec_Field Proof_Shell Proof_Api
  Proof_FieldApi Proof_FieldDeriv Proof_FieldEdge Ex_Panel Ex_Fint.
Import ListNotations.
Open Scope R_scope.

Definition one_field : panel := set_model (set_r one_panel (Some 0)) (Some (Known PlateModel)).

Lemma one_slopes x y :
  uvw_at vec_basis (kernel_view one_field) (vec one_vec) 3 x y = - (F0' (natural x 2) * F0 (natural y 3)) /\
  uvw_at vec_basis (kernel_view one_field) (vec one_vec) 4 x y = - (2 / 3 * F0 (natural x 2) * F0' (natural y 3)).
Proof.
  unfold uvw_at, d_wx, d_wy, fld, ritz. set (s := kernel_view one_field). change (xedge s 2) with free. change (yedge s 2) with free.
  change (sh_m s) with 1%nat. change (sh_n s) with 1%nat. change (sh_a s) with 2. change (sh_b s) with 3. cbn [sumn].
  rewrite !(vec_shape _ 0) by lia. rewrite !shape0, !shape0'. unfold vec, one_vec. cbn -[Rmult Rplus Rdiv F0 F0']. split; field.
Qed.

Theorem shear_refuted : exists p c U E E' x y,
  0 < x < sh_a (pn_sh p) /\ 0 < y < sh_b (pn_sh p) /\
  uvw_is (fun l => l) vec_basis 1 p c U /\ strain_is (fun l => l) vec_basis 1 p c false E /\ strain_is (fun l => l) vec_basis 1 p c true E' /\
  E' 2%nat x y <> E 2%nat x y + U 3%nat x y * U 4%nat x y.
Proof.
  assert (Hs : forall l : list store, Permutation ((fun l => l) l) l) by (intro; apply Permutation_refl).
  assert (HU : uvw_is (fun l => l) vec_basis 1 one_field one_vec (uvw_at vec_basis (kernel_view one_field) (vec one_vec))).
  { apply (uvw_is_ok _ _ _ _ _ PlateModel); try reflexivity; try exact Hs; try discriminate; cbn; lia. }
  assert (HE : forall NL, strain_is (fun l => l) vec_basis 1 one_field one_vec NL (strain_at NL vec_basis (kernel_view one_field) (vec one_vec))).
  { intro NL. apply (strain_is_ok _ _ _ _ _ _ PlateModel); try reflexivity; try exact Hs; try discriminate; try (cbn; lra); cbn; lia. }
  exists one_field, one_vec. do 3 eexists. exists 1, (3/2).
  split; [cbn; lra|]. split; [cbn; lra|]. split; [exact HU|]. split; [exact (HE false)|]. split; [exact (HE true)|].
  destruct (strain_nonlinear vec_basis (fun l => l) 1 one_field one_vec _ _ Hs ltac:(cbn; lra) ltac:(cbn; lra) HU _ 1 (3/2) (HE false) (HE true)) as (_ & _ & -> & _).
  destruct (one_slopes 1 (3/2)) as [-> ->].
  assert (N1 : natural 1 2 = 0) by (unfold natural; field). assert (N2 : natural (3/2) 3 = 0) by (unfold natural; field).
  rewrite N1, N2. unfold F0, F0'. cbn [pow]. intro H. lra.
Qed.
