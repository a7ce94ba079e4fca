(* C89: force_orthotropic_laminate. *)
From Coq Require Import Reals List Arith Bool Lia Lra Permutation.
From Verif Require Import Base_Sum Model_Types Model_Result Model_DB Model_Shell Model_Field Spec_Panel Spec_Shell Spec_Ortho Proof_Shell Spec_Field Proof_Total Proof_FieldApi Proof_Ortho.
From Coq Require Import List.
Import ListNotations.
Open Scope R_scope.

(* the matrix stored by every calculation, with and without the flag, whatever was calculated before *)
Theorem C89_laminate_is_orthotropic : forall E p p' u, rebuild E p = (p', Ok u) -> exists F, pn_ABD p' = Some F /\
  (pn_ortho p = true -> uncoupled F (lam_ABD (rebuilt_lam E p))) /\
  (pn_ortho p = false -> forall i j, F i j = lam_ABD (rebuilt_lam E p) i j).
Proof. exact laminate_is_orthotropic. Qed.
Print Assumptions C89_laminate_is_orthotropic.

(* with such a matrix the shear and twist resultants come from gxy and kxy only, the others from the other strains only *)
Theorem C89_resultants_uncoupled : forall sched Bs nc c xs ys gx gy NL p p' F G XY S, pn_ABD p = Some F -> uncoupled F G ->
  shell_stress sched Bs nc c None xs ys gx gy NL p = (p', Ok (XY, S)) ->
  exists e, shell_strain sched Bs nc c xs ys gx gy NL p = (p', Ok (XY, e)) /\
  forall q, (q < length (nth 0 e []))%nat -> let v k := nth q (nth k e []) 0 in
    (forall i, shearing i -> nth q (nth i S []) 0 = v 2%nat * G i 2%nat + v 5%nat * G i 5%nat) /\
    (forall i, (i < 6)%nat -> ~ shearing i -> nth q (nth i S []) 0 = v 0%nat * G i 0%nat + v 1%nat * G i 1%nat + v 3%nat * G i 3%nat + v 4%nat * G i 4%nat).
Proof. exact resultants_uncoupled. Qed.
Print Assumptions C89_resultants_uncoupled.

Example C89_case : exists p', rebuild full_env ortho_panel = (p', Ok tt) /\ pn_ortho ortho_panel = true /\ lam_ABD (rebuilt_lam full_env ortho_panel) 0 2 <> 0.
Proof.
  destruct (rebuild_ok full_env ortho_panel) as [p' H].
  - unfold complete. cbn. repeat split; try discriminate; right; discriminate.
  - exists p'. split; [exact H|]. split; [reflexivity|]. cbn. lra.
Qed.
Example C89_case_resultants : exists p' F XY S, rebuild full_env ortho_panel = (p', Ok tt) /\ pn_ABD p' = Some F /\
  shell_stress (fun l => l) vec_basis 1 [0; 0; 1] None (one_point 1) (one_point 1) 1 1 true p' = (p', Ok (XY, S)) /\ length (nth 0 S []) = 1%nat.
Proof.
  destruct (rebuild_ok full_env ortho_panel) as [p' H]; [unfold complete; cbn; repeat split; try discriminate; right; discriminate|].
  destruct (rebuild_inv _ _ _ _ H) as (I & HR & HM & _ & _ & _ & _ & HF & _). pose proof (si_sh _ _ I) as HS.
  exists p'. do 3 eexists. split; [exact H|]. split; [exact HF|]. unfold shell_stress, mbind.
  assert (P : sh_a (pn_sh p') = 2 /\ sh_b (pn_sh p') = 3 /\ sh_m (pn_sh p') = 1%nat /\ sh_n (pn_sh p') = 1%nat) by (rewrite HS; repeat split). destruct P as (Pa & Pb & Pm & Pn).
  rewrite (shell_strain_runs _ _ _ _ _ _ _ _ _ _ PlateModel (([1%nat], [1]), ([1%nat], [1])) (fun l => Permutation_refl l)).
  - unfold mget. rewrite HF. split; reflexivity.
  - rewrite Pa. lra.
  - rewrite Pb. lra.
  - rewrite HM. reflexivity.
  - rewrite HR. discriminate.
  - apply default_one.
  - unfold guard_ok. rewrite Pm, Pn. cbn. repeat split; lia.
Qed.
