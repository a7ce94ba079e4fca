(* C90: the points where the fields of a panel are evaluated. *)
From Coq Require Import Reals List Arith Bool Lia Lra Permutation.
From Verif Require Import Base_Sum Model_Types Model_Result Model_DB Model_Bardell Model_Shell Model_Field Spec_Mesh Spec_Field Proof_FieldApi Proof_Mesh Proof_Plot Ex_Fint Ex_Field Ex_Plot.
From Coq Require Import List.
Import ListNotations.
Open Scope R_scope.

(* without positions: gridx by gridy equally spaced points from corner to corner, row by row *)
Theorem C90_default_mesh : forall sched Bs nc c xs ys gx gy p p' X Y out, xs = None \/ ys = None ->
  shell_uvw sched Bs nc c xs ys gx gy p = (p', Ok ((X, Y), out)) ->
  filled gx gy (fun i _ => station (sh_a (pn_sh p)) gx i) X /\ filled gx gy (fun _ j => station (sh_b (pn_sh p)) gy j) Y.
Proof. intros sched Bs nc c xs ys gx gy p p' X Y out Hn H. apply (default_mesh _ xs ys); [exact Hn|]. apply (uvw_mesh _ _ _ _ _ _ _ _ _ _ _ _ H). Qed.
Print Assumptions C90_default_mesh.
Theorem C90_default_mesh_strain : forall sched Bs nc c xs ys gx gy NL p p' X Y out, xs = None \/ ys = None ->
  shell_strain sched Bs nc c xs ys gx gy NL p = (p', Ok ((X, Y), out)) ->
  filled gx gy (fun i _ => station (sh_a (pn_sh p)) gx i) X /\ filled gx gy (fun _ j => station (sh_b (pn_sh p)) gy j) Y.
Proof. intros sched Bs nc c xs ys gx gy NL p p' X Y out Hn H. apply (default_mesh _ xs ys); [exact Hn|]. apply (strain_mesh _ _ _ _ _ _ _ _ _ _ _ _ _ H). Qed.
Print Assumptions C90_default_mesh_strain.
Theorem C90_default_mesh_stress : forall sched Bs nc c ABD xs ys gx gy NL p p' X Y out, xs = None \/ ys = None ->
  shell_stress sched Bs nc c ABD xs ys gx gy NL p = (p', Ok ((X, Y), out)) ->
  filled gx gy (fun i _ => station (sh_a (pn_sh p)) gx i) X /\ filled gx gy (fun _ j => station (sh_b (pn_sh p)) gy j) Y.
Proof. intros sched Bs nc c ABD xs ys gx gy NL p p' X Y out Hn H. apply (default_mesh _ xs ys); [exact Hn|]. apply (stress_mesh _ _ _ _ _ _ _ _ _ _ _ _ _ _ H). Qed.
Print Assumptions C90_default_mesh_stress.
(* with positions: these, in the shape given *)
Theorem C90_given_positions : forall sched Bs nc c ABD A B gx gy NL p p' X Y out,
  shell_uvw sched Bs nc c (Some A) (Some B) gx gy p = (p', Ok ((X, Y), out)) \/
  shell_strain sched Bs nc c (Some A) (Some B) gx gy NL p = (p', Ok ((X, Y), out)) \/
  shell_stress sched Bs nc c ABD (Some A) (Some B) gx gy NL p = (p', Ok ((X, Y), out)) -> X = A /\ Y = B /\ fst A = fst B.
Proof.
  intros sched Bs nc c ABD A B gx gy NL p p' X Y out H.
  assert (D : default_field (pn_sh p) (Some A) (Some B) gx gy = Ok (X, Y)).
  { destruct H as [H|[H|H]]; [apply (uvw_mesh _ _ _ _ _ _ _ _ _ _ _ _ H)|apply (strain_mesh _ _ _ _ _ _ _ _ _ _ _ _ _ H)|apply (stress_mesh _ _ _ _ _ _ _ _ _ _ _ _ _ _ H)]. }
  rewrite given_mesh in D. destruct (shape_eqb (fst A) (fst B)) eqn:E; [|discriminate]. injection D as <- <-. repeat split. apply shape_eqb_eq. exact E.
Qed.
Print Assumptions C90_given_positions.
(* positions of different shapes are refused by all three *)
Theorem C90_different_shapes_refused : forall sched Bs nc c ABD A B gx gy NL p, fst A <> fst B ->
  shell_uvw sched Bs nc c (Some A) (Some B) gx gy p = (p, Err ValueError) /\
  shell_strain sched Bs nc c (Some A) (Some B) gx gy NL p = (p, Err ValueError) /\
  shell_stress sched Bs nc c ABD (Some A) (Some B) gx gy NL p = (p, Err ValueError).
Proof.
  intros sched Bs nc c ABD A B gx gy NL p H.
  assert (D : default_field (pn_sh p) (Some A) (Some B) gx gy = Err ValueError).
  { rewrite given_mesh. destruct (shape_eqb (fst A) (fst B)) eqn:E; [|reflexivity]. exfalso. apply H, shape_eqb_eq, E. }
  unfold shell_stress, shell_uvw, shell_strain, mbind, mget, mlift. rewrite D. repeat split; reflexivity.
Qed.
Print Assumptions C90_different_shapes_refused.
(* the first and the last station are the edges *)
Theorem C90_edges_included : forall len n, (1 < n)%nat -> station len n 0 = 0 /\ station len n (n - 1) = len.
Proof.
  intros len n H. unfold station. replace (n =? 1)%nat with false by (symmetry; apply Nat.eqb_neq; lia). split; [cbn; unfold Rdiv; ring|].
  field. apply not_0_INR. lia.
Qed.
Print Assumptions C90_edges_included.
Example C90_case : exists X Y out, shell_uvw (fun l => l) vec_basis 1 [0; 0; 1] None None 3 2 one_field = (one_field, Ok ((X, Y), out)) /\ snd X = [0; 1; 2; 0; 1; 2].
Proof.
  do 3 eexists. split.
  - rewrite (shell_uvw_runs _ _ _ _ _ _ _ _ _ PlateModel (meshgrid (linspace 2 3) (linspace 3 2)) (fun l => Permutation_refl l)); [reflexivity|reflexivity|reflexivity|].
    unfold guard_ok. cbn. repeat split; lia.
  - cbn. repeat f_equal; lra.
Qed.
Example C90_case_positions : exists X Y out, shell_uvw (fun l => l) vec_basis 1 [0; 0; 1] (one_point 1) (one_point 2) 3 2 one_field = (one_field, Ok ((X, Y), out)).
Proof.
  do 3 eexists. rewrite (shell_uvw_runs (fun l => l) vec_basis 1 [0; 0; 1] (one_point 1) (one_point 2) 3 2 one_field PlateModel _ (fun l => Permutation_refl l) eq_refl (default_one _ _ _ _ _)); [reflexivity|].
  unfold guard_ok. cbn. repeat split; lia.
Qed.
