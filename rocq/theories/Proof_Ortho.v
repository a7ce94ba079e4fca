(* The forced orthotropic laminate. *)
From Coq Require Import Reals List Arith Bool Lia Lra.
From Verif Require Import Base_Sum Model_Types Model_Result Model_DB Model_Shell Model_Field Spec_Panel Spec_Shell Spec_Ortho Proof_Shell Ex_Panel Ex_Fint.
From Coq Require Import List.
Import ListNotations.
Open Scope R_scope.

Lemma lam_uncoupled L : uncoupled (lam_matrix true L) (lam_ABD L).
Proof.
  intros i j Hi Hj. unfold shearing.
  do 6 (destruct i as [|i]; [do 6 (destruct j as [|j]; [split; intro H; cbn; try reflexivity; exfalso; (apply H; split; lia) || (destruct H as [H1 H2]; lia)|]); lia|]). lia.
Qed.
Lemma lam_plain L i j : lam_matrix false L i j = lam_ABD L i j.
Proof. reflexivity. Qed.

(* the matrix stored by every calculation, with and without the flag, whatever was calculated before *)
Theorem laminate_is_orthotropic : forall E p p' u, rebuild E p = (p', Ok u) -> exists F, pn_ABD p' = Some F /\
  (pn_ortho p = true -> uncoupled F (lam_ABD (rebuilt_lam E p))) /\
  (pn_ortho p = false -> forall i j, F i j = lam_ABD (rebuilt_lam E p) i j).
Proof.
  intros E p p' u H. apply rebuild_inv in H. destruct H as (_ & _ & _ & _ & _ & _ & _ & H & _). eexists. split; [exact H|].
  split; intros ->; [apply lam_uncoupled|intros; apply lam_plain].
Qed.

(* with such a matrix the shear and twist resultants come from gxy and kxy only, the others from the other strains only *)
Theorem resultants_uncoupled : forall sched Bs nc c xs ys gx gy NL p p' F G XY S, pn_ABD p = Some F -> uncoupled F G ->
  shell_stress sched Bs nc c None xs ys gx gy NL p = (p', Ok (XY, S)) ->
  exists e, shell_strain sched Bs nc c xs ys gx gy NL p = (p', Ok (XY, e)) /\
  forall q, (q < length (nth 0 e []))%nat -> let v k := nth q (nth k e []) 0 in
    (forall i, shearing i -> nth q (nth i S []) 0 = v 2%nat * G i 2%nat + v 5%nat * G i 5%nat) /\
    (forall i, (i < 6)%nat -> ~ shearing i -> nth q (nth i S []) 0 = v 0%nat * G i 0%nat + v 1%nat * G i 1%nat + v 3%nat * G i 3%nat + v 4%nat * G i 4%nat).
Proof.
  intros sched Bs nc c xs ys gx gy NL p p' F G XY S HF HU. unfold shell_stress, mbind, mget.
  destruct (shell_strain sched Bs nc c xs ys gx gy NL p) as [p1 [[XY1 e]|er]] eqn:E; [|discriminate].
  assert (p1 = p) as ->.
  { revert E. unfold shell_strain, mbind, mget, mlift, the_model. destruct (default_field (pn_sh p) xs ys gx gy); [|discriminate].
    destruct (pn_model p) as [[m|]|]; try discriminate. destruct (pn_r p); [|discriminate]. destruct (fstrain _ _ _ _ _ _ _ _); [|discriminate]. intro E. injection E. auto. }
  rewrite HF. unfold mret. intro ES. injection ES as <- <- <-. exists e. split; [reflexivity|]. intros q Hq. set (v := fun k => nth q (nth k e []) 0).
  assert (R : forall i, (i < 6)%nat -> nth q (nth i (map (fun r => map (fun q => nth q (nth 0 e []) 0 * F r 0%nat + nth q (nth 1 e []) 0 * F r 1%nat + nth q (nth 2 e []) 0 * F r 2%nat
      + nth q (nth 3 e []) 0 * F r 3%nat + nth q (nth 4 e []) 0 * F r 4%nat + nth q (nth 5 e []) 0 * F r 5%nat) (seq 0 (length (nth 0 e [])))) (seq 0 6)) []) 0
    = v 0%nat * F i 0%nat + v 1%nat * F i 1%nat + v 2%nat * F i 2%nat + v 3%nat * F i 3%nat + v 4%nat * F i 4%nat + v 5%nat * F i 5%nat).
  { intros i Hi. unfold v.
    assert (N : forall (g : nat -> R) n, (q < n)%nat -> nth q (map g (seq 0 n)) 0 = g q).
    { intros g n Hn. rewrite (nth_indep _ 0 (g 0%nat)) by (rewrite map_length, seq_length; exact Hn). rewrite map_nth, seq_nth by exact Hn. reflexivity. }
    do 6 (destruct i as [|i]; [cbn [seq map nth]; rewrite N by exact Hq; reflexivity|]). lia. }
  split; [intros i Hs; assert (Hi : (i < 6)%nat) by (unfold shearing in Hs; lia)|intros i Hi Hs]; rewrite R by lia; pose proof (fun j Hj => HU i j Hi Hj) as U.
  - rewrite (proj1 (U 0%nat ltac:(lia))), (proj1 (U 1%nat ltac:(lia))), (proj1 (U 3%nat ltac:(lia))), (proj1 (U 4%nat ltac:(lia))), (proj2 (U 2%nat ltac:(lia))), (proj2 (U 5%nat ltac:(lia)))
      by (unfold shearing in *; lia). unfold v. ring.
  - rewrite (proj2 (U 0%nat ltac:(lia))), (proj2 (U 1%nat ltac:(lia))), (proj2 (U 3%nat ltac:(lia))), (proj2 (U 4%nat ltac:(lia))), (proj1 (U 2%nat ltac:(lia))), (proj1 (U 5%nat ltac:(lia)))
      by (unfold shearing in *; lia). unfold v. ring.
Qed.

(* a laminate with every entry non-zero *)
Definition full_lib : lamlib := fun stack ts props rhos off => mkLam (fun i j => INR (i + j + 1)) 1 1.
Definition full_env : env := mkEnv (e_rule ex_env) (e_basis ex_env) (e_tables ex_env) full_lib.
Definition ortho_panel : panel :=
  mkPanel one_shell (Some 0) (Some (Known PlateModel)) 2 2 [0] (Some (1/8)) [] [1; 2; 3] [] (1300) [] 0 true None None None
    (0, 0, 0) (0, 0, 0) (Some true) None None (Some 1) (Some 2) (Some 3) None None None None None.
