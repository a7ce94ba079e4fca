(* The default mesh. *)
From Coq Require Import Reals List Arith Bool Lia Lra.
From Verif Require Import Base_Sum Model_Types Model_Coo Model_Result Model_DB Model_Shell Model_Field Spec_Mesh.
From Coq Require Import List.
Import ListNotations.
Open Scope R_scope.

Lemma nth_flat {A} (f : A -> list R) n (l : list A) d0 : (forall y, length (f y) = n) -> forall j i, (i < n)%nat -> (j < length l)%nat ->
  nth (j * n + i) (flat_map f l) 0 = nth i (f (nth j l d0)) 0.
Proof.
  intros Hf. induction l as [|y l IH]; intros j i Hi Hj; [cbn in Hj; lia|]. cbn [flat_map]. destruct j as [|j].
  - cbn [Nat.mul Nat.add nth]. rewrite app_nth1 by (rewrite Hf; exact Hi). reflexivity.
  - cbn [length] in Hj. rewrite app_nth2 by (rewrite Hf; cbn; lia). rewrite Hf. replace (S j * n + i - n)%nat with (j * n + i)%nat by (cbn; lia).
    cbn [nth]. apply IH; lia.
Qed.
Lemma length_flat {A} (f : A -> list R) n (l : list A) : (forall y, length (f y) = n) -> length (flat_map f l) = (length l * n)%nat.
Proof. intro Hf. induction l as [|y l IH]; [reflexivity|]. cbn [flat_map]. rewrite app_length, Hf, IH. cbn. lia. Qed.
Lemma linspace_length len n : length (linspace len n) = n.
Proof. unfold linspace. rewrite map_length, seq_length. reflexivity. Qed.
Lemma linspace_nth len n i : (i < n)%nat -> nth i (linspace len n) 0 = station len n i.
Proof.
  intro Hi. unfold linspace. set (g := fun i => INR i * (len / INR (n - 1))). rewrite (nth_indep _ 0 (g 0%nat)) by (rewrite map_length, seq_length; exact Hi).
  rewrite map_nth, seq_nth by exact Hi. unfold g, station. cbn [Nat.add]. destruct (Nat.eqb_spec n 1) as [->|N].
  - replace i with 0%nat by lia. cbn. ring.
  - field. apply not_0_INR. lia.
Qed.
Lemma grid_filled a b gx gy : let XY := meshgrid (linspace a gx) (linspace b gy) in
  filled gx gy (fun i _ => station a gx i) (fst XY) /\ filled gx gy (fun _ j => station b gy j) (snd XY).
Proof.
  unfold meshgrid, filled. cbn [fst snd]. rewrite !linspace_length. split; (split; [reflexivity|]); split.
  - rewrite (length_flat (fun _ : R => linspace a gx) gx) by (intro; apply linspace_length). rewrite linspace_length. reflexivity.
  - intros i j Hi Hj. rewrite (nth_flat (fun _ : R => linspace a gx) gx (linspace b gy) 0 (fun _ => linspace_length a gx) j i Hi) by (rewrite linspace_length; exact Hj). apply linspace_nth. exact Hi.
  - rewrite (length_flat (fun y : R => map (fun _ => y) (linspace a gx)) gx) by (intro; rewrite map_length; apply linspace_length). rewrite linspace_length. reflexivity.
  - intros i j Hi Hj. rewrite (nth_flat (fun y : R => map (fun _ => y) (linspace a gx)) gx (linspace b gy) 0); [|intro; rewrite map_length; apply linspace_length|exact Hi|rewrite linspace_length; exact Hj].
    rewrite (nth_indep _ 0 ((fun _ => nth j (linspace b gy) 0) 0)) by (rewrite map_length, linspace_length; exact Hi).
    rewrite (map_nth (fun _ => nth j (linspace b gy) 0) (linspace a gx) 0). apply linspace_nth. exact Hj.
Qed.
Lemma shape_eqb_refl l : shape_eqb l l = true.
Proof. induction l as [|x l IH]; [reflexivity|]. cbn. rewrite Nat.eqb_refl, IH. reflexivity. Qed.
Lemma default_mesh s xs ys gx gy X Y : xs = None \/ ys = None -> default_field s xs ys gx gy = Ok (X, Y) ->
  filled gx gy (fun i _ => station (sh_a s) gx i) X /\ filled gx gy (fun _ j => station (sh_b s) gy j) Y.
Proof.
  intros Hn. unfold default_field.
  assert (E : match xs with Some A => match ys with Some B => (A, B) | None => meshgrid (linspace (sh_a s) gx) (linspace (sh_b s) gy) end
     | None => meshgrid (linspace (sh_a s) gx) (linspace (sh_b s) gy) end = meshgrid (linspace (sh_a s) gx) (linspace (sh_b s) gy))
    by (destruct Hn as [-> | ->]; [reflexivity|destruct xs; reflexivity]).
  rewrite E. pose proof (grid_filled (sh_a s) (sh_b s) gx gy) as G. cbv zeta in G. destruct (meshgrid (linspace (sh_a s) gx) (linspace (sh_b s) gy)) as [A B].
  destruct (shape_eqb (fst A) (fst B)); [|discriminate]. intro E1. injection E1 as <- <-. exact G.
Qed.
Lemma uvw_mesh sched Bs nc c xs ys gx gy p p' XY out : shell_uvw sched Bs nc c xs ys gx gy p = (p', Ok (XY, out)) -> default_field (pn_sh p) xs ys gx gy = Ok XY.
Proof.
  unfold shell_uvw, mbind, mget, mlift, the_model. destruct (default_field (pn_sh p) xs ys gx gy) as [XY'|]; [|discriminate].
  destruct (pn_model p) as [[m|]|]; try discriminate. destruct (fuvw _ _ _ _ _ _ _); [|discriminate]. intro E. injection E as _ -> _. reflexivity.
Qed.
Lemma strain_mesh sched Bs nc c xs ys gx gy NL p p' XY out : shell_strain sched Bs nc c xs ys gx gy NL p = (p', Ok (XY, out)) -> default_field (pn_sh p) xs ys gx gy = Ok XY.
Proof.
  unfold shell_strain, mbind, mget, mlift, the_model. destruct (default_field (pn_sh p) xs ys gx gy) as [XY'|]; [|discriminate].
  destruct (pn_model p) as [[m|]|]; try discriminate. destruct (pn_r p); [|discriminate]. destruct (fstrain _ _ _ _ _ _ _ _); [|discriminate]. intro E. injection E as _ -> _. reflexivity.
Qed.
Lemma stress_mesh sched Bs nc c ABD xs ys gx gy NL p p' XY out : shell_stress sched Bs nc c ABD xs ys gx gy NL p = (p', Ok (XY, out)) -> default_field (pn_sh p) xs ys gx gy = Ok XY.
Proof.
  unfold shell_stress, mbind, mget. destruct (shell_strain sched Bs nc c xs ys gx gy NL p) as [p1 [[XY1 e]|er]] eqn:E; [|discriminate].
  destruct (match ABD with Some F => Some F | None => pn_ABD p1 end); [|discriminate]. intro ES. injection ES as _ -> _. apply (strain_mesh _ _ _ _ _ _ _ _ _ _ _ _ _ E).
Qed.
Lemma given_mesh s X Y gx gy : default_field s (Some X) (Some Y) gx gy = if shape_eqb (fst X) (fst Y) then Ok (X, Y) else Err ValueError.
Proof. reflexivity. Qed.
