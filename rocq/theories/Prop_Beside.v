(* C74: a stiffener of a bay is attached to the panels on both sides of its line. *)
From Coq Require Import Reals List Arith Bool Lra Lia.
From Coquelicot Require Import Coquelicot.
From Verif Require Import Base_Sum Model_Types Model_Result Model_Shell Model_Bay Spec_Bay Spec_Beside Proof_Beside Ex_Bay.
From Coq Require Import List.
Import ListNotations.
Open Scope R_scope.

(* at a line inside the bay: the last panel that ends there and the last panel that begins there; an error exactly when there is none *)
Theorem C74_panels_beside_the_line : forall B ys, ~ close ys 0 -> ~ close ys (sh_b (by_sh B)) ->
  (forall i j, find_panels B ys = Ok (i, j) <-> last_with (ends_at ys) (by_panels B) i /\ last_with (begins_at ys) (by_panels B) j) /\
  (find_panels B ys = Err RuntimeError <-> Forall (fun p => ~ ends_at ys p) (by_panels B) \/ Forall (fun p => ~ begins_at ys p) (by_panels B)).
Proof. exact beside_inside. Qed.
Print Assumptions C74_panels_beside_the_line.

(* at an edge of the bay: twice the panel of that edge *)
Theorem C74_edges_of_the_bay : forall B ys i j,
  (close ys 0 -> ~ close ys (sh_b (by_sh B)) -> Forall (fun p => ~ ends_at ys p) (by_panels B) ->
     (find_panels B ys = Ok (i, j) <-> i = j /\ last_with (fun p => close (sh_y1 (pn_sh p)) ys) (by_panels B) i)) /\
  (~ close ys 0 -> close ys (sh_b (by_sh B)) -> Forall (fun p => ~ begins_at ys p) (by_panels B) ->
     (find_panels B ys = Ok (i, j) <-> i = j /\ last_with (fun p => close (sh_y2 (pn_sh p)) ys) (by_panels B) i)).
Proof. intros B ys i j. split; intros H1 H2 H3; [exact (beside_first B ys H1 H2 H3 i j)|exact (beside_last B ys H1 H2 H3 i j)]. Qed.
Print Assumptions C74_edges_of_the_bay.

(* a stiffener on the line between two neighbours of a divided skin holds these two neighbours, and adding it leaves the skin alone *)
Theorem C74_stiffener_between_neighbours : forall V B B' y k p q rho bb bf bd fd,
  divides y (by_panels B) -> nth_error (by_panels B) k = Some p -> nth_error (by_panels B) (S k) = Some q ->
  ~ close (sh_y2 (pn_sh p)) 0 -> ~ close (sh_y2 (pn_sh p)) (sh_b (by_sh B)) ->
  (add_bladestiff1d V (sh_y2 (pn_sh p)) rho bb bf bd fd B = (B', Ok tt) ->
     exists s, by_s1 B' = by_s1 B ++ [s] /\ s1_p1 s = k /\ s1_p2 s = S k /\ s1_ys s = sh_y2 (pn_sh p) /\ by_panels B' = by_panels B) /\
  (forall mf nf, add_bladestiff2d V (sh_y2 (pn_sh p)) rho bb bf bd fd mf nf B = (B', Ok tt) ->
     exists s, by_s2 B' = by_s2 B ++ [s] /\ s2_p1 s = k /\ s2_p2 s = S k /\ s2_ys s = sh_y2 (pn_sh p) /\ by_panels B' = by_panels B).
Proof.
  intros V B B' y k p q rho bb bf bd fd D Hk Hk1 N0 Nb. destruct (divides_lines _ _ _ _ _ D Hk Hk1) as [L1 L2].
  pose proof (proj2 (proj1 (beside_inside B (sh_y2 (pn_sh p)) N0 Nb) k (S k)) (conj L1 L2)) as HF. split.
  - intro H. destruct (s1_added _ _ _ _ _ _ _ _ _ H) as (i & j & s & F & E & P1 & P2 & P3 & P4). rewrite HF in F. injection F as <- <-.
    exists s. repeat split; assumption.
  - intros mf nf H. destruct (s2_added _ _ _ _ _ _ _ _ _ _ _ H) as (i & j & s & F & E & P1 & P2 & P3 & P4). rewrite HF in F. injection F as <- <-.
    exists s. repeat split; assumption.
Qed.
Print Assumptions C74_stiffener_between_neighbours.

(* two panels, from 0 to 1 and from 1 to 3: stiffeners of both kinds on the line 1, and the first panel at the edge *)
Example C74_two_panels : divides 0 (by_panels two_bay) /\ ~ close 1 0 /\ ~ close 1 (sh_b (by_sh two_bay)) /\
  (exists p q, nth_error (by_panels two_bay) 0 = Some p /\ nth_error (by_panels two_bay) 1 = Some q /\ sh_y2 (pn_sh p) = 1) /\
  find_panels two_bay 1 = Ok (0%nat, 1%nat) /\
  snd (add_bladestiff1d bay_env 1 None (1/2) (1/2) (Ok None) (Ok ex_def) two_bay) = Ok tt /\
  close 0 0 /\ ~ close 0 (sh_b (by_sh two_bay)) /\ Forall (fun p => ~ ends_at 0 p) (by_panels two_bay).
Proof.
  assert (C10 : ~ close 1 0) by (apply close_no, far10). assert (C13 : ~ close 1 3) by (apply close_no, far13).
  split; [cbn; repeat split; lra|]. split; [exact C10|]. split; [exact C13|]. split; [eexists; eexists; repeat split; reflexivity|].
  split; [eapply pick; reflexivity|]. split.
  { unfold add_bladestiff1d, ex_def. unfold bbind at 1 2, blift at 1 2. cbv iota beta. unfold bbind at 1, bget. unfold bbind, blift.
    erewrite pick; [|reflexivity..]. reflexivity. }
  split; [unfold close; rewrite Rminus_0_r, Rabs_R0; lra|].
  split; [unfold close; cbn; rewrite (Rabs_pos_eq 3), Rabs_left1 by lra; lra|].
  repeat constructor; unfold ends_at; cbn; lra.
Qed.
