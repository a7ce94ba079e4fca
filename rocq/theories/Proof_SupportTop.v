(* Supports of the assemblies created by the drivers. *)
From Coq Require Import Reals List Arith Bool Lia Lra.
From Coquelicot Require Import Coquelicot.
From Verif Require Import Base_Sum Model_Types Model_Coo Model_Result Model_Num Model_DB Model_Shell Model_Bardell Model_Field Model_Fext Model_Multi Model_New Model_Cylinder Model_TStiff
  Spec_Quadrature Spec_Algebra Spec_Kinematics Spec_Integral Spec_Bardell Spec_Panel Spec_Shell Spec_Fext Spec_Field Spec_Conn Spec_Multi Spec_MultiConn Spec_Cylinder Spec_TStiff Spec_Support
  Proof_TStiff Proof_TStiffWork Proof_Support.
From Coq Require Import List.
Import ListNotations.
Open Scope R_scope.

Notation among i l := (existsb (Nat.eqb i) l).
Section Flags.
Variable D : tstiff.
Notation S i := (pn_sh (np_panel (panel_no D i))).
Ltac each_panel := unfold panel_no; cbn [Nat.sub nth ts_panels]; unfold skin, tbase, tflange; cbn [np_panel]; destruct (ts_points D) as [[[[? ?] [? ?]] [? ?]]|].
Lemma flags_x1 k : (k < 3)%nat -> forall i, (1 <= i <= 15)%nat ->
  e1t (xedge (S i) k) = if among i [7; 8; 9; 15]%nat then match k with 0%nat => if ts_e D then 1 else 0 | _ => 0 end else 1.
Proof.
  intro Hk. apply (fifteen (fun i => e1t (xedge (S i) k) = if among i [7; 8; 9; 15]%nat then match k with 0%nat => if ts_e D then 1 else 0 | _ => 0 end else 1));
  each_panel; do 3 (destruct k as [|k]; [reflexivity|]); lia.
Qed.
Lemma flags_x2 k : (k < 3)%nat -> forall i, (1 <= i <= 15)%nat -> e2t (xedge (S i) k) = if among i [1; 2; 3; 11]%nat then 0 else 1.
Proof.
  intro Hk. apply (fifteen (fun i => e2t (xedge (S i) k) = if among i [1; 2; 3; 11]%nat then 0 else 1)); each_panel; do 3 (destruct k as [|k]; [reflexivity|]); lia.
Qed.
Lemma flags_y1 k : (k < 3)%nat -> forall i, (1 <= i <= 15)%nat -> e1t (yedge (S i) k) = if among i [3; 6; 9]%nat then match k with 0%nat => 1 | _ => 0 end else 1.
Proof.
  intro Hk. apply (fifteen (fun i => e1t (yedge (S i) k) = if among i [3; 6; 9]%nat then match k with 0%nat => 1 | _ => 0 end else 1)); each_panel; do 3 (destruct k as [|k]; [reflexivity|]); lia.
Qed.
Lemma flags_y2 k : (k < 3)%nat -> forall i, (1 <= i <= 15)%nat -> e2t (yedge (S i) k) = if among i [1; 4; 7]%nat then match k with 0%nat => 1 | _ => 0 end else 1.
Proof.
  intro Hk. apply (fifteen (fun i => e2t (yedge (S i) k) = if among i [1; 4; 7]%nat then match k with 0%nat => 1 | _ => 0 end else 1)); each_panel; do 3 (destruct k as [|k]; [reflexivity|]); lia.
Qed.
Lemma flags_r k : (k < 3)%nat -> forall i, (1 <= i <= 15)%nat -> e1r (xedge (S i) k) = 1 /\ e1r (yedge (S i) k) = 1.
Proof.
  intro Hk. apply (fifteen (fun i => e1r (xedge (S i) k) = 1 /\ e1r (yedge (S i) k) = 1)); each_panel; do 3 (destruct k as [|k]; [split; reflexivity|]); lia.
Qed.
Hypothesis HD : well_sized D.
Lemma at_x0 : forall i, (1 <= i <= 15)%nat -> np_x0 (panel_no D i) = 0 <-> among i [7; 8; 9; 14; 15]%nat = true.
Proof.
  intros i Hi. destruct (panel_place D i Hi) as (-> & _). destruct (sizes D HD) as (S1 & S2 & S3 & S4 & S5 & S6 & S7 & E1 & E2 & E3 & E4 & E5). revert i Hi.
  apply (fifteen (fun i => fst (fst (place D i)) = 0 <-> among i [7; 8; 9; 14; 15]%nat = true)); cbn [place nth fst snd existsb Nat.eqb orb]; (split; [intro; first [reflexivity|exfalso; lra]|intro; first [discriminate|lra]]).
Qed.
Lemma at_x1 : forall i, (1 <= i <= 15)%nat -> np_x0 (panel_no D i) + len (panel_no D i) = ts_a D <-> among i [1; 2; 3; 10; 11]%nat = true.
Proof.
  intros i Hi. destruct (panel_place D i Hi) as (-> & -> & _). destruct (sizes D HD) as (S1 & S2 & S3 & S4 & S5 & S6 & S7 & E1 & E2 & E3 & E4 & E5). revert i Hi.
  apply (fifteen (fun i => fst (fst (place D i)) + snd (fst (place D i)) = ts_a D <-> among i [1; 2; 3; 10; 11]%nat = true)); cbn [place nth fst snd existsb Nat.eqb orb]; (split; [intro; first [reflexivity|exfalso; lra]|intro; first [discriminate|lra]]).
Qed.
Lemma at_y0 : forall i, (1 <= i <= 9)%nat -> np_y0 (panel_no D i) = 0 <-> among i [3; 6; 9]%nat = true.
Proof.
  intros i Hi. assert (Hi' : (1 <= i <= 15)%nat) by lia. destruct (panel_place D i Hi') as (_ & _ & -> & _). destruct (sizes D HD) as (S1 & S2 & S3 & S4 & S5 & S6 & S7 & E1 & E2 & E3 & E4 & E5).
  do 10 (destruct i as [|i]; [first [lia|cbn [place nth fst snd existsb Nat.eqb orb]; (split; [intro; first [reflexivity|exfalso; lra]|intro; first [discriminate|lra]])]|]). lia.
Qed.
Lemma at_y1 : forall i, (1 <= i <= 9)%nat -> np_y0 (panel_no D i) + wid (panel_no D i) = ts_b D <-> among i [1; 4; 7]%nat = true.
Proof.
  intros i Hi. assert (Hi' : (1 <= i <= 15)%nat) by lia. destruct (panel_place D i Hi') as (_ & _ & -> & ->). destruct (sizes D HD) as (S1 & S2 & S3 & S4 & S5 & S6 & S7 & E1 & E2 & E3 & E4 & E5).
  do 10 (destruct i as [|i]; [first [lia|cbn [place nth fst snd existsb Nat.eqb orb]; (split; [intro; first [reflexivity|exfalso; lra]|intro; first [discriminate|lra]])]|]). lia.
Qed.
End Flags.
Lemma view_edges p k : (k < 3)%nat -> xedge (kernel_view p) k = xedge (pn_sh p) k /\ yedge (kernel_view p) k = yedge (pn_sh p) k.
Proof. intro Hk. do 3 (destruct k as [|k]; [split; reflexivity|]). lia. Qed.
Section Top.
Variables (D : tstiff) (k q : nat) (w : world).
Notation h := (w_panel (fst (create_tstiff D k q w))).
Notation P i := (k + (i - 1))%nat.
Hypothesis HD : well_sized D.
Hypothesis HT : forall i, (1 <= i <= 15)%nat -> (m_no D i <= 30)%nat /\ (n_no D i <= 30)%nat.
Lemma geo i : (1 <= i <= 15)%nat -> let s := geometry h (P i) in
  sh_m s = m_no D i /\ sh_n s = n_no D i /\ sh_a s = len (panel_no D i) /\ sh_b s = wid (panel_no D i) /\ 0 < sh_a s /\ 0 < sh_b s /\
  forall c, (c < 3)%nat -> xedge s c = xedge (pn_sh (np_panel (panel_no D i))) c /\ yedge s c = yedge (pn_sh (np_panel (panel_no D i))) c.
Proof using HD.
  intro Hi. cbv zeta. unfold geometry. destruct (ts_world D k q w i Hi) as (-> & _).
  destruct (panel_data D i Hi) as (_ & _ & _ & _ & _ & _ & _ & _ & _ & M & N & _). destruct (len_pos D HD i Hi) as [L1 L2].
  split; [exact M|]. split; [exact N|]. split; [reflexivity|]. split; [reflexivity|]. split; [exact L1|]. split; [exact L2|]. intros c Hc. apply view_edges. exact Hc.
Qed.
Lemma outer_x0 Bs t i c : shape_data Bs t -> (1 <= i <= 15)%nat -> (c < 3)%nat -> i <> 14%nat -> np_x0 (panel_no D i) = 0 -> c <> 0%nat \/ ts_e D = false -> rests_x Bs t h (P i) c 0.
Proof using All.
  intros HS Hi Hc Hn H0 He. destruct (geo i Hi) as (G1 & G2 & G3 & G4 & G5 & G6 & G7). destruct (HT i Hi) as [T1 T2].
  apply rest_x0; try assumption; try lia. rewrite (proj1 (G7 c Hc)). rewrite (flags_x1 D c Hc i Hi). apply (at_x0 D HD i Hi) in H0.
  assert (HM : among i [7; 8; 9; 15]%nat = true). { cbn [existsb] in *. rewrite !orb_true_iff, !Nat.eqb_eq in *. intuition. }
  rewrite HM. destruct c as [|c]; [|reflexivity]. destruct He as [He| ->]; [congruence|reflexivity].
Qed.
Lemma outer_x1 Bs t i c : shape_data Bs t -> (1 <= i <= 15)%nat -> (c < 3)%nat -> i <> 10%nat -> np_x0 (panel_no D i) + len (panel_no D i) = ts_a D -> rests_x Bs t h (P i) c (len (panel_no D i)).
Proof using All.
  intros HS Hi Hc Hn H0. destruct (geo i Hi) as (G1 & G2 & G3 & G4 & G5 & G6 & G7). destruct (HT i Hi) as [T1 T2]. rewrite <- G3.
  apply rest_x1; try assumption; try lia. rewrite (proj1 (G7 c Hc)). rewrite (flags_x2 D c Hc i Hi). apply (at_x1 D HD i Hi) in H0.
  assert (HM : among i [1; 2; 3; 11]%nat = true). { cbn [existsb] in *. rewrite !orb_true_iff, !Nat.eqb_eq in *. intuition. }
  rewrite HM. reflexivity.
Qed.
Lemma outer_y0 Bs t i c : shape_data Bs t -> (1 <= i <= 9)%nat -> (c = 1 \/ c = 2)%nat -> np_y0 (panel_no D i) = 0 -> rests_y Bs t h (P i) c 0.
Proof using All.
  intros HS Hi Hc H0. assert (Hi' : (1 <= i <= 15)%nat) by lia. assert (Hc' : (c < 3)%nat) by lia. destruct (geo i Hi') as (G1 & G2 & G3 & G4 & G5 & G6 & G7). destruct (HT i Hi') as [T1 T2].
  apply rest_y0; try assumption; try lia. rewrite (proj2 (G7 c Hc')). rewrite (flags_y1 D c Hc' i Hi'). apply (at_y0 D HD i Hi) in H0. rewrite H0. destruct Hc as [-> | ->]; reflexivity.
Qed.
Lemma outer_y1 Bs t i c : shape_data Bs t -> (1 <= i <= 9)%nat -> (c = 1 \/ c = 2)%nat -> np_y0 (panel_no D i) + wid (panel_no D i) = ts_b D -> rests_y Bs t h (P i) c (wid (panel_no D i)).
Proof using All.
  intros HS Hi Hc H0. assert (Hi' : (1 <= i <= 15)%nat) by lia. assert (Hc' : (c < 3)%nat) by lia. destruct (geo i Hi') as (G1 & G2 & G3 & G4 & G5 & G6 & G7). destruct (HT i Hi') as [T1 T2]. rewrite <- G4.
  apply rest_y1; try assumption; try lia. rewrite (proj2 (G7 c Hc')). rewrite (flags_y2 D c Hc' i Hi'). apply (at_y1 D HD i Hi) in H0. rewrite H0. destruct Hc as [-> | ->]; reflexivity.
Qed.
Hypothesis HT3 : forall i, (1 <= i <= 15)%nat -> (3 <= m_no D i)%nat /\ (3 <= n_no D i)%nat.
Lemma inner_x0 i c : (1 <= i <= 15)%nat -> (c < 3)%nat -> np_x0 (panel_no D i) <> 0 \/ i = 14%nat \/ (c = 0%nat /\ ts_e D = true) -> moves_x h (P i) c 0.
Proof using All.
  intros Hi Hc H0. destruct (geo i Hi) as (G1 & G2 & G3 & G4 & G5 & G6 & G7). destruct (HT i Hi) as [T1 T2]. destruct (HT3 i Hi) as [T3 T4]. destruct (flags_r D c Hc i Hi) as [R1 R2].
  apply move_x0; try assumption; try lia; [|rewrite (proj2 (G7 c Hc)); exact R2]. rewrite (proj1 (G7 c Hc)). rewrite (flags_x1 D c Hc i Hi).
  destruct (among i [7; 8; 9; 15]%nat) eqn:EM; [|reflexivity]. destruct H0 as [H0|[H0|[-> ->]]]; [|subst i; discriminate EM|reflexivity].
  exfalso. apply H0. apply (at_x0 D HD i Hi). cbn [existsb] in *. rewrite !orb_true_iff, !Nat.eqb_eq in *. intuition.
Qed.
Lemma inner_x1 i c : (1 <= i <= 15)%nat -> (c < 3)%nat -> np_x0 (panel_no D i) + len (panel_no D i) <> ts_a D \/ i = 10%nat -> moves_x h (P i) c (len (panel_no D i)).
Proof using All.
  intros Hi Hc H0. destruct (geo i Hi) as (G1 & G2 & G3 & G4 & G5 & G6 & G7). destruct (HT i Hi) as [T1 T2]. destruct (HT3 i Hi) as [T3 T4]. destruct (flags_r D c Hc i Hi) as [R1 R2]. rewrite <- G3.
  apply move_x1; try assumption; try lia; [|rewrite (proj2 (G7 c Hc)); exact R2]. rewrite (proj1 (G7 c Hc)). rewrite (flags_x2 D c Hc i Hi).
  destruct (among i [1; 2; 3; 11]%nat) eqn:EM; [|reflexivity]. destruct H0 as [H0|H0]; [|subst i; discriminate EM].
  exfalso. apply H0. apply (at_x1 D HD i Hi). cbn [existsb] in *. rewrite !orb_true_iff, !Nat.eqb_eq in *. intuition.
Qed.
Lemma inner_y0 i c : (1 <= i <= 9)%nat -> (c < 3)%nat -> np_y0 (panel_no D i) <> 0 \/ c = 0%nat -> moves_y h (P i) c 0.
Proof using All.
  intros Hi9 Hc H0. assert (Hi : (1 <= i <= 15)%nat) by lia. destruct (geo i Hi) as (G1 & G2 & G3 & G4 & G5 & G6 & G7). destruct (HT i Hi) as [T1 T2]. destruct (HT3 i Hi) as [T3 T4]. destruct (flags_r D c Hc i Hi) as [R1 R2].
  apply move_y0; try assumption; try lia; [|rewrite (proj1 (G7 c Hc)); exact R1]. rewrite (proj2 (G7 c Hc)). rewrite (flags_y1 D c Hc i Hi).
  destruct (among i [3; 6; 9]%nat) eqn:EM; [|reflexivity]. destruct H0 as [H0| ->]; [|reflexivity]. exfalso. apply H0. apply (at_y0 D HD i Hi9). exact EM.
Qed.
Lemma inner_y1 i c : (1 <= i <= 9)%nat -> (c < 3)%nat -> np_y0 (panel_no D i) + wid (panel_no D i) <> ts_b D \/ c = 0%nat -> moves_y h (P i) c (wid (panel_no D i)).
Proof using All.
  intros Hi9 Hc H0. assert (Hi : (1 <= i <= 15)%nat) by lia. destruct (geo i Hi) as (G1 & G2 & G3 & G4 & G5 & G6 & G7). destruct (HT i Hi) as [T1 T2]. destruct (HT3 i Hi) as [T3 T4]. destruct (flags_r D c Hc i Hi) as [R1 R2]. rewrite <- G4.
  apply move_y1; try assumption; try lia; [|rewrite (proj1 (G7 c Hc)); exact R1]. rewrite (proj2 (G7 c Hc)). rewrite (flags_y2 D c Hc i Hi).
  destruct (among i [1; 4; 7]%nat) eqn:EM; [|reflexivity]. destruct H0 as [H0| ->]; [|reflexivity]. exfalso. apply H0. apply (at_y1 D HD i Hi9). exact EM.
Qed.
Lemma stiff_y i c : (10 <= i <= 15)%nat -> (c < 3)%nat -> moves_y h (P i) c 0 /\ moves_y h (P i) c (wid (panel_no D i)).
Proof using All.
  intros Hi10 Hc. assert (Hi : (1 <= i <= 15)%nat) by lia. destruct (geo i Hi) as (G1 & G2 & G3 & G4 & G5 & G6 & G7). destruct (HT i Hi) as [T1 T2]. destruct (HT3 i Hi) as [T3 T4]. destruct (flags_r D c Hc i Hi) as [R1 R2]. rewrite <- G4.
  assert (E1 : among i [3; 6; 9]%nat = false). { destruct (among i [3; 6; 9]%nat) eqn:EM; [|reflexivity]. exfalso. cbn [existsb] in EM. rewrite !orb_true_iff, !Nat.eqb_eq in EM. intuition (congruence || lia). }
  assert (E2 : among i [1; 4; 7]%nat = false). { destruct (among i [1; 4; 7]%nat) eqn:EM; [|reflexivity]. exfalso. cbn [existsb] in EM. rewrite !orb_true_iff, !Nat.eqb_eq in EM. intuition (congruence || lia). }
  split.
  - apply move_y0; try assumption; try lia; [|rewrite (proj1 (G7 c Hc)); exact R1]. rewrite (proj2 (G7 c Hc)). rewrite (flags_y1 D c Hc i Hi). rewrite E1. reflexivity.
  - apply move_y1; try assumption; try lia; [|rewrite (proj1 (G7 c Hc)); exact R1]. rewrite (proj2 (G7 c Hc)). rewrite (flags_y2 D c Hc i Hi). rewrite E2. reflexivity.
Qed.
End Top.
Lemma terms_no lo hi D : terms_between lo hi D -> forall i, (1 <= i <= 15)%nat -> (lo <= m_no D i <= hi)%nat /\ (lo <= n_no D i <= hi)%nat.
Proof.
  intros (A1 & A2 & A3 & A4 & A5 & A6) i Hi. do 16 (destruct i as [|i]; [first [exfalso; lia | split; assumption]|]). lia.
Qed.
