(* The stiffness of an assembly of plates vanishes on the motions of rigid panels that open no connection. *)
From Coq Require Import Reals List Arith Bool ZArith Lia Lra.
From Coquelicot Require Import Coquelicot.
From Verif Require Import Base_Sum Model_Types Model_Coo Model_Result Model_Num Model_DB Model_Bardell Model_Shell Model_Multi
  Spec_Algebra Spec_Kinematics Spec_Quadrature Spec_Panel Spec_Shell Spec_Bardell Spec_Integral Spec_Fext Spec_Conn Spec_Multi Spec_MultiConn Spec_ConnScale Spec_Modes Spec_Rigid Spec_Tied
  Proof_Shell Proof_AnaApi Proof_Multi Proof_MultiConn Proof_MultiSign Proof_MultiTop Proof_MultiApi Proof_ConnZero Proof_Modes Proof_Rigid Proof_Ana.
From Coq Require Import List.
Import ListNotations.
Open Scope R_scope.

(* ------------------------------------------------- slopes of a rigid panel *)
Section Slopes.
Variables (s : shell) (c : nat -> R).
Hypothesis Hm : (sh_m s <= 30)%nat.
Hypothesis Hn : (sh_n s <= 30)%nat.
Lemma slope_x d p q xi eta (g : R -> R) B : (p < 2)%nat -> -1 <= xi <= 1 -> is_derive g xi B -> (forall t, -1 <= t <= 1 -> fld exact_basis s c d p q t eta = g t) -> fld exact_basis s c d (S p) q xi eta = B.
Proof using Hm Hn. intros Hp Hx Hg H. apply (same_slope (fun t => fld exact_basis s c d p q t eta) g _ _ xi); [apply fld_dx; assumption|exact Hg|exact H|exact Hx]. Qed.
Lemma slope_y d p q xi eta (g : R -> R) B : (q < 2)%nat -> -1 <= eta <= 1 -> is_derive g eta B -> (forall t, -1 <= t <= 1 -> fld exact_basis s c d p q xi t = g t) -> fld exact_basis s c d p (S q) xi eta = B.
Proof using Hm Hn. intros Hp Hx Hg H. apply (same_slope (fun t => fld exact_basis s c d p q xi t) g _ _ eta); [apply fld_dy; assumption|exact Hg|exact H|exact Hx]. Qed.
Variables (kap u0 v0 w0 th al be : R).
Hypothesis HR : rigid kap s c u0 v0 w0 th al be.
Notation X xi := (sh_a s * (xi + 1) / 2). Notation Y eta := (sh_b s * (eta + 1) / 2).
Lemma rigid_slopes xi eta : -1 <= xi <= 1 -> -1 <= eta <= 1 ->
  fld exact_basis s c 0 1 0 xi eta = 0 /\ fld exact_basis s c 0 0 1 xi eta = (- th + kap * (al * Y eta)) * sh_b s / 2 /\
  fld exact_basis s c 1 1 0 xi eta = (th - kap * (al * Y eta)) * sh_a s / 2 /\ fld exact_basis s c 1 0 1 xi eta = - (kap * (w0 + al * X xi + be * Y eta)) * sh_b s / 2 /\
  fld exact_basis s c 2 1 0 xi eta = al * sh_a s / 2 /\ fld exact_basis s c 2 0 1 xi eta = be * sh_b s / 2 /\
  fld exact_basis s c 2 2 0 xi eta = 0 /\ fld exact_basis s c 2 0 2 xi eta = 0 /\ fld exact_basis s c 2 1 1 xi eta = 0.
Proof using Hm Hn HR.
  intros Hx Hy. unfold rigid in HR. cbv zeta in HR. unfold d_u, d_v, d_w in HR.
  assert (WX : forall x y, -1 <= x <= 1 -> -1 <= y <= 1 -> fld exact_basis s c 2 1 0 x y = al * sh_a s / 2).
  { intros x y A B. apply (slope_x 2 0 0 x y (fun t => motion kap u0 v0 w0 th al be 2 (X t) (Y y))); [lia|exact A|cbn [motion]; auto_derive; [exact I|field]|]. intros t T. apply (HR t y T B). }
  assert (WY : forall x y, -1 <= x <= 1 -> -1 <= y <= 1 -> fld exact_basis s c 2 0 1 x y = be * sh_b s / 2).
  { intros x y A B. apply (slope_y 2 0 0 x y (fun t => motion kap u0 v0 w0 th al be 2 (X x) (Y t))); [lia|exact B|cbn [motion]; auto_derive; [exact I|field]|]. intros t T. apply (HR x t A T). }
  split; [apply (slope_x 0 0 0 xi eta (fun t => motion kap u0 v0 w0 th al be 0 (X t) (Y eta))); [lia|exact Hx|cbn [motion]; auto_derive; [exact I|field]|]; intros t T; apply (HR t eta T Hy)|].
  split; [apply (slope_y 0 0 0 xi eta (fun t => motion kap u0 v0 w0 th al be 0 (X xi) (Y t))); [lia|exact Hy|cbn [motion]; auto_derive; [exact I|field]|]; intros t T; apply (HR xi t Hx T)|].
  split; [apply (slope_x 1 0 0 xi eta (fun t => motion kap u0 v0 w0 th al be 1 (X t) (Y eta))); [lia|exact Hx|cbn [motion]; auto_derive; [exact I|field]|]; intros t T; apply (HR t eta T Hy)|].
  split; [apply (slope_y 1 0 0 xi eta (fun t => motion kap u0 v0 w0 th al be 1 (X xi) (Y t))); [lia|exact Hy|cbn [motion]; auto_derive; [exact I|field]|]; intros t T; apply (HR xi t Hx T)|].
  split; [apply WX; assumption|]. split; [apply WY; assumption|].
  split; [apply (slope_x 2 1 0 xi eta (fun _ => al * sh_a s / 2)); [lia|exact Hx|auto_derive; [exact I|reflexivity]|]; intros t T; apply (WX t eta T Hy)|].
  split; [apply (slope_y 2 0 1 xi eta (fun _ => be * sh_b s / 2)); [lia|exact Hy|auto_derive; [exact I|reflexivity]|]; intros t T; apply (WY xi t Hx T)|].
  apply (slope_y 2 1 0 xi eta (fun _ => al * sh_a s / 2)); [lia|exact Hy|auto_derive; [exact I|reflexivity]|]; intros t T; apply (WX xi t Hx T).
Qed.
Hypothesis Ha : 0 < sh_a s.
Hypothesis Hb : 0 < sh_b s.
Lemma rigid_strain xi eta k : -1 <= xi <= 1 -> -1 <= eta <= 1 -> lin_strain kap exact_basis s c xi eta k = 0.
Proof using All.
  intros Hx Hy. destruct (rigid_slopes xi eta Hx Hy) as (A1 & A2 & A3 & A4 & A5 & A6 & A7 & A8 & A9). destruct (HR xi eta Hx Hy) as (_ & _ & A0).
  destruct k as [|[|[|[|[|[|k]]]]]]; cbn [lin_strain]; unfold d_ux, d_uy, d_vx, d_vy, d_wxx, d_wyy, d_wxy; rewrite ?A0, ?A1, ?A2, ?A3, ?A4, ?A7, ?A8, ?A9; cbn [motion]; try reflexivity; field; repeat split; lra.
Qed.
Lemma natural_square x l : 0 < l -> 0 <= x <= l -> -1 <= natural x l <= 1.
Proof.
  intros Hl Hx. unfold natural. assert (0 <= 2 * x / l <= 2); [|lra]. split.
  - apply Rmult_le_pos; [lra|]. left. apply Rinv_0_lt_compat. exact Hl.
  - apply (Rmult_le_reg_r l); [exact Hl|]. field_simplify; lra.
Qed.
Lemma rigid_field x y : 0 <= x <= sh_a s -> 0 <= y <= sh_b s ->
  ritz_field exact_basis s c 0%nat x y = motion kap u0 v0 w0 th al be 0 x y /\ ritz_field exact_basis s c 1%nat x y = motion kap u0 v0 w0 th al be 1 x y /\
  ritz_field exact_basis s c 2%nat x y = w0 + al * x + be * y /\ ritz_field exact_basis s c 3%nat x y = - al /\ ritz_field exact_basis s c 4%nat x y = - be.
Proof using All.
  intros Hx Hy. pose proof (natural_square x _ Ha Hx) as X. pose proof (natural_square y _ Hb Hy) as Y.
  destruct (HR _ _ X Y) as (A1 & A2 & A3). destruct (rigid_slopes _ _ X Y) as (_ & _ & _ & _ & B1 & B2 & _).
  unfold ritz_field, d_wx, d_wy. rewrite A1, A2, A3, B1, B2. cbn [motion]. unfold natural. repeat split; field; repeat split; lra.
Qed.
End Slopes.

(* ------------------------------------------------- seams *)
Definition at_rest (s : shell) (c : nat -> R) : Prop := forall xi eta, -1 <= xi <= 1 -> -1 <= eta <= 1 ->
  d_u exact_basis s c xi eta = 0 /\ d_v exact_basis s c xi eta = 0 /\ d_w exact_basis s c xi eta = 0.
Lemma rest_rigid s c : at_rest s c -> rigid 0 s c 0 0 0 0 0 0.
Proof. intros H xi eta Hx Hy. cbv zeta. destruct (H xi eta Hx Hy) as (-> & -> & ->). cbn [motion]. repeat split; field. Qed.
Lemma rigid_rest kap s c : rigid kap s c 0 0 0 0 0 0 -> at_rest s c.
Proof. intros H xi eta Hx Hy. destruct (H xi eta Hx Hy) as (-> & -> & ->). cbn [motion]. repeat split; field. Qed.
Section Seam.
Variables (s : shell) (c : nat -> R).
Hypothesis Hm : (sh_m s <= 30)%nat.
Hypothesis Hn : (sh_n s <= 30)%nat.
Hypothesis Ha : 0 < sh_a s.
Hypothesis Hb : 0 < sh_b s.
Notation V := (ritz_field exact_basis s c).
Lemma rest_field k x y : (k < 5)%nat -> at_rest s c -> 0 <= x <= sh_a s -> 0 <= y <= sh_b s -> V k x y = 0.
Proof using All.
  intros Hk HR Hx Hy. destruct (rigid_field s c Hm Hn 0 0 0 0 0 0 0 (rest_rigid s c HR) Ha Hb x y Hx Hy) as (A0 & A1 & A2 & A3 & A4).
  destruct k as [|[|[|[|[|k]]]]]; [rewrite A0|rewrite A1|rewrite A2|rewrite A3|rewrite A4|lia]; cbn [motion]; field.
Qed.
Lemma zero_of_mult x l : 0 < l -> x * l = 0 -> x = 0.
Proof. intros H E. apply Rmult_integral in E. destruct E; lra. Qed.
Variables (kap u0 v0 w0 th al be : R).
Hypothesis HR : rigid kap s c u0 v0 w0 th al be.
Lemma rest_line_x y : 0 <= y <= sh_b s -> (forall x, x = 0 \/ x = sh_a s -> V 0%nat x y = 0 /\ V 1%nat x y = 0 /\ V 2%nat x y = 0 /\ V 4%nat x y = 0) -> at_rest s c.
Proof using All.
  intros Hy H. destruct (H 0 (or_introl eq_refl)) as (A0 & A1 & A2 & A4). destruct (H (sh_a s) (or_intror eq_refl)) as (B0 & B1 & B2 & B4).
  destruct (rigid_field s c Hm Hn _ _ _ _ _ _ _ HR Ha Hb 0 y ltac:(lra) Hy) as (C0 & C1 & C2 & _ & C4).
  destruct (rigid_field s c Hm Hn _ _ _ _ _ _ _ HR Ha Hb (sh_a s) y ltac:(lra) Hy) as (D0 & D1 & D2 & _ & D4). cbn [motion] in *.
  assert (be = 0) by lra. subst be. assert (T2 : al = 0) by (apply (zero_of_mult _ (sh_a s)); lra). subst al. assert (w0 = 0) by lra. subst w0.
  assert (v0 = 0) by lra. subst v0. assert (T : th = 0) by (apply (zero_of_mult _ (sh_a s)); lra). subst th. assert (u0 = 0) by lra. subst u0. exact (rigid_rest _ _ _ HR).
Qed.
Lemma rest_line_y x : 0 <= x <= sh_a s -> (forall y, y = 0 \/ y = sh_b s -> V 0%nat x y = 0 /\ V 1%nat x y = 0 /\ V 2%nat x y = 0 /\ V 3%nat x y = 0) -> at_rest s c.
Proof using All.
  intros Hx H. destruct (H 0 (or_introl eq_refl)) as (A0 & A1 & A2 & A4). destruct (H (sh_b s) (or_intror eq_refl)) as (B0 & B1 & B2 & B4).
  destruct (rigid_field s c Hm Hn _ _ _ _ _ _ _ HR Ha Hb x 0 Hx ltac:(lra)) as (C0 & C1 & C2 & C4 & _).
  destruct (rigid_field s c Hm Hn _ _ _ _ _ _ _ HR Ha Hb x (sh_b s) Hx ltac:(lra)) as (D0 & D1 & D2 & D4 & _). cbn [motion] in *.
  assert (al = 0) by lra. subst al. assert (w0 = 0) by lra. subst w0. assert (T2 : be = 0) by (apply (zero_of_mult _ (sh_b s)); lra). subst be. assert (u0 = 0) by lra. subst u0.
  assert (T : th = 0) by (apply (zero_of_mult _ (sh_b s)); lra). subst th. assert (v0 = 0) by lra. subst v0. exact (rigid_rest _ _ _ HR).
Qed.
(* the corners (0, 0), (a, 0) and (0, b); the slopes may be counted in *)
Lemma rest_corners dsb : (forall x y, (x = 0 /\ y = 0) \/ (x = sh_a s /\ y = 0) \/ (x = 0 /\ y = sh_b s) ->
  V 0%nat x y - dsb * V 3%nat x y = 0 /\ V 1%nat x y - dsb * V 4%nat x y = 0 /\ V 2%nat x y = 0) -> at_rest s c.
Proof using All.
  intros H. destruct (H 0 0 ltac:(auto)) as (A0 & A1 & A2). destruct (H (sh_a s) 0 ltac:(auto)) as (B0 & B1 & B2). destruct (H 0 (sh_b s) ltac:(auto)) as (C0 & C1 & C2).
  destruct (rigid_field s c Hm Hn _ _ _ _ _ _ _ HR Ha Hb 0 0 ltac:(lra) ltac:(lra)) as (D0 & D1 & D2 & D3 & D4).
  destruct (rigid_field s c Hm Hn _ _ _ _ _ _ _ HR Ha Hb (sh_a s) 0 ltac:(lra) ltac:(lra)) as (E0 & E1 & E2 & E3 & E4).
  destruct (rigid_field s c Hm Hn _ _ _ _ _ _ _ HR Ha Hb 0 (sh_b s) ltac:(lra) ltac:(lra)) as (F0 & F1 & F2 & F3 & F4). cbn [motion] in *.
  rewrite D0, D3 in A0. rewrite D1, D4 in A1. rewrite D2 in A2. rewrite E0, E3 in B0. rewrite E1, E4 in B1. rewrite E2 in B2. rewrite F0, F3 in C0. rewrite F1, F4 in C1. rewrite F2 in C2.
  assert (w0 = 0) by lra. subst w0. assert (T1 : al = 0) by (apply (zero_of_mult _ (sh_a s)); lra). assert (T2 : be = 0) by (apply (zero_of_mult _ (sh_b s)); lra). subst al be.
  assert (v0 = 0) by lra. assert (u0 = 0) by lra. subst u0 v0. assert (T : th = 0) by (apply (zero_of_mult _ (sh_a s)); lra). subst th. exact (rigid_rest _ _ _ HR).
Qed.
End Seam.

Section Pair.
Variables (h : nat -> xpanel) (c : nat -> R) (cn : conn).
Notation s1 := (geometry h (cn_p1 cn)). Notation s2 := (geometry h (cn_p2 cn)).
Notation c1 := (own (start h (cn_p1 cn)) c). Notation c2 := (own (start h (cn_p2 cn)) c).
Hypothesis A1 : 0 < sh_a s1.
Hypothesis B1 : 0 < sh_b s1.
Hypothesis A2 : 0 < sh_a s2.
Hypothesis B2 : 0 < sh_b s2.
Hypothesis M1 : (sh_m s1 <= 30)%nat.
Hypothesis N1 : (sh_n s1 <= 30)%nat.
Hypothesis M2 : (sh_m s2 <= 30)%nat.
Hypothesis N2 : (sh_n s2 <= 30)%nat.
Hypothesis HK : has_keys h cn.
Hypothesis HO : on_panels h cn.
Hypothesis HJ : no_jump exact_basis h cn c.
Lemma scaled_end l1 l2 : 0 < l1 -> l1 * (l2 / l1) = l2.
Proof. intro. field. lra. Qed.
Ltac jumps H := cbv beta zeta in H; unfold jumps_SSycte, jumps_SSxcte, jumps_BFycte, jumps_BFxcte, jumps_SB in H; rewrite !List.Forall_cons_iff in H; cbn [snd] in H; unfold moves in H; destruct H as (J0 & J1 & J2 & J3); try (destruct J3 as (J3 & _)).
Lemma seam_second : at_rest s1 c1 -> moves_rigidly h c (cn_p2 cn) -> at_rest s2 c2.
Proof using All.
  intros HZ (u0 & v0 & w0 & th & al & be & HR).
  assert (Z : forall k x y, (k < 5)%nat -> 0 <= x <= sh_a s1 -> 0 <= y <= sh_b s1 -> ritz_field exact_basis s1 c1 k x y = 0) by (intros; apply rest_field; assumption).
  unfold no_jump in HJ. unfold has_keys, pair_keys in HK. unfold on_panels in HO. destruct (cn_func cn); try contradiction.
  - destruct (cn_y1 cn) as [y1|]; [|destruct HK; congruence]. destruct (cn_y2 cn) as [y2|]; [|destruct HK; congruence]. destruct HO as [O1 O2].
    apply (rest_line_x s2 c2 M2 N2 A2 B2 _ _ _ _ _ _ _ HR y2 O2). intros x Hx.
    assert (exists x', 0 <= x' <= sh_a s1 /\ x' * (sh_a s2 / sh_a s1) = x) as (x' & X1 & X2).
    { destruct Hx as [->| ->]; [exists 0; split; [lra|ring]|exists (sh_a s1); split; [lra|apply scaled_end; exact A1]]. }
    pose proof (HJ y1 y2 x' eq_refl eq_refl X1) as H. rewrite X2 in H. jumps H. rewrite Z in J0, J1, J2, J3 by (lia || lra). repeat split; lra.
  - destruct (cn_x1 cn) as [y1|]; [|destruct HK; congruence]. destruct (cn_x2 cn) as [y2|]; [|destruct HK; congruence]. destruct HO as [O1 O2].
    apply (rest_line_y s2 c2 M2 N2 A2 B2 _ _ _ _ _ _ _ HR y2 O2). intros x Hx.
    assert (exists x', 0 <= x' <= sh_b s1 /\ x' * (sh_b s2 / sh_b s1) = x) as (x' & X1 & X2).
    { destruct Hx as [->| ->]; [exists 0; split; [lra|ring]|exists (sh_b s1); split; [lra|apply scaled_end; exact B1]]. }
    pose proof (HJ y1 y2 x' eq_refl eq_refl X1) as H. rewrite X2 in H. jumps H. rewrite Z in J0, J1, J2, J3 by (lia || lra). repeat split; lra.
  - apply (rest_corners s2 c2 M2 N2 A2 B2 _ _ _ _ _ _ _ HR 0). intros x y Hxy.
    assert (exists xi eta, -1 <= xi <= 1 /\ -1 <= eta <= 1 /\ (xi + 1) * sh_a s2 / 2 = x /\ (eta + 1) * sh_b s2 / 2 = y) as (xi & eta & X1 & X2 & <- & <-).
    { destruct Hxy as [[-> ->]|[[-> ->]|[-> ->]]]; [exists (-1), (-1)|exists 1, (-1)|exists (-1), 1]; repeat split; lra. }
    pose proof (HJ xi eta X1 X2) as H. jumps H. rewrite (Z 0%nat), (Z 3%nat) in J0 by (lia || nra). rewrite (Z 1%nat), (Z 4%nat) in J1 by (lia || nra). rewrite (Z 2%nat) in J2 by (lia || nra). repeat split; lra.
  - destruct (cn_y1 cn) as [y1|]; [|destruct HK; congruence]. destruct (cn_y2 cn) as [y2|]; [|destruct HK; congruence]. destruct HO as [O1 O2].
    apply (rest_line_x s2 c2 M2 N2 A2 B2 _ _ _ _ _ _ _ HR y2 O2). intros x Hx.
    assert (exists x', 0 <= x' <= sh_a s1 /\ x' * (sh_a s2 / sh_a s1) = x) as (x' & X1 & X2).
    { destruct Hx as [->| ->]; [exists 0; split; [lra|ring]|exists (sh_a s1); split; [lra|apply scaled_end; exact A1]]. }
    pose proof (HJ y1 y2 x' eq_refl eq_refl X1) as H. rewrite X2 in H. jumps H. rewrite Z in J0, J1, J2, J3 by (lia || lra). repeat split; lra.
  - destruct (cn_x1 cn) as [y1|]; [|destruct HK; congruence]. destruct (cn_x2 cn) as [y2|]; [|destruct HK; congruence]. destruct HO as [O1 O2].
    apply (rest_line_y s2 c2 M2 N2 A2 B2 _ _ _ _ _ _ _ HR y2 O2). intros x Hx.
    assert (exists x', 0 <= x' <= sh_b s1 /\ x' * (sh_b s2 / sh_b s1) = x) as (x' & X1 & X2).
    { destruct Hx as [->| ->]; [exists 0; split; [lra|ring]|exists (sh_b s1); split; [lra|apply scaled_end; exact B1]]. }
    pose proof (HJ y1 y2 x' eq_refl eq_refl X1) as H. rewrite X2 in H. jumps H. rewrite Z in J0, J1, J2, J3 by (lia || lra). repeat split; lra.
  - apply (rest_corners s2 c2 M2 N2 A2 B2 _ _ _ _ _ _ _ HR 0). intros x y Hxy.
    assert (exists xi eta, -1 <= xi <= 1 /\ -1 <= eta <= 1 /\ (xi + 1) * sh_a s2 / 2 = x /\ (eta + 1) * sh_b s2 / 2 = y) as (xi & eta & X1 & X2 & <- & <-).
    { destruct Hxy as [[-> ->]|[[-> ->]|[-> ->]]]; [exists (-1), (-1)|exists 1, (-1)|exists (-1), 1]; repeat split; lra. }
    pose proof (HJ xi eta X1 X2) as H. jumps H. rewrite (Z 0%nat), (Z 3%nat) in J0 by (lia || nra). rewrite (Z 1%nat), (Z 4%nat) in J1 by (lia || nra). rewrite (Z 2%nat) in J2 by (lia || nra). repeat split; lra.
Qed.
Lemma seam_first : at_rest s2 c2 -> moves_rigidly h c (cn_p1 cn) -> at_rest s1 c1.
Proof using All.
  intros HZ (u0 & v0 & w0 & th & al & be & HR).
  assert (Z : forall k x y, (k < 5)%nat -> 0 <= x <= sh_a s2 -> 0 <= y <= sh_b s2 -> ritz_field exact_basis s2 c2 k x y = 0) by (intros; apply rest_field; assumption).
  assert (EA : forall x, x = 0 \/ x = sh_a s1 -> 0 <= x <= sh_a s1 /\ 0 <= x * (sh_a s2 / sh_a s1) <= sh_a s2).
  { intros x [->| ->]; [rewrite Rmult_0_l|rewrite scaled_end by exact A1]; lra. }
  assert (EB : forall x, x = 0 \/ x = sh_b s1 -> 0 <= x <= sh_b s1 /\ 0 <= x * (sh_b s2 / sh_b s1) <= sh_b s2).
  { intros x [->| ->]; [rewrite Rmult_0_l|rewrite scaled_end by exact B1]; lra. }
  unfold no_jump in HJ. unfold has_keys, pair_keys in HK. unfold on_panels in HO. destruct (cn_func cn); try contradiction.
  - destruct (cn_y1 cn) as [y1|]; [|destruct HK; congruence]. destruct (cn_y2 cn) as [y2|]; [|destruct HK; congruence]. destruct HO as [O1 O2].
    apply (rest_line_x s1 c1 M1 N1 A1 B1 _ _ _ _ _ _ _ HR y1 O1). intros x Hx. destruct (EA x Hx) as [X1 X2].
    pose proof (HJ y1 y2 x eq_refl eq_refl X1) as H. jumps H. rewrite (Z _ (x * (sh_a s2 / sh_a s1)) y2) in J0 by (lia || lra). rewrite (Z _ (x * (sh_a s2 / sh_a s1)) y2) in J1 by (lia || lra). rewrite (Z _ (x * (sh_a s2 / sh_a s1)) y2) in J2 by (lia || lra). rewrite (Z _ (x * (sh_a s2 / sh_a s1)) y2) in J3 by (lia || lra). repeat split; lra.
  - destruct (cn_x1 cn) as [y1|]; [|destruct HK; congruence]. destruct (cn_x2 cn) as [y2|]; [|destruct HK; congruence]. destruct HO as [O1 O2].
    apply (rest_line_y s1 c1 M1 N1 A1 B1 _ _ _ _ _ _ _ HR y1 O1). intros x Hx. destruct (EB x Hx) as [X1 X2].
    pose proof (HJ y1 y2 x eq_refl eq_refl X1) as H. jumps H. rewrite (Z _ y2 (x * (sh_b s2 / sh_b s1))) in J0 by (lia || lra). rewrite (Z _ y2 (x * (sh_b s2 / sh_b s1))) in J1 by (lia || lra). rewrite (Z _ y2 (x * (sh_b s2 / sh_b s1))) in J2 by (lia || lra). rewrite (Z _ y2 (x * (sh_b s2 / sh_b s1))) in J3 by (lia || lra). repeat split; lra.
  - apply (rest_corners s1 c1 M1 N1 A1 B1 _ _ _ _ _ _ _ HR ((thickness h (cn_p1 cn) + thickness h (cn_p2 cn)) / 2)). intros x y Hxy.
    assert (exists xi eta, -1 <= xi <= 1 /\ -1 <= eta <= 1 /\ (xi + 1) * sh_a s1 / 2 = x /\ (eta + 1) * sh_b s1 / 2 = y) as (xi & eta & X1 & X2 & <- & <-).
    { destruct Hxy as [[-> ->]|[[-> ->]|[-> ->]]]; [exists (-1), (-1)|exists 1, (-1)|exists (-1), 1]; repeat split; lra. }
    pose proof (HJ xi eta X1 X2) as H. jumps H. rewrite (Z _ ((xi + 1) * sh_a s2 / 2) ((eta + 1) * sh_b s2 / 2)) in J0 by (lia || nra). rewrite (Z _ ((xi + 1) * sh_a s2 / 2) ((eta + 1) * sh_b s2 / 2)) in J1 by (lia || nra). rewrite (Z _ ((xi + 1) * sh_a s2 / 2) ((eta + 1) * sh_b s2 / 2)) in J2 by (lia || nra). repeat split; lra.
  - destruct (cn_y1 cn) as [y1|]; [|destruct HK; congruence]. destruct (cn_y2 cn) as [y2|]; [|destruct HK; congruence]. destruct HO as [O1 O2].
    apply (rest_line_x s1 c1 M1 N1 A1 B1 _ _ _ _ _ _ _ HR y1 O1). intros x Hx. destruct (EA x Hx) as [X1 X2].
    pose proof (HJ y1 y2 x eq_refl eq_refl X1) as H. jumps H. rewrite (Z _ (x * (sh_a s2 / sh_a s1)) y2) in J0 by (lia || lra). rewrite (Z _ (x * (sh_a s2 / sh_a s1)) y2) in J1 by (lia || lra). rewrite (Z _ (x * (sh_a s2 / sh_a s1)) y2) in J2 by (lia || lra). rewrite (Z _ (x * (sh_a s2 / sh_a s1)) y2) in J3 by (lia || lra). repeat split; lra.
  - destruct (cn_x1 cn) as [y1|]; [|destruct HK; congruence]. destruct (cn_x2 cn) as [y2|]; [|destruct HK; congruence]. destruct HO as [O1 O2].
    apply (rest_line_y s1 c1 M1 N1 A1 B1 _ _ _ _ _ _ _ HR y1 O1). intros x Hx. destruct (EB x Hx) as [X1 X2].
    pose proof (HJ y1 y2 x eq_refl eq_refl X1) as H. jumps H. rewrite (Z _ y2 (x * (sh_b s2 / sh_b s1))) in J0 by (lia || lra). rewrite (Z _ y2 (x * (sh_b s2 / sh_b s1))) in J1 by (lia || lra). rewrite (Z _ y2 (x * (sh_b s2 / sh_b s1))) in J2 by (lia || lra). rewrite (Z _ y2 (x * (sh_b s2 / sh_b s1))) in J3 by (lia || lra). repeat split; lra.
  - apply (rest_corners s1 c1 M1 N1 A1 B1 _ _ _ _ _ _ _ HR ((thickness h (cn_p1 cn) + thickness h (cn_p2 cn)) / 2)). intros x y Hxy.
    assert (exists xi eta, -1 <= xi <= 1 /\ -1 <= eta <= 1 /\ (xi + 1) * sh_a s1 / 2 = x /\ (eta + 1) * sh_b s1 / 2 = y) as (xi & eta & X1 & X2 & <- & <-).
    { destruct Hxy as [[-> ->]|[[-> ->]|[-> ->]]]; [exists (-1), (-1)|exists 1, (-1)|exists (-1), 1]; repeat split; lra. }
    pose proof (HJ xi eta X1 X2) as H. jumps H. rewrite (Z _ ((xi + 1) * sh_a s2 / 2) ((eta + 1) * sh_b s2 / 2)) in J0 by (lia || nra). rewrite (Z _ ((xi + 1) * sh_a s2 / 2) ((eta + 1) * sh_b s2 / 2)) in J1 by (lia || nra). rewrite (Z _ ((xi + 1) * sh_a s2 / 2) ((eta + 1) * sh_b s2 / 2)) in J2 by (lia || nra). repeat split; lra.
Qed.
End Pair.

(* ------------------------------------------------- the energy of one panel *)
Lemma integral_zero_on t g I : (forall x y, -1 <= x <= 1 -> -1 <= y <= 1 -> g x y = 0) -> panel_integral t g I -> I = 0.
Proof.
  intros H [H1 H2]. rewrite <- (is_RInt_unique _ _ _ _ H2).
  rewrite (RInt_ext _ (fun _ => 0)).
  - rewrite RInt_const. apply Rmult_0_r.
  - rewrite Rmin_left, Rmax_right by lra. intros x Hx. rewrite (RInt_ext _ (fun _ => 0)); [rewrite RInt_const; apply Rmult_0_r|].
    rewrite Rmin_left, Rmax_right by lra. intros y Hy. rewrite H by lra. apply Rmult_0_r.
Qed.
Lemma form_zero_l n F (x y : nat -> R) : (forall k, x k = 0) -> form n F x y = 0.
Proof. intro H. unfold form. apply sumn_0; intros. apply sumn_0; intros. rewrite !H. ring. Qed.
Lemma own_energy E M h i K (c : nat -> R) : stiff_panel E h i -> (sh_m (geometry h i) <= M)%nat -> (sh_n (geometry h i) <= M)%nat -> (M <= 30)%nat ->
  tables_integrate (e_tables E) exact_basis M -> own_kC E h true None i K ->
  let Q := bilinear (width (h i)) K (own (start h i) c) (own (start h i) c) in 0 <= Q /\ (Q = 0 <-> moves_rigidly h c i).
Proof.
  intros (HS & HE & HD) Hm Hn HM HT (a & p' & Ha & HR) Q.
  assert (G : start h i = a) by (unfold start; rewrite Ha; reflexivity). 
  destruct HS as (_ & P1 & P2 & _). destruct HE as (E1 & E2 & E3 & E4 & E5). unfold geometry in *.
  set (A := alone true (part a (width (h i)) None)) in *.
  assert (HF : (ka_col0 A + ndof (pn_sh (xp (h i))) <= width (h i))%nat) by (rewrite width_ndof; cbn; lia).
  assert (HT' : tables_integrate (e_tables E) exact_basis (Nat.max (sh_m (pn_sh (xp (h i)))) (sh_n (pn_sh (xp (h i)))))).
  { apply (tables_integrate_le _ _ M); [|exact HT]. apply Nat.max_lub; assumption. }
  pose proof (kC_energy E A (xp (h i)) p' K (width (h i)) HR eq_refl eq_refl eq_refl eq_refl eq_refl eq_refl E1 E2 HF E3 HT' (own (start h i) c) (own (start h i) c)) as HI.
  split; [|split].
  - eapply panel_integral_ge0; [exact E5| |exact HI]. intros x y. apply E4.
  - intro HZ. assert (Hab : 0 < sh_a (pn_sh (xp (h i))) * sh_b (pn_sh (xp (h i)))) by (apply Rmult_lt_0_compat; assumption).
    destruct (null_is_rigid E A (xp (h i)) p' K (width (h i)) HR eq_refl eq_refl eq_refl eq_refl eq_refl eq_refl E1 E2 HF E3 HT' HD Hab (Nat.le_trans _ _ _ Hm HM) (Nat.le_trans _ _ _ Hn HM) (own (start h i) c) HZ) as (u0 & v0 & w0 & th & al & be & R0).
    exists u0, v0, w0, th, al, be. exact R0.
  - intros (u0 & v0 & w0 & th & al & be & R0). eapply integral_zero_on; [|exact HI]. intros x y Hx Hy. cbv beta. apply form_zero_l.
    intro k. apply (rigid_strain _ _ (Nat.le_trans _ _ _ Hm HM) (Nat.le_trans _ _ _ Hn HM) _ _ _ _ _ _ _ R0 P1 P2 x y k Hx Hy).
Qed.
Lemma suml_zero {X} (l : list X) f : (forall x, In x l -> 0 <= f x) -> (suml l f = 0 <-> forall x, In x l -> f x = 0).
Proof.
  induction l as [|x l IH]; intro H; cbn [suml]; [split; [intros _ ? []|reflexivity]|].
  assert (Hx : 0 <= f x) by (apply H; left; reflexivity). assert (HI := IH (fun y Hy => H y (or_intror Hy))).
  assert (HP : 0 <= suml l f). { clear - H. induction l as [|y l IHl]; cbn [suml]; [lra|]. assert (0 <= f y) by (apply H; right; left; reflexivity).
    assert (0 <= suml l f); [|lra]. apply IHl. intros z [<-|Hz]; apply H; [left; reflexivity|right; right; exact Hz]. }
  split.
  - intro HZ. assert (f x = 0) by lra. assert (HL : suml l f = 0) by lra. intros y [<-|Hy]; [assumption|]. apply HI; assumption.
  - intro HA. rewrite (HA x (or_introl eq_refl)). rewrite (proj2 HI); [lra|]. intros y Hy. apply HA. right. exact Hy.
Qed.
Lemma forall2_member {X Y} (P : X -> Y -> Prop) l m x : Forall2 P l m -> In x l -> exists y, In (x, y) (combine l m) /\ P x y.
Proof.
  intro H. induction H as [|a b l m Hab H IH]; [intros []|]. intros [<-|Hx]; [exists b; split; [left; reflexivity|exact Hab]|].
  destruct (IH Hx) as (y & Hy & Py). exists y. split; [right; exact Hy|exact Py].
Qed.

Section Tied.
Variables (E : env) (M k : nat) (arg : option nat) (w : world) (s : assembly).
Let h := w_panel w.
Let ids := as_panels s.
Let size := total_width h ids.
Hypothesis HA : assembled w s.
Hypothesis Hc : as_kC_conn s = None.
Hypothesis Harg : (match arg with Some k' => Some k' | None => as_conn s end) = Some k.
Hypothesis Hl : w_conn w k <> [].
Hypothesis HU : List.Forall (usable h ids) (w_conn w k).
Hypothesis HS : forall i, In i ids -> stiff_panel E h i /\ (sh_m (geometry h i) <= M)%nat /\ (sh_n (geometry h i) <= M)%nat.
Hypothesis HM : (M <= 30)%nat.
Hypothesis HT : tables_integrate (e_tables E) exact_basis M.
Lemma plates_sound : forall i, In i ids -> sound E h i /\ (sh_m (geometry h i) <= M)%nat /\ (sh_n (geometry h i) <= M)%nat.
Proof using HS. intros i Hi. destruct (HS i Hi) as ((H1 & _) & H2). split; assumption. Qed.
Lemma assembly_null : exists w' s' K, asm_kC E exact_basis arg None true w s = (w', s', Ok (Some K)) /\
  forall c, quad size K c = 0 <-> (forall i, In i ids -> moves_rigidly h c i) /\ List.Forall (fun cn => no_jump exact_basis h cn c) (w_conn w k).
Proof using All.
  assert (HE : forall i, In i ids -> elastic E (xp (h i))) by (intros i Hi; apply (HS i Hi)).
  destruct (own_kC_each E M w s HA plates_sound HE) as (Ks & HF).
  assert (HN : forall l, None = Some (CVec l) -> length l = size) by discriminate.
  destruct (asm_kC_energy E exact_basis M k w s HA Hc Hl HU plates_sound HT arg None true Ks Harg HN HF) as (w' & s' & K & KC & HR & _ & _ & HW).
  exists w', s', K. split; [exact HR|]. intro c. destruct (HW c c) as (Ws & W1 & W2 & W3). unfold quad. fold h ids size in W1, W2, W3. rewrite W3. unfold own_forms. fold h ids size in HF.
  set (f := fun iK : nat * matrix => _).
  assert (HP : forall iK, In iK (combine ids Ks) -> 0 <= f iK /\ (f iK = 0 <-> moves_rigidly h c (fst iK))).
  { intros [i K0] Hi. destruct (forall2_in _ _ _ _ _ HF Hi) as (Hin & HO). destruct (HS i Hin) as (S1 & S2 & S3).
    exact (own_energy E M h i K0 c S1 S2 S3 HM HT HO). }
  assert (HQ : 0 <= suml (combine ids Ks) f).
  { clear - HP. induction (combine ids Ks) as [|x l IH]; cbn [suml]; [lra|]. destruct (HP x (or_introl eq_refl)) as [P0 _].
    assert (0 <= suml l f); [|lra]. apply IH. intros y Hy. apply HP. right. exact Hy. }
  pose proof (works_nonneg E exact_basis h ids c _ _ plates_sound HU W1) as HV.
  pose proof (suml_zero (combine ids Ks) f (fun x Hx => proj1 (HP x Hx))) as HZ. split.
  - intro H0. assert (F0 : suml (combine ids Ks) f = 0) by lra. assert (V0 : suml Ws (fun W => W) = 0) by lra. split.
    + intros i Hi. destruct (forall2_member _ _ _ _ HF Hi) as (K0 & HK0 & _). apply (proj2 (HP _ HK0)). apply (proj1 HZ F0). exact HK0.
    + exact (zero_works E exact_basis h ids M c _ _ plates_sound (exact_continuous M HM) HU W1 V0).
  - intros [R1 R2]. rewrite (works_zero E exact_basis h ids c c _ _ plates_sound HU R2 W1). rewrite (proj2 HZ); [lra|].
    intros [i K0] Hi. apply (proj2 (HP _ Hi)). apply R1. exact (in_combine_l _ _ _ _ Hi).
Qed.
Lemma tied_rest c : (forall i, In i ids -> moves_rigidly h c i) -> List.Forall (fun cn => no_jump exact_basis h cn c) (w_conn w k) ->
  forall i, tied h (w_conn w k) i -> In i ids -> at_rest (geometry h i) (own (start h i) c).
Proof using All.
  intros HR HJ i HI. rewrite List.Forall_forall in HJ, HU.
  assert (B : forall i, In i ids -> 0 < sh_a (geometry h i) /\ 0 < sh_b (geometry h i) /\ (sh_m (geometry h i) <= 30)%nat /\ (sh_n (geometry h i) <= 30)%nat).
  { intros j Hj. destruct (HS j Hj) as ((S1 & _) & S2 & S3). destruct S1 as (_ & P1 & P2 & _). repeat split; [exact P1|exact P2|lia|lia]. }
  induction HI as [i HH|cn Hin HO _ IH|cn Hin HO _ IH]; intro Hi.
  - destruct (B i Hi) as (B1 & B2 & B3 & B4). destruct (HR i Hi) as (u0 & v0 & w0 & th & al & be & R0).
    destruct (anchored_still _ _ _ u0 v0 w0 th al be B3 B4 (Rgt_not_eq _ _ B1) (Rgt_not_eq _ _ B2) HH R0) as (-> & -> & -> & -> & -> & ->). exact (rigid_rest _ _ _ R0).
  - destruct (HU cn Hin) as (U1 & U2 & U3 & _). destruct (B _ U1) as (B1 & B2 & B3 & B4). destruct (B _ U2) as (C1 & C2 & C3 & C4).
    apply (seam_second h c cn); auto.
  - destruct (HU cn Hin) as (U1 & U2 & U3 & _). destruct (B _ U1) as (B1 & B2 & B3 & B4). destruct (B _ U2) as (C1 & C2 & C3 & C4).
    apply (seam_first h c cn); auto.
Qed.
Lemma tied_unique K c d f : (forall c, quad size K c = 0 <-> (forall i, In i ids -> moves_rigidly h c i) /\ List.Forall (fun cn => no_jump exact_basis h cn c) (w_conn w k)) ->
  (forall i, In i ids -> tied h (w_conn w k) i) ->
  (forall r, (r < size)%nat -> row size K c r = f r) -> (forall r, (r < size)%nat -> row size K d r = f r) -> forall i, In i ids -> same_motion h c d i.
Proof using All.
  intros HK HTD Hc' Hd' i Hi xi eta Hx Hy.
  assert (HQ : quad size K (fun r => c r - d r) = 0). { apply quad_row. intros r Hr. rewrite row_minus, Hc', Hd' by exact Hr. ring. }
  apply HK in HQ. destruct HQ as [Q1 Q2]. pose proof (tied_rest _ Q1 Q2 i (HTD i Hi) Hi) as HR. destruct (HR xi eta Hx Hy) as (A1 & A2 & A3).
  unfold d_u, d_v, d_w in *. change (own (start h i) (fun r => c r - d r)) with (fun r => own (start h i) c r - own (start h i) d r) in *.
  rewrite fld_minus in A1, A2, A3. repeat split; lra.
Qed.
End Tied.
