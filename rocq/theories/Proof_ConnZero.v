(* Connections that do no work. *)
From Coq Require Import Reals List Arith Bool Lia Lra.
From Coquelicot Require Import Coquelicot.
From Verif Require Import Base_Sum Model_Types Model_Coo Model_Result Model_Num Model_DB Model_Bardell Model_Shell Model_Multi
  Spec_Algebra Spec_Kinematics Spec_Quadrature Spec_Integral Spec_Bardell Spec_Panel Spec_Shell Spec_Fext Spec_Conn Spec_Multi Spec_MultiConn Spec_ConnScale
  Proof_Bardell Proof_Aero Proof_MultiConn Proof_MultiSign Proof_MultiApi.
From Coq Require Import List.
Import ListNotations.
Open Scope R_scope.

(* ------------------------------------------------- integrals of functions without negative values *)
Lemma part_bound g a b u v m I : a <= u -> u < v -> v <= b -> is_RInt g a b I -> (forall x, a <= x <= b -> 0 <= g x) -> (forall x, u <= x <= v -> m <= g x) -> m * (v - u) <= I.
Proof.
  intros Hau Huv Hvb HI Hg Hm. assert (X : ex_RInt g a b) by (exists I; exact HI).
  assert (X1 : ex_RInt g a v) by (apply (ex_RInt_Chasles_1 g a v b); [lra|exact X]).
  assert (X2 : ex_RInt g v b) by (apply (ex_RInt_Chasles_2 g a v b); [lra|exact X]).
  assert (X3 : ex_RInt g a u) by (apply (ex_RInt_Chasles_1 g a u v); [lra|exact X1]).
  assert (X4 : ex_RInt g u v) by (apply (ex_RInt_Chasles_2 g a u v); [lra|exact X1]).
  destruct X3 as [P HP], X4 as [Q HQ], X2 as [S HS].
  assert (EI : I = P + Q + S).
  { rewrite <- (@is_RInt_unique R_CompleteNormedModule _ _ _ _ HI). apply (@is_RInt_unique R_CompleteNormedModule).
    apply (is_RInt_Chasles (V := R_NormedModule) g a v b); [|exact HS]. apply (is_RInt_Chasles (V := R_NormedModule) g a u v); assumption. }
  assert (C : forall c x y, is_RInt (fun _ => c) x y ((y - x) * c)).
  { intros c x y. evar_last; [apply (is_RInt_const (V := R_NormedModule))|]. unfold scal; cbn; unfold mult; cbn. ring. }
  assert (P0 : (u - a) * 0 <= P) by (apply (is_RInt_le (fun _ => 0) g a u); [exact Hau|apply C|exact HP|intros; apply Hg; lra]).
  assert (S0 : (b - v) * 0 <= S) by (apply (is_RInt_le (fun _ => 0) g v b); [exact Hvb|apply C|exact HS|intros; apply Hg; lra]).
  assert (Q0 : (v - u) * m <= Q) by (apply (is_RInt_le (fun _ => m) g u v); [lra|apply C|exact HQ|intros; apply Hm; lra]).
  lra.
Qed.
Lemma near_part a b x (d : R) : a < b -> a <= x <= b -> 0 < d -> exists u v, a <= u /\ u < v /\ v <= b /\ forall y, u <= y <= v -> Rabs (y - x) < d.
Proof.
  intros Hab Hx Hd. exists (Rmax a (x - d / 2)), (Rmin b (x + d / 2)).
  split; [apply Rmax_l|]. split.
  - apply Rmax_lub_lt; apply Rmin_glb_lt; lra.
  - split; [apply Rmin_l|]. intros y [H1 H2]. pose proof (Rmax_r a (x - d / 2)). pose proof (Rmin_r b (x + d / 2)). apply Rabs_def1; lra.
Qed.
Lemma zero_line f b x y : 0 < b -> is_RInt (fun t => f t y) 0 b 0 -> (forall t, 0 <= f t y) -> 0 <= x <= b -> continuity_2d_pt f x y -> f x y = 0.
Proof.
  intros Hb HI Hf Hx HC. destruct (Rle_lt_or_eq_dec 0 (f x y) (Hf x)) as [Hp|E]; [exfalso|congruence].
  destruct (HC (mkposreal (f x y / 2) ltac:(lra))) as [d Hd]. cbn in Hd.
  destruct (near_part 0 b x d Hb Hx (cond_pos d)) as (u & v & U1 & U2 & U3 & U4).
  assert (H := part_bound (fun t => f t y) 0 b u v (f x y / 2) 0 U1 U2 U3 HI (fun t _ => Hf t)).
  assert (HB : f x y / 2 * (v - u) <= 0).
  { apply H. intros t Ht. specialize (Hd t y (U4 t Ht)). rewrite Rminus_eq_0, Rabs_R0 in Hd. specialize (Hd (cond_pos d)). apply Rabs_def2 in Hd. lra. }
  assert (0 < f x y / 2 * (v - u)) by (apply Rmult_lt_0_compat; lra). lra.
Qed.
Lemma zero_square f x y : square_integral f 0 -> (forall s t, 0 <= f s t) -> -1 <= x <= 1 -> -1 <= y <= 1 -> continuity_2d_pt f x y -> f x y = 0.
Proof.
  intros [HE HI] Hf Hx Hy HC. destruct (Rle_lt_or_eq_dec 0 (f x y) (Hf x y)) as [Hp|E]; [exfalso|congruence].
  destruct (HC (mkposreal (f x y / 2) ltac:(lra))) as [d Hd]. cbn in Hd.
  destruct (near_part (-1) 1 x d ltac:(lra) Hx (cond_pos d)) as (u & v & U1 & U2 & U3 & U4).
  destruct (near_part (-1) 1 y d ltac:(lra) Hy (cond_pos d)) as (p & q & V1 & V2 & V3 & V4).
  assert (HG : forall s, u <= s <= v -> f x y / 2 * (q - p) <= RInt (f s) (-1) 1).
  { intros s Hs. apply (part_bound (f s) (-1) 1 p q (f x y / 2) _ V1 V2 V3).
    - apply (@RInt_correct R_CompleteNormedModule). apply HE.
    - intros t _. apply Hf.
    - intros t Ht. specialize (Hd s t (U4 s Hs) (V4 t Ht)). apply Rabs_def2 in Hd. lra. }
  assert (H := part_bound (fun s => RInt (f s) (-1) 1) (-1) 1 u v (f x y / 2 * (q - p)) 0 U1 U2 U3 HI).
  assert (HB : f x y / 2 * (q - p) * (v - u) <= 0).
  { apply H; [|exact HG]. intros s _. apply RInt_ge_0; [lra|apply HE|]. intros; apply Hf. }
  assert (0 < f x y / 2 * (q - p) * (v - u)) by (repeat apply Rmult_lt_0_compat; lra). lra.
Qed.

(* ------------------------------------------------- continuity of the displacements *)
Lemma cont_sumn n (f : nat -> R -> R -> R) x y : (forall i, (i < n)%nat -> continuity_2d_pt (f i) x y) -> continuity_2d_pt (fun s t => sumn n (fun i => f i s t)) x y.
Proof.
  induction n as [|n IH]; intro H; cbn [sumn]; [apply continuity_2d_pt_const|].
  apply continuity_2d_pt_plus; [apply IH; intros; apply H; lia|apply H; lia].
Qed.
Section Field.
Variables (Bs : basis) (n : nat).
Hypothesis HB : continuous_basis Bs n.
Variables (X Y : R -> R -> R) (x y : R).
Hypothesis HX : continuity_2d_pt X x y.
Hypothesis HY : continuity_2d_pt Y x y.
Lemma cont_shape p i e Z : (p < 2)%nat -> (i < n)%nat -> continuity_2d_pt Z x y -> continuity_2d_pt (fun s t => shape Bs p i (Z s t) e) x y.
Proof using HB.
  intros Hp Hi HZ. apply (continuity_1d_2d_pt_comp (fun z => shape Bs p i z e) Z); [|exact HZ].
  destruct (HB i e (Z x y) Hi) as [H0 H1]. destruct p as [|[|p]]; [exact H0|exact H1|lia].
Qed.
Lemma cont_fld s c d p q : (p < 2)%nat -> (q < 2)%nat -> (sh_m s <= n)%nat -> (sh_n s <= n)%nat -> continuity_2d_pt (fun u v => fld Bs s c d p q (X u v) (Y u v)) x y.
Proof using HB HX HY.
  intros Hp Hq Hm Hn. unfold fld, ritz. apply cont_sumn; intros j Hj. apply cont_sumn; intros i Hi.
  apply continuity_2d_pt_mult; [apply continuity_2d_pt_mult; [apply continuity_2d_pt_const|]|]; apply cont_shape; (assumption || lia).
Qed.
End Field.
Lemma cont_natural Z a x y : continuity_2d_pt Z x y -> continuity_2d_pt (fun s t => natural (Z s t) a) x y.
Proof.
  intro H. unfold natural. apply (continuity_2d_pt_ext (fun s t => 2 / a * Z s t + - (1))); [intros; unfold Rdiv; ring|].
  apply continuity_2d_pt_plus; [|apply continuity_2d_pt_const]. apply continuity_2d_pt_mult; [apply continuity_2d_pt_const|exact H].
Qed.
Lemma cont_ritz Bs n s c k (X Y : R -> R -> R) x y : continuous_basis Bs n -> (sh_m s <= n)%nat -> (sh_n s <= n)%nat -> continuity_2d_pt X x y -> continuity_2d_pt Y x y ->
  continuity_2d_pt (fun u v => ritz_field Bs s c k (X u v) (Y u v)) x y.
Proof.
  intros HB Hm Hn HX HY.
  assert (F : forall d p q, (p < 2)%nat -> (q < 2)%nat -> continuity_2d_pt (fun u v => fld Bs s c d p q (natural (X u v) (sh_a s)) (natural (Y u v) (sh_b s))) x y).
  { intros d p q Hp Hq. apply (cont_fld Bs n HB (fun u v => natural (X u v) (sh_a s)) (fun u v => natural (Y u v) (sh_b s))); try assumption; apply cont_natural; assumption. }
  destruct k as [|[|[|[|k]]]]; unfold ritz_field, d_u, d_v, d_w, d_wx, d_wy.
  - apply F; lia.
  - apply F; lia.
  - apply F; lia.
  - apply continuity_2d_pt_opp. apply continuity_2d_pt_mult; [apply continuity_2d_pt_const|apply F; lia].
  - apply continuity_2d_pt_opp. apply continuity_2d_pt_mult; [apply continuity_2d_pt_const|apply F; lia].
Qed.

(* ------------------------------------------------- no work, no jump *)
Lemma no_work_no_jump (js : list (R * jump)) U V x y X Y : List.Forall (fun kj => 0 < fst kj) js -> jump_work js U V U V x y X Y = 0 ->
  List.Forall (fun kj => snd kj U V x y X Y = 0) js.
Proof.
  intro H. unfold jump_work. induction H as [|kj js Hk Hjs IH]; cbn [suml]; intro HZ; [apply List.Forall_nil|].
  pose proof (Rle_0_sqr (snd kj U V x y X Y)) as Hs. unfold Rsqr in Hs.
  assert (H0 : 0 <= fst kj * (snd kj U V x y X Y * snd kj U V x y X Y)) by (apply Rmult_le_pos; [lra|exact Hs]).
  assert (H1 : 0 <= suml js (fun kj => fst kj * (snd kj U V x y X Y * snd kj U V x y X Y))).
  { apply (jump_work_nonneg js U V x y X Y). revert Hjs. apply List.Forall_impl. intros; lra. }
  apply List.Forall_cons; [|apply IH; lra].
  assert (HQ : snd kj U V x y X Y * snd kj U V x y X Y = 0).
  { destruct (Rmult_integral (fst kj) (snd kj U V x y X Y * snd kj U V x y X Y)); [lra|lra|assumption]. }
  destruct (Rmult_integral _ _ HQ); assumption.
Qed.
Ltac cont_tac HB :=
  repeat first [apply continuity_2d_pt_const | apply continuity_2d_pt_id1 | apply continuity_2d_pt_id2
    | apply (cont_ritz _ _ _ _ _ _ _ _ _ HB); [assumption|assumption| |]
    | apply continuity_2d_pt_opp | apply continuity_2d_pt_plus | apply continuity_2d_pt_minus | apply continuity_2d_pt_mult ].
Ltac pos_js := repeat (apply List.Forall_cons; [cbn; assumption|]); apply List.Forall_nil.

Section Zero.
Variables (E : env) (Bs : basis) (n : nat) (h : nat -> xpanel).
Hypothesis HB : continuous_basis Bs n.
Lemma conn_no_work cn c : sound E h (cn_p1 cn) -> sound E h (cn_p2 cn) ->
  (sh_m (geometry h (cn_p1 cn)) <= n)%nat -> (sh_n (geometry h (cn_p1 cn)) <= n)%nat -> (sh_m (geometry h (cn_p2 cn)) <= n)%nat -> (sh_n (geometry h (cn_p2 cn)) <= n)%nat ->
  conn_work E Bs h cn c c 0 -> no_jump Bs h cn c.
Proof using HB.
  intros (_ & a1 & b1 & h1 & A1 & B1 & D1 & F1) (_ & a2 & b2 & h2 & A2 & B2 & D2 & F2) M1 N1 M2 N2.
  pose proof (pen_pos _ _ _ _ A1 A2 h1 h2) as PA. pose proof (pen_pos _ _ _ _ B1 B2 h1 h2) as PB.
  pose proof (pen_pos _ _ _ _ D1 D2 h1 h2) as PD. pose proof (pen_pos _ _ _ _ F1 F2 h1 h2) as PF.
  unfold conn_work, pair_work, no_jump. unfold penalty_of.
  set (kA := penalty (A11 _) _ _ _) in *. set (kB := penalty (A22 _) _ _ _) in *. set (kD := penalty (D11 _) _ _ _) in *. set (kF := penalty (D22 _) _ _ _) in *.
  clearbody kA kB kD kF. set (s1 := geometry h (cn_p1 cn)) in *. set (s2 := geometry h (cn_p2 cn)) in *.
  set (th := (thickness h (cn_p1 cn) + thickness h (cn_p2 cn)) / 2).
  assert (LX : forall js y1 y2 x, List.Forall (fun kj => 0 < fst kj) js ->
     is_RInt (fun x => jump_work js (moves Bs h (cn_p1 cn) c) (moves Bs h (cn_p2 cn) c) (moves Bs h (cn_p1 cn) c) (moves Bs h (cn_p2 cn) c) x y1 (x * (sh_a s2 / sh_a s1)) y2) 0 (sh_a s1) 0 ->
     continuity_2d_pt (fun x _ => jump_work js (moves Bs h (cn_p1 cn) c) (moves Bs h (cn_p2 cn) c) (moves Bs h (cn_p1 cn) c) (moves Bs h (cn_p2 cn) c) x y1 (x * (sh_a s2 / sh_a s1)) y2) x 0 ->
     0 <= x <= sh_a s1 -> List.Forall (fun kj => snd kj (moves Bs h (cn_p1 cn) c) (moves Bs h (cn_p2 cn) c) x y1 (x * (sh_a s2 / sh_a s1)) y2 = 0) js).
  { intros js y1 y2 x Hjs HI HC Hx. apply no_work_no_jump; [exact Hjs|].
    apply (zero_line (fun x _ => jump_work js (moves Bs h (cn_p1 cn) c) (moves Bs h (cn_p2 cn) c) (moves Bs h (cn_p1 cn) c) (moves Bs h (cn_p2 cn) c) x y1 (x * (sh_a s2 / sh_a s1)) y2) (sh_a s1) x 0); try assumption.
    intro t. apply jump_work_nonneg. revert Hjs. apply List.Forall_impl. intros; lra. }
  assert (LY : forall js x1 x2 y, List.Forall (fun kj => 0 < fst kj) js ->
     is_RInt (fun y => jump_work js (moves Bs h (cn_p1 cn) c) (moves Bs h (cn_p2 cn) c) (moves Bs h (cn_p1 cn) c) (moves Bs h (cn_p2 cn) c) x1 y x2 (y * (sh_b s2 / sh_b s1))) 0 (sh_b s1) 0 ->
     continuity_2d_pt (fun y _ => jump_work js (moves Bs h (cn_p1 cn) c) (moves Bs h (cn_p2 cn) c) (moves Bs h (cn_p1 cn) c) (moves Bs h (cn_p2 cn) c) x1 y x2 (y * (sh_b s2 / sh_b s1))) y 0 ->
     0 <= y <= sh_b s1 -> List.Forall (fun kj => snd kj (moves Bs h (cn_p1 cn) c) (moves Bs h (cn_p2 cn) c) x1 y x2 (y * (sh_b s2 / sh_b s1)) = 0) js).
  { intros js y1 y2 x Hjs HI HC Hx. apply no_work_no_jump; [exact Hjs|].
    apply (zero_line (fun x _ => jump_work js (moves Bs h (cn_p1 cn) c) (moves Bs h (cn_p2 cn) c) (moves Bs h (cn_p1 cn) c) (moves Bs h (cn_p2 cn) c) y1 x y2 (x * (sh_b s2 / sh_b s1))) (sh_b s1) x 0); try assumption.
    intro t. apply jump_work_nonneg. revert Hjs. apply List.Forall_impl. intros; lra. }
  assert (LA : forall js xi eta, List.Forall (fun kj => 0 < fst kj) js ->
     work_over_area js s1 s2 (moves Bs h (cn_p1 cn) c) (moves Bs h (cn_p2 cn) c) (moves Bs h (cn_p1 cn) c) (moves Bs h (cn_p2 cn) c) 0 ->
     continuity_2d_pt (fun xi eta => jump_work js (moves Bs h (cn_p1 cn) c) (moves Bs h (cn_p2 cn) c) (moves Bs h (cn_p1 cn) c) (moves Bs h (cn_p2 cn) c)
       ((xi + 1) * sh_a s1 / 2) ((eta + 1) * sh_b s1 / 2) ((xi + 1) * sh_a s2 / 2) ((eta + 1) * sh_b s2 / 2)) xi eta ->
     -1 <= xi <= 1 -> -1 <= eta <= 1 ->
     List.Forall (fun kj => snd kj (moves Bs h (cn_p1 cn) c) (moves Bs h (cn_p2 cn) c) ((xi + 1) * sh_a s1 / 2) ((eta + 1) * sh_b s1 / 2) ((xi + 1) * sh_a s2 / 2) ((eta + 1) * sh_b s2 / 2) = 0) js).
  { intros js xi eta Hjs HI HC Hx Hy. apply no_work_no_jump; [exact Hjs|]. unfold work_over_area, panel_integral in HI.
    assert (HP : 0 < sh_a s1 / 2 * (sh_b s1 / 2)) by (apply Rmult_lt_0_compat; lra).
    assert (HZ := zero_square _ xi eta HI). cbv beta in HZ.
    destruct (Rmult_integral (sh_a s1 / 2 * (sh_b s1 / 2)) (jump_work js (moves Bs h (cn_p1 cn) c) (moves Bs h (cn_p2 cn) c) (moves Bs h (cn_p1 cn) c) (moves Bs h (cn_p2 cn) c)
       ((xi + 1) * sh_a s1 / 2) ((eta + 1) * sh_b s1 / 2) ((xi + 1) * sh_a s2 / 2) ((eta + 1) * sh_b s2 / 2))) as [H|H]; [|lra|exact H].
    apply HZ; try assumption.
    - intros s t. apply Rmult_le_pos; [lra|]. apply jump_work_nonneg. revert Hjs. apply List.Forall_impl. intros; lra.
    - apply continuity_2d_pt_mult; [apply continuity_2d_pt_const|exact HC]. }
  assert (PQ : 0 < kA / Rmin (sh_a s1) (sh_b s1)) by (apply Rdiv_lt_0_compat; [exact PA|apply Rmin_glb_lt; assumption]).
  assert (PR : 0 < 10000 / (sh_a s1 * sh_b s1)) by (apply Rdiv_lt_0_compat; [lra|apply Rmult_lt_0_compat; assumption]).
  destruct (cn_func cn); try contradiction.
  - intros (y1 & y2 & E1 & E2 & HW) z1 z2 x F3 F4 Hx. assert (z1 = y1) by congruence. assert (z2 = y2) by congruence. subst z1 z2.
    assert (HF := LX (jumps_SSycte kB kF) y1 y2 x ltac:(unfold jumps_SSycte; pos_js) HW). unfold jumps_SSycte in *.
    assert (HJ : List.Forall (fun kj => snd kj (moves Bs h (cn_p1 cn) c) (moves Bs h (cn_p2 cn) c) x y1 (x * (sh_a s2 / sh_a s1)) y2 = 0) (jumps_SSycte kB kF)).
    { apply HF; [|exact Hx]. unfold jump_work. cbn [suml fst snd]. unfold moves. cont_tac HB. }
    unfold jumps_SSycte in HJ. unfold_jumps HJ. repeat (apply List.Forall_cons; [assumption|]). apply List.Forall_nil.
  - intros (y1 & y2 & E1 & E2 & HW) z1 z2 x F3 F4 Hx. assert (z1 = y1) by congruence. assert (z2 = y2) by congruence. subst z1 z2.
    assert (HF := LY (jumps_SSxcte kA kD) y1 y2 x ltac:(unfold jumps_SSxcte; pos_js) HW). unfold jumps_SSxcte in *.
    assert (HJ : List.Forall (fun kj => snd kj (moves Bs h (cn_p1 cn) c) (moves Bs h (cn_p2 cn) c) y1 x y2 (x * (sh_b s2 / sh_b s1)) = 0) (jumps_SSxcte kA kD)).
    { apply HF; [|exact Hx]. unfold jump_work. cbn [suml fst snd]. unfold moves. cont_tac HB. }
    unfold jumps_SSxcte in HJ. unfold_jumps HJ. repeat (apply List.Forall_cons; [assumption|]). apply List.Forall_nil.
  - intros HW xi eta Hx Hy. assert (HF := LA (jumps_SB (kA / Rmin (sh_a s1) (sh_b s1)) th) xi eta ltac:(unfold jumps_SB; pos_js) HW). unfold jumps_SB in *.
    assert (HJ := HF ltac:(unfold jump_work; cbn [suml fst snd]; unfold moves, Rdiv; cont_tac HB) Hx Hy).
    unfold_jumps HJ. repeat (apply List.Forall_cons; [assumption|]). apply List.Forall_nil.
  - intros (y1 & y2 & E1 & E2 & HW) z1 z2 x F3 F4 Hx. assert (z1 = y1) by congruence. assert (z2 = y2) by congruence. subst z1 z2.
    assert (HF := LX (jumps_BFycte kB kF) y1 y2 x ltac:(unfold jumps_BFycte; pos_js) HW). unfold jumps_BFycte in *.
    assert (HJ : List.Forall (fun kj => snd kj (moves Bs h (cn_p1 cn) c) (moves Bs h (cn_p2 cn) c) x y1 (x * (sh_a s2 / sh_a s1)) y2 = 0) (jumps_BFycte kB kF)).
    { apply HF; [|exact Hx]. unfold jump_work. cbn [suml fst snd]. unfold moves. cont_tac HB. }
    unfold jumps_BFycte in HJ. unfold_jumps HJ. repeat (apply List.Forall_cons; [assumption|]). apply List.Forall_nil.
  - intros (y1 & y2 & E1 & E2 & HW) z1 z2 x F3 F4 Hx. assert (z1 = y1) by congruence. assert (z2 = y2) by congruence. subst z1 z2.
    assert (HF := LY (jumps_BFxcte kA kD) y1 y2 x ltac:(unfold jumps_BFxcte; pos_js) HW). unfold jumps_BFxcte in *.
    assert (HJ : List.Forall (fun kj => snd kj (moves Bs h (cn_p1 cn) c) (moves Bs h (cn_p2 cn) c) y1 x y2 (x * (sh_b s2 / sh_b s1)) = 0) (jumps_BFxcte kA kD)).
    { apply HF; [|exact Hx]. unfold jump_work. cbn [suml fst snd]. unfold moves. cont_tac HB. }
    unfold jumps_BFxcte in HJ. unfold_jumps HJ. repeat (apply List.Forall_cons; [assumption|]). apply List.Forall_nil.
  - intros HW xi eta Hx Hy. assert (HF := LA (jumps_SB (10000 / (sh_a s1 * sh_b s1)) th) xi eta ltac:(unfold jumps_SB; pos_js) HW). unfold jumps_SB in *.
    assert (HJ := HF ltac:(unfold jump_work; cbn [suml fst snd]; unfold moves, Rdiv; cont_tac HB) Hx Hy).
    unfold_jumps HJ. repeat (apply List.Forall_cons; [assumption|]). apply List.Forall_nil.
Qed.
End Zero.

(* ------------------------------------------------- the shape functions are continuous *)
Lemma exact_continuous n : (n <= 30)%nat -> continuous_basis exact_basis n.
Proof.
  intros Hn i e x Hi. cbn [exact_basis bf bfp]. split; apply continuity_pt_filterlim.
  - apply (continuous_scal_r (flag e i) (bardell i)). apply bardell_continuous. lia.
  - apply (continuous_scal_r (flag e i) (fun t => Derive (bardell i) t)).
    apply (continuous_ext (qeval (bz1 i))); [|apply bz1_continuous]. intro t. symmetry. apply is_derive_unique. apply bardell_derive. lia.
Qed.
Lemma scalar_continuous table i e x : continuity_pt (fun t => scalar_fun table i t e) x.
Proof.
  apply continuity_pt_filterlim. unfold scalar_fun. destruct (nth_error table i) as [l|]; [|apply continuous_const].
  unfold lit_fun. apply (continuous_scal_r (flag_val e (fst l)) (lit_poly (snd l))). apply (ex_derive_continuous (V := R_NormedModule) (lit_poly (snd l))).
  eexists. apply lit_poly_derive.
Qed.
Lemma code_continuous n : continuous_basis code_basis n.
Proof. intros i e x Hi. split; apply scalar_continuous. Qed.

(* ------------------------------------------------- the matrix of the connections *)
Lemma zero_works E Bs h ids n (c : nat -> R) l Ws : (forall i, In i ids -> sound E h i /\ (sh_m (geometry h i) <= n)%nat /\ (sh_n (geometry h i) <= n)%nat) ->
  continuous_basis Bs n -> List.Forall (usable h ids) l -> Forall2 (fun cn => conn_work E Bs h cn c c) l Ws -> suml Ws (fun W => W) = 0 ->
  List.Forall (fun cn => no_jump Bs h cn c) l.
Proof.
  intros HS HB HU HF. revert HU. induction HF as [|cn W l Ws HW HF IH]; intros HU HZ; [apply List.Forall_nil|].
  inversion HU as [|? ? U1 U2]; subst. cbn [suml] in HZ. pose proof (works_nonneg E Bs h ids c l Ws HS U2 HF) as HP.
  destruct U1 as (I1 & I2 & _). destruct (HS _ I1) as (S1 & M1 & N1). destruct (HS _ I2) as (S2 & M2 & N2).
  pose proof (conn_work_nonneg E Bs h cn c W S1 S2 HW) as HQ.
  apply List.Forall_cons; [|apply IH; [exact U2|lra]].
  apply (conn_no_work E Bs n h HB cn c); try assumption. replace 0 with W by lra. exact HW.
Qed.
Section Whole.
Variables (E : env) (Bs : basis) (M k : nat) (arg : option nat) (w : world) (s : assembly).
Let h := w_panel w.
Let ids := as_panels s.
Let size := total_width h ids.
Lemma no_work_iff :
  assembled w s -> as_kC_conn s = None -> (match arg with Some k' => Some k' | None => as_conn s end) = Some k ->
  w_conn w k <> [] -> List.Forall (usable h ids) (w_conn w k) ->
  (forall i, In i ids -> sound E h i /\ (sh_m (geometry h i) <= M)%nat /\ (sh_n (geometry h i) <= M)%nat) ->
  tables_integrate (e_tables E) Bs M -> continuous_basis Bs M ->
  exists w' s' K, get_kC_conn E Bs arg true w s = (w', s', Ok (CMat size K)) /\
    forall c, quad size K c = 0 <-> List.Forall (fun cn => no_jump Bs h cn c) (w_conn w k).
Proof using .
  intros HA Hc Harg Hl HU HS HT HB. destruct (conn_stiffness E Bs M k arg w s HA Hc Harg Hl HU HS HT) as (w' & s' & K & R1 & _ & R3 & _ & R5).
  exists w', s', K. split; [exact R1|]. intro c. split; intro H.
  - destruct (R3 c c) as (Ws & HF & HZ). apply (zero_works E Bs h ids M c (w_conn w k) Ws HS HB HU HF). rewrite <- HZ. exact H.
  - unfold quad. apply (R5 c H c).
Qed.
End Whole.
