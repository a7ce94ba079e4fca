(* The stiffness of a flat panel vanishes on the rigid motions and on nothing else. *)
From Coq Require Import Classical Reals List Arith Bool ZArith Lia Lra.
From Coquelicot Require Import Coquelicot.
From Verif Require Import Base_Sum Model_Types Model_Coo Model_Result Model_Num Model_DB Model_Bardell Model_Shell
  Spec_Algebra Spec_Kinematics Spec_Quadrature Spec_Panel Spec_Shell Spec_Bardell Spec_Integral Spec_Modes Spec_Rigid
  Proof_Poly Proof_Bardell Proof_Ana Proof_Shell Proof_Api Proof_AnaApi Proof_Aero Proof_ConnNear Proof_ConnZero Proof_Modes.
From Coq Require Import List.
Import ListNotations.
Open Scope R_scope.

(* ------------------------------------------------- the vector of a rigid motion *)
Definition one (i : nat) : R := match i with 0%nat | 2%nat => 1 | _ => 0 end.
Definition lin (i : nat) : R := match i with 0%nat => -1 | 1%nat => 2 | 2%nat => 1 | 3%nat => 2 | _ => 0 end.
Definition sq (i : nat) : R := match i with 0%nat => 1 | 1%nat => -4 | 2%nat => 1 | 3%nat => 4 | _ => 0 end.
Lemma sum4 m g : (4 <= m)%nat -> (forall i, (4 <= i)%nat -> g i = 0) -> sumn m g = g 0%nat + g 1%nat + g 2%nat + g 3%nat.
Proof.
  intros Hm Hg. replace m with (4 + (m - 4))%nat by lia. rewrite sumn_add_len. rewrite (sumn_0 (m - 4)) by (intros; apply Hg; lia). cbn [sumn]. ring.
Qed.
Definition one_p (p : nat) : R := match p with 0%nat => 1 | _ => 0 end.
Definition lin_p (p : nat) (x : R) : R := match p with 0%nat => x | 1%nat => 1 | _ => 0 end.
Definition sq_p (p : nat) (x : R) : R := match p with 0%nat => x ^ 2 | 1%nat => 2 * x | _ => 2 end.
Lemma shape_flag p i x e : shape exact_basis p i x e = flag e i * shape exact_basis p i x free_edge.
Proof. assert (F : flag free_edge i = 1) by (destruct i as [|[|[|[|i]]]]; reflexivity). destruct p as [|[|p]]; cbn [shape exact_basis bf bfp bfpp]; rewrite F; ring. Qed.
Lemma sum_one m p x : (4 <= m)%nat -> sumn m (fun i => one i * shape exact_basis p i x free_edge) = one_p p.
Proof.
  intro Hm. rewrite sum4; [|exact Hm|intros i Hi; destruct i as [|[|[|i]]]; [lia|lia|lia|cbn [one]; ring]].
  destruct p as [|[|p]]; cbn [shape exact_basis bf bfp bfpp one one_p flag free_edge e1t e1r e2t e2r].
  - unfold bardell. field.
  - rewrite !Derive_bardell by lia. unfold qeval. cbn -[IZR]. field.
  - rewrite !Derive2_bardell by lia. unfold qeval. cbn -[IZR]. field.
Qed.
Lemma sum_lin m p x : (4 <= m)%nat -> sumn m (fun i => lin i * shape exact_basis p i x free_edge) = lin_p p x.
Proof.
  intro Hm. rewrite sum4; [|exact Hm|intros i Hi; destruct i as [|[|[|[|i]]]]; [lia|lia|lia|lia|cbn [lin]; ring]].
  destruct p as [|[|p]]; cbn [shape exact_basis bf bfp bfpp lin lin_p flag free_edge e1t e1r e2t e2r].
  - unfold bardell. field.
  - rewrite !Derive_bardell by lia. unfold qeval. cbn -[IZR]. field.
  - rewrite !Derive2_bardell by lia. unfold qeval. cbn -[IZR]. field.
Qed.
Lemma sum_sq m p x : (4 <= m)%nat -> sumn m (fun i => sq i * shape exact_basis p i x free_edge) = sq_p p x.
Proof.
  intro Hm. rewrite sum4; [|exact Hm|intros i Hi; destruct i as [|[|[|[|i]]]]; [lia|lia|lia|lia|cbn [sq]; ring]].
  destruct p as [|[|p]]; cbn [shape exact_basis bf bfp bfpp sq sq_p flag free_edge e1t e1r e2t e2r].
  - unfold bardell. field.
  - rewrite !Derive_bardell by lia. unfold qeval. cbn -[IZR]. field.
  - rewrite !Derive2_bardell by lia. unfold qeval. cbn -[IZR]. field.
Qed.

Section Vector.
Variables (m n : nat).
Hypothesis Hm : (4 <= m)%nat.
Hypothesis Hn : (4 <= n)%nat.
(* component d is k0 + k1 xi + k2 eta + k3 xi eta + k4 eta^2 *)
Variables (k0 k1 k2 k3 k4 : nat -> R).
Definition coef (d i j : nat) : R := k0 d * one i * one j + k1 d * lin i * one j + k2 d * one i * lin j + k3 d * lin i * lin j + k4 d * one i * sq j.
Definition vec (k : nat) : R :=
  if (k <? 3 * (n * m))%nat then coef (k mod 3) ((k / 3) mod m) ((k / 3) / m) else 0.
Lemma vec_at i j d : (i < m)%nat -> (j < n)%nat -> (d < 3)%nat -> vec (3 * (j * m + i) + d) = coef d i j.
Proof using All.
  intros Hi Hj Hd. unfold vec. assert (H : (3 * (j * m + i) + d <? 3 * (n * m))%nat = true) by (apply Nat.ltb_lt; nia). rewrite H.
  replace ((3 * (j * m + i) + d) mod 3)%nat with d by (apply (Nat.mod_unique _ _ (j * m + i)); lia).
  replace ((3 * (j * m + i) + d) / 3)%nat with (j * m + i)%nat by (apply (Nat.div_unique _ _ _ d); lia).
  replace ((j * m + i) mod m)%nat with i by (apply (Nat.mod_unique _ _ j); lia).
  replace ((j * m + i) / m)%nat with j by (apply (Nat.div_unique _ _ _ i); lia). reflexivity.
Qed.
Lemma vec_ritz d X Y : (d < 3)%nat -> ritz m n vec d X Y =
  k0 d * (sumn m (fun i => one i * X i) * sumn n (fun j => one j * Y j)) +
  k1 d * (sumn m (fun i => lin i * X i) * sumn n (fun j => one j * Y j)) +
  k2 d * (sumn m (fun i => one i * X i) * sumn n (fun j => lin j * Y j)) +
  k3 d * (sumn m (fun i => lin i * X i) * sumn n (fun j => lin j * Y j)) +
  k4 d * (sumn m (fun i => one i * X i) * sumn n (fun j => sq j * Y j)).
Proof using All.
  intro Hd. unfold ritz. set (SO := sumn m (fun i => one i * X i)). set (SL := sumn m (fun i => lin i * X i)).
  rewrite (sumn_ext n _ (fun j => k0 d * (SO * (one j * Y j)) + k1 d * (SL * (one j * Y j)) + k2 d * (SO * (lin j * Y j)) + k3 d * (SL * (lin j * Y j)) + k4 d * (SO * (sq j * Y j)))).
  - rewrite !sumn_plus, !sumn_scal. reflexivity.
  - intros j Hj. rewrite (sumn_ext m _ (fun i => (k0 d * (one j * Y j) + k2 d * (lin j * Y j) + k4 d * (sq j * Y j)) * (one i * X i) + (k1 d * (one j * Y j) + k3 d * (lin j * Y j)) * (lin i * X i))).
    + rewrite !sumn_plus, !sumn_scal. fold SO SL. ring.
    + intros i Hi. rewrite vec_at by assumption. unfold coef. ring.
Qed.
(* a coefficient is kept where the flags let it *)
Definition fits (s : shell) (d : nat) : Prop := forall i j, coef d i j * (flag (xedge s d) i * flag (yedge s d) j) = coef d i j.
Lemma vec_fld s d p q xi eta : sh_m s = m -> sh_n s = n -> fits s d -> (d < 3)%nat ->
  fld exact_basis s vec d p q xi eta = k0 d * (one_p p * one_p q) + k1 d * (lin_p p xi * one_p q) + k2 d * (one_p p * lin_p q eta) +
    k3 d * (lin_p p xi * lin_p q eta) + k4 d * (one_p p * sq_p q eta).
Proof using All.
  intros Em En HF Hd. unfold fld. rewrite Em, En. rewrite <- !(sum_one m p xi) by exact Hm. rewrite <- !(sum_one n q eta) by exact Hn.
  rewrite <- !(sum_lin m p xi) by exact Hm. rewrite <- !(sum_lin n q eta) by exact Hn. rewrite <- !(sum_sq n q eta) by exact Hn.
  rewrite <- (vec_ritz d (fun i => shape exact_basis p i xi free_edge) (fun j => shape exact_basis q j eta free_edge)) by exact Hd.
  unfold ritz. apply sumn_ext; intros j Hj. apply sumn_ext; intros i Hi. rewrite vec_at by assumption. rewrite (shape_flag p i xi (xedge s d)), (shape_flag q j eta (yedge s d)).
  rewrite <- (HF i j) at 2. ring.
Qed.
End Vector.

(* the motion as a polynomial of xi and eta *)
Section Poly.
Variables (k : R) (s : shell) (u0 v0 w0 th al be : R).
Notation a := (sh_a s). Notation b := (sh_b s).
Definition rk0 (d : nat) : R := match d with
  | 0%nat => u0 - th * b / 2 + k * al * b ^ 2 / 8
  | 1%nat => v0 + th * a / 2 - k * (w0 * b / 2 + al * a * b / 4 + be * b ^ 2 / 8)
  | _ => w0 + al * a / 2 + be * b / 2 end.
Definition rk1 (d : nat) : R := match d with 0%nat => 0 | 1%nat => th * a / 2 - k * al * a * b / 4 | _ => al * a / 2 end.
Definition rk2 (d : nat) : R := match d with 0%nat => - (th * b / 2) + k * al * b ^ 2 / 4 | 1%nat => - (k * (w0 * b / 2 + al * a * b / 4 + be * b ^ 2 / 4)) | _ => be * b / 2 end.
Definition rk3 (d : nat) : R := match d with 1%nat => - (k * al * a * b / 4) | _ => 0 end.
Definition rk4 (d : nat) : R := match d with 0%nat => k * al * b ^ 2 / 8 | 1%nat => - (k * be * b ^ 2 / 8) | _ => 0 end.
Definition rigid_vec : nat -> R := vec (sh_m s) (sh_n s) rk0 rk1 rk2 rk3 rk4.
Lemma motion_at d xi eta : (d < 3)%nat ->
  motion k u0 v0 w0 th al be d (a * (xi + 1) / 2) (b * (eta + 1) / 2) = rk0 d + rk1 d * xi + rk2 d * eta + rk3 d * (xi * eta) + rk4 d * eta ^ 2.
Proof using Type. intro Hd. destruct d as [|[|[|d]]]; [| | |lia]; cbn [motion rk0 rk1 rk2 rk3 rk4]; field. Qed.
Lemma motion_x_at d xi eta : (d < 3)%nat -> a / 2 * motion_x k u0 v0 w0 th al be d (a * (xi + 1) / 2) (b * (eta + 1) / 2) = rk1 d + rk3 d * eta.
Proof using Type.
  intro Hd. unfold motion_x. destruct d as [|[|[|d]]]; [| | |lia]; cbn [motion rk1 rk3];
  match goal with |- _ * Derive ?f ?x = _ => erewrite (is_derive_unique f x) by (auto_derive; [exact I|reflexivity]) end; field.
Qed.
Lemma motion_y_at d xi eta : (d < 3)%nat -> b / 2 * motion_y k u0 v0 w0 th al be d (a * (xi + 1) / 2) (b * (eta + 1) / 2) = rk2 d + rk3 d * xi + 2 * rk4 d * eta.
Proof using Type.
  intro Hd. unfold motion_y. destruct d as [|[|[|d]]]; [| | |lia]; cbn [motion rk2 rk3 rk4];
  match goal with |- _ * Derive ?f ?x = _ => erewrite (is_derive_unique f x) by (auto_derive; [exact I|reflexivity]) end; field.
Qed.
End Poly.
Lemma coef_edges k0 k1 k2 k3 k4 d e g : (forall f, In f [e1t; e1r; e2t; e2r] -> (f e = 0 \/ f e = 1) /\ (f g = 0 \/ f g = 1)) ->
  (e1t e = 0 -> k0 d - k1 d = 0 /\ k2 d - k3 d = 0 /\ k4 d = 0) -> (e2t e = 0 -> k0 d + k1 d = 0 /\ k2 d + k3 d = 0 /\ k4 d = 0) ->
  (e1t g = 0 -> k0 d - k2 d + k4 d = 0 /\ k1 d - k3 d = 0) -> (e2t g = 0 -> k0 d + k2 d + k4 d = 0 /\ k1 d + k3 d = 0) ->
  (e1r e = 0 \/ e2r e = 0 -> k1 d = 0 /\ k3 d = 0) -> (e1r g = 0 -> k2 d - 2 * k4 d = 0 /\ k3 d = 0) -> (e2r g = 0 -> k2 d + 2 * k4 d = 0 /\ k3 d = 0) ->
  forall i j, coef k0 k1 k2 k3 k4 d i j * (flag e i * flag g j) = coef k0 k1 k2 k3 k4 d i j.
Proof.
  intros HF X1 X2 Y1 Y2 XR YR1 YR2 i j.
  assert (A : coef k0 k1 k2 k3 k4 d i j * flag e i = coef k0 k1 k2 k3 k4 d i j).
  { assert (F : flag e i = 1 \/ coef k0 k1 k2 k3 k4 d i j = 0); [|destruct F as [->| ->]; ring].
    destruct i as [|[|[|[|i]]]]; [| | | |left; reflexivity]; cbn [flag]; unfold coef; cbn [one lin].
    - destruct (HF e1t ltac:(cbn; auto)) as [[F|F] _]; [right|left; exact F]. destruct (X1 F) as (Q1 & Q2 & Q3). rewrite Q3. replace (k0 d) with (k1 d) by lra. replace (k2 d) with (k3 d) by lra. ring.
    - destruct (HF e1r ltac:(cbn; auto)) as [[F|F] _]; [right|left; exact F]. destruct (XR (or_introl F)) as [-> ->]. ring.
    - destruct (HF e2t ltac:(cbn; auto)) as [[F|F] _]; [right|left; exact F]. destruct (X2 F) as (Q1 & Q2 & Q3). rewrite Q3. replace (k0 d) with (- k1 d) by lra. replace (k2 d) with (- k3 d) by lra. ring.
    - destruct (HF e2r ltac:(cbn; auto)) as [[F|F] _]; [right|left; exact F]. destruct (XR (or_intror F)) as [-> ->]. ring. }
  assert (B : coef k0 k1 k2 k3 k4 d i j * flag g j = coef k0 k1 k2 k3 k4 d i j).
  { assert (F : flag g j = 1 \/ coef k0 k1 k2 k3 k4 d i j = 0); [|destruct F as [->| ->]; ring].
    destruct j as [|[|[|[|j]]]]; [| | | |left; reflexivity]; cbn [flag]; unfold coef; cbn [one lin sq].
    - destruct (HF e1t ltac:(cbn; auto)) as [_ [F|F]]; [right|left; exact F]. destruct (Y1 F) as [Q1 Q2]. replace (k0 d) with (k2 d - k4 d) by lra. replace (k1 d) with (k3 d) by lra. ring.
    - destruct (HF e1r ltac:(cbn; auto)) as [_ [F|F]]; [right|left; exact F]. destruct (YR1 F) as [Q1 ->]. replace (k2 d) with (2 * k4 d) by lra. ring.
    - destruct (HF e2t ltac:(cbn; auto)) as [_ [F|F]]; [right|left; exact F]. destruct (Y2 F) as [Q1 Q2]. replace (k0 d) with (- k2 d - k4 d) by lra. replace (k1 d) with (- k3 d) by lra. ring.
    - destruct (HF e2r ltac:(cbn; auto)) as [_ [F|F]]; [right|left; exact F]. destruct (YR2 F) as [Q1 ->]. replace (k2 d) with (- (2 * k4 d)) by lra. ring. }
  rewrite <- Rmult_assoc, A, B. reflexivity.
Qed.
Lemma rigid_fits k s u0 v0 w0 th al be d : (d < 3)%nat -> flags_01 s -> allowed k s u0 v0 w0 th al be ->
  fits (rk0 k s u0 v0 w0 th al be) (rk1 k s th al) (rk2 k s w0 th al be) (rk3 k s al) (rk4 k s al be) s d.
Proof.
  intros Hd HF HA. unfold fits.
  assert (PX : forall x, sh_a s * (x + 1) / 2 = sh_a s * ((x + 1) / 2)) by (intro; field). assert (PY : forall x, sh_b s * (x + 1) / 2 = sh_b s * ((x + 1) / 2)) by (intro; field).
  assert (X0 : sh_a s * (-1 + 1) / 2 = 0) by field. assert (X1 : sh_a s * (1 + 1) / 2 = sh_a s) by field.
  assert (Y0 : sh_b s * (-1 + 1) / 2 = 0) by field. assert (Y1 : sh_b s * (1 + 1) / 2 = sh_b s) by field.
  pose proof (fun xi eta => motion_at k s u0 v0 w0 th al be d xi eta Hd) as HM.
  pose proof (fun xi eta => motion_x_at k s u0 v0 w0 th al be d xi eta Hd) as HX.
  pose proof (fun xi eta => motion_y_at k s u0 v0 w0 th al be d xi eta Hd) as HY.
  set (k0 := rk0 k s u0 v0 w0 th al be) in *. set (k1 := rk1 k s th al) in *. set (k2 := rk2 k s w0 th al be) in *. set (k3 := rk3 k s al) in *. set (k4 := rk4 k s al be) in *.
  assert (T : forall x, -1 <= x <= 1 -> 0 <= (x + 1) / 2 <= 1) by (intros; lra).
  apply coef_edges; [exact (HF d Hd)| | | | | | |].
  - intro F. assert (Z : forall eta, -1 <= eta <= 1 -> k0 d - k1 d + (k2 d - k3 d) * eta + k4 d * eta ^ 2 = 0).
    { intros eta He. destruct (HA d ((eta + 1) / 2) Hd (T eta He)) as (Q & _). pose proof (HM (-1) eta) as G. rewrite X0, PY in G. rewrite (Q F) in G. lra. }
    pose proof (Z (-1) ltac:(lra)). pose proof (Z 0 ltac:(lra)). pose proof (Z 1 ltac:(lra)). repeat split; lra.
  - intro F. assert (Z : forall eta, -1 <= eta <= 1 -> k0 d + k1 d + (k2 d + k3 d) * eta + k4 d * eta ^ 2 = 0).
    { intros eta He. destruct (HA d ((eta + 1) / 2) Hd (T eta He)) as (_ & Q & _). pose proof (HM 1 eta) as G. rewrite X1, PY in G. rewrite (Q F) in G. lra. }
    pose proof (Z (-1) ltac:(lra)). pose proof (Z 0 ltac:(lra)). pose proof (Z 1 ltac:(lra)). repeat split; lra.
  - intro F. assert (Z : forall xi, -1 <= xi <= 1 -> k0 d - k2 d + k4 d + (k1 d - k3 d) * xi = 0).
    { intros xi He. destruct (HA d ((xi + 1) / 2) Hd (T xi He)) as (_ & _ & Q & _). pose proof (HM xi (-1)) as G. rewrite Y0, PX in G. rewrite (Q F) in G. lra. }
    pose proof (Z (-1) ltac:(lra)). pose proof (Z 1 ltac:(lra)). split; lra.
  - intro F. assert (Z : forall xi, -1 <= xi <= 1 -> k0 d + k2 d + k4 d + (k1 d + k3 d) * xi = 0).
    { intros xi He. destruct (HA d ((xi + 1) / 2) Hd (T xi He)) as (_ & _ & _ & Q & _). pose proof (HM xi 1) as G. rewrite Y1, PX in G. rewrite (Q F) in G. lra. }
    pose proof (Z (-1) ltac:(lra)). pose proof (Z 1 ltac:(lra)). split; lra.
  - intro F. assert (Z : forall eta, -1 <= eta <= 1 -> k1 d + k3 d * eta = 0).
    { intros eta He. destruct (HA d ((eta + 1) / 2) Hd (T eta He)) as (_ & _ & _ & _ & Q1 & Q2 & _). destruct F as [F|F].
      - pose proof (HX (-1) eta) as G. rewrite X0, PY in G. rewrite (Q1 F) in G. rewrite <- G. ring.
      - pose proof (HX 1 eta) as G. rewrite X1, PY in G. rewrite (Q2 F) in G. rewrite <- G. ring. }
    pose proof (Z (-1) ltac:(lra)). pose proof (Z 1 ltac:(lra)). split; lra.
  - intro F. assert (Z : forall xi, -1 <= xi <= 1 -> k2 d - 2 * k4 d + k3 d * xi = 0).
    { intros xi He. destruct (HA d ((xi + 1) / 2) Hd (T xi He)) as (_ & _ & _ & _ & _ & _ & Q & _). pose proof (HY xi (-1)) as G. rewrite Y0, PX in G. rewrite (Q F) in G. rewrite Rmult_0_r in G. lra. }
    pose proof (Z (-1) ltac:(lra)). pose proof (Z 1 ltac:(lra)). split; lra.
  - intro F. assert (Z : forall xi, -1 <= xi <= 1 -> k2 d + 2 * k4 d + k3 d * xi = 0).
    { intros xi He. destruct (HA d ((xi + 1) / 2) Hd (T xi He)) as (_ & _ & _ & _ & _ & _ & _ & Q). pose proof (HY xi 1) as G. rewrite Y1, PX in G. rewrite (Q F) in G. rewrite Rmult_0_r in G. lra. }
    pose proof (Z (-1) ltac:(lra)). pose proof (Z 1 ltac:(lra)). split; lra.
Qed.
Lemma rigid_vec_rigid k s u0 v0 w0 th al be : (4 <= sh_m s)%nat -> (4 <= sh_n s)%nat -> flags_01 s -> allowed k s u0 v0 w0 th al be ->
  rigid k s (rigid_vec k s u0 v0 w0 th al be) u0 v0 w0 th al be.
Proof.
  intros Hm Hn HU HA xi eta _ _. cbv zeta. unfold d_u, d_v, d_w, rigid_vec. rewrite !vec_fld by (assumption || reflexivity || (apply rigid_fits; [lia|assumption|assumption]) || lia).
  rewrite !motion_at by lia. cbn [one_p lin_p sq_p]. repeat split; ring.
Qed.
Lemma rigid_vec_strain s k u0 v0 w0 th al be xi eta j : (4 <= sh_m s)%nat -> (4 <= sh_n s)%nat -> flags_01 s -> allowed k s u0 v0 w0 th al be -> sh_a s <> 0 -> sh_b s <> 0 ->
  lin_strain k exact_basis s (rigid_vec k s u0 v0 w0 th al be) xi eta j = 0.
Proof.
  intros Hm Hn HU HA Ha Hb. unfold lin_strain, d_ux, d_uy, d_vx, d_vy, d_w, d_wxx, d_wyy, d_wxy, rigid_vec.
  destruct j as [|[|[|[|[|[|j]]]]]]; rewrite ?vec_fld by (assumption || reflexivity || (apply rigid_fits; [lia|assumption|assumption]) || lia); cbn [one_p lin_p sq_p rk0 rk1 rk2 rk3 rk4]; try (field; assumption); try (field; split; assumption); try reflexivity.
Qed.

(* ------------------------------------------------- zero strain means a rigid motion *)
Lemma shape_derive p i e x : (p < 2)%nat -> (i < 30)%nat -> is_derive (fun t => shape exact_basis p i t e) x (shape exact_basis (S p) i x e).
Proof.
  intros Hp Hi. destruct p as [|[|p]]; [| |lia]; cbn [shape exact_basis bf bfp bfpp].
  - apply (is_derive_scal (bardell i)). rewrite Derive_bardell by exact Hi. apply bardell_derive. exact Hi.
  - apply (is_derive_scal (Derive (bardell i))). apply (is_derive_ext (qeval (bz1 i))); [intro; symmetry; apply Derive_bardell; exact Hi|].
    rewrite Derive2_bardell by exact Hi. apply (qeval_derive (fst (bz i)) (zderiv (snd (bz i)))).
Qed.
Lemma sumn_derive n (f : nat -> R -> R) (g : nat -> R) x : (forall i, (i < n)%nat -> is_derive (f i) x (g i)) -> is_derive (fun t => sumn n (fun i => f i t)) x (sumn n g).
Proof.
  induction n as [|n IH]; intro H; cbn [sumn]; [apply (is_derive_const (K := R_AbsRing) (V := R_NormedModule))|].
  apply (is_derive_plus (K := R_AbsRing) (V := R_NormedModule) (fun t => sumn n (fun i => f i t)) (f n)); [apply IH; intros; apply H; lia|apply H; lia].
Qed.
Lemma swap3 (C Y X : R) : C * Y * X = C * X * Y.
Proof. ring. Qed.
Section Null.
Variables (s : shell) (c : nat -> R).
Hypothesis Hm : (sh_m s <= 30)%nat.
Hypothesis Hn : (sh_n s <= 30)%nat.
Notation F d p q := (fld exact_basis s c d%nat p%nat q%nat).
Lemma fld_dx d p q xi eta : (p < 2)%nat -> is_derive (fun t => F d p q t eta) xi (F d (S p) q xi eta).
Proof using All.
  intro Hp. unfold fld, ritz. apply sumn_derive; intros j Hj. apply sumn_derive; intros i Hi.
  set (C := c _). set (Y := shape exact_basis q j eta _).
  apply (is_derive_ext (fun t => (C * Y) * shape exact_basis p i t (xedge s d))); [intro t; apply swap3|].
  replace (C * shape exact_basis (S p) i xi (xedge s d) * Y) with ((C * Y) * shape exact_basis (S p) i xi (xedge s d)) by ring.
  apply (is_derive_scal (fun t => shape exact_basis p i t (xedge s d))). apply shape_derive; lia.
Qed.
Lemma fld_dy d p q xi eta : (q < 2)%nat -> is_derive (fun t => F d p q xi t) eta (F d p (S q) xi eta).
Proof using All.
  intro Hq. unfold fld, ritz. apply sumn_derive; intros j Hj. apply sumn_derive; intros i Hi.
  set (C := c _). set (X := shape exact_basis p i xi _).
  apply (is_derive_scal (fun t => shape exact_basis q j t (yedge s d))). apply shape_derive; lia.
Qed.
End Null.
(* a function with a constant slope on [-1, 1] *)
Lemma affine (f g : R -> R) (l x : R) : (forall t, is_derive f t (g t)) -> (forall t, -1 <= t <= 1 -> g t = l) -> -1 <= x <= 1 -> f x = f (-1) + l * (x + 1).
Proof.
  intros HD HG Hx. destruct (MVT_gen f (-1) x g) as (z & Hz & E).
  - intros t _. apply HD.
  - intros t _. apply continuity_pt_filterlim. apply (ex_derive_continuous (V := R_NormedModule) f). exists (g t). apply HD.
  - rewrite Rmin_left, Rmax_right in Hz by lra. rewrite HG in E by lra. lra.
Qed.
Lemma primitive (f g P Q : R -> R) (x : R) : (forall t, is_derive f t (g t)) -> (forall t, is_derive P t (Q t)) -> (forall t, -1 <= t <= 1 -> g t = Q t) -> -1 <= x <= 1 -> f x = f (-1) + (P x - P (-1)).
Proof.
  intros HF HP HE Hx. pose proof (affine (fun t => f t - P t) (fun t => g t - Q t) 0 x) as A. cbv beta in A. assert (f x - P x = f (-1) - P (-1) + 0 * (x + 1)); [|lra].
  apply A; [|intros t Ht; rewrite HE by exact Ht; ring|exact Hx]. intro t. apply (is_derive_minus (K := R_AbsRing) (V := R_NormedModule) f P); [apply HF|apply HP].
Qed.
(* functions that agree on [-1, 1] have the same slopes there *)
Lemma same_slope (f g : R -> R) (f' g' x : R) : is_derive f x f' -> is_derive g x g' -> (forall t, -1 <= t <= 1 -> f t = g t) -> -1 <= x <= 1 -> f' = g'.
Proof.
  intros Hf Hg He Hx. destruct (Req_dec f' g') as [|Hne]; [assumption|exfalso].
  apply is_derive_Reals in Hf. apply is_derive_Reals in Hg.
  assert (Hp : 0 < Rabs (f' - g') / 2) by (assert (0 < Rabs (f' - g')) by (apply Rabs_pos_lt; lra); lra).
  destruct (Hf _ Hp) as [d1 H1]. destruct (Hg _ Hp) as [d2 H2]. destruct d1 as [d1 P1], d2 as [d2 P2]. cbn in H1, H2.
  set (e := Rmin (Rmin d1 d2) 1 / 2). assert (0 < e) by (unfold e; repeat apply Rmin_case; lra).
  assert (e < d1 /\ e < d2 /\ e < 1).
  { assert (A := Rmin_l (Rmin d1 d2) 1). assert (B := Rmin_r (Rmin d1 d2) 1). assert (C := Rmin_l d1 d2). assert (D := Rmin_r d1 d2). unfold e in *. lra. }
  assert (exists h, h <> 0 /\ Rabs h = e /\ -1 <= x + h <= 1) as (h & N & A & I).
  { destruct (Rle_dec x 0); [exists e|exists (- e)].
    - split; [lra|]. split; [apply Rabs_right; lra|lra].
    - split; [lra|]. split; [rewrite Rabs_Ropp; apply Rabs_right; lra|lra]. }
  specialize (H1 h N ltac:(lra)). specialize (H2 h N ltac:(lra)). rewrite (He (x + h) I), (He x Hx) in H1.
  set (q := (g (x + h) - g x) / h) in *. assert (Rabs (f' - g') <= Rabs (q - g') + Rabs (q - f')).
  { replace (f' - g') with ((q - g') - (q - f')) by ring. unfold Rminus at 1. eapply Rle_trans; [apply Rabs_triang|]. rewrite Rabs_Ropp. lra. }
  lra.
Qed.
Section Rigid.
Variables (kap : R) (s : shell) (c : nat -> R).
Hypothesis Hm : (sh_m s <= 30)%nat.
Hypothesis Hn : (sh_n s <= 30)%nat.
Hypothesis Ha : sh_a s <> 0.
Hypothesis Hb : sh_b s <> 0.
Hypothesis HZ : forall xi eta k, -1 <= xi <= 1 -> -1 <= eta <= 1 -> (k < 6)%nat -> lin_strain kap exact_basis s c xi eta k = 0.
Notation F d p q := (fld exact_basis s c d%nat p%nat q%nat).
Lemma scaled_0 l x : l <> 0 -> 2 / l * x = 0 -> x = 0.
Proof. intros Hl H. replace x with (l / 2 * (2 / l * x)) by (field; exact Hl). rewrite H. ring. Qed.
Lemma null_rigid : exists u0 v0 w0 th al be, rigid kap s c u0 v0 w0 th al be.
Proof using All.
  assert (I1 : -1 <= -1 <= 1) by lra.
  assert (UX : forall x y, -1 <= x <= 1 -> -1 <= y <= 1 -> F 0 1 0 x y = 0).
  { intros x y Hx Hy. apply (scaled_0 (sh_a s)); [exact Ha|]. exact (HZ x y 0 Hx Hy ltac:(lia)). }
  assert (WXX : forall x y, -1 <= x <= 1 -> -1 <= y <= 1 -> F 2 2 0 x y = 0).
  { intros x y Hx Hy. apply (scaled_0 (sh_a s)); [exact Ha|]. apply (scaled_0 (sh_a s)); [exact Ha|]. pose proof (HZ x y 3 Hx Hy ltac:(lia)) as H. cbn [lin_strain] in H. unfold d_wxx in H. lra. }
  assert (WYY : forall x y, -1 <= x <= 1 -> -1 <= y <= 1 -> F 2 0 2 x y = 0).
  { intros x y Hx Hy. apply (scaled_0 (sh_b s)); [exact Hb|]. apply (scaled_0 (sh_b s)); [exact Hb|]. pose proof (HZ x y 4 Hx Hy ltac:(lia)) as H. cbn [lin_strain] in H. unfold d_wyy in H. lra. }
  assert (WXY : forall x y, -1 <= x <= 1 -> -1 <= y <= 1 -> F 2 1 1 x y = 0).
  { intros x y Hx Hy. apply (scaled_0 (sh_b s)); [exact Hb|]. apply (scaled_0 (sh_a s)); [exact Ha|]. pose proof (HZ x y 5 Hx Hy ltac:(lia)) as H. cbn [lin_strain] in H. unfold d_wxy in H. lra. }
  assert (UVY : forall x y, -1 <= x <= 1 -> -1 <= y <= 1 -> 2 / sh_b s * F 0 0 1 x y + 2 / sh_a s * F 1 1 0 x y = 0).
  { intros x y Hx Hy. exact (HZ x y 2 Hx Hy ltac:(lia)). }
  (* w has constant slopes *)
  assert (W1 : forall x y, -1 <= x <= 1 -> -1 <= y <= 1 -> F 2 1 0 x y = F 2 1 0 (-1) (-1)).
  { intros x y Hx Hy. rewrite (affine (fun t => F 2 1 0 t y) (fun t => F 2 2 0 t y) 0 x); [| | |exact Hx].
    - rewrite (affine (fun t => F 2 1 0 (-1) t) (fun t => F 2 1 1 (-1) t) 0 y); [ring| | |exact Hy].
      + intro t. apply fld_dy; solve [assumption|lia].
      + intros t Ht. apply WXY; assumption.
    - intro t. apply fld_dx; solve [assumption|lia].
    - intros t Ht. apply WXX; assumption. }
  assert (W2 : forall x y, -1 <= x <= 1 -> -1 <= y <= 1 -> F 2 0 1 x y = F 2 0 1 (-1) (-1)).
  { intros x y Hx Hy. rewrite (affine (fun t => F 2 0 1 t y) (fun t => F 2 1 1 t y) 0 x); [| | |exact Hx].
    - rewrite (affine (fun t => F 2 0 1 (-1) t) (fun t => F 2 0 2 (-1) t) 0 y); [ring| | |exact Hy].
      + intro t. apply fld_dy; solve [assumption|lia].
      + intros t Ht. apply WYY; assumption.
    - intro t. apply fld_dx; solve [assumption|lia].
    - intros t Ht. apply WXY; assumption. }
  set (A := F 2 1 0 (-1) (-1)) in *. set (B := F 2 0 1 (-1) (-1)) in *. set (W0 := F 2 0 0 (-1) (-1)).
  assert (W : forall x y, -1 <= x <= 1 -> -1 <= y <= 1 -> F 2 0 0 x y = W0 + A * (x + 1) + B * (y + 1)).
  { intros x y Hx Hy. rewrite (affine (fun t => F 2 0 0 t y) (fun t => F 2 1 0 t y) A x); [| | |exact Hx].
    - rewrite (affine (fun t => F 2 0 0 (-1) t) (fun t => F 2 0 1 (-1) t) B y); [unfold W0; ring| | |exact Hy].
      + intro t. apply fld_dy; solve [assumption|lia].
      + intros t Ht. apply W2; assumption.
    - intro t. apply fld_dx; solve [assumption|lia].
    - intros t Ht. apply W1; assumption. }
  assert (VY : forall x y, -1 <= x <= 1 -> -1 <= y <= 1 -> F 1 0 1 x y = - (sh_b s / 2 * (kap * (W0 + A * (x + 1) + B * (y + 1))))).
  { intros x y Hx Hy. pose proof (HZ x y 1 Hx Hy ltac:(lia)) as H. cbn [lin_strain] in H. unfold d_vy, d_w in H. rewrite (W x y Hx Hy) in H.
    assert (E : 2 / sh_b s * (F 1 0 1 x y + sh_b s / 2 * (kap * (W0 + A * (x + 1) + B * (y + 1)))) = 0).
    { rewrite <- H. field. exact Hb. }
    apply scaled_0 in E; [lra|exact Hb]. }
  assert (U1 : forall x y, -1 <= x <= 1 -> -1 <= y <= 1 -> F 0 0 0 x y = F 0 0 0 (-1) y).
  { intros x y Hx Hy. rewrite (affine (fun t => F 0 0 0 t y) (fun t => F 0 1 0 t y) 0 x); [ring| | |exact Hx].
    - intro t. apply fld_dx; solve [assumption|lia].
    - intros t Ht. apply UX; assumption. }
  assert (V1 : forall x y, -1 <= x <= 1 -> -1 <= y <= 1 -> F 1 0 0 x y = F 1 0 0 x (-1) - sh_b s / 2 * kap * ((W0 + A * (x + 1)) * (y + 1) + B * (y + 1) ^ 2 / 2)).
  { intros x y Hx Hy. rewrite (primitive (fun t => F 1 0 0 x t) (fun t => F 1 0 1 x t) (fun t => - (sh_b s / 2 * kap * ((W0 + A * (x + 1)) * (t + 1) + B * (t + 1) ^ 2 / 2)))
      (fun t => - (sh_b s / 2 * (kap * (W0 + A * (x + 1) + B * (t + 1))))) y); [field| | | |exact Hy].
    - intro t. apply fld_dy; solve [assumption|lia].
    - intro t. auto_derive; [exact I|field].
    - intros t Ht. apply VY; assumption. }
  assert (U2 : forall x y, -1 <= x <= 1 -> -1 <= y <= 1 -> F 0 0 1 x y = F 0 0 1 (-1) y).
  { intros x y Hx Hy. apply (same_slope (fun t => F 0 0 0 x t) (fun t => F 0 0 0 (-1) t) _ _ y); [apply fld_dy; solve [assumption|lia]|apply fld_dy; solve [assumption|lia]| |exact Hy].
    intros t Ht. apply U1; assumption. }
  assert (V2 : forall x y, -1 <= x <= 1 -> -1 <= y <= 1 -> F 1 1 0 x y = F 1 1 0 x (-1) - sh_b s / 2 * kap * (A * (y + 1))).
  { intros x y Hx Hy. apply (same_slope (fun t => F 1 0 0 t y) (fun t => F 1 0 0 t (-1) - sh_b s / 2 * kap * ((W0 + A * (t + 1)) * (y + 1) + B * (y + 1) ^ 2 / 2)) _ _ x); [apply fld_dx; solve [assumption|lia]| | |exact Hx].
    - apply (is_derive_minus (K := R_AbsRing) (V := R_NormedModule) (fun t => F 1 0 0 t (-1)) (fun t => sh_b s / 2 * kap * ((W0 + A * (t + 1)) * (y + 1) + B * (y + 1) ^ 2 / 2))); [apply fld_dx; solve [assumption|lia]|auto_derive; [exact I|ring]].
    - intros t Ht. apply V1; assumption. }
  set (G := F 1 1 0 (-1) (-1)).
  assert (U3 : forall y, -1 <= y <= 1 -> F 0 0 1 (-1) y = - (sh_b s / sh_a s * (G - sh_b s / 2 * kap * (A * (y + 1))))).
  { intros y Hy. pose proof (UVY (-1) y I1 Hy) as H. rewrite (V2 (-1) y I1 Hy) in H. fold G in H.
    assert (E : 2 / sh_b s * (F 0 0 1 (-1) y + sh_b s / sh_a s * (G - sh_b s / 2 * kap * (A * (y + 1)))) = 0).
    { rewrite <- H. field. split; assumption. }
    apply scaled_0 in E; [lra|exact Hb]. }
  assert (V3 : forall x, -1 <= x <= 1 -> F 1 1 0 x (-1) = G).
  { intros x Hx. pose proof (UVY x (-1) Hx I1) as H. rewrite (U2 x (-1) Hx I1), (U3 (-1) I1) in H.
    assert (E : 2 / sh_a s * (F 1 1 0 x (-1) - G) = 0).
    { rewrite <- H. field. split; assumption. }
    apply scaled_0 in E; [lra|exact Ha]. }
  exists (F 0 0 0 (-1) (-1)), (F 1 0 0 (-1) (-1)), W0, (2 / sh_a s * G), (2 / sh_a s * A), (2 / sh_b s * B).
  intros xi eta Hx Hy. cbv zeta. unfold d_u, d_v, d_w. cbn [motion]. split; [|split].
  - rewrite (U1 xi eta Hx Hy). rewrite (primitive (fun t => F 0 0 0 (-1) t) (fun t => F 0 0 1 (-1) t) (fun t => - (sh_b s / sh_a s * (G * (t + 1) - sh_b s / 2 * kap * (A * (t + 1) ^ 2 / 2))))
      (fun t => - (sh_b s / sh_a s * (G - sh_b s / 2 * kap * (A * (t + 1))))) eta); [field; exact Ha| | | |exact Hy].
    + intro t. apply fld_dy; solve [assumption|lia].
    + intro t. auto_derive; [exact I|field; exact Ha].
    + intros t Ht. apply U3; exact Ht.
  - rewrite (V1 xi eta Hx Hy). rewrite (affine (fun t => F 1 0 0 t (-1)) (fun t => F 1 1 0 t (-1)) G xi); [field; split; assumption| | |exact Hx].
    + intro t. apply fld_dx; solve [assumption|lia].
    + intros t Ht. apply V3; exact Ht.
  - rewrite (W xi eta Hx Hy). field. split; assumption.
Qed.
End Rigid.

(* ------------------------------------------------- zero energy means zero strain *)
Lemma cont_shape_exact p i e Z x y : (i < 30)%nat -> continuity_2d_pt Z x y -> continuity_2d_pt (fun s t => shape exact_basis p i (Z s t) e) x y.
Proof.
  intros Hi HZ. apply (continuity_1d_2d_pt_comp (fun z => shape exact_basis p i z e) Z); [|exact HZ]. apply continuity_pt_filterlim.
  destruct p as [|[|p]]; cbn [shape exact_basis bf bfp bfpp].
  - apply (continuous_scal_r (flag e i) (bardell i)). apply bardell_continuous. exact Hi.
  - apply (continuous_scal_r (flag e i) (fun t => Derive (bardell i) t)). apply (continuous_ext (qeval (bz1 i))); [intro t; symmetry; apply Derive_bardell; exact Hi|apply bz1_continuous].
  - apply (continuous_scal_r (flag e i) (fun t => Derive_n (bardell i) 2 t)). apply (continuous_ext (qeval (bz2 i))); [intro t; symmetry; apply Derive2_bardell; exact Hi|apply qeval_continuous].
Qed.
Lemma cont_fld_exact s c d p q x y : (sh_m s <= 30)%nat -> (sh_n s <= 30)%nat -> continuity_2d_pt (fld exact_basis s c d p q) x y.
Proof.
  intros Hm Hn. apply (continuity_2d_pt_ext (fun u v => fld exact_basis s c d p q u v)); [reflexivity|]. unfold fld, ritz. apply cont_sumn; intros j Hj. apply cont_sumn; intros i Hi.
  apply continuity_2d_pt_mult; [apply continuity_2d_pt_mult; [apply continuity_2d_pt_const|]|].
  - apply (cont_shape_exact p i _ (fun u _ => u)); [lia|apply continuity_2d_pt_id1].
  - apply (cont_shape_exact q j _ (fun _ v => v)); [lia|apply continuity_2d_pt_id2].
Qed.
Lemma cont_strain kappa s c k x y : (sh_m s <= 30)%nat -> (sh_n s <= 30)%nat -> continuity_2d_pt (fun u v => lin_strain kappa exact_basis s c u v k) x y.
Proof.
  intros Hm Hn. unfold lin_strain, d_ux, d_uy, d_vx, d_vy, d_w, d_wxx, d_wyy, d_wxy.
  assert (HF : forall l d p q, continuity_2d_pt (fun u v => l * fld exact_basis s c d p q u v) x y).
  { intros. apply continuity_2d_pt_mult; [apply continuity_2d_pt_const|apply cont_fld_exact; assumption]. }
  destruct k as [|[|[|[|[|[|k]]]]]].
  - apply HF.
  - apply (continuity_2d_pt_plus (fun u v => 2 / sh_b s * fld exact_basis s c 1 0 1 u v)); apply HF.
  - apply (continuity_2d_pt_plus (fun u v => 2 / sh_b s * fld exact_basis s c 0 0 1 u v)); apply HF.
  - apply (continuity_2d_pt_opp (fun u v => 2 / sh_a s * (2 / sh_a s) * fld exact_basis s c 2 2 0 u v)). apply HF.
  - apply (continuity_2d_pt_opp (fun u v => 2 / sh_b s * (2 / sh_b s) * fld exact_basis s c 2 0 2 u v)). apply HF.
  - apply (continuity_2d_pt_opp (fun u v => 2 * (2 / sh_a s * (2 / sh_b s) * fld exact_basis s c 2 1 1 u v))). apply continuity_2d_pt_mult; [apply continuity_2d_pt_const|apply HF].
  - apply continuity_2d_pt_const.
Qed.
Lemma definite_psd n M : definite n M -> psd_form n M.
Proof.
  intros HD x. destruct (Classical_Prop.classic (exists k, (k < n)%nat /\ x k <> 0)) as [H|H]; [left; apply HD; exact H|right].
  symmetry. unfold form. apply sumn_0; intros i Hi. apply sumn_0; intros j Hj.
  assert (E : x i = 0) by (destruct (Req_dec (x i) 0) as [E|C]; [exact E|exfalso; apply H; exists i; split; assumption]). rewrite E. ring.
Qed.
Lemma null_strain kappa s F c : (sh_m s <= 30)%nat -> (sh_n s <= 30)%nat -> 0 < sh_a s * sh_b s -> definite 6 F ->
  panel_integral s (fun xi eta => form 6 F (lin_strain kappa exact_basis s c xi eta) (lin_strain kappa exact_basis s c xi eta)) 0 ->
  forall xi eta k, -1 <= xi <= 1 -> -1 <= eta <= 1 -> (k < 6)%nat -> lin_strain kappa exact_basis s c xi eta k = 0.
Proof.
  intros Hm Hn Hab HD HI xi eta k Hx Hy Hk. destruct (Req_dec (lin_strain kappa exact_basis s c xi eta k) 0) as [HC|HC]; [exact HC|exfalso].
  assert (HP := HD (lin_strain kappa exact_basis s c xi eta) (ex_intro _ k (conj Hk HC))).
  assert (HQ : 0 < sh_a s / 2 * (sh_b s / 2)) by nra.
  assert (HZ := zero_square _ xi eta HI). cbv beta in HZ. assert (HE : sh_a s / 2 * (sh_b s / 2) * form 6 F (lin_strain kappa exact_basis s c xi eta) (lin_strain kappa exact_basis s c xi eta) = 0).
  { apply HZ; [|exact Hx|exact Hy|].
    - intros u v. apply Rmult_le_pos; [lra|apply definite_psd; exact HD].
    - apply continuity_2d_pt_mult; [apply continuity_2d_pt_const|]. unfold form. apply cont_sumn; intros i Hi. apply cont_sumn; intros j Hj.
      apply continuity_2d_pt_mult; [apply continuity_2d_pt_mult; [apply continuity_2d_pt_const|]|]; apply cont_strain; assumption. }
  apply Rmult_integral in HE. destruct HE as [HE|HE]; lra.
Qed.

(* ------------------------------------------------- the stiffness matrix *)
Section Api.
Variables (E : env) (A : kargs) (p p' : panel) (K : nat -> nat -> R) (N : nat).
Hypothesis HR : calc_kC E A p = (p', Ok K).
Hypothesis Hc : ka_c A = None.
Hypothesis HF : ka_F A = None.
Hypothesis HNL : ka_NL A = false.
Hypothesis Hcte : ka_c_cte A = None.
Hypothesis Hfin : ka_fin A = true.
Hypothesis Hpos : ka_row0 A = ka_col0 A.
Hypothesis HN : pn_N_cte p = (0, 0, 0).
Hypothesis Hg : geometry_ok (chosen_model p) (kernel_view p).
Hypothesis Hfit : (ka_col0 A + ndof (pn_sh p) <= N)%nat.
Hypothesis HABD : is_ABD (lam_matrix (pn_ortho p) (rebuilt_lam E p)).
Hypothesis HT : tables_integrate (e_tables E) exact_basis (Nat.max (sh_m (pn_sh p)) (sh_n (pn_sh p))).
Notation s := (kernel_view p).
Notation o := (ka_col0 A).
Notation eps := (fun v => lin_strain (curvature (chosen_model p) s) exact_basis s (own o v)).
Lemma kC_energy c d : panel_integral s (fun xi eta => form 6 (lam_matrix (pn_ortho p) (rebuilt_lam E p)) (eps c xi eta) (eps d xi eta)) (bilinear N K c d).
Proof using All.
  pose proof (calc_kC_analytic _ _ _ _ _ HR Hc HF HNL Hcte) as HA. rewrite HN in HA. destruct HA as (kC & kGc & HK & _ & HkC & HkG).
  rewrite Hfin in HK. cbn [finalized] in HK. subst K. rewrite Hpos in *.
  rewrite (bilinear_ext N _ (fun r t => finalize_symmetric (dense kC) r t + finalize_symmetric (dense kGc) r t)) by (intros; apply finalize_plus).
  rewrite bilinear_plus. eapply panel_integral_ext; [|apply panel_integral_plus].
  - intros x y. apply (Rplus_0_r (form 6 (lam_matrix (pn_ortho p) (rebuilt_lam E p)) (eps c x y) (eps d x y))).
  - subst kC. apply fk0_energy; assumption.
  - destruct HkG as [(Hz & ->)|HkG].
    + assert (Z : bilinear N (finalize_symmetric (dense [])) c d = 0).
      { unfold bilinear. apply sumn_0; intros. apply sumn_0; intros. unfold finalize_symmetric. destruct (_ <=? _)%nat; cbn; ring. }
      rewrite Z. unfold panel_integral. eapply sqi_ext; [|apply sqi_0]. intros; cbv beta. ring.
    + subst kGc. eapply panel_integral_ext; [|apply (fkG0_energy (chosen_model p) _ exact_basis); eassumption]. intros x y. apply membrane_work_0.
Qed.
Lemma integral_zero t g I : (forall x y, g x y = 0) -> panel_integral t g I -> I = 0.
Proof.
  intros H [H1 H2]. rewrite <- (is_RInt_unique _ _ _ _ H2).
  rewrite (RInt_ext _ (fun _ => 0)).
  - rewrite RInt_const. apply Rmult_0_r.
  - intros x _. rewrite (RInt_ext _ (fun _ => 0)); [rewrite RInt_const; apply Rmult_0_r|]. intros y _. rewrite H. apply Rmult_0_r.
Qed.
Lemma row_bilinear v i : (i < N)%nat -> row N K v i = bilinear N K (unitv i) v.
Proof using All.
  intro Hi. rewrite bilinear_row. rewrite (sumn_ext N _ (fun k => if (k =? i)%nat then row N K v k else 0)); [rewrite sumn_single; apply Nat.ltb_lt in Hi; rewrite Hi; reflexivity|].
  intros k Hk. unfold unitv. destruct (k =? i)%nat; ring.
Qed.
Lemma null_of_strain v : (forall xi eta k, (k < 6)%nat -> eps v xi eta k = 0) -> forall i, (i < N)%nat -> row N K v i = 0.
Proof using All.
  intros Hv i Hi. rewrite row_bilinear by exact Hi. eapply integral_zero; [|apply kC_energy]. intros x y. cbv beta.
  unfold form. apply sumn_0; intros a Ha'. apply sumn_0; intros b Hb'. rewrite (Hv x y b Hb'). ring.
Qed.
Definition placed (v : nat -> R) : nat -> R := fun k => if (k <? o)%nat then 0 else v (k - o)%nat.
Lemma own_placed v k : own o (placed v) k = v k.
Proof using All. unfold own, placed. destruct (Nat.ltb_spec (o + k) o); [lia|]. f_equal. lia. Qed.
Lemma fld_ext B t c d : (forall k, c k = d k) -> forall n p q x y, fld B t c n p q x y = fld B t d n p q x y.
Proof using All. intros H n p0 q x y. unfold fld, ritz. apply sumn_ext; intros. apply sumn_ext; intros. rewrite H. reflexivity. Qed.
Lemma strain_ext kp B t c d : (forall k, c k = d k) -> forall x y k, lin_strain kp B t c x y k = lin_strain kp B t d x y k.
Proof using All.
  intros H x y k. unfold lin_strain, d_ux, d_uy, d_vx, d_vy, d_w, d_wxx, d_wyy, d_wxy. destruct k as [|[|[|[|[|[|k]]]]]]; rewrite ?(fld_ext B t c d H); reflexivity.
Qed.
Notation kap := (curvature (chosen_model p) s).
Lemma rigid_free u0 v0 w0 th al be : (4 <= sh_m (pn_sh p))%nat -> (4 <= sh_n (pn_sh p))%nat -> flags_01 s -> allowed kap s u0 v0 w0 th al be ->
  exists c, rigid kap s (own o c) u0 v0 w0 th al be /\ forall i, (i < N)%nat -> row N K c i = 0.
Proof using All.
  intros Hm Hn HU HA. exists (placed (rigid_vec kap s u0 v0 w0 th al be)). split.
  - intros xi eta Hx Hy. pose proof (rigid_vec_rigid kap s u0 v0 w0 th al be Hm Hn HU HA xi eta Hx Hy) as H. cbv zeta in *. unfold d_u, d_v, d_w in *.
    rewrite !(fld_ext exact_basis s _ _ (own_placed _)). exact H.
  - apply null_of_strain. intros xi eta k Hk. rewrite (strain_ext _ _ _ _ _ (own_placed _)).
    apply rigid_vec_strain; [exact Hm|exact Hn|exact HU|exact HA|apply Hg|apply Hg].
Qed.
Hypothesis HD : definite 6 (lam_matrix (pn_ortho p) (rebuilt_lam E p)).
Hypothesis Hab : 0 < sh_a (pn_sh p) * sh_b (pn_sh p).
Hypothesis Hm : (sh_m (pn_sh p) <= 30)%nat.
Hypothesis Hn : (sh_n (pn_sh p) <= 30)%nat.
Lemma null_is_rigid c : quad N K c = 0 -> exists u0 v0 w0 th al be, rigid kap s (own o c) u0 v0 w0 th al be.
Proof using All.
  intro HQ. unfold quad in HQ. pose proof (kC_energy c c) as HE. rewrite HQ in HE.
  apply null_rigid; [exact Hm|exact Hn|apply Hg|apply Hg|]. exact (null_strain kap s _ (own o c) Hm Hn Hab HD HE).
Qed.
End Api.

(* ------------------------------------------------- supports *)
Lemma flag_end1 s d c eta : (sh_m s <= 30)%nat -> e1t (xedge s d) = 0 -> fld exact_basis s c d 0 0 (-1) eta = 0.
Proof.
  intros Hm He. unfold fld, ritz. apply sumn_0; intros j Hj. apply sumn_0; intros i Hi. cbn [shape exact_basis bf].
  destruct (bardell_ends i ltac:(lia)) as (E & _). rewrite E. destruct i as [|i]; cbn [Nat.eqb flag]; [rewrite He|]; ring.
Qed.
Lemma flag_end2 s d c eta : (sh_m s <= 30)%nat -> e2t (xedge s d) = 0 -> fld exact_basis s c d 0 0 1 eta = 0.
Proof.
  intros Hm He. unfold fld, ritz. apply sumn_0; intros j Hj. apply sumn_0; intros i Hi. cbn [shape exact_basis bf].
  destruct (bardell_ends i ltac:(lia)) as (_ & E & _). rewrite E. destruct i as [|[|[|i]]]; cbn [Nat.eqb flag]; try (rewrite He); ring.
Qed.
Lemma flag_slope1 s d c eta : (sh_m s <= 30)%nat -> e1r (xedge s d) = 0 -> fld exact_basis s c d 1 0 (-1) eta = 0.
Proof.
  intros Hm He. unfold fld, ritz. apply sumn_0; intros j Hj. apply sumn_0; intros i Hi. cbn [shape exact_basis bfp].
  destruct (bardell_ends i ltac:(lia)) as (_ & _ & E & _). rewrite E. destruct i as [|[|i]]; cbn [Nat.eqb flag]; try (rewrite He); ring.
Qed.
Lemma flag_slope2 s d c eta : (sh_m s <= 30)%nat -> e2r (xedge s d) = 0 -> fld exact_basis s c d 1 0 1 eta = 0.
Proof.
  intros Hm He. unfold fld, ritz. apply sumn_0; intros j Hj. apply sumn_0; intros i Hi. cbn [shape exact_basis bfp].
  destruct (bardell_ends i ltac:(lia)) as (_ & _ & _ & E). rewrite E. destruct i as [|[|[|[|i]]]]; cbn [Nat.eqb flag]; try (rewrite He); ring.
Qed.
Lemma flag_yend1 s d c xi : (sh_n s <= 30)%nat -> e1t (yedge s d) = 0 -> fld exact_basis s c d 0 0 xi (-1) = 0.
Proof.
  intros Hm He. unfold fld, ritz. apply sumn_0; intros j Hj. apply sumn_0; intros i Hi. cbn [shape exact_basis bf].
  destruct (bardell_ends j ltac:(lia)) as (E & _). rewrite E. destruct j as [|j]; cbn [Nat.eqb flag]; [rewrite He|]; ring.
Qed.
Lemma flag_yend2 s d c xi : (sh_n s <= 30)%nat -> e2t (yedge s d) = 0 -> fld exact_basis s c d 0 0 xi 1 = 0.
Proof.
  intros Hm He. unfold fld, ritz. apply sumn_0; intros j Hj. apply sumn_0; intros i Hi. cbn [shape exact_basis bf].
  destruct (bardell_ends j ltac:(lia)) as (_ & E & _). rewrite E. destruct j as [|[|[|j]]]; cbn [Nat.eqb flag]; try (rewrite He); ring.
Qed.
Lemma flag_yslope1 s d c xi : (sh_n s <= 30)%nat -> e1r (yedge s d) = 0 -> fld exact_basis s c d 0 1 xi (-1) = 0.
Proof.
  intros Hm He. unfold fld, ritz. apply sumn_0; intros j Hj. apply sumn_0; intros i Hi. cbn [shape exact_basis bfp].
  destruct (bardell_ends j ltac:(lia)) as (_ & _ & E & _). rewrite E. destruct j as [|[|j]]; cbn [Nat.eqb flag]; try (rewrite He); ring.
Qed.
Lemma flag_yslope2 s d c xi : (sh_n s <= 30)%nat -> e2r (yedge s d) = 0 -> fld exact_basis s c d 0 1 xi 1 = 0.
Proof.
  intros Hm He. unfold fld, ritz. apply sumn_0; intros j Hj. apply sumn_0; intros i Hi. cbn [shape exact_basis bfp].
  destruct (bardell_ends j ltac:(lia)) as (_ & _ & _ & E). rewrite E. destruct j as [|[|[|[|j]]]]; cbn [Nat.eqb flag]; try (rewrite He); ring.
Qed.
(* a panel that moves without strain does so as its supports allow *)
Lemma rigid_allowed k s c u0 v0 w0 th al be : (sh_m s <= 30)%nat -> (sh_n s <= 30)%nat -> sh_a s <> 0 -> sh_b s <> 0 -> rigid k s c u0 v0 w0 th al be -> allowed k s u0 v0 w0 th al be.
Proof.
  intros Hm Hn Ha Hb HR d t Hd Ht. cbv zeta.
  set (M := motion k u0 v0 w0 th al be d).
  assert (HF : forall xi eta, -1 <= xi <= 1 -> -1 <= eta <= 1 -> fld exact_basis s c d 0 0 xi eta = M (sh_a s * (xi + 1) / 2) (sh_b s * (eta + 1) / 2)).
  { intros xi eta Hx Hy. destruct (HR xi eta Hx Hy) as (A1 & A2 & A3). unfold d_u, d_v, d_w in *. unfold M. destruct d as [|[|[|d]]]; [exact A1|exact A2|exact A3|lia]. }
  assert (DX : forall x y, is_derive (fun t => M t y) x (motion_x k u0 v0 w0 th al be d x y)).
  { intros x y. unfold motion_x, M. apply Derive_correct. destruct d as [|[|[|d]]]; [| | |lia]; cbn [motion]; auto_derive; exact I. }
  assert (DY : forall x y, is_derive (fun t => M x t) y (motion_y k u0 v0 w0 th al be d x y)).
  { intros x y. unfold motion_y, M. apply Derive_correct. destruct d as [|[|[|d]]]; [| | |lia]; cbn [motion]; auto_derive; exact I. }
  assert (SX : forall xi eta, -1 <= xi <= 1 -> -1 <= eta <= 1 -> fld exact_basis s c d 1 0 xi eta = sh_a s / 2 * motion_x k u0 v0 w0 th al be d (sh_a s * (xi + 1) / 2) (sh_b s * (eta + 1) / 2)).
  { intros xi eta Hx Hy. apply (same_slope (fun t => fld exact_basis s c d 0 0 t eta) (fun t => M (sh_a s * (t + 1) / 2) (sh_b s * (eta + 1) / 2)) _ _ xi); [apply fld_dx; solve [assumption|lia]| | |exact Hx].
    - apply (is_derive_comp (K := R_AbsRing) (V := R_NormedModule) (fun t => M t (sh_b s * (eta + 1) / 2)) (fun t => sh_a s * (t + 1) / 2)); [apply DX|auto_derive; [exact I|field]].
    - intros r Hr. exact (HF r eta Hr Hy). }
  assert (SY : forall xi eta, -1 <= xi <= 1 -> -1 <= eta <= 1 -> fld exact_basis s c d 0 1 xi eta = sh_b s / 2 * motion_y k u0 v0 w0 th al be d (sh_a s * (xi + 1) / 2) (sh_b s * (eta + 1) / 2)).
  { intros xi eta Hx Hy. apply (same_slope (fun t => fld exact_basis s c d 0 0 xi t) (fun t => M (sh_a s * (xi + 1) / 2) (sh_b s * (t + 1) / 2)) _ _ eta); [apply fld_dy; solve [assumption|lia]| | |exact Hy].
    - apply (is_derive_comp (K := R_AbsRing) (V := R_NormedModule) (fun t => M (sh_a s * (xi + 1) / 2) t) (fun t => sh_b s * (t + 1) / 2)); [apply DY|auto_derive; [exact I|field]].
    - intros r Hr. exact (HF xi r Hx Hr). }
  assert (T : -1 <= 2 * t - 1 <= 1) by lra. assert (I1 : -1 <= -1 <= 1) by lra. assert (I2 : -1 <= 1 <= 1) by lra.
  assert (XT : sh_a s * (2 * t - 1 + 1) / 2 = sh_a s * t) by field. assert (YT : sh_b s * (2 * t - 1 + 1) / 2 = sh_b s * t) by field.
  assert (X0 : sh_a s * (-1 + 1) / 2 = 0) by field. assert (X1 : sh_a s * (1 + 1) / 2 = sh_a s) by field.
  assert (Y0 : sh_b s * (-1 + 1) / 2 = 0) by field. assert (Y1 : sh_b s * (1 + 1) / 2 = sh_b s) by field.
  assert (ZA : forall z, 0 = sh_a s / 2 * z -> z = 0) by (intros z Hz; replace z with (2 / sh_a s * (sh_a s / 2 * z)) by (field; exact Ha); rewrite <- Hz; ring).
  assert (ZB : forall z, 0 = sh_b s / 2 * z -> z = 0) by (intros z Hz; replace z with (2 / sh_b s * (sh_b s / 2 * z)) by (field; exact Hb); rewrite <- Hz; ring).
  repeat split; intro F.
  - pose proof (HF (-1) (2 * t - 1) I1 T) as Q. rewrite (flag_end1 s d c _ Hm F), X0, YT in Q. symmetry. exact Q.
  - pose proof (HF 1 (2 * t - 1) I2 T) as Q. rewrite (flag_end2 s d c _ Hm F), X1, YT in Q. symmetry. exact Q.
  - pose proof (HF (2 * t - 1) (-1) T I1) as Q. rewrite (flag_yend1 s d c _ Hn F), Y0, XT in Q. symmetry. exact Q.
  - pose proof (HF (2 * t - 1) 1 T I2) as Q. rewrite (flag_yend2 s d c _ Hn F), Y1, XT in Q. symmetry. exact Q.
  - apply ZA. pose proof (SX (-1) (2 * t - 1) I1 T) as Q. rewrite (flag_slope1 s d c _ Hm F), X0, YT in Q. exact Q.
  - apply ZA. pose proof (SX 1 (2 * t - 1) I2 T) as Q. rewrite (flag_slope2 s d c _ Hm F), X1, YT in Q. exact Q.
  - apply ZB. pose proof (SY (2 * t - 1) (-1) T I1) as Q. rewrite (flag_yslope1 s d c _ Hn F), Y0, XT in Q. exact Q.
  - apply ZB. pose proof (SY (2 * t - 1) 1 T I2) as Q. rewrite (flag_yslope2 s d c _ Hn F), Y1, XT in Q. exact Q.
Qed.
Lemma anchored_still k s c u0 v0 w0 th al be : (sh_m s <= 30)%nat -> (sh_n s <= 30)%nat -> sh_a s <> 0 -> sh_b s <> 0 -> anchored k s -> rigid k s c u0 v0 w0 th al be ->
  u0 = 0 /\ v0 = 0 /\ w0 = 0 /\ th = 0 /\ al = 0 /\ be = 0.
Proof. intros Hm Hn Ha Hb HA HR. apply HA. exact (rigid_allowed k s c u0 v0 w0 th al be Hm Hn Ha Hb HR). Qed.
(* the edge x = 0 is held in the three directions, and its slope too or else the deflection of the edge x = a *)
Lemma edge_anchored k s : sh_a s <> 0 -> sh_b s <> 0 -> e1t (sh_xu s) = 0 -> e1t (sh_xv s) = 0 -> e1t (sh_xw s) = 0 -> e1r (sh_xw s) = 0 \/ e2t (sh_xw s) = 0 -> anchored k s.
Proof.
  intros Ha Hb H1 H2 H3 H4 u0 v0 w0 th al be HA.
  destruct (HA 2%nat 0 ltac:(lia) ltac:(lra)) as (C3 & C2 & _ & _ & C5 & _). destruct (HA 2%nat 1 ltac:(lia) ltac:(lra)) as (C4 & _). specialize (C3 H3). specialize (C4 H3).
  destruct (HA 0%nat 0 ltac:(lia) ltac:(lra)) as (A2 & _). destruct (HA 0%nat 1 ltac:(lia) ltac:(lra)) as (A3 & _). specialize (A2 H1). specialize (A3 H1).
  destruct (HA 1%nat 0 ltac:(lia) ltac:(lra)) as (B2 & _). specialize (B2 H2). cbn [motion] in *.
  assert (E0 : w0 = 0) by lra.
  assert (E5 : be = 0). { assert (E : be * sh_b s = 0) by lra. apply Rmult_integral in E. tauto. }
  assert (E4 : al = 0).
  { destruct H4 as [H4|H4].
    - pose proof (C5 H4) as Q. pose proof (motion_x_at k s u0 v0 w0 th al be 2 (-1) (-1) ltac:(lia)) as P. replace (sh_a s * (-1 + 1) / 2) with 0 in P by field. replace (sh_b s * (-1 + 1) / 2) with (sh_b s * 0) in P by field.
      rewrite Q in P. cbn [rk1 rk3] in P. assert (E : al * sh_a s = 0) by lra. apply Rmult_integral in E. tauto.
    - pose proof (C2 H4) as W. assert (E : al * sh_a s = 0) by lra. apply Rmult_integral in E. tauto. }
  rewrite E0, E4, E5 in *. assert (E3 : th = 0). { assert (E : th * sh_b s = 0) by lra. apply Rmult_integral in E. tauto. }
  rewrite E3 in *. repeat split; lra.
Qed.
Lemma fld_minus s c d n p q x y : fld exact_basis s (fun k => c k - d k) n p q x y = fld exact_basis s c n p q x y - fld exact_basis s d n p q x y.
Proof. unfold fld, ritz. rewrite <- sumn_minus. apply sumn_ext; intros. rewrite <- sumn_minus. apply sumn_ext; intros. ring. Qed.
Lemma row_minus N K c d i : row N K (fun k => c k - d k) i = row N K c i - row N K d i.
Proof. unfold row. rewrite <- sumn_minus. apply sumn_ext; intros. ring. Qed.
Lemma quad_row N K c : (forall i, (i < N)%nat -> row N K c i = 0) -> quad N K c = 0.
Proof. intro H. unfold quad. rewrite bilinear_row. apply sumn_0; intros i Hi. rewrite H by exact Hi. ring. Qed.
Lemma fld_zero s n p q x y : fld exact_basis s (fun _ => 0) n p q x y = 0.
Proof. unfold fld, ritz. apply sumn_0; intros. apply sumn_0; intros. ring. Qed.
Lemma loose_motion k s : ~ anchored k s -> exists u0 v0 w0 th al be, allowed k s u0 v0 w0 th al be /\ ~ (u0 = 0 /\ v0 = 0 /\ w0 = 0 /\ th = 0 /\ al = 0 /\ be = 0).
Proof.
  intro H. apply NNPP. intro HN. apply H. intros u0 v0 w0 th al be HA. apply NNPP. intro HZ. apply HN. exists u0, v0, w0, th, al, be. split; assumption.
Qed.
Lemma moved_somewhere k s c u0 v0 w0 th al be : sh_a s <> 0 -> sh_b s <> 0 -> rigid k s c u0 v0 w0 th al be -> ~ (u0 = 0 /\ v0 = 0 /\ w0 = 0 /\ th = 0 /\ al = 0 /\ be = 0) ->
  exists xi eta, -1 <= xi <= 1 /\ -1 <= eta <= 1 /\ ~ (d_u exact_basis s c xi eta = 0 /\ d_v exact_basis s c xi eta = 0 /\ d_w exact_basis s c xi eta = 0).
Proof.
  intros Ha Hb HR HN. apply NNPP. intro HE. apply HN.
  assert (H : forall xi eta, -1 <= xi <= 1 -> -1 <= eta <= 1 -> d_u exact_basis s c xi eta = 0 /\ d_v exact_basis s c xi eta = 0 /\ d_w exact_basis s c xi eta = 0).
  { intros xi eta Hx Hy. apply NNPP. intro HZ. apply HE. exists xi, eta. auto. }
  destruct (H (-1) (-1) ltac:(lra) ltac:(lra)) as (A1 & A2 & A3). destruct (H (-1) 1 ltac:(lra) ltac:(lra)) as (B1 & _ & B3). destruct (H 1 (-1) ltac:(lra) ltac:(lra)) as (_ & _ & C3).
  destruct (HR (-1) (-1) ltac:(lra) ltac:(lra)) as (P1 & P2 & P3). destruct (HR (-1) 1 ltac:(lra) ltac:(lra)) as (Q1 & _ & Q3). destruct (HR 1 (-1) ltac:(lra) ltac:(lra)) as (_ & _ & R3). cbv zeta in *.
  cbn [motion] in *. rewrite A1 in P1. rewrite A2 in P2. rewrite A3 in P3. rewrite B1 in Q1. rewrite B3 in Q3. rewrite C3 in R3.
  assert (Y0 : sh_b s * (-1 + 1) / 2 = 0) by field. assert (X0 : sh_a s * (-1 + 1) / 2 = 0) by field. assert (Y1 : sh_b s * (1 + 1) / 2 = sh_b s) by field. assert (X1 : sh_a s * (1 + 1) / 2 = sh_a s) by field.
  rewrite ?X0, ?Y0, ?X1, ?Y1 in *. assert (E0 : w0 = 0) by lra.
  assert (E4 : al = 0). { assert (E : al * sh_a s = 0) by lra. apply Rmult_integral in E. tauto. }
  assert (E5 : be = 0). { assert (E : be * sh_b s = 0) by lra. apply Rmult_integral in E. tauto. }
  rewrite E0, E4, E5 in *. assert (E3 : th = 0). { assert (E : th * sh_b s = 0) by lra. apply Rmult_integral in E. tauto. }
  rewrite E3 in *. repeat split; lra.
Qed.
