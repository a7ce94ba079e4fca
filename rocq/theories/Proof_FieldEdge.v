(* Boundary values, layout of the Ritz vector, linearity, stress resultants. *)
From Coq Require Import Reals List Arith Bool Lia Lra Permutation ZArith.
From Coquelicot Require Import Coquelicot.
From Verif Require Import Base_Sum Model_Types Model_Coo Model_Result Model_Num Model_DB Data_Bardell Model_Bardell Model_Shell Model_Field
  Spec_Algebra Spec_Kinematics Spec_Quadrature Spec_Bardell Spec_Panel Spec_Shell Spec_Field
  Proof_Poly Proof_Bardell Proof_Shell Proof_Api Proof_Field Proof_Fint2 Proof_FintApi Proof_FieldApi Proof_FieldDeriv.
Import ListNotations.
Open Scope R_scope.

(* ------------------------------------------------- boundary values *)
Definition end_val (e : edge) (k : nat) (i : nat) : R := if (i =? k)%nat then flag e k else 0.
Definition near_ends (t0 t1 : R) (Bs : basis) : Prop := forall i e, (i < 30)%nat ->
  Rabs (bf Bs i (-1) e - end_val e 0 i) <= t0 /\ Rabs (bf Bs i 1 e - end_val e 2 i) <= t0 /\
  Rabs (bfp Bs i (-1) e - 1 / 2 * end_val e 1 i) <= t1 /\ Rabs (bfp Bs i 1 e - 1 / 2 * end_val e 3 i) <= t1.

Lemma exact_end e i : (i < 30)%nat ->
  flag e i * bardell i (-1) = end_val e 0 i /\ flag e i * bardell i 1 = end_val e 2 i /\
  flag e i * Derive (bardell i) (-1) = 1 / 2 * end_val e 1 i /\ flag e i * Derive (bardell i) 1 = 1 / 2 * end_val e 3 i.
Proof.
  intro Hi. destruct (bardell_ends i Hi) as (E1 & E2 & E3 & E4). rewrite E1, E2, E3, E4. unfold end_val.
  repeat split; match goal with |- context [(i =? ?k)%nat] => destruct (Nat.eqb_spec i k) as [->|_] end; field.
Qed.
Lemma exact_near_ends : near_ends 0 0 exact_basis.
Proof.
  intros i e Hi. destruct (exact_end e i Hi) as (E1 & E2 & E3 & E4). cbn [exact_basis bf bfp]. rewrite E1, E2, E3, E4.
  repeat split; rewrite Rminus_diag_eq, Rabs_R0; lra.
Qed.
Lemma code_near_ends : near_ends (4 / 10 ^ 9) (2 / 10 ^ 7) code_basis.
Proof.
  intros i e Hi. destruct (exact_end e i Hi) as (E1 & E2 & E3 & E4). cbn [code_basis bf bfp]. rewrite <- E1, <- E2, <- E3, <- E4.
  repeat split; (eapply Rle_trans; [(apply code_f_close || apply code_fp_close); [exact Hi|lra]|apply if_le; apply Rlt_le, Rdiv_lt_0_compat; [lra|apply pow_lt; lra]]).
Qed.
Lemma vec_near_ends : near_ends (4 / 10 ^ 9) (2 / 10 ^ 7) vec_basis.
Proof.
  intros i e Hi. destruct (code_near_ends i e Hi) as (H1 & H2 & H3 & H4).
  rewrite <- (vec_shape 0 i (-1) e Hi : bf vec_basis i (-1) e = bf code_basis i (-1) e) in H1.
  rewrite <- (vec_shape 0 i 1 e Hi : bf vec_basis i 1 e = bf code_basis i 1 e) in H2.
  rewrite <- (vec_shape 1 i (-1) e Hi : bfp vec_basis i (-1) e = bfp code_basis i (-1) e) in H3.
  rewrite <- (vec_shape 1 i 1 e Hi : bfp vec_basis i 1 e = bfp code_basis i 1 e) in H4. auto.
Qed.

Lemma sumn_select n k f v : sumn n (fun i => f i * (if (i =? k)%nat then v else 0)) = if (k <? n)%nat then f k * v else 0.
Proof.
  induction n as [|n IH]; [reflexivity|]. cbn [sumn]. rewrite IH. destruct (Nat.ltb_spec k n), (Nat.ltb_spec k (S n)), (Nat.eqb_spec n k); subst; try lia; ring.
Qed.
Lemma ritz_edge_x s c d k v Y : ritz (sh_m s) (sh_n s) c d (fun i => if (i =? k)%nat then v else 0) Y = v * edge_sum_x s c d k Y.
Proof.
  unfold ritz, edge_sum_x. destruct (Nat.ltb_spec k (sh_m s)) as [Hk|Hk].
  - rewrite <- sumn_scal. apply sumn_ext. intros j _.
    rewrite (sumn_ext _ _ (fun i => (c (3 * (j * sh_m s + i) + d)%nat * Y j) * (if (i =? k)%nat then v else 0))) by (intros; ring).
    rewrite sumn_select. apply Nat.ltb_lt in Hk. rewrite Hk. ring.
  - rewrite Rmult_0_r. apply sumn_0. intros j _.
    rewrite (sumn_ext _ _ (fun i => (c (3 * (j * sh_m s + i) + d)%nat * Y j) * (if (i =? k)%nat then v else 0))) by (intros; ring).
    rewrite sumn_select. apply Nat.ltb_ge in Hk. rewrite Hk. reflexivity.
Qed.
Lemma ritz_edge_y s c d k v X : ritz (sh_m s) (sh_n s) c d X (fun j => if (j =? k)%nat then v else 0) = v * edge_sum_y s c d k X.
Proof.
  unfold ritz, edge_sum_y.
  rewrite (sumn_ext _ _ (fun j => sumn (sh_m s) (fun i => c (3 * (j * sh_m s + i) + d)%nat * X i) * (if (j =? k)%nat then v else 0))).
  2:{ intros j _. rewrite <- sumn_scal_r. reflexivity. }
  rewrite sumn_select. destruct (k <? sh_n s)%nat; ring.
Qed.

Section Edge.
Variables (t0 t1 : R) (Bs : basis) (s : shell) (c : nat -> R).
Hypotheses (HB : near_ends t0 t1 Bs) (Hm : (sh_m s <= 30)%nat) (Hn : (sh_n s <= 30)%nat) (Ha : 0 < sh_a s) (Hb : 0 < sh_b s).
Notation a := (sh_a s).
Notation b := (sh_b s).
Notation one := (fun _ : nat => 1).
Notation gY d y := (fun j => shape Bs 0 j (natural y b) (yedge s d)).
Notation gX d x := (fun i => shape Bs 0 i (natural x a) (xedge s d)).

Lemma nat0 l : natural 0 l = -1. Proof. unfold natural, Rdiv. ring. Qed.
Lemma nat1 l : 0 < l -> natural l l = 1. Proof. intro. unfold natural. field. lra. Qed.

Lemma edge_x k y : (k < 3)%nat ->
  Rabs (uvw_at Bs s c k 0 y - e1t (xedge s k) * edge_sum_x s c k 0 (gY k y)) <= t0 * abs_terms s c k one (gY k y) /\
  Rabs (uvw_at Bs s c k a y - e2t (xedge s k) * edge_sum_x s c k 2 (gY k y)) <= t0 * abs_terms s c k one (gY k y).
Proof using HB Hm Hn Ha Hb.
  intro Hk. rewrite <- !ritz_edge_x.
  assert (HU : forall x, uvw_at Bs s c k x y = fld Bs s c k 0 0 (natural x a) (natural y b)) by (intro; do 3 (destruct k as [|k]; [reflexivity|]); lia).
  rewrite !HU, nat0, nat1 by exact Ha. unfold fld. split; apply ritz_near_x; intros i Hi; apply (HB i (xedge s k)); lia.
Qed.
Lemma edge_y k x : (k < 3)%nat ->
  Rabs (uvw_at Bs s c k x 0 - e1t (yedge s k) * edge_sum_y s c k 0 (gX k x)) <= t0 * abs_terms s c k (gX k x) one /\
  Rabs (uvw_at Bs s c k x b - e2t (yedge s k) * edge_sum_y s c k 2 (gX k x)) <= t0 * abs_terms s c k (gX k x) one.
Proof using HB Hm Hn Ha Hb.
  intro Hk. rewrite <- !ritz_edge_y.
  assert (HU : forall y, uvw_at Bs s c k x y = fld Bs s c k 0 0 (natural x a) (natural y b)) by (intro; do 3 (destruct k as [|k]; [reflexivity|]); lia).
  rewrite !HU, nat0, nat1 by exact Hb. unfold fld. split; apply ritz_near_y; intros i Hi; apply (HB i (yedge s k)); lia.
Qed.
Lemma slope_bound l A B e : 0 < l -> Rabs (A - B) <= e -> Rabs (- (2 / l * A) - - (2 / l * B)) <= 2 / l * e.
Proof.
  intros Hl H. assert (0 < 2 / l) by (apply Rdiv_lt_0_compat; lra).
  replace (- (2 / l * A) - - (2 / l * B)) with (- (2 / l * (A - B))) by ring. rewrite Rabs_Ropp, Rabs_mult, Rabs_right by lra. apply Rmult_le_compat_l; lra.
Qed.
Lemma slope_x y :
  Rabs (uvw_at Bs s c 3 0 y - - (e1r (sh_xw s) / a * edge_sum_x s c 2 1 (gY 2 y))) <= 2 / a * (t1 * abs_terms s c 2 one (gY 2 y)) /\
  Rabs (uvw_at Bs s c 3 a y - - (e2r (sh_xw s) / a * edge_sum_x s c 2 3 (gY 2 y))) <= 2 / a * (t1 * abs_terms s c 2 one (gY 2 y)).
Proof using HB Hm Hn Ha Hb.
  replace (e1r (sh_xw s) / a * edge_sum_x s c 2 1 (gY 2%nat y)) with (2 / a * (1 / 2 * flag (sh_xw s) 1 * edge_sum_x s c 2 1 (gY 2%nat y))) by (cbn [flag]; field; lra).
  replace (e2r (sh_xw s) / a * edge_sum_x s c 2 3 (gY 2%nat y)) with (2 / a * (1 / 2 * flag (sh_xw s) 3 * edge_sum_x s c 2 3 (gY 2%nat y))) by (cbn [flag]; field; lra).
  rewrite <- !ritz_edge_x. unfold uvw_at. rewrite nat0, nat1 by exact Ha. unfold d_wx, fld.
  split; apply slope_bound; try exact Ha; apply ritz_near_x; intros i Hi; destruct (HB i (sh_xw s) ltac:(lia)) as (_ & _ & H3 & H4).
  - replace (if (i =? 1)%nat then _ else 0) with (1 / 2 * end_val (sh_xw s) 1 i) by (unfold end_val; destruct (i =? 1)%nat; ring). exact H3.
  - replace (if (i =? 3)%nat then _ else 0) with (1 / 2 * end_val (sh_xw s) 3 i) by (unfold end_val; destruct (i =? 3)%nat; ring). exact H4.
Qed.
Lemma slope_y x :
  Rabs (uvw_at Bs s c 4 x 0 - - (e1r (sh_yw s) / b * edge_sum_y s c 2 1 (gX 2 x))) <= 2 / b * (t1 * abs_terms s c 2 (gX 2 x) one) /\
  Rabs (uvw_at Bs s c 4 x b - - (e2r (sh_yw s) / b * edge_sum_y s c 2 3 (gX 2 x))) <= 2 / b * (t1 * abs_terms s c 2 (gX 2 x) one).
Proof using HB Hm Hn Ha Hb.
  replace (e1r (sh_yw s) / b * edge_sum_y s c 2 1 (gX 2%nat x)) with (2 / b * (1 / 2 * flag (sh_yw s) 1 * edge_sum_y s c 2 1 (gX 2%nat x))) by (cbn [flag]; field; lra).
  replace (e2r (sh_yw s) / b * edge_sum_y s c 2 3 (gX 2%nat x)) with (2 / b * (1 / 2 * flag (sh_yw s) 3 * edge_sum_y s c 2 3 (gX 2%nat x))) by (cbn [flag]; field; lra).
  rewrite <- !ritz_edge_y. unfold uvw_at. rewrite nat0, nat1 by exact Hb. unfold d_wy, fld.
  split; apply slope_bound; try exact Hb; apply ritz_near_y; intros i Hi; destruct (HB i (sh_yw s) ltac:(lia)) as (_ & _ & H3 & H4).
  - replace (if (i =? 1)%nat then _ else 0) with (1 / 2 * end_val (sh_yw s) 1 i) by (unfold end_val; destruct (i =? 1)%nat; ring). exact H3.
  - replace (if (i =? 3)%nat then _ else 0) with (1 / 2 * end_val (sh_yw s) 3 i) by (unfold end_val; destruct (i =? 3)%nat; ring). exact H4.
Qed.
End Edge.

Section EdgeApi.
Variables (t0 t1 : R) (Bs : basis) (sched : scheduler) (nc : nat) (p : panel) (c : list R) (U : nat -> R -> R -> R).
Hypotheses (HB : near_ends t0 t1 Bs) (Hs : forall l, Permutation (sched l) l)
  (Ha : 0 < sh_a (pn_sh p)) (Hb : 0 < sh_b (pn_sh p)) (HU : uvw_is sched Bs nc p c U).
Notation s := (pn_sh p).
Notation a := (sh_a (pn_sh p)).
Notation b := (sh_b (pn_sh p)).
Notation one := (fun _ : nat => 1).
Notation gY d y := (fun j => shape Bs 0 j (natural y b) (yedge s d)).
Notation gX d x := (fun i => shape Bs 0 i (natural x a) (xedge s d)).

Theorem edge_displacements k x y : (k < 3)%nat ->
  Rabs (U k 0 y - e1t (xedge s k) * edge_sum_x s (vec c) k 0 (gY k y)) <= t0 * abs_terms s (vec c) k one (gY k y) /\
  Rabs (U k a y - e2t (xedge s k) * edge_sum_x s (vec c) k 2 (gY k y)) <= t0 * abs_terms s (vec c) k one (gY k y) /\
  Rabs (U k x 0 - e1t (yedge s k) * edge_sum_y s (vec c) k 0 (gX k x)) <= t0 * abs_terms s (vec c) k (gX k x) one /\
  Rabs (U k x b - e2t (yedge s k) * edge_sum_y s (vec c) k 2 (gX k x)) <= t0 * abs_terms s (vec c) k (gX k x) one.
Proof.
  intro Hk. destruct (uvw_is_at _ _ _ _ _ _ Hs HU) as (Hm & Hn & Hc & HV). rewrite !HV by lia.
  destruct (edge_x t0 t1 Bs (kernel_view p) (vec c) HB Hm Hn Ha Hb k y Hk) as [H1 H2].
  destruct (edge_y t0 t1 Bs (kernel_view p) (vec c) HB Hm Hn Ha Hb k x Hk) as [H3 H4]. auto.
Qed.
Theorem edge_slopes x y :
  Rabs (U 3%nat 0 y - - (e1r (sh_xw s) / a * edge_sum_x s (vec c) 2 1 (gY 2 y))) <= 2 / a * (t1 * abs_terms s (vec c) 2 one (gY 2 y)) /\
  Rabs (U 3%nat a y - - (e2r (sh_xw s) / a * edge_sum_x s (vec c) 2 3 (gY 2 y))) <= 2 / a * (t1 * abs_terms s (vec c) 2 one (gY 2 y)) /\
  Rabs (U 4%nat x 0 - - (e1r (sh_yw s) / b * edge_sum_y s (vec c) 2 1 (gX 2 x))) <= 2 / b * (t1 * abs_terms s (vec c) 2 (gX 2 x) one) /\
  Rabs (U 4%nat x b - - (e2r (sh_yw s) / b * edge_sum_y s (vec c) 2 3 (gX 2 x))) <= 2 / b * (t1 * abs_terms s (vec c) 2 (gX 2 x) one).
Proof.
  destruct (uvw_is_at _ _ _ _ _ _ Hs HU) as (Hm & Hn & Hc & HV). rewrite !HV by lia.
  destruct (slope_x t0 t1 Bs (kernel_view p) (vec c) HB Hm Hn Ha Hb y) as [H1 H2].
  destruct (slope_y t0 t1 Bs (kernel_view p) (vec c) HB Hm Hn Ha Hb x) as [H3 H4]. auto.
Qed.
End EdgeApi.
Lemma abs_zero v e : Rabs (v - e) <= 0 -> v = e.
Proof. intro H. destruct (Req_dec (v - e) 0) as [E|E]; [lra|]. apply Rabs_pos_lt in E. lra. Qed.

(* ------------------------------------------------- linearity *)
Lemma vec_lincomb x c y d k : length c = length d -> vec (lincomb x c y d) k = x * vec c k + y * vec d k.
Proof.
  intro HL. unfold vec, lincomb.
  destruct (Nat.lt_ge_cases k (length c)) as [Hk|Hk].
  - rewrite (nth_indep _ 0 (x * fst (0, 0) + y * snd (0, 0))) by (rewrite map_length, combine_length; lia).
    rewrite (map_nth (fun z => x * fst z + y * snd z)), combine_nth by exact HL. reflexivity.
  - rewrite !nth_overflow; [ring|lia|lia|rewrite map_length, combine_length; lia].
Qed.
Lemma fld_lin Bs s c d e x y k p q X Y : (forall i, e i = x * c i + y * d i) ->
  fld Bs s e k p q X Y = x * fld Bs s c k p q X Y + y * fld Bs s d k p q X Y.
Proof.
  intro H. unfold fld, ritz. rewrite <- !sumn_scal, <- sumn_plus. apply sumn_ext. intros j _.
  rewrite <- !sumn_scal, <- sumn_plus. apply sumn_ext. intros i _. rewrite H. ring.
Qed.
Lemma uvw_at_lin Bs s c d e x y k X Y : (forall i, e i = x * c i + y * d i) -> uvw_at Bs s e k X Y = x * uvw_at Bs s c k X Y + y * uvw_at Bs s d k X Y.
Proof.
  intro H. do 4 (destruct k as [|k]; [unfold uvw_at, d_u, d_v, d_w, d_wx; rewrite (fld_lin _ _ _ _ _ _ _ _ _ _ _ _ H); ring|]).
  unfold uvw_at, d_wy; rewrite (fld_lin _ _ _ _ _ _ _ _ _ _ _ _ H); ring.
Qed.
Lemma strain_at_lin Bs s c d e x y k X Y : (forall i, e i = x * c i + y * d i) -> strain_at false Bs s e k X Y = x * strain_at false Bs s c k X Y + y * strain_at false Bs s d k X Y.
Proof.
  intro H. unfold strain_at. 
  do 6 (destruct k as [|k]; [cbn [lin_strain]; unfold d_ux, d_vy, d_w, d_uy, d_vx, d_wxx, d_wyy, d_wxy; rewrite !(fld_lin _ _ _ _ _ _ _ _ _ _ _ _ H); ring|]).
  cbn [lin_strain]. ring.
Qed.


Lemma point_values_lin f g h x y xs ys : (forall a b, h a b = x * f a b + y * g a b) ->
  point_values h xs ys = lincomb x (point_values f xs ys) y (point_values g xs ys).
Proof.
  intro H. unfold point_values, lincomb. set (l := combine xs ys). induction l as [|q l IH]; [reflexivity|]. cbn [map combine]. rewrite IH, H. reflexivity.
Qed.
Theorem uvw_linear sched Bs nc c d x y xs ys gx gy p p1 p2 XY1 XY2 out1 out2 : (forall l, Permutation (sched l) l) -> length c = length d ->
  shell_uvw sched Bs nc c xs ys gx gy p = (p1, Ok (XY1, out1)) ->
  shell_uvw sched Bs nc d xs ys gx gy p = (p2, Ok (XY2, out2)) ->
  shell_uvw sched Bs nc (lincomb x c y d) xs ys gx gy p = (p, Ok (XY1, lincomb_rows x out1 y out2)).
Proof.
  intros Hs HL H1 H2. destruct (shell_uvw_values _ _ _ _ _ _ _ _ _ _ _ _ Hs H1) as (-> & HD & HG & (mdl & Hm) & ->).
  destruct (shell_uvw_values _ _ _ _ _ _ _ _ _ _ _ _ Hs H2) as (-> & HD2 & _ & _ & ->). rewrite HD in HD2. injection HD2 as <-.
  rewrite (shell_uvw_runs _ _ _ _ _ _ _ _ _ mdl XY1 Hs Hm HD).
  2:{ unfold guard_ok in *. unfold lincomb. rewrite map_length, combine_length, <- HL, Nat.min_id. exact HG. }
  f_equal. f_equal. f_equal. unfold lincomb_rows. cbn [map seq combine fst snd].
  repeat (apply (f_equal2 cons); [apply point_values_lin; intros a b; apply uvw_at_lin; intro i; apply vec_lincomb; exact HL|]). reflexivity.
Qed.
Theorem strain_linear sched Bs nc c d x y xs ys gx gy p p1 p2 XY1 XY2 out1 out2 : (forall l, Permutation (sched l) l) -> length c = length d ->
  sh_a (pn_sh p) <> 0 -> sh_b (pn_sh p) <> 0 ->
  shell_strain sched Bs nc c xs ys gx gy false p = (p1, Ok (XY1, out1)) ->
  shell_strain sched Bs nc d xs ys gx gy false p = (p2, Ok (XY2, out2)) ->
  shell_strain sched Bs nc (lincomb x c y d) xs ys gx gy false p = (p, Ok (XY1, lincomb_rows x out1 y out2)).
Proof.
  intros Hs HL Ha Hb H1 H2. destruct (shell_strain_values _ _ _ _ _ _ _ _ _ _ _ _ _ Hs Ha Hb H1) as (-> & HD & HG & (mdl & Hm) & Hr & ->).
  destruct (shell_strain_values _ _ _ _ _ _ _ _ _ _ _ _ _ Hs Ha Hb H2) as (-> & HD2 & _ & _ & _ & ->). rewrite HD in HD2. injection HD2 as <-.
  rewrite (shell_strain_runs _ _ _ _ _ _ _ _ _ _ mdl XY1 Hs Ha Hb Hm Hr HD).
  2:{ unfold guard_ok in *. unfold lincomb. rewrite map_length, combine_length, <- HL, Nat.min_id. exact HG. }
  f_equal. f_equal. f_equal. unfold lincomb_rows. cbn [map seq combine fst snd].
  repeat (apply (f_equal2 cons); [apply point_values_lin; intros a b; apply strain_at_lin; intro i; apply vec_lincomb; exact HL|]). reflexivity.
Qed.
Lemma vec_zero l k : (forall v, In v l -> v = 0) -> vec l k = 0.
Proof. intro H. unfold vec. destruct (nth_in_or_default k l 0) as [Hi| ->]; [exact (H _ Hi)|reflexivity]. Qed.
Theorem uvw_zero sched Bs nc c xs ys gx gy p p1 XY1 out : (forall l, Permutation (sched l) l) -> (forall v, In v c -> v = 0) ->
  shell_uvw sched Bs nc c xs ys gx gy p = (p1, Ok (XY1, out)) -> forall row v, In row out -> In v row -> v = 0.
Proof.
  intros Hs HZ H1 row v Hr Hv. destruct (shell_uvw_values _ _ _ _ _ _ _ _ _ _ _ _ Hs H1) as (-> & _ & _ & _ & ->).
  apply in_map_iff in Hr. destruct Hr as (k & <- & _). unfold point_values in Hv. apply in_map_iff in Hv. destruct Hv as (q & <- & _).
  rewrite (uvw_at_lin Bs _ (vec c) (vec c) (vec c) 0 0) by (intro; rewrite vec_zero by exact HZ; ring). ring.
Qed.

(* ------------------------------------------------- one coefficient at a time *)
Lemma vec_unit n k q : (k < n)%nat -> vec (unit_vec n k) q = if (q =? k)%nat then 1 else 0.
Proof.
  intro Hk. unfold vec, unit_vec. destruct (Nat.lt_ge_cases q n) as [Hq|Hq].
  - apply (nth_seq_map (fun q => if (q =? k)%nat then 1 else 0)). exact Hq.
  - rewrite nth_overflow by (rewrite map_length, seq_length; exact Hq). destruct (Nat.eqb_spec q k); [lia|reflexivity].
Qed.
Lemma dof_inj m i j d i' j' d' : (i < m)%nat -> (i' < m)%nat -> (d < 3)%nat -> (d' < 3)%nat ->
  (3 * (j * m + i) + d = 3 * (j' * m + i') + d')%nat -> i = i' /\ j = j' /\ d = d'.
Proof.
  intros Hi Hi' Hd Hd' H. assert (d = d' /\ j * m + i = j' * m + i')%nat as [-> E] by lia.
  assert (j = j') as -> by nia. split; [lia|]. split; reflexivity.
Qed.
Lemma dof_surj m n k : (k < 3 * (m * n))%nat -> exists i j d, (i < m)%nat /\ (j < n)%nat /\ (d < 3)%nat /\ k = (3 * (j * m + i) + d)%nat.
Proof.
  intro Hk. assert (Hm : m <> 0%nat) by (intro; subst; cbn in Hk; lia).
  exists ((k / 3) mod m)%nat, ((k / 3) / m)%nat, (k mod 3)%nat.
  assert (k / 3 < m * n)%nat by (apply Nat.div_lt_upper_bound; lia).
  split; [apply Nat.mod_upper_bound; exact Hm|]. split; [apply Nat.div_lt_upper_bound; lia|]. split; [apply Nat.mod_upper_bound; lia|].
  pose proof (Nat.div_mod (k / 3) m Hm). pose proof (Nat.div_mod k 3 ltac:(lia)). rewrite (Nat.mul_comm ((k/3)/m) m). lia.
Qed.
Lemma ritz_unit m n c d i j (X Y : nat -> R) d0 : (i < m)%nat -> (j < n)%nat -> (d < 3)%nat -> (d0 < 3)%nat ->
  (forall q, c q = if (q =? 3 * (j * m + i) + d)%nat then 1 else 0) -> ritz m n c d0 X Y = if (d0 =? d)%nat then X i * Y j else 0.
Proof.
  intros Hi Hj Hd Hd0 Hc. unfold ritz. destruct (Nat.eqb_spec d0 d) as [->|Hne].
  - rewrite (sumn_ext n _ (fun j' => (X i * Y j') * (if (j' =? j)%nat then 1 else 0))).
    + rewrite sumn_select. apply Nat.ltb_lt in Hj. rewrite Hj. ring.
    + intros j' Hj'. rewrite (sumn_ext m _ (fun i' => (X i' * Y j' * (if (j' =? j)%nat then 1 else 0)) * (if (i' =? i)%nat then 1 else 0))).
      * rewrite sumn_select. apply Nat.ltb_lt in Hi. rewrite Hi. ring.
      * intros i' Hi'. rewrite Hc. destruct (Nat.eqb_spec (3 * (j' * m + i') + d) (3 * (j * m + i) + d)) as [E|E].
        -- destruct (dof_inj m i' j' d i j d Hi' Hi Hd Hd E) as (-> & -> & _). rewrite !Nat.eqb_refl. ring.
        -- destruct (Nat.eqb_spec i' i) as [->|]; [|ring]. destruct (Nat.eqb_spec j' j) as [->|]; [|ring]. congruence.
  - apply sumn_0. intros j' Hj'. apply sumn_0. intros i' Hi'. rewrite Hc.
    destruct (Nat.eqb_spec (3 * (j' * m + i') + d0) (3 * (j * m + i) + d)) as [E|E]; [|ring].
    destruct (dof_inj m i' j' d0 i j d Hi' Hi Hd0 Hd E) as (_ & _ & ->). congruence.
Qed.
Theorem uvw_unit sched Bs nc p U i j d x y : (forall l, Permutation (sched l) l) ->
  (i < sh_m (pn_sh p))%nat -> (j < sh_n (pn_sh p))%nat -> (d < 3)%nat ->
  uvw_is sched Bs nc p (unit_vec (3 * (sh_m (pn_sh p) * sh_n (pn_sh p))) (3 * (j * sh_m (pn_sh p) + i) + d)) U ->
  forall d0, (d0 < 3)%nat -> U d0 x y = if (d0 =? d)%nat then
    bf Bs i (natural x (sh_a (pn_sh p))) (xedge (pn_sh p) d) * bf Bs j (natural y (sh_b (pn_sh p))) (yedge (pn_sh p) d) else 0.
Proof.
  intros Hs Hi Hj Hd HU d0 Hd0. destruct (uvw_is_at _ _ _ _ _ _ Hs HU) as (Hm & Hn & Hc & HV). rewrite HV by lia.
  assert (HE : uvw_at Bs (kernel_view p) (vec (unit_vec (3 * (sh_m (pn_sh p) * sh_n (pn_sh p))) (3 * (j * sh_m (pn_sh p) + i) + d))) d0 x y =
    fld Bs (kernel_view p) (vec (unit_vec (3 * (sh_m (pn_sh p) * sh_n (pn_sh p))) (3 * (j * sh_m (pn_sh p) + i) + d))) d0 0 0 (natural x (sh_a (pn_sh p))) (natural y (sh_b (pn_sh p)))).
  { do 3 (destruct d0 as [|d0]; [reflexivity|]). lia. }
  assert (Hlt : (j * sh_m (pn_sh p) + i < sh_m (pn_sh p) * sh_n (pn_sh p))%nat).
  { apply (Nat.lt_le_trans _ (S j * sh_m (pn_sh p))); [cbn [Nat.mul]; lia|]. rewrite (Nat.mul_comm (sh_m (pn_sh p))). apply Nat.mul_le_mono_r. lia. }
  rewrite HE. unfold fld. rewrite (ritz_unit _ _ _ d i j) by (try assumption; intro; apply (vec_unit _ (3 * (j * sh_m (pn_sh p) + i) + d)); lia).
  destruct (Nat.eqb_spec d0 d) as [->|]; reflexivity.
Qed.

Theorem get_size_value p p' n : get_size p = (p', Ok n) -> n = (3 * sh_m (pn_sh p) * sh_n (pn_sh p))%nat /\ p' = set_size p (Some n).
Proof.
  unfold get_size, mbind, the_model, mget, mmod, mret. destruct (pn_model p) as [[mdl|]|]; try discriminate.
  intro H. injection H as <- <-. split; [|reflexivity]. destruct mdl; reflexivity.
Qed.

(* ------------------------------------------------- stress *)
Lemma Ok_inj {A} (x y : A) : Ok x = Ok y -> x = y.
Proof. congruence. Qed.
Theorem stress_law sched Bs nc c ABD xs ys gx gy NL p p' XY out : (forall l, Permutation (sched l) l) ->
  sh_a (pn_sh p) <> 0 -> sh_b (pn_sh p) <> 0 ->
  shell_stress sched Bs nc c ABD xs ys gx gy NL p = (p', Ok (XY, out)) ->
  exists F eps, (match ABD with Some G => Some G | None => pn_ABD p end) = Some F /\
  shell_strain sched Bs nc c xs ys gx gy NL p = (p', Ok (XY, eps)) /\ p' = p /\ length out = 6%nat /\ length eps = 6%nat /\
  forall k, (k < 6)%nat -> length (nth k out []) = length (nth k eps []) /\
  forall q, (q < length (nth k out []))%nat -> nth q (nth k out []) 0 = resultant F (fun l => nth q (nth l eps []) 0) k.
Proof.
  intros Hs Ha Hb H. unfold shell_stress in H. unfold mbind at 1 in H.
  destruct (shell_strain sched Bs nc c xs ys gx gy NL p) as [p1 [[XY1 eps]|]] eqn:ES; [|discriminate].
  destruct (shell_strain_values _ _ _ _ _ _ _ _ _ _ _ _ _ Hs Ha Hb ES) as (-> & _ & (_ & _ & _ & _ & Hl) & _ & _ & HO).
  unfold mbind at 1, mget at 1 in H. destruct (match ABD with Some F => Some F | None => pn_ABD p end) as [F|] eqn:EF; [|discriminate].
  unfold mret in H. cbn [fst snd] in H. apply pair_equal_spec in H. destruct H as [<- H]. apply Ok_inj, pair_equal_spec in H. destruct H as [<- <-]. exists F, eps. split; [reflexivity|]. split; [reflexivity|]. split; [reflexivity|].
  split; [rewrite map_length; reflexivity|]. split; [rewrite HO, map_length; reflexivity|].
  assert (HLe : forall k, (k < 6)%nat -> length (nth k eps []) = length (snd (fst XY1))).
  { intros k Hk. rewrite HO, (nth_seq_map _ _ _ _ Hk). apply point_values_length. exact Hl. }
  intros k Hk. rewrite (nth_seq_map _ _ _ _ Hk). rewrite map_length, seq_length. split; [rewrite !HLe by lia; reflexivity|].
  intros q Hq. rewrite (nth_seq_map _ _ _ _ Hq). unfold resultant. cbn [sumn]. ring.
Qed.

(* ------------------------------------------------- the functions exist *)
Lemma uvw_is_ok sched Bs nc p c mdl : (forall l, Permutation (sched l) l) -> pn_model p = Some (Known mdl) -> nc <> 0%nat ->
  (sh_m (pn_sh p) <= 30)%nat -> (sh_n (pn_sh p) <= 30)%nat -> (3 * (sh_m (pn_sh p) * sh_n (pn_sh p)) <= length c)%nat ->
  uvw_is sched Bs nc p c (uvw_at Bs (kernel_view p) (vec c)).
Proof.
  intros Hs Hm Hnc H1 H2 H3 x y gx gy. eexists.
  rewrite (shell_uvw_runs _ _ _ _ _ _ _ _ _ mdl _ Hs Hm (default_one _ _ _ _ _)); [reflexivity|].
  unfold guard_ok. cbn [fst snd length]. auto.
Qed.
Lemma strain_is_ok sched Bs nc p c NL mdl : (forall l, Permutation (sched l) l) -> pn_model p = Some (Known mdl) -> pn_r p <> None -> nc <> 0%nat ->
  sh_a (pn_sh p) <> 0 -> sh_b (pn_sh p) <> 0 ->
  (sh_m (pn_sh p) <= 30)%nat -> (sh_n (pn_sh p) <= 30)%nat -> (3 * (sh_m (pn_sh p) * sh_n (pn_sh p)) <= length c)%nat ->
  strain_is sched Bs nc p c NL (strain_at NL Bs (kernel_view p) (vec c)).
Proof.
  intros Hs Hm Hr Hnc Ha Hb H1 H2 H3 x y gx gy. eexists.
  rewrite (shell_strain_runs _ _ _ _ _ _ _ _ _ _ mdl _ Hs Ha Hb Hm Hr (default_one _ _ _ _ _)); [reflexivity|].
  unfold guard_ok. cbn [fst snd length]. auto.
Qed.

Lemma zero_slack x y : x * (0 * y) = 0.
Proof. ring. Qed.

Theorem exact_strains sched nc p c U E x y : (forall l, Permutation (sched l) l) ->
  0 < sh_a (pn_sh p) -> 0 < sh_b (pn_sh p) -> uvw_is sched exact_basis nc p c U -> strain_is sched exact_basis nc p c false E ->
  exists vy uy vx wxy,
  is_derive (fun x => U 0%nat x y) x (E 0%nat x y) /\
  is_derive (fun y => U 1%nat x y) y vy /\ E 1%nat x y = vy + panel_curvature p * U 2%nat x y /\
  is_derive (fun y => U 0%nat x y) y uy /\ is_derive (fun x => U 1%nat x y) x vx /\ E 2%nat x y = uy + vx /\
  is_derive (fun x => Derive (fun x => U 2%nat x y) x) x (- E 3%nat x y) /\
  is_derive (fun y => Derive (fun y => U 2%nat x y) y) y (- E 4%nat x y) /\
  is_derive (fun y => Derive (fun x => U 2%nat x y) x) y wxy /\ E 5%nat x y = - (2 * wxy).
Proof.
  intros Hs Ha Hb HU HE.
  pose proof (fun x y => uvw_rotations (fun _ => True) (fun _ => 0) exact_basis sched nc p c U exact_near Hs Ha Hb HU x y I I) as HR.
  destruct (strain_derivatives (fun _ => True) (fun _ => 0) exact_basis sched nc p c U E exact_near Hs Ha Hb HU x y I I HE) as (S0 & S1 & S2 & S3 & S4 & S5).
  unfold bx, by_ in *.
  assert (HW : forall x y, Derive (fun x => U 2%nat x y) x = - U 3%nat x y /\ Derive (fun y => U 2%nat x y) y = - U 4%nat x y).
  { intros x' y'. destruct (HR x' y') as [H1 H2]. rewrite zero_slack in H1, H2. split; apply is_derive_unique, near_zero; assumption. }
  assert (Hopp : forall (f : R -> R) z v, is_derive f z v -> is_derive (fun q => - f q) z (- v)) by (intros f z v Hf; apply (is_derive_opp f); exact Hf).
  destruct S1 as (vy & D1 & B1), S2 as (uy & vx & D2 & D2' & B2), S5 as (d1 & d2 & D5 & D5' & B5).
  assert (B5' : Rabs (E 5%nat x y - (d1 + d2)) <= 0) by (eapply Rle_trans; [exact B5|right; ring]). apply abs_zero in B5'.
  assert (HSchwarz : d1 = d2).
  { destruct (uvw_is_at _ _ _ _ _ _ Hs HU) as (Hm & Hn & Hc & HV).
    destruct (curv_near (fun _ => True) (fun _ => 0) exact_basis (kernel_view p) (vec c) exact_near Hm Hn Ha Hb x y I I) as (_ & _ & C3 & C4).
    unfold bx, by_ in C3, C4. rewrite zero_slack in C3, C4. rewrite Rmult_0_r in C3, C4. apply near_zero in C3, C4.
    assert (X1 : is_derive (fun y => U 3%nat x y) y (1 / 2 * lin_strain 0 exact_basis (kernel_view p) (vec c) (natural x (sh_a (kernel_view p))) (natural y (sh_b (kernel_view p))) 5)) by
      (apply (is_derive_ext (fun y => uvw_at exact_basis (kernel_view p) (vec c) 3 x y)); [intro; symmetry; apply HV; lia|exact C3]).
    assert (X2 : is_derive (fun x => U 4%nat x y) x (1 / 2 * lin_strain 0 exact_basis (kernel_view p) (vec c) (natural x (sh_a (kernel_view p))) (natural y (sh_b (kernel_view p))) 5)) by
      (apply (is_derive_ext (fun x => uvw_at exact_basis (kernel_view p) (vec c) 4 x y)); [intro; symmetry; apply HV; lia|exact C4]).
    apply is_derive_unique in D5, D5', X1, X2. congruence. }
  exists vy, uy, vx, (- d1). 
  split; [apply near_zero; rewrite zero_slack in S0; exact S0|]. split; [exact D1|].
  split; [rewrite zero_slack in B1; apply abs_zero in B1; lra|]. split; [exact D2|]. split; [exact D2'|].
  split; [apply abs_zero; eapply Rle_trans; [exact B2|right; ring]|].
  split. { apply (is_derive_ext (fun x => - U 3%nat x y)); [intro; symmetry; apply HW|]. apply Hopp. apply near_zero. rewrite zero_slack, Rmult_0_r in S3. exact S3. }
  split. { apply (is_derive_ext (fun y => - U 4%nat x y)); [intro; symmetry; apply HW|]. apply Hopp. apply near_zero. rewrite zero_slack, Rmult_0_r in S4. exact S4. }
  split. { apply (is_derive_ext (fun y => - U 3%nat x y)); [intro; symmetry; apply HW|]. apply Hopp. exact D5. }
  rewrite B5', HSchwarz. ring.
Qed.

Theorem exact_edges sched nc p c U : (forall l, Permutation (sched l) l) ->
  0 < sh_a (pn_sh p) -> 0 < sh_b (pn_sh p) -> uvw_is sched exact_basis nc p c U ->
  let s := pn_sh p in let a := sh_a s in let b := sh_b s in
  let CX := coef_x exact_basis s (vec c) in let CY := coef_y exact_basis s (vec c) in
  (forall k x y, (k < 3)%nat ->
    U k 0 y = e1t (xedge s k) * CX k 0%nat y /\ U k a y = e2t (xedge s k) * CX k 2%nat y /\
    U k x 0 = e1t (yedge s k) * CY k 0%nat x /\ U k x b = e2t (yedge s k) * CY k 2%nat x) /\
  (forall x y,
    U 3%nat 0 y = - (e1r (sh_xw s) / a * CX 2%nat 1%nat y) /\ U 3%nat a y = - (e2r (sh_xw s) / a * CX 2%nat 3%nat y) /\
    U 4%nat x 0 = - (e1r (sh_yw s) / b * CY 2%nat 1%nat x) /\ U 4%nat x b = - (e2r (sh_yw s) / b * CY 2%nat 3%nat x)).
Proof.
  intros Hs Ha Hb HU. cbv zeta. split.
  - intros k x y Hk. destruct (edge_displacements _ _ exact_basis sched nc p c U exact_near_ends Hs Ha Hb HU k x y Hk) as (H1 & H2 & H3 & H4).
    rewrite Rmult_0_l in H1, H2, H3, H4. repeat split; apply abs_zero; assumption.
  - intros x y. destruct (edge_slopes _ _ exact_basis sched nc p c U exact_near_ends Hs Ha Hb HU x y) as (H1 & H2 & H3 & H4).
    rewrite zero_slack in H1, H2, H3, H4. repeat split; apply abs_zero; assumption.
Qed.
Theorem exact_fixed sched nc p c U k x y : (forall l, Permutation (sched l) l) ->
  0 < sh_a (pn_sh p) -> 0 < sh_b (pn_sh p) -> uvw_is sched exact_basis nc p c U -> (k < 3)%nat ->
  let s := pn_sh p in
  (e1t (xedge s k) = 0 -> U k 0 y = 0) /\ (e2t (xedge s k) = 0 -> U k (sh_a s) y = 0) /\
  (e1t (yedge s k) = 0 -> U k x 0 = 0) /\ (e2t (yedge s k) = 0 -> U k x (sh_b s) = 0) /\
  (e1r (sh_xw s) = 0 -> U 3%nat 0 y = 0) /\ (e2r (sh_xw s) = 0 -> U 3%nat (sh_a s) y = 0) /\
  (e1r (sh_yw s) = 0 -> U 4%nat x 0 = 0) /\ (e2r (sh_yw s) = 0 -> U 4%nat x (sh_b s) = 0).
Proof.
  intros Hs Ha Hb HU Hk. cbv zeta. destruct (exact_edges sched nc p c U Hs Ha Hb HU) as [H1 H2].
  destruct (H1 k x y Hk) as (A1 & A2 & A3 & A4), (H2 x y) as (B1 & B2 & B3 & B4). cbv zeta in *.
  rewrite A1, A2, A3, A4, B1, B2, B3, B4. repeat split; intros ->; unfold Rdiv; ring.
Qed.
