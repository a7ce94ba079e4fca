(* Numerical integration over the whole panel with constant properties, written like the closed form. *)
From Coq Require Import Reals List Arith Bool Lia Lra.
From Coquelicot Require Import Coquelicot.
From Verif Require Import Base_Sum Model_Types Model_Coo Model_Result Model_PlateAna Model_CylAna
  Model_Num Model_DB Spec_Algebra Spec_Kinematics Spec_Quadrature Spec_Panel Spec_Integral
  Proof_Coo Proof_Num Proof_Energy Proof_Total Proof_AnaKer Proof_Ana Proof_Ana2.
Import ListNotations.
Open Scope R_scope.

Lemma suml_combine_seq {A} (l : list A) n (g : A -> R) : length l = n ->
  suml (combine (seq 0 n) l) (fun t => g (snd t)) = suml l g.
Proof.
  intros <-. generalize 0%nat. induction l as [|x l IH]; intro k; cbn [length seq combine suml]; [reflexivity|].
  cbn [snd]. rewrite IH. reflexivity.
Qed.

Lemma integrate_full Q s nx ny g : sh_a s <> 0 -> sh_b s <> 0 ->
  xregion s = (0, sh_a s) -> yregion s = (0, sh_b s) -> length (Q nx) = nx -> length (Q ny) = ny ->
  integrate Q s nx ny (fun _ _ xi eta => g xi eta) =
  suml (Q nx) (fun u => suml (Q ny) (fun v => sh_a s * sh_b s / 4 * (snd u * snd v * g (fst u) (fst v)))).
Proof.
  intros Ha Hb Hx Hy Lx Ly. unfold integrate. rewrite Hx, Hy.
  rewrite <- (suml_combine_seq (Q nx) nx (fun u => suml (Q ny) (fun v => sh_a s * sh_b s / 4 * (snd u * snd v * g (fst u) (fst v))))) by exact Lx.
  apply suml_ext; intros px _.
  rewrite <- (suml_combine_seq (Q ny) ny) by exact Ly. apply suml_ext; intros py _.
  replace (natural (node 0 (sh_a s) (fst (snd px))) (sh_a s)) with (fst (snd px)) by (unfold natural, node; field; exact Ha).
  replace (natural (node 0 (sh_b s) (fst (snd py))) (sh_b s)) with (fst (snd py)) by (unfold natural, node; field; exact Hb).
  field.
Qed.

Definition rule_1d (Q : rule) (n : nat) (Bs : basis) : one_d := fun p q i k e e' =>
  suml (Q n) (fun t => snd t * (shape Bs p i (fst t) e * shape Bs q k (fst t) e')).

Lemma rule_1d_sym Q n Bs N : one_d_sym (rule_1d Q n Bs) N.
Proof. intros p q i k e e' _ _. unfold rule_1d. apply suml_ext; intros; ring. Qed.

Lemma gram_rule Q s nx ny q M op Bs S i k j l d e : sh_a s <> 0 -> sh_b s <> 0 ->
  xregion s = (0, sh_a s) -> yregion s = (0, sh_b s) -> length (Q nx) = nx -> length (Q ny) = ny ->
  (d < DOF)%nat -> (e < DOF)%nat ->
  (forall p a i j d, In p (points Q s nx ny) -> (a < q)%nat -> (d < DOF)%nat -> S p a i j d = S_of op Bs s (p_xi p) (p_eta p) a i j d) ->
  forall M', (forall p a b, In p (points Q s nx ny) -> (a < q)%nat -> (b < q)%nat -> M' p a b = M a b) ->
  gramV (points Q s nx ny) pt_W q M' S i k j l d e =
  V_gen (rule_1d Q nx Bs) (rule_1d Q ny Bs) s (sh_a s * sh_b s / 4) q M op i k j l d e.
Proof.
  intros Ha Hb Hx Hy Lx Ly Hd He HS M' HM. unfold gramV.
  rewrite (suml_ext _ _ (fun p => p_w p * (p_intx p * p_inty p / 4) *
     (fun (_ _ : nat) xi eta => sumn q (fun a => sumn q (fun b => M a b * S_of op Bs s xi eta a i j d * S_of op Bs s xi eta b k l e))) (p_x p) (p_y p) (p_xi p) (p_eta p))).
  2:{ intros p Hp. unfold pt_W. f_equal. apply sumn_ext; intros a Ha'. apply sumn_ext; intros b Hb'.
      rewrite HM, !HS by assumption. reflexivity. }
  rewrite (suml_points Q s nx ny (fun (_ _ : nat) xi eta => sumn q (fun a => sumn q (fun b => M a b * S_of op Bs s xi eta a i j d * S_of op Bs s xi eta b k l e)))) by assumption.
  rewrite (integrate_full Q s nx ny (fun xi eta => sumn q (fun a => sumn q (fun b => M a b * S_of op Bs s xi eta a i j d * S_of op Bs s xi eta b k l e)))) by assumption.
  unfold V_gen.
  rewrite (suml_ext (Q nx) _ (fun u => sh_a s * sh_b s / 4 * suml (Q ny) (fun v => snd u * snd v *
      sumn q (fun a => sumn q (fun b => M a b * S_of op Bs s (fst u) (fst v) a i j d * S_of op Bs s (fst u) (fst v) b k l e)))))
    by (intros; apply suml_scal).
  rewrite suml_scal. f_equal.
  transitivity (suml (Q nx) (fun u => sumn q (fun a => sumn q (fun b => suml (Q ny) (fun v => snd u * snd v *
      (M a b * S_of op Bs s (fst u) (fst v) a i j d * S_of op Bs s (fst u) (fst v) b k l e)))))).
  { apply suml_ext; intros u _.
    rewrite (suml_ext (Q ny) _ (fun v => sumn q (fun a => sumn q (fun b => snd u * snd v *
      (M a b * S_of op Bs s (fst u) (fst v) a i j d * S_of op Bs s (fst u) (fst v) b k l e))))).
    2:{ intros v _. rewrite <- sumn_scal. apply sumn_ext; intros a _. rewrite <- sumn_scal. reflexivity. }
    rewrite suml_sumn_swap. apply sumn_ext; intros a _. rewrite suml_sumn_swap. reflexivity. }
  rewrite suml_sumn_swap. apply sumn_ext; intros a _. rewrite suml_sumn_swap. apply sumn_ext; intros b _.
  unfold S_of, rule_1d. destruct (op a d) as [ba [pa qa]]. destruct (op b e) as [bb [pb qb]].
  set (fx := fun u : R * R => snd u * (shape Bs pa i (fst u) (xedge s d) * shape Bs pb k (fst u) (xedge s e))).
  set (fy := fun v : R * R => snd v * (shape Bs qa j (fst v) (yedge s d) * shape Bs qb l (fst v) (yedge s e))).
  rewrite (suml_ext (Q nx) _ (fun u => M a b * (ba * bb) * suml (Q ny) fy * fx u)).
  - rewrite suml_scal. fold fx. ring.
  - intros u _. rewrite (suml_ext (Q ny) _ (fun v => M a b * (ba * bb) * fx u * fy v)).
    + rewrite suml_scal. ring.
    + intros v _. unfold fx, fy. ring.
Qed.

Section Full.
Variables (Q : rule) (Bs : basis) (s : shell) (nx ny : nat).
Definition whole_panel : Prop := xregion s = (0, sh_a s) /\ yregion s = (0, sh_b s) /\ length (Q nx) = nx /\ length (Q ny) = ny.

Lemma block_form_ext o m n V V' K :
  (forall i k j l d e, (d < DOF)%nat -> (e < DOF)%nat -> V i k j l d e = V' i k j l d e) -> block_form o m n V K -> block_form o m n V' K.
Proof.
  intros HV HK r t. rewrite (HK r t). destruct (inblk o m n r && inblk o m n t)%bool eqn:E; [|reflexivity].
  apply andb_true_iff in E. destruct E as [Er Et].
  destruct (inblk_bounds _ _ _ _ Er) as (_ & _ & Hc & _). destruct (inblk_bounds _ _ _ _ Et) as (_ & _ & Hc' & _).
  destruct (skipped _ _ _ _ _ _ _ _ _); [reflexivity|]. apply HV; assumption.
Qed.

Lemma fkC_num_rule mdl cs Fi F o kC : geometry_ok mdl s -> whole_panel ->
  (forall i j, (i < nx)%nat -> (j < ny)%nat -> forall a b, laminate_at Fi i j a b = F a b) ->
  fkC_num mdl Q Bs cs Fi s o o nx ny false = Ok kC ->
  block_form o (sh_m s) (sh_n s) (V_gen (rule_1d Q nx Bs) (rule_1d Q ny Bs) s (sh_a s * sh_b s / 4) 6 (Fsym F) (opB (curvature mdl s) s)) (dense kC).
Proof.
  intros Hg (Hx & Hy & Lx & Ly) HF H. destruct (fkC_num_dense _ _ _ _ _ _ _ _ _ _ _ Hg H) as (F' & HselF & HK).
  destruct Hg as (Ha & Hb & _).
  eapply block_form_ext; [|exact HK]. intros i k j l d e Hd He.
  apply gram_rule; try assumption.
  - intros p a i' j' d' Hp Ha' Hd'. rewrite S_opB by assumption. unfold kC_S. rewrite wxi_slope, weta_slope.
    cbn [state]. rewrite d_wx_0, d_wy_0. reflexivity.
  - intros p a b Hp Ha' Hb'. unfold kC_M. rewrite (sel_F_laminate _ _ _ _ HselF).
    destruct (points_bounds _ _ _ _ _ Hp) as [Px Py].
    unfold Fsym. rewrite !(HF _ _ Px Py). reflexivity.
Qed.

Lemma fkM_num_rule mdl off h rho H o kM : geometry_ok mdl s -> whole_panel ->
  (forall i j, (i < nx)%nat -> (j < ny)%nat -> hrho_at H i j = (h, rho)) ->
  fkM_num mdl Q Bs s off H o o nx ny = Ok kM ->
  block_form o (sh_m s) (sh_n s) (V_gen (rule_1d Q nx Bs) (rule_1d Q ny Bs) s (sh_a s * sh_b s / 4) 5 (Mmat h rho) (opM off s)) (dense kM).
Proof.
  intros Hg (Hx & Hy & Lx & Ly) HH E. pose proof (fkM_num_dense _ _ _ _ _ _ _ _ _ _ Hg E) as HK.
  destruct Hg as (Ha & Hb & _).
  eapply block_form_ext; [|exact HK]. intros i k j l d e Hd He.
  apply gram_rule; try assumption.
  - intros p a i' j' d' Hp Ha' Hd'. rewrite S_opM by assumption. reflexivity.
  - intros p a b Hp Ha' Hb'. destruct (points_bounds _ _ _ _ _ Hp) as [Px Py]. rewrite (HH _ _ Px Py). reflexivity.
Qed.

Lemma fkG_num_rule mdl cs Fi Nxx Nyy Nxy o NL kG : geometry_ok mdl s -> whole_panel ->
  (forall k, cs k = 0) ->
  fkG_num mdl Q Bs cs Fi s o o nx ny NL Nxx Nyy Nxy = Ok kG ->
  block_form o (sh_m s) (sh_n s) (V_gen (rule_1d Q nx Bs) (rule_1d Q ny Bs) s (sh_a s * sh_b s / 4) 2 (Nmat Nxx Nyy Nxy) (opG s)) (dense kG).
Proof.
  intros Hg (Hx & Hy & Lx & Ly) Hc E. pose proof (fkG_num_dense _ _ _ _ _ _ _ _ _ _ _ _ _ _ Hg E) as HK.
  assert (Hg' := Hg). destruct Hg as (Ha & Hb & _).
  eapply block_form_ext; [|exact HK]. intros i k j l d e Hd He.
  apply gram_rule; try assumption.
  - intros p a i' j' d' Hp Ha' Hd'. rewrite S_opG by assumption. reflexivity.
  - intros p a b Hp Ha' Hb'. unfold kG_M.
    assert (Z : forall N0 k, kG_force Fi p N0 k (kG_strain mdl Bs s cs o NL p) = N0).
    { intros N0 k0. unfold kG_force. rewrite sumn_0; [ring|]. intros l0 Hl0. rewrite kG_strain_coded by assumption.
      assert (Hz : forall d X Y, ritz (sh_m s) (sh_n s) (shift o cs) d X Y = 0).
      { intros. unfold ritz. apply sumn_0; intros. apply sumn_0; intros. unfold shift. rewrite Hc. ring. }
      assert (W : coded_strain NL (curvature mdl s) Bs s (shift o cs) (p_xi p) (p_eta p) l0 = 0).
      { destruct NL; unfold coded_strain, doubled_strain, strain;
        destruct l0 as [|[|[|[|[|[|l0]]]]]]; try (exfalso; lia); cbn [lin_strain vk_strain];
        unfold d_ux, d_uy, d_vx, d_vy, d_w, d_wx, d_wy, d_wxx, d_wyy, d_wxy, fld; rewrite ?Hz; ring. }
      rewrite W. ring. }
    rewrite !Z. reflexivity.
Qed.
End Full.

(* ------------------------------------------------- closeness of two matrices *)
Definition one_d_near (ep : R) (t t' : one_d) (n : nat) : Prop :=
  forall p q i k e e', (p <= 2)%nat -> (q <= 2)%nat -> (i < n)%nat -> (k < n)%nat -> Rabs (t p q i k e e' - t' p q i k e e') <= ep.
Definition one_d_bounded (tau : R) (t : one_d) (n : nat) : Prop :=
  forall p q i k e e', (p <= 2)%nat -> (q <= 2)%nat -> (i < n)%nat -> (k < n)%nat -> Rabs (t p q i k e e') <= tau.
Definition op_bounded (beta : R) (q : nat) (op : sop) : Prop :=
  forall a d, Rabs (fst (op a d)) <= beta /\ (fst (snd (op a d)) <= 2)%nat /\ (snd (snd (op a d)) <= 2)%nat.

Lemma V_gen_near ep tau beta tx ty tx' ty' s J q M op i k j l d e m n :
  0 <= beta -> op_bounded beta q op ->
  (forall p q e e', (p <= 2)%nat -> (q <= 2)%nat -> Rabs (tx p q i k e e' - tx' p q i k e e') <= ep /\ Rabs (tx' p q i k e e') <= tau) ->
  (forall p q e e', (p <= 2)%nat -> (q <= 2)%nat -> Rabs (ty p q j l e e' - ty' p q j l e e') <= ep /\ Rabs (ty' p q j l e e') <= tau) ->
  (i < m)%nat -> (k < m)%nat -> (j < n)%nat -> (l < n)%nat ->
  Rabs (V_gen tx ty s J q M op i k j l d e - V_gen tx' ty' s J q M op i k j l d e) <=
  Rabs J * (beta * beta) * (ep * (2 * tau + ep)) * sumn q (fun a => sumn q (fun b => Rabs (M a b))).
Proof.
  intros Hbeta Hop Hx Hy Hi Hk Hj Hl. rewrite !V_gen_terms, <- sumn_minus.
  eapply Rle_trans; [apply sumn_abs|]. rewrite <- sumn_scal. apply sumn_le; intros a _.
  rewrite <- sumn_minus. eapply Rle_trans; [apply sumn_abs|]. rewrite <- sumn_scal. apply sumn_le; intros b _.
  rewrite <- Rmult_minus_distr_l, Rabs_mult, Rmult_comm. apply Rmult_le_compat_r; [apply Rabs_pos|].
  unfold term. destruct (Hop a d) as (Ba & Pa & Qa). destruct (Hop b e) as (Bb & Pb & Qb).
  destruct (op a d) as [ba [pa qa]]. destruct (op b e) as [bb [pb qb]]. cbn [fst snd] in *.
  destruct (Hx pa pb (xedge s d) (xedge s e) Pa Pb) as [X1 X2]. destruct (Hy qa qb (yedge s d) (yedge s e) Qa Qb) as [Y1 Y2].
  pose proof (prod_abs ep tau _ _ _ _ X1 Y1 X2 Y2) as H.
  set (A := tx _ _ _ _ _ _) in *. set (B := ty _ _ _ _ _ _) in *. set (A' := tx' _ _ _ _ _ _) in *. set (B' := ty' _ _ _ _ _ _) in *.
  replace (J * (ba * bb * (A * B)) - J * (ba * bb * (A' * B'))) with (J * (ba * bb) * (A * B - A' * B')) by ring.
  rewrite !Rabs_mult.
  pose proof (Rabs_pos J). pose proof (Rabs_pos ba). pose proof (Rabs_pos bb). pose proof (Rabs_pos (A * B - A' * B')).
  apply Rmult_le_compat; [|assumption| |assumption].
  - apply Rmult_le_pos; [assumption|]. apply Rmult_le_pos; assumption.
  - apply Rmult_le_compat_l; [assumption|]. apply Rmult_le_compat; assumption.
Qed.
