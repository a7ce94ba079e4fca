(* Numerical and closed-form matrices with the shipped rule, functions and tables. *)
From Coq Require Import Reals List Arith Bool Lia Lra.
From Coquelicot Require Import Coquelicot.
From Verif Require Import Base_Sum Model_Types Model_Coo Model_Result Model_Num Model_DB Model_Bardell Model_Shell
  Spec_Algebra Spec_Kinematics Spec_Quadrature Spec_Panel Spec_Shell Spec_Bardell Spec_Integral Spec_Rounded
  Proof_Coo Proof_Num Proof_Energy Proof_Shell Proof_Total Proof_Api Proof_Bardell Proof_BardellInt Proof_Gauss
  Proof_AnaKer Proof_Ana Proof_Ana2 Proof_Ana3 Proof_AnaApi Proof_Near.
From Coq Require Import List.
Import ListNotations.
Open Scope R_scope.

Lemma V_gen_near_at ep tau beta tx ty tx' ty' s J q M op i k j l d e :
  0 <= beta -> op_bounded beta q op ->
  (forall p q, Rabs (tx p q i k (xedge s d) (xedge s e) - tx' p q i k (xedge s d) (xedge s e)) <= ep /\ Rabs (tx' p q i k (xedge s d) (xedge s e)) <= tau) ->
  (forall p q, Rabs (ty p q j l (yedge s d) (yedge s e) - ty' p q j l (yedge s d) (yedge s e)) <= ep /\ Rabs (ty' p q j l (yedge s d) (yedge s e)) <= tau) ->
  Rabs (V_gen tx ty s J q M op i k j l d e - V_gen tx' ty' s J q M op i k j l d e) <=
  Rabs J * (beta * beta) * (ep * (2 * tau + ep)) * sumn q (fun a => sumn q (fun b => Rabs (M a b))).
Proof.
  intros Hbeta Hop Hx Hy. rewrite !V_gen_terms, <- sumn_minus.
  eapply Rle_trans; [apply sumn_abs|]. rewrite <- sumn_scal. apply sumn_le; intros a _.
  rewrite <- sumn_minus. eapply Rle_trans; [apply sumn_abs|]. rewrite <- sumn_scal. apply sumn_le; intros b _.
  rewrite <- Rmult_minus_distr_l, Rabs_mult, Rmult_comm. apply Rmult_le_compat_r; [apply Rabs_pos|].
  unfold term. destruct (Hop a d) as (Ba & _ & _). destruct (Hop b e) as (Bb & _ & _).
  destruct (op a d) as [ba [pa qa]]. destruct (op b e) as [bb [pb qb]]. cbn [fst snd] in *.
  destruct (Hx pa pb) as [X1 X2]. destruct (Hy qa qb) as [Y1 Y2].
  pose proof (prod_abs ep tau _ _ _ _ X1 Y1 X2 Y2) as H.
  set (A := tx _ _ _ _ _ _) in *. set (B := ty _ _ _ _ _ _) in *. set (A' := tx' _ _ _ _ _ _) in *. set (B' := ty' _ _ _ _ _ _) in *.
  replace (J * (ba * bb * (A * B)) - J * (ba * bb * (A' * B'))) with (J * (ba * bb) * (A * B - A' * B')) by ring.
  rewrite !Rabs_mult.
  pose proof (Rabs_pos J). pose proof (Rabs_pos ba). pose proof (Rabs_pos bb). pose proof (Rabs_pos (A * B - A' * B')).
  apply Rmult_le_compat; [|assumption| |assumption].
  - apply Rmult_le_pos; [assumption|]. apply Rmult_le_pos; assumption.
  - apply Rmult_le_compat_l; [assumption|]. apply Rmult_le_compat; assumption.
Qed.

Lemma unit_flag e i : unit_flags e -> Rabs (flag e i) <= 1.
Proof.
  intros (A & B & C & D). do 4 (destruct i as [|i]; [assumption|]). cbn [flag]. rewrite Rabs_R1. lra.
Qed.

Lemma block_form_near s nx ny q M op beta o K K' :
  (sh_m s <= 12)%nat -> (sh_n s <= 12)%nat -> (4 <= nx <= 64)%nat -> (4 <= ny <= 64)%nat -> (sh_m s <= nx)%nat -> (sh_n s <= ny)%nat ->
  unit_edges s -> 0 <= beta -> op_bounded beta q op ->
  block_form o (sh_m s) (sh_n s) (V_gen (rule_1d code_rule nx code_basis) (rule_1d code_rule ny code_basis) s (sh_a s * sh_b s / 4) q M op) K ->
  block_form o (sh_m s) (sh_n s) (V_ana code_tables s (sh_a s * sh_b s / 4) q M op) K' -> forall r t,
  Rabs (K r t - K' r t) <= 3 / 10 ^ 11 * (Rabs (sh_a s * sh_b s) * (beta * beta) * sumn q (fun a => sumn q (fun b => Rabs (M a b)))).
Proof.
  intros Hm Hn Hx Hy Hmx Hny Hu Hb Hop HK HK' r t. rewrite (HK r t), (HK' r t).
  set (S := sumn q _). assert (HS : 0 <= S) by (apply sumn_ge0; intros; apply sumn_ge0; intros; apply Rabs_pos).
  set (J := sh_a s * sh_b s). pose proof (Rabs_pos J) as HJ.
  assert (Z : 0 <= 3 / 10 ^ 11 * (Rabs J * (beta * beta) * S)).
  { apply Rmult_le_pos; [lra|]. apply Rmult_le_pos; [|exact HS]. apply Rmult_le_pos; [exact HJ|]. apply Rmult_le_pos; exact Hb. }
  assert (Z0 : Rabs (0 - 0) <= 3 / 10 ^ 11 * (Rabs J * (beta * beta) * S)) by (rewrite Rminus_0_r, Rabs_R0; exact Z).
  destruct (inblk o (sh_m s) (sh_n s) r) eqn:Er; [destruct (inblk o (sh_m s) (sh_n s) t) eqn:Et|]; cbn [andb]; try exact Z0.
  destruct (inblk_bounds _ _ _ _ Er) as (Ri & Rj & Rc & _). destruct (inblk_bounds _ _ _ _ Et) as (Ti & Tj & Tc & _).
  destruct (skipped _ _ _ _ _ _ _ _ _); [exact Z0|]. unfold V_ana.
  eapply Rle_trans.
  - apply (V_gen_near_at (25 / 10 ^ 12) (201 / 100) beta); [exact Hb|exact Hop| |].
    + intros p' q'. destruct (Hu (cx o r)) as [U _]. destruct (Hu (cx o t)) as [U' _]. apply near_1d; try lia; apply unit_flag; assumption.
    + intros p' q'. destruct (Hu (cx o r)) as [_ U]. destruct (Hu (cx o t)) as [_ U']. apply near_1d; try lia; apply unit_flag; assumption.
  - fold J S. unfold Rdiv at 1. rewrite Rabs_mult, (Rabs_right (/ 4)) by lra.
    replace (Rabs J * / 4 * (beta * beta) * (25 / 10 ^ 12 * (2 * (201 / 100) + 25 / 10 ^ 12)) * S)
      with (/ 4 * (25 / 10 ^ 12 * (2 * (201 / 100) + 25 / 10 ^ 12)) * (Rabs J * (beta * beta) * S)) by ring.
    apply Rmult_le_compat_r; [|lra]. apply Rmult_le_pos; [|exact HS]. apply Rmult_le_pos; [exact HJ|]. apply Rmult_le_pos; exact Hb.
Qed.

Lemma finalized_near fin A B c : (forall r t, Rabs (dense A r t - dense B r t) <= c) -> forall r t, Rabs (finalized fin A r t - finalized fin B r t) <= c.
Proof. intros H r t. unfold finalized. destruct fin; [|apply H]. unfold finalize_symmetric. destruct (r <=? t)%nat; apply H. Qed.

(* ------------------------------------------------- the factors *)
Lemma slope_a s : Rabs (2 / sh_a s) <= slope_scale s. Proof. apply Rmax_l. Qed.
Lemma slope_b s : Rabs (2 / sh_b s) <= slope_scale s. Proof. apply Rmax_r. Qed.
Lemma slope_ge0 s : 0 <= slope_scale s. Proof. eapply Rle_trans; [apply Rabs_pos|apply slope_a]. Qed.
Lemma slope_prod s x y : Rabs x <= slope_scale s -> Rabs y <= slope_scale s -> Rabs (x * y) <= slope_scale s * slope_scale s.
Proof. intros. rewrite Rabs_mult. apply Rmult_le_compat; try apply Rabs_pos; assumption. Qed.
Lemma strain_ge kappa s : Rabs kappa <= strain_scale kappa s /\ slope_scale s <= strain_scale kappa s /\ 2 * (slope_scale s * slope_scale s) <= strain_scale kappa s /\ 0 <= strain_scale kappa s.
Proof.
  unfold strain_scale. set (u := slope_scale s). set (v := 2 * (u * u)).
  pose proof (Rmax_l (Rabs kappa) (Rmax u v)). pose proof (Rmax_r (Rabs kappa) (Rmax u v)). pose proof (Rmax_l u v). pose proof (Rmax_r u v).
  pose proof (Rabs_pos kappa). repeat split; lra.
Qed.
Lemma opB_bounded kappa s : op_bounded (strain_scale kappa s) 6 (opB kappa s).
Proof.
  destruct (strain_ge kappa s) as (K & U & V & Z). pose proof (slope_a s) as A. pose proof (slope_b s) as B.
  pose proof (slope_prod s _ _ A A) as AA. pose proof (slope_prod s _ _ A B) as AB. pose proof (slope_prod s _ _ B B) as BB.
  pose proof (Rabs_pos (2 / sh_a s * (2 / sh_a s))). 
  assert (Z0 : Rabs 0 <= strain_scale kappa s) by (rewrite Rabs_R0; exact Z).
  intros a d. unfold opB. cbv zeta.
  destruct d as [|[|d]]; do 6 (try destruct a as [|a]); cbn [fst snd]; (split; [|split; lia]); rewrite ?Rabs_Ropp; try lra.
  rewrite Rabs_mult, (Rabs_right 2) by lra. lra.
Qed.
Lemma opG_bounded s : op_bounded (slope_scale s) 2 (opG s).
Proof.
  pose proof (slope_a s) as A. pose proof (slope_b s) as B. pose proof (slope_ge0 s) as Z.
  assert (Z0 : Rabs 0 <= slope_scale s) by (rewrite Rabs_R0; exact Z).
  intros a d. unfold opG. destruct d as [|[|[|d]]]; destruct a as [|[|a]]; cbn [fst snd]; (split; [|split; lia]); lra.
Qed.
Lemma motion_ge off s : 1 <= motion_scale off s /\ slope_scale s <= motion_scale off s /\ Rabs off * slope_scale s <= motion_scale off s.
Proof.
  unfold motion_scale. pose proof (slope_ge0 s) as Z. set (u := slope_scale s) in *. set (v := Rmax 1 (Rabs off)).
  pose proof (Rmax_l 1 (v * u)). pose proof (Rmax_r 1 (v * u)). pose proof (Rmax_l 1 (Rabs off)). pose proof (Rmax_r 1 (Rabs off)). fold v in H1, H2.
  assert (1 * u <= v * u) by (apply Rmult_le_compat_r; assumption). assert (Rabs off * u <= v * u) by (apply Rmult_le_compat_r; assumption).
  repeat split; lra.
Qed.
Lemma opM_bounded off s : op_bounded (motion_scale off s) 5 (opM off s).
Proof.
  pose proof (slope_a s) as A. pose proof (slope_b s) as B. pose proof (slope_ge0 s) as Z. destruct (motion_ge off s) as (M1 & M2 & M3).
  assert (Z0 : Rabs 0 <= motion_scale off s) by (rewrite Rabs_R0; lra). assert (O1 : Rabs 1 <= motion_scale off s) by (rewrite Rabs_R1; lra).
  assert (OA : Rabs (off * (2 / sh_a s)) <= motion_scale off s).
  { rewrite Rabs_mult. eapply Rle_trans; [|exact M3]. apply Rmult_le_compat_l; [apply Rabs_pos|exact A]. }
  assert (OB : Rabs (off * (2 / sh_b s)) <= motion_scale off s).
  { rewrite Rabs_mult. eapply Rle_trans; [|exact M3]. apply Rmult_le_compat_l; [apply Rabs_pos|exact B]. }
  intros a d. unfold opM. destruct d as [|[|d]]; do 5 (try destruct a as [|a]); cbn [fst snd]; (split; [|split; lia]); lra.
Qed.

(* ------------------------------------------------- the three matrices *)
Section Near.
Variables (E : env) (p : panel).
Hypothesis Hg : geometry_ok (chosen_model p) (kernel_view p).
Hypothesis Hw : whole_window (kernel_view p).
Hypothesis HEr : e_rule E = code_rule.
Hypothesis HEb : e_basis E = code_basis.
Hypothesis HEt : e_tables E = code_tables.
Hypothesis Hm : (sh_m (pn_sh p) <= 12)%nat.
Hypothesis Hn : (sh_n (pn_sh p) <= 12)%nat.
Hypothesis Hu : unit_edges (kernel_view p).

Theorem calc_kC_near Aa An pa pn Ka Kn :
  calc_kC E Aa p = (pa, Ok Ka) -> calc_kC E An p = (pn, Ok Kn) ->
  ka_c Aa = None -> ka_F Aa = None -> ka_NL Aa = false -> ka_c_cte Aa = None ->
  ka_c An <> None \/ ka_F An <> None -> ka_NL An = false -> ka_c_cte An = None -> pn_N_cte p = (0, 0, 0) ->
  (forall i j, (i < points_x An p)%nat -> (j < points_y An p)%nat -> forall a b,
     laminate_at (laminate_used E An p) i j a b = lam_matrix (pn_ortho p) (rebuilt_lam E p) a b) ->
  is_ABD (lam_matrix (pn_ortho p) (rebuilt_lam E p)) ->
  ka_fin Aa = ka_fin An -> ka_row0 Aa = ka_col0 Aa -> ka_row0 An = ka_col0 Aa -> ka_col0 An = ka_col0 Aa ->
  (4 <= points_x An p <= 64)%nat -> (4 <= points_y An p <= 64)%nat ->
  (sh_m (pn_sh p) <= points_x An p)%nat -> (sh_n (pn_sh p) <= points_y An p)%nat ->
  forall r t, Rabs (Kn r t - Ka r t) <= 3 / 10 ^ 11 *
    (Rabs (sh_a (kernel_view p) * sh_b (kernel_view p)) *
     (strain_scale (curvature (chosen_model p) (kernel_view p)) (kernel_view p) * strain_scale (curvature (chosen_model p) (kernel_view p)) (kernel_view p)) *
     sumn 6 (fun a => sumn 6 (fun b => Rabs (lam_matrix (pn_ortho p) (rebuilt_lam E p) a b)))).
Proof using Hg Hw HEr HEb HEt Hm Hn Hu.
  intros Ha Hnn A1 A2 A3 A4 N1 N3 N4 HN HF HABD Hfin R1 R2 R3 Px Py Mx My.
  pose proof (calc_kC_analytic _ _ _ _ _ Ha A1 A2 A3 A4) as HA. rewrite HN in HA.
  destruct HA as (kC & kGc & HKa & _ & HkC & HkG).
  destruct (calc_kC_numeric _ _ _ _ _ Hnn) as (kN & cl & HKn & _ & _ & HkN); try assumption.
  { destruct N1 as [N1|N1]; [left; exact N1|right; left; exact N1]. }
  rewrite N3, R2, R3 in HkN. intros r t. rewrite HKn, HKa, <- Hfin. revert r t. apply finalized_near. intros r t. rewrite dense_app.
  assert (Z : dense kGc r t = 0).
  { destruct HkG as [(_ & ->)| ->]; [reflexivity|]. rewrite R1.
    rewrite (fkG0_dense (chosen_model p) (e_tables E) (kernel_view p) 0 0 0 (ka_col0 Aa) Hg r t).
    destruct (_ && _)%bool; [|reflexivity]. destruct (skipped _ _ _ _ _ _ _ _ _); [reflexivity|].
    unfold V_ana, V_gen. cbn [sumn Nmat].
    repeat match goal with |- context [opG ?s ?a ?b] => destruct (opG s a b) as [? [? ?]] end. ring. }
  rewrite Z, Rplus_0_r. destruct Hw as [Wx Wy].
  assert (EF : sumn 6 (fun a => sumn 6 (fun b => Rabs (lam_matrix (pn_ortho p) (rebuilt_lam E p) a b))) =
               sumn 6 (fun a => sumn 6 (fun b => Rabs (Fsym (lam_matrix (pn_ortho p) (rebuilt_lam E p)) a b)))).
  { apply sumn_ext; intros a Ha'. apply sumn_ext; intros b Hb'. rewrite Fsym_id by assumption. reflexivity. }
  rewrite EF.
  refine (block_form_near (kernel_view p) (points_x An p) (points_y An p) 6 (Fsym (lam_matrix (pn_ortho p) (rebuilt_lam E p)))
     (opB (curvature (chosen_model p) (kernel_view p)) (kernel_view p)) _ (ka_col0 Aa) _ _ Hm Hn Px Py Mx My Hu _ (opB_bounded _ _) _ _ r t).
  - apply strain_ge.
  - rewrite <- HEr, <- HEb. eapply fkC_num_rule; try eassumption. unfold whole_panel. rewrite HEr.
    repeat split; auto; apply gauss_nodes; lia.
  - rewrite HkC, R1, HEt. apply fk0_dense. exact Hg.
Qed.

Theorem calc_kG_near Aa An pa pn Ka Kn Nxx Nyy Nxy :
  calc_kG E Aa p = (pa, Ok Ka) -> calc_kG E An p = (pn, Ok Kn) -> pn_N p = (Nxx, Nyy, Nxy) ->
  ka_c Aa = None -> ka_NL Aa = false ->
  ka_c An <> None \/ ka_NL An = true -> (forall k, given_vector (ka_c An) k = 0) ->
  ka_fin Aa = ka_fin An -> ka_row0 Aa = ka_col0 Aa -> ka_row0 An = ka_col0 Aa -> ka_col0 An = ka_col0 Aa ->
  (4 <= points_x An p <= 64)%nat -> (4 <= points_y An p <= 64)%nat ->
  (sh_m (pn_sh p) <= points_x An p)%nat -> (sh_n (pn_sh p) <= points_y An p)%nat ->
  forall r t, Rabs (Kn r t - Ka r t) <= 3 / 10 ^ 11 *
    (Rabs (sh_a (kernel_view p) * sh_b (kernel_view p)) * (slope_scale (kernel_view p) * slope_scale (kernel_view p)) *
     (Rabs Nxx + Rabs Nyy + 2 * Rabs Nxy)).
Proof using Hg Hw HEr HEb HEt Hm Hn Hu.
  intros Ha Hnn HNN A1 A3 N1 HN Hfin R1 R2 R3 Px Py Mx My.
  pose proof (calc_kG_analytic _ _ _ _ _ Ha A1 A3) as HA.
  pose proof (calc_kG_numeric _ _ _ _ _ Hnn N1) as HB. rewrite HNN in HA, HB.
  destruct HA as (kG & HKa & _ & HkG). destruct HB as (kN & cl & HKn & Hcl & _ & HkN).
  rewrite R2, R3 in HkN. intros r t. rewrite HKn, HKa, <- Hfin. revert r t. apply finalized_near. intros r t.
  destruct Hw as [Wx Wy].
  replace (Rabs Nxx + Rabs Nyy + 2 * Rabs Nxy) with (sumn 2 (fun a => sumn 2 (fun b => Rabs (Nmat Nxx Nyy Nxy a b)))) by (cbn [sumn Nmat]; ring).
  refine (block_form_near (kernel_view p) (points_x An p) (points_y An p) 2 (Nmat Nxx Nyy Nxy) (opG (kernel_view p)) _ (ka_col0 Aa) _ _
     Hm Hn Px Py Mx My Hu (slope_ge0 _) (opG_bounded _) _ _ r t).
  - rewrite <- HEr, <- HEb. eapply (fkG_num_rule (e_rule E) (e_basis E) (kernel_view p) _ _ (chosen_model p) (vec cl) (laminate_used E An p)).
    + exact Hg.
    + unfold whole_panel. rewrite HEr. repeat split; auto; apply gauss_nodes; lia.
    + intro k. rewrite Hcl. apply HN.
    + exact HkN.
  - rewrite HkG, R1, HEt. apply fkG0_dense. exact Hg.
Qed.

Theorem calc_kM_near sza szn o ho ro nxa nya nxo nyo fin pa pn Ka Kn :
  calc_kM E sza o o None None nxa nya fin p = (pa, Ok Ka) -> calc_kM E szn o o (Some ho) (Some ro) nxo nyo fin p = (pn, Ok Kn) ->
  (forall i j, snd ho i j = fold_left Rplus (pn_plyts p) 0) -> (forall i j, snd ro i j = pn_rho p) ->
  (4 <= default (pn_nx p) nxo <= 64)%nat -> (4 <= default (pn_ny p) nyo <= 64)%nat ->
  (sh_m (pn_sh p) <= default (pn_nx p) nxo)%nat -> (sh_n (pn_sh p) <= default (pn_ny p) nyo)%nat ->
  forall r t, let h := fold_left Rplus (pn_plyts p) 0 in
  Rabs (Kn r t - Ka r t) <= 3 / 10 ^ 11 *
    (Rabs (sh_a (kernel_view p) * sh_b (kernel_view p)) * (motion_scale (pn_offset p) (kernel_view p) * motion_scale (pn_offset p) (kernel_view p)) *
     sumn 5 (fun a => Rabs (inertia (833333333333333 / 10000000000000000) h (pn_rho p) a))).
Proof using Hg Hw HEr HEb HEt Hm Hn Hu.
  intros Ha Hnn Hh Hr Px Py Mx My. apply calc_kM_analytic in Ha.
  apply calc_kM_inv in Hnn. destruct Hnn as (mdl & kM & R).
  destruct R as [Hs Hmm Hrr HK Hsh _ HkM]. cbv zeta in HkM.
  assert (Hv : kernel_view pn = kernel_view p).
  { destruct Hs as [S1 S2 S3 S4 S5 S6 S7 S8 S9 S9' S10 S11 S12].
    apply view_eq; try assumption. apply S1. }
  rewrite Hv in HkM.
  assert (mdl = chosen_model p).
  { assert (HH := sr_model _ _ Hs). unfold chosen_model. rewrite <- HH, Hmm. reflexivity. }
  subst mdl. destruct HkM as [(Hc & _)|(_ & h & rho & hx & hy & Hh' & Hr' & HkM)]; [discriminate|].
  subst ho ro. cbn [snd] in *. cbv zeta.
  intros r t. rewrite HK, Ha. revert r t. apply finalized_near. intros r t. destruct Hw as [Wx Wy].
  assert (EM : sumn 5 (fun a => Rabs (inertia (833333333333333 / 10000000000000000) (fold_left Rplus (pn_plyts p) 0) (pn_rho p) a)) =
     sumn 5 (fun a => sumn 5 (fun b => Rabs (Mmat (fold_left Rplus (pn_plyts p) 0) (pn_rho p) a b)))).
  { cbn [sumn Mmat inertia]. rewrite !Rabs_R0. unfold twelfth. ring. }
  rewrite EM.
  refine (block_form_near (kernel_view p) (default (pn_nx p) nxo) (default (pn_ny p) nyo)
     5 (Mmat (fold_left Rplus (pn_plyts p) 0) (pn_rho p)) (opM (pn_offset p) (kernel_view p)) _ o _ _
     Hm Hn Px Py Mx My Hu _ (opM_bounded _ _) _ _ r t).
  - destruct (motion_ge (pn_offset p) (kernel_view p)). lra.
  - rewrite <- HEr, <- HEb. apply (fkM_num_rule (e_rule E) (e_basis E) (kernel_view p) _ _ (chosen_model p) (pn_offset p) _ _ (HPts hx hy h rho) o kM Hg).
    + unfold whole_panel. rewrite HEr. repeat split; auto; apply gauss_nodes; lia.
    + intros i j _ _. cbn [hrho_at]. rewrite Hh, Hr. reflexivity.
    + exact HkM.
  - rewrite HEt. apply fkM_dense. exact Hg.
Qed.
End Near.
