(* The lowest buckling load and the lowest frequency of a held panel. *)
From Coq Require Import Reals List Arith Bool Lia Lra Classical.
From Coquelicot Require Import Coquelicot.
From Verif Require Import Proof_Num.
From Verif Require Import Proof_Rigid Base_Sum Model_Types Model_Coo Model_Result Model_Num Model_DB Model_Bardell Model_Shell
  Spec_Algebra Spec_Kinematics Spec_Quadrature Spec_Panel Spec_Shell Spec_Bardell Spec_Integral Spec_Modes Spec_Rigid Spec_Pull Spec_BayResponse Spec_BayModes Spec_Limit
  Proof_Shell Proof_Api Proof_AnaApi Proof_Modes Proof_Ana Proof_Solve Proof_Indep Proof_Limit Prop_Stiffness Prop_Rigid.
From Verif Require Import Proof_ConnZero.
From Verif Require Proof_Response.
From Coq Require Import List.
Import ListNotations.
Open Scope R_scope.

(* ------------------------------------------------- from the pencil to the first load and the first frequency *)
Lemma first_load_of (mv : (nat -> R) -> Prop) N K G : symmetric K -> symmetric G -> psd N K -> (forall z, mv z <-> quad N K z <> 0) ->
  (forall z d, ~ mv z -> bilinear N G z d = 0) -> (exists x, quad N G x < 0) -> exists l z, first_load mv N K G l z.
Proof.
  intros HK HG HP Hmv HN Hx.
  destruct (limit_exists N K G HK HG HP) as (l & z & Hl & HA & Hz & Hq); [|exact Hx|].
  { intros z d Hz. apply HN. intro Hm. apply Hmv in Hm. contradiction. }
  assert (HL : forall v, 0 <= quad N K v + l * quad N G v) by (intro v; pose proof (HA v) as H; unfold quad in *; rewrite bil_mat in H; exact H).
  assert (HS : forall t v, 0 <= t < l -> mv v -> 0 < quad N K v + t * quad N G v).
  { intros t v Ht Hv. apply Hmv in Hv. pose proof (HP v) as H0. pose proof (HL v) as H1. assert (0 < quad N K v) by lra.
    apply (Rmult_lt_reg_l l); [exact Hl|]. nra. }
  assert (HB : forall t y, real_buckle N K G t y -> quad N K y + t * quad N G y = 0).
  { intros t y Hy. unfold quad. rewrite !bilinear_row, <- sumn_scal, <- sumn_plus. apply sumn_0. intros i Hi. pose proof (Hy i Hi) as H.
    replace (y i * row N K y i + t * (y i * row N G y i)) with (y i * (row N K y i + t * row N G y i)) by ring. rewrite H. ring. }
  exists l, z. constructor.
  - exact Hl.
  - apply Hmv. lra.
  - exact Hz.
  - exact HS.
  - exact HL.
  - intros t Ht. pose proof (HB l z Hz) as H. nra.
  - intros t y Ht Hy Hb. destruct (Rle_lt_dec l t) as [H|H]; [exact H|]. exfalso. pose proof (HS t y ltac:(lra) Hy) as H1. rewrite (HB t y Hb) in H1. lra.
Qed.
Lemma first_frequency_of (mv : (nat -> R) -> Prop) N K M : symmetric K -> symmetric M -> psd N K -> psd N M -> (forall z, mv z <-> quad N K z <> 0) ->
  (forall z d, ~ mv z -> bilinear N M z d = 0) -> (exists x, 0 < quad N M x) -> exists l z, first_frequency mv N K M l z.
Proof.
  intros HK HM HP HPM Hmv HN [x Hx].
  assert (Hop : forall u v, bilinear N (fun r s => - M r s) u v = - bilinear N M u v).
  { intros u v. unfold bilinear. rewrite <- sumn_opp. apply sumn_ext. intros r _. rewrite <- sumn_opp. apply sumn_ext. intros; ring. }
  assert (Hro : forall u i, row N (fun r s => - M r s) u i = - row N M u i).
  { intros u i. unfold row. rewrite <- sumn_opp. apply sumn_ext. intros; ring. }
  destruct (first_load_of mv N K (fun r s => - M r s)) as (l & z & [F1 F2 F3 F4 F5 F6 F7]).
  - exact HK.
  - intros r s. rewrite (HM r s). reflexivity.
  - exact HP.
  - exact Hmv.
  - intros u d Hu. rewrite Hop, (HN u d Hu). ring.
  - exists x. unfold quad. rewrite Hop. unfold quad in Hx. lra.
  - assert (HR : forall v, l * quad N M v <= quad N K v) by (intro v; pose proof (F5 v) as H; unfold quad in *; rewrite Hop in H; lra).
    assert (HZ : real_mode N K M l z) by (intros i Hi; pose proof (F3 i Hi) as H; rewrite Hro in H; lra).
    exists l, z. constructor; try assumption.
    + apply Hmv in F2. pose proof (HP z) as H0. pose proof (HPM z) as H1.
      assert (HE : quad N K z = l * quad N M z).
      { unfold quad. rewrite !bilinear_row, <- sumn_scal. apply sumn_ext. intros i Hi. rewrite (HZ i Hi). ring. }
      destruct (Req_dec (quad N M z) 0) as [H3|H3]; [exfalso; rewrite H3 in HE; lra|lra].
    + intros t y Hy Hm. apply Hmv in Hy. pose proof (HP y) as H0. pose proof (HPM y) as H1. pose proof (HR y) as H2.
      assert (HE : quad N K y = t * quad N M y).
      { unfold quad. rewrite !bilinear_row, <- sumn_scal. apply sumn_ext. intros i Hi. rewrite (Hm i Hi). ring. }
      destruct (Req_dec (quad N M y) 0) as [H3|H3]; [exfalso; rewrite H3 in HE; lra|]. apply (Rmult_le_reg_r (quad N M y)); lra.
Qed.

Lemma stable_below mv N K G l z t : first_load mv N K G l z -> (forall c, 0 <= quad N K c + t * quad N G c) -> t <= l.
Proof. intros [_ _ _ _ _ F6 _] H. destruct (Rle_lt_dec t l) as [|C]; [assumption|]. exfalso. pose proof (F6 t C). pose proof (H z). lra. Qed.
Lemma frequencies_below mv N K M l z t : first_frequency mv N K M l z -> (forall c, t * quad N M c <= quad N K c) -> t <= l.
Proof.
  intros [_ _ F3 F4 _ _] H. pose proof (H z) as Hz. assert (HE : quad N K z = l * quad N M z).
  { unfold quad. rewrite !bilinear_row, <- sumn_scal. apply sumn_ext. intros i Hi. rewrite (F4 i Hi). ring. }
  apply (Rmult_le_reg_r (quad N M z)); lra.
Qed.

(* ------------------------------------------------- still panels *)
Lemma still_all s c : (sh_m s <= 30)%nat -> (sh_n s <= 30)%nat -> motionless s c -> forall Bs d p q x y, flagged Bs 30 -> (d < 3)%nat -> fld Bs s c d p q x y = 0.
Proof. intros Hm Hn H. exact (Proof_Response.unmoved_vec s c Hm Hn H). Qed.
Lemma still_membrane Bs s Nxx Nyy Nxy c d xi eta : flagged Bs 30 -> (sh_m s <= 30)%nat -> (sh_n s <= 30)%nat -> motionless s c -> membrane_work Bs s Nxx Nyy Nxy c d xi eta = 0.
Proof.
  intros HB Hm Hn H. unfold membrane_work, d_wx, d_wy. rewrite !(still_all s c Hm Hn H Bs) by (assumption || lia). ring.
Qed.
Lemma still_kinetic Bs s tw h rho off c d xi eta : flagged Bs 30 -> (sh_m s <= 30)%nat -> (sh_n s <= 30)%nat -> motionless s c -> kinetic Bs s tw h rho off c d xi eta = 0.
Proof.
  intros HB Hm Hn H. unfold kinetic, d_u, d_v, d_w, d_wx, d_wy. cbv zeta. rewrite !(still_all s c Hm Hn H Bs) by (assumption || lia). ring.
Qed.

Section Panel.
Variables (E : env) (A : kargs) (p : panel) (N : nat) (K : nat -> nat -> R).
Hypotheses (HS : stiffness E A p N K) (HH : fixed_panel E p).
Notation o := (ka_col0 A).
Lemma null_still z : quad N K z = 0 -> motionless (kernel_view p) (own o z).
Proof using HS HH.
  intros HQ xi eta Hx Hy. destruct HH as (HE & HD & Hab & Hm & Hn & HA).
  destruct (C95_nothing_else E A p K N HS HE HD Hab Hm Hn z HQ) as (u0 & v0 & w0 & th & al & be & HR).
  destruct HE as (_ & (G1 & G2 & _) & _).
  destruct (anchored_still _ (kernel_view p) _ u0 v0 w0 th al be Hm Hn G1 G2 HA HR) as (-> & -> & -> & -> & -> & ->).
  destruct (HR xi eta Hx Hy) as (R1 & R2 & R3). rewrite R1, R2, R3. unfold Spec_Rigid.motion. clear. repeat split; unfold Rdiv; ring.
Qed.
Lemma still_null z : motionless (kernel_view p) (own o z) -> quad N K z = 0.
Proof using HS HH.
  intro HZ. destruct HS as ((p' & R0) & A1 & A2 & A3 & A4 & A5 & A6 & A7 & A8). destruct HH as ((E1 & E2 & E3 & E4 & E5) & _ & _ & Hm & Hn & _).
  pose proof (kC_energy E A p p' K N R0 A1 A2 A3 A4 A5 A6 E1 E2 A7 E3 A8 z z) as HI. unfold quad.
  refine (integral_zero _ _ _ _ HI). intros x y. unfold form. apply sumn_0; intros i Hi. apply sumn_0; intros j Hj.
  assert (HF : lin_strain (curvature (chosen_model p) (kernel_view p)) exact_basis (kernel_view p) (own o z) x y i = 0).
  { unfold lin_strain, d_ux, d_uy, d_vx, d_vy, d_w, d_wxx, d_wyy, d_wxy.
    destruct i as [|[|[|[|[|[|i]]]]]]; rewrite ?(still_all (kernel_view p) (own o z) Hm Hn HZ exact_basis) by (exact exact_flagged || lia); try ring; try reflexivity. }
  rewrite HF. ring.
Qed.
Lemma displaced_energy z : displaced p o z <-> quad N K z <> 0.
Proof using HS HH.
  unfold displaced. split; intros H HC; apply H; [apply null_still|apply still_null]; exact HC.
Qed.
Lemma held_sym : symmetric K.
Proof using HS. exact (Proof_Response.stiff_sym E A p N K HS). Qed.
Lemma held_psd : psd N K.
Proof using HS HH. exact (Proof_Response.stiff_psd E A p N K HS (proj1 HH)). Qed.

Lemma uniform_work A' q G c d : geometric E A' p o q G -> uniform_loads A' ->
  panel_integral (kernel_view p) (fun xi eta => let '(Nxx, Nyy, Nxy) := pn_N q in membrane_work exact_basis (kernel_view p) Nxx Nyy Nxy (own o c) (own o d) xi eta) (bilinear N G c d).
Proof using HS HH.
  intros ((q' & HR) & H1 & H2 & H3 & H4 & H5 & H6) (U1 & U2). pose proof (calc_kG_analytic _ _ _ _ _ HR U1 U2) as HA.
  destruct (pn_N q) as [[Nxx Nyy] Nxy]. destruct HA as (kG & HK & _ & HkG). rewrite H1 in HK. cbn [finalized] in HK. subst G kG. rewrite H2, H3, H4, H5.
  destruct HS as (_ & _ & _ & _ & _ & _ & _ & A7 & A8). destruct HH as ((_ & E2 & _) & _). apply fkG0_energy; assumption.
Qed.
Lemma uniform_still A' q G z d : geometric E A' p o q G -> uniform_loads A' -> ~ displaced p o z -> bilinear N G z d = 0.
Proof using HS HH.
  intros HG HU HZ. apply NNPP in HZ. refine (integral_zero _ _ _ _ (uniform_work A' q G z d HG HU)). intros x y.
  destruct (pn_N q) as [[Nxx Nyy] Nxy]. destruct HH as (_ & _ & _ & Hm & Hn & _). apply still_membrane; try assumption. exact exact_flagged.
Qed.
Lemma geometric_sym A' q G : geometric E A' p o q G -> symmetric G.
Proof using. intros ((q' & HR) & H1 & _). exact (C17_kG_symmetric E A' q q' G HR H1). Qed.
(* membrane forces of a state *)
Lemma state_still A' q G z d : geometric E A' p o q G -> ka_c A' <> None \/ ka_NL A' = true -> laminate_ok (points_x A' q) (points_y A' q) (laminate_used E A' q) ->
  flagged (e_basis E) 30 -> ~ displaced p o z -> bilinear N G z d = 0.
Proof using HS HH.
  intros ((q' & HR) & H1 & H2 & H3 & H4 & H5 & H6) HU HL HB HZ. apply NNPP in HZ.
  destruct HS as (_ & _ & _ & _ & _ & _ & _ & A7 & _). destruct HH as ((_ & E2 & _) & _ & _ & Hm & Hn & _).
  pose proof (calc_kG_energy E A' q q' G N z d HR HU H1 ltac:(congruence)) as HX. rewrite H3, H4, H5, H6 in HX. specialize (HX E2 A7 HL).
  destruct (pn_N q) as [[Nxx Nyy] Nxy]. rewrite HX. unfold integrate. 
  apply suml_0; intros px Hi. apply suml_0; intros py Hj. destruct (xregion (kernel_view p)), (yregion (kernel_view p)). cbv zeta.
  rewrite still_membrane by assumption. ring.
Qed.

Theorem panel_first_load A' q G : geometric E A' p o q G -> (forall z d, ~ displaced p o z -> bilinear N G z d = 0) -> (exists x, quad N G x < 0) ->
  exists l z, first_load (displaced p o) N K G l z.
Proof using HS HH.
  intros HG HN HX. exact (first_load_of _ N K G held_sym (geometric_sym A' q G HG) held_psd displaced_energy HN HX).
Qed.
(* compression and a slope *)
Lemma compression_works A' q G x xi eta Nxx Nyy : geometric E A' p o q G -> uniform_loads A' -> pn_N q = (Nxx, Nyy, 0) -> Nxx < 0 -> Nyy <= 0 ->
  -1 <= xi <= 1 -> -1 <= eta <= 1 -> d_wx exact_basis (kernel_view p) (own o x) xi eta <> 0 -> quad N G x < 0.
Proof using HS HH.
  intros HG HU HQ Hx Hy Hxi Heta Hd. pose proof (uniform_work A' q G x x HG HU) as HI. rewrite HQ in HI.
  destruct HH as (_ & _ & Hab & Hm & Hn & _). set (s := kernel_view p) in *. 
  assert (Hab' : 0 < sh_a s * sh_b s) by exact Hab.
  assert (HI' : panel_integral s (fun u v => - membrane_work exact_basis s Nxx Nyy 0 (own o x) (own o x) u v) (- quad N G x)).
  { unfold quad. replace (- bilinear N G x x) with (-1 * bilinear N G x x) by ring.
    unfold panel_integral in *. eapply sqi_ext; [|apply (sqi_scal (-1)); exact HI]. intros; cbv beta. ring. }
  assert (Hp : forall u v, 0 <= - membrane_work exact_basis s Nxx Nyy 0 (own o x) (own o x) u v).
  { intros u v. unfold membrane_work. pose proof (Rle_0_sqr (d_wx exact_basis s (own o x) u v)) as S1. pose proof (Rle_0_sqr (d_wy exact_basis s (own o x) u v)) as S2. unfold Rsqr in *. nra. }
  pose proof (panel_integral_ge0 s _ _ (Rlt_le _ _ Hab') Hp HI') as H0. destruct (Req_dec (quad N G x) 0) as [HZ|HZ]; [exfalso|lra].
  rewrite HZ, Ropp_0 in HI'.
  assert (HQ' : 0 < sh_a s / 2 * (sh_b s / 2)) by nra.
  assert (HF := zero_square _ xi eta HI'). cbv beta in HF.
  assert (HE : sh_a s / 2 * (sh_b s / 2) * - membrane_work exact_basis s Nxx Nyy 0 (own o x) (own o x) xi eta = 0).
  { apply HF; [|exact Hxi|exact Heta|].
    - intros u v. apply Rmult_le_pos; [lra|apply Hp].
    - apply continuity_2d_pt_mult; [apply continuity_2d_pt_const|]. unfold membrane_work, d_wx, d_wy.
      apply continuity_2d_pt_opp. repeat first [apply continuity_2d_pt_plus|apply continuity_2d_pt_mult|apply continuity_2d_pt_const|apply cont_fld_exact; assumption]. }
  apply Rmult_integral in HE. destruct HE as [HE|HE]; [lra|]. revert HE. unfold membrane_work.
  assert (S1 : 0 < d_wx exact_basis s (own o x) xi eta * d_wx exact_basis s (own o x) xi eta) by nra. pose proof (Rle_0_sqr (d_wy exact_basis s (own o x) xi eta)) as S2. unfold Rsqr in *. nra.
Qed.

(* ------------------------------------------------- vibrations *)
Lemma inertia_work q M c d : inertia E p o q M ->
  panel_integral (kernel_view p) (fun xi eta => kinetic exact_basis (kernel_view p) twelfth (fold_left Rplus (pn_plyts q) 0) (pn_rho q) (pn_offset q) (own o c) (own o d) xi eta) (bilinear N M c d).
Proof using HS HH.
  intros ((sz & nx & ny & q' & HR) & H4 & H5 & H6). apply calc_kM_analytic in HR. subst M. cbn [finalized]. rewrite H4, H5.
  destruct HS as (_ & _ & _ & _ & _ & _ & _ & A7 & A8). destruct HH as ((_ & E2 & _) & _). apply fkM_energy; assumption.
Qed.
Lemma inertia_sym q M : inertia E p o q M -> symmetric M.
Proof using. intros ((sz & nx & ny & q' & HR) & _). exact (C17_kM_symmetric E sz o o None None nx ny q q' M HR). Qed.
Lemma inertia_still q M z d : inertia E p o q M -> ~ displaced p o z -> bilinear N M z d = 0.
Proof using HS HH.
  intros HM HZ. apply NNPP in HZ. refine (integral_zero _ _ _ _ (inertia_work q M z d HM)). intros x y.
  destruct HH as (_ & _ & _ & Hm & Hn & _). apply still_kinetic; try assumption. exact exact_flagged.
Qed.
Lemma inertia_psd q M : inertia E p o q M -> 0 <= pn_rho q * fold_left Rplus (pn_plyts q) 0 -> psd N M.
Proof using HS HH.
  intros HM Hr c. unfold quad. destruct HH as (_ & _ & Hab & _). refine (panel_integral_ge0 (kernel_view p) _ _ (Rlt_le _ _ Hab) _ (inertia_work q M c c HM)).
  intros x y. apply kinetic_ge0. exact Hr.
Qed.
Lemma inertia_pos q M x : inertia E p o q M -> 0 < pn_rho q * fold_left Rplus (pn_plyts q) 0 -> displaced p o x -> 0 < quad N M x.
Proof using HS HH.
  intros HM Hr Hd. pose proof (inertia_psd q M HM (Rlt_le _ _ Hr) x) as H0. destruct (Req_dec (quad N M x) 0) as [HZ|HZ]; [exfalso|lra].
  apply Hd. intros xi eta Hxi Heta. pose proof (inertia_work q M x x HM) as HI. unfold quad in HZ. rewrite HZ in HI.
  destruct HH as (_ & _ & Hab & Hm & Hn & _). set (s := kernel_view p) in *. set (h := fold_left Rplus (pn_plyts q) 0) in *. set (rho := pn_rho q) in *. set (off := pn_offset q) in *.
  assert (Hab' : 0 < sh_a s * sh_b s) by exact Hab.
  assert (HQ' : 0 < sh_a s / 2 * (sh_b s / 2)) by nra.
  assert (HF := zero_square _ xi eta HI). cbv beta in HF.
  assert (HE : sh_a s / 2 * (sh_b s / 2) * kinetic exact_basis s twelfth h rho off (own o x) (own o x) xi eta = 0).
  { apply HF; [|exact Hxi|exact Heta|].
    - intros u v. apply Rmult_le_pos; [lra|apply kinetic_ge0; lra].
    - apply continuity_2d_pt_mult; [apply continuity_2d_pt_const|]. unfold kinetic, d_u, d_v, d_w, d_wx, d_wy.
      repeat first [apply continuity_2d_pt_plus|apply continuity_2d_pt_mult|apply continuity_2d_pt_const|apply cont_fld_exact; assumption]. }
  apply Rmult_integral in HE. destruct HE as [HE|HE]; [lra|]. unfold kinetic in HE. cbv zeta in HE.
  set (u := d_u exact_basis s (own o x) xi eta) in *. set (v := d_v exact_basis s (own o x) xi eta) in *. set (w := d_w exact_basis s (own o x) xi eta) in *.
  set (wx := d_wx exact_basis s (own o x) xi eta) in *. set (wy := d_wy exact_basis s (own o x) xi eta) in *.
  assert (Hh : 0 < h * h) by (assert (h <> 0) by (intros ->; lra); nra).
  assert (Ht : 0 < h * h * twelfth) by (unfold twelfth; nra).
  assert (HA : (u + off * wx) * (u + off * wx) + (v + off * wy) * (v + off * wy) + w * w + h * h * twelfth * (wx * wx + wy * wy) = 0).
  { apply (Rmult_eq_reg_l (rho * h)); [|lra]. rewrite Rmult_0_r, <- HE. ring. }
  assert (Sq : forall a, 0 <= a * a) by (intro; nra).
  pose proof (Sq (u + off * wx)). pose proof (Sq (v + off * wy)). pose proof (Sq w). pose proof (Sq wx). pose proof (Sq wy).
  assert (P : 0 <= h * h * twelfth * (wx * wx + wy * wy)) by (apply Rmult_le_pos; lra).
  assert (Z0 : forall a, a * a = 0 -> a = 0) by (intros a Ha; apply Rmult_integral in Ha; tauto).
  assert (P0 : h * h * twelfth * (wx * wx + wy * wy) = 0) by lra. apply Rmult_integral in P0. destruct P0 as [P0|P0]; [lra|].
  assert (X : wx = 0) by (apply Z0; lra). assert (Y : wy = 0) by (apply Z0; lra). assert (W : w = 0) by (apply Z0; lra).
  assert (U : u + off * wx = 0) by (apply Z0; lra). assert (V : v + off * wy = 0) by (apply Z0; lra). rewrite X in U. rewrite Y in V. repeat split; lra.
Qed.
Theorem panel_first_frequency q M : inertia E p o q M -> 0 < pn_rho q * fold_left Rplus (pn_plyts q) 0 -> (exists x, displaced p o x) ->
  exists l z, first_frequency (displaced p o) N K M l z.
Proof using HS HH.
  intros HM Hr (x & Hx). apply first_frequency_of.
  - exact held_sym.
  - exact (inertia_sym q M HM).
  - exact held_psd.
  - exact (inertia_psd q M HM (Rlt_le _ _ Hr)).
  - exact displaced_energy.
  - intros z d. exact (inertia_still q M z d HM).
  - exists x. exact (inertia_pos q M x HM Hr Hx).
Qed.
(* the function of two bubbles, free whatever the supports *)
Definition bubble (m o : nat) (k : nat) : R := if (k =? o + (3 * (4 * m + 4) + 2))%nat then 1 else 0.
Lemma bubble_fld s oo pp qq xi eta : (5 <= sh_m s)%nat -> (5 <= sh_n s)%nat ->
  fld exact_basis s (own oo (bubble (sh_m s) oo)) 2 pp qq xi eta = shape exact_basis pp 4 xi (xedge s 2) * shape exact_basis qq 4 eta (yedge s 2).
Proof using.
  intros Hm Hn. unfold fld, ritz. rewrite (sumn_ext (sh_n s) _ (fun j => if (j =? 4)%nat then shape exact_basis pp 4 xi (xedge s 2) * shape exact_basis qq 4 eta (yedge s 2) else 0)).
  - rewrite sumn_single. destruct (Nat.ltb_spec 4 (sh_n s)); [reflexivity|lia].
  - intros j Hj. destruct (Nat.eqb_spec j 4) as [->|Hj4].
    + rewrite (sumn_ext (sh_m s) _ (fun i => if (i =? 4)%nat then shape exact_basis pp 4 xi (xedge s 2) * shape exact_basis qq 4 eta (yedge s 2) else 0)).
      * rewrite sumn_single. destruct (Nat.ltb_spec 4 (sh_m s)); [reflexivity|lia].
      * intros i Hi. unfold own, bubble. destruct (Nat.eqb_spec i 4) as [->|Hi4].
        -- rewrite Nat.eqb_refl. ring.
        -- rewrite (proj2 (Nat.eqb_neq _ _)) by lia. ring.
    + apply sumn_0. intros i Hi. unfold own, bubble. rewrite (proj2 (Nat.eqb_neq _ _)); [ring|]. intro HC.
      assert (HC' : (j * sh_m s + i = 4 * sh_m s + 4)%nat) by lia. assert (j <= 3 \/ 5 <= j)%nat as [H|H] by lia; nia.
Qed.
Lemma bardell4 x : bardell 4 x = (x ^ 4 - 2 * x ^ 2 + 1) / 8.
Proof using. unfold bardell. cbn. field. Qed.
Lemma bardell4_slope x : Derive (bardell 4) x = (x ^ 3 - x) / 2.
Proof using.
  rewrite (Derive_ext (bardell 4) (fun x => (x ^ 4 - 2 * x ^ 2 + 1) / 8)) by exact bardell4. apply is_derive_unique. auto_derive; [exact I|]. field.
Qed.
Lemma bubble_slope : (5 <= sh_m (pn_sh p))%nat -> (5 <= sh_n (pn_sh p))%nat -> sh_a (pn_sh p) <> 0 -> d_wx exact_basis (kernel_view p) (own o (bubble (sh_m (pn_sh p)) o)) (1/2) 0 <> 0.
Proof using.
  intros Hm Hn Ha. unfold d_wx. change (sh_m (pn_sh p)) with (sh_m (kernel_view p)). rewrite bubble_fld by assumption.
  unfold shape, exact_basis. cbn [bf bfp bfpp flag]. rewrite bardell4_slope, bardell4. change (sh_a (kernel_view p)) with (sh_a (pn_sh p)).
  intro HC. apply Rmult_integral in HC. destruct HC as [HC|HC]; [|lra].
  assert (HX : 2 / sh_a (pn_sh p) * sh_a (pn_sh p) = 2) by (field; exact Ha). rewrite HC in HX. lra.
Qed.
Lemma bubble_moves : (5 <= sh_m (pn_sh p))%nat -> (5 <= sh_n (pn_sh p))%nat -> displaced p o (bubble (sh_m (pn_sh p)) o).
Proof using.
  intros Hm Hn HC. destruct (HC 0 0 ltac:(lra) ltac:(lra)) as (_ & _ & H). revert H. unfold d_w. change (sh_m (pn_sh p)) with (sh_m (kernel_view p)). rewrite bubble_fld by assumption.
  unfold shape, exact_basis. cbn [bf bfp bfpp flag]. rewrite bardell4. lra.
Qed.
Theorem compressed_first_load A' q G Nxx Nyy : geometric E A' p o q G -> uniform_loads A' -> pn_N q = (Nxx, Nyy, 0) -> Nxx < 0 -> Nyy <= 0 ->
  (5 <= sh_m (pn_sh p))%nat -> (5 <= sh_n (pn_sh p))%nat -> exists l z, first_load (displaced p o) N K G l z.
Proof using HS HH.
  intros HG HU HQ Hx Hy Hm Hn. apply (panel_first_load A' q G HG).
  - intros z d. exact (uniform_still A' q G z d HG HU).
  - exists (bubble (sh_m (pn_sh p)) o). refine (compression_works A' q G _ (1/2) 0 Nxx Nyy HG HU HQ Hx Hy _ _ (bubble_slope Hm Hn _)); try lra.
    intro HZ. destruct HH as (_ & _ & Hab & _). rewrite HZ in Hab. lra.
Qed.
End Panel.
