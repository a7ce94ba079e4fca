(* Springs, stiffness and mass of flanges. *)
From Coq Require Import Reals List Arith Bool Lia Lra.
From Coquelicot Require Import Coquelicot.
From Verif Require Import Base_Sum Model_Types Model_Coo Model_Result Model_Num Model_Fext Model_StiffKer Model_Bay
  Spec_Algebra Spec_Panel Spec_Kinematics Spec_Quadrature Spec_Integral Spec_Bardell Spec_Fext Spec_Conn Spec_Stiff Spec_Bay Spec_BayWork Spec_Blade
  Proof_Bardell Proof_Multi Proof_MultiSign Proof_StiffKer Ex_Panel Ex_Exact Ex_Fext Ex_Multi Ex_Fint Proof_Gauss.
Import ListNotations.
Open Scope R_scope.

(* the kinetic energy of a flange of height bf whose root is z below the mid-surface *)
Lemma flange_kinetic_value Bs s rho hf z bfl c d xi eta :
  let u c := d_u Bs s c xi eta in let v c := d_v Bs s c xi eta in let w c := d_w Bs s c xi eta in
  let wx c := d_wx Bs s c xi eta in let wy c := d_wy Bs s c xi eta in
  flange_kinetic Bs s rho hf z (z + bfl) c d xi eta =
  rho * hf * bfl * (u c * u d + v c * v d + w c * w d + (z + bfl / 2) * (u c * wx d + wx c * u d + v c * wy d + wy c * v d)
    + (z ^ 2 + z * bfl + bfl ^ 2 / 3) * (wx c * wx d + wy c * wy d)).
Proof.
  cbv zeta. unfold flange_kinetic. apply (@is_RInt_unique R_CompleteNormedModule).
  set (u1 := d_u Bs s c xi eta). set (u2 := d_u Bs s d xi eta). set (v1 := d_v Bs s c xi eta). set (v2 := d_v Bs s d xi eta). set (w1 := d_w Bs s c xi eta). set (w2 := d_w Bs s d xi eta).
  set (p1 := d_wx Bs s c xi eta). set (p2 := d_wx Bs s d xi eta). set (q1 := d_wy Bs s c xi eta). set (q2 := d_wy Bs s d xi eta).
  set (G := fun t => rho * hf * ((u1 * u2 + v1 * v2 + w1 * w2) * t + (u1 * p2 + p1 * u2 + v1 * q2 + q1 * v2) * t ^ 2 / 2 + (p1 * p2 + q1 * q2) * t ^ 3 / 3)).
  evar_last.
  { apply (is_RInt_derive G).
    - intros t _. unfold G. auto_derive; [exact I|]. cbn. match goal with |- ?a = ?b => change (@eq R a b) end. fold u1 u2 v1 v2 w1 w2 p1 p2 q1 q2. field.
    - intros t _. apply (continuous_ext (fun t => rho * hf * (u1 * u2 + v1 * v2 + w1 * w2 + (u1 * p2 + p1 * u2 + v1 * q2 + q1 * v2) * t + (p1 * p2 + q1 * q2) * t ^ 2))).
      + intro x. cbn. fold u1 u2 v1 v2 w1 w2 p1 p2 q1 q2. match goal with |- ?a = ?b => change (@eq R a b) end. ring.
      + apply (@ex_derive_continuous R_AbsRing R_NormedModule). auto_derive. exact I. }
  unfold minus, plus, opp, G; cbn. match goal with |- ?a = ?b => change (@eq R a b) end. field.
Qed.

(* ------------------------------------------------- springs between skin and flange *)
Section Springs.
Variables (T : tables) (Bs : basis) (s q : shell) (oA oB N : nat) (kt kr ys : R) (c : nat -> R).
Hypothesis HT : tables_integrate T Bs (Nat.max (Nat.max (sh_m s) (sh_n s)) (Nat.max (sh_m q) (sh_n q))).
Hypothesis HoA : (oA + 3 * (sh_m s * sh_n s) <= oB)%nat.
Hypothesis HoB : (oB + 3 * (sh_m q * sh_n q) <= N)%nat.
Hypothesis Ha : 0 < sh_a s.
Hypothesis Hb : 0 < sh_b s.
Hypothesis Hq : 0 < sh_b q.
Hypothesis Hqa : sh_a q = sh_a s.
Notation K := (finalize_symmetric (dense (skin_flange T Bs kt kr s q ys oA oB))).
Lemma springs_nonneg : 0 <= kt -> 0 <= kr -> 0 <= quad N K c.
Proof.
  intros H1 H2. unfold quad. assert (HW : work_along_x (jumps_BFycte kt kr) s q ys 0 (ritz_field Bs s (own oA c)) (ritz_field Bs q (own oB c)) (ritz_field Bs s (own oA c)) (ritz_field Bs q (own oB c)) (bilinear N K c c)).
  { apply skin_flange_work; auto; lra. }
  unfold work_along_x in HW. apply (rint_nonneg _ _ _ Ha HW). intro x. apply jump_work_nonneg. repeat (constructor; cbn; auto).
Qed.
Lemma springs_zero d : (forall x, 0 <= x <= sh_a s -> let U := ritz_field Bs s (own oA c) in let F := ritz_field Bs q (own oB c) in
    F 0%nat x 0 = U 0%nat x ys /\ F 2%nat x 0 = U 1%nat x ys /\ F 1%nat x 0 = - U 2%nat x ys /\ F 4%nat x 0 = U 4%nat x ys) -> bilinear N K c d = 0.
Proof.
  intro HJ. assert (HW : work_along_x (jumps_BFycte kt kr) s q ys 0 (ritz_field Bs s (own oA c)) (ritz_field Bs q (own oB c)) (ritz_field Bs s (own oA d)) (ritz_field Bs q (own oB d)) (bilinear N K c d)).
  { apply skin_flange_work; auto; lra. }
  unfold work_along_x in HW. apply (rint_zero _ _ _ Ha HW). intros x Hx. apply jump_work_zero. destruct (HJ x Hx) as (J0 & J1 & J2 & J4). cbv zeta in *.
  replace (x * (sh_a q / sh_a s)) with x by (rewrite Hqa; field; lra).
  unfold jumps_BFycte. constructor; [cbv beta iota delta [snd]; rewrite J0; ring|]. constructor; [cbv beta iota delta [snd]; rewrite J1; ring|]. constructor; [cbv beta iota delta [snd]; rewrite J2; ring|]. constructor; [cbv beta iota delta [snd]; rewrite J4; ring|]. constructor.
Qed.
End Springs.

(* ------------------------------------------------- the stiffness of a 1D flange *)
Section Flange1.
Variables (T : tables) (Bs : basis) (s : shell) (ys : R) (o N : nat).
Hypothesis HT : tables_integrate T Bs (Nat.max (sh_m s) (sh_n s)).
Hypothesis Ho : (o + 3 * (sh_m s * sh_n s) <= N)%nat.
Hypothesis Ha : 0 < sh_a s.
Hypothesis Hb : sh_b s <> 0.
Lemma flange_nonneg bfl df E1 F1 S1 J : 0 <= bfl -> 0 <= E1 -> 0 <= F1 -> 0 <= J -> S1 ^ 2 <= E1 * J ->
  psd N (finalize_symmetric (dense (fkCf T Bs s ys bfl df E1 F1 S1 J o o))).
Proof.
  intros H0 H1 H2 H3 H4 c. unfold quad.
  assert (HW : line_work s ys (flange_work Bs s bfl df E1 F1 S1 J (own o c) (own o c)) (bilinear N (finalize_symmetric (dense (fkCf T Bs s ys bfl df E1 F1 S1 J o o))) c c)).
  { apply fkCf_work; auto; lra. }
  unfold line_work in HW. apply (rint_nonneg _ _ _ Ha HW). intro x. unfold flange_work. cbv zeta.
  set (e := fibre_strain _ _ _ _ _ _). set (k := d_wxx _ _ _ _ _). set (t := d_wxy _ _ _ _ _). apply Rmult_le_pos; [exact H0|].
  assert (HQ : 0 <= E1 * (e * e) - S1 * (e * t + t * e) + J * (t * t)).
  { destruct (Req_dec E1 0) as [Z|Z].
    - assert (S1 = 0) by (rewrite Z in H4; nra). subst S1 E1. assert (0 <= J * (t * t)) by (apply Rmult_le_pos; [lra|nra]). lra.
    - assert (0 < E1) by lra. apply (Rmult_le_reg_l E1); [lra|]. replace (E1 * 0) with 0 by ring.
      replace (E1 * (E1 * (e * e) - S1 * (e * t + t * e) + J * (t * t))) with ((E1 * e - S1 * t) ^ 2 + (E1 * J - S1 ^ 2) * (t * t)) by ring.
      pose proof (pow2_ge_0 (E1 * e - S1 * t)). assert (0 <= (E1 * J - S1 ^ 2) * (t * t)) by (apply Rmult_le_pos; [lra|nra]). lra. }
  assert (0 <= F1 * (k * k)) by (apply Rmult_le_pos; [lra|nra]). lra.
Qed.
End Flange1.

(* ------------------------------------------------- one term of the exact functions *)
Definition blade_shell (a b : R) : shell := mkShell a b 0 1 1 (-1) 1 (-1) 1 0 0 free free free free free free.
Lemma shape_F0 t : bf exact_basis 0 t free = F0 t.
Proof. cbn [exact_basis bf]. unfold F0, bardell, flag, free. cbn [e1t]. field. Qed.
Lemma shape_F1 t : bfp exact_basis 0 t free = - (3 / 4) * (1 - t ^ 2).
Proof. cbn [exact_basis bfp]. rewrite Derive_bardell by lia. unfold qeval, flag, free. cbn -[IZR]. field. Qed.
Lemma shape_F2 t : bfpp exact_basis 0 t free = 3 / 2 * t.
Proof. cbn [exact_basis bfpp]. rewrite Derive2_bardell by lia. unfold qeval, flag, free. cbn -[IZR]. field. Qed.
Ltac table l := cbn [exact_tables t_ff t_ffp t_fpfp t_fpfpp t_fppfpp]; apply (@is_RInt_unique R_CompleteNormedModule); evar_last;
  [eapply is_RInt_ext; [|exact (poly_RInt_from (combine (seq 0 7) l))]; intros t _; rewrite ?shape_F0, ?shape_F1, ?shape_F2; cbn -[pow Rmult Rplus Rdiv]; unfold F0; match goal with |- ?a = ?b => change (@eq R a b) end; field|].
Lemma tab_ff : t_ff exact_tables 0 0 free free = 26 / 35.
Proof. table [1/4; -(3/4); 9/16; 1/4; -(3/8); 0; 1/16]. cbn. field. Qed.
Lemma tab_fpfp : t_fpfp exact_tables 0 0 free free = 3 / 5.
Proof. table [9/16; 0; -(9/8); 0; 9/16; 0; 0]. cbn. field. Qed.
Lemma tab_fpfpp : t_fpfpp exact_tables 0 0 free free = 0.
Proof. table [0; -(9/8); 0; 9/8; 0; 0; 0]. cbn. field. Qed.
Lemma tab_fppfpp : t_fppfpp exact_tables 0 0 free free = 3 / 2.
Proof. table [0; 0; 9/4; 0; 0; 0; 0]. cbn. field. Qed.
Definition blade_c (u v w : R) : nat -> R := fun k => match k with 0%nat => u | 1%nat => v | _ => w end.
Lemma quad3 K c : quad 3 K c = sumn 3 (fun i => sumn 3 (fun j => K i j * c i * c j)).
Proof. unfold quad, bilinear. cbn [sumn]. ring. Qed.
Lemma blade_mass_negative :
  quad 3 (finalize_symmetric (dense (fkMf exact_tables exact_basis (blade_shell 2 2) 1 1300 1 0 1 2 (3 / 2) 0 0))) (blade_c 0 (9 / 2) 1) < 0.
Proof.
  rewrite quad3. cbv delta [fkMf] beta. cbn -[Rmult Rplus Rdiv Rminus Rinv Ropp IZR t_ff t_ffp t_fpfp bf bfp].
  rewrite ?tab_ff, ?tab_fpfp, ?shape_F0, ?shape_F1. unfold F0. lra.
Qed.
Lemma blade_stiffness_negative :
  quad 3 (finalize_symmetric (dense (fkCf exact_tables exact_basis (blade_shell 100 1) (1 / 2) (1 / 2) 1 8 (1 / 48 * 8) (- (4)) (5 / 96) 0 0))) (blade_c (3 / 2) 0 1) < 0.
Proof.
  rewrite quad3. cbv delta [fkCf] beta. cbn -[Rmult Rplus Rdiv Rminus Rinv Ropp IZR t_fpfp t_fpfpp t_fppfpp bf bfp].
  rewrite ?tab_ff, ?tab_fpfp, ?tab_fpfpp, ?tab_fppfpp, ?shape_F0, ?shape_F1. unfold F0. lra.
Qed.

(* ------------------------------------------------- blades *)
Lemma ply_E1 p : ply_sound p -> 0 < ply_h p * (ply_q11 p - ply_q12 p ^ 2 / ply_q22 p).
Proof.
  intros (Hh & q26 & q66 & HQ). apply Rmult_lt_0_compat; [exact Hh|].
  assert (H2 : 0 < ply_q22 p). { specialize (HQ 0 1 0 (or_intror (or_introl R1_neq_R0))). lra. }
  assert (H1 := HQ 1 (- ply_q12 p / ply_q22 p) 0 (or_introl R1_neq_R0)).
  replace (ply_q11 p - ply_q12 p ^ 2 / ply_q22 p) with (ply_q11 p * 1 ^ 2 + ply_q22 p * (- ply_q12 p / ply_q22 p) ^ 2 + q66 * 0 ^ 2 + 2 * ply_q12 p * 1 * (- ply_q12 p / ply_q22 p) + 2 * ply_q16 p * 1 * 0 + 2 * q26 * (- ply_q12 p / ply_q22 p) * 0) by (field; lra).
  exact H1.
Qed.
Lemma blade_E1 l : List.Forall ply_sound l -> 0 <= flange_E1 l.
Proof. intro H. unfold flange_E1. induction H as [|p l Hp _ IH]; unfold suml in *; cbn [map fold_right]; [lra|]. pose proof (ply_E1 p Hp). lra. Qed.
Lemma blade_hf l : List.Forall ply_sound l -> 0 <= blade_height l.
Proof. intro H. unfold blade_height. induction H as [|p l Hp _ IH]; unfold suml in *; cbn [map fold_right]; [lra|]. destruct Hp. lra. Qed.
Lemma blade_S1 l y : List.Forall (fun p => ply_q16 p = 0) l -> flange_S1_from y l = 0.
Proof. intro H. revert y. induction H as [|p l Hp _ IH]; intro y; cbn; [reflexivity|]. rewrite IH, Hp. unfold Rdiv. ring. Qed.
Lemma blade_J bf l : 0 <= bf -> 0 <= blade_height l -> 0 <= blade_torsion bf l.
Proof. intros H1 H2. unfold blade_torsion. assert (0 <= blade_height l * bf ^ 3) by (apply Rmult_le_pos; [assumption|apply pow_le; assumption]). assert (0 <= bf * blade_height l ^ 3) by (apply Rmult_le_pos; [assumption|apply pow_le; assumption]). lra. Qed.
Theorem blade_psd T Bs s ys bf hb h l N : tables_integrate T Bs (Nat.max (sh_m s) (sh_n s)) -> (3 * (sh_m s * sh_n s) <= N)%nat -> 0 < sh_a s -> sh_b s <> 0 -> 0 <= bf ->
  List.Forall ply_sound l -> flange_S1 l ^ 2 <= flange_E1 l * blade_torsion bf l -> psd N (blade_stiffness T Bs s ys bf hb h l).
Proof.
  intros HT HN Ha Hb Hbf Hl HS. apply flange_nonneg; auto.
  - apply blade_E1; exact Hl.
  - apply Rmult_le_pos; [|apply blade_E1; exact Hl]. assert (0 <= bf ^ 2) by (apply pow_le; exact Hbf). lra.
  - apply blade_J; [exact Hbf|apply blade_hf; exact Hl].
Qed.
Lemma stiffer_E1 k l : k <> 0 -> List.Forall (fun p => ply_q22 p <> 0) l -> flange_E1 (map (stiffer k) l) = k * flange_E1 l.
Proof.
  intros Hk H. unfold flange_E1. induction H as [|p l Hp _ IH]; unfold suml in *; cbn [map fold_right]; [ring|]. rewrite IH. cbn. field. auto.
Qed.
Lemma stiffer_S1 k l y : k <> 0 -> List.Forall (fun p => ply_q22 p <> 0) l -> flange_S1_from y (map (stiffer k) l) = k * flange_S1_from y l.
Proof. intros Hk H. revert y. induction H as [|p l Hp _ IH]; intro y; cbn [map flange_S1_from stiffer ply_h]; [ring|]. rewrite IH. cbn. field. auto. Qed.
Lemma stiffer_h k l : blade_height (map (stiffer k) l) = blade_height l.
Proof. unfold blade_height. induction l as [|p l IH]; unfold suml in *; cbn [map fold_right]; [reflexivity|]. rewrite IH. reflexivity. Qed.
(* all but the torsion is proportional to the stiffness of the material *)
Theorem blade_scales T Bs s ys bf hb h l N k c d : tables_integrate T Bs (Nat.max (sh_m s) (sh_n s)) -> (3 * (sh_m s * sh_n s) <= N)%nat -> sh_a s <> 0 -> sh_b s <> 0 ->
  k <> 0 -> List.Forall (fun p => ply_q22 p <> 0) l -> exists W,
  line_work s ys (fun xi eta => bf * blade_torsion bf l * (d_wxy Bs s c xi eta * d_wxy Bs s d xi eta)) W /\
  bilinear N (blade_stiffness T Bs s ys bf hb h (map (stiffer k) l)) c d = k * bilinear N (blade_stiffness T Bs s ys bf hb h l) c d - (k - 1) * W.
Proof.
  intros HT HN Ha Hb Hk Hl. unfold blade_stiffness. rewrite stiffer_E1 by assumption. unfold flange_S1. rewrite stiffer_S1 by assumption.
  replace (blade_torsion bf (map (stiffer k) l)) with (blade_torsion bf l) by (unfold blade_torsion; rewrite stiffer_h; reflexivity).
  set (J := blade_torsion bf l). set (df := blade_axis bf hb h). set (E1 := flange_E1 l). set (S1 := flange_S1_from 0 l).
  pose proof (fkCf_work T Bs s 0 N ys c d HT HN Ha Hb bf df (k * E1) (bf ^ 2 / 12 * (k * E1)) (k * S1) J) as H1.
  pose proof (fkCf_work T Bs s 0 N ys c d HT HN Ha Hb bf df E1 (bf ^ 2 / 12 * E1) S1 J) as H2.
  pose proof (fkCf_work T Bs s 0 N ys c d HT HN Ha Hb bf df 0 0 0 J) as H3.
  match type of H3 with line_work _ _ _ ?w => exists w; set (W := w) in * end. split.
  - unfold line_work in *. eapply is_RInt_ext; [|exact H3]. intros x _. change (own 0 c) with c. change (own 0 d) with d. unfold flange_work. match goal with |- ?a = ?b => change (@eq R a b) end. ring.
  - unfold line_work in *. match type of H2 with is_RInt _ _ _ ?w => set (W2 := w) in * end. match type of H1 with is_RInt _ _ _ ?w => set (W1 := w) in * end.
    pose proof (is_RInt_minus _ _ _ _ _ _ (is_RInt_scal _ _ _ k _ H2) (is_RInt_scal _ _ _ (k - 1) _ H3)) as H4.
    assert (H5 : is_RInt (fun x => minus (scal k (flange_work Bs s bf df E1 (bf ^ 2 / 12 * E1) S1 J (own 0 c) (own 0 d) (natural x (sh_a s)) (natural ys (sh_b s)))) (scal (k - 1) (flange_work Bs s bf df 0 0 0 J (own 0 c) (own 0 d) (natural x (sh_a s)) (natural ys (sh_b s))))) 0 (sh_a s) W1).
    { eapply is_RInt_ext; [|exact H1]. intros x _. unfold minus, plus, opp, scal, flange_work; cbn; unfold mult; cbn. match goal with |- ?a = ?b => change (@eq R a b) end. ring. }
    apply (@is_RInt_unique R_CompleteNormedModule) in H4. apply (@is_RInt_unique R_CompleteNormedModule) in H5. assert (W1 = minus (scal k W2) (scal (k - 1) W)) by (rewrite <- H5; exact H4).
    rewrite H. unfold minus, plus, opp, scal; cbn; unfold mult; cbn. ring.
Qed.
Definition blade_ply : ply := mkPly 1 8 0 1 8.
Lemma blade_ply_sound : ply_sound blade_ply.
Proof.
  split; [cbn; lra|]. exists 0, 16. intros e1 e2 g H. cbn.
  replace (8 * (e1 * (e1 * 1)) + 1 * (e2 * (e2 * 1)) + 16 * (g * (g * 1)) + 2 * 0 * e1 * e2 + 2 * 8 * e1 * g + 2 * 0 * e2 * g) with (8 * (e1 + g) ^ 2 + 8 * g ^ 2 + e2 ^ 2) by ring.
  pose proof (pow2_ge_0 (e1 + g)). pose proof (pow2_ge_0 g). pose proof (pow2_ge_0 e2).
  destruct (Req_dec g 0) as [->|Hg].
  - destruct (Req_dec e2 0) as [->|He]; [|assert (0 < e2 ^ 2) by (apply pow2_gt_0; exact He); lra].
    destruct H as [H|[H|H]]; try congruence. assert (0 < e1 ^ 2) by (apply pow2_gt_0; exact H). rewrite Rplus_0_r. lra.
  - assert (0 < g ^ 2) by (apply pow2_gt_0; exact Hg). lra.
Qed.
Lemma blade_negative : quad 3 (blade_stiffness exact_tables exact_basis (blade_shell 100 1) (1 / 2) (1 / 2) 0 (3 / 2) [blade_ply]) (blade_c (3 / 2) 0 1) < 0.
Proof.
  unfold blade_stiffness. replace (blade_axis (1 / 2) 0 (3 / 2)) with 1 by (unfold blade_axis; field).
  replace (flange_E1 [blade_ply]) with 8 by (unfold flange_E1, suml; cbn; field). replace (flange_S1 [blade_ply]) with (- (4)) by (unfold flange_S1; cbn; field).
  replace (blade_torsion (1 / 2) [blade_ply]) with (5 / 96) by (unfold blade_torsion, blade_height, suml; cbn; field).
  replace ((1 / 2) ^ 2 / 12 * 8) with (1 / 48 * 8) by field. exact blade_stiffness_negative.
Qed.
Lemma blade_torsion_same k : quad 3 (blade_stiffness exact_tables exact_basis (blade_shell 2 2) 1 1 0 1 [stiffer k (mkPly 1 1 0 1 0)]) (blade_c 0 0 1) = k * (3 / 8 * (13 / 12)) + 1 / 6 * (9 / 16) * (3 / 5).
Proof.
  unfold blade_stiffness, blade_axis.
  replace (flange_E1 [stiffer k (mkPly 1 1 0 1 0)]) with (k - 0) by (unfold flange_E1, suml; cbn; unfold Rdiv; ring). replace (flange_S1 [stiffer k (mkPly 1 1 0 1 0)]) with 0 by (unfold flange_S1; cbn; unfold Rdiv; ring).
  replace (blade_torsion 1 [stiffer k (mkPly 1 1 0 1 0)]) with (1 / 6) by (unfold blade_torsion, blade_height, suml; cbn; field).
  rewrite quad3. cbv delta [fkCf] beta. cbn -[Rmult Rplus Rdiv Rminus Rinv Ropp IZR t_fpfp t_fpfpp t_fppfpp bf bfp].
  rewrite ?tab_ff, ?tab_fpfp, ?tab_fpfpp, ?tab_fppfpp, ?shape_F0, ?shape_F1. unfold F0. field.
Qed.
Theorem blade_mass_integrand T Bs s ys rho bf hb h hf N c d : tables_integrate T Bs (Nat.max (sh_m s) (sh_n s)) -> (3 * (sh_m s * sh_n s) <= N)%nat -> sh_a s <> 0 -> sh_b s <> 0 ->
  line_work s ys (fun xi eta =>
    let u c := d_u Bs s c xi eta in let v c := d_v Bs s c xi eta in let w c := d_w Bs s c xi eta in
    let wx c := d_wx Bs s c xi eta in let wy c := d_wy Bs s c xi eta in
    let z := h / 2 + hb in
    flange_kinetic Bs s rho hf z (z + bf) c d xi eta
    + rho * hf * bf * (z + bf / 2) * (u c * wx d + wx c * u d + v c * wy d + wy c * v d)
    + (6 * sixth - 1) * rho * hf * bf * (w c * w d + (z ^ 2 + z * bf + bf ^ 2 / 3) * (wx c * wx d + wy c * wy d)))
    (bilinear N (blade_mass T Bs s ys rho bf hb h hf) c d).
Proof.
  intros HT HN Ha Hb. pose proof (fkMf_work T Bs s 0 N ys c d HT HN Ha Hb rho h hb hf bf (blade_axis bf hb h)) as H1. unfold line_work in *. eapply is_RInt_ext; [|exact H1].
  intros x _. cbv zeta. rewrite flange_kinetic_value. change (own 0 c) with c. change (own 0 d) with d. unfold blade_axis, k6, sixth. match goal with |- ?a = ?b => change (@eq R a b) end. field.
Qed.
Lemma blade_negative_mass : quad 3 (blade_mass exact_tables exact_basis (blade_shell 2 2) 1 1300 2 0 1 1) (blade_c 0 (9 / 2) 1) < 0.
Proof. unfold blade_mass. replace (blade_axis 2 0 1) with (3 / 2) by (unfold blade_axis; field). exact blade_mass_negative. Qed.
