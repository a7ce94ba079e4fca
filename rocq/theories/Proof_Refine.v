(* A model with more freedom reproduces every state of one with less. *)
From Coq Require Import Reals List Arith Bool ZArith Lia Lra.
From Coquelicot Require Import Coquelicot.
From Verif Require Import Base_Sum Model_Types Model_Coo Model_Result Model_Num Model_DB Model_Shell
  Spec_Algebra Spec_Kinematics Spec_Panel Spec_Shell Spec_Bardell Spec_Integral Spec_Refine
  Proof_Num Proof_Ana Proof_Shell Proof_Api Proof_AnaApi Proof_Rigid.
From Coq Require Import List.
Import ListNotations.
Open Scope R_scope.

(* ------------------------------------------------- the vector *)
Definition keep (e e' : edge) (i : nat) : R := if Req_EM_T (flag e i) (flag e' i) then 1 else 0.
Lemma keep_flag e e' i : more_held e e' -> keep e e' i * flag e' i = flag e i.
Proof.
  intro H. unfold keep. destruct (Req_EM_T (flag e i) (flag e' i)) as [E|E]; [rewrite E; ring|].
  destruct (Nat.lt_ge_cases i 4) as [Hi|Hi].
  - destruct (H i Hi) as [C|C]; [contradiction|rewrite C; ring].
  - exfalso. apply E. do 4 (destruct i as [|i]; [lia|]). reflexivity.
Qed.
Lemma keep_shape e e' p i x : more_held e e' -> keep e e' i * shape exact_basis p i x e' = shape exact_basis p i x e.
Proof. intro H. destruct p as [|[|p]]; cbn [shape exact_basis bf bfp bfpp]; rewrite <- (keep_flag e e' i H); ring. Qed.
Section Embed.
Variables (s s' : shell) (c : nat -> R).
Hypothesis HF : freer s s'.
Notation m := (sh_m s). Notation n := (sh_n s). Notation m' := (sh_m s'). Notation n' := (sh_n s').
Definition embed (k : nat) : R :=
  let d := (k mod 3)%nat in let i := ((k / 3) mod m')%nat in let j := ((k / 3) / m')%nat in
  if ((i <? m) && (j <? n))%nat%bool then keep (xedge s d) (xedge s' d) i * keep (yedge s d) (yedge s' d) j * c (3 * (j * m + i) + d)%nat else 0.
Lemma embed_at i j d : (i < m')%nat -> (d < 3)%nat -> embed (3 * (j * m' + i) + d) =
  if ((i <? m) && (j <? n))%nat%bool then keep (xedge s d) (xedge s' d) i * keep (yedge s d) (yedge s' d) j * c (3 * (j * m + i) + d)%nat else 0.
Proof using All.
  intros Hi Hd. unfold embed. cbv zeta.
  replace ((3 * (j * m' + i) + d) mod 3)%nat with d by (apply (Nat.mod_unique _ _ (j * m' + i)); lia).
  replace ((3 * (j * m' + i) + d) / 3)%nat with (j * m' + i)%nat by (apply (Nat.div_unique _ _ _ d); lia).
  replace ((j * m' + i) mod m')%nat with i by (apply (Nat.mod_unique _ _ j); lia).
  replace ((j * m' + i) / m')%nat with j by (apply (Nat.div_unique _ _ _ i); lia). reflexivity.
Qed.
Lemma embed_fld d p q x y : (d < 3)%nat -> fld exact_basis s' embed d p q x y = fld exact_basis s c d p q x y.
Proof using All.
  intro Hd. destruct HF as (_ & _ & _ & Hm & Hn & HE). destruct (HE d Hd) as [HX HY]. unfold fld, ritz.
  rewrite (sumn_shrink n n'); [|exact Hn|].
  2:{ intros j Hj Hj'. apply sumn_0; intros i Hi. rewrite embed_at by assumption. replace (j <? n)%nat with false by (symmetry; apply Nat.ltb_ge; lia). rewrite andb_false_r. ring. }
  apply sumn_ext; intros j Hj.
  rewrite (sumn_shrink m m'); [|exact Hm|].
  2:{ intros i Hi Hi'. rewrite embed_at by assumption. replace (i <? m)%nat with false by (symmetry; apply Nat.ltb_ge; lia). cbn [andb]. ring. }
  apply sumn_ext; intros i Hi. rewrite embed_at by (assumption || lia).
  replace (i <? m)%nat with true by (symmetry; apply Nat.ltb_lt; exact Hi). replace (j <? n)%nat with true by (symmetry; apply Nat.ltb_lt; exact Hj). cbn [andb].
  rewrite <- (keep_shape _ _ p i x HX), <- (keep_shape _ _ q j y HY). ring.
Qed.
End Embed.

(* ------------------------------------------------- energies *)
Lemma integral_unique s s' g g' I I' : sh_a s' = sh_a s -> sh_b s' = sh_b s -> (forall x y, g' x y = g x y) ->
  panel_integral s g I -> panel_integral s' g' I' -> I' = I.
Proof.
  intros Ha Hb Hg [_ H2] [_ H2']. rewrite <- (is_RInt_unique _ _ _ _ H2), <- (is_RInt_unique _ _ _ _ H2'). apply RInt_ext. intros x _. apply RInt_ext. intros y _. rewrite Ha, Hb, Hg. reflexivity.
Qed.
Lemma integral_le s s' g g' I I' : sh_a s' = sh_a s -> sh_b s' = sh_b s -> 0 <= sh_a s * sh_b s -> (forall x y, g x y <= g' x y) ->
  panel_integral s g I -> panel_integral s' g' I' -> I <= I'.
Proof.
  intros Ha Hb Hab Hg [H1 H2] [H1' H2']. rewrite <- (is_RInt_unique _ _ _ _ H2), <- (is_RInt_unique _ _ _ _ H2').
  apply RInt_le; [lra|exists I; exact H2|exists I'; exact H2'|]. intros x _. apply RInt_le; [lra|apply H1|apply H1'|]. intros y _. rewrite Ha, Hb.
  apply Rmult_le_compat_l; [nra|apply Hg].
Qed.
Section Api.
Variables (E : env) (p : panel) (o N : nat) (K G M : nat -> nat -> R).
Hypothesis H : matrices E p o N K G M.
Notation s := (kernel_view p).
Notation eps := (fun v => lin_strain (curvature (chosen_model p) s) exact_basis s (own o v)).
Lemma m_kC c d : panel_integral s (fun xi eta => form 6 (lam_matrix (pn_ortho p) (rebuilt_lam E p)) (eps c xi eta) (eps d xi eta)) (bilinear N K c d).
Proof using H.
  destruct H as ((A & p' & (A1 & A2 & A3 & A4 & A5 & A6 & A7) & HK) & _ & _ & HN & Hz & Hg & HABD & HT).
  assert (EQ : ka_row0 A = ka_col0 A) by congruence. rewrite <- A7 in HN |- *.
  exact (kC_energy E A p p' K N HK A1 A2 A3 A4 A5 EQ Hz Hg HN HABD HT c d).
Qed.
Lemma m_kG c d : let '(Nxx, Nyy, Nxy) := pn_N p in
  panel_integral s (fun xi eta => membrane_work exact_basis s Nxx Nyy Nxy (own o c) (own o d) xi eta) (bilinear N G c d).
Proof using H.
  destruct H as (_ & (A & p' & (A1 & A2 & A3 & A4 & A5 & A6 & A7) & HK) & _ & HN & Hz & Hg & HABD & HT).
  pose proof (calc_kG_analytic _ _ _ _ _ HK A1 A3) as HA.
  destruct (pn_N p) as [[Nxx Nyy] Nxy] eqn:EN. destruct HA as (kG & HG & _ & HkG).
  rewrite A5 in HG. cbn [finalized] in HG. subst G kG. rewrite A6, A7. apply fkG0_energy; assumption.
Qed.
Lemma m_kM c d : panel_integral s (fun xi eta =>
    kinetic exact_basis s twelfth (fold_left Rplus (pn_plyts p) 0) (pn_rho p) (pn_offset p) (own o c) (own o d) xi eta) (bilinear N M c d).
Proof using H.
  destruct H as (_ & _ & (sz & nxo & nyo & p' & HM) & HN & Hz & Hg & HABD & HT).
  apply calc_kM_analytic in HM. subst M. cbn [finalized]. apply fkM_energy; assumption.
Qed.
End Api.

Definition place (o : nat) (v : nat -> R) : nat -> R := fun k => if (k <? o)%nat then 0 else v (k - o)%nat.
Lemma own_place o v k : own o (place o v) k = v k.
Proof. unfold own, place. destruct (Nat.ltb_spec (o + k) o); [lia|]. f_equal. lia. Qed.
Lemma fields_ext B t c d : (forall k, c k = d k) -> forall n p q x y, fld B t c n p q x y = fld B t d n p q x y.
Proof. intros H n p0 q x y. unfold fld, ritz. apply sumn_ext; intros. apply sumn_ext; intros. rewrite H. reflexivity. Qed.
Section Compare.
Variables (E : env) (p q : panel) (o o' N N' : nat) (K G M K' G' M' : nat -> nat -> R).
Hypothesis H : matrices E p o N K G M.
Hypothesis H' : matrices E q o' N' K' G' M'.
Hypothesis HM : same_material p q.
Notation s := (kernel_view p). Notation s' := (kernel_view q).
Lemma curv_eq : sh_r s' = sh_r s -> curvature (chosen_model q) s' = curvature (chosen_model p) s.
Proof using HM. intro Hr. destruct HM as (-> & _). unfold curvature. rewrite Hr. reflexivity. Qed.
Lemma freer_same (HF : freer s s') (HL : same_laminate E p q) c : exists c', same_field s s' (own o c) (own o' c') /\ quad N' K' c' = quad N K c /\ quad N' G' c' = quad N G c /\ quad N' M' c' = quad N M c.
Proof using All.
  exists (place o' (embed s s' (own o c))).
  assert (HE : forall d p0 q0 x y, (d < 3)%nat -> fld exact_basis s' (own o' (place o' (embed s s' (own o c)))) d p0 q0 x y = fld exact_basis s (own o c) d p0 q0 x y).
  { intros d p0 q0 x y Hd. rewrite (fields_ext exact_basis s' _ _ (own_place o' _)). apply embed_fld; assumption. }
  set (c' := place o' (embed s s' (own o c))) in *.
  destruct HF as (Ea & Eb & Er & _). pose proof (curv_eq Er) as Ec. destruct HM as (M1 & M2 & M3 & M4 & M5).
  split; [intros xi eta; unfold d_u, d_v, d_w; rewrite !HE by lia; repeat split|]. split; [|split].
  - refine (integral_unique s s' _ _ _ _ Ea Eb _ (m_kC E p o N K G M H c c) (m_kC E q o' N' K' G' M' H' c' c')). intros x y. cbv beta. rewrite Ec.
    unfold form. apply sumn_ext; intros i Hi. apply sumn_ext; intros j Hj. rewrite (HL i j Hi Hj).
    assert (HS : forall k, lin_strain (curvature (chosen_model p) s) exact_basis s' (own o' c') x y k = lin_strain (curvature (chosen_model p) s) exact_basis s (own o c) x y k).
    { intro k. unfold lin_strain, d_ux, d_uy, d_vx, d_vy, d_w, d_wxx, d_wyy, d_wxy. destruct k as [|[|[|[|[|[|k]]]]]]; rewrite ?HE, ?Ea, ?Eb by lia; reflexivity. }
    rewrite !HS. reflexivity.
  - pose proof (m_kG E p o N K G M H c c) as A. pose proof (m_kG E q o' N' K' G' M' H' c' c') as B. rewrite M2 in B. destruct (pn_N p) as [[Nxx Nyy] Nxy].
    refine (integral_unique s s' _ _ _ _ Ea Eb _ A B). intros x y. unfold membrane_work, d_wx, d_wy. rewrite ?HE, ?Ea, ?Eb by lia. reflexivity.
  - refine (integral_unique s s' _ _ _ _ Ea Eb _ (m_kM E p o N K G M H c c) (m_kM E q o' N' K' G' M' H' c' c')). intros x y. rewrite M3, M4, M5.
    unfold kinetic, d_u, d_v, d_w, d_wx, d_wy. rewrite ?HE, ?Ea, ?Eb by lia. reflexivity.
Qed.
Lemma stiffer_same (HV : kernel_view q = kernel_view p) (HL : stiffer_laminate E p q) (Hab : 0 <= sh_a (pn_sh p) * sh_b (pn_sh p)) c c' : (forall k, own o' c' k = own o c k) ->
  quad N K c <= quad N' K' c' /\ quad N' G' c' = quad N G c /\ quad N' M' c' = quad N M c.
Proof using All.
  intros Hc. assert (HE : forall d p0 q0 x y, fld exact_basis s' (own o' c') d p0 q0 x y = fld exact_basis s (own o c) d p0 q0 x y).
  { intros. rewrite HV. apply fields_ext. exact Hc. }
  assert (Ea : sh_a s' = sh_a s) by (rewrite HV; reflexivity). assert (Eb : sh_b s' = sh_b s) by (rewrite HV; reflexivity).
  pose proof (curv_eq ltac:(rewrite HV; reflexivity)) as Ec. destruct HM as (M1 & M2 & M3 & M4 & M5). split; [|split].
  - refine (integral_le s s' _ _ _ _ Ea Eb Hab _ (m_kC E p o N K G M H c c) (m_kC E q o' N' K' G' M' H' c' c')). intros x y. cbv beta. rewrite Ec.
    assert (HS : forall k, lin_strain (curvature (chosen_model p) s) exact_basis s' (own o' c') x y k = lin_strain (curvature (chosen_model p) s) exact_basis s (own o c) x y k).
    { intro k. unfold lin_strain, d_ux, d_uy, d_vx, d_vy, d_w, d_wxx, d_wyy, d_wxy. destruct k as [|[|[|[|[|[|k]]]]]]; rewrite ?HE, ?Ea, ?Eb; reflexivity. }
    pose proof (HL (lin_strain (curvature (chosen_model p) s) exact_basis s (own o c) x y)) as HP.
    unfold form in *. set (e := lin_strain (curvature (chosen_model p) s) exact_basis s (own o c) x y) in *.
    apply Rminus_le. apply Ropp_le_cancel. rewrite Ropp_0. eapply Rle_trans; [exact HP|]. right. rewrite Ropp_minus_distr. rewrite <- sumn_minus.
    apply sumn_ext; intros i Hi. rewrite <- sumn_minus. apply sumn_ext; intros j Hj. rewrite !HS. fold e. ring.
  - pose proof (m_kG E p o N K G M H c c) as A. pose proof (m_kG E q o' N' K' G' M' H' c' c') as B. rewrite M2 in B. destruct (pn_N p) as [[Nxx Nyy] Nxy].
    refine (integral_unique s s' _ _ _ _ Ea Eb _ A B). intros x y. unfold membrane_work, d_wx, d_wy. rewrite ?HE, ?Ea, ?Eb. reflexivity.
  - refine (integral_unique s s' _ _ _ _ Ea Eb _ (m_kM E p o N K G M H c c) (m_kM E q o' N' K' G' M' H' c' c')). intros x y. rewrite M3, M4, M5.
    unfold kinetic, d_u, d_v, d_w, d_wx, d_wy. rewrite ?HE, ?Ea, ?Eb. reflexivity.
Qed.
End Compare.
