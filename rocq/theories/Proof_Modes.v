(* Modes of symmetric matrices, and the matrices of panels and assemblies. *)
From Coq Require Import Reals List Arith Bool Lia Lra.
From Verif Require Import Base_Sum Model_Types Model_Coo Model_Result Model_Num Model_DB Model_Shell Model_Fext Model_Multi
  Spec_Algebra Spec_Integral Spec_Panel Spec_Shell Spec_Conn Spec_Multi Spec_MultiConn Spec_Modes
  Proof_Ana Proof_Shell Proof_Api Proof_Total Proof_Multi Proof_MultiConn Proof_MultiTop Proof_MultiApi Prop_Stiffness Prop_Analytic.
From Coq Require Import List.
Import ListNotations.
Open Scope R_scope.

Lemma bilinear_row N K x z : bilinear N K x z = sumn N (fun i => x i * row N K z i).
Proof. apply sumn_ext. intros i Hi. unfold row. rewrite <- sumn_scal. apply sumn_ext. intros j Hj. ring. Qed.
Lemma bilinear_swap N K x z : symmetric K -> bilinear N K x z = bilinear N K z x.
Proof. intro HS. unfold bilinear. rewrite sumn_swap. apply sumn_ext. intros i Hi. apply sumn_ext. intros j Hj. rewrite (HS j i). ring. Qed.
Lemma pair_forms N K M lr li x y z : eigenpair N K M lr li x y ->
  bilinear N K z x = lr * bilinear N M z x - li * bilinear N M z y /\ bilinear N K z y = lr * bilinear N M z y + li * bilinear N M z x.
Proof.
  intro H. rewrite !bilinear_row. rewrite <- !sumn_scal. split; [rewrite <- sumn_minus|rewrite <- sumn_plus]; apply sumn_ext; intros i Hi; destruct (H i Hi) as [A B]; [rewrite A|rewrite B]; ring.
Qed.
(* z* K z = l z* M z, and both sides are real *)
Lemma pair_energy N K M lr li x y : symmetric K -> symmetric M -> eigenpair N K M lr li x y ->
  energy N K x y = lr * energy N M x y /\ li * energy N M x y = 0.
Proof.
  intros HK HM H. destruct (pair_forms N K M lr li x y x H) as [A1 A2]. destruct (pair_forms N K M lr li x y y H) as [B1 B2].
  pose proof (bilinear_swap N K x y HK) as SK. pose proof (bilinear_swap N M x y HM) as SM. unfold energy, quad. split; nra.
Qed.
Lemma energy_nonneg N K x y : psd N K -> 0 <= energy N K x y.
Proof. intro H. pose proof (H x). pose proof (H y). unfold energy. lra. Qed.
Lemma vibration_real N K M lr li x y : symmetric K -> symmetric M -> psd N K -> psd N M -> vibration N K M lr li x y -> energy N M x y <> 0 -> li = 0 /\ 0 <= lr.
Proof.
  intros HK HM PK PM H HE. destruct (pair_energy N K M lr li x y HK HM H) as [A B]. pose proof (energy_nonneg N K x y PK) as EK. pose proof (energy_nonneg N M x y PM) as EM.
  split; [apply Rmult_integral in B; tauto|]. apply (Rmult_le_reg_r (energy N M x y)); lra.
Qed.
Lemma buckling_real N K G lr li x y : symmetric K -> symmetric G -> buckling N K G lr li x y -> energy N K x y <> 0 -> li = 0 /\ lr <> 0.
Proof.
  intros HK HG H HE. assert (HG' : symmetric (fun r t => - G r t)) by (intros r t; f_equal; apply HG).
  destruct (pair_energy N K _ lr li x y HK HG' H) as [A B]. split.
  - apply Rmult_integral in B. destruct B as [B|B]; [exact B|]. exfalso. apply HE. rewrite A, B. ring.
  - intros ->. apply HE. rewrite A. ring.
Qed.

(* ------------------------------------------------- panels *)
Lemma elastic_psd E A p p' K N : elastic E p -> calc_kC E A p = (p', Ok K) -> ka_c A = None -> ka_F A = None -> ka_NL A = false -> ka_c_cte A = None -> ka_fin A = true -> ka_row0 A = ka_col0 A ->
  (ka_col0 A + ndof (pn_sh p) <= N)%nat -> tables_integrate (e_tables E) (e_basis E) (Nat.max (sh_m (pn_sh p)) (sh_n (pn_sh p))) -> psd N K.
Proof.
  intros (E1 & E2 & E3 & E4 & E5) H H1 H2 H3 H4 H5 H6 HN HT. exact (C18_analytical_stiffness_positive_semidefinite E A p p' K N H H1 H2 H3 H4 E1 H5 H6 E2 HN E3 E4 HT E5).
Qed.
Lemma massive_psd E sz o nxo nyo p p' K N : massive p -> calc_kM E sz o o None None nxo nyo true p = (p', Ok K) -> (o + ndof (pn_sh p) <= N)%nat ->
  tables_integrate (e_tables E) (e_basis E) (Nat.max (sh_m (pn_sh p)) (sh_n (pn_sh p))) -> psd N K.
Proof. intros (M1 & M2 & M3) H HN HT. exact (C22_analytical_mass_positive_semidefinite E sz o o nxo nyo p p' K N H eq_refl M1 HN HT M2 M3). Qed.

(* ------------------------------------------------- assemblies *)
Lemma finalize_is_sym K : symmetric (finalize_symmetric K).
Proof. intros r t. unfold finalize_symmetric. destruct (Nat.leb_spec r t), (Nat.leb_spec t r); try reflexivity; [replace t with r by lia; reflexivity|lia]. Qed.
Lemma asm_kM_sym E w s w' s' M : asm_kM E true w s = (w', s', Ok (Some M)) -> symmetric M.
Proof.
  unfold asm_kM. unfold abind at 1. destruct (asm_size w s) as [[w1 s1] [n|]]; [|discriminate]. unfold abind at 1, aself at 1. unfold abind at 1.
  destruct (sum_panels _ _ _ w1 s1) as [[w2 s2] [[K|]|]]; [| |discriminate]; unfold alift, ofinal; intro H; [|discriminate H].
  apply (f_equal snd) in H. cbn [snd] in H. injection H as <-. apply finalize_is_sym.
Qed.
Lemma asm_kG_sym E c w s w' s' M : asm_kG E c true w s = (w', s', Ok (Some M)) -> symmetric M.
Proof.
  unfold asm_kG. unfold abind at 1. destruct (asm_size w s) as [[w1 s1] [n|]]; [|discriminate]. unfold abind at 1. destruct (acheck c n w1 s1) as [[w2 s2] [u|]]; [|discriminate].
  unfold abind at 1, aself at 1. unfold abind at 1.
  destruct (sum_panels _ _ _ w2 s2) as [[w3 s3] [[K|]|]]; [| |discriminate]; unfold alift, ofinal; intro H; [|discriminate H].
  apply (f_equal snd) in H. cbn [snd] in H. injection H as <-. apply finalize_is_sym.
Qed.
(* every panel answered *)
Lemma sum_panels_each call : forall ids acc w s w' s' a, NoDup ids -> sum_panels call ids acc w s = (w', s', Ok a) ->
  forall i, In i ids -> exists o p' K, xp_start (w_panel w i) = Some o /\ call o (xp (w_panel w i)) = (p', Ok K).
Proof.
  induction ids as [|j ids IH]; intros acc w s w' s' a ND H i Hi; [destruct Hi|]. inversion ND as [|? ? N1 N2]; subst.
  cbn [sum_panels] in H. unfold abind at 1, aworld at 1 in H. destruct (xp_start (w_panel w j)) as [o|] eqn:EO; [|discriminate].
  unfold abind, on_panel in H. cbv zeta in H. destruct (call o (xp (w_panel w j))) as [p' [K|]] eqn:EC; [|discriminate].
  destruct Hi as [<-|Hi]; [exists o, p', K; auto|]. destruct (IH _ _ _ _ _ _ N2 H i Hi) as (o' & p1 & K1 & A & B).
  rewrite put_panel_else in A, B by (intros ->; contradiction). exists o', p1, K1. auto.
Qed.
Lemma exists_list {A B} (P : A -> B -> Prop) (l : list A) : (forall x, In x l -> exists y, P x y) -> exists m, Forall2 P l m.
Proof.
  induction l as [|x l IH]; intro H; [exists []; constructor|]. destruct (H x (or_introl eq_refl)) as [y Hy]. destruct IH as [m Hm]; [intros z Hz; apply H; right; exact Hz|].
  exists (y :: m). constructor; assumption.
Qed.
Lemma forall2_in {A B} (P : A -> B -> Prop) l m x y : Forall2 P l m -> In (x, y) (combine l m) -> In x l /\ P x y.
Proof. intro H. induction H as [|a b l m HP HF IH]; [intros []|]. intros [Hx|Hx]; [injection Hx as <- <-; split; [left; reflexivity|exact HP]|]. destruct (IH Hx). split; [right; assumption|assumption]. Qed.
Lemma own_forms_nonneg h ids Ks c : (forall i K, In (i, K) (combine ids Ks) -> psd (width (h i)) K) -> 0 <= own_forms h ids Ks c c.
Proof. intro H. unfold own_forms. apply suml_ge0. intros [i K] Hi. exact (H i K Hi _). Qed.

Lemma block_diag_sym : forall bs, (forall n K, In (n, K) bs -> symmetric K) -> symmetric (block_diag bs).
Proof.
  induction bs as [|[n K] bs IH]; intros H r t; [reflexivity|]. cbn [block_diag]. rewrite (andb_comm (t <? n)%nat), (andb_comm (n <=? t)%nat).
  rewrite (H n K (or_introl eq_refl) r t). rewrite (IH (fun n K Hi => H n K (or_intror Hi)) (r - n)%nat (t - n)%nat). reflexivity.
Qed.
Lemma combine_map_in {A B C} (f : A -> B) : forall (l : list A) (m : list C) b c, In (b, c) (combine (map f l) m) -> exists a, In (a, c) (combine l m).
Proof. induction l as [|a l IH]; intros [|c0 m] b c H; try (destruct H; fail). destruct H as [H|H]; [injection H as _ <-; exists a; left; reflexivity|]. destruct (IH m b c H) as [a' Ha]. exists a'. right. exact Ha. Qed.
Lemma diagonal_sym h ids Ks : (forall i K, In (i, K) (combine ids Ks) -> symmetric K) -> symmetric (diagonal h ids Ks).
Proof. intro H. apply block_diag_sym. intros n K Hi. apply combine_map_in in Hi. destruct Hi as [i Hi]. exact (H i K Hi). Qed.

(* the mass matrix of an assembly whose panels are built *)
Theorem asm_kM_facts E w s w' s' M Mx : assembled w s -> tables_integrate (e_tables E) (e_basis E) Mx ->
  (forall i, In i (as_panels s) -> massive (xp (w_panel w i)) /\ (sh_m (geometry (w_panel w) i) <= Mx)%nat /\ (sh_n (geometry (w_panel w) i) <= Mx)%nat) ->
  asm_kM E true w s = (w', s', Ok (Some M)) -> symmetric M /\ psd (total_width (w_panel w) (as_panels s)) M.
Proof.
  intros HA HT HM H. split; [exact (asm_kM_sym E w s w' s' M H)|].
  assert (HF : exists Ms, Forall2 (own_kM E (w_panel w) true) (as_panels s) Ms).
  { apply exists_list. intros i Hi. pose proof H as H0. unfold asm_kM in H0. unfold abind at 1 in H0. rewrite asm_size_total in H0. unfold abind at 1, aself at 1 in H0. unfold abind at 1 in H0.
    destruct (sum_panels _ _ _ w s) as [[w2 s2] [a|]] eqn:ES; [|discriminate H0].
    destruct (sum_panels_each _ _ _ _ _ _ _ _ (proj1 (proj2 HA)) ES i Hi) as (o & p' & K & Ho & HK).
    apply calc_kM_inv in HK. destruct HK as (mdl & kM & R). destruct R as [R1 R2 _ _ _ _ R3].
    assert (R4 : pn_lam (xp (w_panel w i)) <> None) by (destruct R3 as [(_ & _ & R3 & _)|([R3|R3] & _)]; [exact R3|congruence|congruence]).
    destruct (pn_lam (xp (w_panel w i))) as [lam|] eqn:EL; [|contradiction R4; reflexivity]. rewrite (sr_model _ _ R1) in R2.
    destruct (calc_kM_ok E SNone 0 0 None None None None true (xp (w_panel w i)) mdl lam R2 EL) as (p1 & K1 & HK1); try exact I; try (cbn; lia).
    exists K1, p1. exact HK1. }
  destruct HF as (Ms & HF). destruct (asm_kM_diagonal E w s HA true Ms HF) as (w2 & HR & _). rewrite H in HR. apply (f_equal snd) in HR. cbn [snd] in HR. injection HR as ->.
  intro c. unfold quad. rewrite diagonal_forms; [|apply HA|symmetry; exact (forall2_len _ _ _ HF)].
  apply own_forms_nonneg. intros i K Hi. destruct (forall2_in _ _ _ _ _ HF Hi) as (Hin & p' & HK). destruct (HM i Hin) as (M1 & M2 & M3).
  apply (massive_psd E SNone 0 None None (xp (w_panel w i)) p' K (width (w_panel w i)) M1 HK); [rewrite width_ndof; cbn; lia|].
  apply (tables_integrate_le _ _ Mx); [|exact HT]. apply Nat.max_lub; [exact M2|exact M3].
Qed.

Section Assembly.
Variables (E : env) (Bs : basis) (M k : nat) (w : world) (s : assembly) (arg : option nat).
Notation h := (w_panel w). Notation ids := (as_panels s). Notation size := (total_width (w_panel w) (as_panels s)).
Hypothesis HA : assembled w s.
Hypothesis Hc : as_kC_conn s = None.
Hypothesis Harg : (match arg with Some k' => Some k' | None => as_conn s end) = Some k.
Hypothesis Hl : w_conn w k <> [].
Hypothesis HU : List.Forall (usable h ids) (w_conn w k).
Hypothesis HS : forall i, In i ids -> sound E h i /\ (sh_m (geometry h i) <= M)%nat /\ (sh_n (geometry h i) <= M)%nat.
Hypothesis HT : tables_integrate (e_tables E) Bs M.
Hypothesis HT' : tables_integrate (e_tables E) (e_basis E) M.
Hypothesis HE : forall i, In i ids -> elastic E (xp (h i)).

Lemma own_kC_each : exists Ks, Forall2 (own_kC E h true None) ids Ks.
Proof using HA HS HE.
  apply exists_list. intros i Hi. destruct (HS i Hi) as ((C & _) & _). destruct (HE i Hi) as (N0 & _).
  destruct HA as (_ & ND & L). destruct (in_split _ _ Hi) as (l1 & l2 & Hids). destruct (laid_at h ids 0 l1 i l2 L Hids) as (LA & _).
  destruct (calc_kC_ok E (alone true (part (0 + total_width h l1) (width (h i)) None)) (xp (h i)) C) as (p' & K & H); try (cbn; lia); try exact I; try reflexivity; try exact N0; try discriminate.
  exists K. exists (0 + total_width h l1)%nat, p'. split; [exact LA|exact H].
Qed.
Theorem asm_kC_facts : exists w' s' K, asm_kC E Bs arg None true w s = (w', s', Ok (Some K)) /\ symmetric K /\ psd size K /\ wkept E w w' /\ as_panels s' = ids.
Proof using All.
  destruct own_kC_each as (Ks & HF).
  assert (HN : forall l, None = Some (CVec l) -> length l = size) by discriminate.
  destruct (asm_kC_energy E Bs M k w s HA Hc Hl HU HS HT arg None true Ks Harg HN HF) as (w' & s' & K & KC & HR & HK & HKC & HW).
  destruct (asm_kC_diagonal E w s HA Bs arg None true Ks HN HF) as (w1 & T1 & HR1).
  assert (HK1 : wkept E w w1). { apply (touched_kept E _ ids w w1 (fun _ o p p' a H => calc_kC_kept E _ p p' a H) T1). }
  pose proof (tc_conn _ _ _ _ T1) as HC1.
  destruct (get_conn_run E Bs arg w1 s k M) as (w2 & K2 & G1 & G2 & _).
  - apply (kept_assembled E w w1); assumption.
  - exact Harg.
  - exact Hc.
  - rewrite HC1. exact Hl.
  - rewrite HC1. revert HU. apply List.Forall_impl. intros cn. apply (kept_usable E w w1 ids cn HK1).
  - intros i Hi. rewrite (kept_geometry E w w1 HK1). destruct (HS i Hi) as (S1 & S2). split; [apply (kept_sound E w w1 HK1); exact S1|exact S2].
  - exact HT.
  - rewrite G1 in HR1. rewrite HR in HR1. exists w', s', K. split; [exact HR|].
    assert (Ew : w' = w2 /\ as_panels s' = ids). { apply (f_equal fst) in HR1. cbn [fst] in HR1. split; [exact (f_equal fst HR1)|]. apply (f_equal snd) in HR1. cbn [snd] in HR1. rewrite HR1. reflexivity. }
    destruct Ew as [-> Es]. split; [|split; [|split]].
    + intros r t. rewrite !HK, (HKC r t). f_equal. apply diagonal_sym. intros i K0 Hi. destruct (forall2_in _ _ _ _ _ HF Hi) as (_ & a & p' & _ & Hq). exact (C17_kC_symmetric E _ _ _ _ Hq eq_refl).
    + intro c. destruct (HW c c) as (Ws & W1 & W2 & W3). unfold quad. rewrite W3. apply Rplus_le_le_0_compat.
      * apply own_forms_nonneg. intros i K0 Hi. destruct (forall2_in _ _ _ _ _ HF Hi) as (Hin & a & p' & _ & Hq).
        apply (elastic_psd E _ _ p' K0 (width (h i)) (HE i Hin) Hq); try reflexivity; [rewrite width_ndof; cbn; lia|].
        destruct (HS i Hin) as (_ & S2 & S3). apply (tables_integrate_le _ _ M); [|exact HT']. apply Nat.max_lub; [exact S2|exact S3].
      * exact (works_nonneg E Bs h ids c (w_conn w k) Ws HS HU W1).
    + exact (wkept_trans E w w1 w2 HK1 G2).
    + exact Es.
Qed.
End Assembly.
