(* The load of the assembly which the compression driver of the T-stiffened panel returns. *)
From Coq Require Import Reals List Arith Bool Lra Lia.
From Coquelicot Require Import Coquelicot.
From Verif Require Import Base_Sum Model_Types Model_Coo Model_Result Model_Num Model_DB Model_Shell Model_Fext Model_Multi Model_New Model_Cylinder Model_TStiff Model_TStiffEnd
  Spec_Algebra Spec_Integral Spec_Panel Spec_Shell Spec_Fext Spec_Conn Spec_Multi Spec_MultiConn Spec_Cylinder Spec_TStiff Proof_Total Proof_Multi Proof_MultiConn Proof_MultiTop Proof_MultiApi Proof_Shell Proof_Fext Proof_TStiff Proof_TStiffWork Proof_Modes Proof_TStiffLoad.
From Coq Require Import List.
Import ListNotations.
Open Scope R_scope.

Lemma fold_objects (g : xpanel -> xpanel) : forall ids w i, NoDup ids -> w_panel (fold_left (fun w j => on_object g j w) ids w) i =
  if existsb (Nat.eqb i) ids then g (w_panel w i) else w_panel w i.
Proof.
  induction ids as [|j ids IH]; intros w i ND; [reflexivity|]. inversion ND as [|? ? N1 N2]; subst. cbn [fold_left existsb]. rewrite (IH _ _ N2).
  unfold on_object, put_panel, put; cbn [w_panel]. destruct (i =? j)%nat eqn:E; cbn [orb].
  - apply Nat.eqb_eq in E. subst j. destruct (existsb (Nat.eqb i) ids) eqn:EX; [|reflexivity].
    exfalso. apply existsb_exists in EX. destruct EX as (x & H1 & H2). apply Nat.eqb_eq in H2. subst x. auto.
  - reflexivity.
Qed.
Lemma mem_true i ids : In i ids -> existsb (Nat.eqb i) ids = true.
Proof. intro H. apply existsb_exists. exists i. split; [exact H|apply Nat.eqb_refl]. Qed.
Lemma mem_false i ids : ~ In i ids -> existsb (Nat.eqb i) ids = false.
Proof. intro H. apply Bool.not_true_iff_false. intro X. apply existsb_exists in X as (x & X1 & X2). apply Nat.eqb_eq in X2. subst x. contradiction. Qed.

Definition end_load (f : R -> R) : loads := add_distr no_loads (mkDload (Some 0) None (Some f) None None).
Lemma load_edges_kept E Bv : forall ids w f w' g, NoDup ids -> load_edges E Bv ids w f = (w', Ok g) ->
  (forall i, ~ In i ids -> w_panel w' i = w_panel w i) /\
  (forall i, In i ids -> xp_loads (w_panel w i) = no_loads -> kept E (xp (w_panel w i)) (xp (w_panel w' i)) /\ xp_start (w_panel w' i) = xp_start (w_panel w i) /\
     xp_end (w_panel w' i) = xp_end (w_panel w i) /\ exists l, xp_loads (w_panel w' i) = end_load l).
Proof.
  induction ids as [|j ids IH]; intros w f w' g ND H.
  - cbn in H. injection H as <- <-. split; [reflexivity|intros i []].
  - cbn [load_edges] in H. cbv zeta in H. destruct (calc_fext E Bv _ 1 SNone 0 _) as [p' [l|e]] eqn:EC; [|discriminate]. inversion ND as [|? ? N1 N2]; subst.
    apply IH in H; [|exact N2]. destruct H as (H1 & H2). split.
    + intros i Hi. rewrite H1 by (intro; apply Hi; right; assumption). unfold put_panel. cbn [w_panel]. unfold put. destruct (Nat.eqb_spec i j); [exfalso; apply Hi; left; congruence|reflexivity].
    + intros i [<-|Hi] HL.
      * rewrite (H1 _ N1). unfold put_panel. cbn [w_panel]. unfold put. rewrite Nat.eqb_refl. unfold with_panel, edge_load, with_loads in *. cbn [xp xp_loads xp_start xp_end] in *. rewrite HL in *.
        apply calc_fext_spec in EC. destruct EC as (HR & _). split; [exact (proj1 (rebuild_kept E _ _ HR))|]. split; [reflexivity|]. split; [reflexivity|]. eexists. reflexivity.
      * assert (Hne : i <> j) by (intros ->; contradiction).
        assert (EP : w_panel (put_panel (put_panel w j (edge_load 0 (fun _ : R => Nxx_of (xp (w_panel w j))) (w_panel w j))) j (with_panel (edge_load 0 (fun _ : R => Nxx_of (xp (w_panel w j))) (w_panel w j)) p')) i = w_panel w i).
        { unfold put_panel. cbn [w_panel]. unfold put. destruct (Nat.eqb_spec i j); [contradiction|reflexivity]. }
        specialize (H2 i Hi). rewrite EP in H2. exact (H2 HL).
Qed.

Lemma unit_zero n (f : nat -> R) : (forall d, dot n f d = 0) -> forall i, (i < n)%nat -> f i = 0.
Proof.
  intros H i Hi. specialize (H (fun k => if (k =? i)%nat then 1 else 0)). unfold dot in H.
  rewrite (sumn_ext n _ (fun k => if (k =? i)%nat then f k else 0)) in H by (intros k _; destruct (k =? i)%nat; ring).
  rewrite sumn_single in H. apply Nat.ltb_lt in Hi. rewrite Hi in H. exact H.
Qed.
(* a panel without load, and a panel whose load is zero on the edge *)
Lemma no_force E Bv L p p' l : calc_fext E Bv L 1 SNone 0 p = (p', Ok l) -> L = no_loads \/ (exists f, L = end_load f /\ forall y, f y = 0) -> forall i, vec l i = 0.
Proof.
  intros H HL i. apply calc_fext_spec in H. destruct H as (_ & _ & Hd). destruct (Nat.lt_ge_cases i (length l)) as [Hi|Hi]; [|unfold vec; apply nth_overflow; exact Hi].
  revert i Hi. apply unit_zero. intro d. rewrite Hd. destruct HL as [->|(f & -> & Hf)].
  - unfold constant_work, incremented_work, no_loads, suml. cbn [ld_point ld_distr ld_ppd ld_dpd ld_point_inc ld_distr_inc ld_ppd_inc ld_dpd_inc map fold_right]. ring.
  - unfold constant_work, incremented_work, end_load, add_distr, no_loads. cbn [ld_point ld_distr ld_ppd ld_dpd ld_point_inc ld_distr_inc ld_ppd_inc ld_dpd_inc app].
    unfold suml at 1 2 3 4 5 6 7 8. cbn [map fold_right]. unfold line_work. cbn [dl_x].
    assert (Z : forall u, along_side (e_rule E) (sh_n (kernel_view p')) (sh_b (kernel_view p')) (density u (mkDload (Some 0) None (Some f) None None)) = 0).
    { intro u. unfold along_side. etransitivity; [apply (suml_ext _ _ (fun _ => 0))|].
      - intros t _. unfold density, work_at, comp. cbn [dl_x dl_y dl_fx dl_fy dl_fz]. rewrite Hf. ring.
      - unfold suml. generalize (e_rule E (sh_n (kernel_view p'))). intro r. induction r as [|t r IH]; [reflexivity|]. cbn [map fold_right]. rewrite IH. ring. }
    rewrite Z. ring.
Qed.
Lemma zero_blocks : forall (bs : list (nat * (nat -> R))) k, (forall n v, In (n, v) bs -> forall i, v i = 0) -> block_vector bs k = 0.
Proof.
  induction bs as [|[n v] bs IH]; intros k H; [reflexivity|]. cbn [block_vector]. destruct (k <? n)%nat; [apply (H n v); left; reflexivity|]. apply IH. intros n' v' Hin. apply (H n' v'). right. exact Hin.
Qed.
Lemma complete_Nxx p N : complete p -> complete (with_Nxx p N).
Proof. intro H. exact H. Qed.

Lemma idle_fext E Bv w s : assembled w s -> (forall i, In i (as_panels s) -> complete (xp (w_panel w i)) /\ (sh_m (pn_sh (xp (w_panel w i))) <= 30)%nat /\ (sh_n (pn_sh (xp (w_panel w i))) <= 30)%nat /\
    (xp_loads (w_panel w i) = no_loads \/ exists f, xp_loads (w_panel w i) = end_load f /\ forall y, f y = 0)) ->
  exists w' f, asm_fext E Bv 1 w s = (w', s, Ok f) /\ forall i, f i = 0.
Proof.
  intros HA HI.
  assert (HV : exists vs, Forall2 (fun i v => own_fext E Bv (w_panel w) 1 i v /\ forall r, v r = 0) (as_panels s) vs).
  { apply exists_list. intros i Hi. destruct (HI i Hi) as (C & B1 & B2 & HL).
    destruct (calc_fext_ok E Bv (xp_loads (w_panel w i)) 1 SNone 0 (xp (w_panel w i)) C) as (p' & l & H).
    - destruct HL as [->|(f & -> & _)]; unfold all_lines, end_load, add_distr, no_loads; cbn [ld_distr ld_distr_inc ld_dpd ld_dpd_inc app]; [constructor|constructor; [exact I|constructor]].
    - exact B1.
    - exact B2.
    - cbn [size_value]. lia.
    - exists (vec l). split; [exists p', l; split; [exact H|reflexivity]|]. exact (no_force E Bv _ _ _ _ H HL). }
  destruct HV as (vs & HV).
  assert (HF : Forall2 (own_fext E Bv (w_panel w) 1) (as_panels s) vs) by (revert HV; clear; intro H; induction H as [|? ? ? ? [H1 H2]]; constructor; assumption).
  destruct (asm_fext_stacked E w s HA Bv 1 vs HF) as (w' & H). exists w', (stacked (w_panel w) (as_panels s) vs). split; [exact H|].
  intro i. unfold stacked. apply zero_blocks. intros n v Hin. apply in_combine_r in Hin. revert Hin. clear - HV. induction HV as [|? ? ? ? [H1 H2] HV' IH]; [intros []|]. intros [<-|Hin]; [exact H2|exact (IH Hin)].
Qed.

Lemma loaded_once k : NoDup (loaded k).
Proof. unfold loaded. cbn [map Nat.sub]. repeat (constructor; [cbn [In]; lia|]). constructor. Qed.
Lemma loaded_in k i : In i (loaded k) -> In i (seq k 15).
Proof. intro H. unfold loaded in H. apply in_map_iff in H as (j & <- & Hj). apply in_seq. cbn in Hj. lia. Qed.

Section End.
Variables (D : tstiff) (k q : nat) (w : world) (E : env) (Bs Bv : basis) (M : nat).
Hypothesis HD : well_sized D.
Hypothesis HM : material_given E D M.
Hypothesis HT : tables_integrate (e_tables E) Bs M.
Hypothesis H30 : (M <= 30)%nat.
Notation W := (fst (create_tstiff D k q w)).
Lemma end_panels w2 w3 f : wkept E W w2 -> load_edges E Bv (loaded k) w2 (fun _ => 0) = (w3, Ok f) ->
  forall i, In i (seq k 15) -> let x := w_panel (rebound k (release k w3)) i in
    xp_start x = xp_start (w_panel W i) /\ xp_end x = xp_end (w_panel W i) /\ width x = width (w_panel W i) /\ complete (xp x) /\ (sh_m (pn_sh (xp x)) <= 30)%nat /\ (sh_n (pn_sh (xp x)) <= 30)%nat /\
    (xp_loads x = no_loads \/ exists f, xp_loads x = end_load f /\ forall y, f y = 0).
Proof using All.
  intros HK HL i Hi x. destruct (load_edges_kept E Bv _ _ _ _ _ (loaded_once k) HL) as (F1 & F2).
  assert (Hj : exists j, (1 <= j <= 15)%nat /\ i = (k + (j - 1))%nat) by (exists (i - k + 1)%nat; apply in_seq in Hi; lia). destruct Hj as (j & Hj & Ej).
  destruct (ts_world D k q w j Hj) as (X1 & _ & X3). destruct (ts_sound D k q w E M HD HM j Hj) as (C & _). rewrite <- Ej in X1, X3, C.
  assert (Hsh : (sh_m (pn_sh (xp (w_panel W i))) <= 30)%nat /\ (sh_n (pn_sh (xp (w_panel W i))) <= 30)%nat).
  { rewrite X1. destruct (panel_data D j Hj) as (_ & _ & _ & _ & _ & _ & _ & _ & _ & -> & -> & _). destruct (terms_no D E M HM j Hj). lia. }
  destruct (HK i) as [KP B1 B2 B3 B4].
  assert (RL : forall i, In i (seq k 15) -> w_panel (release k w3) i = with_panel (w_panel w3 i) (with_Nxx (xp (w_panel w3 i)) 0)).
  { intros i0 Hi0. unfold release. rewrite (fold_objects (fun o => with_panel o (with_Nxx (xp o) 0)) _ _ _ (seq_NoDup 15 k)), (mem_true _ _ Hi0). reflexivity. }
  assert (Z : forall y : R, (fun _ : R => Nxx_of (xp (w_panel (release k w3) (k + 14)))) y = 0).
  { intro y. cbv beta. rewrite RL by (apply in_seq; lia). reflexivity. }
  assert (B0 : w_panel (rebound k (release k w3)) i = if existsb (Nat.eqb i) (loaded k) then with_loads (w_panel (release k w3) i) (rebind (fun _ => Nxx_of (xp (w_panel (release k w3) (k + 14)))) (xp_loads (w_panel (release k w3) i))) else w_panel (release k w3) i).
  { unfold rebound. apply (fold_objects (fun o => with_loads o (rebind (fun _ => Nxx_of (xp (w_panel (release k w3) (k + 14)))) (xp_loads o)))). exact (loaded_once k). }
  unfold x. rewrite B0, (RL i Hi). clear B0 x. revert Z. generalize (fun _ : R => Nxx_of (xp (w_panel (release k w3) (k + 14)))). intros g Z.
  destruct (in_dec Nat.eq_dec i (loaded k)) as [Hl|Hl].
  - rewrite (mem_true _ _ Hl). destruct (F2 i Hl) as (K2 & S2 & E2 & l & L2); [rewrite B4; exact X3|].
    pose proof (kept_trans E _ _ _ KP K2) as KK. unfold with_loads, with_panel, width. cbn [xp xp_start xp_end xp_loads pn_sh with_Nxx].
    rewrite S2, E2, B1, B2, L2, (kp_sh _ _ _ KK). split; [reflexivity|]. split; [reflexivity|]. split; [reflexivity|]. split; [apply complete_Nxx; exact (kp_complete _ _ _ KK C)|].
    split; [exact (proj1 Hsh)|]. split; [exact (proj2 Hsh)|]. right. exists g. split; [reflexivity|exact Z].
  - rewrite (mem_false _ _ Hl), (F1 i Hl). unfold with_panel, width. cbn [xp xp_start xp_end xp_loads pn_sh with_Nxx].
    rewrite B1, B2, B4, X3, (kp_sh _ _ _ KP). split; [reflexivity|]. split; [reflexivity|]. split; [reflexivity|]. split; [apply complete_Nxx; exact (kp_complete _ _ _ KP C)|].
    split; [exact (proj1 Hsh)|]. split; [exact (proj2 Hsh)|]. left. reflexivity.
Qed.
Theorem returned_idle : exists W2 s2 w' f, tstiff_returned D E Bs Bv k q w = Ok (W2, s2) /\ as_panels s2 = seq k 15 /\ asm_fext E Bv 1 W2 s2 = (w', s2, Ok f) /\ forall i, f i = 0.
Proof using All.
  destruct (ts_stiffness_runs D k q w E Bs M HD HM HT) as (w2 & s2 & K & HR & HK & HS).
  destruct (load_total E Bv (loaded k) w2 (fun _ => 0)) as (w3 & f & HL).
  - exact (loaded_once k).
  - intros i Hi. unfold loaded in Hi. apply in_map_iff in Hi as (j & <- & Hj). assert (Hj' : (1 <= j <= 15)%nat) by (cbn in Hj; lia).
    destruct (ts_world D k q w j Hj') as (X1 & _ & X3). destruct (ts_sound D k q w E M HD HM j Hj') as (C & _).
    destruct (HK (k + (j - 1))%nat) as [[A1 A2 A3 A4 A5 A6 A7] B1 B2 B3 B4]. split; [rewrite B4; exact X3|]. split; [apply A6; exact C|].
    rewrite A2, X1. destruct (panel_data D j Hj') as (_ & _ & _ & _ & _ & _ & _ & _ & _ & -> & -> & _). destruct (terms_no D E M HM j Hj'). lia.
  - pose proof (end_panels w2 w3 f HK HL) as HP.
    assert (HA : assembled (rebound k (release k w3)) s2).
    { pose proof (ts_assembled D k q w) as (A1 & A2 & A3). rewrite create_asm in A1, A2, A3. cbn [as_panels] in A1, A2, A3. unfold assembled. rewrite HS. split; [exact A1|]. split; [exact A2|].
      apply (laid_ext (w_panel W)); [|exact A3]. intros i Hi. destruct (HP i Hi) as (P1 & P2 & P3 & _). rewrite P1, P2, P3. auto. }
    destruct (idle_fext E Bv _ _ HA) as (w' & g & G1 & G2).
    + rewrite HS. intros i Hi. destruct (HP i Hi) as (_ & _ & _ & P4). exact P4.
    + exists (rebound k (release k w3)), s2, w', g. split; [|split; [exact HS|split; [exact G1|exact G2]]].
      unfold tstiff_returned. destruct (create_tstiff D k q w) as [w1 s]. cbn [fst snd] in HR. rewrite HR, HL. reflexivity.
Qed.
End End.

Lemma nonzero_entry n (g d : nat -> R) : dot n g d <> 0 -> exists i, (i < n)%nat /\ g i <> 0.
Proof.
  induction n as [|n IH]; unfold dot; cbn [sumn]; intro H; [lra|]. destruct (Req_dec (g n) 0) as [Hz|Hz]; [|exists n; split; [lia|exact Hz]].
  rewrite Hz, Rmult_0_l, Rplus_0_r in H. destruct (IH H) as (i & Hi & Hg). exists i. split; [lia|exact Hg].
Qed.
