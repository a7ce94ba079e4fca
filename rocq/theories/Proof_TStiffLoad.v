(* The load which the compression driver of the T-stiffened panel gives to the static analysis. *)
From Coq Require Import Reals List Arith Bool Lra Lia.
From Coquelicot Require Import Coquelicot.
From Verif Require Import Base_Sum Model_Types Model_Coo Model_Result Model_Num Model_DB Model_Shell Model_Fext Model_Multi Model_New Model_Cylinder Model_TStiff
  Spec_Algebra Spec_Integral Spec_Panel Spec_Shell Spec_Fext Spec_Conn Spec_Multi Spec_MultiConn Spec_Cylinder Spec_TStiff Proof_Total Proof_Multi Proof_MultiConn Proof_MultiTop Proof_MultiApi Proof_Shell Proof_Fext Proof_TStiff Proof_TStiffWork Proof_Modes.
From Coq Require Import List.
Import ListNotations.
Open Scope R_scope.

Lemma cte_zero D i : (1 <= i <= 15)%nat -> pn_N_cte (np_panel (panel_no D i)) = (0, 0, 0).
Proof.
  revert i. apply (fifteen (fun i => pn_N_cte (np_panel (panel_no D i)) = (0, 0, 0)));
  unfold panel_no; cbn [Nat.sub nth ts_panels]; unfold skin, tbase, tflange; cbn [np_panel]; destruct (ts_points D) as [[[[? ?] [? ?]] [? ?]]|]; reflexivity.
Qed.

Lemma own_kC_all E h ids : laid_out h ids 0 -> (forall i, In i ids -> complete (xp (h i)) /\ pn_N_cte (xp (h i)) = (0, 0, 0)) -> exists Ks, Forall2 (own_kC E h true None) ids Ks.
Proof.
  intros L HC. apply exists_list. intros i Hi. destruct (HC i Hi) as (C & N0).
  destruct (in_split _ _ Hi) as (l1 & l2 & Hids). destruct (laid_at h ids 0 l1 i l2 L Hids) as (LA & _).
  destruct (calc_kC_ok E (alone true (part (0 + total_width h l1) (width (h i)) None)) (xp (h i)) C) as (p' & K & H); try (cbn; lia); try exact I; try reflexivity; try exact N0; try discriminate.
  exists K. exists (0 + total_width h l1)%nat, p'. split; [exact LA|exact H].
Qed.

Lemma asm_kC_runs E Bs M k w s Ks : assembled w s -> as_kC_conn s = None -> w_conn w k <> [] -> List.Forall (usable (w_panel w) (as_panels s)) (w_conn w k) ->
  (forall i, In i (as_panels s) -> sound E (w_panel w) i /\ (sh_m (geometry (w_panel w) i) <= M)%nat /\ (sh_n (geometry (w_panel w) i) <= M)%nat) ->
  tables_integrate (e_tables E) Bs M -> Forall2 (own_kC E (w_panel w) true None) (as_panels s) Ks ->
  exists w' s' K, asm_kC E Bs (Some k) None true w s = (w', s', Ok (Some K)) /\ wkept E w w' /\ as_panels s' = as_panels s.
Proof.
  intros HA Hc Hl HU HS HT HF.
  assert (HN : forall l, None = Some (CVec l) -> length l = total_width (w_panel w) (as_panels s)) by discriminate.
  destruct (asm_kC_energy E Bs M k w s HA Hc Hl HU HS HT (Some k) None true Ks eq_refl HN HF) as (w' & s' & K & KC & HR & HK & HKC & HW).
  destruct (asm_kC_diagonal E w s HA Bs (Some k) None true Ks HN HF) as (w1 & T1 & HR1).
  assert (HK1 : wkept E w w1). { apply (touched_kept E _ (as_panels s) w w1 (fun _ o p p' a H => calc_kC_kept E _ p p' a H) T1). }
  pose proof (tc_conn _ _ _ _ T1) as HC1.
  destruct (get_conn_run E Bs (Some k) w1 s k M) as (w2 & K2 & G1 & G2 & _).
  - apply (kept_assembled E w w1); assumption.
  - reflexivity.
  - exact Hc.
  - rewrite HC1. exact Hl.
  - rewrite HC1. revert HU. apply List.Forall_impl. intros cn. apply (kept_usable E w w1 _ cn HK1).
  - intros i Hi. rewrite (kept_geometry E w w1 HK1). destruct (HS i Hi) as (S1 & S2). split; [apply (kept_sound E w w1 HK1); exact S1|exact S2].
  - exact HT.
  - rewrite G1 in HR1. rewrite HR in HR1. exists w', s', K. split; [exact HR|].
    assert (Ew : w' = w2 /\ as_panels s' = as_panels s). { apply (f_equal fst) in HR1. cbn [fst] in HR1. split; [exact (f_equal fst HR1)|]. apply (f_equal snd) in HR1. cbn [snd] in HR1. rewrite HR1. reflexivity. }
    destruct Ew as [Ew Es]. split; [|exact Es]. rewrite Ew. exact (wkept_trans E w w1 w2 HK1 G2).
Qed.

Section Load.
Variables (D : tstiff) (k q : nat) (w : world) (E : env) (Bs : basis) (M : nat).
Hypothesis HD : well_sized D.
Hypothesis HM : material_given E D M.
Hypothesis HT : tables_integrate (e_tables E) Bs M.
Notation W := (fst (create_tstiff D k q w)).
Notation S0 := (snd (create_tstiff D k q w)).
Notation h := (w_panel W).
Notation size := (total_width h (seq k 15)).

Lemma own_kC_run : exists Ks, Forall2 (own_kC E h true None) (seq k 15) Ks.
Proof using HD HM.
  pose proof (ts_assembled D k q w) as (_ & _ & L). rewrite create_asm in L. cbn [as_panels] in L. apply (own_kC_all E h (seq k 15) L).
  intros x Hx. apply in_seq in Hx. replace x with (k + ((x - k + 1) - 1))%nat by lia. assert (Hi : (1 <= x - k + 1 <= 15)%nat) by lia.
  split; [exact (proj1 (ts_sound D k q w E M HD HM _ Hi))|]. rewrite (proj1 (ts_world D k q w _ Hi)). apply cte_zero. exact Hi.
Qed.
Theorem ts_stiffness_runs : exists w' s' K, asm_kC E Bs (Some q) None true W S0 = (w', s', Ok (Some K)) /\ wkept E W w' /\ as_panels s' = seq k 15.
Proof using All.
  destruct own_kC_run as (Ks & HF). rewrite <- (f_equal as_panels (create_asm D k q w)) in HF at 1.
  destruct (asm_kC_runs E Bs M q W S0 Ks) as (w' & s' & K & R1 & R2 & R3).
  - apply ts_assembled.
  - rewrite create_asm. reflexivity.
  - rewrite ts_conn. unfold valid_conns, ts_conns. discriminate.
  - rewrite ts_conn, create_asm. cbn [as_panels]. apply List.Forall_forall. intros cn Hin. exact (meets_usable D k q w E M HD HM cn Hin).
  - rewrite create_asm. cbn [as_panels]. intros x Hx. apply in_seq in Hx. replace x with (k + ((x - k + 1) - 1))%nat by lia. assert (Hx' : (1 <= x - k + 1 <= 15)%nat) by lia.
    split; [exact (ts_sound D k q w E M HD HM _ Hx')|]. destruct (ts_geom D k q w _ Hx') as (_ & _ & G1 & G2). rewrite G1, G2. destruct (terms_no D E M HM _ Hx'). lia.
  - exact HT.
  - exact HF.
  - exists w', s', K. split; [exact R1|]. split; [exact R2|]. rewrite R3, create_asm. reflexivity.
Qed.
Lemma kept_created w2 : wkept E W w2 -> as_created D k W w2.
Proof using Type.
  intros HK i Hi. cbv zeta. destruct (HK (k + (i - 1))%nat) as [[A1 A2 A3 A4 A5 A6 A7] B1 B2 B3 B4].
  split; [exact B1|]. split; [rewrite B4; exact (proj2 (proj2 (ts_world D k q w i Hi)))|]. split; [exact A1|exact A7].
Qed.
Theorem ts_load_given Bv : (M <= 30)%nat -> exists f, tstiff_load D E Bs Bv k q w = Ok f /\ forall d, dot size f d = - suml (loaded k) (fun i => edge_work E Bv h i d).
Proof using All.
  intro H30. destruct ts_stiffness_runs as (w2 & s2 & K & HR & HK & _).
  destruct (load_total E Bv (loaded k) w2 (fun _ => 0)) as (w3 & f & HL).
  - unfold loaded. cbn [map Nat.sub]. repeat (constructor; [cbn [In]; lia|]). constructor.
  - intros i Hi. unfold loaded in Hi. apply in_map_iff in Hi as (j & <- & Hj). assert (Hj' : (1 <= j <= 15)%nat) by (cbn in Hj; lia).
    destruct (ts_world D k q w j Hj') as (X1 & _ & X3). destruct (ts_sound D k q w E M HD HM j Hj') as (C & _).
    destruct (HK (k + (j - 1))%nat) as [[A1 A2 A3 A4 A5 A6 A7] B1 B2 B3 B4]. split; [rewrite B4; exact X3|]. split; [apply A6; exact C|].
    rewrite A2, X1. destruct (panel_data D j Hj') as (_ & _ & _ & _ & _ & _ & _ & _ & _ & -> & -> & _). destruct (terms_no D E M HM j Hj'). lia.
  - exists (fun i => - f i). split.
    + unfold tstiff_load. destruct (create_tstiff D k q w) as [w1 s] eqn:Ec. cbn [fst snd] in HR. rewrite HR, HL. reflexivity.
    + intro d. destruct (ts_loads D k q w E Bv w2 w3 f HD (kept_created w2 HK) HL) as (L1 & _). cbv zeta in L1. rewrite <- L1.
      unfold dot. rewrite <- sumn_opp. apply sumn_ext. intros; ring.
Qed.
End Load.
