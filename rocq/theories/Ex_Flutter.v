(* A T-stiffened panel with 4 x 4 terms in its skin, in a flow: it meets the hypotheses of the theorems about
   the flutter analysis, and the analysis runs. *)
From Coq Require Import Reals List Arith Bool Lia Lra.
From Coquelicot Require Import Coquelicot.
From Verif Require Import Base_Sum Model_Types Model_Coo Model_Result Model_Num Model_DB Model_Shell Model_Fext Model_Multi Model_New Model_Cylinder Model_TStiff Model_Flutter
  Spec_Algebra Spec_Kinematics Spec_Quadrature Spec_Panel Spec_Shell Spec_Bardell Spec_Integral Spec_Aero Spec_Flow Spec_Conn Spec_Multi Spec_MultiConn Spec_Cylinder Spec_TStiff Spec_Flutter
  Proof_Shell Proof_Total Proof_Aero Proof_Multi Proof_TStiff Proof_TStiffWork Proof_Flutter Proof_FlutterTop Ex_Panel Ex_Exact.
From Coq Require Import List.
Import ListNotations.
Open Scope R_scope.

(* the driver integrates with twice as many points as terms: eight points, the last with the weight 0 *)
Definition nc8 : list (R * R) := nc7 ++ [(0, 0)].
Definition fl_env : env := mkEnv (fun n => if (n =? 8)%nat then nc8 else e_rule exact_env n) exact_basis exact_tables ex_lib.
Lemma nc8_exact : rule_integrates (e_rule fl_env) 8 exact_basis 4.
Proof.
  intros p q i k e e' Hi Hk. pose proof (nc7_exact p q i k e e' Hi Hk) as H.
  cbn [fl_env e_rule Nat.eqb] in *. cbn [exact_env e_rule Nat.eqb] in H.
  unfold nc8. match goal with |- context [suml (nc7 ++ _) ?f] => replace (suml (nc7 ++ [(0, 0)]) f) with (suml nc7 f) by (rewrite suml_app; cbn [suml snd]; ring) end. exact H.
Qed.

Definition fl_D : tstiff := mkTs 4 3 1 1 (1/2) (2/5) 1 (1/8) [1; 2; 3] [0] [0] [0] None 4 4 1 1 1 1 None (-5) (-4) (-3) true.
Definition fl_w0 : world := fst (create_flutter fl_D (Some 1) (Some 2) (Some 3) (Some true) 0 15 (mkWorld (fun _ => mkXp (ex_panel None) 0 no_loads None None) (fun _ => []))).
(* after calc_kC, which rebuilds every panel *)
Definition built_world (E : env) (w : world) : world := mkWorld (fun i => with_panel (w_panel w i) (fst (rebuild E (xp (w_panel w i))))) (w_conn w).
Definition fl_w : world := built_world fl_env fl_w0.
Lemma built_at E w i : let x := w_panel (built_world E w) i in xp_start x = xp_start (w_panel w i) /\ xp_end x = xp_end (w_panel w i) /\ xp x = fst (rebuild E (xp (w_panel w i))).
Proof. repeat split. Qed.

Lemma laid_same h g ids : forall o, laid_out h ids o -> (forall i, In i ids -> xp_start (g i) = xp_start (h i) /\ xp_end (g i) = xp_end (h i) /\ width (g i) = width (h i)) -> laid_out g ids o.
Proof.
  induction ids as [|i ids IH]; intros o H HG; [exact I|]. cbn [laid_out] in *. destruct (HG i (or_introl eq_refl)) as (-> & -> & ->). destruct H as (A & B & C).
  split; [exact A|]. split; [exact B|]. apply IH; [exact C|]. intros j Hj. apply HG. right. exact Hj.
Qed.

Lemma fl_sized : well_sized fl_D.
Proof. unfold well_sized. cbn. lra. Qed.
Definition fl_base : world := fst (create_tstiff fl_D 0 15 (mkWorld (fun _ => mkXp (ex_panel None) 0 no_loads None None) (fun _ => []))).
Lemma fl_w0_at i : w_panel fl_w0 i = if existsb (Nat.eqb i) (seq 0 9) then with_panel (w_panel fl_base i) (with_flow (xp (w_panel fl_base i)) (Some 1) (Some 2) (Some 3) (Some true)) else w_panel fl_base i.
Proof. exact (put_flow_at (seq 0 9) (Some 1) (Some 2) (Some 3) (Some true) fl_base i (seq_NoDup 9 0)). Qed.
Lemma fl_w0_same i : let x := w_panel fl_w0 i in let y := w_panel fl_base i in
  xp_start x = xp_start y /\ xp_end x = xp_end y /\ pn_sh (xp x) = pn_sh (xp y) /\ pn_model (xp x) = pn_model (xp y) /\ pn_stack (xp x) = pn_stack (xp y) /\
  pn_laminaprop (xp x) = pn_laminaprop (xp y) /\ pn_plyt (xp x) = pn_plyt (xp y) /\ pn_nx (xp x) = pn_nx (xp y) /\ pn_ny (xp x) = pn_ny (xp y) /\ pn_beta (xp x) = pn_beta (xp y) /\ pn_r (xp x) = pn_r (xp y).
Proof. cbv zeta. rewrite fl_w0_at. generalize (w_panel fl_base i) as y. intro y. destruct (existsb _ _); repeat split. Qed.
Lemma fl_base_at i : (1 <= i <= 15)%nat -> xp (w_panel fl_base (i - 1)) = np_panel (panel_no fl_D i).
Proof. intro Hi. exact (proj1 (ts_world fl_D 0 15 _ i Hi)). Qed.
Lemma fl_built i : (1 <= i <= 15)%nat -> exists p, rebuild fl_env (xp (w_panel fl_w0 (i - 1))) = (p, Ok tt) /\ xp (w_panel fl_w (i - 1)) = p.
Proof.
  intro Hi. destruct (fl_w0_same (i - 1)) as (_ & _ & _ & Em & Es & El & Et & _). rewrite (fl_base_at i Hi) in Em, Es, El, Et.
  destruct (panel_data fl_D i Hi) as (D1 & D2 & D3 & _ & D5 & _).
  destruct (rebuild_ok fl_env (xp (w_panel fl_w0 (i - 1)))) as (p & Hp).
  - unfold complete. rewrite Em, D1, Es, D2, El, D5, Et, D3. split; [discriminate|]. split; [|split; [right; discriminate|right; discriminate]].
    unfold stack_no. destruct (group_no i) as [|[|?]]; discriminate.
  - exists p. split; [exact Hp|]. etransitivity; [exact (proj2 (proj2 (built_at fl_env fl_w0 (i - 1))))|]. rewrite Hp. reflexivity.
Qed.

Lemma fl_start i : xp_start (w_panel fl_w i) = xp_start (w_panel fl_w0 i).
Proof. exact (proj1 (built_at fl_env fl_w0 i)). Qed.
Lemma fl_end i : xp_end (w_panel fl_w i) = xp_end (w_panel fl_w0 i).
Proof. exact (proj1 (proj2 (built_at fl_env fl_w0 i))). Qed.
Lemma fl_facts i : (1 <= i <= 15)%nat -> let x := w_panel fl_w (i - 1) in let y := w_panel fl_base (i - 1) in
  xp_start x = xp_start y /\ xp_end x = xp_end y /\ pn_sh (xp x) = pn_sh (np_panel (panel_no fl_D i)) /\ pn_beta (xp x) = pn_beta (np_panel (panel_no fl_D i)) /\
  pn_model (xp x) = Some (Known (chosen_model (xp (w_panel fl_w0 (i - 1))))) /\ pn_r (xp x) = pn_r (np_panel (panel_no fl_D i)) /\
  pn_nx (xp x) = Nat.max (pn_nx (np_panel (panel_no fl_D i))) (sh_m (pn_sh (np_panel (panel_no fl_D i)))) /\
  pn_ny (xp x) = Nat.max (pn_ny (np_panel (panel_no fl_D i))) (sh_n (pn_sh (np_panel (panel_no fl_D i)))).
Proof.
  intro Hi. cbv zeta. destruct (fl_w0_same (i - 1)) as (E1 & E2 & E3 & _ & _ & _ & _ & E4 & E5 & E6 & E7). rewrite (fl_base_at i Hi) in E3, E4, E5, E6, E7.
  destruct (fl_built i Hi) as (p & Hp & ->). destruct (rebuild_inv _ _ _ _ Hp) as (SI & R1 & R2 & _ & R3 & R4 & _ & _ & _ & _ & _ & _ & R5 & _).
  rewrite fl_start, fl_end. split; [exact E1|]. split; [exact E2|]. split; [rewrite (si_sh _ _ SI); exact E3|]. split; [rewrite R5; exact E6|]. split; [exact R2|].
  split; [rewrite R1; exact E7|]. rewrite R3, R4, E3, E4, E5. split; reflexivity.
Qed.
Lemma fl_flow i : (1 <= i <= 9)%nat -> let p := xp (w_panel fl_w (i - 1)) in pn_flow_x p = Some true /\ pn_rho_air p = Some 1 /\ pn_V p = Some 3 /\ pn_Mach p = Some 2.
Proof.
  intro Hi. cbv zeta. destruct (fl_built i ltac:(lia)) as (p & Hp & ->). destruct (rebuild_inv _ _ _ _ Hp) as (SI & _ & _ & _ & _ & _ & _ & _ & _ & _ & _ & _ & _ & _ & R5 & _).
  rewrite (si_flow _ _ SI), (si_air _ _ SI), (si_V _ _ SI), R5.
  assert (HE : existsb (Nat.eqb (i - 1)) (seq 0 9) = true). { apply existsb_exists. exists (i - 1)%nat. split; [apply in_seq; lia|apply Nat.eqb_refl]. }
  pose proof (fl_w0_at (i - 1)) as A. rewrite HE in A. revert A. generalize (w_panel fl_base (i - 1)) as y. generalize (w_panel fl_w0 (i - 1)) as x. intros x y ->. repeat split.
Qed.
Lemma fl_skin i : (1 <= i <= 9)%nat -> let p := np_panel (panel_no fl_D i) in pn_beta p = None /\ pn_r p = None /\ pn_nx p = 8%nat /\ pn_ny p = 8%nat /\ sh_m (pn_sh p) = 4%nat /\ sh_n (pn_sh p) = 4%nat /\
  sh_x1 (pn_sh p) = -1 /\ sh_x2 (pn_sh p) = 1 /\ sh_y1 (pn_sh p) = -1 /\ sh_y2 (pn_sh p) = 1.
Proof.
  intros [H1 H2]. destruct i as [|i]; [lia|].
  do 9 (destruct i as [|i]; [cbv zeta; unfold panel_no; cbn [Nat.sub nth ts_panels]; repeat split|]). lia.
Qed.
Lemma fl_in_flow : skin_in_flow fl_env fl_D 0 true 1 3 2 fl_w.
Proof.
  split.
  - pose proof (ts_assembled fl_D 0 15 (mkWorld (fun _ => mkXp (ex_panel None) 0 no_loads None None) (fun _ => []))) as (_ & _ & L).
    rewrite create_asm in L. cbn [as_panels] in L. fold fl_base in L.
    apply (laid_same (w_panel fl_base)); [exact L|]. intros i Hi. apply in_seq in Hi. destruct (fl_facts (i + 1) ltac:(lia)) as (A & B & C & _). replace (i + 1 - 1)%nat with i in * by lia.
    split; [exact A|]. split; [exact B|]. unfold width. rewrite C. pose proof (fl_base_at (i + 1) ltac:(lia)) as D. replace (i + 1 - 1)%nat with i in * by lia. rewrite D. reflexivity.
  - intros i Hi. cbv zeta. change (0 + (i - 1))%nat with (i - 1)%nat. destruct (fl_facts i ltac:(lia)) as (_ & _ & A & B & _ & _ & C & D). destruct (fl_flow i Hi) as (F1 & F2 & F3 & F4).
    destruct (fl_skin i Hi) as (S1 & S2 & S3 & S4 & S5 & S6 & S7 & S8 & S9 & S10).
    split; [exact A|]. split; [|rewrite B; auto].
    unfold flown. rewrite A, C, D, S3, S4, S5, S6. change (Nat.max 8 4) with 8%nat. pose proof (len_pos fl_D fl_sized i ltac:(lia)) as [L1 L2]. unfold len, wid in L1, L2.
    split; [reflexivity|]. split; [exact F1|]. split; [lra|]. split; [lra|]. split; [lia|]. split; [lia|].
    split; [|split; [reflexivity|split; [reflexivity|split; exact nc8_exact]]].
    unfold whole_window, xregion, yregion, interval. rewrite S7, S8, S9, S10. split.
    + destruct (Req_EM_T (-1) (-1)); [|congruence]. f_equal; ring.
    + destruct (Req_EM_T (-1) (-1)); [|congruence]. f_equal; ring.
Qed.
Lemma add_kA_runs E size ids : forall acc w, NoDup ids -> (forall i, In i ids -> exists p' K, calc_kA E (SInt size) (start (w_panel w) i) (start (w_panel w) i) false (xp (w_panel w i)) = (p', Ok K)) ->
  exists w' K, add_kA E size ids acc w = (w', Ok K).
Proof.
  induction ids as [|i ids IH]; intros acc w ND H; [do 2 eexists; reflexivity|]. inversion ND as [|? ? N1 N2]; subst. cbn [add_kA]. cbv zeta.
  destruct (H i (or_introl eq_refl)) as (p' & K & HK). unfold start in HK. rewrite HK. apply IH; [exact N2|]. intros j Hj.
  assert (EP : w_panel (put_panel w i (with_panel (w_panel w i) p')) j = w_panel w j). { unfold put_panel, put. cbn [w_panel]. destruct (j =? i)%nat eqn:E1; [apply Nat.eqb_eq in E1; subst; contradiction|reflexivity]. }
  unfold start. rewrite EP. apply H. right. exact Hj.
Qed.
Lemma fl_runs : exists w' K, flutter_kA fl_env (total_width (w_panel fl_w) (seq 0 15)) 0 fl_w = (w', Ok K).
Proof.
  pose proof fl_in_flow as (L & P). unfold flutter_kA.
  destruct (add_kA_runs fl_env (total_width (w_panel fl_w) (seq 0 15)) (skin_ids 0) (fun _ _ => 0) fl_w (seq_NoDup 9 0)) as (w' & K & ->); [|do 2 eexists; reflexivity].
  intros i Hi. apply in_seq in Hi. destruct (P (i + 1)%nat ltac:(lia)) as (A & F & _ & B1 & B2 & B3). destruct (fl_facts (i + 1) ltac:(lia)) as (_ & _ & _ & _ & Hm & _).
  change (0 + (i + 1 - 1))%nat with (i + 1 - 1)%nat in *. replace (i + 1 - 1)%nat with i in * by lia. destruct F as (_ & F & _).
  assert (HF : (start (w_panel fl_w) i + ndof (pn_sh (xp (w_panel fl_w i))) <= total_width (w_panel fl_w) (seq 0 15))%nat).
  { assert (S1 : seq 0 15 = seq 0 i ++ i :: seq (S i) (14 - i)). { replace 15%nat with (i + S (14 - i))%nat by lia. rewrite seq_app. reflexivity. }
    rewrite S1 in L. pose proof (laid_order _ _ _ _ _ L) as L1. unfold start. rewrite L1. cbn [default]. rewrite S1. unfold total_width. rewrite !map_app, !list_sum_app. cbn [map].
    change (list_sum (width (w_panel fl_w i) :: ?l)) with (width (w_panel fl_w i) + list_sum l)%nat. assert (HN : ndof (pn_sh (xp (w_panel fl_w i))) = width (w_panel fl_w i)) by (unfold ndof, width, DOF; generalize (w_panel fl_w i) as x; intro x; lia). rewrite HN. lia. }
  eapply calc_kA_ok; [exact Hm|exact F| |exact HF|exact HF]. right. exists 2, 1, 3. repeat split; try assumption. lra.
Qed.
