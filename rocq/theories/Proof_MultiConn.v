(* Connections of an assembly: success and energy of get_kC_conn. *)
From Coq Require Import Reals List Arith Bool Lia Lra FunctionalExtensionality.
From Coquelicot Require Import Coquelicot.
From Verif Require Import Base_Sum Model_Types Model_Coo Model_Result Model_Num Model_DB Model_Shell Model_Fext Model_Field Model_Conn Model_Multi
  Spec_Algebra Spec_Integral Spec_Panel Spec_Shell Spec_Fext Spec_Conn Spec_Multi Spec_MultiConn
  Proof_Coo Proof_Ana Proof_Terms Proof_Pd Proof_Shell Proof_Api Proof_Total Proof_FintApi Proof_Place Proof_Multi Proof_Conn.
Import ListNotations.
Open Scope R_scope.

(* ------------------------------------------------- panels after calculations *)
Record kept (E : env) (p q : panel) : Prop := {
  kp_view : kernel_view q = kernel_view p;
  kp_sh : pn_sh q = pn_sh p;
  kp_lam : rebuilt_lam E q = rebuilt_lam E p;
  kp_plyts : rebuilt_plyts q = rebuilt_plyts p;
  kp_non : pn_plyts p <> [] -> pn_plyts q <> [];
  kp_complete : complete p -> complete q;
  kp_N : pn_N q = pn_N p }.
Lemma kept_refl E p : kept E p p.
Proof. constructor; auto. Qed.
Lemma kept_trans E p q r : kept E p q -> kept E q r -> kept E p r.
Proof. intros [A1 A2 A3 A4 A5 A6 A7] [B1 B2 B3 B4 B5 B6 B7]. constructor; try congruence; auto. Qed.
Lemma rebuilt_kept E p p1 q : rebuild E p = (p1, Ok tt) -> same_rebuilt p1 q -> default 0 (pn_r q) = default 0 (pn_r p) -> kept E p q.
Proof.
  intros HR HS Hr. apply rebuild_inv in HR.
  destruct HR as (Hin & _ & Hm & _ & _ & _ & _ & _ & Hpt & Hpr & Hrh & _ & Hb & Hg & _ & Hne & Hlp & _).
  destruct HS as [S1 S2 S3 S4 S5 S6 S7 S8 S9 S9' S10 S11 S12].
  assert (Hi : same_inputs p q) by (eapply same_inputs_trans; eassumption). destruct Hi as [I1 I2 I3 I4 I5 I6 I7 I8 I9 I10 I11].
  assert (Ep : rebuilt_plyts q = rebuilt_plyts p).
  { unfold rebuilt_plyts at 1. rewrite S7, Hpt. unfold rebuilt_plyts. rewrite I2, I3. destruct (pn_plyts p); [destruct (pn_stack p)|]; reflexivity. }
  assert (Epr : rebuilt_props q = rebuilt_props p).
  { unfold rebuilt_props at 1. rewrite S8, Hpr. unfold rebuilt_props. rewrite I2, S9', Hlp. destruct (pn_laminaprops p); [destruct (pn_stack p)|]; reflexivity. }
  assert (Erh : rebuilt_rhos q = rebuilt_rhos p).
  { unfold rebuilt_rhos at 1. rewrite S9, Hrh. unfold rebuilt_rhos. rewrite I2, I4. destruct (pn_rhos p); [destruct (pn_stack p)|]; reflexivity. }
  constructor.
  - unfold kernel_view. rewrite I1, S10, S11, Hb, Hg. unfold default in Hr. rewrite Hr. reflexivity.
  - exact I1.
  - unfold rebuilt_lam. rewrite Ep, Epr, Erh, I2, I5. reflexivity.
  - exact Ep.
  - intro HN. rewrite S7, Hpt. unfold rebuilt_plyts. destruct (pn_plyts p); congruence.
  - intros (C1 & C2 & C3 & C4). unfold complete. rewrite S2, Hm, I2, S8, Hpr, S7, Hpt. split; [discriminate|]. split; [exact C2|]. split.
    + left. unfold rebuilt_props. destruct (pn_laminaprops p); [|discriminate]. destruct (pn_stack p); [congruence|discriminate].
    + left. unfold rebuilt_plyts. destruct (pn_plyts p); [|discriminate]. destruct (pn_stack p); [congruence|discriminate].
  - exact I7.
Qed.
Lemma same_rebuilt_refl p : same_rebuilt p p.
Proof. constructor; try reflexivity. apply same_inputs_refl. Qed.
Lemma rebuild_kept E p p1 : rebuild E p = (p1, Ok tt) -> kept E p p1 /\ pn_lam p1 = Some (rebuilt_lam E p) /\ pn_plyts p1 = rebuilt_plyts p /\ rebuilt_plyts p <> [].
Proof.
  intro HR. split.
  - apply (rebuilt_kept E p p1 p1 HR (same_rebuilt_refl p1)). apply rebuild_inv in HR. destruct HR as (_ & -> & _). reflexivity.
  - apply rebuild_inv in HR. destruct HR as (_ & _ & _ & _ & _ & _ & Hl & _ & Hpt & _ & _ & _ & _ & _ & _ & Hne & _). split; [exact Hl|]. split; [exact Hpt|].
    unfold rebuilt_plyts. destruct (pn_plyts p); [|discriminate]. destruct (pn_stack p); [congruence|discriminate].
Qed.
Lemma calc_kC_kept E A p p' K : calc_kC E A p = (p', Ok K) -> kept E p p'.
Proof.
  intro H. apply calc_kC_inv in H. destruct H as (mdl & kC & kGc & [(p1 & Hp1 & Hs) Hm Hr _ _ _ _ _]).
  apply (rebuilt_kept E p p1 p' Hp1 Hs). rewrite Hr. reflexivity.
Qed.
Lemma calc_kG_kept E A p p' K : calc_kG E A p = (p', Ok K) -> kept E p p'.
Proof.
  intro H. apply calc_kG_inv in H. destruct H as (mdl & kG & [(p1 & Hp1 & Hs) Hm Hr _ _ _ _]).
  apply (rebuilt_kept E p p1 p' Hp1 Hs). rewrite Hr. reflexivity.
Qed.
Lemma same_kept E p q : same_rebuilt p q -> default 0 (pn_r q) = default 0 (pn_r p) -> kept E p q.
Proof.
  intros [S1 S2 S3 S4 S5 S6 S7 S8 S9 S9' S10 S11 S12] Hr. destruct S1 as [I1 I2 I3 I4 I5 I6 I7 I8 I9 I10 I11].
  constructor.
  - unfold kernel_view. rewrite I1, S10, S11. unfold default in Hr. rewrite Hr. reflexivity.
  - exact I1.
  - unfold rebuilt_lam, rebuilt_plyts, rebuilt_props, rebuilt_rhos. rewrite S7, S8, S9, S9', I2, I3, I4, I5. reflexivity.
  - unfold rebuilt_plyts. rewrite S7, I2, I3. reflexivity.
  - rewrite S7. auto.
  - unfold complete. rewrite S2, I2, S8, S9', S7, I3. auto.
  - exact I7.
Qed.
Lemma calc_fint_kept E cl sz col0 nxo nyo Fo p p' u : calc_fint E cl sz col0 nxo nyo Fo p = (p', Ok u) -> kept E p p'.
Proof. intro H. apply calc_fint_inv in H. destruct H as (_ & _ & _ & _ & Hs & Hr). apply same_kept; [exact Hs|]. rewrite Hr. reflexivity. Qed.

Record keptx (E : env) (x y : xpanel) : Prop := {
  kx_panel : kept E (xp x) (xp y);
  kx_start : xp_start y = xp_start x; kx_end : xp_end y = xp_end x;
  kx_group : xp_group y = xp_group x; kx_loads : xp_loads y = xp_loads x }.
Definition wkept (E : env) (w w' : world) : Prop := forall i, keptx E (w_panel w i) (w_panel w' i).
Lemma keptx_refl E x : keptx E x x.
Proof. constructor; try reflexivity. apply kept_refl. Qed.
Lemma wkept_refl E w : wkept E w w.
Proof. intro i. apply keptx_refl. Qed.
Lemma wkept_trans E w w1 w2 : wkept E w w1 -> wkept E w1 w2 -> wkept E w w2.
Proof.
  intros H1 H2 i. destruct (H1 i) as [A1 A2 A3 A4 A5], (H2 i) as [B1 B2 B3 B4 B5]. constructor; try congruence. eapply kept_trans; eassumption.
Qed.
Lemma wkept_put E w i p' : kept E (xp (w_panel w i)) p' -> wkept E w (put_panel w i (with_panel (w_panel w i) p')).
Proof.
  intros H k. destruct (Nat.eq_dec k i) as [->|Hk]; [rewrite put_panel_at|rewrite put_panel_else by exact Hk; apply keptx_refl].
  constructor; try reflexivity. exact H.
Qed.
Lemma touched_kept {A} E (call : nat -> nat -> method A) ids w w' :
  (forall k o p p' a, call k o p = (p', Ok a) -> kept E p p') -> touched call ids w w' -> wkept E w w'.
Proof.
  intros HC [T1 T2 T3] k. destruct (in_dec Nat.eq_dec k ids) as [Hk|Hk].
  - destruct (T3 k Hk) as (o & p' & a & _ & H2 & ->). constructor; try reflexivity. cbn. eapply HC. exact H2.
  - rewrite T2 by exact Hk. apply keptx_refl.
Qed.

Section Kept.
Variables (E : env) (w w' : world).
Hypothesis HK : wkept E w w'.
Lemma kept_geometry i : geometry (w_panel w') i = geometry (w_panel w) i.
Proof using HK. unfold geometry. apply (kp_view _ _ _ (kx_panel _ _ _ (HK i))). Qed.
Lemma kept_lam i : lam_of E (w_panel w') i = lam_of E (w_panel w) i.
Proof using HK. unfold lam_of. apply (kp_lam _ _ _ (kx_panel _ _ _ (HK i))). Qed.
Lemma kept_start i : start (w_panel w') i = start (w_panel w) i.
Proof using HK. unfold start. rewrite (kx_start _ _ _ (HK i)). reflexivity. Qed.
Lemma kept_thick i : thickness (w_panel w') i = thickness (w_panel w) i.
Proof using HK. unfold thickness. rewrite (kp_plyts _ _ _ (kx_panel _ _ _ (HK i))). reflexivity. Qed.
Lemma kept_width i : width (w_panel w' i) = width (w_panel w i).
Proof using HK. unfold width. rewrite (kp_sh _ _ _ (kx_panel _ _ _ (HK i))). reflexivity. Qed.
Lemma kept_total ids : total_width (w_panel w') ids = total_width (w_panel w) ids.
Proof using HK. apply total_ext. apply kept_width. Qed.
Lemma kept_laid ids o : laid_out (w_panel w) ids o -> laid_out (w_panel w') ids o.
Proof using HK. apply laid_ext. intros k _. rewrite kept_width, (kx_start _ _ _ (HK k)), (kx_end _ _ _ (HK k)). auto. Qed.
Lemma kept_work Bs cn i j c d W : pair_work E Bs (w_panel w') cn i j c d W <-> pair_work E Bs (w_panel w) cn i j c d W.
Proof using HK.
  unfold pair_work, moves, penalty_of. rewrite !kept_geometry, !kept_lam, !kept_start, !kept_thick. reflexivity.
Qed.
Lemma kept_keys cn i j : pair_keys (w_panel w) cn i j -> pair_keys (w_panel w') cn i j.
Proof using HK.
  unfold pair_keys. rewrite !kept_geometry. destruct (cn_func cn); auto.
  intros (A1 & A2 & A3 & A4 & A5). repeat split; auto; [apply (kp_non _ _ _ (kx_panel _ _ _ (HK i)) A4)|apply (kp_non _ _ _ (kx_panel _ _ _ (HK j)) A5)].
Qed.
Lemma kept_sound i : sound E (w_panel w) i -> sound E (w_panel w') i.
Proof using HK.
  unfold sound. rewrite kept_geometry, kept_lam. intros (H & H'). split; [|exact H']. apply (kp_complete _ _ _ (kx_panel _ _ _ (HK i)) H).
Qed.
Lemma kept_in_order cn : in_order (w_panel w) cn -> in_order (w_panel w') cn.
Proof using HK. unfold in_order. rewrite !kept_start. auto. Qed.
Lemma kept_reversible cn : reversible (w_panel w) cn -> reversible (w_panel w') cn.
Proof using HK. unfold reversible. rewrite !kept_start, !kept_geometry. auto. Qed.
End Kept.

(* ------------------------------------------------- penalty stiffnesses *)
Lemma kt_kr_run E i j t w s : i <> j -> complete (xp (w_panel w i)) -> complete (xp (w_panel w j)) ->
  exists w', calc_kt_kr E i j t w s = (w', s, Ok (kt_kr t (lam_of E (w_panel w) i) (lam_of E (w_panel w) j) (sh_a (geometry (w_panel w) i)) (sh_b (geometry (w_panel w) i)))) /\
    wkept E w w' /\ w_conn w' = w_conn w /\
    sum_plyts (xp (w_panel w' i)) = Ok (fold_left Rplus (rebuilt_plyts (xp (w_panel w i))) 0) /\
    sum_plyts (xp (w_panel w' j)) = Ok (fold_left Rplus (rebuilt_plyts (xp (w_panel w j))) 0).
Proof.
  intros Hij Ci Cj.
  destruct (rebuild_ok E _ Ci) as [pi Ri]. destruct (rebuild_kept _ _ _ Ri) as (Ki & Li & Ti & Ni).
  destruct (rebuild_ok E _ Cj) as [pj Rj]. destruct (rebuild_kept _ _ _ Rj) as (Kj & Lj & Tj & Nj).
  set (w1 := put_panel w i (with_panel (w_panel w i) pi)).
  assert (E1 : w_panel w1 j = w_panel w j) by (apply put_panel_else; congruence).
  set (w2 := put_panel w1 j (with_panel (w_panel w1 j) pj)).
  assert (Ei : xp (w_panel w2 i) = pi) by (unfold w2; rewrite put_panel_else by exact Hij; unfold w1; rewrite put_panel_at; reflexivity).
  assert (Ej : xp (w_panel w2 j) = pj) by (unfold w2; rewrite put_panel_at; reflexivity).
  exists w2. split.
  - unfold calc_kt_kr. unfold abind at 1, on_panel at 1. rewrite Ri. fold w1. unfold abind at 1, on_panel at 1. rewrite E1, Rj.
    change (put_panel w1 j (with_panel (w_panel w j) pj)) with (put_panel w1 j (with_panel (w_panel w j) pj)). rewrite <- E1 at 1. fold w2.
    unfold abind at 1, aworld at 1. rewrite Ei, Ej, Li, Lj. unfold aret. unfold lam_of.
    replace (sh_a (geometry (w_panel w) i)) with (sh_a (pn_sh pi)) by (rewrite (kp_sh _ _ _ Ki); reflexivity).
    replace (sh_b (geometry (w_panel w) i)) with (sh_b (pn_sh pi)) by (rewrite (kp_sh _ _ _ Ki); reflexivity). reflexivity.
  - split; [|split; [reflexivity|]].
    + apply (wkept_trans E w w1); [apply wkept_put; exact Ki|]. apply wkept_put. rewrite E1. exact Kj.
    + unfold sum_plyts. rewrite Ei, Ej, Ti, Tj. split; [destruct (rebuilt_plyts (xp (w_panel w i)))|destruct (rebuilt_plyts (xp (w_panel w j)))]; congruence.
Qed.
Lemma fold_suml l : forall a, fold_left Rplus l a = a + suml l (fun t => t).
Proof. induction l as [|x l IH]; intro a; cbn [fold_left suml]; [lra|]. rewrite IH. lra. Qed.
Lemma fold_thick h i : fold_left Rplus (rebuilt_plyts (xp (h i))) 0 = thickness h i.
Proof. rewrite fold_suml. unfold thickness. lra. Qed.

(* ------------------------------------------------- one connection *)
Definition okmat (size : nat) (m : connmat) : Prop := m = CZero \/ exists K, m = CMat size K.
Lemma add3_ok acc size k11 k12 k22 : okmat size acc -> fits size k11 -> fits size k12 -> fits size k22 ->
  exists K, add3 acc size k11 k12 k22 = Ok (CMat size K) /\ forall r t, K r t = conn_entry acc r t + dense (k11 ++ k12 ++ k22) r t.
Proof.
  intros HO F1 F2 F3. unfold add3. rewrite !to_shape_ok by assumption. cbn [rbind].
  destruct HO as [->|[K ->]]; cbn [cadd conn_entry]; eexists; (split; [reflexivity|]); intros r t; cbv beta; rewrite !dense_app; ring.
Qed.
Ltac fit3 := cbv delta [fkCSSycte11 fkCSSycte12 fkCSSycte22 fkCSSxcte11 fkCSSxcte12 fkCSSxcte22 fkCSB11 fkCSB12 fkCSB22 fkCBFycte11 fkCBFycte12 fkCBFycte22 fkCBFxcte11 fkCBFxcte12 fkCBFxcte22]; cbv beta; eapply within_fits; [lazymatch goal with |- within _ _ _ _ (loop_ikjl _ _ _ _ _ _ _ _) => apply within_ikjl | _ => apply within_jlik end; wf3
  |unfold DOF; rewrite ?(Nat.mul_comm (sh_n _) (sh_m _)); lia|unfold DOF; rewrite ?(Nat.mul_comm (sh_n _) (sh_m _)); lia].

Lemma pen_pos x y g h : 0 < x -> 0 < y -> 0 < g -> 0 < h -> 0 < penalty x y g h.
Proof. intros. unfold penalty. apply Rdiv_lt_0_compat; repeat apply Rmult_lt_0_compat; lra. Qed.

Ltac fin3 w' R2 R3 :=
  match goal with |- context [add3 ?acc ?size ?k11 ?k12 ?k22] =>
    let K := fresh "K" in let A := fresh "A" in let B := fresh "B" in
    destruct (add3_ok acc size k11 k12 k22) as (K & A & B); [assumption|fit3|fit3|fit3|];
    exists w', K, (k11 ++ k12 ++ k22); rewrite A; split; [reflexivity|split; [exact R2|split; [exact R3|split; [exact B|]]]] end.
Section One.
Variables (E : env) (Bs : basis) (size : nat).
Lemma add_conn_ok cn i j acc w s : let h := w_panel w in
  i <> j -> sound E h i -> sound E h j -> pair_keys h cn i j -> okmat size acc ->
  (start h i + width (h i) <= start h j)%nat -> (start h j + width (h j) <= size)%nat ->
  tables_integrate (e_tables E) Bs (Nat.max (Nat.max (sh_m (geometry h i)) (sh_n (geometry h i))) (Nat.max (sh_m (geometry h j)) (sh_n (geometry h j)))) ->
  exists w' K M, add_conn E Bs size cn i j acc w s = (w', s, Ok (CMat size K)) /\ wkept E w w' /\ w_conn w' = w_conn w /\
    (forall r t, K r t = conn_entry acc r t + dense M r t) /\
    forall c d, pair_work E Bs h cn i j c d (bilinear size (finalize_symmetric (dense M)) c d).
Proof.
  intros h Hij Si Sj HK HO HoA HoB HT.
  destruct Si as (Ci & ai & bi & hi & A1i & A2i & D1i & D2i). destruct Sj as (Cj & aj & bj & hj & A1j & A2j & D1j & D2j).
  assert (WA : (start h i + 3 * (sh_m (geometry h i) * sh_n (geometry h i)) <= start h j)%nat).
  { unfold width in HoA. unfold geometry, kernel_view. cbn [sh_m sh_n]. rewrite Nat.mul_assoc. exact HoA. }
  assert (WB : (start h j + 3 * (sh_m (geometry h j) * sh_n (geometry h j)) <= size)%nat).
  { unfold width in HoB. unfold geometry, kernel_view. cbn [sh_m sh_n]. rewrite Nat.mul_assoc. exact HoB. }
  assert (ai' : sh_a (geometry h i) <> 0) by lra. assert (bi' : sh_b (geometry h i) <> 0) by lra.
  assert (aj' : sh_a (geometry h j) <> 0) by lra. assert (bj' : sh_b (geometry h j) <> 0) by lra.
  assert (P1 : penalty_of E h A11 A11 i j <> 0) by (pose proof (pen_pos _ _ _ _ A1i A1j hi hj); unfold penalty_of; lra).
  assert (P2 : penalty_of E h A22 A22 i j <> 0) by (pose proof (pen_pos _ _ _ _ A2i A2j hi hj); unfold penalty_of; lra).
  unfold add_conn. unfold pair_work. unfold pair_keys in HK.
  destruct (cn_func cn) eqn:Ef; try contradiction.
  - destruct (kt_kr_run E i j Ycte w s Hij Ci Cj) as (w' & R1 & R2 & R3 & _).
    destruct HK as [Hy1 Hy2]. destruct (cn_y1 cn) as [y1|]; [|congruence]. destruct (cn_y2 cn) as [y2|]; [|congruence].
    unfold abind at 1. rewrite R1. unfold abind at 1, aworld at 1. unfold abind at 1, alift at 1. cbn [key]. unfold abind at 1, alift at 1. cbn [fst snd kt_kr default].
    fold (geometry (w_panel w') i) (geometry (w_panel w') j) (start (w_panel w') i) (start (w_panel w') j).
    rewrite !(kept_geometry E w w' R2), !(kept_start E w w' R2). fold h. unfold alift.
    fin3 w' R2 R3. intros c d. exists y1, y2. split; [reflexivity|]. split; [reflexivity|].
    apply SSycte_work; assumption.
  - destruct (kt_kr_run E i j Xcte w s Hij Ci Cj) as (w' & R1 & R2 & R3 & _).
    destruct HK as [Hy1 Hy2]. destruct (cn_x1 cn) as [y1|]; [|congruence]. destruct (cn_x2 cn) as [y2|]; [|congruence].
    unfold abind at 1. rewrite R1. unfold abind at 1, aworld at 1. unfold abind at 1, alift at 1. cbn [key]. unfold abind at 1, alift at 1. cbn [fst snd kt_kr default].
    fold (geometry (w_panel w') i) (geometry (w_panel w') j) (start (w_panel w') i) (start (w_panel w') j).
    rewrite !(kept_geometry E w w' R2), !(kept_start E w w' R2). fold h. unfold alift.
    fin3 w' R2 R3. intros c d. exists y1, y2. split; [reflexivity|]. split; [reflexivity|].
    apply SSxcte_work; assumption.
  - destruct (kt_kr_run E i j BotTop w s Hij Ci Cj) as (w' & R1 & R2 & R3 & T1 & T2).
    unfold abind at 1. rewrite R1. unfold abind at 1, aworld at 1. unfold abind at 1, alift at 1. rewrite T1. unfold abind at 1, alift at 1. rewrite T2. cbn [fst snd kt_kr default].
    fold (geometry (w_panel w') i) (geometry (w_panel w') j) (start (w_panel w') i) (start (w_panel w') j).
    rewrite !(kept_geometry E w w' R2), !(kept_start E w w' R2). fold h. unfold alift. rewrite !fold_thick. fold h.
    replace ((thickness h i + thickness h j) / 2) with (thickness h i / 2 + thickness h j / 2) by lra.
    fin3 w' R2 R3. intros c d. apply SB_work; assumption.
  - destruct (kt_kr_run E i j Ycte w s Hij Ci Cj) as (w' & R1 & R2 & R3 & _).
    destruct HK as [Hy1 Hy2]. destruct (cn_y1 cn) as [y1|]; [|congruence]. destruct (cn_y2 cn) as [y2|]; [|congruence].
    unfold abind at 1. rewrite R1. unfold abind at 1, aworld at 1. unfold abind at 1, alift at 1. cbn [key]. unfold abind at 1, alift at 1. cbn [fst snd kt_kr default].
    fold (geometry (w_panel w') i) (geometry (w_panel w') j) (start (w_panel w') i) (start (w_panel w') j).
    rewrite !(kept_geometry E w w' R2), !(kept_start E w w' R2). fold h. unfold alift.
    fin3 w' R2 R3. intros c d. exists y1, y2. split; [reflexivity|]. split; [reflexivity|].
    apply BFycte_work; assumption.
  - destruct (kt_kr_run E i j Xcte w s Hij Ci Cj) as (w' & R1 & R2 & R3 & _).
    destruct HK as [Hy1 Hy2]. destruct (cn_x1 cn) as [y1|]; [|congruence]. destruct (cn_x2 cn) as [y2|]; [|congruence].
    unfold abind at 1. rewrite R1. unfold abind at 1, aworld at 1. unfold abind at 1, alift at 1. cbn [key]. unfold abind at 1, alift at 1. cbn [fst snd kt_kr default].
    fold (geometry (w_panel w') i) (geometry (w_panel w') j) (start (w_panel w') i) (start (w_panel w') j).
    rewrite !(kept_geometry E w w' R2), !(kept_start E w w' R2). fold h. unfold alift.
    fin3 w' R2 R3. intros c d. exists y1, y2. split; [reflexivity|]. split; [reflexivity|].
    apply BFxcte_work; assumption.
  - destruct HK as (Ht & Ea & Eb & Pi & Pj). rewrite Ht. cbn [key]. unfold abind at 1, alift at 1. unfold abind at 1, aworld at 1. fold h.
    assert (EK : calc_kw_tsl (xp (h i)) (xp (h j)) true = Ok (10000 / (sh_a (geometry h i) * sh_b (geometry h i)))).
    { unfold calc_kw_tsl. change (sh_a (pn_sh (xp (h i)))) with (sh_a (geometry h i)). change (sh_b (pn_sh (xp (h i)))) with (sh_b (geometry h i)).
      change (sh_a (pn_sh (xp (h j)))) with (sh_a (geometry h j)). change (sh_b (pn_sh (xp (h j)))) with (sh_b (geometry h j)).
      destruct (Req_EM_T _ _); [|congruence]. destruct (Req_EM_T _ _); [reflexivity|congruence]. }
    rewrite EK. unfold abind at 1, alift at 1.
    assert (ES : forall k, pn_plyts (xp (h k)) <> [] -> sum_plyts (xp (h k)) = Ok (thickness h k)).
    { intros k Hk. rewrite <- fold_thick. unfold sum_plyts, rebuilt_plyts. destruct (pn_plyts (xp (h k))); [congruence|reflexivity]. }
    rewrite (ES i Pi), (ES j Pj). unfold abind at 1, alift at 1. unfold abind at 1, alift at 1.
    fold (geometry h i) (geometry h j) (start h i) (start h j). unfold alift.
    replace ((thickness h i + thickness h j) / 2) with (thickness h i / 2 + thickness h j / 2) by lra.
    fin3 w (wkept_refl E w) (eq_refl (w_conn w)). intros c d. apply SB_work; assumption.
Qed.
End One.

(* ------------------------------------------------- panels in the other order *)
Lemma penalty_sym x y g h : penalty x y g h = penalty y x h g.
Proof. unfold penalty. rewrite (Rplus_comm x y), (Rplus_comm g h). f_equal. ring. Qed.
Lemma swap_SSy h cn y1 y2 : cn_func cn = SSycte -> has_keys h cn -> cn_y1 (swap_keys cn) = Some y1 -> cn_y2 (swap_keys cn) = Some y2 -> cn_y1 cn = Some y2 /\ cn_y2 cn = Some y1.
Proof.
  unfold has_keys, pair_keys, swap_keys. intros ->. destruct (cn_x1 cn), (cn_x2 cn), (cn_y1 cn), (cn_y2 cn); intros [K1 K2]; cbn; try congruence; intros; split; congruence.
Qed.
Lemma swap_SSx h cn y1 y2 : cn_func cn = SSxcte -> has_keys h cn -> cn_x1 (swap_keys cn) = Some y1 -> cn_x2 (swap_keys cn) = Some y2 -> cn_x1 cn = Some y2 /\ cn_x2 cn = Some y1.
Proof.
  unfold has_keys, pair_keys, swap_keys. intros ->. destruct (cn_x1 cn), (cn_x2 cn), (cn_y1 cn), (cn_y2 cn); intros [K1 K2]; cbn; try congruence; intros; split; congruence.
Qed.
Lemma swap_func cn : cn_func (swap_keys cn) = cn_func cn.
Proof. unfold swap_keys. destruct (cn_func cn) eqn:E; destruct (cn_x1 cn), (cn_x2 cn), (cn_y1 cn), (cn_y2 cn); cbn; congruence. Qed.
Lemma reversed_work E Bs h cn c d W : reversible h cn -> has_keys h cn -> sound E h (cn_p1 cn) ->
  pair_work E Bs h (swap_keys cn) (cn_p2 cn) (cn_p1 cn) c d W -> conn_work E Bs h cn c d W.
Proof.
  intros [_ HR] HK (_ & Ha & Hb & _). unfold conn_work, pair_work. rewrite swap_func.
  destruct (cn_func cn) eqn:Ef; try contradiction; intros (y1 & y2 & H1 & H2 & HW).
  - destruct (swap_SSy h cn y1 y2 Ef HK H1 H2) as [-> ->]. exists y2, y1. split; [reflexivity|]. split; [reflexivity|].
    unfold work_along_x in *. rewrite HR in *. revert HW. apply is_RInt_ext. intros x _.
    replace (sh_a (geometry h (cn_p2 cn)) / sh_a (geometry h (cn_p2 cn))) with 1 by (field; lra). rewrite Rmult_1_r.
    unfold penalty_of. rewrite (penalty_sym (A22 (lam_of E h (cn_p2 cn)))), (penalty_sym (D22 (lam_of E h (cn_p2 cn)))).
    cbv [jump_work jumps_SSycte suml fst snd]. match goal with |- ?a = ?b => change (@eq R a b) end. ring.
  - destruct (swap_SSx h cn y1 y2 Ef HK H1 H2) as [-> ->]. exists y2, y1. split; [reflexivity|]. split; [reflexivity|].
    unfold work_along_y in *. rewrite HR in *. revert HW. apply is_RInt_ext. intros x _.
    replace (sh_b (geometry h (cn_p2 cn)) / sh_b (geometry h (cn_p2 cn))) with 1 by (field; lra). rewrite Rmult_1_r.
    unfold penalty_of. rewrite (penalty_sym (A11 (lam_of E h (cn_p2 cn)))), (penalty_sym (D11 (lam_of E h (cn_p2 cn)))).
    cbv [jump_work jumps_SSxcte suml fst snd]. match goal with |- ?a = ?b => change (@eq R a b) end. ring.
Qed.
Lemma swap_pair_keys h cn : reversible h cn -> has_keys h cn -> pair_keys h (swap_keys cn) (cn_p2 cn) (cn_p1 cn).
Proof.
  intros [_ HR]. unfold has_keys, pair_keys. rewrite swap_func. unfold swap_keys. destruct (cn_func cn); try contradiction;
    destruct (cn_x1 cn), (cn_x2 cn), (cn_y1 cn), (cn_y2 cn); cbn; intros [? ?]; split; congruence.
Qed.
Lemma laid_gap h ids : forall o i j, laid_out h ids o -> In i ids -> In j ids -> (start h i < start h j)%nat -> (start h i + width (h i) <= start h j)%nat.
Proof.
  induction ids as [|k ids IH]; intros o i j L Hi Hj Hlt; [contradiction|]. cbn [laid_out] in L. destruct L as (L1 & L2 & L3).
  assert (Ek : start h k = o) by (unfold start; rewrite L1; reflexivity).
  destruct Hi as [<-|Hi], Hj as [<-|Hj].
  - lia.
  - destruct (laid_bound _ _ _ _ L3 Hj) as (a & A1 & _ & A2 & _). assert (start h j = a) by (unfold start; rewrite A1; reflexivity). lia.
  - destruct (laid_bound _ _ _ _ L3 Hi) as (a & A1 & _ & A2 & _). assert (start h i = a) by (unfold start; rewrite A1; reflexivity). lia.
  - apply (IH _ _ _ L3 Hi Hj Hlt).
Qed.
Lemma laid_start h ids o i : laid_out h ids o -> In i ids -> xp_start (h i) = Some (start h i) /\ (start h i + width (h i) <= o + total_width h ids)%nat.
Proof. intros L Hi. destruct (laid_bound _ _ _ _ L Hi) as (a & A1 & _ & _ & A2). unfold start. rewrite A1. cbn. auto. Qed.

(* ------------------------------------------------- the loop over the connections *)
(* the dictionary as get_kC_conn leaves it *)
Definition left_as (h : nat -> xpanel) (cn : conn) : conn := if (start h (cn_p1 cn) <? start h (cn_p2 cn))%nat then cn else swap_keys cn.
Lemma put_nth_app pre x y l : put_nth (length pre) x (pre ++ y :: l) = pre ++ x :: l.
Proof. induction pre as [|a pre IH]; cbn; [reflexivity|]. rewrite IH. reflexivity. Qed.

Section Loop.
Variables (E : env) (Bs : basis) (w0 : world) (ids : list nat) (M : nat) (k : nat).
Notation h0 := (w_panel w0).
Notation size := (total_width h0 ids).
Hypothesis HL : laid_out h0 ids 0.
Hypothesis HT : tables_integrate (e_tables E) Bs M.
Hypothesis HS : forall i, In i ids -> sound E h0 i /\ (sh_m (geometry h0 i) <= M)%nat /\ (sh_n (geometry h0 i) <= M)%nat.

Lemma conn_loop_work l : forall pos pre w s prev acc, wkept E w0 w -> List.Forall (usable h0 ids) l -> okmat size acc -> w_conn w k = pre ++ l -> length pre = pos ->
  exists w' m, conn_loop E Bs size k pos l prev acc w s = (w', s, Ok m) /\ wkept E w0 w' /\ (forall k', k' <> k -> w_conn w' k' = w_conn w k') /\
    w_conn w' k = pre ++ map (left_as h0) l /\ okmat size m /\ (l <> [] -> m <> CZero) /\
    forall c d, exists Ws, Forall2 (fun cn => conn_work E Bs h0 cn c d) l Ws /\
      bilinear size (finalize_symmetric (conn_entry m)) c d = bilinear size (finalize_symmetric (conn_entry acc)) c d + suml Ws (fun W => W).
Proof using HL HT HS.
  induction l as [|cn l IH]; intros pos pre w s prev acc HW HU HO HC HP.
  - exists w, acc. split; [reflexivity|]. split; [exact HW|]. split; [auto|]. split; [exact HC|]. split; [exact HO|]. split; [congruence|].
    intros c d. exists []. split; [constructor|]. cbn. lra.
  - pose proof (List.Forall_inv HU) as HU1. pose proof (List.Forall_inv_tail HU) as HU2. clear HU.
    destruct HU1 as (I1 & I2 & HKeys & Hord).
    destruct (HS _ I1) as (S1 & M1 & N1). destruct (HS _ I2) as (S2 & M2 & N2).
    destruct (laid_start _ _ _ _ HL I1) as (X1 & B1). destruct (laid_start _ _ _ _ HL I2) as (X2 & B2).
    (* the ordered pair *)
    assert (HP2 : exists i j, order_pair w cn prev = Ok (left_as h0 cn, Some (i, j)) /\ In i ids /\ In j ids /\ (start h0 i < start h0 j)%nat /\ sound E h0 i /\ sound E h0 j /\
        (Nat.max (Nat.max (sh_m (geometry h0 i)) (sh_n (geometry h0 i))) (Nat.max (sh_m (geometry h0 j)) (sh_n (geometry h0 j))) <= M)%nat /\
        pair_keys h0 (left_as h0 cn) i j /\ forall c d W, pair_work E Bs h0 (left_as h0 cn) i j c d W -> conn_work E Bs h0 cn c d W).
    { unfold order_pair. rewrite (kx_start _ _ _ (HW (cn_p1 cn))), (kx_start _ _ _ (HW (cn_p2 cn))), X1, X2. unfold left_as.
      destruct Hord as [Ho|Hr].
      - unfold in_order in Ho. apply Nat.ltb_lt in Ho as Hb. rewrite Hb. exists (cn_p1 cn), (cn_p2 cn).
        split; [reflexivity|]. split; [exact I1|]. split; [exact I2|]. split; [exact Ho|]. split; [exact S1|]. split; [exact S2|]. split; [lia|].
        split; [exact HKeys|]. intros c d W HWk. exact HWk.
      - pose proof (proj1 Hr) as Hlt. replace (start h0 (cn_p1 cn) <? start h0 (cn_p2 cn))%nat with false by (symmetry; apply Nat.ltb_ge; lia).
        apply Nat.ltb_lt in Hlt as Hb. rewrite Hb. exists (cn_p2 cn), (cn_p1 cn).
        split; [reflexivity|]. split; [exact I2|]. split; [exact I1|]. split; [exact Hlt|]. split; [exact S2|]. split; [exact S1|]. split; [lia|].
        split; [apply swap_pair_keys; assumption|]. intros c d W HWk. apply reversed_work; assumption. }
    destruct HP2 as (i & j & P1 & Ii & Ij & Plt & Si & Sj & PM & PK & PW).
    set (w1 := put_conn w k (put_nth pos (left_as h0 cn) (w_conn w k))).
    assert (HW1 : wkept E w0 w1) by exact HW.
    destruct (add_conn_ok E Bs size (left_as h0 cn) i j acc w1 s) as (w2 & K & T & A1 & A2 & A3 & A4 & A5).
    + intros ->. lia.
    + apply (kept_sound E w0 w1 HW1). exact Si.
    + apply (kept_sound E w0 w1 HW1). exact Sj.
    + apply (kept_keys E w0 w1 HW1). exact PK.
    + exact HO.
    + rewrite !(kept_start E w0 w1 HW1), (kept_width E w0 w1 HW1). apply (laid_gap h0 ids 0); assumption.
    + rewrite (kept_start E w0 w1 HW1), (kept_width E w0 w1 HW1). destruct (laid_start _ _ _ _ HL Ij) as (_ & B). lia.
    + rewrite !(kept_geometry E w0 w1 HW1). apply (tables_integrate_le _ _ M); assumption.
    + assert (HW2 : wkept E w0 w2) by (apply (wkept_trans E w0 w1); assumption).
      assert (HC2 : w_conn w2 k = (pre ++ [left_as h0 cn]) ++ l).
      { rewrite A3. unfold w1, put_conn. cbn [w_conn]. rewrite put_same, HC, <- HP, put_nth_app, <- app_assoc. reflexivity. }
      destruct (IH (S pos) (pre ++ [left_as h0 cn]) w2 s (Some (i, j)) (CMat size K) HW2 HU2 (or_intror (ex_intro _ K eq_refl)) HC2) as (w' & m & L1 & L2 & L3 & L4 & L5 & L6 & L7).
      { rewrite app_length. cbn. lia. }
      exists w', m. split.
      { cbn [conn_loop]. unfold abind at 1, aworld at 1. unfold abind at 1, alift at 1. rewrite P1. unfold abind at 1, write_conn at 1. cbn [fst snd]. fold w1.
        unfold abind at 1. rewrite A1. exact L1. }
      split; [exact L2|]. split.
      { intros k' Hk'. rewrite L3 by exact Hk'. rewrite A3. unfold w1, put_conn. cbn [w_conn]. apply put_other. exact Hk'. }
      split; [rewrite L4, <- app_assoc; reflexivity|]. split; [exact L5|]. split.
      { intros _. destruct l as [|cn' l']; [|apply L6; discriminate]. cbn in L1. unfold aret in L1. intro; subst. discriminate. }
      intros c d. destruct (L7 c d) as (Ws & F1 & F2). exists (bilinear size (finalize_symmetric (dense T)) c d :: Ws). split.
      { constructor; [|exact F1]. apply PW. apply (kept_work E w0 w1 HW1). apply A5. }
      rewrite F2. cbn [suml].
      assert (EK : conn_entry (CMat size K) = fun r t => conn_entry acc r t + dense T r t) by (extensionality r; extensionality t; apply A4).
      rewrite EK, finalize_add, bilinear_plus. lra.
Qed.
End Loop.

Theorem get_conn_run E Bs arg w s k M : assembled w s -> (match arg with Some k' => Some k' | None => as_conn s end) = Some k -> as_kC_conn s = None ->
  w_conn w k <> [] -> List.Forall (usable (w_panel w) (as_panels s)) (w_conn w k) ->
  (forall i, In i (as_panels s) -> sound E (w_panel w) i /\ (sh_m (geometry (w_panel w) i) <= M)%nat /\ (sh_n (geometry (w_panel w) i) <= M)%nat) ->
  tables_integrate (e_tables E) Bs M ->
  let size := total_width (w_panel w) (as_panels s) in
  exists w' K, get_kC_conn E Bs arg true w s = (w', mkAsm (as_panels s) (as_conn s) (Some (CMat size K)) (as_cores s), Ok (CMat size K)) /\
    wkept E w w' /\ (forall k', k' <> k -> w_conn w' k' = w_conn w k') /\ w_conn w' k = map (left_as (w_panel w)) (w_conn w k) /\
    (forall r t, K r t = K t r) /\
    forall c d, exists Ws, Forall2 (fun cn => conn_work E Bs (w_panel w) cn c d) (w_conn w k) Ws /\ bilinear size K c d = suml Ws (fun W => W).
Proof.
  intros (Hne & ND & L) Hk Hc Hl HU HS HT size.
  destruct (conn_loop_work E Bs w (as_panels s) M k L HT HS (w_conn w k) 0 [] w s None CZero (wkept_refl E w) HU (or_introl eq_refl) eq_refl eq_refl)
    as (w' & m & L1 & L2 & L3 & L4 & L5 & L6 & L7).
  destruct L5 as [->|[K ->]]; [exfalso; apply L6; [exact Hl|reflexivity]|].
  exists w', (finalize_symmetric K). split.
  { unfold get_kC_conn. unfold abind at 1, aself at 1. rewrite Hk, Hc. unfold abind at 1. rewrite asm_size_total. unfold abind at 1, aworld at 1.
    unfold abind at 1. fold size in L1. fold size. rewrite L1. unfold abind at 1, alift at 1. cbn [cfinal]. reflexivity. }
  split; [exact L2|]. split; [exact L3|]. split; [exact L4|]. split.
  { intros r t. unfold finalize_symmetric. destruct (r <=? t)%nat eqn:A, (t <=? r)%nat eqn:B; try reflexivity.
    - apply Nat.leb_le in A, B. replace t with r by lia. reflexivity.
    - apply Nat.leb_gt in A, B. lia. }
  intros c d. destruct (L7 c d) as (Ws & F1 & F2). exists Ws. split; [exact F1|]. change (bilinear size (finalize_symmetric K) c d = bilinear size (finalize_symmetric (fun _ _ => 0)) c d + suml Ws (fun W => W)) in F2. rewrite F2.
  replace (finalize_symmetric (fun _ _ => 0)) with (fun _ _ : nat => 0) by (extensionality r; extensionality t; unfold finalize_symmetric; destruct (r <=? t)%nat; reflexivity).
  rewrite bilinear_zero. lra.
Qed.
