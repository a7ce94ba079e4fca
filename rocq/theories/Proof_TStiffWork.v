(* The assembly of a T-stiffened panel: the work of its connections, the loads. *)
From Coq Require Import Reals List Arith Bool Lra Lia.
From Coquelicot Require Import Coquelicot.
From Verif Require Import Base_Sum Model_Types Model_Coo Model_Result Model_Num Model_DB Model_Shell Model_Fext Model_Multi Model_New Model_Cylinder Model_TStiff
  Spec_Algebra Spec_Integral Spec_Panel Spec_Shell Spec_Fext Spec_Conn Spec_Multi Spec_MultiConn Spec_Cylinder Spec_TStiff Proof_MultiTop Proof_MultiApi Proof_Cylinder Proof_Shell Proof_FieldApi Proof_Fext Proof_TStiff.
Import ListNotations.
Open Scope R_scope.

Definition stack_no (D : tstiff) (i : nat) : list R := match group_no i with 0%nat => ts_stack_skin D | 1%nat => ts_stack_base D | _ => ts_stack_flange D end.
Definition m_no (D : tstiff) (i : nat) : nat := match group_no i with 0%nat => ts_m D | 1%nat => ts_mb D | _ => ts_mf D end.
Definition n_no (D : tstiff) (i : nat) : nat := match group_no i with 0%nat => ts_n D | 1%nat => ts_nb D | _ => ts_nf D end.
Definition N_no (D : tstiff) (i : nat) : R := match group_no i with 0%nat => ts_Nskin D | 1%nat => ts_Nbase D | _ => ts_Nflange D end.
Lemma panel_data D i : (1 <= i <= 15)%nat -> let p := np_panel (panel_no D i) in
  pn_model p = None /\ pn_stack p = stack_no D i /\ pn_plyt p = Some (ts_plyt D) /\ pn_plyts p = [] /\ pn_laminaprop p = ts_prop D /\ pn_laminaprops p = [] /\
  pn_rho p = ts_rho D /\ pn_rhos p = [] /\ pn_offset p = 0 /\ sh_m (pn_sh p) = m_no D i /\ sh_n (pn_sh p) = n_no D i /\ pn_N p = (N_no D i, 0, 0).
Proof.
  revert i. apply (fifteen (fun i => let p := np_panel (panel_no D i) in
  pn_model p = None /\ pn_stack p = stack_no D i /\ pn_plyt p = Some (ts_plyt D) /\ pn_plyts p = [] /\ pn_laminaprop p = ts_prop D /\ pn_laminaprops p = [] /\
  pn_rho p = ts_rho D /\ pn_rhos p = [] /\ pn_offset p = 0 /\ sh_m (pn_sh p) = m_no D i /\ sh_n (pn_sh p) = n_no D i /\ pn_N p = (N_no D i, 0, 0)));
  cbv zeta; unfold panel_no; cbn [Nat.sub nth ts_panels]; unfold skin, tbase, tflange; cbn [np_panel]; destruct (ts_points D) as [[[[? ?] [? ?]] [? ?]]|]; repeat split.
Qed.

Lemma put_conn_panel w q l : w_panel (put_conn w q l) = w_panel w.
Proof. reflexivity. Qed.
Lemma put_conn_conn w q l : w_conn (put_conn w q l) q = l.
Proof. cbn. unfold put. rewrite Nat.eqb_refl. reflexivity. Qed.
Lemma spanned_object l d k ids o q cs w i : (i < length l)%nat ->
  let x := w_panel (put_conn (set_spans ids o (store k l w)) q cs) (k + i) in xp x = np_panel (nth i l d) /\ xp_group x = np_group (nth i l d) /\ xp_loads x = no_loads.
Proof.
  intro Hi. cbv zeta. rewrite put_conn_panel. destruct (spans_panel ids o (store k l w) (k + i)) as (-> & -> & ->). rewrite (store_at l d k w i Hi). split; [reflexivity|split; reflexivity].
Qed.
Lemma put_assembled ids q l w : ids <> [] -> NoDup ids -> assembled (put_conn (set_spans ids 0 w) q l) (mkAsm ids None None 4).
Proof. intros H1 H2. destruct (new_assembly_ok ids None w H1 H2) as (A & B & C). split; [exact A|]. split; [exact B|exact C]. Qed.
Lemma create_asm D k q w : snd (create_tstiff D k q w) = mkAsm (seq k 15) None None 4.
Proof. reflexivity. Qed.
Lemma create_eq D k q w : fst (create_tstiff D k q w) = put_conn (set_spans (seq k 15) 0 (store k (ts_panels D) w)) q (valid_conns D k).
Proof. reflexivity. Qed.
Lemma laid_lt h : forall ids o a b l1 l2 l3, ids = l1 ++ a :: l2 ++ b :: l3 -> laid_out h ids o -> (forall i, In i ids -> (0 < width (h i))%nat) -> (start h a < start h b)%nat.
Proof.
  assert (G : forall ids o b, laid_out h ids o -> In b ids -> (o <= start h b)%nat).
  { induction ids as [|i ids IH]; intros o b L [].
    - subst. cbn [laid_out] in L. destruct L as (L & _). unfold start. rewrite L. cbn. lia.
    - cbn [laid_out] in L. destruct L as (_ & _ & L). specialize (IH _ _ L H). lia. }
  induction ids as [|i ids IH]; intros o a b l1 l2 l3 E L Hw; [destruct l1; discriminate|]. cbn [laid_out] in L. destruct L as (L1 & L2 & L3). destruct l1 as [|i1 l1]; cbn in E; injection E as -> E.
  - assert (B : (o + width (h a) <= start h b)%nat) by (apply (G ids); [exact L3|rewrite E; apply in_elt]).
    unfold start at 1. rewrite L1. cbn. specialize (Hw a (or_introl eq_refl)). lia.
  - apply (IH (o + width (h i1))%nat a b l1 l2 l3 E L3). intros j Hj. apply Hw. right. exact Hj.
Qed.
Lemma seq_at k n i j : (i < j)%nat -> (j < n)%nat -> seq k n = seq k i ++ (k + i)%nat :: seq (k + i + 1) (j - i - 1) ++ (k + j)%nat :: seq (k + j + 1) (n - j - 1).
Proof.
  intros H1 H2. replace n with (i + (1 + ((j - i - 1) + (1 + (n - j - 1)))))%nat at 1 by lia. rewrite seq_app. f_equal.
  rewrite seq_app. cbn [seq app]. f_equal. rewrite seq_app. f_equal. rewrite seq_app. cbn [seq app]. f_equal; [lia|f_equal; lia].
Qed.
Lemma seq_lt h k n o i j : laid_out h (seq k n) o -> (forall i, (i < n)%nat -> (0 < width (h (k + i)%nat))%nat) -> (i < j)%nat -> (j < n)%nat -> (start h (k + i) < start h (k + j))%nat.
Proof.
  intros L Hw H1 H2. apply (laid_lt h (seq k n) o _ _ _ _ _ (seq_at k n i j H1 H2) L). intros x Hx. apply in_seq in Hx. replace x with (k + (x - k))%nat by lia. apply Hw. lia.
Qed.
Section Asm.
Variables (D : tstiff) (k q : nat) (w : world).
Notation W := (fst (create_tstiff D k q w)).
Notation S0 := (snd (create_tstiff D k q w)).
Notation p i := (k + (i - 1))%nat.
Lemma ts_conn : w_conn W q = valid_conns D k.
Proof using Type. rewrite create_eq. apply put_conn_conn. Qed.
Lemma ts_world i : (1 <= i <= 15)%nat -> let x := w_panel W (p i) in xp x = np_panel (panel_no D i) /\ xp_group x = np_group (panel_no D i) /\ xp_loads x = no_loads.
Proof using Type.
  intro Hi. assert (HL : (i - 1 < length (ts_panels D))%nat) by (unfold ts_panels; cbn [length]; lia). rewrite create_eq.
  exact (spanned_object (ts_panels D) (skin D 0 0 0 0 0) k (seq k 15) 0 q (valid_conns D k) w (i - 1) HL).
Qed.
Lemma ts_assembled : assembled W S0.
Proof using Type.
  rewrite create_eq, create_asm. apply put_assembled; [discriminate|apply seq_NoDup].
Qed.
Lemma ts_order i j : (1 <= i)%nat -> (i < j)%nat -> (j <= 15)%nat -> (forall i, (1 <= i <= 15)%nat -> (0 < m_no D i)%nat /\ (0 < n_no D i)%nat) -> (start (w_panel W) (p i) < start (w_panel W) (p j))%nat.
Proof using Type.
  intros H1 H2 H3 H. destruct ts_assembled as (_ & _ & L). rewrite create_asm in L. cbn [as_panels] in L.
  apply (seq_lt (w_panel W) k 15 0 (i - 1) (j - 1) L); [|lia|lia]. intros x Hx. replace x with (x + 1 - 1)%nat by lia. assert (Hx' : (1 <= x + 1 <= 15)%nat) by lia. unfold width. destruct (ts_world _ Hx') as (-> & _).
  destruct (panel_data D _ Hx') as (_ & _ & _ & _ & _ & _ & _ & _ & _ & -> & -> & _). destruct (H _ Hx'). lia.
Qed.
Lemma ts_geom i : (1 <= i <= 15)%nat -> sh_a (geometry (w_panel W) (p i)) = len (panel_no D i) /\ sh_b (geometry (w_panel W) (p i)) = wid (panel_no D i) /\
  sh_m (geometry (w_panel W) (p i)) = m_no D i /\ sh_n (geometry (w_panel W) (p i)) = n_no D i.
Proof using Type.
  intro Hi. unfold geometry. destruct (ts_world i Hi) as (-> & _). unfold kernel_view, len, wid. cbn [sh_a sh_b sh_m sh_n].
  destruct (panel_data D i Hi) as (_ & _ & _ & _ & _ & _ & _ & _ & _ & -> & -> & _). repeat split.
Qed.
Lemma ts_thick i : (1 <= i <= 15)%nat -> thickness (w_panel W) (p i) = height_of D (stack_no D i).
Proof using Type.
  intro Hi. unfold thickness, height_of. destruct (ts_world i Hi) as (-> & _). unfold rebuilt_plyts. destruct (panel_data D i Hi) as (_ & -> & -> & -> & _). cbn [default].
  induction (stack_no D i) as [|z l IH]; [cbn; ring|]. cbn [map length]. rewrite S_INR. cbn [suml fold_right map]. unfold suml in *. cbn [map fold_right] in *. rewrite IH. ring.
Qed.
Lemma ts_lam E i : (1 <= i <= 15)%nat -> lam_of E (w_panel W) (p i) = laminate_of E D (stack_no D i).
Proof using Type.
  intro Hi. unfold lam_of, laminate_of, rebuilt_lam, rebuilt_plyts, rebuilt_props, rebuilt_rhos. destruct (ts_world i Hi) as (-> & _).
  destruct (panel_data D i Hi) as (_ & -> & -> & -> & -> & -> & -> & -> & -> & _). reflexivity.
Qed.
End Asm.

Section Energy.
Variables (D : tstiff) (k q : nat) (w : world) (E : env) (Bs : basis) (M : nat).
Hypothesis HD : well_sized D.
Hypothesis HM : material_given E D M.
Hypothesis HT : tables_integrate (e_tables E) Bs M.
Notation W := (fst (create_tstiff D k q w)).
Notation S0 := (snd (create_tstiff D k q w)).
Notation p i := (k + (i - 1))%nat.
Notation h := (w_panel W).
Lemma terms_no i : (1 <= i <= 15)%nat -> (0 < m_no D i <= M)%nat /\ (0 < n_no D i <= M)%nat.
Proof using HM.
  intro Hi. destruct HM as (_ & _ & F). rewrite Forall_forall in F. unfold m_no, n_no. destruct (group_no i) as [|[|g]]; split; apply F; cbn; tauto.
Qed.
Lemma stack_fine i : (1 <= i <= 15)%nat -> stack_no D i <> [] /\ stiff (laminate_of E D (stack_no D i)).
Proof using HM.
  intro Hi. destruct HM as (_ & F & _). rewrite Forall_forall in F. unfold stack_no. destruct (group_no i) as [|[|g]]; apply F; cbn; tauto.
Qed.
Lemma len_pos i : (1 <= i <= 15)%nat -> 0 < len (panel_no D i) /\ 0 < wid (panel_no D i).
Proof using HD.
  intro Hi. destruct (sizes D HD) as (S1 & S2 & S3 & S4 & S5 & S6 & S7 & _). destruct (panel_place D i Hi) as (_ & -> & _ & ->). revert i Hi.
  apply (fifteen (fun i => 0 < snd (fst (place D i)) /\ 0 < snd (snd (place D i)))); cbn [place nth fst snd]; split; assumption.
Qed.
Lemma ts_sound i : (1 <= i <= 15)%nat -> sound E h (p i).
Proof using HD HM.
  intro Hi. unfold sound. destruct (ts_geom D k q w i Hi) as (-> & -> & _). rewrite (ts_lam D k q w E i Hi). destruct (ts_world D k q w i Hi) as (-> & _).
  destruct (len_pos i Hi) as [L1 L2]. destruct (stack_fine i Hi) as [F1 F2]. destruct (panel_data D i Hi) as (P1 & P2 & P3 & P4 & P5 & P6 & _). destruct HM as (Hp & _).
  split; [|split; [exact L1|split; [exact L2|exact F2]]]. unfold complete. rewrite P1, P2, P3, P4, P5, P6.
  split; [discriminate|]. split; [exact F1|]. split; [right; exact Hp|right; discriminate].
Qed.
Lemma meets_usable cn : In cn (valid_conns D k) -> usable h (seq k 15) cn.
Proof using HD HM.
  intro H. apply valid_in in H as (f & H & _). unfold ts_conns, ssy, ssx, sb, bfy in H. cbv beta zeta in H.
  assert (G : forall i, (1 <= i <= 15)%nat -> (0 < m_no D i)%nat /\ (0 < n_no D i)%nat) by (intros i Hi; destruct (terms_no i Hi); lia).
  assert (U : forall i j fn a b c d, (i < j)%nat -> (j < 15)%nat -> (fn = SSycte /\ c <> None /\ d <> None \/ fn = BFycte /\ c <> None /\ d <> None \/ fn = SSxcte /\ a <> None /\ b <> None \/ fn = SB) ->
    usable h (seq k 15) (mkConn (k + i) (k + j) fn a b c d None)).
  { intros i j fn a b c d H2 H3 H4. unfold usable. cbn [cn_p1 cn_p2]. split; [apply in_seq; lia|]. split; [apply in_seq; lia|]. split.
    - unfold has_keys, pair_keys. cbn [cn_func cn_x1 cn_x2 cn_y1 cn_y2]. destruct H4 as [(-> & A)|[(-> & A)|[(-> & A)| ->]]]; [exact A|exact A|exact A|exact I].
    - left. unfold in_order. cbn [cn_p1 cn_p2]. replace i with (i + 1 - 1)%nat by lia. replace j with (j + 1 - 1)%nat by lia. apply ts_order; [lia|lia|lia|exact G]. }
  cbn [In] in H. repeat (destruct H as [H|H]; [injection H as <- <-;
    apply U; [lia|lia|]|]); [..|contradiction];
  first [left; split; [reflexivity|split; discriminate]|right; left; split; [reflexivity|split; discriminate]|right; right; left; split; [reflexivity|split; discriminate]|right; right; right; reflexivity].
Qed.

(* ---- no jumps *)
Variables (c : nat -> R) (Fs Fb Ff : displacements).
Definition field_no (i : nat) : displacements := match group_no i with 0%nat => Fs | 1%nat => Fb | _ => Ff end.
Hypothesis Hshow : forall i, (1 <= i <= 15)%nat -> shows D Bs h k c (field_no i) i.
Hypothesis Hst : stuck D Fs Fb.
Hypothesis Hfl : stands_on D Fb Ff.
Lemma jump_free cn : meets D k cn -> no_jump Bs h cn c.
Proof using HD HM Hshow Hst Hfl.
  intros (i & j & Hi & Hj & H). cbv zeta in H.
  destruct (ts_geom D k q w i Hi) as (Ai & Bi & _), (ts_geom D k q w j Hj) as (Aj & Bj & _). destruct (len_pos i Hi) as [Li Wi]. destruct (len_pos j Hj) as [Lj Wj].
  pose proof (Hshow i Hi) as Si. pose proof (Hshow j Hj) as Sj. unfold shows in Si, Sj.
  rewrite !panel_group in H by assumption.
  destruct H as [(G & (H1 & H2 & H3) & ->)|[(G & (H1 & H2 & H3) & ->)|[(G1 & G2 & (H1 & H2 & H3 & H4) & H5 & ->)|(G1 & G2 & H1 & H2 & ->)]]].
  - unfold no_jump. cbn [cn_func cn_p1 cn_p2 cn_y1 cn_y2]. intros y1 y2 x E1 E2 Hx. injection E1 as <-. injection E2 as <-. rewrite Ai, Aj in *. rewrite <- H2.
    replace (x * (len (panel_no D i) / len (panel_no D i))) with x by (field; lra).
    assert (EF : field_no i = field_no j) by (unfold field_no; rewrite G; reflexivity).
    unfold jumps_SSycte. repeat (apply List.Forall_cons; [cbn [snd]; rewrite Si by lra; rewrite Sj by lra; rewrite EF, H1, H3, Rplus_0_r; ring|]). apply List.Forall_nil.
  - unfold no_jump. cbn [cn_func cn_p1 cn_p2 cn_x1 cn_x2]. intros x1 x2 y E1 E2 Hy. injection E1 as <-. injection E2 as <-. rewrite Bi, Bj in *. rewrite <- H2.
    replace (y * (wid (panel_no D i) / wid (panel_no D i))) with y by (field; lra).
    assert (EF : field_no i = field_no j) by (unfold field_no; rewrite G; reflexivity).
    unfold jumps_SSxcte. repeat (apply List.Forall_cons; [cbn [snd]; rewrite Si by lra; rewrite Sj by lra; rewrite EF, H1, H3, Rplus_0_r; ring|]). apply List.Forall_nil.
  - unfold no_jump. cbn [cn_func cn_p1 cn_p2]. intros xi eta Hxi Heta. rewrite Ai, Aj, Bi, Bj, <- H3, <- H4.
    rewrite (ts_thick D k q w i Hi), (ts_thick D k q w j Hj). unfold stack_no. rewrite G1, G2.
    assert (X : 0 <= (xi + 1) * len (panel_no D i) / 2 <= len (panel_no D i)) by (split; nra).
    assert (Y : 0 <= (eta + 1) * wid (panel_no D i) / 2 <= wid (panel_no D i)) by (split; nra).
    set (x := (xi + 1) * len (panel_no D i) / 2) in *. set (y := (eta + 1) * wid (panel_no D i) / 2) in *.
    assert (FI : field_no i = Fs) by (unfold field_no; rewrite G1; reflexivity). assert (FJ : field_no j = Fb) by (unfold field_no; rewrite G2; reflexivity).
    rewrite FI in Si. rewrite FJ in Sj.
    assert (PL : 0 <= np_x0 (panel_no D i) + x <= ts_a D /\ ts_ys D - ts_bb D / 2 <= np_y0 (panel_no D i) + y <= ts_ys D + ts_bb D / 2 /\ ~ debonded D (np_x0 (panel_no D i) + x)).
    { destruct (sizes D HD) as (S1 & S2 & S3 & S4 & S5 & S6 & S7 & E1 & E2 & E3 & E4 & E5).
      destruct (panel_place D i Hi) as (P1 & P2 & P3 & P4), (panel_place D j Hj) as (Q1 & Q2 & Q3 & Q4).
      assert (PI9 : (1 <= i <= 9)%nat) by (split; [lia|]; revert G1; unfold group_no; destruct (Nat.leb_spec i 9); [lia|destruct (Nat.even i); discriminate]).
      assert (PX : 0 <= np_x0 (panel_no D i) + x <= ts_a D).
      { assert (C : covers (panel_no D i) (np_x0 (panel_no D i) + x) (np_y0 (panel_no D i))) by (split; lra). apply (grid_within D HD i _ _ PI9) in C. exact (proj1 C). }
      split; [exact PX|]. split.
      - rewrite H2, Q3. rewrite H4, Q4 in Y. revert Y. clear - Hj G2 S6. intro Y. destruct j as [|[|[|[|[|[|[|[|[|[|[|[|[|[|[|[|j]]]]]]]]]]]]]]]]; try lia; try discriminate G2; cbn [place fst snd nth] in *; lra.
      - destruct X as [X1 X2]. destruct (Rle_lt_or_eq_dec _ _ X1) as [X1'|X1']; [destruct (Rle_lt_or_eq_dec _ _ X2) as [X2'|X2']|].
        + apply H5. lra.
        + intros [DB1 DB2]. set (e := Rmin (len (panel_no D i)) (np_x0 (panel_no D i) + x - (ts_a D - ts_defect_a D * ts_a D) / 2) / 2).
          assert (He : 0 < e) by (unfold e; apply Rdiv_lt_0_compat; [apply Rmin_glb_lt; lra|lra]).
          pose proof (Rmin_l (len (panel_no D i)) (np_x0 (panel_no D i) + x - (ts_a D - ts_defect_a D * ts_a D) / 2)) as Z1.
          pose proof (Rmin_r (len (panel_no D i)) (np_x0 (panel_no D i) + x - (ts_a D - ts_defect_a D * ts_a D) / 2)) as Z2.
          apply (H5 (np_x0 (panel_no D i) + x - e)); [unfold e in *; split; lra|]. split; [exact DB1|]. unfold e in *; split; lra.
        + intros [DB1 DB2]. set (e := Rmin (len (panel_no D i)) ((ts_a D + ts_defect_a D * ts_a D) / 2 - (np_x0 (panel_no D i) + x)) / 2).
          assert (He : 0 < e) by (unfold e; apply Rdiv_lt_0_compat; [apply Rmin_glb_lt; lra|lra]).
          pose proof (Rmin_l (len (panel_no D i)) ((ts_a D + ts_defect_a D * ts_a D) / 2 - (np_x0 (panel_no D i) + x))) as Z1.
          pose proof (Rmin_r (len (panel_no D i)) ((ts_a D + ts_defect_a D * ts_a D) / 2 - (np_x0 (panel_no D i) + x))) as Z2.
          apply (H5 (np_x0 (panel_no D i) + x + e)); [unfold e in *; split; lra|]. split; [exact DB1|]. unfold e in *; split; lra. }
    destruct PL as (PL1 & PL2 & PL3). destruct (Hst _ _ PL1 PL2 PL3) as (T1 & T2 & T3). unfold jumps_SB.
    repeat (apply List.Forall_cons; [cbn [snd]; rewrite !Si by lra; rewrite Sj by lra; rewrite <- H1, <- H2, ?T1, ?T2, ?T3; ring|]). apply List.Forall_nil.
  - unfold no_jump. cbn [cn_func cn_p1 cn_p2 cn_y1 cn_y2]. intros y1 y2 x E1 E2 Hx. injection E1 as <-. injection E2 as <-. rewrite Ai, Aj in *. rewrite <- H2.
    replace (x * (len (panel_no D i) / len (panel_no D i))) with x by (field; lra).
    assert (FI : field_no i = Fb) by (unfold field_no; rewrite G1; reflexivity). assert (FJ : field_no j = Ff) by (unfold field_no; rewrite G2; reflexivity).
    rewrite FI in Si. rewrite FJ in Sj.
    destruct (sizes D HD) as (S1 & S2 & S3 & S4 & S5 & S6 & S7 & E1 & E2 & E3 & E4 & E5).
    destruct (panel_place D i Hi) as (P1 & P2 & P3 & P4), (panel_place D j Hj) as (Q1 & Q2 & Q3 & Q4).
    assert (PX : 0 <= np_x0 (panel_no D i) + x <= ts_a D /\ np_y0 (panel_no D i) + wid (panel_no D i) / 2 = ts_ys D /\ np_y0 (panel_no D j) + 0 = 0).
    { rewrite P1, P3, P4, Q3. rewrite P2 in Hx. clear - Hi Hj G1 G2 Hx S1 S2 S3 E1.
      split; [|split].
      - destruct i as [|[|[|[|[|[|[|[|[|[|[|[|[|[|[|[|i]]]]]]]]]]]]]]]]; try lia; try discriminate G1; cbn [place fst snd nth] in *; lra.
      - destruct i as [|[|[|[|[|[|[|[|[|[|[|[|[|[|[|[|i]]]]]]]]]]]]]]]]; try lia; try discriminate G1; cbn [place fst snd nth] in *; lra.
      - destruct j as [|[|[|[|[|[|[|[|[|[|[|[|[|[|[|[|j]]]]]]]]]]]]]]]]; try lia; try discriminate G2; cbn [place fst snd nth] in *; lra. }
    destruct PX as (PX1 & PX2 & PX3). destruct (Hfl _ PX1) as (T1 & T2 & T3 & T4). unfold jumps_BFycte.
    repeat (apply List.Forall_cons; [cbn [snd]; rewrite Si by lra; rewrite Sj by lra; rewrite PX2, PX3, <- H1, ?T1, ?T2, ?T3, ?T4; ring|]). apply List.Forall_nil.
Qed.
End Energy.

Theorem ts_seams D k q w E Bs M : well_sized D -> material_given E D M -> tables_integrate (e_tables E) Bs M ->
  let W := fst (create_tstiff D k q w) in let h := w_panel W in let size := total_width h (seq k 15) in
  exists w2 s2 K, get_kC_conn E Bs (Some q) true W (snd (create_tstiff D k q w)) = (w2, s2, Ok (CMat size K)) /\
    (forall i j, K i j = K j i) /\
    (forall c d, exists Ws, Forall2 (fun cn => conn_work E Bs h cn c d) (w_conn W q) Ws /\ bilinear size K c d = suml Ws (fun W => W)) /\
    (forall c, 0 <= quad size K c) /\
    (forall c Fs Fb Ff, (forall i, (1 <= i <= 9)%nat -> shows D Bs h k c Fs i) -> (forall i, In i [10; 12; 14]%nat -> shows D Bs h k c Fb i) ->
       (forall i, In i [11; 13; 15]%nat -> shows D Bs h k c Ff i) -> stuck D Fs Fb -> stands_on D Fb Ff -> forall d, bilinear size K c d = 0).
Proof.
  intros HD HM HT W h size.
  destruct (conn_stiffness E Bs M q (Some q) W (snd (create_tstiff D k q w))) as (w2 & s2 & K & G1 & G2 & G3 & G4 & G5).
  - apply ts_assembled.
  - rewrite create_asm. reflexivity.
  - reflexivity.
  - unfold W. rewrite ts_conn. unfold valid_conns, ts_conns. discriminate.
  - unfold W. rewrite ts_conn, create_asm. cbn [as_panels]. apply Forall_forall. intros cn Hin. exact (meets_usable D k q w E M HD HM cn Hin).
  - rewrite create_asm. cbn [as_panels]. intros x Hx. apply in_seq in Hx. replace x with (k + ((x - k + 1) - 1))%nat by lia. assert (Hx' : (1 <= x - k + 1 <= 15)%nat) by lia.
    split; [exact (ts_sound D k q w E M HD HM _ Hx')|]. destruct (ts_geom D k q w _ Hx') as (_ & _ & G1 & G2). fold W in G1, G2. rewrite G1, G2. destruct (terms_no D E M HM _ Hx'). lia.
  - exact HT.
  - rewrite create_asm in G1, G3, G4, G5. cbn [as_panels] in G1, G3, G4, G5. rewrite create_asm. exists w2, s2, K. split; [exact G1|]. split; [exact G2|]. split; [exact G3|]. split; [exact G4|].
    intros c Fs Fb Ff H1 H2 H3 H4 H5. apply G5. unfold W. rewrite ts_conn. apply Forall_forall. intros cn Hin. apply (conns_meet D HD) in Hin.
    apply (jump_free D k q w E Bs M HD HM c Fs Fb Ff); try assumption.
    intros i Hi. unfold field_no. destruct i as [|[|[|[|[|[|[|[|[|[|[|[|[|[|[|[|i]]]]]]]]]]]]]]]]; try lia; cbn [group_no Nat.leb Nat.even]; first [apply H1; lia|apply H2; cbn; tauto|apply H3; cbn; tauto].
Qed.

(* ------------------------------------------------- loads *)
Lemma dot_put_slice N o l f d : (o + length l <= N)%nat -> (forall i, (i < length l)%nat -> f (o + i)%nat = 0) ->
  dot N (put_slice o l f) d = dot N f d + dot (length l) (fun i => nth i l 0) (fun i => d (o + i)%nat).
Proof.
  intros H1 H2. unfold dot. replace N with (o + (length l + (N - o - length l)))%nat by lia.
  assert (SA : forall a b g, sumn (a + b) g = sumn a g + sumn b (fun i => g (a + i)%nat)).
  { intros a b g. induction b as [|b IH]; [rewrite Nat.add_0_r; cbn; ring|]. rewrite Nat.add_succ_r. cbn [sumn]. rewrite IH. ring. }
  rewrite !SA. unfold put_slice.
  rewrite (sumn_ext o _ (fun i => f i * d i)).
  2:{ intros i Hi. destruct (Nat.leb_spec o i); [lia|]. reflexivity. }
  rewrite (sumn_ext (length l) _ (fun i => nth i l 0 * d (o + i)%nat)).
  2:{ intros i Hi. destruct (Nat.leb_spec o (o + i)); [|lia]. destruct (Nat.ltb_spec (o + i) (o + length l)); [|lia]. cbn [andb]. replace (o + i - o)%nat with i by lia. reflexivity. }
  rewrite (sumn_ext (N - o - length l) _ (fun i => f (o + (length l + i))%nat * d (o + (length l + i))%nat)).
  2:{ intros i Hi. destruct (Nat.ltb_spec (o + (length l + i)) (o + length l)); [lia|]. rewrite andb_false_r. reflexivity. }
  rewrite (sumn_ext (length l) (fun i => f (o + i)%nat * d (o + i)%nat) (fun _ => 0)) by (intros i Hi; rewrite H2 by exact Hi; ring).
  assert (Z : sumn (length l) (fun _ => 0) = 0) by (clear; generalize (length l); intro n; induction n as [|n IH]; [reflexivity|]; cbn [sumn]; rewrite IH; ring). rewrite Z. ring.
Qed.
Lemma load_one E Bv x p' l : xp_loads x = no_loads -> let o := edge_load 0 (fun _ => Nxx_of (xp x)) x in
  calc_fext E Bv (xp_loads o) 1 SNone 0 (xp o) = (p', Ok l) ->
  length l = width x /\ kernel_view p' = kernel_view (xp x) /\ pn_N p' = pn_N (xp x) /\
  forall d, dot (length l) (fun i => nth i l 0) d = along_side (e_rule E) (sh_n (kernel_view (xp x))) (sh_b (kernel_view (xp x))) (fun y => Nxx_of (xp x) * ritz_field Bv (kernel_view (xp x)) d 0%nat 0 y).
Proof.
  intros HL o H. unfold o, edge_load, with_loads in H. cbn [xp xp_loads] in H. rewrite HL in H. apply calc_fext_spec in H. destruct H as (HR & Hl & Hd).
  apply rebuild_inv in HR. destruct HR as (Hin & Hr & _ & _ & _ & _ & _ & _ & _ & _ & _ & _ & Hb & Hg & _).
  assert (Hv : kernel_view p' = kernel_view (xp x)) by (unfold kernel_view; rewrite (si_sh _ _ Hin), Hr, Hb, Hg; reflexivity).
  split; [exact Hl|]. split; [exact Hv|]. split; [exact (si_N _ _ Hin)|]. intro d. etransitivity; [exact (Hd d)|]. rewrite Hv.
  unfold constant_work, incremented_work, add_distr, no_loads. cbn [ld_point ld_distr ld_ppd ld_dpd ld_point_inc ld_distr_inc ld_ppd_inc ld_dpd_inc app].
  unfold suml. cbn [map fold_right]. unfold line_work. cbn [dl_x].
  replace (0 + (along_side (e_rule E) (sh_n (kernel_view (xp x))) (sh_b (kernel_view (xp x))) (density (Uof Bv (kernel_view (xp x)) 0 d) (mkDload (Some 0) None (Some (fun _ : R => Nxx_of (xp x))) None None)) + 0) + 0 + 0 + 1 * (0 + 0 + 0 + 0))
    with (along_side (e_rule E) (sh_n (kernel_view (xp x))) (sh_b (kernel_view (xp x))) (density (Uof Bv (kernel_view (xp x)) 0 d) (mkDload (Some 0) None (Some (fun _ : R => Nxx_of (xp x))) None None))) by ring.
  unfold along_side. apply suml_ext. intros t _. f_equal. unfold density, work_at, comp. cbn [dl_x dl_y dl_fx dl_fy dl_fz]. unfold Uof, slice_of.
  rewrite !Rmult_0_l, !Rplus_0_r. reflexivity.
Qed.
Definition apart (h : nat -> xpanel) (i j : nat) : Prop := (start h i + width (h i) <= start h j)%nat \/ (start h j + width (h j) <= start h i)%nat.
Lemma load_all E Bv N : forall ids w f w' g, NoDup ids ->
  (forall i, In i ids -> xp_loads (w_panel w i) = no_loads /\ (start (w_panel w) i + width (w_panel w i) <= N)%nat /\ forall r, (r < width (w_panel w i))%nat -> f (start (w_panel w) i + r)%nat = 0) ->
  (forall i j, In i ids -> In j ids -> i <> j -> apart (w_panel w) i j) ->
  load_edges E Bv ids w f = (w', Ok g) ->
  (forall d, dot N g d = dot N f d + suml ids (fun i => edge_work E Bv (w_panel w) i d)) /\
  (forall i, In i ids -> axial_force (w_panel w' i) = Nxx_of (xp (w_panel w i)) * sh_b (geometry (w_panel w) i)) /\
  (forall i, ~ In i ids -> w_panel w' i = w_panel w i).
Proof.
  induction ids as [|i ids IH]; intros w f w' g ND HI HA H.
  - cbn in H. injection H as <- <-. split; [intro d; unfold suml; cbn; ring|]. split; [intros i []|reflexivity].
  - cbn [load_edges] in H. cbv zeta in H. destruct (HI i (or_introl eq_refl)) as (I1 & I2 & I3).
    destruct (calc_fext E Bv _ 1 SNone 0 _) as [p' [l|e]] eqn:EC; [|discriminate].
    destruct (load_one E Bv (w_panel w i) p' l I1 EC) as (L1 & L2 & L3 & L4).
    inversion ND as [|? ? N1 N2]; subst.
    set (w1 := put_panel (put_panel w i (edge_load 0 (fun _ : R => Nxx_of (xp (w_panel w i))) (w_panel w i))) i (with_panel (edge_load 0 (fun _ : R => Nxx_of (xp (w_panel w i))) (w_panel w i)) p')) in H.
    assert (W1 : forall j, j <> i -> w_panel w1 j = w_panel w j).
    { intros j Hj. unfold w1, put_panel. cbn [w_panel]. unfold put. destruct (Nat.eqb_spec j i); [congruence|reflexivity]. }
    assert (W2 : w_panel w1 i = with_panel (edge_load 0 (fun _ : R => Nxx_of (xp (w_panel w i))) (w_panel w i)) p').
    { unfold w1, put_panel. cbn [w_panel]. unfold put. rewrite Nat.eqb_refl. reflexivity. }
    change (default 0%nat (xp_start (edge_load 0 (fun _ : R => Nxx_of (xp (w_panel w i))) (w_panel w i)))) with (start (w_panel w) i) in H.
    assert (NE : forall j, In j ids -> j <> i) by (intros j Hj ->; contradiction).
    apply IH in H.
    + destruct H as (H1 & H2 & H3). split; [|split].
      * intro d. rewrite H1. rewrite dot_put_slice; [|rewrite L1; exact I2|intros r Hr; apply I3; rewrite <- L1; exact Hr]. rewrite L4.
        replace (suml (i :: ids) (fun i0 => edge_work E Bv (w_panel w) i0 d)) with (edge_work E Bv (w_panel w) i d + suml ids (fun i0 => edge_work E Bv (w_panel w1) i0 d)).
        { rewrite <- Rplus_assoc. reflexivity. }
        unfold suml at 2. cbn [map fold_right]. f_equal. apply suml_ext. intros j Hj. unfold edge_work, geometry, moves, geometry, start. cbv zeta. rewrite (W1 j (NE j Hj)). reflexivity.
      * intros j [<-|Hj]; [|rewrite (H2 j Hj); unfold geometry; rewrite (W1 j (NE j Hj)); reflexivity].
        rewrite H3 by exact N1. rewrite W2. unfold axial_force, with_panel, edge_load, with_loads. cbn [xp_loads xp]. rewrite I1. unfold add_distr, no_loads. cbn [ld_distr app]. unfold suml. cbn [map fold_right dl_x dl_fx].
        assert (SB0 : sh_b (pn_sh p') = sh_b (geometry (w_panel w) i)) by (unfold geometry; rewrite <- L2; reflexivity). rewrite SB0, RInt_const. unfold scal. cbn. unfold mult. cbn. ring.
      * intros j Hj. rewrite H3 by (intro; apply Hj; right; assumption). apply W1. intros ->. apply Hj. left. reflexivity.
    + exact N2.
    + intros j Hj. assert (SJ : start (w_panel w1) j = start (w_panel w) j) by (unfold start; rewrite (W1 j (NE j Hj)); reflexivity).
      rewrite SJ, (W1 j (NE j Hj)). destruct (HI j (or_intror Hj)) as (J1 & J2 & J3). split; [exact J1|]. split; [exact J2|].
      intros r Hr. unfold put_slice. destruct (HA i j (or_introl eq_refl) (or_intror Hj)) as [HH|HH]; [intros ->; contradiction| |].
      * destruct (Nat.leb_spec (start (w_panel w) i) (start (w_panel w) j + r)); [|cbn [andb]; apply J3; exact Hr].
        destruct (Nat.ltb_spec (start (w_panel w) j + r) (start (w_panel w) i + length l)); [rewrite L1 in *; lia|cbn [andb]; apply J3; exact Hr].
      * destruct (Nat.leb_spec (start (w_panel w) i) (start (w_panel w) j + r)); [lia|cbn [andb]; apply J3; exact Hr].
    + intros a b Ha Hb Hab. unfold apart, start. rewrite (W1 a (NE a Ha)), (W1 b (NE b Hb)). apply HA; [right; exact Ha|right; exact Hb|exact Hab].
Qed.
Lemma laid_apart h : forall ids o, laid_out h ids o -> NoDup ids -> forall i j, In i ids -> In j ids -> i <> j -> apart h i j.
Proof.
  assert (G : forall ids o b, laid_out h ids o -> In b ids -> (o <= start h b)%nat).
  { induction ids as [|i ids IH]; intros o b L [].
    - subst. cbn [laid_out] in L. destruct L as (L & _). unfold start. rewrite L. cbn. lia.
    - cbn [laid_out] in L. destruct L as (_ & _ & L). specialize (IH _ _ L H). lia. }
  induction ids as [|a ids IH]; intros o L ND i j Hi Hj Hij; [destruct Hi|]. cbn [laid_out] in L. destruct L as (L1 & L2 & L3). inversion ND; subst.
  assert (S0 : start h a = o) by (unfold start; rewrite L1; reflexivity).
  destruct Hi as [->|Hi], Hj as [->|Hj].
  - congruence.
  - left. rewrite S0. exact (G _ _ _ L3 Hj).
  - right. rewrite S0. exact (G _ _ _ L3 Hi).
  - exact (IH _ L3 H2 i j Hi Hj Hij).
Qed.
Lemma laid_end h : forall ids o i, laid_out h ids o -> In i ids -> (start h i + width (h i) <= o + total_width h ids)%nat.
Proof.
  induction ids as [|a ids IH]; intros o i L Hi; [destruct Hi|]. cbn [laid_out] in L. destruct L as (L1 & L2 & L3).
  assert (T : total_width h (a :: ids) = (width (h a) + total_width h ids)%nat) by reflexivity. rewrite T.
  destruct Hi as [->|Hi].
  - unfold start. rewrite L1. cbn [default]. lia.
  - specialize (IH _ _ L3 Hi). lia.
Qed.

Lemma loads_on D k W E Bv w2 w3 f ids : well_sized D ->
  let h := w_panel W in let size := total_width h ids in
  ids = seq k 15 -> laid_out h ids 0 -> (forall j, (1 <= j <= 15)%nat -> xp (h (k + (j - 1))%nat) = np_panel (panel_no D j)) ->
  as_created D k W w2 -> load_edges E Bv (loaded k) w2 (fun _ => 0) = (w3, Ok f) ->
  (forall d, dot size f d = suml (loaded k) (fun i => edge_work E Bv h i d)) /\
  suml ids (fun i => axial_force (w_panel w3 i)) = ts_Nskin D * ts_b D + ts_Nbase D * ts_bb D + ts_Nflange D * ts_bf D.
Proof.
  intros HD h size EI L HX HC H.
  assert (IN : forall i, In i (loaded k) -> exists j, In j [7; 8; 9; 14; 15]%nat /\ i = (k + (j - 1))%nat /\ (1 <= j <= 15)%nat).
  { intros i Hi. unfold loaded in Hi. apply in_map_iff in Hi as (j & <- & Hj). exists j. split; [exact Hj|]. split; [reflexivity|]. cbn in Hj. lia. }
  assert (C : forall i, In i (loaded k) -> xp_start (w_panel w2 i) = xp_start (h i) /\ xp_loads (w_panel w2 i) = no_loads /\ kernel_view (xp (w_panel w2 i)) = kernel_view (xp (h i)) /\ pn_N (xp (w_panel w2 i)) = pn_N (xp (h i))).
  { intros i Hi. destruct (IN i Hi) as (j & _ & -> & Hj). exact (HC j Hj). }
  assert (CS : forall i, In i (loaded k) -> start (w_panel w2) i = start h i /\ width (w_panel w2 i) = width (h i)).
  { intros i Hi. destruct (C i Hi) as (C1 & _ & C3 & _). split; [unfold start; rewrite C1; reflexivity|].
    assert (X1 := f_equal sh_m C3). assert (X2 := f_equal sh_n C3). unfold kernel_view in X1, X2. cbn [sh_m sh_n] in X1, X2. unfold width. rewrite X1, X2. reflexivity. }
  assert (SUB : forall i, In i (loaded k) -> In i ids) by (intros i Hi; destruct (IN i Hi) as (j & _ & -> & Hj); rewrite EI; apply in_seq; lia).
  assert (ND : NoDup ids) by (rewrite EI; apply seq_NoDup).
  apply (load_all E Bv size) in H.
  - destruct H as (H1 & H2 & H3). split.
    + intro d. rewrite H1. assert (Z : dot size (fun _ => 0) d = 0) by (unfold dot; clear; induction size as [|n IH]; [reflexivity|]; cbn [sumn]; rewrite IH; ring). rewrite Z, Rplus_0_l.
      apply suml_ext. intros i Hi. destruct (C i Hi) as (C1 & C2 & C3 & C4). unfold edge_work, moves, geometry, start. cbv zeta. rewrite C1, C3, C4. reflexivity.
    + assert (AX : forall j, In j [7; 8; 9; 14; 15]%nat -> axial_force (w_panel w3 (k + (j - 1))) = N_no D j * wid (panel_no D j)).
      { intros j Hj. assert (Hj' : (1 <= j <= 15)%nat) by (cbn in Hj; lia). assert (HL : In (k + (j - 1))%nat (loaded k)) by (unfold loaded; apply (in_map (fun i => (k + (i - 1))%nat)); exact Hj).
        rewrite (H2 _ HL). destruct (C _ HL) as (_ & _ & C3 & C4). unfold Nxx_of. rewrite C4. unfold geometry. rewrite C3.
        rewrite (HX j Hj'). change (sh_b (kernel_view (np_panel (panel_no D j)))) with (wid (panel_no D j)).
        destruct (panel_data D j Hj') as (_ & _ & _ & _ & _ & _ & _ & _ & _ & _ & _ & ->). reflexivity. }
      assert (ZZ : forall j, (1 <= j <= 15)%nat -> ~ In j [7; 8; 9; 14; 15]%nat -> axial_force (w_panel w3 (k + (j - 1))) = 0).
      { intros j Hj Hn. rewrite H3. 2:{ intro HL. destruct (IN _ HL) as (j' & I1 & I2 & I3). apply Hn. replace j with j' by lia. exact I1. }
        destruct (HC j Hj) as (_ & C2 & _). unfold axial_force. rewrite C2. reflexivity. }
      assert (ES : ids = map (fun j => (k + (j - 1))%nat) [1; 2; 3; 4; 5; 6; 7; 8; 9; 10; 11; 12; 13; 14; 15]%nat) by (rewrite EI; cbn [seq map Nat.sub]; repeat (f_equal; [lia|]); f_equal; lia).
      rewrite ES. unfold suml. cbn [map fold_right].
      rewrite (AX 7%nat), (AX 8%nat), (AX 9%nat), (AX 14%nat), (AX 15%nat) by (cbn; tauto).
      rewrite (ZZ 1%nat), (ZZ 2%nat), (ZZ 3%nat), (ZZ 4%nat), (ZZ 5%nat), (ZZ 6%nat), (ZZ 10%nat), (ZZ 11%nat), (ZZ 12%nat), (ZZ 13%nat) by (try lia; cbn; lia).
      destruct (panel_place D 7 ltac:(lia)) as (_ & _ & _ & ->), (panel_place D 8 ltac:(lia)) as (_ & _ & _ & ->), (panel_place D 9 ltac:(lia)) as (_ & _ & _ & ->),
        (panel_place D 14 ltac:(lia)) as (_ & _ & _ & ->), (panel_place D 15 ltac:(lia)) as (_ & _ & _ & ->).
      cbn [place fst snd nth]. unfold N_no. cbn [group_no Nat.leb Nat.even]. destruct (sizes D HD) as (_ & _ & _ & _ & _ & _ & _ & _ & _ & _ & _ & EB). rewrite <- EB. ring.
  - unfold loaded. cbn [map Nat.sub]. repeat (constructor; [cbn [In]; lia|]). constructor.
  - intros i Hi. destruct (CS i Hi) as [-> ->]. destruct (C i Hi) as (_ & C2 & _). split; [exact C2|]. split; [|intros; reflexivity].
    assert (X := laid_end h ids 0 i L (SUB i Hi)). rewrite Nat.add_0_l in X. fold size in X. exact X.
  - intros i j Hi Hj Hij. unfold apart. destruct (CS i Hi) as [-> ->]. destruct (CS j Hj) as [-> ->]. exact (laid_apart h ids 0 L ND i j (SUB i Hi) (SUB j Hj) Hij).
Qed.
Theorem ts_loads D k q w E Bv w2 w3 f : well_sized D ->
  let W := fst (create_tstiff D k q w) in let h := w_panel W in let size := total_width h (seq k 15) in
  as_created D k W w2 -> load_edges E Bv (loaded k) w2 (fun _ => 0) = (w3, Ok f) ->
  (forall d, dot size f d = suml (loaded k) (fun i => edge_work E Bv h i d)) /\
  suml (seq k 15) (fun i => axial_force (w_panel w3 i)) = ts_Nskin D * ts_b D + ts_Nbase D * ts_bb D + ts_Nflange D * ts_bf D.
Proof.
  intros HD W h size HC H. destruct (ts_assembled D k q w) as (_ & ND & L). rewrite create_asm in L. cbn [as_panels] in L.
  apply (loads_on D k W E Bv w2 w3 f (seq k 15) HD eq_refl L); [|exact HC|exact H]. intros j Hj. exact (proj1 (ts_world D k q w j Hj)).
Qed.
Lemma defect_conn D k q w : well_sized D ->
  (In (mkConn (k + 4) (k + 11) SB None None None None None) (w_conn (fst (create_tstiff D k q w)) q) <-> ts_defect_a D = 0).
Proof. intro H. rewrite ts_conn. apply defect_conn'. exact H. Qed.
Lemma load_total E Bv : forall ids w f, NoDup ids ->
  (forall i, In i ids -> xp_loads (w_panel w i) = no_loads /\ complete (xp (w_panel w i)) /\ (sh_m (pn_sh (xp (w_panel w i))) <= 30)%nat /\ (sh_n (pn_sh (xp (w_panel w i))) <= 30)%nat) ->
  exists w' g, load_edges E Bv ids w f = (w', Ok g).
Proof.
  induction ids as [|i ids IH]; intros w f ND HI; [exists w, f; reflexivity|]. cbn [load_edges]. cbv zeta.
  destruct (HI i (or_introl eq_refl)) as (I1 & I2 & I3 & I4). inversion ND as [|? ? N1 N2]; subst.
  destruct (calc_fext_ok E Bv (xp_loads (edge_load 0 (fun _ : R => Nxx_of (xp (w_panel w i))) (w_panel w i))) 1 SNone 0 (xp (edge_load 0 (fun _ : R => Nxx_of (xp (w_panel w i))) (w_panel w i)))) as (p' & l & H).
  - exact I2.
  - unfold edge_load, with_loads. cbn [xp_loads]. rewrite I1. unfold all_lines, add_distr, no_loads. cbn [ld_distr ld_distr_inc ld_dpd ld_dpd_inc app]. constructor; [exact I|constructor].
  - exact I3.
  - exact I4.
  - cbn [size_value]. unfold edge_load, with_loads. cbn [xp]. lia.
  - rewrite H. apply IH; [exact N2|]. intros j Hj. assert (E0 : j <> i) by (intros ->; contradiction).
    unfold put_panel. cbn [w_panel]. unfold put. destruct (Nat.eqb_spec j i); [contradiction|]. apply HI. right. exact Hj.
Qed.
Theorem ts_loads_run D k q w E Bv M : well_sized D -> material_given E D M -> (M <= 30)%nat ->
  exists w3 f, load_edges E Bv (loaded k) (fst (create_tstiff D k q w)) (fun _ => 0) = (w3, Ok f).
Proof.
  intros HD HM H30. apply load_total.
  - unfold loaded. cbn [map Nat.sub]. repeat (constructor; [cbn [In]; lia|]). constructor.
  - intros i Hi. unfold loaded in Hi. apply in_map_iff in Hi as (j & <- & Hj). assert (Hj' : (1 <= j <= 15)%nat) by (cbn in Hj; lia).
    destruct (ts_world D k q w j Hj') as (X1 & _ & X3). split; [exact X3|]. destruct (ts_sound D k q w E M HD HM j Hj') as (C & _). split; [exact C|].
    rewrite X1. destruct (panel_data D j Hj') as (_ & _ & _ & _ & _ & _ & _ & _ & _ & -> & -> & _). destruct (terms_no D E M HM j Hj'). lia.
Qed.
Lemma created_itself D k q w : as_created D k (fst (create_tstiff D k q w)) (fst (create_tstiff D k q w)).
Proof. intros i Hi. cbv zeta. split; [reflexivity|]. split; [exact (proj2 (proj2 (ts_world D k q w i Hi)))|]. split; reflexivity. Qed.
