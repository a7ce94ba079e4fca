(* The aerodynamic matrix of the flutter analysis of a T-stiffened panel. *)
From Coq Require Import Reals List Arith Bool Lia Lra.
From Coquelicot Require Import Coquelicot.
From Verif Require Import Base_Sum Model_Types Model_Coo Model_Result
  Model_Num Model_DB Model_Shell Model_Fext Model_Multi Model_New Model_Cylinder Model_TStiff Model_Flutter Spec_Algebra Spec_Kinematics Spec_Quadrature Spec_Panel Spec_Shell Spec_Bardell
  Spec_Integral Spec_Aero Spec_Flow Spec_Fext Spec_Conn Spec_Multi Spec_MultiConn Spec_Cylinder Spec_TStiff Spec_Flutter
  Proof_Coo Proof_Num Proof_AnaKer Proof_Ana Proof_Ana3 Proof_Aero Proof_Multi Proof_TStiffWork Proof_Flutter.
From Coq Require Import List.
Import ListNotations.
Open Scope R_scope.

Definition own_kA (E : env) (size : nat) (fin : bool) (h : nat -> xpanel) (i : nat) (K : matrix) : Prop :=
  exists p', calc_kA E (SInt size) (start h i) (start h i) fin (xp (h i)) = (p', Ok K).
Lemma add_kA_sum E size ids : forall acc w w' K, NoDup ids -> add_kA E size ids acc w = (w', Ok K) ->
  exists Ks, Forall2 (own_kA E size false (w_panel w)) ids Ks /\ forall r t, K r t = acc r t + suml Ks (fun Ki => Ki r t).
Proof.
  induction ids as [|i ids IH]; intros acc w w' K ND H; cbn [add_kA] in H.
  - apply (f_equal snd) in H. cbn [snd] in H. injection H as <-. exists []. split; [constructor|]. intros. cbn [suml]. lra.
  - inversion ND as [|? ? N1 N2]; subst. cbv zeta in H.
    destruct (calc_kA E (SInt size) _ _ false (xp (w_panel w i))) as [p' [Ki|e]] eqn:EK; [|discriminate].
    apply IH in H; [|exact N2]. destruct H as (Ks & F & HK). exists (Ki :: Ks). split.
    + constructor; [exists p'; exact EK|]. clear - F N1. revert F N1. set (w1 := put_panel _ _ _). generalize Ks. clear Ks.
      induction ids as [|j ids IH]; intros Ks F N1; inversion F; subst; constructor; [|apply IH; [assumption|intro; apply N1; right; assumption]].
      assert (EP : w_panel w1 j = w_panel w j). { unfold w1, put_panel, put. cbn [w_panel]. destruct (j =? i)%nat eqn:Eji; [apply Nat.eqb_eq in Eji; subst j; exfalso; apply N1; left; reflexivity|reflexivity]. }
      match goal with H : own_kA _ _ _ _ j _ |- _ => destruct H as (q & Hq); exists q; revert Hq; unfold start; rewrite EP; exact (fun H => H) end.
    + intros r t. rewrite HK. cbn [suml]. ring.
Qed.
Lemma unfinished E sz o p p' K : calc_kA E sz o o false p = (p', Ok K) -> calc_kA E sz o o true p = (set_matrices p' (pn_kC p') (pn_kG p') (pn_kT p') (pn_kM p') (Some (make_skew K)), Ok (make_skew K)).
Proof.
  unfold calc_kA. unfold mbind. destruct (the_model p) as [p1 [mdl|]]; [|discriminate]. destruct (eval_size sz p1) as [p2 [size|]]; [|discriminate].
  destruct (fix_r p2) as [p3 [u|]]; [|discriminate]. destruct (aero_coeffs p3) as [p4 [bg|]]; [|discriminate]. unfold mmod, mget, mret, mlift, mraise. cbv zeta.
  set (q := set_aero p4 _ _ _). destruct (pn_flow_x q) as [[|]|]; [| |discriminate].
  - destruct (to_shape size _) as [kA|e]; [|discriminate]. intro H. injection H as <- <-. reflexivity.
  - destruct (to_shape size _) as [kA|e]; [|discriminate]. intro H. injection H as <- <-. reflexivity.
Qed.
Lemma skew_sum (Ks : list matrix) K : (forall r t, K r t = suml Ks (fun Ki => Ki r t)) -> forall r t, make_skew K r t = suml (map make_skew Ks) (fun Ki => Ki r t).
Proof.
  intros H r t. unfold make_skew at 1. rewrite !H. destruct (r <=? t)%nat eqn:E.
  - clear H. induction Ks as [|Ki Ks IH]; cbn [map suml]; [reflexivity|]. rewrite <- IH. unfold make_skew at 1. rewrite E. reflexivity.
  - clear H. induction Ks as [|Ki Ks IH]; cbn [map suml]; [lra|]. rewrite <- IH. unfold make_skew at 1. rewrite E. ring.
Qed.
Theorem flutter_sum E size k w w' K : flutter_kA E size k w = (w', Ok K) ->
  exists Ks, Forall2 (own_kA E size true (w_panel w)) (seq k 9) Ks /\ forall r t, K r t = suml Ks (fun Ki => Ki r t).
Proof.
  unfold flutter_kA. destruct (add_kA E size (skin_ids k) (fun _ _ => 0) w) as [w1 [K1|e]] eqn:EA; [|discriminate].
  intro H. apply (f_equal snd) in H. cbn [snd] in H. injection H as <-. apply add_kA_sum in EA; [|apply seq_NoDup]. destruct EA as (Ks & F & HK). exists (map make_skew Ks). split.
  - unfold skin_ids in F. clear HK. induction F as [|i Ki ids Ks (p' & Hp) F IH]; cbn [map]; constructor; [|exact IH]. eexists. apply unfinished. exact Hp.
  - apply skew_sum. intros r t. rewrite HK. lra.
Qed.

Section Differs.
Variables (E : env) (D : tstiff) (k : nat) (fx : bool) (rho V M : R) (size : nat) (w w' : world) (K : matrix).
Hypotheses (HD : well_sized D) (Hm : (0 < ts_m D)%nat) (Hn : (0 < ts_n D)%nat) (HS : skin_in_flow E D k fx rho V M w)
  (HM : 1 < M) (Hr : rho <> 0) (HV : V <> 0)
  (Hflat : fx = true \/ forall i, (1 <= i <= 9)%nat -> default 0 (pn_r (xp (w_panel w (k + (i - 1))))) = 0)
  (HK : flutter_kA E size k w = (w', Ok K)).
Notation h := (w_panel w).
Notation p i := (k + (i - 1))%nat.
Notation P i := (xp (h i)).
Let N := total_width h (seq k 15).
Let r := (start h (p 5) + 2)%nat.
Notation tx q := (rule_1d (e_rule E) (pn_nx q) exact_basis).
Notation ty q := (rule_1d (e_rule E) (pn_ny q) exact_basis).
Notation Vg Mx q := (V_gen (tx q) (ty q) (pn_sh q) (sh_a (pn_sh q) * sh_b (pn_sh q) / 4) 2 (Mx (piston_beta rho V M) (piston_gamma rho V M (default 0 (pn_r q)))) (opA fx (pn_sh q))).
Notation value Mx i := (fullmat (start h i) (sh_m (pn_sh (P i))) (sh_n (pn_sh (P i))) (Vg Mx (P i)) r r).
Lemma is_skin i : In i (seq k 9) -> exists j, (1 <= j <= 9)%nat /\ i = p j.
Proof using All. intro H. apply in_seq in H. exists (i - k + 1)%nat. split; lia. Qed.
Lemma entry_of i Ki : In i (seq k 9) -> own_kA E size true h i Ki -> Ki r r = value Mneg i.
Proof using All.
  intros Hi (p' & H). destruct (is_skin i Hi) as (j & Hj & ->). destruct HS as (_ & HP). destruct (HP j Hj) as (A1 & A2 & A3 & A4 & A5 & A6).
  destruct (calc_kA_inv _ _ _ _ _ _ _ _ H) as (mdl & be & ga & kA & fx' & Hmd & HC & Hb & Hg & _).
  destruct HC as [[HC _]|(_ & M' & rho' & V' & B1 & _ & B2 & B3 & Eb & Eg)]; [congruence|].
  rewrite A6 in B1. injection B1 as <-. rewrite A4 in B2. injection B2 as <-. rewrite A5 in B3. injection B3 as <-.
  unfold used_mach in Eb, Eg. destruct (Req_EM_T M 1); [lra|]. rewrite Eb in Hb. change (radius_of (P (p j))) with (default 0 (pn_r (P (p j)))) in Eg. rewrite Eg in Hg.
  apply (any_upper E _ fx A2 (SInt size) (start h (p j)) true p' Ki _ _ H Hb Hg); [|lia].
  destruct Hflat as [Hf|Hf]; [left; exact Hf|right]. rewrite (Hf j Hj). unfold piston_gamma. destruct (Req_EM_T 0 0) as [_|F]; [reflexivity|contradiction].
Qed.
Lemma work_of i : In i (seq k 9) -> panel_integral (pn_sh (P i))
    (pressure_work exact_basis (pn_sh (P i)) fx (piston_beta rho V M) (piston_gamma rho V M (default 0 (pn_r (P i)))) (own (start h i) (unitv r)) (own (start h i) (unitv r))) (value Mpos i).
Proof using All.
  intro Hi. destruct (is_skin i Hi) as (j & Hj & ->). destruct HS as (_ & HP). destruct (HP j Hj) as (_ & A2 & _).
  rewrite <- (bilinear_unit (start h (p j) + ndof (pn_sh (P (p j))) + r + 1)) by lia. apply (true_work E _ fx A2). lia.
Qed.
Lemma elsewhere i Mx : In i (seq k 9) -> i <> p 5 -> value Mx i = 0.
Proof using All.
  intros Hi Hne. destruct HS as (L & HP). unfold fullmat. enough (HI : inblk (start h i) (sh_m (pn_sh (P i))) (sh_n (pn_sh (P i))) r = false) by (rewrite HI; reflexivity).
  destruct (HP 5%nat ltac:(lia)) as (G5 & _). destruct (panel_data D 5 ltac:(lia)) as (_ & _ & _ & _ & _ & _ & _ & _ & _ & M5 & N5 & _).
  assert (W5 : (2 < width (h (p 5)))%nat). { unfold width. rewrite G5, M5, N5. change (m_no D 5) with (ts_m D); change (n_no D 5) with (ts_n D). nia. }
  assert (R : exists a b, xp_start (h i) = Some a /\ xp_start (h (p 5)) = Some b /\ ((a + width (h i) <= b)%nat \/ (b + width (h (p 5)) <= a)%nat)).
  { assert (O : forall x y, (x < y < 15)%nat -> exists a b, xp_start (h (k + x)) = Some a /\ xp_start (h (k + y)) = Some b /\ (a + width (h (k + x)%nat) <= b)%nat).
    { intros x y Hxy. assert (S1 : seq k 15 = seq k x ++ (k + x)%nat :: seq (k + S x) (14 - x)).
      { replace 15%nat with (x + S (14 - x))%nat by lia. rewrite seq_app. cbn [seq]. rewrite Nat.add_succ_r. reflexivity. }
      rewrite S1 in L. pose proof (laid_order _ _ _ _ _ L) as L1. assert (S2 : seq k x ++ (k + x)%nat :: seq (k + S x) (14 - x) = (seq k x ++ (k + x)%nat :: seq (k + S x) (y - S x)) ++ (k + y)%nat :: seq (k + S y) (14 - y)).
      { rewrite <- app_assoc. cbn [app]. f_equal. f_equal. replace (14 - x)%nat with ((y - S x) + S (14 - y))%nat by lia. rewrite seq_app. cbn [seq]. replace (k + S x + (y - S x))%nat with (k + y)%nat by lia. replace (S (k + y)) with (k + S y)%nat by lia. reflexivity. }
      rewrite S2 in L. pose proof (laid_order _ _ _ _ _ L) as L2. eexists. eexists. split; [exact L1|]. split; [exact L2|].
      unfold total_width. rewrite map_app, list_sum_app. cbn [map]. change (list_sum (width (h (k + x)%nat) :: ?l)) with (width (h (k + x)%nat) + list_sum l)%nat. lia. }
    apply in_seq in Hi. change (p 5)%nat with (k + 4)%nat in *. destruct (Nat.lt_ge_cases i (k + 4)) as [Hlt|Hge].
    - destruct (O (i - k)%nat 4%nat ltac:(lia)) as (a & b & H1 & H2 & H3). replace (k + (i - k))%nat with i in * by lia. exists a, b. auto.
    - destruct (O 4%nat (i - k)%nat ltac:(lia)) as (a & b & H1 & H2 & H3). replace (k + (i - k))%nat with i in * by lia. exists b, a. auto. }
  destruct R as (a & b & Ra & Rb & Rc). unfold r, start. rewrite Ra, Rb. cbn [default]. unfold width in Rc, W5. unfold inblk, DOF. apply andb_false_iff. rewrite Nat.leb_gt, Nat.ltb_ge. nia.
Qed.
Theorem flutter_differs : exists c W, skin_work fx rho V M h (seq k 9) c c W /\ quad N K c <> W.
Proof using All.
  exists (unitv r), (suml (seq k 9) (fun i => value Mpos i)). split.
  - exists (map (fun i => value Mpos i) (seq k 9)). split.
    + assert (G : forall l, incl l (seq k 9) -> Forall2 (fun i W => panel_integral (pn_sh (P i)) (pressure_work exact_basis (pn_sh (P i)) fx (piston_beta rho V M) (piston_gamma rho V M (default 0 (pn_r (P i)))) (own (start h i) (unitv r)) (own (start h i) (unitv r))) W) l (map (fun i => value Mpos i) l)).
      { induction l as [|i l IH]; intro Hl; cbn [map]; constructor; [apply work_of; apply Hl; left; reflexivity|apply IH; intros x Hx; apply Hl; right; exact Hx]. }
      apply G. apply incl_refl.
    + rewrite suml_map. reflexivity.
  - destruct (flutter_sum E size k w w' K HK) as (Ks & F & HE).
    assert (G : forall l Ks, incl l (seq k 9) -> Forall2 (own_kA E size true h) l Ks -> suml Ks (fun Ki => Ki r r) = suml l (fun i => value Mneg i)).
    { intros l Ks' Hl F'. induction F' as [|i Ki l Ks' Hi F' IH]; cbn [suml]; [reflexivity|]. rewrite IH by (intros x Hx; apply Hl; right; exact Hx). f_equal. apply entry_of; [apply Hl; left; reflexivity|exact Hi]. }
    assert (HN : (r < N)%nat).
    { destruct HS as (L & HP). destruct (laid_bound _ _ _ (p 5) L ltac:(apply in_seq; lia)) as (a & A1 & _ & _ & A2). destruct (HP 5%nat ltac:(lia)) as (G5 & _).
      destruct (panel_data D 5 ltac:(lia)) as (_ & _ & _ & _ & _ & _ & _ & _ & _ & M5 & N5 & _). unfold r, start, N. rewrite A1. cbn [default].
      unfold width in A2. rewrite G5, M5, N5 in A2. change (m_no D 5) with (ts_m D) in A2; change (n_no D 5) with (ts_n D) in A2. nia. }
    unfold quad. rewrite bilinear_unit by exact HN. rewrite HE, (G _ _ (incl_refl _) F).
    assert (Z : forall i Mx, In i (seq k 9) -> i <> p 5 -> value Mx i = 0) by (intros; apply elsewhere; assumption).
    assert (SP : forall f, suml (seq k 9) f = suml [k; S k; S (S k); S (S (S k))] f + f (p 5)%nat + suml (seq (k + 5) 4) f).
    { intro f. change (p 5)%nat with (k + 4)%nat. replace (k + 4)%nat with (S (S (S (S k)))) by lia. replace (k + 5)%nat with (S (S (S (S (S k))))) by lia. cbn [seq suml]. ring. }
    rewrite !SP. rewrite !(suml_0 [k; S k; S (S k); S (S (S k))]), !(suml_0 (seq (k + 5) 4)).
    2-5: intros i Hi; (assert (HQ : (k <= i < k + 9)%nat /\ i <> (k + 4)%nat) by (first [apply in_seq in Hi; lia | cbn in Hi; lia])); apply Z; [apply in_seq|]; lia.
    destruct HS as (_ & HP). destruct (HP 5%nat ltac:(lia)) as (G5 & A2 & _).
    intro HEq. apply (first_differs E (P (p 5)) fx A2) with (be := piston_beta rho V M) (ga := piston_gamma rho V M (default 0 (pn_r (P (p 5))))) (o := start h (p 5)).
    + rewrite G5. reflexivity.
    + rewrite G5. reflexivity.
    + rewrite G5. destruct (panel_data D 5 ltac:(lia)) as (_ & _ & _ & _ & _ & _ & _ & _ & _ & -> & _). exact Hm.
    + rewrite G5. destruct (panel_data D 5 ltac:(lia)) as (_ & _ & _ & _ & _ & _ & _ & _ & _ & _ & -> & _). exact Hn.
    + rewrite G5. exact (proj1 (len_pos D HD 5 ltac:(lia))).
    + rewrite G5. exact (proj2 (len_pos D HD 5 ltac:(lia))).
    + unfold piston_beta. apply Rmult_integral_contrapositive_currified; [apply Rmult_integral_contrapositive_currified; [exact Hr|apply pow_nonzero; exact HV]|].
      apply Rinv_neq_0_compat. apply Rgt_not_eq. apply sqrt_lt_R0. nra.
    + fold r. lra.
Qed.
End Differs.

Theorem flutter_entries : forall E D k along_x rho V M size w w' K,
  skin_in_flow E D k along_x rho V M w -> 1 < M ->
  (forall i, (1 <= i <= 9)%nat -> default 0 (pn_r (xp (w_panel w (k + (i - 1))))) = 0) ->
  flutter_kA E size k w = (w', Ok K) ->
  forall r t, ((t < r)%nat -> skin_work along_x rho V M (w_panel w) (seq k 9) (unitv r) (unitv t) (K r t)) /\
              ((r <= t)%nat -> skin_work along_x rho V M (w_panel w) (seq k 9) (unitv t) (unitv r) (- K r t)).
Proof.
  intros E D k fx rho V M size w w' K (_ & HP) HM Hflat HK.
  assert (UP : forall r t, (r <= t)%nat -> skin_work fx rho V M (w_panel w) (seq k 9) (unitv t) (unitv r) (- K r t)).
  { intros r t Hrt. destruct (flutter_sum _ _ _ _ _ _ HK) as (Ks & F & HS). exists (map (fun Ki : matrix => - Ki r t) Ks). split.
    - clear HS HK. assert (HI : forall i, In i (seq k 9) -> exists j, (1 <= j <= 9)%nat /\ i = (k + (j - 1))%nat). { intros i Hi. apply in_seq in Hi. exists (i - k + 1)%nat. split; lia. }
      revert HI. induction F as [|i Ki ids Ks (p' & H) F IH]; intro HI; cbn [map]; constructor; [|apply IH; intros j Hj; apply HI; right; exact Hj].
      destruct (HI i (or_introl eq_refl)) as (j & Hj & ->). destruct (HP j Hj) as (A1 & A2 & A3 & A4 & A5 & A6).
      destruct (calc_kA_inv _ _ _ _ _ _ _ _ H) as (mdl & be & ga & kA & fx' & Hmd & HC & Hb & Hg & _).
      destruct HC as [[HC _]|(_ & M' & rho' & V' & B1 & _ & B2 & B3 & Eb & Eg)]; [congruence|].
      rewrite A6 in B1. injection B1 as <-. rewrite A4 in B2. injection B2 as <-. rewrite A5 in B3. injection B3 as <-.
      unfold used_mach in Eb, Eg. destruct (Req_EM_T M 1); [lra|]. rewrite Eb in Hb. change (radius_of ?q) with (default 0 (pn_r q)) in Eg. rewrite (Hflat j Hj) in Eg.
      rewrite (Hflat j Hj). assert (G0 : piston_gamma rho V M 0 = 0) by (unfold piston_gamma; destruct (Req_EM_T 0 0) as [_|N]; [reflexivity|contradiction]).
      rewrite Eg, G0 in Hg. rewrite G0.
      pose proof (kA_any_ends E _ fx A2 _ _ true p' Ki _ _ H Hb Hg (or_intror eq_refl) r t Hrt) as G. rewrite Ropp_0 in G. exact G.
    - rewrite HS. clear. induction Ks as [|Ki Ks IH]; cbn [map suml]; [lra|]. rewrite <- IH. ring. }
  intros r t. split; [|apply UP]. intro H. pose proof (UP t r ltac:(lia)) as G.
  assert (EK : K r t = - K t r).
  { unfold flutter_kA in HK. destruct (add_kA _ _ _ _ w) as [w1 [K1|e]]; [|discriminate]. apply (f_equal snd) in HK. cbn [snd] in HK. injection HK as <-.
    unfold make_skew. destruct (r <=? t)%nat eqn:E1; [apply Nat.leb_le in E1; lia|]. destruct (t <=? r)%nat eqn:E2; [reflexivity|apply Nat.leb_gt in E2; lia]. }
  rewrite EK. exact G.
Qed.

Lemma put_flow_at ids rho M V fx : forall w i, NoDup ids -> w_panel (put_flow ids rho M V fx w) i =
  if existsb (Nat.eqb i) ids then with_panel (w_panel w i) (with_flow (xp (w_panel w i)) rho M V fx) else w_panel w i.
Proof.
  induction ids as [|j ids IH]; intros w i ND; [reflexivity|]. inversion ND as [|? ? N1 N2]; subst. cbn [put_flow existsb]. rewrite (IH _ _ N2).
  unfold put_panel, put; cbn [w_panel]. destruct (i =? j)%nat eqn:E; cbn [orb].
  - apply Nat.eqb_eq in E. subst j. destruct (existsb (Nat.eqb i) ids) eqn:EX; [|reflexivity].
    exfalso. apply existsb_exists in EX. destruct EX as (x & H1 & H2). apply Nat.eqb_eq in H2. subst x. auto.
  - reflexivity.
Qed.

Lemma flow_world D rho M V fx k q w i : (1 <= i <= 15)%nat ->
  xp (w_panel (fst (create_flutter D rho M V fx k q w)) (k + (i - 1))) = if (i <=? 9)%nat then with_flow (np_panel (panel_no D i)) rho M V fx else np_panel (panel_no D i).
Proof.
  intro Hi. unfold create_flutter. destruct (ts_world D k q w i Hi) as (H & _). destruct (create_tstiff D k q w) as [w1 s]. cbn [fst] in *. rewrite (put_flow_at (skin_ids k) _ _ _ _ _ _ (seq_NoDup 9 k)).
  replace (existsb (Nat.eqb (k + (i - 1))) (skin_ids k)) with (i <=? 9)%nat.
  - destruct (i <=? 9)%nat; [cbn [xp with_panel]; rewrite H; reflexivity|exact H].
  - symmetry. unfold skin_ids. destruct (i <=? 9)%nat eqn:E9.
    + apply Nat.leb_le in E9. apply existsb_exists. exists (k + (i - 1))%nat. split; [apply in_seq; lia|apply Nat.eqb_refl].
    + apply Nat.leb_gt in E9. apply Bool.not_true_iff_false. intro X. apply existsb_exists in X as (x & X1 & X2). apply Nat.eqb_eq in X2. apply in_seq in X1. lia.
Qed.
