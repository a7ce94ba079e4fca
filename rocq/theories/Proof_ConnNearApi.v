(* Connections of an assembly with the shipped shape functions and tables. *)
From Coq Require Import Reals List Arith Bool Lia Lra FunctionalExtensionality.
From Coquelicot Require Import Coquelicot.
From Verif Require Import Base_Sum Model_Types Model_Coo Model_Result Model_Num Model_DB Model_Bardell Model_Shell Model_Fext Model_Field Model_Conn Model_Multi
  Spec_Algebra Spec_Quadrature Spec_Integral Spec_Bardell Spec_Panel Spec_Shell Spec_Fext Spec_Rounded Spec_Conn Spec_Multi Spec_MultiConn Spec_ConnScale
  Proof_Coo Proof_Ana Proof_Mismatch Proof_Terms Proof_Pd Proof_Shell Proof_Api Proof_Total Proof_FintApi Proof_Place Proof_Multi Proof_Conn Proof_AnaApi Proof_ConnNear Proof_MultiConn Proof_MultiApi.
From Coq Require Import List.
Import ListNotations.
Open Scope R_scope.

(* ------------------------------------------------- what a connection adds *)
Definition cblock (E : env) (Bs : basis) (h : nat -> xpanel) (cn : conn) (i j : nat) : coo :=
  let s1 := geometry h i in let s2 := geometry h j in let o1 := start h i in let o2 := start h j in
  match cn_func cn with
  | SSycte => SSy3 s1 s2 o1 o2 (penalty_of E h A22 A22 i j) (penalty_of E h D22 D22 i j) (e_tables E) Bs (default 0 (cn_y1 cn)) (default 0 (cn_y2 cn))
  | BFycte => BFy3 s1 s2 o1 o2 (penalty_of E h A22 A22 i j) (penalty_of E h D22 D22 i j) (e_tables E) Bs (default 0 (cn_y1 cn)) (default 0 (cn_y2 cn))
  | SSxcte => SSx3 s1 s2 o1 o2 (penalty_of E h A11 A11 i j) (penalty_of E h D11 D11 i j) (e_tables E) Bs (default 0 (cn_x1 cn)) (default 0 (cn_x2 cn))
  | BFxcte => BFx3 s1 s2 o1 o2 (penalty_of E h A11 A11 i j) (penalty_of E h D11 D11 i j) (e_tables E) Bs (default 0 (cn_x1 cn)) (default 0 (cn_x2 cn))
  | SB => SB3 s1 s2 o1 o2 (penalty_of E h A11 A11 i j / Rmin (sh_a s1) (sh_b s1)) (e_tables E) ((thickness h i + thickness h j) / 2)
  | SB_TSL => SB3 s1 s2 o1 o2 (10000 / (sh_a s1 * sh_b s1)) (e_tables E) ((thickness h i + thickness h j) / 2)
  | _ => []
  end.
Ltac fin3b w' R2 R3 :=
  match goal with |- context [add3 ?acc ?size ?k11 ?k12 ?k22] =>
    let K := fresh "K" in let A := fresh "A" in let B := fresh "B" in
    destruct (add3_ok acc size k11 k12 k22) as (K & A & B); [assumption|fit3|fit3|fit3|];
    exists w', K; rewrite A; split; [reflexivity|split; [exact R2|split; [exact R3|exact B]]] end.
Section One.
Variables (E : env) (Bs : basis) (size : nat).
Lemma add_conn_block cn i j acc w s : let h := w_panel w in
  i <> j -> sound E h i -> sound E h j -> pair_keys h cn i j -> okmat size acc ->
  (start h i + width (h i) <= start h j)%nat -> (start h j + width (h j) <= size)%nat ->
  exists w' K, add_conn E Bs size cn i j acc w s = (w', s, Ok (CMat size K)) /\ wkept E w w' /\ w_conn w' = w_conn w /\
    (forall r t, K r t = conn_entry acc r t + dense (cblock E Bs h cn i j) r t).
Proof.
  intros h Hij Si Sj HK HO HoA HoB.
  destruct Si as (Ci & ai & bi & hi & A1i & A2i & D1i & D2i). destruct Sj as (Cj & aj & bj & hj & A1j & A2j & D1j & D2j).
  assert (WA : (start h i + 3 * (sh_m (geometry h i) * sh_n (geometry h i)) <= start h j)%nat).
  { unfold width in HoA. unfold geometry, kernel_view. cbn [sh_m sh_n]. rewrite Nat.mul_assoc. exact HoA. }
  assert (WB : (start h j + 3 * (sh_m (geometry h j) * sh_n (geometry h j)) <= size)%nat).
  { unfold width in HoB. unfold geometry, kernel_view. cbn [sh_m sh_n]. rewrite Nat.mul_assoc. exact HoB. }
  assert (ai' : sh_a (geometry h i) <> 0) by lra. assert (bi' : sh_b (geometry h i) <> 0) by lra.
  assert (aj' : sh_a (geometry h j) <> 0) by lra. assert (bj' : sh_b (geometry h j) <> 0) by lra.
  assert (P1 : penalty_of E h A11 A11 i j <> 0) by (pose proof (pen_pos _ _ _ _ A1i A1j hi hj); unfold penalty_of; lra).
  assert (P2 : penalty_of E h A22 A22 i j <> 0) by (pose proof (pen_pos _ _ _ _ A2i A2j hi hj); unfold penalty_of; lra).
  unfold add_conn. unfold cblock. unfold pair_keys in HK.
  destruct (cn_func cn) eqn:Ef; try contradiction.
  - destruct (kt_kr_run E i j Ycte w s Hij Ci Cj) as (w' & R1 & R2 & R3 & _).
    destruct HK as [Hy1 Hy2]. destruct (cn_y1 cn) as [y1|]; [|congruence]. destruct (cn_y2 cn) as [y2|]; [|congruence].
    unfold abind at 1. rewrite R1. unfold abind at 1, aworld at 1. unfold abind at 1, alift at 1. cbn [key]. unfold abind at 1, alift at 1. cbn [fst snd kt_kr default].
    fold (geometry (w_panel w') i) (geometry (w_panel w') j) (start (w_panel w') i) (start (w_panel w') j).
    rewrite !(kept_geometry E w w' R2), !(kept_start E w w' R2). fold h. unfold alift.
    fin3b w' R2 R3.
  - destruct (kt_kr_run E i j Xcte w s Hij Ci Cj) as (w' & R1 & R2 & R3 & _).
    destruct HK as [Hy1 Hy2]. destruct (cn_x1 cn) as [y1|]; [|congruence]. destruct (cn_x2 cn) as [y2|]; [|congruence].
    unfold abind at 1. rewrite R1. unfold abind at 1, aworld at 1. unfold abind at 1, alift at 1. cbn [key]. unfold abind at 1, alift at 1. cbn [fst snd kt_kr default].
    fold (geometry (w_panel w') i) (geometry (w_panel w') j) (start (w_panel w') i) (start (w_panel w') j).
    rewrite !(kept_geometry E w w' R2), !(kept_start E w w' R2). fold h. unfold alift.
    fin3b w' R2 R3.
  - destruct (kt_kr_run E i j BotTop w s Hij Ci Cj) as (w' & R1 & R2 & R3 & T1 & T2).
    unfold abind at 1. rewrite R1. unfold abind at 1, aworld at 1. unfold abind at 1, alift at 1. rewrite T1. unfold abind at 1, alift at 1. rewrite T2. cbn [fst snd kt_kr default].
    fold (geometry (w_panel w') i) (geometry (w_panel w') j) (start (w_panel w') i) (start (w_panel w') j).
    rewrite !(kept_geometry E w w' R2), !(kept_start E w w' R2). fold h. unfold alift. rewrite !fold_thick. fold h.
    replace ((thickness h i + thickness h j) / 2) with (thickness h i / 2 + thickness h j / 2) by lra.
    fin3b w' R2 R3.
  - destruct (kt_kr_run E i j Ycte w s Hij Ci Cj) as (w' & R1 & R2 & R3 & _).
    destruct HK as [Hy1 Hy2]. destruct (cn_y1 cn) as [y1|]; [|congruence]. destruct (cn_y2 cn) as [y2|]; [|congruence].
    unfold abind at 1. rewrite R1. unfold abind at 1, aworld at 1. unfold abind at 1, alift at 1. cbn [key]. unfold abind at 1, alift at 1. cbn [fst snd kt_kr default].
    fold (geometry (w_panel w') i) (geometry (w_panel w') j) (start (w_panel w') i) (start (w_panel w') j).
    rewrite !(kept_geometry E w w' R2), !(kept_start E w w' R2). fold h. unfold alift.
    fin3b w' R2 R3.
  - destruct (kt_kr_run E i j Xcte w s Hij Ci Cj) as (w' & R1 & R2 & R3 & _).
    destruct HK as [Hy1 Hy2]. destruct (cn_x1 cn) as [y1|]; [|congruence]. destruct (cn_x2 cn) as [y2|]; [|congruence].
    unfold abind at 1. rewrite R1. unfold abind at 1, aworld at 1. unfold abind at 1, alift at 1. cbn [key]. unfold abind at 1, alift at 1. cbn [fst snd kt_kr default].
    fold (geometry (w_panel w') i) (geometry (w_panel w') j) (start (w_panel w') i) (start (w_panel w') j).
    rewrite !(kept_geometry E w w' R2), !(kept_start E w w' R2). fold h. unfold alift.
    fin3b w' R2 R3.
  - destruct HK as (Ht & Ea & Eb & Pi & Pj). rewrite Ht. cbn [key]. unfold abind at 1, alift at 1. unfold abind at 1, aworld at 1. fold h.
    assert (EK : calc_kw_tsl (xp (h i)) (xp (h j)) true = Ok (10000 / (sh_a (geometry h i) * sh_b (geometry h i)))).
    { unfold calc_kw_tsl. change (sh_a (pn_sh (xp (h i)))) with (sh_a (geometry h i)). change (sh_b (pn_sh (xp (h i)))) with (sh_b (geometry h i)).
      change (sh_a (pn_sh (xp (h j)))) with (sh_a (geometry h j)). change (sh_b (pn_sh (xp (h j)))) with (sh_b (geometry h j)).
      destruct (Req_EM_T _ _); [|congruence]. destruct (Req_EM_T _ _); [reflexivity|congruence]. }
    rewrite EK. unfold abind at 1, alift at 1.
    assert (ES : forall k, pn_plyts (xp (h k)) <> [] -> sum_plyts (xp (h k)) = Ok (thickness h k)).
    { intros k Hk. rewrite <- fold_thick. unfold sum_plyts, rebuilt_plyts. destruct (pn_plyts (xp (h k))); [congruence|reflexivity]. }
    rewrite (ES i Pi), (ES j Pj). unfold abind at 1, alift at 1. unfold abind at 1, alift at 1.
    fold (geometry h i) (geometry h j) (start h i) (start h j). unfold alift.
    replace ((thickness h i + thickness h j) / 2) with (thickness h i / 2 + thickness h j / 2) by lra.
    fin3b w (wkept_refl E w) (eq_refl (w_conn w)).
Qed.
End One.
Lemma kept_cblock E Bs w w' cn i j : wkept E w w' -> cblock E Bs (w_panel w') cn i j = cblock E Bs (w_panel w) cn i j.
Proof.
  intro HK. unfold cblock, penalty_of. rewrite !(kept_geometry E w w' HK), !(kept_lam E w w' HK), !(kept_start E w w' HK), !(kept_thick E w w' HK). reflexivity.
Qed.

Definition first_of (h : nat -> xpanel) (cn : conn) : nat := if (start h (cn_p1 cn) <? start h (cn_p2 cn))%nat then cn_p1 cn else cn_p2 cn.
Definition second_of (h : nat -> xpanel) (cn : conn) : nat := if (start h (cn_p1 cn) <? start h (cn_p2 cn))%nat then cn_p2 cn else cn_p1 cn.
Definition added (E : env) (Bs : basis) (h : nat -> xpanel) (cn : conn) : coo := cblock E Bs h (left_as h cn) (first_of h cn) (second_of h cn).

Section Loop.
Variables (E : env) (Bs : basis) (w0 : world) (ids : list nat) (k : nat).
Notation h0 := (w_panel w0).
Notation size := (total_width h0 ids).
Hypothesis HL : laid_out h0 ids 0.
Hypothesis HS : forall i, In i ids -> sound E h0 i.

Lemma conn_loop_entries l : forall pos pre w s prev acc, wkept E w0 w -> List.Forall (usable h0 ids) l -> okmat size acc -> w_conn w k = pre ++ l -> length pre = pos ->
  exists w' m, conn_loop E Bs size k pos l prev acc w s = (w', s, Ok m) /\ okmat size m /\ (l <> [] -> m <> CZero) /\
    forall r t, conn_entry m r t = conn_entry acc r t + suml l (fun cn => dense (added E Bs h0 cn) r t).
Proof using HL HS.
  induction l as [|cn l IH]; intros pos pre w s prev acc HW HU HO HC HP.
  - exists w, acc. split; [reflexivity|]. split; [exact HO|]. split; [congruence|]. intros r t. cbn [suml]. lra.
  - pose proof (List.Forall_inv HU) as HU1. pose proof (List.Forall_inv_tail HU) as HU2. clear HU.
    destruct HU1 as (I1 & I2 & HKeys & Hord).
    pose proof (HS _ I1) as S1. pose proof (HS _ I2) as S2.
    destruct (laid_start _ _ _ _ HL I1) as (X1 & B1). destruct (laid_start _ _ _ _ HL I2) as (X2 & B2).
    set (i := first_of h0 cn). set (j := second_of h0 cn).
    assert (HP2 : order_pair w cn prev = Ok (left_as h0 cn, Some (i, j)) /\ In i ids /\ In j ids /\ (start h0 i < start h0 j)%nat /\ sound E h0 i /\ sound E h0 j /\
        pair_keys h0 (left_as h0 cn) i j).
    { unfold order_pair. rewrite (kx_start _ _ _ (HW (cn_p1 cn))), (kx_start _ _ _ (HW (cn_p2 cn))), X1, X2. unfold left_as, i, j, first_of, second_of.
      destruct Hord as [Ho|Hr].
      - unfold in_order in Ho. apply Nat.ltb_lt in Ho as Hb. rewrite Hb. repeat (split; [first [reflexivity|assumption]|]). exact HKeys.
      - pose proof (proj1 Hr) as Hlt. replace (start h0 (cn_p1 cn) <? start h0 (cn_p2 cn))%nat with false by (symmetry; apply Nat.ltb_ge; lia).
        apply Nat.ltb_lt in Hlt as Hb. rewrite Hb. repeat (split; [first [reflexivity|assumption]|]). apply swap_pair_keys; assumption. }
    destruct HP2 as (P1 & Ii & Ij & Plt & Si & Sj & PK).
    set (w1 := put_conn w k (put_nth pos (left_as h0 cn) (w_conn w k))).
    assert (HW1 : wkept E w0 w1) by exact HW.
    destruct (add_conn_block E Bs size (left_as h0 cn) i j acc w1 s) as (w2 & K & A1 & A2 & A3 & A4).
    + intro Eij. rewrite Eij in Plt. lia.
    + apply (kept_sound E w0 w1 HW1). exact Si.
    + apply (kept_sound E w0 w1 HW1). exact Sj.
    + apply (kept_keys E w0 w1 HW1). exact PK.
    + exact HO.
    + rewrite !(kept_start E w0 w1 HW1), (kept_width E w0 w1 HW1). apply (laid_gap h0 ids 0); assumption.
    + rewrite (kept_start E w0 w1 HW1), (kept_width E w0 w1 HW1). destruct (laid_start _ _ _ _ HL Ij) as (_ & B). lia.
    + assert (HW2 : wkept E w0 w2) by (apply (wkept_trans E w0 w1); assumption).
      assert (HC2 : w_conn w2 k = (pre ++ [left_as h0 cn]) ++ l).
      { rewrite A3. unfold w1, put_conn. cbn [w_conn]. rewrite put_same, HC, <- HP, put_nth_app, <- app_assoc. reflexivity. }
      destruct (IH (S pos) (pre ++ [left_as h0 cn]) w2 s (Some (i, j)) (CMat size K) HW2 HU2 (or_intror (ex_intro _ K eq_refl)) HC2) as (w' & m & L1 & L5 & L6 & L7).
      { rewrite app_length. cbn. lia. }
      exists w', m. split.
      { cbn [conn_loop]. unfold abind at 1, aworld at 1. unfold abind at 1, alift at 1. rewrite P1. unfold abind at 1, write_conn at 1. cbn [fst snd]. fold w1.
        unfold abind at 1. rewrite A1. exact L1. }
      split; [exact L5|]. split.
      { intros _. destruct l as [|cn' l']; [|apply L6; discriminate]. cbn in L1. unfold aret in L1. intro; subst. discriminate. }
      intros r t. rewrite L7. cbn [conn_entry suml]. rewrite A4. rewrite (kept_cblock E Bs w0 w1 _ _ _ HW1). fold (added E Bs h0 cn). unfold added. fold i j. lra.
Qed.
End Loop.

Lemma get_conn_entries E Bs arg w s k : assembled w s -> (match arg with Some k' => Some k' | None => as_conn s end) = Some k -> as_kC_conn s = None ->
  w_conn w k <> [] -> List.Forall (usable (w_panel w) (as_panels s)) (w_conn w k) ->
  (forall i, In i (as_panels s) -> sound E (w_panel w) i) ->
  let size := total_width (w_panel w) (as_panels s) in
  exists w' s' K, get_kC_conn E Bs arg true w s = (w', s', Ok (CMat size K)) /\
    forall r t, K r t = finalize_symmetric (fun r t => suml (w_conn w k) (fun cn => dense (added E Bs (w_panel w) cn) r t)) r t.
Proof.
  intros (Hne & ND & L) Hk Hc Hl HU HS size.
  destruct (conn_loop_entries E Bs w (as_panels s) k L HS (w_conn w k) 0 [] w s None CZero (wkept_refl E w) HU (or_introl eq_refl) eq_refl eq_refl)
    as (w' & m & L1 & L5 & L6 & L7).
  destruct L5 as [->|[K ->]]; [exfalso; apply L6; [exact Hl|reflexivity]|].
  exists w', (mkAsm (as_panels s) (as_conn s) (Some (CMat size (finalize_symmetric K))) (as_cores s)), (finalize_symmetric K). split.
  { unfold get_kC_conn. unfold abind at 1, aself at 1. rewrite Hk, Hc. unfold abind at 1. rewrite asm_size_total. unfold abind at 1, aworld at 1.
    unfold abind at 1. fold size in L1. fold size. rewrite L1. unfold abind at 1, alift at 1. cbn [cfinal]. reflexivity. }
  intros r t. cbn [conn_entry] in L7. assert (L8 : forall r t, K r t = suml (w_conn w k) (fun cn => dense (added E Bs (w_panel w) cn) r t)).
  { intros. rewrite L7. lra. }
  unfold finalize_symmetric. destruct (r <=? t)%nat; apply L8.
Qed.

(* ------------------------------------------------- with the shipped data *)
Definition with_exact (E : env) : env := mkEnv (e_rule E) exact_basis exact_tables (e_lib E).
Definition pair_on (h : nat -> xpanel) (cn : conn) (i j : nat) : Prop :=
  let inside o size := match o with Some y => 0 <= y <= size | None => True end in
  match cn_func cn with
  | SSycte | BFycte => inside (cn_y1 cn) (sh_b (geometry h i)) /\ inside (cn_y2 cn) (sh_b (geometry h j))
  | SSxcte | BFxcte => inside (cn_x1 cn) (sh_a (geometry h i)) /\ inside (cn_x2 cn) (sh_a (geometry h j))
  | _ => True
  end.
Lemma natural_inside y b : 0 < b -> 0 <= y <= b -> -1 <= natural y b <= 1.
Proof.
  intros Hb Hy. unfold natural. assert (0 <= y / b <= 1).
  { split; [apply Rdiv_le_0_compat; lra|]. apply (Rmult_le_reg_r b); [exact Hb|]. unfold Rdiv. rewrite Rmult_assoc, Rinv_l by lra. lra. }
  replace (2 * y / b) with (2 * (y / b)) by (field; lra). lra.
Qed.
Lemma side_mis k len kt kr d1 d2 (ms : list mis) : 0 < len -> 0 < kt -> 0 < kr -> 0 < d1 -> 0 < d2 -> 
  mis_scale ms = Rabs (len / 2 * kt) * ((1 + 1) * (1 + 1)) + (Rabs (len / 2 * kt) * ((1 + 1) * (1 + 1)) + (Rabs (len / 2 * kt) * ((1 + 1) * (1 + 1)) +
    (Rabs (len / 2 * kr) * ((2 / d1 + 2 / d2) * (2 / d1 + 2 / d2)) + 0))) ->
  k * mis_scale ms = k * side_scale len kt kr d1 d2.
Proof.
  intros Hl Ht Hr H1 H2 ->. f_equal. rewrite !Rabs_pos_eq by (apply Rmult_le_pos; lra). unfold side_scale. field. lra.
Qed.
Lemma one_sum t : absum [t] = Rabs (tk t).
Proof. unfold absum. cbn [suml]. lra. Qed.
Lemma absum_U k : absum [U1 k] = 1.
Proof. rewrite one_sum. cbn [U1 tk]. apply Rabs_R1. Qed.
Lemma absum_Um k : absum [Um k] = 1.
Proof. rewrite one_sum. cbn [Um tk]. rewrite Rabs_left by lra. lra. Qed.
Lemma absum_slope d p q r : 0 < d -> absum [mkTm (2 / d) p q r] = 2 / d.
Proof. intro H. rewrite one_sum. cbn [tk]. apply Rabs_pos_eq. apply Rlt_le. apply Rdiv_lt_0_compat; lra. Qed.
Lemma absum_slope' d p q r : 0 < d -> absum [mkTm (- (2 / d)) p q r] = 2 / d.
Proof. intro H. rewrite one_sum. cbn [tk]. rewrite Rabs_Ropp. apply Rabs_pos_eq. apply Rlt_le. apply Rdiv_lt_0_compat; lra. Qed.
Ltac side_tac := unfold mis_scale; cbn [suml ms_SSy ms_BFy ms_SSx ms_BFx mk mA mB]; rewrite !absum_U, !absum_Um, absum_slope, absum_slope' by assumption; reflexivity.

Lemma face_mis a b kt d s1 s2 : sh_a s1 = a -> sh_b s1 = b -> 0 < a -> 0 < b -> 0 < kt -> mis_scale (ms_SB s1 s2 kt d) = face_scale a b kt d.
Proof.
  intros Ea Eb Ha Hb Hk. unfold mis_scale. cbn [suml ms_SB mk mA mB]. rewrite !absum_Um, !absum_U.
  assert (E2 : forall l p q r, 0 < l -> absum [U1 p; mkTm (d * (2 / l)) 2 q r] = 1 + Rabs d * (2 / l)).
  { intros l p q r Hl. unfold absum. cbn [suml U1 tk]. rewrite Rabs_R1, Rabs_mult, (Rabs_pos_eq (2 / l)); [lra|]. apply Rlt_le. apply Rdiv_lt_0_compat; lra. }
  rewrite Ea, Eb, !E2 by assumption.
  rewrite (Rabs_pos_eq (a * b / 4 * kt)) by (apply Rmult_le_pos; [apply Rmult_le_pos; [apply Rmult_le_pos|]|]; lra).
  unfold face_scale. field. lra.
Qed.

Lemma cblock_near E h cn i j r t : e_tables E = code_tables -> sound E h i -> sound E h j -> pair_keys h cn i j -> pair_on h cn i j ->
  within12 (geometry h i) -> within12 (geometry h j) ->
  Rabs (dense (cblock E code_basis h cn i j) r t - dense (cblock (with_exact E) exact_basis h cn i j) r t) <= 4 / 10 ^ 12 * pair_scale E h cn i j.
Proof.
  intros HE Si Sj HK HO W1 W2.
  destruct Si as (Ci & ai & bi & hi & A1i & A2i & D1i & D2i). destruct Sj as (Cj & aj & bj & hj & A1j & A2j & D1j & D2j).
  assert (P1 : 0 < penalty_of E h A11 A11 i j) by exact (pen_pos _ _ _ _ A1i A1j hi hj).
  assert (P2 : 0 < penalty_of E h A22 A22 i j) by exact (pen_pos _ _ _ _ A2i A2j hi hj).
  assert (P3 : 0 < penalty_of E h D11 D11 i j) by exact (pen_pos _ _ _ _ D1i D1j hi hj).
  assert (P4 : 0 < penalty_of E h D22 D22 i j) by exact (pen_pos _ _ _ _ D2i D2j hi hj).
  assert (ai' : sh_a (geometry h i) <> 0) by lra. assert (bi' : sh_b (geometry h i) <> 0) by lra.
  assert (aj' : sh_a (geometry h j) <> 0) by lra. assert (bj' : sh_b (geometry h j) <> 0) by lra.
  unfold cblock. rewrite HE. change (e_tables (with_exact E)) with exact_tables.
  change (penalty_of (with_exact E) h A22 A22 i j) with (penalty_of E h A22 A22 i j).
  change (penalty_of (with_exact E) h D22 D22 i j) with (penalty_of E h D22 D22 i j).
  change (penalty_of (with_exact E) h A11 A11 i j) with (penalty_of E h A11 A11 i j).
  change (penalty_of (with_exact E) h D11 D11 i j) with (penalty_of E h D11 D11 i j).
  set (kA1 := penalty_of E h A11 A11 i j) in *. set (kA2 := penalty_of E h A22 A22 i j) in *.
  set (kD1 := penalty_of E h D11 D11 i j) in *. set (kD2 := penalty_of E h D22 D22 i j) in *.
  unfold pair_scale. fold kA1 kA2 kD1 kD2.
  set (s1 := geometry h i) in *. set (s2 := geometry h j) in *.
  unfold pair_keys in HK. unfold pair_on in HO. fold s1 s2 in HK, HO. destruct (cn_func cn); try contradiction; cbv zeta.
  - destruct HK as [K1 K2]. destruct (cn_y1 cn) as [y1|]; [|congruence]. destruct (cn_y2 cn) as [y2|]; [|congruence]. cbn [default].
    rewrite <- (side_mis _ (sh_a s1) kA2 kD2 (sh_b s1) (sh_b s2) (ms_SSy s1 s2 kA2 kD2)); try assumption; [|side_tac].
    apply SSy_near; try assumption; [lra|apply natural_inside; tauto|apply natural_inside; tauto].
  - destruct HK as [K1 K2]. destruct (cn_x1 cn) as [y1|]; [|congruence]. destruct (cn_x2 cn) as [y2|]; [|congruence]. cbn [default].
    rewrite <- (side_mis _ (sh_b s1) kA1 kD1 (sh_a s1) (sh_a s2) (ms_SSx s1 s2 kA1 kD1)); try assumption; [|side_tac].
    apply SSx_near; try assumption; [lra|apply natural_inside; tauto|apply natural_inside; tauto].
  - assert (0 < Rmin (sh_a s1) (sh_b s1)) by (apply Rmin_pos; assumption).
    rewrite <- (face_mis _ _ _ _ s1 s2 eq_refl eq_refl) by (try assumption; apply Rdiv_lt_0_compat; assumption). apply SB_near; assumption.
  - destruct HK as [K1 K2]. destruct (cn_y1 cn) as [y1|]; [|congruence]. destruct (cn_y2 cn) as [y2|]; [|congruence]. cbn [default].
    rewrite <- (side_mis _ (sh_a s1) kA2 kD2 (sh_b s1) (sh_b s2) (ms_BFy s1 s2 kA2 kD2)); try assumption; [|side_tac].
    apply BFy_near; try assumption; [lra|apply natural_inside; tauto|apply natural_inside; tauto].
  - destruct HK as [K1 K2]. destruct (cn_x1 cn) as [y1|]; [|congruence]. destruct (cn_x2 cn) as [y2|]; [|congruence]. cbn [default].
    rewrite <- (side_mis _ (sh_b s1) kA1 kD1 (sh_a s1) (sh_a s2) (ms_BFx s1 s2 kA1 kD1)); try assumption; [|side_tac].
    apply BFx_near; try assumption; [lra|apply natural_inside; tauto|apply natural_inside; tauto].
  - assert (0 < sh_a s1 * sh_b s1) by (apply Rmult_lt_0_compat; assumption).
    rewrite <- (face_mis _ _ _ _ s1 s2 eq_refl eq_refl) by (try assumption; apply Rdiv_lt_0_compat; lra). apply SB_near; assumption.
Qed.

Lemma reversed_scale E h cn : reversible h cn -> has_keys h cn -> pair_scale E h (swap_keys cn) (cn_p2 cn) (cn_p1 cn) = pair_scale E h cn (cn_p1 cn) (cn_p2 cn).
Proof.
  intros [_ HR] _. unfold pair_scale. rewrite swap_func. destruct (cn_func cn); try contradiction; unfold penalty_of.
  - rewrite HR, (penalty_sym (A22 (lam_of E h (cn_p2 cn)))), (penalty_sym (D22 (lam_of E h (cn_p2 cn)))). unfold side_scale. ring.
  - rewrite HR, (penalty_sym (A11 (lam_of E h (cn_p2 cn)))), (penalty_sym (D11 (lam_of E h (cn_p2 cn)))). unfold side_scale. ring.
Qed.
Lemma swap_on h cn : reversible h cn -> has_keys h cn -> on_panels h cn -> pair_on h (swap_keys cn) (cn_p2 cn) (cn_p1 cn).
Proof.
  intros [_ HR]. unfold has_keys, pair_keys, on_panels, pair_on. rewrite swap_func. unfold swap_keys. destruct (cn_func cn); try contradiction;
    destruct (cn_x1 cn), (cn_x2 cn), (cn_y1 cn), (cn_y2 cn); cbn; intros [? ?]; try congruence; tauto.
Qed.
Lemma added_near E h ids cn r t : e_tables E = code_tables -> (forall i, In i ids -> sound E h i /\ within12 (geometry h i)) -> usable h ids cn -> on_panels h cn ->
  Rabs (dense (added E code_basis h cn) r t - dense (added (with_exact E) exact_basis h cn) r t) <= 4 / 10 ^ 12 * conn_scale E h cn.
Proof.
  intros HE HS (I1 & I2 & HK & Ho) HP. destruct (HS _ I1) as [S1 W1]. destruct (HS _ I2) as [S2 W2].
  unfold added, left_as, first_of, second_of, conn_scale. destruct Ho as [Ho|Hr].
  - unfold in_order in Ho. apply Nat.ltb_lt in Ho. rewrite Ho. apply cblock_near; assumption.
  - pose proof (proj1 Hr) as Hlt. replace (start h (cn_p1 cn) <? start h (cn_p2 cn))%nat with false by (symmetry; apply Nat.ltb_ge; lia).
    rewrite <- (reversed_scale E h cn Hr HK). apply cblock_near; try assumption; [apply swap_pair_keys|apply swap_on]; assumption.
Qed.

Section Shipped.
Variables (E : env) (k : nat) (arg : option nat) (w : world) (s : assembly).
Let h := w_panel w.
Let ids := as_panels s.
Let size := total_width h ids.
Lemma conn_stiffness_near :
  assembled w s -> as_kC_conn s = None -> (match arg with Some k' => Some k' | None => as_conn s end) = Some k ->
  w_conn w k <> [] -> List.Forall (usable h ids) (w_conn w k) -> List.Forall (on_panels h) (w_conn w k) ->
  (forall i, In i ids -> sound E h i /\ (sh_m (geometry h i) <= 12)%nat /\ (sh_n (geometry h i) <= 12)%nat /\ unit_edges (geometry h i)) ->
  e_tables E = code_tables ->
  exists w' s' K X, get_kC_conn E code_basis arg true w s = (w', s', Ok (CMat size K)) /\
    (forall c d, exists Ws, Forall2 (fun cn => conn_work E exact_basis h cn c d) (w_conn w k) Ws /\ bilinear size X c d = suml Ws (fun W => W)) /\
    (forall c, 0 <= quad size X c) /\
    (forall r t, K r t = K t r /\ X r t = X t r) /\
    forall r t, Rabs (K r t - X r t) <= 4 / 10 ^ 12 * suml (w_conn w k) (conn_scale E h).
Proof using .
  intros HA Hc Harg Hl HU HO HS HE.
  destruct (get_conn_entries E code_basis arg w s k HA Harg Hc Hl HU (fun i Hi => proj1 (HS i Hi))) as (w1 & s1 & K & G1 & G2).
  destruct (get_conn_entries (with_exact E) exact_basis arg w s k HA Harg Hc Hl HU (fun i Hi => proj1 (HS i Hi))) as (w2 & s2 & X & X1 & X2).
  destruct (conn_stiffness (with_exact E) exact_basis 12 k arg w s HA Hc Harg Hl HU) as (w3 & s3 & Y & Y1 & Y2 & Y3 & Y4 & _).
  { intros i Hi. destruct (HS i Hi) as (A1 & A2 & A3 & _). split; [exact A1|]. split; assumption. }
  { apply exact_tables_integrate. lia. }
  fold h ids in X1, Y1, G1. fold size in X1, Y1, G1.
  assert (EXY : X = Y) by congruence. subst Y.
  exists w1, s1, K, X. split; [exact G1|]. split; [exact Y3|]. split; [exact Y4|]. split.
  { intros r t. split; [|apply Y2]. rewrite !G2. unfold finalize_symmetric. destruct (r <=? t)%nat eqn:A, (t <=? r)%nat eqn:B; try reflexivity.
    - apply Nat.leb_le in A, B. replace t with r by lia. reflexivity.
    - apply Nat.leb_gt in A, B. lia. }
  assert (HN : forall r t, Rabs (suml (w_conn w k) (fun cn => dense (added E code_basis h cn) r t) -
      suml (w_conn w k) (fun cn => dense (added (with_exact E) exact_basis h cn) r t)) <= 4 / 10 ^ 12 * suml (w_conn w k) (conn_scale E h)).
  { intros r t. rewrite <- suml_scal. apply suml_near. intros cn Hcn. rewrite List.Forall_forall in HU, HO.
    apply (added_near E h ids); [exact HE| |apply HU; exact Hcn|apply HO; exact Hcn].
    intros i Hi. destruct (HS i Hi) as (A1 & A2 & A3 & A4). split; [exact A1|]. split; [exact A2|]. split; assumption. }
  intros r t. rewrite G2, X2. unfold finalize_symmetric. destruct (r <=? t)%nat; apply HN.
Qed.
End Shipped.
