(* The response of an assembly to loads: existence, reciprocity, least energy, more connections. *)
From Coq Require Import Reals List Arith Bool Lia Lra Permutation FunctionalExtensionality.
From Coquelicot Require Import Coquelicot.
From Verif Require Import Proof_Rigid Base_Sum Model_Types Model_Coo Model_Result Model_Num Model_DB Model_Bardell Model_Shell Model_Field Model_Fext Model_Multi
  Spec_Algebra Spec_Kinematics Spec_Quadrature Spec_Panel Spec_Shell Spec_Bardell Spec_Integral Spec_Field Spec_Fext Spec_Modes Spec_Conn Spec_Multi Spec_MultiConn Spec_Rigid Spec_Tied Spec_Pull Spec_Response Spec_AsmResponse
  Proof_Shell Proof_AnaApi Proof_Modes Proof_Multi Proof_MultiConn Proof_MultiTop Proof_Ana Proof_FieldApi Proof_FieldEdge Proof_Fext Proof_FextApi Proof_Pull Proof_Refine Proof_MultiApi Proof_Total Proof_Tied Proof_Solve Proof_Indep Proof_Response Prop_Stiffness.
From Coq Require Import List.
Import ListNotations.
Open Scope R_scope.

Lemma dot_split n N f (d : nat -> R) : dot (n + N) f d = dot n f d + dot N (own n f) (own n d).
Proof.
  unfold dot. induction N as [|N IH]; [rewrite Nat.add_0_r; cbn [sumn]; ring|]. rewrite Nat.add_succ_r. cbn [sumn]. rewrite IH. unfold own. ring.
Qed.
Lemma stacked_dot_from h : forall ids o vs d, laid_out h ids o -> length vs = length ids ->
  dot (total_width h ids) (stacked h ids vs) (own o d) = suml (combine ids vs) (fun iv => dot (width (h (fst iv))) (snd iv) (own (default 0%nat (xp_start (h (fst iv)))) d)).
Proof.
  induction ids as [|i ids IH]; intros o vs d L HL; destruct vs as [|v vs]; try discriminate; [reflexivity|].
  cbn [laid_out] in L. destruct L as (L1 & _ & L3). unfold stacked, total_width. cbn [map combine suml].
  change (list_sum (width (h i) :: map (fun i => width (h i)) ids)) with (width (h i) + total_width h ids)%nat.
  rewrite dot_split. cbn [fst snd]. rewrite L1. cbn [default]. f_equal.
  - unfold dot. apply sumn_ext; intros k Hk. cbn [block_vector]. apply Nat.ltb_lt in Hk. rewrite Hk. reflexivity.
  - rewrite own_own. rewrite <- (IH (o + width (h i))%nat vs d L3) by (cbn in HL; lia). unfold dot. apply sumn_ext; intros k Hk. f_equal.
    unfold own, stacked. cbn [block_vector]. replace (width (h i) + k <? width (h i))%nat with false by (symmetry; apply Nat.ltb_ge; lia). f_equal. lia.
Qed.
Lemma own_zero d : own 0 d = d.
Proof. extensionality k. reflexivity. Qed.
Lemma added_placed L : added L -> List.Forall well_placed (all_lines L).
Proof. intros (calls & outs & H). apply (run_calls_work _ _ _ _ H). constructor. Qed.
Lemma uof_own Bs t o d : Uof Bs t 0 (own o d) = Uof Bs t o d.
Proof. unfold Uof. f_equal. Qed.

Lemma suml_ge0 {X} (l : list X) f : (forall x, In x l -> 0 <= f x) -> 0 <= suml l f.
Proof.
  induction l as [|x l IH]; intro H; cbn [suml]; [lra|]. pose proof (H x (or_introl eq_refl)). assert (0 <= suml l f); [|lra]. apply IH. intros y Hy. apply H. right. exact Hy.
Qed.
Lemma choice_list {X} (P : nat -> X -> Prop) (x0 : X) l : (forall i, In i l -> exists u, P i u) -> exists U, forall i, In i l -> P i (U i).
Proof.
  induction l as [|a l IH]; intro H; [exists (fun _ => x0); intros i []|]. destruct IH as (U & HU). { intros i Hi. apply H. right. exact Hi. }
  destruct (H a (or_introl eq_refl)) as (u & Hu). exists (fun i => if Nat.eq_dec i a then u else U i). intros i Hi.
  destruct (Nat.eq_dec i a) as [->|Hn]; [exact Hu|]. apply HU. destruct Hi as [Hi|Hi]; [congruence|exact Hi].
Qed.

Section Asm.
Variables (E : env) (k : nat) (arg : option nat) (w : world) (s : assembly).
Notation h := (w_panel w). Notation ids := (as_panels s). Notation size := (total_width (w_panel w) (as_panels s)).
Hypothesis HG : stiff_assembly E k arg w s.

Lemma asm_facts : exists w' s' K, asm_kC E exact_basis arg None true w s = (w', s', Ok (Some K)) /\ symmetric K /\ psd size K /\ wkept E w w' /\ as_panels s' = ids /\
  (forall c, quad size K c = 0 <-> (forall i, In i ids -> moves_rigidly h c i) /\ List.Forall (fun cn => no_jump exact_basis h cn c) (w_conn w k)).
Proof using HG.
  destruct HG as (HA & Hc & Harg & Hl & HU & M & HS & HM & HT).
  destruct (assembly_null E M k arg w s HA Hc Harg Hl HU HS HM HT) as (w' & s' & K & HR & HZ).
  assert (HE : forall i, In i ids -> elastic E (xp (h i))) by (intros i Hi; apply (HS i Hi)).
  assert (HS' : forall i, In i ids -> sound E h i /\ (sh_m (geometry h i) <= M)%nat /\ (sh_n (geometry h i) <= M)%nat).
  { intros i Hi. destruct (HS i Hi) as ((S1 & _) & S2). split; assumption. }
  destruct (own_kC_each E M w s HA HS' HE) as (Ks & HF).
  assert (HN : forall l, None = Some (CVec l) -> length l = size) by discriminate.
  destruct (asm_kC_energy E exact_basis M k w s HA Hc Hl HU HS' HT arg None true Ks Harg HN HF) as (wx & sx & Kx & KC & HRx & HK & HKC & HW).
  rewrite HR in HRx. injection HRx as <- <- <-.
  destruct (asm_kC_diagonal E w s HA exact_basis arg None true Ks HN HF) as (w1 & T1 & HR1).
  assert (HK1 : wkept E w w1). { apply (touched_kept E _ ids w w1 (fun _ o p p' a H => calc_kC_kept E _ p p' a H) T1). }
  pose proof (tc_conn _ _ _ _ T1) as HC1.
  destruct (get_conn_run E exact_basis arg w1 s k M) as (w2 & K2 & G1 & G2 & _).
  - apply (kept_assembled E w w1); assumption.
  - exact Harg.
  - exact Hc.
  - rewrite HC1. exact Hl.
  - rewrite HC1. revert HU. apply List.Forall_impl. intros cn. apply (kept_usable E w w1 ids cn HK1).
  - intros i Hi. rewrite (kept_geometry E w w1 HK1). destruct (HS' i Hi) as (S1 & S2). split; [apply (kept_sound E w w1 HK1); exact S1|exact S2].
  - exact HT.
  - rewrite G1 in HR1. rewrite HR in HR1. exists w', s', K. split; [exact HR|].
    assert (Ew : w' = w2 /\ as_panels s' = ids). { apply (f_equal fst) in HR1. cbn [fst] in HR1. split; [exact (f_equal fst HR1)|]. apply (f_equal snd) in HR1. cbn [snd] in HR1. rewrite HR1. reflexivity. }
    destruct Ew as [-> Es]. split; [|split; [|split; [|split]]].
    + intros r t. rewrite !HK, (HKC r t). f_equal. apply diagonal_sym. intros i K0 Hi. destruct (forall2_in _ _ _ _ _ HF Hi) as (_ & a & p' & _ & Hq). exact (C17_kC_symmetric E _ _ _ _ Hq eq_refl).
    + intro c. destruct (HW c c) as (Ws & W1 & W2 & W3). unfold quad. rewrite W3. apply Rplus_le_le_0_compat.
      * unfold own_forms. apply suml_ge0. intros [i K0] Hi. destruct (forall2_in _ _ _ _ _ HF Hi) as (Hin & HO). destruct (HS i Hin) as (S1 & S2 & S3).
        exact (proj1 (own_energy E M h i K0 c S1 S2 S3 HM HT HO)).
      * exact (works_nonneg E exact_basis h ids c (w_conn w k) Ws HS' HU W1).
    + exact (wkept_trans E w w1 w2 HK1 G2).
    + exact Es.
    + exact HZ.
Qed.

(* the vector of the external forces of a later state of the same objects *)
Lemma asm_vector w' s' L inc : wkept E w w' -> as_panels s' = ids -> (forall i, In i ids -> added (L i)) ->
  exists w'' f, asm_fext E vec_basis inc (reloaded L w') s' = (w'', s', Ok f) /\
  forall d, dot size f d = asm_work E w s L inc (fun i => Uof vec_basis (geometry h i) (start h i) d).
Proof using HG.
  intros HK Hs HL. destruct HG as (HA & _ & _ & _ & _ & M & HS & HM & _). pose proof (kept_assembled E w w' s HK HA) as (A1 & A2 & A3).
  set (h' := w_panel (reloaded L w')).
  assert (HW : forall i, width (h' i) = width (h i)) by (intro i; exact (kept_width E w w' HK i)).
  assert (HST : forall i, xp_start (h' i) = xp_start (h i)) by (intro i; exact (kx_start _ _ _ (HK i))).
  assert (LO : forall l o, laid_out (w_panel w') l o -> laid_out h' l o).
  { induction l as [|i l IH]; intros o Ho; [exact I|]. destruct Ho as (O1 & O2 & O3). split; [exact O1|]. split; [exact O2|]. apply IH. exact O3. }
  assert (HA' : assembled (reloaded L w') s') by (rewrite <- Hs in *; split; [exact A1|split; [exact A2|apply LO; exact A3]]).
  assert (HF : exists vs, Forall2 (own_fext E vec_basis h' inc) ids vs).
  { apply exists_list. intros i Hi. destruct (HS i Hi) as (((HC & _) & _) & S2 & S3). pose proof (kx_panel _ _ _ (HK i)) as HP.
    destruct (calc_fext_ok E vec_basis (L i) inc SNone 0 (xp (w_panel w' i)) (kp_complete _ _ _ HP HC) (added_placed _ (HL i Hi))) as (p' & f & Hf).
    - rewrite (kp_sh _ _ _ HP). change (sh_m (geometry h i) <= 30)%nat. lia.
    - rewrite (kp_sh _ _ _ HP). change (sh_n (geometry h i) <= 30)%nat. lia.
    - cbn [size_value]. unfold ndof, DOF. lia.
    - exists (vec f), p', f. split; [exact Hf|reflexivity]. }
  destruct HF as (vs & HF). rewrite <- Hs in HF.
  destruct (asm_fext_stacked E (reloaded L w') s' HA' vec_basis inc vs HF) as (w'' & HR). exists w''. eexists. split; [exact HR|].
  intro d. fold h'. rewrite Hs in *.
  assert (HT : size = total_width h' ids). { unfold total_width. f_equal. apply map_ext. intro i. symmetry. apply HW. }
  rewrite HT. rewrite <- (own_zero d) at 1. rewrite (stacked_dot_from h' ids 0 vs d (LO _ _ A3)) by (symmetry; exact (forall2_len _ _ _ HF)).
  unfold asm_work. clear - HK HF HW HST. revert HF. generalize ids. intros l HF. induction HF as [|i v l vs Hiv HF IH]; [reflexivity|]. cbn [combine suml fst snd]. rewrite IH. f_equal.
  destruct Hiv as (p' & f & Hf & ->). change (xp (h' i)) with (xp (w_panel w' i)) in Hf. change (xp_loads (h' i)) with (L i) in Hf.
  apply calc_fext_spec in Hf. destruct Hf as (HB & Hlen & HD). destruct (rebuild_kept _ _ _ HB) as (HK2 & _). pose proof (kx_panel _ _ _ (HK i)) as HP.
  assert (EW : width (h' i) = length f). { rewrite Hlen, HW, width_ndof. rewrite (kp_sh _ _ _ HP). unfold size_value, ndof, DOF. lia. }
  rewrite EW, HD, HST. fold (start h i). rewrite (kp_view _ _ _ HK2), (kp_view _ _ _ HP), uof_own. reflexivity.
Qed.

Section Given.
Variables (K : nat -> nat -> R).
Lemma resp_inv L inc c U : asm_response E arg w s K L inc c U -> symmetric K /\ psd size K /\
  (forall c, quad size K c = 0 <-> (forall i, In i ids -> moves_rigidly h c i) /\ List.Forall (fun cn => no_jump exact_basis h cn c) (w_conn w k)) /\
  exists f, solves size K (vec c) f /\ (forall d, dot size f d = asm_work E w s L inc (fun i => Uof vec_basis (geometry h i) (start h i) d)) /\
  forall i, In i ids -> same_disp (Uof vec_basis (geometry h i) (start h i) (vec c)) (U i).
Proof using HG.
  intros (HL & w' & s' & w'' & s'' & f & HR & HX & HC & HU). destruct asm_facts as (w1 & s1 & K1 & HR1 & F1 & F2 & F3 & F4 & F5).
  rewrite HR in HR1. injection HR1 as <- <- <-. split; [exact F1|]. split; [exact F2|]. split; [exact F5|].
  destruct (asm_vector w' s' L inc F3 F4 HL) as (w2 & f2 & HX2 & HD). rewrite HX in HX2. injection HX2 as <- <- <-.
  exists f. split; [exact HC|]. split; [exact HD|]. intros i Hi. exact (disp_at _ _ _ _ _ (HU i Hi)).
Qed.
Lemma asm_work_ext L inc U V : (forall i, In i ids -> same_disp (U i) (V i)) -> asm_work E w s L inc U = asm_work E w s L inc V.
Proof using Type. intro H. unfold asm_work. apply suml_ext. intros i Hi. apply load_work_ext. exact (H i Hi). Qed.
Lemma asm_respond L inc c U d V : asm_response E arg w s K L inc c U -> (forall i, In i ids -> same_disp (Uof vec_basis (geometry h i) (start h i) d) (V i)) ->
  bilinear size K (vec c) d = asm_work E w s L inc V.
Proof using HG.
  intros HR HV. destruct (resp_inv _ _ _ _ HR) as (SK & _ & _ & f & HC & HD & _). rewrite (solved_dot _ _ _ _ _ SK HC), HD. apply asm_work_ext. exact HV.
Qed.
Lemma shows_disp c U : asm_shows E w s c U -> forall i, In i ids -> same_disp (Uof vec_basis (geometry h i) (start h i) (vec c)) (U i).
Proof using Type. intros H i Hi. exact (disp_at _ _ _ _ _ (H i Hi)). Qed.
Lemma resp_shows L inc c U : asm_response E arg w s K L inc c U -> asm_shows E w s c U.
Proof using Type. intros (_ & w' & s' & w'' & s'' & f & _ & _ & _ & H). exact H. Qed.
Lemma asm_own_work L inc c U : asm_response E arg w s K L inc c U -> asm_work E w s L inc U = quad size K (vec c).
Proof using HG. intro HR. symmetry. exact (asm_respond L inc c U (vec c) U HR (shows_disp _ _ (resp_shows _ _ _ _ HR))). Qed.
Lemma asm_betti L1 L2 i1 i2 c1 c2 U1 U2 : asm_response E arg w s K L1 i1 c1 U1 -> asm_response E arg w s K L2 i2 c2 U2 -> asm_work E w s L1 i1 U2 = asm_work E w s L2 i2 U1.
Proof using HG.
  intros H1 H2. rewrite <- (asm_respond L1 i1 c1 U1 (vec c2) U2 H1 (shows_disp _ _ (resp_shows _ _ _ _ H2))).
  rewrite <- (asm_respond L2 i2 c2 U2 (vec c1) U1 H2 (shows_disp _ _ (resp_shows _ _ _ _ H1))). apply bilinear_swap. apply (resp_inv _ _ _ _ H1).
Qed.
Lemma asm_least L inc c U d V : asm_response E arg w s K L inc c U -> (forall i, In i ids -> same_disp (Uof vec_basis (geometry h i) (start h i) d) (V i)) ->
  quad size K (vec c) - 2 * asm_work E w s L inc U <= quad size K d - 2 * asm_work E w s L inc V.
Proof using HG.
  intros HR HV. rewrite <- (asm_respond L inc c U d V HR HV), (asm_own_work _ _ _ _ HR). destruct (resp_inv _ _ _ _ HR) as (SK & PK & _).
  pose proof (PK (fun i => d i - vec c i)) as HP. rewrite (quad_diff _ _ _ _ SK) in HP. unfold quad in *. lra.
Qed.
(* a displacement without energy *)
Lemma still_panels d : all_tied k w s -> quad size K d = 0 ->
  (forall c, quad size K c = 0 <-> (forall i, In i ids -> moves_rigidly h c i) /\ List.Forall (fun cn => no_jump exact_basis h cn c) (w_conn w k)) ->
  forall i, In i ids -> forall Bs e p q x y, flagged Bs 30 -> (e < 3)%nat -> fld Bs (geometry h i) (own (start h i) d) e p q x y = 0.
Proof using HG.
  intros HT HQ HZ i Hi Bs e p q x y HB He. destruct HG as (HA & Hc & Harg & Hl & HU & M & HS & HM & HTb).
  apply HZ in HQ. destruct HQ as [Q1 Q2].
  pose proof (tied_rest E M k arg w s HA Hc Harg Hl HU HS HM HTb d Q1 Q2 i (HT i Hi) Hi) as HR. destruct (HS i Hi) as (_ & S2 & S3).
  apply unmoved_vec; try assumption; try lia.
Qed.
End Given.

Lemma asm_exists L inc : all_tied k w s -> (forall i, In i ids -> added (L i)) -> exists K c U, length c = size /\ asm_response E arg w s K L inc c U.
Proof using HG.
  intros HT HL. destruct asm_facts as (w' & s' & K & HR & SK & PK & WK & Hs & HZ). exists K.
  destruct (asm_vector w' s' L inc WK Hs HL) as (w2 & f & HX & HD).
  destruct (psd_solves size K f SK PK) as [c Hc].
  { intros d HQ. rewrite HD. transitivity (asm_work E w s L inc (fun _ _ _ _ => 0)).
    - apply asm_work_ext. intros i Hi k0 x y Hk0. unfold Uof, uvw_at. change (slice_of (start h i) d) with (own (start h i) d).
      unfold d_u, d_v, d_w. destruct k0 as [|[|[|k0]]]; [| | |lia]; apply (still_panels K d HT HQ HZ i Hi); try exact vec_flagged; lia.
    - unfold asm_work. apply suml_0. intros i _. apply work_zero. }
  set (l := map c (seq 0 size)). assert (Hl : length l = size) by (unfold l; rewrite map_length, seq_length; reflexivity).
  assert (HU : exists U, asm_shows E w s l U).
  { pose proof HG as (HA & _ & _ & _ & _ & M & HS & HM & _).
    apply (choice_list (fun i Ui => displaces E (xp (h i)) (start h i) l Ui) (fun _ _ _ => 0) ids). intros i Hi.
      destruct (HS i Hi) as (((HC & _) & _) & S2 & S3).
      destruct HA as (_ & _ & HA). destruct (laid_bound _ _ _ _ HA Hi) as (a & Ha & _ & _ & Hb).
      destruct (rebuild_ok E (xp (h i)) HC) as (q & HQ). destruct (rebuild_kept _ _ _ HQ) as (HK & _). pose proof (kp_sh _ _ _ HK) as Hsh.
      pose proof HQ as HB. apply rebuild_inv in HB. destruct HB as (_ & _ & HMd & _).
      eexists. exists q, (fun l => l), 1%nat. split; [exact HQ|]. split; [intro; apply Permutation_refl|].
      apply (uvw_is_ok _ _ _ _ _ _ (fun l => Permutation_refl l) HMd); [discriminate| | |]; rewrite Hsh.
      - change (sh_m (geometry h i) <= 30)%nat. lia.
      - change (sh_n (geometry h i) <= 30)%nat. lia.
      - rewrite skipn_length, Hl. unfold start. rewrite Ha. cbn [default]. rewrite width_ndof in Hb. unfold ndof in Hb. unfold DOF. lia. }
  destruct HU as (U & HU). exists l, U. split; [exact Hl|]. split; [exact HL|]. exists w', s', w2, s', f. split; [exact HR|]. split; [exact HX|]. split; [|exact HU].
  apply solves_list. exact Hc.
Qed.
Lemma asm_once K L inc c U c' U' : all_tied k w s -> asm_response E arg w s K L inc c U -> asm_response E arg w s K L inc c' U' -> forall i, In i ids -> same_disp (U i) (U' i).
Proof using HG.
  intros HT HR HR' i Hi. destruct (resp_inv K _ _ _ _ HR) as (SK & _ & HZ & f & HC & HD & HU). destruct (resp_inv K _ _ _ _ HR') as (_ & _ & _ & f' & HC' & HD' & HU').
  assert (HQ : quad size K (fun j => vec c j - vec c' j) = 0).
  { assert (B : forall d, bilinear size K (vec c) d = bilinear size K (vec c') d).
    { intro d. rewrite (solved_dot _ _ _ _ _ SK HC), (solved_dot _ _ _ _ _ SK HC'), HD, HD'. reflexivity. }
    rewrite (quad_diff _ _ _ _ SK). unfold quad. pose proof (B (vec c)) as B1. pose proof (B (vec c')) as B2. rewrite (bilinear_swap _ _ (vec c') (vec c) SK) in *. lra. }
  pose proof (still_panels K _ HT HQ HZ i Hi vec_basis) as Z.
  intros k0 x y Hk. rewrite <- (HU i Hi k0 x y Hk), <- (HU' i Hi k0 x y Hk).
  assert (Z' : forall dd pp qq X Y, (dd < 3)%nat -> fld vec_basis (geometry h i) (own (start h i) (vec c)) dd pp qq X Y = fld vec_basis (geometry h i) (own (start h i) (vec c')) dd pp qq X Y).
  { intros dd pp qq X Y Hdd. apply Rminus_diag_uniq. transitivity (fld vec_basis (geometry h i) (own (start h i) (fun j => vec c j - vec c' j)) dd pp qq X Y); [|apply Z; [exact vec_flagged|exact Hdd]].
    unfold fld, ritz. rewrite <- sumn_minus. apply sumn_ext; intros. rewrite <- sumn_minus. apply sumn_ext; intros. unfold own. ring. }
  unfold Uof, uvw_at. change (slice_of (start h i) (vec c)) with (own (start h i) (vec c)). change (slice_of (start h i) (vec c')) with (own (start h i) (vec c')).
  unfold d_u, d_v, d_w. destruct k0 as [|[|[|k0]]]; [| | |lia]; apply Z'; lia.
Qed.
End Asm.

(* ------------------------------------------------- more connections *)
Lemma along_x_once js s1 s2 y1 y2 U V U' V' W W' : work_along_x js s1 s2 y1 y2 U V U' V' W -> work_along_x js s1 s2 y1 y2 U V U' V' W' -> W = W'.
Proof. unfold work_along_x. intros H H'. rewrite <- (is_RInt_unique _ _ _ _ H), <- (is_RInt_unique _ _ _ _ H'). reflexivity. Qed.
Lemma along_y_once js s1 s2 y1 y2 U V U' V' W W' : work_along_y js s1 s2 y1 y2 U V U' V' W -> work_along_y js s1 s2 y1 y2 U V U' V' W' -> W = W'.
Proof. unfold work_along_y. intros H H'. rewrite <- (is_RInt_unique _ _ _ _ H), <- (is_RInt_unique _ _ _ _ H'). reflexivity. Qed.
Lemma area_once js s1 s2 U V U' V' W W' : work_over_area js s1 s2 U V U' V' W -> work_over_area js s1 s2 U V U' V' W' -> W = W'.
Proof. unfold work_over_area. intros H H'. symmetry. exact (integral_unique s1 s1 _ _ _ _ eq_refl eq_refl (fun _ _ => eq_refl) H H'). Qed.
Lemma conn_work_once E Bs h cn c d W W' : conn_work E Bs h cn c d W -> conn_work E Bs h cn c d W' -> W = W'.
Proof.
  unfold conn_work, pair_work. cbv zeta. destruct (cn_func cn); try contradiction; try (apply area_once).
  all: intros (y1 & y2 & Y1 & Y2 & H) (z1 & z2 & Z1 & Z2 & H'); rewrite Y1 in Z1; rewrite Y2 in Z2; injection Z1 as <-; injection Z2 as <-;
    first [exact (along_x_once _ _ _ _ _ _ _ _ _ _ _ H H') | exact (along_y_once _ _ _ _ _ _ _ _ _ _ _ H H')].
Qed.
Lemma works_once E Bs h c d l : forall Ws Ws', Forall2 (fun cn => conn_work E Bs h cn c d) l Ws -> Forall2 (fun cn => conn_work E Bs h cn c d) l Ws' -> Ws = Ws'.
Proof.
  induction l as [|cn l IH]; intros Ws Ws' H H'; inversion H; inversion H'; subst; [reflexivity|]. f_equal; [eapply conn_work_once; eassumption|apply IH; assumption].
Qed.

Section More.
Variables (E : env) (k k2 : nat) (arg arg2 : option nat) (w w2 : world) (s s2 : assembly) (extra : list conn).
Hypothesis HG : stiff_assembly E k arg w s.
Hypothesis HG2 : stiff_assembly E k2 arg2 w2 s2.
Hypothesis Hp : w_panel w2 = w_panel w.
Hypothesis Hi : as_panels s2 = as_panels s.
Hypothesis Hcn : w_conn w2 k2 = w_conn w k ++ extra.
Notation size := (total_width (w_panel w) (as_panels s)).
Lemma quad_more w' s' K w2' s2' K2 d : asm_kC E exact_basis arg None true w s = (w', s', Ok (Some K)) -> asm_kC E exact_basis arg2 None true w2 s2 = (w2', s2', Ok (Some K2)) ->
  quad size K d <= quad size K2 d.
Proof using All.
  intros HR HR2. destruct HG as (HA & Hc & Harg & Hl & HU & M & HS & HM & HT). destruct HG2 as (HA2 & Hc2 & Harg2 & Hl2 & HU2 & M2 & HS2 & HM2 & HT2).
  assert (HE : forall i, In i (as_panels s) -> elastic E (xp (w_panel w i))) by (intros i Hj; apply (HS i Hj)).
  assert (HS' : forall i, In i (as_panels s) -> sound E (w_panel w) i /\ (sh_m (geometry (w_panel w) i) <= M)%nat /\ (sh_n (geometry (w_panel w) i) <= M)%nat).
  { intros i Hj. destruct (HS i Hj) as ((S1 & _) & S2). split; assumption. }
  assert (HS2' : forall i, In i (as_panels s2) -> sound E (w_panel w2) i /\ (sh_m (geometry (w_panel w2) i) <= M2)%nat /\ (sh_n (geometry (w_panel w2) i) <= M2)%nat).
  { intros i Hj. destruct (HS2 i Hj) as ((S1 & _) & S2). split; assumption. }
  destruct (own_kC_each E M w s HA HS' HE) as (Ks & HF).
  assert (HN : forall n l, None = Some (CVec l) -> length l = n) by discriminate.
  destruct (asm_kC_energy E exact_basis M k w s HA Hc Hl HU HS' HT arg None true Ks Harg (HN _) HF) as (wx & sx & Kx & KC & HRx & _ & _ & HW).
  rewrite HR in HRx. injection HRx as <- <- <-.
  assert (HF2 : Forall2 (own_kC E (w_panel w2) true None) (as_panels s2) Ks) by (rewrite Hp, Hi; exact HF).
  destruct (asm_kC_energy E exact_basis M2 k2 w2 s2 HA2 Hc2 Hl2 HU2 HS2' HT2 arg2 None true Ks Harg2 (HN _) HF2) as (wx & sx & Kx & KC2 & HRx & _ & _ & HW2).
  rewrite HR2 in HRx. injection HRx as <- <- <-.
  destruct (HW d d) as (Ws & W1 & _ & W3). destruct (HW2 d d) as (Ws2 & V1 & _ & V3).
  rewrite Hp, Hi in V3. rewrite Hp, Hcn in V1. unfold quad. rewrite W3, V3.
  apply Forall2_app_inv_l in V1. destruct V1 as (Wa & Wb & Va & Vb & ->). rewrite (works_once _ _ _ _ _ _ _ _ W1 Va). rewrite suml_app.
  assert (HX : 0 <= suml Wb (fun W => W)).
  { rewrite Hcn in HU2. apply Forall_app in HU2. destruct HU2 as [_ HU2]. rewrite Hp in *. exact (works_nonneg E exact_basis (w_panel w) (as_panels s2) d extra Wb HS2' HU2 Vb). }
  lra.
Qed.
Lemma more_connections K K2 L inc c U c2 U2 : asm_response E arg w s K L inc c U -> asm_response E arg2 w2 s2 K2 L inc c2 U2 ->
  asm_work E w2 s2 L inc U2 <= asm_work E w s L inc U.
Proof using All.
  intros HR HR2. pose proof (asm_own_work E k arg w s HG K L inc c U HR) as O1. pose proof (asm_own_work E k2 arg2 w2 s2 HG2 K2 L inc c2 U2 HR2) as O2.
  assert (HV : forall i, In i (as_panels s) -> same_disp (Uof vec_basis (geometry (w_panel w) i) (start (w_panel w) i) (vec c2)) (U2 i)).
  { pose proof (shows_disp E w2 s2 _ _ (resp_shows E arg2 w2 s2 K2 _ _ _ _ HR2)) as H. rewrite Hp, Hi in H. exact H. }
  pose proof (asm_least E k arg w s HG K L inc c U (vec c2) U2 HR HV) as HL.
  assert (EW : asm_work E w s L inc U2 = asm_work E w2 s2 L inc U2) by (unfold asm_work; rewrite Hp, Hi; reflexivity).
  pose proof HR as (_ & w' & s' & _ & _ & _ & HK & _). pose proof HR2 as (_ & w2' & s2' & _ & _ & _ & HK2 & _).
  pose proof (quad_more w' s' K w2' s2' K2 (vec c2) HK HK2) as HQ. rewrite Hp, Hi in O2. rewrite EW in HL. lra.
Qed.
End More.
