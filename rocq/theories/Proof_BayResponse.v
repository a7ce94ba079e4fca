(* The stiffness of a bay is the sum of energies that are not negative; it vanishes only if no part is strained and the flanges
   stay on the skin. *)
From Coq Require Import Reals List Arith Bool ZArith Lia Lra.
From Coquelicot Require Import Coquelicot.
From Verif Require Import Base_Sum Model_Types Model_Coo Model_Result Model_Num Model_DB Model_Bardell Model_Shell Model_Multi Model_Bay
  Spec_Algebra Spec_Kinematics Spec_Quadrature Spec_Panel Spec_Shell Spec_Bardell Spec_Integral Spec_Fext Spec_Conn Spec_Multi Spec_MultiConn Spec_Stiff Spec_Modes Spec_Rigid Spec_Tied Spec_Pull
  Spec_Bay Spec_BayWork Spec_Blade Spec_BayResponse Spec_ConnScale
  Proof_MultiSign Proof_Shell Proof_AnaApi Proof_Conn Proof_MultiConn Proof_ConnZero Proof_Rigid Proof_Tied Proof_Ana Proof_Pull Proof_Solve Proof_Indep Proof_Stiff Proof_Bay Proof_BayMade Proof_BayWork Proof_BayTotal.
From Verif Require Proof_Response.
From Coq Require Import List.
Import ListNotations.
Open Scope R_scope.

Section Stiff.
Variables (V : benv) (B : bay) (p0 : panel) (n : nat).
Hypothesis HS : stiff_bay V B p0 n.
Notation E := (b_env V). Notation N := (bay_dim B).
Variable c : nat -> R.

(* the energy of one panel at its place *)
Lemma own_case o p W : elastic E p -> (sh_m (pn_sh p) <= n)%nat -> (sh_n (pn_sh p) <= n)%nat -> (o + ndof (pn_sh p) <= N)%nat ->
  own_work (alone_kC E) N o p c c W -> 0 <= W /\
  (W = 0 -> resists E p -> 0 < sh_a (pn_sh p) -> 0 < sh_b (pn_sh p) -> exists u0 v0 w0 th al be, rigid (skin_curve p) (kernel_view p) (own o c) u0 v0 w0 th al be).
Proof using HS.
  intros (E1 & E2 & E3 & E4 & E5) Hm Hn Ho (K & (p' & HR) & ->).
  set (A := mkKargs (SInt N) o o true None None None None None false) in *.
  assert (HT' : tables_integrate (e_tables E) exact_basis (Nat.max (sh_m (pn_sh p)) (sh_n (pn_sh p)))).
  { apply (tables_integrate_le _ _ n); [|exact (sb_tables _ _ _ _ HS)]. apply Nat.max_lub; assumption. }
  pose proof (sb_small _ _ _ _ HS) as H30.
  pose proof (kC_energy E A p p' K N HR eq_refl eq_refl eq_refl eq_refl eq_refl eq_refl E1 E2 Ho E3 HT' c c) as HI. split.
  - eapply panel_integral_ge0; [exact E5| |exact HI]. intros x y. apply E4.
  - intros HZ HD Ha Hb. assert (Hab : 0 < sh_a (pn_sh p) * sh_b (pn_sh p)) by (apply Rmult_lt_0_compat; assumption).
    exact (null_is_rigid E A p p' K N HR eq_refl eq_refl eq_refl eq_refl eq_refl eq_refl E1 E2 Ho E3 HT' HD Hab (Nat.le_trans _ _ _ Hm H30) (Nat.le_trans _ _ _ Hn H30) c HZ).
Qed.
Lemma density_nonneg Bs s bfl df E1 F1 S1 J x y : 0 <= bfl -> 0 <= E1 -> 0 <= F1 -> 0 <= J -> S1 ^ 2 <= E1 * J -> 0 <= flange_work Bs s bfl df E1 F1 S1 J c c x y.
Proof.
  intros H0 H1 H2 H3 H4. unfold flange_work. cbv zeta.
  set (e := fibre_strain _ _ _ _ _ _). set (k := d_wxx _ _ _ _ _). set (t := d_wxy _ _ _ _ _). apply Rmult_le_pos; [exact H0|].
  assert (HQ : 0 <= E1 * (e * e) - S1 * (e * t + t * e) + J * (t * t)).
  { destruct (Req_dec E1 0) as [Z|Z].
    - assert (S1 = 0) by (rewrite Z in H4; nra). subst S1 E1. assert (0 <= J * (t * t)) by (apply Rmult_le_pos; [lra|nra]). lra.
    - assert (0 < E1) by lra. apply (Rmult_le_reg_l E1); [lra|]. replace (E1 * 0) with 0 by ring.
      replace (E1 * (E1 * (e * e) - S1 * (e * t + t * e) + J * (t * t))) with ((E1 * e - S1 * t) ^ 2 + (E1 * J - S1 ^ 2) * (t * t)) by ring.
      pose proof (pow2_ge_0 (E1 * e - S1 * t)). assert (0 <= (E1 * J - S1 ^ 2) * (t * t)) by (apply Rmult_le_pos; [lra|nra]). lra. }
  assert (0 <= F1 * (k * k)) by (apply Rmult_le_pos; [lra|nra]). lra.
Qed.
Lemma stiff1_nonneg s W : In s (by_s1 B) -> stiff1_work V B N c c s W -> 0 <= W.
Proof using HS.
  intros Hs (h & Wb & Wf & Hh & Hb & Hf & ->). destruct (sb_terms _ _ _ _ HS) as (T1 & T2 & _).
  assert (0 <= Wb).
  { destruct (s1_bdef s) as [D|] eqn:ED; [|subst; lra].
    refine (proj1 (own_case 0 _ Wb (sb_pads _ _ _ _ HS s D h Hs ED Hh) _ _ _ Hb)); cbn; [exact T1|exact T2|unfold bay_dim, skin_dim, ndof; cbn; lia]. }
  assert (0 <= Wf); [|lra].
  pose proof (sb_blades _ _ _ _ HS s Hs) as HB. unfold sound_blade in HB. destruct (s1_fdef s) as [D|] eqn:ED; [|subst; lra].
  destruct (HB D eq_refl) as (B1 & B2 & B3 & B4). cbv zeta in *. unfold line_work in Hf.
  apply (rint_nonneg _ _ _ (sb_a _ _ _ _ HS) Hf). intro x. apply density_nonneg; try assumption.
  - apply blade_E1; exact B3.
  - apply Rmult_le_pos; [|apply blade_E1; exact B3]. assert (0 <= s1_bf s ^ 2) by (apply pow_le; exact B1). lra.
  - unfold flange_torsion. cbv zeta. rewrite ED. assert (0 <= lam_height (Some D) * s1_bf s ^ 3) by (apply Rmult_le_pos; [assumption|apply pow_le; assumption]).
    assert (0 <= s1_bf s * lam_height (Some D) ^ 3) by (apply Rmult_le_pos; [assumption|apply pow_le; assumption]). lra.
Qed.

(* the springs at the root *)
Lemma springs_case s q o l kt kr W : In s (by_s2 B) -> s2_flange s = Some q -> root_laminate V B s l -> kt_kr Ycte l (rebuilt_lam E q) 0 0 = (kt, Some kr) ->
  work_along_x (jumps_BFycte kt kr) (by_sh B) (pn_sh q) (s2_ys s) 0 (ritz_field (e_basis E) (by_sh B) c) (ritz_field (e_basis E) (pn_sh q) (own o c))
    (ritz_field (e_basis E) (by_sh B) c) (ritz_field (e_basis E) (pn_sh q) (own o c)) W ->
  0 <= W /\ (W = 0 -> root_closed B s q o c).
Proof using HS.
  intros Hs Hq Hl Hk HW. rewrite (sb_basis _ _ _ _ HS) in HW.
  destruct (sb_flanges _ _ _ _ HS s q Hs Hq) as (_ & _ & Hbq & (h2 & _ & D2)). destruct (sb_roots _ _ _ _ HS s Hs) as (_ & HR). destruct (HR l Hl) as (h1 & _ & D1).
  pose proof (sb_small _ _ _ _ HS) as H30. destruct (sb_terms _ _ _ _ HS) as (T1 & T2 & T3). destruct (T3 s q Hs Hq) as (T4 & T5).
  assert (PA : forall l' k, (k < 6)%nat -> definite 6 (lam_matrix false l') -> 0 < lam_ABD l' k k).
  { intros l' k Hk' HD. specialize (HD (unitv k)). assert (X : exists j, (j < 6)%nat /\ unitv k j <> 0) by (exists k; split; [exact Hk'|unfold unitv; rewrite Nat.eqb_refl; lra]).
    specialize (HD X). unfold form, unitv, lam_matrix in HD. cbn in HD. do 6 (destruct k as [|k]; [cbn in HD; lra|]). lia. }
  cbn in Hk. injection Hk as Ek Er.
  assert (Kt : 0 < kt) by (rewrite <- Ek; apply (pen_pos (A22 l) (A22 (rebuilt_lam E q)) (lam_h l) (lam_h (rebuilt_lam E q))); try assumption; apply PA; try assumption; lia).
  assert (Kr : 0 < kr) by (rewrite <- Er; apply (pen_pos (D22 l) (D22 (rebuilt_lam E q)) (lam_h l) (lam_h (rebuilt_lam E q))); try assumption; apply PA; try assumption; lia).
  assert (HJ : List.Forall (fun kj => 0 < fst kj) (jumps_BFycte kt kr)) by (unfold jumps_BFycte; pos_js).
  assert (HJ' : List.Forall (fun kj => 0 <= fst kj) (jumps_BFycte kt kr)) by (revert HJ; apply List.Forall_impl; intros; lra).
  assert (G : sh_a (pn_sh q) = sh_a (by_sh B)).
  { assert (HG : good2 (by_sh B) s) by (exact (proj1 (List.Forall_forall _ _) (g_s2 _ (built_good _ _ (sb_built _ _ _ _ HS))) s Hs)). exact (proj1 (proj2 HG) q Hq). }
  pose proof (sb_a _ _ _ _ HS) as Ha. unfold work_along_x in HW. split.
  - apply (rint_nonneg _ _ _ Ha HW). intro x. apply jump_work_nonneg. exact HJ'.
  - intros -> x Hx. cbv zeta.
    assert (HF : List.Forall (fun kj => snd kj (ritz_field exact_basis (by_sh B) c) (ritz_field exact_basis (pn_sh q) (own o c)) x (s2_ys s) (x * (sh_a (pn_sh q) / sh_a (by_sh B))) 0 = 0) (jumps_BFycte kt kr)).
    { apply no_work_no_jump; [exact HJ|].
      refine (zero_line (fun x _ => jump_work (jumps_BFycte kt kr) (ritz_field exact_basis (by_sh B) c) (ritz_field exact_basis (pn_sh q) (own o c)) (ritz_field exact_basis (by_sh B) c) (ritz_field exact_basis (pn_sh q) (own o c)) x (s2_ys s) (x * (sh_a (pn_sh q) / sh_a (by_sh B))) 0) (sh_a (by_sh B)) x 0 Ha HW _ Hx _).
      - intro t. apply jump_work_nonneg. exact HJ'.
      - assert (HB : continuous_basis exact_basis n) by (apply exact_continuous; exact H30). unfold jump_work, jumps_BFycte. cbn [suml fst snd]. unfold suml. cbn [map fold_right fst snd]. cont_tac HB. }
    assert (EX : x * (sh_a (pn_sh q) / sh_a (by_sh B)) = x) by (rewrite G; field; lra). rewrite EX in HF.
    assert (E0 : natural 0 (sh_b (pn_sh q)) = -1) by (unfold natural; field; lra).
    unfold jumps_BFycte in HF. inversion HF as [|? ? J1 HF1]; subst. inversion HF1 as [|? ? J2 HF2]; subst. inversion HF2 as [|? ? J3 HF3]; subst. inversion HF3 as [|? ? J4 HF4]; subst.
    cbn [snd ritz_field] in J1, J2, J3, J4. cbv zeta in J1, J2, J3, J4. rewrite G, E0 in J1, J2, J3, J4. repeat split; lra.
Qed.
Lemma stiff2_case j s W : nth_error (by_s2 B) j = Some s -> stiff2_work V B N c c (slice_of B j) s W ->
  0 <= W /\ (W = 0 -> forall q, s2_flange s = Some q -> root_closed B s q (slice_of B j) c /\
    exists u0 v0 w0 th al be, rigid (skin_curve q) (kernel_view q) (own (slice_of B j) c) u0 v0 w0 th al be).
Proof using HS.
  intros Hj (Wb & Wq & Wj & Hb & Hq & ->). pose proof (nth_error_In _ _ Hj) as Hs. destruct (sb_terms _ _ _ _ HS) as (T1 & T2 & T3). destruct (slice_fits _ _ _ Hj) as [F1 F2].
  assert (HG : good2 (by_sh B) s) by (exact (proj1 (List.Forall_forall _ _) (g_s2 _ (built_good _ _ (sb_built _ _ _ _ HS))) s Hs)).
  assert (Pb : 0 <= Wb).
  { destruct (s2_base s) as [b|] eqn:Eb; [|subst; lra]. destruct HG as (_ & _ & HG). destruct (HG b Eb) as (_ & _ & G1 & G2).
    refine (proj1 (own_case 0 b Wb (sb_pads2 _ _ _ _ HS s b Hs Eb) _ _ _ Hb)); [lia|lia|unfold ndof, bay_dim, skin_dim; rewrite G1, G2; lia]. }
  destruct (s2_flange s) as [q|] eqn:Eq; [|destruct Hq as [-> ->]; split; [lra|discriminate]].
  destruct Hq as (Hq & l & kt & kr & Hl & Hk & HW). destruct (T3 s q Hs Eq) as (T4 & T5). destruct (sb_flanges _ _ _ _ HS s q Hs Eq) as (Q1 & Q2 & Q3 & _).
  unfold flange_dim in F2. rewrite Eq in F2.
  assert (Fq : (slice_of B j + ndof (pn_sh q) <= N)%nat) by (unfold ndof; lia).
  destruct (own_case _ q Wq Q1 T4 T5 Fq Hq) as (P1 & P2). destruct (springs_case _ _ _ _ _ _ _ Hs Eq Hl Hk HW) as (P3 & P4).
  split; [lra|]. intros HZ q' Hq'. injection Hq' as <-. split; [apply P4; lra|]. apply P2; [lra|exact Q2| |exact Q3]. rewrite (proj1 (proj2 HG) q Eq). exact (sb_a _ _ _ _ HS).
Qed.
End Stiff.

(* ------------------------------------------------- the whole bay *)
Lemma works_sum {A} (P : A -> R -> Prop) l Ws : (forall x W, In x l -> P x W -> 0 <= W) -> Forall2 P l Ws -> 0 <= total_work Ws /\
  (total_work Ws = 0 -> forall x, In x l -> P x 0).
Proof.
  intros HP H. induction H as [|x W l Ws Hx _ IH]; unfold total_work in *; unfold suml in *; cbn [map fold_right]; [split; [lra|intros _ x []]|].
  destruct IH as [I1 I2]; [intros; eapply HP; [right|]; eassumption|]. pose proof (HP x W (or_introl eq_refl) Hx) as HW. split; [lra|].
  intros HZ y [<-|Hy]; [replace 0 with W by lra; exact Hx|apply I2; [lra|exact Hy]].
Qed.
Lemma slices_sum (P : nat -> R -> Prop) : forall k Ws, length Ws = k -> (forall j W, nth_error Ws j = Some W -> 0 <= W) -> 0 <= total_work Ws /\
  (total_work Ws = 0 -> forall j W, nth_error Ws j = Some W -> W = 0).
Proof.
  intros k Ws _. induction Ws as [|W Ws IH]; intro HP; unfold total_work in *; unfold suml in *; cbn [map fold_right]; [split; [lra|intros _ [|j] W; discriminate]|].
  destruct IH as [I1 I2]; [intros j W' HW; exact (HP (S j) W' HW)|]. pose proof (HP 0%nat W eq_refl) as HW. split; [lra|].
  intros HZ [|j] W'; cbn [nth_error]; [intro HE; injection HE as <-; lra|apply I2; lra].
Qed.
Lemma same_fld Bs s t c d p q x y : same_skin s t -> fld Bs s c d p q x y = fld Bs t c d p q x y.
Proof. intros (A1 & A2 & A3 & A4 & B1 & B2 & B3 & B4 & B5 & B6). unfold fld. assert (X : xedge s d = xedge t d) by (unfold xedge; destruct d as [|[|d]]; assumption). assert (Y : yedge s d = yedge t d) by (unfold yedge; destruct d as [|[|d]]; assumption). rewrite A3, A4, X, Y. reflexivity. Qed.
Section Whole.
Variables (V : benv) (B : bay) (p0 : panel) (n : nat).
Hypothesis HS : stiff_bay V B p0 n.
Notation E := (b_env V). Notation N := (bay_dim B).
Lemma bay_runs : exists B' K, bay_kC V B = (B', Ok K).
Proof using HS. exact (bay_kC_total V B (sb_ready _ _ _ _ HS) (built_good _ _ (sb_built _ _ _ _ HS))). Qed.
Lemma bay_lengths_ok : bay_lengths B.
Proof using HS. pose proof (sb_a _ _ _ _ HS). pose proof (sb_b _ _ _ _ HS). split; [lra|split; [lra|]]. intros s q Hs Hq. destruct (sb_flanges _ _ _ _ HS s q Hs Hq) as (_ & _ & H3 & _). lra. Qed.
Lemma panel_fits p : In p (by_panels B) -> (sh_m (pn_sh p) <= n)%nat /\ (sh_n (pn_sh p) <= n)%nat /\ (0 + ndof (pn_sh p) <= N)%nat.
Proof using HS.
  intro Hp. destruct (sb_panels _ _ _ _ HS p Hp) as (_ & (_ & _ & A3 & A4 & _)). destruct (sb_terms _ _ _ _ HS) as (T1 & T2 & _). unfold ndof, bay_dim, skin_dim. rewrite A3, A4. repeat split; lia.
Qed.
Variables (B' : bay) (K : nat -> nat -> R).
Hypothesis HK : bay_kC V B = (B', Ok K).
Lemma bay_sym r t : K r t = K t r.
Proof using HK.
  unfold bay_kC, bay_matrix in HK. revert HK.
  do 7 (unfold bbind at 1; match goal with |- context [match ?x with _ => _ end] => destruct x as [? [?|?]] end; [|discriminate]).
  match goal with |- context [match ?x with _ => _ end] => destruct x as [M|] end; [|discriminate]. unfold bret. intro H. injection H as _ <-.
  unfold finalize_symmetric. destruct (Nat.leb_spec r t), (Nat.leb_spec t r); try reflexivity; try lia. assert (r = t) by lia. subst. reflexivity.
Qed.
Lemma bay_works c : 0 <= quad N K c /\ (quad N K c = 0 -> own_work (alone_kC E) N 0 p0 c c 0 /\ forall j s, nth_error (by_s2 B) j = Some s -> stiff2_work V B N c c (slice_of B j) s 0).
Proof using HS HK.
  destruct (kC_is_work V B n (sb_built _ _ _ _ HS)) with (c := c) (d := c) (B' := B') (K := K) as (Ws & W1s & W2s & F0 & F1 & (L2 & F2) & HQ).
  { rewrite (sb_basis _ _ _ _ HS). exact (sb_tables _ _ _ _ HS). } { exact (sb_terms _ _ _ _ HS). } { exact bay_lengths_ok. } { exact HK. }
  destruct (works_sum _ _ _ (fun p W Hp HW => let '(conj A1 (conj A2 A3)) := panel_fits p Hp in proj1 (own_case V B p0 n HS c 0 p W (proj1 (sb_panels _ _ _ _ HS p Hp)) A1 A2 A3 HW)) F0) as [P0 Z0].
  destruct (works_sum _ _ _ (fun s W Hs HW => stiff1_nonneg V B p0 n HS c s W Hs HW) F1) as [P1 _].
  destruct (slices_sum (fun _ _ => True) _ W2s L2) as [P2 Z2].
  { intros j W HW. destruct (nth_error (by_s2 B) j) as [s|] eqn:Es; [exact (proj1 (stiff2_case V B p0 n HS c j s W Es (F2 j s W Es HW)))|].
    apply nth_error_None in Es. assert (j < length W2s)%nat by (apply nth_error_Some; congruence). lia. }
  unfold quad. rewrite HQ. split; [lra|]. intro HZ. split; [apply Z0; [lra|exact (proj1 (sb_one _ _ _ _ HS))]|].
  intros j s Hs. destruct (nth_error W2s j) as [W|] eqn:EW.
  - rewrite <- (Z2 ltac:(lra) j W EW). exact (F2 j s W Hs EW).
  - apply nth_error_None in EW. assert (j < length (by_s2 B))%nat by (apply nth_error_Some; congruence). lia.
Qed.
Lemma bay_psd : psd N K.
Proof using HS HK. intro c. exact (proj1 (bay_works c)). Qed.
Lemma bay_null c : quad N K c = 0 -> (exists u0 v0 w0 th al be, rigid (skin_curve p0) (by_sh B) c u0 v0 w0 th al be) /\
  forall j s q, nth_error (by_s2 B) j = Some s -> s2_flange s = Some q -> root_closed B s q (slice_of B j) c /\
    exists u0 v0 w0 th al be, rigid (skin_curve q) (pn_sh q) (own (slice_of B j) c) u0 v0 w0 th al be.
Proof using HS HK.
  intro HZ. destruct (bay_works c) as [_ H]. destruct (H HZ) as [H0 H2]. split.
  - destruct (sb_one _ _ _ _ HS) as [Hp Hr]. destruct (panel_fits p0 Hp) as (A1 & A2 & A3). destruct (sb_panels _ _ _ _ HS p0 Hp) as (HE & HV). pose proof HV as (Va & Vb & _).
    destruct (own_case V B p0 n HS c 0 p0 0 HE A1 A2 A3 H0) as [_ HR]. destruct (HR eq_refl Hr) as (u0 & v0 & w0 & th & al & be & R0).
    { rewrite Va. exact (sb_a _ _ _ _ HS). } { rewrite Vb. exact (sb_b _ _ _ _ HS). }
    exists u0, v0, w0, th, al, be. intros xi eta Hx Hy. cbv zeta. rewrite <- Va, <- Vb. destruct (R0 xi eta Hx Hy) as (R1 & R2 & R3). unfold d_u, d_v, d_w in *.
    rewrite <- !(same_fld exact_basis _ _ c _ _ _ _ _ HV). repeat split; assumption.
  - intros j s q Hs Hq. destruct (stiff2_case V B p0 n HS c j s 0 Hs (H2 j s Hs)) as [_ HR]. exact (HR eq_refl q Hq).
Qed.
Lemma bay_still c : anchored (skin_curve p0) (by_sh B) -> quad N K c = 0 -> bay_motionless B c.
Proof using HS HK.
  intros HA HZ. destruct (bay_null c HZ) as [(u0 & v0 & w0 & th & al & be & R0) HF]. pose proof (sb_a _ _ _ _ HS) as Ha. pose proof (sb_b _ _ _ _ HS) as Hb.
  destruct (sb_terms _ _ _ _ HS) as (T1 & T2 & T3). pose proof (sb_small _ _ _ _ HS) as H30.
  assert (M : at_rest (by_sh B) c).
  { destruct (anchored_still _ (by_sh B) _ _ _ _ _ _ _ ltac:(lia) ltac:(lia) ltac:(lra) ltac:(lra) HA R0) as (-> & -> & -> & -> & -> & ->). exact (rigid_rest _ _ _ R0). }
  split; [exact M|]. intros j s q Hs Hq. destruct (HF j s q Hs Hq) as [HJ (a0 & a1 & a2 & a3 & a4 & a5 & Rq)]. pose proof (nth_error_In _ _ Hs) as Hi. destruct (T3 s q Hi Hq) as (T4 & T5).
  destruct (sb_flanges _ _ _ _ HS s q Hi Hq) as (_ & _ & Bq & _). destruct (sb_roots _ _ _ _ HS s Hi) as (Hy & _).
  assert (HG : good2 (by_sh B) s) by (exact (proj1 (List.Forall_forall _ _) (g_s2 _ (built_good _ _ (sb_built _ _ _ _ HS))) s Hi)). pose proof (proj1 (proj2 HG) q Hq) as Aq.
  assert (A0 : 0 < sh_a (pn_sh q)) by (rewrite Aq; exact Ha).
  refine (rest_line_x (pn_sh q) _ ltac:(lia) ltac:(lia) A0 Bq _ _ _ _ _ _ _ Rq 0 ltac:(lra) _). intros x Hx.
  assert (X : 0 <= x <= sh_a (by_sh B)) by (rewrite <- Aq; destruct Hx as [->| ->]; lra). specialize (HJ x X). cbv zeta in HJ.
  pose proof (fun k Hk => rest_field (by_sh B) c ltac:(lia) ltac:(lia) Ha Hb k x (s2_ys s) Hk M X Hy) as Z.
  pose proof (Z 0%nat ltac:(lia)) as Z0. pose proof (Z 1%nat ltac:(lia)) as Z1. pose proof (Z 2%nat ltac:(lia)) as Z2. pose proof (Z 4%nat ltac:(lia)) as Z4. cbn [ritz_field] in Z0, Z1, Z2, Z4. cbv zeta in Z0, Z1, Z2, Z4.
  assert (E0 : natural 0 (sh_b (pn_sh q)) = -1) by (unfold natural; field; lra). cbn [ritz_field]. cbv zeta. rewrite E0, Aq. destruct HJ as (J0 & J1 & J2 & J3). repeat split; lra.
Qed.
Lemma bay_once c d f : anchored (skin_curve p0) (by_sh B) -> solves N K c f -> solves N K d f ->
  same_disp (by_sh B) c d /\ forall j s q, nth_error (by_s2 B) j = Some s -> s2_flange s = Some q -> same_disp (pn_sh q) (own (slice_of B j) c) (own (slice_of B j) d).
Proof using HS HK.
  intros HA Hc Hd. assert (HZ : quad N K (fun k => c k - d k) = 0) by (apply quad_row; intros i Hi; rewrite row_minus, Hc, Hd by exact Hi; ring).
  destruct (bay_still _ HA HZ) as [M1 M2]. assert (G : forall s c' d', motionless s (fun k => c' k - d' k) -> same_disp s c' d').
  { intros s c' d' HM xi eta Hx Hy. destruct (HM xi eta Hx Hy) as (A1 & A2 & A3). unfold d_u, d_v, d_w in *. rewrite fld_minus in A1, A2, A3. repeat split; lra. }
  split; [apply G; exact M1|]. intros j s q Hs Hq. apply G. exact (M2 j s q Hs Hq).
Qed.
Lemma bay_solved f : anchored (skin_curve p0) (by_sh B) -> (forall d, bay_motionless B d -> dot N f d = 0) -> exists c, solves N K c f.
Proof using HS HK. intros HA Hf. apply psd_solves; [exact bay_sym|exact bay_psd|]. intros d Hd. apply Hf. exact (bay_still d HA Hd). Qed.
End Whole.

(* ------------------------------------------------- further stiffeners *)
Lemma integral_once s g I J : panel_integral s g I -> panel_integral s g J -> I = J.
Proof. intros [_ H1] [_ H2]. rewrite <- (is_RInt_unique _ _ _ _ H1), <- (is_RInt_unique _ _ _ _ H2). reflexivity. Qed.
Lemma rint_once (f : R -> R) (a b I J : R) : is_RInt f a b I -> is_RInt f a b J -> I = J.
Proof. intros H1 H2. rewrite <- (is_RInt_unique _ _ _ _ H1), <- (is_RInt_unique _ _ _ _ H2). reflexivity. Qed.
Lemma dim_more l l' : (flanges_dim l <= flanges_dim (l ++ l'))%nat.
Proof. unfold flanges_dim. induction l as [|s l IH]; cbn [app fold_right]; lia. Qed.
Lemma firstn_more {A} (l l' : list A) j s : nth_error l j = Some s -> firstn j (l ++ l') = firstn j l.
Proof. intro H. assert (j < length l)%nat by (apply nth_error_Some; congruence). rewrite firstn_app. replace (j - length l)%nat with 0%nat by lia. cbn [firstn]. apply app_nil_r. Qed.
Lemma total_split {A} (P : A -> R -> Prop) l l' Ws : Forall2 P (l ++ l') Ws -> exists W1 W2, Ws = W1 ++ W2 /\ Forall2 P l W1 /\ Forall2 P l' W2.
Proof. intro H. destruct (Forall2_app_inv_l _ _ H) as (W1 & W2 & H1 & H2 & ->). eauto. Qed.
Lemma total_app a b : total_work (a ++ b) = total_work a + total_work b.
Proof. unfold total_work, suml. induction a as [|x a IH]; cbn [app map fold_right]; [lra|]. rewrite IH. lra. Qed.
Lemma works_once {A} (P P' : A -> R -> Prop) l Ws Ws' : (forall x W W', In x l -> P x W -> P' x W' -> W = W') -> Forall2 P l Ws -> Forall2 P' l Ws' -> Ws = Ws'.
Proof.
  intros HP H. revert Ws'. induction H as [|x W l Ws Hx _ IH]; intros Ws' H'; inversion H'; subst; [reflexivity|]. f_equal; [eapply HP; [left; reflexivity|eassumption|eassumption]|].
  apply IH; [|assumption]. intros z A1 A2 Hz. apply HP. right. exact Hz.
Qed.
Lemma list_ext {A} : forall l m : list A, (forall j, nth_error l j = nth_error m j) -> l = m.
Proof.
  induction l as [|x l IH]; intros [|y m] H; [reflexivity|discriminate (H 0%nat)|discriminate (H 0%nat)|].
  pose proof (H 0%nat) as H0. injection H0 as ->. f_equal. apply IH. intro j. exact (H (S j)).
Qed.
Lemma nth_first {A} : forall (l : list A) k j, (j < k)%nat -> nth_error (firstn k l) j = nth_error l j.
Proof. induction l as [|x l IH]; intros [|k] [|j] H; cbn; try lia; try reflexivity. apply IH. lia. Qed.
Section More.
Variables (V : benv) (B B2 : bay) (p0 p2 : panel) (n n2 : nat).
Hypothesis HS : stiff_bay V B p0 n.
Hypothesis HS2 : stiff_bay V B2 p2 n2.
Hypothesis HX : extended B B2.
Notation E := (b_env V). Notation N := (bay_dim B). Notation N2 := (bay_dim B2).
Lemma dims_more : (N <= N2)%nat.
Proof using HX. destruct HX as (X1 & _ & _ & _ & (l & X5)). unfold bay_dim, skin_dim. rewrite X1, X5. pose proof (dim_more (by_s2 B) l). lia. Qed.
Lemma slice_more j s : nth_error (by_s2 B) j = Some s -> slice_of B2 j = slice_of B j.
Proof using HX. intro H. destruct HX as (X1 & _ & _ & _ & (l & X5)). unfold slice_of, skin_dim. rewrite X1, X5, (firstn_more _ _ _ _ H). reflexivity. Qed.
Lemma own_once c o p W W2 : elastic E p -> (sh_m (pn_sh p) <= n)%nat -> (sh_n (pn_sh p) <= n)%nat -> (o + ndof (pn_sh p) <= N)%nat ->
  own_work (alone_kC E) N o p c c W -> own_work (alone_kC E) N2 o p c c W2 -> W = W2.
Proof using HS HX.
  intros (E1 & E2 & E3 & E4 & E5) Hm Hn Ho (K & (p' & HR) & ->) (K2 & (p2' & HR2) & ->).
  assert (HT' : tables_integrate (e_tables E) exact_basis (Nat.max (sh_m (pn_sh p)) (sh_n (pn_sh p)))).
  { apply (tables_integrate_le _ _ n); [|exact (sb_tables _ _ _ _ HS)]. apply Nat.max_lub; assumption. }
  pose proof dims_more as HD. assert (Ho2 : (o + ndof (pn_sh p) <= N2)%nat) by lia.
  pose proof (kC_energy E _ p p' K N HR eq_refl eq_refl eq_refl eq_refl eq_refl eq_refl E1 E2 Ho E3 HT' c c) as HI.
  pose proof (kC_energy E _ p p2' K2 N2 HR2 eq_refl eq_refl eq_refl eq_refl eq_refl eq_refl E1 E2 Ho2 E3 HT' c c) as HI2. exact (integral_once _ _ _ _ HI HI2).
Qed.
Lemma beside_more i j h h2 : beside B i j h -> beside B2 i j h2 -> h = h2.
Proof using HX. intros (p & q & A1 & A2 & ->) (p' & q' & A3 & A4 & ->). destruct HX as (_ & _ & X3 & _). rewrite X3 in A3, A4. congruence. Qed.
Lemma pad_more D rho h ys bb : base_shell B2 D rho h ys bb = base_shell B D rho h ys bb.
Proof using HX. destruct HX as (X1 & X2 & _). unfold base_shell, bay_edges. rewrite X1, X2. reflexivity. Qed.
Lemma stiff1_once c s W W2 : In s (by_s1 B) -> stiff1_work V B N c c s W -> stiff1_work V B2 N2 c c s W2 -> W = W2.
Proof using HS HX.
  intros Hs (h & Wb & Wf & Hh & Hb & Hf & ->) (h2 & Wb2 & Wf2 & Hh2 & Hb2 & Hf2 & ->). rewrite <- (beside_more _ _ _ _ Hh Hh2) in *.
  destruct (sb_terms _ _ _ _ HS) as (T1 & T2 & _). f_equal.
  - destruct (s1_bdef s) as [D|] eqn:ED; [|congruence]. rewrite pad_more in Hb2.
    refine (own_once c 0 _ Wb Wb2 (sb_pads _ _ _ _ HS s D h Hs ED Hh) _ _ _ Hb Hb2); cbn; [exact T1|exact T2|unfold bay_dim, skin_dim, ndof; cbn; lia].
  - destruct (s1_fdef s) as [D|]; [|congruence]. cbv zeta in *. destruct HX as (X1 & _). rewrite X1 in Hf2. unfold line_work in *. exact (rint_once _ _ _ _ _ Hf Hf2).
Qed.
Lemma stiff2_once c j s W W2 : nth_error (by_s2 B) j = Some s -> stiff2_work V B N c c (slice_of B j) s W -> stiff2_work V B2 N2 c c (slice_of B j) s W2 -> W = W2.
Proof using HS HX.
  intros Hj (Wb & Wq & Wj & Hb & Hq & ->) (Wb2 & Wq2 & Wj2 & Hb2 & Hq2 & ->). pose proof (nth_error_In _ _ Hj) as Hs. destruct (sb_terms _ _ _ _ HS) as (T1 & T2 & T3). destruct (slice_fits _ _ _ Hj) as [F1 F2].
  assert (HG : good2 (by_sh B) s) by (exact (proj1 (List.Forall_forall _ _) (g_s2 _ (built_good _ _ (sb_built _ _ _ _ HS))) s Hs)).
  assert (Wb = Wb2).
  { destruct (s2_base s) as [b|] eqn:Eb; [|congruence]. destruct HG as (_ & _ & HG). destruct (HG b Eb) as (_ & _ & G1 & G2).
    refine (own_once c 0 b Wb Wb2 (sb_pads2 _ _ _ _ HS s b Hs Eb) _ _ _ Hb Hb2); [lia|lia|unfold ndof, bay_dim, skin_dim; rewrite G1, G2; lia]. }
  destruct (s2_flange s) as [q|] eqn:Eq; [|destruct Hq as [-> ->]; destruct Hq2 as [-> ->]; lra].
  destruct Hq as (Hq & l & kt & kr & Hl & Hk & HW). destruct Hq2 as (Hq2 & l2 & kt2 & kr2 & Hl2 & Hk2 & HW2).
  destruct (T3 s q Hs Eq) as (T4 & T5). destruct (sb_flanges _ _ _ _ HS s q Hs Eq) as (Q1 & _).
  unfold flange_dim in F2. rewrite Eq in F2. assert (Fq : (slice_of B j + ndof (pn_sh q) <= N)%nat) by (unfold ndof; lia).
  assert (Wq = Wq2) by exact (own_once c _ q _ _ Q1 T4 T5 Fq Hq Hq2).
  assert (l2 = l). { destruct HX as (_ & _ & X3 & _). unfold root_laminate in Hl, Hl2. destruct (s2_base s); [congruence|]. rewrite X3 in Hl2. destruct Hl as (a & A1 & ->), Hl2 as (b & A2 & ->). congruence. }
  subst l2. rewrite Hk in Hk2. injection Hk2 as <- <-. destruct HX as (X1 & _). rewrite X1 in HW2. unfold work_along_x in *.
  assert (Wj = Wj2) by exact (rint_once _ _ _ _ _ HW HW2). subst. reflexivity.
Qed.
Lemma bay_more B' K B2' K2 c : bay_kC V B = (B', Ok K) -> bay_kC V B2 = (B2', Ok K2) -> quad N K c <= quad N2 K2 c.
Proof using HS HS2 HX.
  intros HK HK2.
  destruct (kC_is_work V B n (sb_built _ _ _ _ HS)) with (c := c) (d := c) (B' := B') (K := K) as (Ws & W1s & W2s & F0 & F1 & (L2 & F2) & HQ).
  { rewrite (sb_basis _ _ _ _ HS). exact (sb_tables _ _ _ _ HS). } { exact (sb_terms _ _ _ _ HS). } { exact (bay_lengths_ok _ _ _ _ HS). } { exact HK. }
  destruct (kC_is_work V B2 n2 (sb_built _ _ _ _ HS2)) with (c := c) (d := c) (B' := B2') (K := K2) as (Ws' & W1s' & W2s' & F0' & F1' & (L2' & F2') & HQ').
  { rewrite (sb_basis _ _ _ _ HS2). exact (sb_tables _ _ _ _ HS2). } { exact (sb_terms _ _ _ _ HS2). } { exact (bay_lengths_ok _ _ _ _ HS2). } { exact HK2. }
  pose proof HX as (X1 & X2 & X3 & (l1 & X4) & (l2 & X5)).
  assert (G0 : Ws = Ws').
  { rewrite X3 in F0'. eapply works_once; [|exact F0|exact F0']. intros p W W' Hp. destruct (panel_fits V B p0 n HS p Hp) as (A1 & A2 & A3). exact (own_once c 0 p W W' (proj1 (sb_panels _ _ _ _ HS p Hp)) A1 A2 A3). }
  rewrite X4 in F1'. destruct (total_split _ _ _ _ F1') as (Wa & Wb & -> & Fa & Fb).
  assert (G1 : W1s = Wa) by (eapply works_once; [|exact F1|exact Fa]; intros s W W' Hs; exact (stiff1_once c s W W' Hs)).
  destruct (works_sum _ _ _ (fun s W Hs HW => stiff1_nonneg V B2 p2 n2 HS2 c s W ltac:(rewrite X4; apply in_or_app; right; exact Hs) HW) Fb) as [Pb _].
  assert (P2 : forall j W, nth_error W2s' j = Some W -> 0 <= W).
  { intros j W HW. destruct (nth_error (by_s2 B2) j) as [s|] eqn:Es; [exact (proj1 (stiff2_case V B2 p2 n2 HS2 c j s W Es (F2' j s W Es HW)))|].
    apply nth_error_None in Es. assert (j < length W2s')%nat by (apply nth_error_Some; congruence). lia. }
  assert (G2 : W2s' = W2s ++ skipn (length W2s) W2s').
  { rewrite <- (firstn_skipn (length W2s) W2s') at 1. f_equal. rewrite X5, app_length in L2'.
    apply list_ext. intro j. destruct (Nat.lt_ge_cases j (length W2s)) as [Hj|Hj].
    - rewrite nth_first by exact Hj. destruct (nth_error (by_s2 B) j) as [s|] eqn:Es; [|apply nth_error_None in Es; lia].
      assert (Es2 : nth_error (by_s2 B2) j = Some s) by (rewrite X5, nth_error_app1 by lia; exact Es).
      destruct (nth_error W2s j) as [W|] eqn:EW; [|apply nth_error_None in EW; lia]. destruct (nth_error W2s' j) as [W'|] eqn:EW'; [|apply nth_error_None in EW'; lia].
      f_equal. symmetry. pose proof (F2' j s W' Es2 EW') as HW'. rewrite (slice_more j s Es) in HW'. exact (stiff2_once c j s W W' Es (F2 j s W Es EW) HW').
    - rewrite (proj2 (nth_error_None W2s j)) by lia. apply nth_error_None. rewrite firstn_length. lia. }
  assert (P3 : 0 <= total_work (skipn (length W2s) W2s')).
  { refine (proj1 (slices_sum (fun _ _ => True) _ _ eq_refl _)). intros j W HW. apply (P2 (length W2s + j)%nat). rewrite <- HW. rewrite <- (firstn_skipn (length W2s) W2s') at 1.
    rewrite nth_error_app2; [|rewrite firstn_length; lia]. rewrite firstn_length. f_equal. rewrite X5, app_length in L2'. lia. }
  unfold quad. rewrite HQ, HQ', G2, !total_app, <- G0, <- G1. lra.
Qed.
End More.

(* ------------------------------------------------- loads *)
Lemma dot_more N N2 f d : (N <= N2)%nat -> (forall i, (N <= i)%nat -> f i = 0) -> dot N2 f d = dot N f d.
Proof.
  intros HN Hf. induction HN as [|N2 HN IH]; [reflexivity|]. rewrite dot_S, IH, (Hf N2) by lia. ring.
Qed.
Lemma solved_least N K c f d : (forall r t, K r t = K t r) -> psd N K -> solves N K c f -> 2 * dot N f d - quad N K d <= dot N f c /\ dot N f c = quad N K c.
Proof.
  intros HY HP HC. assert (HY' : symmetric K) by exact HY. pose proof (HP (fun i => d i - c i)) as H. rewrite (quad_diff _ _ _ _ HY') in H.
  pose proof (Proof_Response.solved_dot _ _ _ _ d HY' HC) as E1. pose proof (Proof_Response.solved_dot _ _ _ _ c HY' HC) as E2. unfold quad in *. split; lra.
Qed.
Lemma add1_extends V ys rho bb bf bd fd B B2 : add_bladestiff1d V ys rho bb bf bd fd B = (B2, Ok tt) -> extended B B2.
Proof.
  unfold add_bladestiff1d, bbind, blift, bget, bmod, braise. destruct bd as [bd|]; [|discriminate]. destruct fd as [fd|]; [|discriminate].
  assert (G : (match find_panels B ys with Ok ij => match s1_rebuild V B (mkS1 (fst ij) (snd ij) (default (by_rho B) rho) ys bb bf bd fd None None None 0 0 0 0 0 0) with
     | Ok s => (set_order (set_s1 B (by_s1 B ++ [s])) (by_order B ++ [true]), Ok tt) | Err e => (B, Err e) end | Err e => (B, Err e) end) = (B2, Ok tt) -> extended B B2).
  { destruct (find_panels B ys) as [ij|]; [|discriminate]. destruct (s1_rebuild _ _ _) as [s|]; [|discriminate]. intro H. injection H as <-.
    split; [reflexivity|]. split; [reflexivity|]. split; [reflexivity|]. split; [exists [s]; reflexivity|exists []; cbn; rewrite app_nil_r; reflexivity]. }
  destruct bd, fd; try discriminate; intro H; apply G; revert H; destruct (find_panels B ys); try (intro H; exact H); destruct (s1_rebuild _ _ _); intro H; exact H.
Qed.
Lemma add2_extends V ys rho bb bf bd fd mf nf B B2 : add_bladestiff2d V ys rho bb bf bd fd mf nf B = (B2, Ok tt) -> extended B B2.
Proof.
  unfold add_bladestiff2d, bbind, blift, bget, bmod, braise. destruct bd as [bd|]; [|discriminate]. destruct fd as [fd|]; [|discriminate].
  assert (G : (match find_panels B ys with Ok ij => match new_stiff2 V B (fst ij) (snd ij) (default (by_rho B) rho) ys bb bf bd fd mf nf with
     | Ok s => (set_order (set_s2 B (by_s2 B ++ [s])) (by_order B ++ [false]), Ok tt) | Err e => (B, Err e) end | Err e => (B, Err e) end) = (B2, Ok tt) -> extended B B2).
  { destruct (find_panels B ys) as [ij|]; [|discriminate]. destruct (new_stiff2 _ _ _ _ _ _ _ _ _ _ _ _) as [s|]; [|discriminate]. intro H. injection H as <-.
    split; [reflexivity|]. split; [reflexivity|]. split; [reflexivity|]. split; [exists []; cbn; rewrite app_nil_r; reflexivity|exists [s]; reflexivity]. }
  destruct bd, fd; try discriminate; intro H; apply G; revert H; destruct (find_panels B ys); try (intro H; exact H); destruct (new_stiff2 _ _ _ _ _ _ _ _ _ _ _ _); intro H; exact H.
Qed.
