(* The matrices of a bay depend only on how it was defined. *)
From Coq Require Import Reals List Arith Bool Lia Lra.
From Verif Require Import Base_Sum Model_Types Model_Coo Model_Result Model_Num Model_DB Model_Shell Model_Fext Model_Multi Model_New Model_StiffKer Model_Bay
  Spec_Algebra Spec_Panel Spec_Shell Spec_Rebuild Spec_Window Spec_Bay Spec_BayWork Spec_BayCalls
  Proof_Shell Proof_Place Proof_Multi Proof_Hist Proof_Window Proof_StiffKer Proof_Ana Proof_Bay Proof_BayMade.
Import ListNotations.
Open Scope R_scope.

Section Same.
Variable V : benv.
Notation E := (b_env V).
Definition unique (alone : nat -> nat -> panel -> matrix -> Prop) (p q : panel) : Prop := forall N o K K', alone N o p K -> alone N o q K' -> K = K'.
Definition skin_same (alone : nat -> nat -> panel -> matrix -> Prop) (p q : panel) : Prop :=
  rebuilt_lam E q = rebuilt_lam E p /\ rebuilt_plyts q = rebuilt_plyts p /\ unique alone p q.
(* the same 1D stiffener, but for the pad's width *)
Record s1_same (s t : stiff1) : Prop := {
  ss_p1 : s1_p1 t = s1_p1 s; ss_p2 : s1_p2 t = s1_p2 s; ss_rho : s1_rho t = s1_rho s; ss_ys : s1_ys t = s1_ys s; ss_bf : s1_bf t = s1_bf s;
  ss_bdef : s1_bdef t = s1_bdef s; ss_fdef : s1_fdef t = s1_fdef s; ss_Fx : s1_Fx t = s1_Fx s }.
Record same_bay (alone : nat -> nat -> panel -> matrix -> Prop) (B B' : bay) : Prop := {
  sb_sh : by_sh B' = by_sh B; sb_r : by_r B' = by_r B; sb_panels : Forall2 (skin_same alone) (by_panels B) (by_panels B');
  sb_s1 : Forall2 s1_same (by_s1 B) (by_s1 B'); sb_s2 : Forall2 s2_inv (by_s2 B) (by_s2 B') }.

Lemma alone_of_snd (m : nat -> nat -> panel -> panel * res matrix) N o p q K K' : snd (m N o q) = snd (m N o p) ->
  (exists p', m N o p = (p', Ok K)) -> (exists q', m N o q = (q', Ok K')) -> K = K'.
Proof. intros H [p' Hp] [q' Hq]. rewrite Hp, Hq in H. cbn in H. congruence. Qed.
Lemma unique_kC p q : alike p q -> unique (alone_kC E) p q.
Proof. intros H N o K K'. unfold alone_kC. apply (alone_of_snd (fun N o p => calc_kC E (mkKargs (SInt N) o o true None None None None None false) p)). apply kC_alike. exact H. Qed.
Lemma unique_kG c p q : alike p q -> unique (alone_kG E c) p q.
Proof. intros H N o K K'. unfold alone_kG. apply (alone_of_snd (fun N o p => calc_kG E (mkKargs (SInt N) o o true c None None None None false) p)). apply kG_alike. exact H. Qed.
Lemma unique_kM p q : alike p q -> unique (alone_kM E) p q.
Proof.
  intros H N o K K' (p1 & p' & R1 & C1) (q1 & q' & R2 & C2). destruct (rebuild_rel E p q H) as [(a & b & Ha & Hb & He)|(a & b & Ha & _)]; [|congruence].
  rewrite Ha in R1. rewrite Hb in R2. assert (a = p1) by congruence. assert (b = q1) by congruence. subst a b.
  destruct (ra_kM E (SInt N) o o None None None None true p1 q1 (eqv_eqv0 _ _ He)) as [HK _]. rewrite C1, C2 in HK. cbn in HK. congruence.
Qed.
Lemma alike_skin alone p q : alike p q -> unique alone p q -> skin_same alone p q.
Proof. intros [] HU. unfold skin_same. split; [|split; [assumption|exact HU]]. unfold rebuilt_lam. destruct al_in. congruence. Qed.
(* limits of the skin panels *)
Lemma limits_kC p x1 x2 y1 y2 : unique (alone_kC E) p (limits p x1 x2 y1 y2).
Proof. intros N o K K' [p' H] [q' H']. symmetry. eapply (kC_closed_limits E _ p x1 x2 y1 y2 p' q' K K'); [| | | |exact H|exact H']; reflexivity. Qed.
Lemma limits_kG p x1 x2 y1 y2 : unique (alone_kG E None) p (limits p x1 x2 y1 y2).
Proof. intros N o K K' [p' H] [q' H']. symmetry. eapply (kG_closed_limits E _ p x1 x2 y1 y2 p' q' K K'); [| |exact H|exact H']; reflexivity. Qed.
Lemma rebuild_limits p x1 x2 y1 y2 p1 q1 : rebuild E p = (p1, Ok tt) -> rebuild E (limits p x1 x2 y1 y2) = (q1, Ok tt) -> q1 = limits p1 x1 x2 y1 y2.
Proof.
  destruct p as [sh r mo nx ny st pt pts lp lps rho rhos off ort lam ABD sz N Nc fl be ga ra ma v kC kG kT kM kA].
  destruct mo as [[mdl|]|]; destruct st as [|st0 st]; destruct lps as [|lp0 lps]; try (destruct lp as [|l0 l1]);
  destruct rhos as [|rh0 rs]; destruct pts as [|t0 ts]; try (destruct pt as [t|]);
  unfold limits; unfold_panel; intros H H'; try discriminate H; try discriminate H';
  apply pair_equal_spec in H; apply pair_equal_spec in H'; destruct H as [<- _]; destruct H' as [<- _]; reflexivity.
Qed.
Lemma limits_kM p x1 x2 y1 y2 : unique (alone_kM E) p (limits p x1 x2 y1 y2).
Proof.
  intros N o K K' (p1 & p' & R1 & H) (q1 & q' & R2 & H'). rewrite (rebuild_limits _ _ _ _ _ _ _ R1 R2) in H'. symmetry. exact (kM_closed_limits E _ _ _ _ _ _ p1 x1 x2 y1 y2 p' q' K K' H H').
Qed.
Lemma limits_skin alone p x1 x2 y1 y2 : unique alone p (limits p x1 x2 y1 y2) -> skin_same alone p (limits p x1 x2 y1 y2).
Proof. intro H. split; [|split; [|exact H]]; reflexivity. Qed.

Lemma F2_sums {A B} (P : A -> matrix -> Prop) (Q : B -> matrix -> Prop) (S : A -> B -> Prop) l l' Ks Ks' r t :
  Forall2 S l l' -> (forall a b M M', In a l -> S a b -> P a M -> Q b M' -> M r t = M' r t) -> Forall2 P l Ks -> Forall2 Q l' Ks' -> entries Ks r t = entries Ks' r t.
Proof.
  intros HS. revert Ks Ks'. induction HS as [|a b l l' Hab HS IH]; intros Ks Ks' HU F F'; inversion F; inversion F'; subst; [reflexivity|].
  unfold entries, suml in *. cbn [map fold_right]. f_equal.
  - eapply HU; [left; reflexivity|eassumption..].
  - apply IH; [|assumption|assumption]. intros xa xb Ma Mb Hx. apply HU. right. exact Hx.
Qed.
Lemma slice_sums {A B} (P : nat -> A -> matrix -> Prop) (Q : nat -> B -> matrix -> Prop) (S : A -> B -> Prop) l l' Ms Ms' r t :
  Forall2 S l l' -> length Ms = length l -> length Ms' = length l' ->
  (forall j M, nth_error Ms j = Some M -> exists s, nth_error l j = Some s /\ P j s M) ->
  (forall j M, nth_error Ms' j = Some M -> exists s, nth_error l' j = Some s /\ Q j s M) ->
  (forall j a b M M', In a l -> nth_error l j = Some a -> S a b -> P j a M -> Q j b M' -> M r t = M' r t) -> entries Ms r t = entries Ms' r t.
Proof.
  intros HS. revert P Q Ms Ms'. induction HS as [|a b l l' Hab HS IH]; intros P Q Ms Ms' L L' F F' HU.
  - destruct Ms, Ms'; cbn in L, L'; try discriminate. reflexivity.
  - destruct Ms as [|M Ms], Ms' as [|M' Ms']; cbn in L, L'; try discriminate. unfold entries, suml in *. cbn [map fold_right]. f_equal.
    + destruct (F 0%nat M eq_refl) as (x & Hx & HP). destruct (F' 0%nat M' eq_refl) as (y & Hy & HQ). injection Hx as <-. injection Hy as <-.
      eapply (HU 0%nat); [left; reflexivity|reflexivity|exact Hab|exact HP|exact HQ].
    + apply (IH (fun j => P (Datatypes.S j)) (fun j => Q (Datatypes.S j))); [congruence|congruence|intros j N HN; exact (F (Datatypes.S j) N HN)|intros j N HN; exact (F' (Datatypes.S j) N HN)|].
      intros j x y N N' Hx Hn. apply (HU (Datatypes.S j)); [right; exact Hx|exact Hn].
Qed.

Section Two.
Variables (alone : nat -> nat -> panel -> matrix -> Prop) (B B' : bay).
Hypothesis HS : same_bay alone B B'.
Lemma same_thick i j h h' : beside B i j h -> beside B' i j h' -> h' = h.
Proof using HS.
  intros (p & q & Ep & Eq & ->) (p' & q' & Ep' & Eq' & ->).
  destruct (Forall2_nth_l _ _ _ _ _ (sb_panels _ _ _ HS) Ep) as (x & Ex & (_ & H1 & _)). destruct (Forall2_nth_l _ _ _ _ _ (sb_panels _ _ _ HS) Eq) as (y & Ey & (_ & H2 & _)).
  unfold thickness. replace p' with x by congruence. replace q' with y by congruence. rewrite H1, H2. reflexivity.
Qed.
Lemma same_flanges_dim l l' : Forall2 s2_inv l l' -> flanges_dim l' = flanges_dim l.
Proof.
  induction 1 as [|s t l l' Hst _ IH]; [reflexivity|]. unfold flanges_dim in *. cbn. rewrite IH. f_equal. unfold flange_dim.
  pose proof (s2i_flange _ _ Hst) as HF. destruct (s2_flange s), (s2_flange t); cbn in HF; try contradiction; [|reflexivity]. destruct HF as [[[]] _]. rewrite si_sh. reflexivity.
Qed.
Lemma F2_firstn {A C} (R : A -> C -> Prop) l l' n : Forall2 R l l' -> Forall2 R (firstn n l) (firstn n l').
Proof. intro H. revert n. induction H; intros [|n]; cbn; constructor; auto. Qed.
Lemma same_dim : bay_dim B' = bay_dim B.
Proof using HS. unfold bay_dim, skin_dim. rewrite (sb_sh _ _ _ HS), (same_flanges_dim _ _ (sb_s2 _ _ _ HS)). reflexivity. Qed.
Lemma same_slice j : slice_of B' j = slice_of B j.
Proof using HS. unfold slice_of, skin_dim. rewrite (sb_sh _ _ _ HS). f_equal. apply same_flanges_dim. apply F2_firstn. exact (sb_s2 _ _ _ HS). Qed.
Lemma same_base_shell D rho h ys bb bb' : base_shell B' D rho h ys bb' = limits (base_shell B D rho h ys bb) (-1) (1) (ys - bb' / 2) (ys + bb' / 2).
Proof using HS. unfold base_shell, bay_edges. rewrite (sb_sh _ _ _ HS), (sb_r _ _ _ HS). reflexivity. Qed.
Lemma s1_part_same (alone1 : nat -> nat -> panel -> matrix -> Prop) (K : bay -> stiff1 -> R -> list ply -> coo) N s t M M' r c : s1_same s t ->
  (forall p x1 x2 y1 y2, unique alone1 p (limits p x1 x2 y1 y2)) -> (forall h l, K B' t h l = K B s h l) ->
  s1_part V B alone1 (K B) N s M -> s1_part V B' alone1 (K B') N t M' -> M r c = M' r c.
Proof using HS.
  intros Hst HU HK (h & Kb & Hh & Hp & HM) (h' & Kb' & Hh' & Hp' & HM'). rewrite HM, HM'.
  assert (h' = h). { apply (same_thick (s1_p1 s) (s1_p2 s)); [exact Hh|]. rewrite <- (ss_p1 _ _ Hst), <- (ss_p2 _ _ Hst). exact Hh'. }
  subst h'. f_equal.
  - unfold pad_part in Hp, Hp'. rewrite (ss_bdef _ _ Hst) in Hp'. destruct (s1_bdef s) as [D|]; [|subst; reflexivity].
    rewrite (ss_rho _ _ Hst), (ss_ys _ _ Hst), (same_base_shell D (s1_rho s) h (s1_ys s) (s1_bb s)) in Hp'.
    rewrite (HU _ _ _ _ _ _ _ _ _ Hp Hp'). reflexivity.
  - unfold flange_part. rewrite (ss_fdef _ _ Hst). destruct (s1_fdef s); [|reflexivity]. rewrite HK. reflexivity.
Qed.
Lemma s2_base_alike (s t : stiff2) : s2_inv s t -> orel alike (s2_base s) (s2_base t) /\ orel alike (s2_flange s) (s2_flange t).
Proof. intros H. pose proof (s2i_base _ _ H) as H1. pose proof (s2i_flange _ _ H) as H2. destruct (s2_base s), (s2_base t), (s2_flange s), (s2_flange t); unfold f_inv in *; cbn in *; try contradiction; split; tauto. Qed.
Lemma lam_alike p q : alike p q -> rebuilt_lam E q = rebuilt_lam E p.
Proof. intros []. unfold rebuilt_lam. destruct al_in. congruence. Qed.
Lemma s2_part_same (alone2 : nat -> nat -> panel -> matrix -> Prop) joined N o s t M M' r c : s2_inv s t -> (forall p q, alike p q -> unique alone2 p q) ->
  s2_part V B alone2 joined N o s M -> s2_part V B' alone2 joined N o t M' -> M r c = M' r c.
Proof using HS.
  intros Hst HU (Kb & Kf & Hb & Hf & HM) (Kb' & Kf' & Hb' & Hf' & HM'). rewrite HM, HM'. destruct (s2_base_alike _ _ Hst) as [HA HF].
  assert (HRoot : forall l l', root_lam V B s l -> root_lam V B' t l' -> l' = l).
  { unfold root_lam. intros l l' H1 H2. destruct (s2_base s) as [b|], (s2_base t) as [b'|]; cbn in HA; try contradiction.
    - subst. apply lam_alike. exact HA.
    - destruct H1 as (p & Ep & ->). destruct H2 as (p' & Ep' & ->). rewrite (s2i_p1 _ _ Hst) in Ep'.
      destruct (Forall2_nth_l _ _ _ _ _ (sb_panels _ _ _ HS) Ep) as (x & Ex & (H1 & _)). congruence. }
  f_equal.
  - destruct (s2_base s) as [b|], (s2_base t) as [b'|]; cbn in HA; try contradiction; [|subst; reflexivity]. rewrite (HU _ _ HA _ _ _ _ Hb Hb'). reflexivity.
  - destruct (s2_flange s) as [q|], (s2_flange t) as [q'|]; cbn in HF; try contradiction; [|subst; reflexivity].
    destruct Hf as (K & l & HK & Hl & HKf). destruct Hf' as (K' & l' & HK' & Hl' & HKf'). rewrite HKf, HKf', (HU _ _ HF _ _ _ _ HK HK'), (HRoot l l' Hl Hl'). f_equal.
    destruct joined; [|reflexivity]. unfold joint. rewrite (lam_alike _ _ HF), (sb_sh _ _ _ HS), (s2i_ys _ _ Hst). destruct HF as [[]]. rewrite si_sh. reflexivity.
Qed.
End Two.

Theorem same_kC B B' B1 B1' K K' : good B -> good B' -> same_bay (alone_kC E) B B' -> bay_kC V B = (B1, Ok K) -> bay_kC V B' = (B1', Ok K') -> forall r t, K' r t = K r t.
Proof.
  intros G G' HS H H' r t. destruct (bay_kC_parts _ _ _ _ (g_s1 _ G) H) as (_ & Ks & K1s & K2s & F0 & F1 & L2 & F2 & HK).
  destruct (bay_kC_parts _ _ _ _ (g_s1 _ G') H') as (_ & Ks' & K1s' & K2s' & F0' & F1' & L2' & F2' & HK'). rewrite HK, HK'. rewrite (same_dim _ _ _ HS) in *. symmetry. f_equal; [f_equal|].
  - eapply (F2_sums _ _ _ _ _ _ _ r t (sb_panels _ _ _ HS)); [|exact F0|exact F0']. intros a b M M' _ (_ & _ & HU) HM HM'. cbv beta in HM, HM'. rewrite (HU _ _ _ _ HM HM'). reflexivity.
  - eapply (F2_sums _ _ _ _ _ _ _ r t (sb_s1 _ _ _ HS)); [|exact F1|exact F1']. intros a b M M' _ Hab HM HM'.
    refine (s1_part_same _ _ _ HS (alone_kC E) (kCf_of V) _ _ _ _ _ _ _ Hab limits_kC _ HM HM').
    intros h l. unfold kCf_of, flange_axis, flange_torsion. rewrite (sb_sh _ _ _ HS), (ss_ys _ _ Hab), (ss_bf _ _ Hab), (ss_bdef _ _ Hab), (ss_fdef _ _ Hab). reflexivity.
  - eapply (slice_sums _ _ _ _ _ _ _ r t (sb_s2 _ _ _ HS) L2 L2' F2 F2'). intros j a b M M' _ _ Hab HM HM'. cbv beta in HM'. rewrite (same_slice _ _ _ HS) in HM'.
    exact (s2_part_same _ _ _ HS _ _ _ _ _ _ _ _ _ _ Hab unique_kC HM HM').
Qed.
Theorem same_kG c B B' B1 B1' K K' : good B -> good B' -> same_bay (alone_kG E c) B B' -> bay_kG V c B = (B1, Ok K) -> bay_kG V c B' = (B1', Ok K') -> forall r t, K' r t = K r t.
Proof.
  intros G G' HS H H' r t. destruct (bay_kG_parts _ _ _ _ _ (g_s1 _ G) H) as (_ & Ks & K1s & K2s & F0 & F1 & L2 & F2 & HK).
  destruct (bay_kG_parts _ _ _ _ _ (g_s1 _ G') H') as (_ & Ks' & K1s' & K2s' & F0' & F1' & L2' & F2' & HK'). rewrite HK, HK'. rewrite (same_dim _ _ _ HS) in *. symmetry. f_equal; [f_equal|].
  - eapply (F2_sums _ _ _ _ _ _ _ r t (sb_panels _ _ _ HS)); [|exact F0|exact F0']. intros a b M M' _ (_ & _ & HU) HM HM'. cbv beta in HM, HM'. rewrite (HU _ _ _ _ HM HM'). reflexivity.
  - eapply (F2_sums _ _ _ _ _ _ _ r t (sb_s1 _ _ _ HS)); [|exact F1|exact F1']. intros a b M M' _ Hab [_ [h HM]] [_ [h' HM']]. rewrite HM, HM'.
    unfold flange_part, kGf_of. rewrite (ss_fdef _ _ Hab), (sb_sh _ _ _ HS), (ss_ys _ _ Hab), (ss_Fx _ _ Hab). reflexivity.
  - eapply (slice_sums _ _ _ _ _ _ _ r t (sb_s2 _ _ _ HS) L2 L2' F2 F2'). intros j a b M M' _ _ Hab HM HM'. cbv beta in HM'. rewrite (same_slice _ _ _ HS) in HM'.
    unfold s2_geo in HM, HM'. destruct (s2_base_alike _ _ Hab) as [_ HF]. destruct (s2_flange a), (s2_flange b); cbn in HF; try contradiction; [|subst; reflexivity].
    rewrite (unique_kG _ _ _ HF _ _ _ _ HM HM'). reflexivity.
Qed.
Lemma kM_of_alike N o p q K K' : f_inv p q -> kept p -> kM_of V N o p K -> kM_of V N o q K' -> K = K'.
Proof.
  intros [[[] ? Hr Hst ? ? ? ? ? ? ?] HP] HK -> ->. rewrite (HP HK), si_rho, si_offset. f_equal. f_equal.
  assert (HM : forall m m' T s rho h d r c, fkM m T s rho h d r c = fkM m' T s rho h d r c) by (intros [] []; reflexivity).
  rewrite (HM (chosen_model q) (chosen_model p)), <- (fkM_bare _ _ (kernel_view q)), <- (fkM_bare _ _ (kernel_view p)). f_equal.
  unfold bare, kernel_view. cbn. rewrite si_sh. unfold r0 in Hr. rewrite Hr. reflexivity.
Qed.
Theorem same_kM B B' B1 B1' K K' : good B -> good B' -> same_bay (alone_kM E) B B' -> bay_kM V B = (B1, Ok K) -> bay_kM V B' = (B1', Ok K') -> forall r t, K' r t = K r t.
Proof.
  intros G G' HS H H' r t.
  assert (P : forall B, good B -> List.Forall plied (by_s2 B)) by (intros X GX; eapply Forall_impl; [|exact (g_s2 _ GX)]; intros s [HX _]; exact HX).
  destruct (bay_kM_parts _ _ _ _ (g_s1 _ G) (P _ G) H) as (_ & Ks & K1s & K2s & F0 & F1 & L2 & F2 & HK).
  destruct (bay_kM_parts _ _ _ _ (g_s1 _ G') (P _ G') H') as (_ & Ks' & K1s' & K2s' & F0' & F1' & L2' & F2' & HK'). rewrite HK, HK'. rewrite (same_dim _ _ _ HS) in *. symmetry. f_equal; [f_equal|].
  - eapply (F2_sums _ _ _ _ _ _ _ r t (sb_panels _ _ _ HS)); [|exact F0|exact F0']. intros a b M M' _ (_ & _ & HU) HM HM'. cbv beta in HM, HM'. rewrite (HU _ _ _ _ HM HM'). reflexivity.
  - eapply (F2_sums _ _ _ _ _ _ _ r t (sb_s1 _ _ _ HS)); [|exact F1|exact F1']. intros a b M M' _ Hab HM HM'.
    refine (s1_part_same _ _ _ HS (fun N o p K => exists p', calc_kM E (SInt N) o o None None None None true p = (p', Ok K)) (kMf_of V) _ _ _ _ _ _ _ Hab _ _ HM HM').
    + intros p x1 x2 y1 y2 N o X X' [p' HX] [q' HX']. symmetry. exact (kM_closed_limits E _ _ _ _ _ _ p x1 x2 y1 y2 p' q' X X' HX HX').
    + intros h l. unfold kMf_of, flange_axis. rewrite (sb_sh _ _ _ HS), (ss_ys _ _ Hab), (ss_bf _ _ Hab), (ss_bdef _ _ Hab), (ss_fdef _ _ Hab), (ss_rho _ _ Hab). reflexivity.
  - eapply (slice_sums _ _ _ _ _ _ _ r t (sb_s2 _ _ _ HS) L2 L2' F2 F2'). intros j a b M M' Ha _ Hab HM HM'. cbv beta in HM'. rewrite (same_slice _ _ _ HS) in HM'.
    destruct HM as (Kb & Kf & Hb & Hf & ->). destruct HM' as (Kb' & Kf' & Hb' & Hf' & ->). pose proof (proj1 (Forall_forall _ _) (P _ G) a Ha) as [Pb Pf].
    pose proof (s2i_base _ _ Hab) as HA. pose proof (s2i_flange _ _ Hab) as HF. f_equal.
    + destruct (s2_base a), (s2_base b); cbn in HA; try contradiction; [|subst; reflexivity]. rewrite (kM_of_alike _ _ _ _ _ _ HA (Pb _ eq_refl) Hb Hb'). reflexivity.
    + destruct (s2_flange a), (s2_flange b); cbn in HF; try contradiction; [|subst; reflexivity]. rewrite (kM_of_alike _ _ _ _ _ _ HF (Pf _ eq_refl) Hf Hf'). reflexivity.
Qed.

(* ------------------------------------------------------------------ earlier calls *)
Record sim (B B' : bay) : Prop := {
  sm_sh : by_sh B' = by_sh B; sm_r : by_r B' = by_r B; sm_panels : Forall2 alike (by_panels B) (by_panels B');
  sm_s1 : Forall2 s1_same (by_s1 B) (by_s1 B'); sm_s2 : Forall2 s2_inv (by_s2 B) (by_s2 B') }.
Lemma F2_impl {A C} (R S : A -> C -> Prop) l l' : (forall a b, R a b -> S a b) -> Forall2 R l l' -> Forall2 S l l'.
Proof. intros H. induction 1; constructor; auto. Qed.
Lemma F2_trans {A} (R : A -> A -> Prop) l1 l2 l3 : (forall a b c, R a b -> R b c -> R a c) -> Forall2 R l1 l2 -> Forall2 R l2 l3 -> Forall2 R l1 l3.
Proof. intros HR H. revert l3. induction H; intros l3 H3; inversion H3; subst; constructor; eauto. Qed.
Lemma f_inv_trans p q r : f_inv p q -> f_inv q r -> f_inv p r.
Proof. intros H1 H2. split; [eapply alike_trans; [exact (proj1 H1)|exact (proj1 H2)]|]. intro HK. rewrite (proj2 H2 (kept_inv _ _ H1 HK)). exact (proj2 H1 HK). Qed.
Lemma orel_trans {A} (R : A -> A -> Prop) x y z : (forall a b c, R a b -> R b c -> R a c) -> orel R x y -> orel R y z -> orel R x z.
Proof. intros HR. destruct x, y, z; cbn; try tauto. apply HR. Qed.
Lemma sim_refl B : sim B B.
Proof. constructor; auto; apply Forall2_same; apply Forall_forall; intros x _; [apply alike_refl|constructor; reflexivity|apply s2_inv_refl]. Qed.
Lemma sim_trans B B1 B2 : sim B B1 -> sim B1 B2 -> sim B B2.
Proof.
  intros [] []. constructor; try congruence; eapply F2_trans; try eassumption.
  - apply alike_trans.
  - intros a b c [] []. constructor; congruence.
  - intros a b c [] []. constructor; try congruence; eapply orel_trans; try eassumption; apply f_inv_trans.
Qed.
Lemma inv_sim B B1 : inv V B B1 -> sim B B1.
Proof.
  intros []. constructor; auto; eapply F2_impl; try eassumption.
  - apply p_inv_alike.
  - intros a b []. constructor; assumption.
Qed.
Lemma sim_same alone B B' : (forall p q, alike p q -> unique alone p q) -> sim B B' -> same_bay alone B B'.
Proof. intros HU []. constructor; auto. eapply F2_impl; [|eassumption]. intros a b Hab. apply alike_skin; auto. Qed.
Lemma calls_sim B B' : built V B -> bay_calls V B B' -> sim B B' /\ built V B'.
Proof.
  intros G H. induction H as [B|B B1 B2 K H IH HC|B B1 B2 c K H IH HC|B B1 B2 K H IH HC]; [split; [apply sim_refl|exact G]| | |]; destruct (IH G) as [S1 G1]; pose proof (built_good _ _ G1) as G1'.
  - pose proof (bay_kC_parts _ _ _ _ (g_s1 _ G1') HC) as [HI _]. split; [eapply sim_trans; [exact S1|apply inv_sim; exact HI]|]. replace B2 with (fst (bay_kC V B1)) by (rewrite HC; reflexivity). apply built_kC. exact G1.
  - pose proof (bay_kG_parts _ _ _ _ _ (g_s1 _ G1') HC) as [HI _]. split; [eapply sim_trans; [exact S1|apply inv_sim; exact HI]|]. replace B2 with (fst (bay_kG V c B1)) by (rewrite HC; reflexivity). apply built_kG. exact G1.
  - assert (HP : List.Forall plied (by_s2 B1)) by (eapply Forall_impl; [|exact (g_s2 _ G1')]; intros s [HX _]; exact HX).
    pose proof (bay_kM_parts _ _ _ _ (g_s1 _ G1') HP HC) as [HI _]. split; [eapply sim_trans; [exact S1|apply inv_sim; exact HI]|]. replace B2 with (fst (bay_kM V B1)) by (rewrite HC; reflexivity). apply built_kM. exact G1.
Qed.
Theorem calls_kC_same B B' : built V B -> bay_calls V B B' -> forall B1 B2 K K', bay_kC V B = (B1, Ok K) -> bay_kC V B' = (B2, Ok K') -> forall r t, K' r t = K r t.
Proof. intros HB HC B1 B2 K K'. destruct (calls_sim _ _ HB HC) as [HS G]. apply same_kC; [exact (built_good _ _ HB)|exact (built_good _ _ G)|]. apply sim_same; [apply unique_kC|exact HS]. Qed.
Theorem calls_kG_same c B B' : built V B -> bay_calls V B B' -> forall B1 B2 K K', bay_kG V c B = (B1, Ok K) -> bay_kG V c B' = (B2, Ok K') -> forall r t, K' r t = K r t.
Proof. intros HB HC B1 B2 K K'. destruct (calls_sim _ _ HB HC) as [HS G]. apply same_kG; [exact (built_good _ _ HB)|exact (built_good _ _ G)|]. apply sim_same; [apply unique_kG|exact HS]. Qed.
Theorem calls_kM_same B B' : built V B -> bay_calls V B B' -> forall B1 B2 K K', bay_kM V B = (B1, Ok K) -> bay_kM V B' = (B2, Ok K') -> forall r t, K' r t = K r t.
Proof. intros HB HC B1 B2 K K'. destruct (calls_sim _ _ HB HC) as [HS G]. apply same_kM; [exact (built_good _ _ HB)|exact (built_good _ _ G)|]. apply sim_same; [apply unique_kM|exact HS]. Qed.

(* ------------------------------------------------------------------ limits of panels and pads *)
Definition moved (B : bay) (ps : list panel) (l : list stiff1) : bay := set_s1 (set_panels B ps) l.
Lemma moved_same alone B ps l : (forall p x1 x2 y1 y2, unique alone p (limits p x1 x2 y1 y2)) -> panels_moved (by_panels B) ps -> pads_resized (by_s1 B) l -> same_bay alone B (moved B ps l).
Proof.
  intros HU HP H1. constructor; auto; cbn.
  - eapply F2_impl; [|exact HP]. intros p q (y1 & y2 & ->). apply limits_skin. apply HU.
  - eapply F2_impl; [|exact H1]. intros s t [bb ->]. constructor; reflexivity.
  - apply Forall2_same. apply Forall_forall. intros s _. apply s2_inv_refl.
Qed.
Lemma moved_good B ps l : good B -> pads_resized (by_s1 B) l -> good (moved B ps l).
Proof.
  intros [G1 G2] H. constructor; cbn; [|exact G2]. induction H as [|s t k k' [bb ->] H IH]; [constructor|]. inversion G1; subst. constructor; [|apply IH; assumption]. assumption.
Qed.
Theorem moved_kC B ps l : built V B -> panels_moved (by_panels B) ps -> pads_resized (by_s1 B) l -> forall B1 B2 K K', bay_kC V B = (B1, Ok K) -> bay_kC V (moved B ps l) = (B2, Ok K') -> forall r t, K' r t = K r t.
Proof. intros HB HP H1 B1 B2 K K'. apply same_kC; [exact (built_good _ _ HB)|apply moved_good; [exact (built_good _ _ HB)|exact H1]|]. apply moved_same; [apply limits_kC|exact HP|exact H1]. Qed.
Theorem moved_kM B ps l : built V B -> panels_moved (by_panels B) ps -> pads_resized (by_s1 B) l -> forall B1 B2 K K', bay_kM V B = (B1, Ok K) -> bay_kM V (moved B ps l) = (B2, Ok K') -> forall r t, K' r t = K r t.
Proof. intros HB HP H1 B1 B2 K K'. apply same_kM; [exact (built_good _ _ HB)|apply moved_good; [exact (built_good _ _ HB)|exact H1]|]. apply moved_same; [apply limits_kM|exact HP|exact H1]. Qed.

(* panels that differ only in their limits each count as the whole skin *)
Theorem skin_times B p0 : built V B -> by_s1 B = [] -> by_s2 B = [] -> (forall q, In q (by_panels B) -> exists x1 x2 y1 y2, q = limits p0 x1 x2 y1 y2) ->
  forall B1 K K0, bay_kC V B = (B1, Ok K) -> alone_kC E (skin_dim B) 0 p0 K0 -> forall r t, K r t = INR (length (by_panels B)) * K0 r t.
Proof.
  intros HB E1 E2 HP B1 K K0 H H0 r t. destruct (bay_kC_parts _ _ _ _ (g_s1 _ (built_good _ _ HB)) H) as (_ & Ks & K1s & K2s & F0 & F1 & L2 & F2 & HK).
  rewrite HK. rewrite E1 in F1. rewrite E2 in L2. inversion F1; subst. destruct K2s; [|discriminate].
  assert (HD : bay_dim B = skin_dim B) by (unfold bay_dim; rewrite E2; cbn; lia). rewrite HD in F0.
  assert (HE : entries Ks r t = INR (length (by_panels B)) * K0 r t).
  { clear - F0 HP H0. induction F0 as [|p M l l' Hp F IH]; [unfold entries, suml; cbn; ring|]. destruct (HP p (or_introl eq_refl)) as (x1 & x2 & y1 & y2 & ->).
    pose proof (limits_kC _ _ _ _ _ _ _ _ _ H0 Hp) as HM. unfold entries, suml in *. cbn [map fold_right length]. rewrite IH by (intros q Hq; apply HP; right; exact Hq). rewrite S_INR, <- HM. ring. }
  rewrite HE. unfold entries, suml. cbn. ring.
Qed.
End Same.
