(* The size of a bay, the places of its flanges, and bays whose calls fail. *)
From Coq Require Import Reals List Arith Bool Lia Lra.
From Verif Require Import Base_Sum Model_Types Model_Coo Model_Result Model_Num Model_DB Model_Shell Model_Fext Model_Multi Model_New Model_StiffKer Model_Bay Spec_BayCalls
  Spec_Algebra Spec_Panel Spec_Shell Spec_Rebuild Spec_Bay Spec_BayWork Proof_Shell Proof_Place Proof_Multi Proof_Hist Proof_StiffKer Proof_Ana Proof_Total Proof_Pd Proof_Bay Proof_BayMade Proof_BayWork Proof_BayTotal.
Import ListNotations.
Open Scope R_scope.

(* ------------------------------------------------- get_size *)
Definition same_flange (s t : stiff2) : Prop := flange_dim t = flange_dim s /\ (s2_flange t = None <-> s2_flange s = None).
Lemma flange_size_run B j B' o : on_flange j get_size B = (B', Ok o) -> exists s, nth_error (by_s2 B) j = Some s /\
  (o = None <-> s2_flange s = None) /\ default 0%nat o = flange_dim s /\ by_sh B' = by_sh B /\ Forall2 same_flange (by_s2 B) (by_s2 B').
Proof.
  assert (HR : forall l, Forall2 same_flange l l) by (induction l; constructor; [split; tauto|assumption]).
  intro H. unfold on_flange, bbind, get_s2 in H. destruct (nth_error (by_s2 B) j) as [s|] eqn:Es; [|discriminate]. exists s. split; [reflexivity|].
  unfold flange_dim. destruct (s2_flange s) as [q|] eqn:Eq.
  - destruct (get_size q) as [q' [n|e]] eqn:EQ; cbn in H; [|discriminate]. apply pair_equal_spec in H. destruct H as [<- H]. injection H as <-.
    destruct (get_size_inv _ _ _ EQ) as (mdl & _ & -> & ->). cbn. split; [split; discriminate|]. split; [reflexivity|]. split; [reflexivity|].
    eapply Forall2_set_at; [apply HR|exact Es|]. split; [unfold flange_dim; cbn; rewrite Eq; reflexivity|]. cbn. rewrite Eq. split; discriminate.
  - apply pair_equal_spec in H. destruct H as [<- H]. injection H as <-. cbn. split; [tauto|]. split; [reflexivity|]. split; [reflexivity|apply HR].
Qed.
Lemma same_flange_trans l1 l2 l3 : Forall2 same_flange l1 l2 -> Forall2 same_flange l2 l3 -> Forall2 same_flange l1 l3.
Proof.
  intro H. revert l3. induction H as [|a b l l' [H1 H2] H IH]; intros l3 H3; inversion H3; subst; constructor; [|apply IH; assumption].
  match goal with H : same_flange b _ |- _ => destruct H as [H4 H5] end. split; [congruence|tauto].
Qed.
Definition count_flange (j : nat) : bmethod nat := bay_do o <- on_flange j get_size; match o with Some n => bret n | None => braise AttributeError end.
Lemma each_size k : forall i B B' l, each count_flange i k B = (B', Ok l) -> by_sh B' = by_sh B /\ Forall2 same_flange (by_s2 B) (by_s2 B') /\ length l = k /\
  forall j n, nth_error l j = Some n -> exists s, nth_error (by_s2 B) (i + j) = Some s /\ s2_flange s <> None /\ n = flange_dim s.
Proof.
  induction k as [|k IH]; intros i B B' l H; cbn [each] in H.
  - apply pair_equal_spec in H. destruct H as [<- H]. injection H as <-. split; [reflexivity|]. split; [|split; [reflexivity|intros [|j] n Hn; discriminate]].
    induction (by_s2 B); constructor; [split; tauto|assumption].
  - destruct (bind_run _ _ _ _ _ H) as [(B1 & a & H1 & H2)|(e & _ & He)]; [|discriminate].
    unfold count_flange in H1. destruct (bind_run _ _ _ _ _ H1) as [(B2 & o & H3 & H4)|(e & _ & He)]; [|discriminate].
    destruct (flange_size_run _ _ _ _ H3) as (s & Es & Ho & Hd & Hsh & HF). destruct o as [n|]; [|discriminate].
    destruct (ret_run _ _ _ _ H4) as [-> Ha]. injection Ha as ->. clear H H1 H4.
    destruct (bind_run _ _ _ _ _ H2) as [(B3 & l' & H5 & H6)|(e & _ & He)]; [|discriminate].
    destruct (ret_run _ _ _ _ H6) as [-> Hl]. injection Hl as ->. destruct (IH _ _ _ _ H5) as (Hsh' & HF' & Hlen & HN).
    split; [congruence|]. split; [exact (same_flange_trans _ _ _ HF HF')|]. split; [cbn; congruence|].
    intros [|j] m Hm; cbn in Hm.
    + injection Hm as <-. exists s. rewrite Nat.add_0_r. split; [exact Es|]. split; [|exact Hd]. intro Hn. apply Ho in Hn. discriminate.
    + destruct (HN j m Hm) as (t & Et & Ht1 & Ht2). rewrite Nat.add_succ_comm in Et. destruct (Forall2_nth _ _ _ _ _ HF Et) as (u & Eu & [U1 U2]). exists u. split; [exact Eu|]. split; [tauto|congruence].
Qed.
Theorem size_value B B' n : bay_size B = (B', Ok n) -> n = bay_dim B /\ by_size B' = Some n /\ (forall s, In s (by_s2 B) -> s2_flange s <> None).
Proof.
  intro H. unfold bay_size in H. unfold bbind at 1, bget in H. destruct (by_model B) as [[mdl|]|]; try discriminate. cbv zeta in H.
  fold count_flange in H. destruct (bind_run _ _ _ _ _ H) as [(B1 & l & H1 & H2)|(e & _ & He)]; [|discriminate].
  destruct (each_size _ _ _ _ _ H1) as (_ & _ & HL & HN). unfold bbind, bmod, bret in H2. apply pair_equal_spec in H2. destruct H2 as [<- H2]. injection H2 as <-.
  split; [|split; [reflexivity|]].
  - rewrite fold_add. unfold bay_dim. f_equal. unfold flanges_dim.
    clear - HL HN. revert l HL HN. induction (by_s2 B) as [|s l0 IH]; intros [|a l] HL HN; cbn in HL; try discriminate; [reflexivity|]. cbn.
    destruct (HN 0%nat a eq_refl) as (s' & Es & _ & ->). cbn in Es. injection Es as <-. f_equal. apply (IH l); [lia|]. intros j b Hj. exact (HN (S j) b Hj).
  - intros s Hs. destruct (In_nth_error _ _ Hs) as [j Hj]. assert (Hlt : (j < length l)%nat) by (rewrite HL; apply nth_error_Some; congruence).
    destruct (nth_error l j) as [m|] eqn:Em; [|apply nth_error_None in Em; lia]. destruct (HN j m Em) as (s' & Es & Hs' & _). cbn in Es. congruence.
Qed.
(* a stiffener without flange prevents every matrix *)
Theorem flanges_needed V (Kp : nat -> method matrix) K1 K2 B B' K : built V B -> bay_matrix V Kp K1 K2 B = (B', Ok K) -> forall s, In s (by_s2 B) -> s2_flange s <> None.
Proof.
  intros HB H s Hs. unfold bay_matrix in H. destruct (bind_run _ _ _ _ _ H) as [(B1 & u & H1 & H2)|(e & _ & He)]; [|discriminate].
  pose proof (bay_rebuild_run _ _ _ _ (g_s1 _ (built_good _ _ HB)) H1) as HI. destruct (bind_run _ _ _ _ _ H2) as [(B2 & n & H3 & _)|(e & _ & He)]; [|discriminate].
  destruct (size_value _ _ _ H3) as (_ & _ & HF). destruct (In_nth_error _ _ Hs) as [j Hj]. destruct (Forall2_nth_l _ _ _ _ _ (i_s2 _ _ _ HI) Hj) as (t & Ht & Hst).
  specialize (HF t (nth_error_In _ _ Ht)). pose proof (s2i_flange _ _ Hst) as HO. intro Hn. rewrite Hn in HO. destruct (s2_flange t); [destruct HO|congruence].
Qed.

(* ------------------------------------------------- slices *)
Lemma slices_apart B j k s : (j < k)%nat -> nth_error (by_s2 B) j = Some s -> (slice_of B j + flange_dim s <= slice_of B k)%nat.
Proof.
  intros Hjk Hj. unfold slice_of. assert (HF : (flanges_dim (firstn j (by_s2 B)) + flange_dim s <= flanges_dim (firstn k (by_s2 B)))%nat); [|lia].
  assert (HN : nth_error (firstn k (by_s2 B)) j = Some s). { rewrite <- Hj. clear - Hjk. revert j k Hjk. induction (by_s2 B) as [|a l IH]; intros [|j] [|k] Hjk; cbn; try lia; try reflexivity. apply IH. lia. }
  pose proof (flanges_nth _ _ _ HN) as H. rewrite firstn_firstn, Nat.min_l in H by lia. exact H.
Qed.
Lemma slices_cover B k : (k < bay_dim B)%nat -> (k < skin_dim B)%nat \/ exists j s, nth_error (by_s2 B) j = Some s /\ (slice_of B j <= k < slice_of B j + flange_dim s)%nat.
Proof.
  intro Hk. destruct (lt_dec k (skin_dim B)) as [H|H]; [left; exact H|right]. unfold bay_dim in Hk. unfold slice_of. remember (skin_dim B) as o. clear Heqo.
  assert (Hk' : (o <= k < o + flanges_dim (by_s2 B))%nat) by lia. clear Hk H. revert o Hk'. induction (by_s2 B) as [|s l IH]; intros o Hk; cbn in Hk; [lia|].
  destruct (lt_dec k (o + flange_dim s)) as [H|H]; [exists 0%nat, s; split; [reflexivity|cbn; lia]|].
  destruct (IH (o + flange_dim s)%nat) as (j & t & Ht & Hj); [fold (flanges_dim l) in Hk; lia|]. exists (S j), t. split; [exact Ht|]. cbn [firstn flanges_dim fold_right]. fold (flanges_dim (firstn j l)). lia.
Qed.

(* ------------------------------------------------- flanges act on each other only through the skin *)
Definition zero_at (M : matrix) (r t : nat) : Prop := M r t = 0 /\ M t r = 0.
Lemma dense_zero M (P : nat -> nat -> Prop) r t : (forall i j v, In (i, j, v) M -> P i j) -> ~ P r t -> dense M r t = 0.
Proof.
  intros H HP. unfold dense. induction M as [|[[i j] v] M IH]; [reflexivity|]. cbn [suml map fold_right]. unfold suml in IH |- *. cbn [map fold_right]. rewrite IH by (intros; eapply H; right; eassumption).
  destruct (Nat.eqb_spec i r) as [->|]; cbn [andb]; [|lra]. destruct (Nat.eqb_spec j t) as [->|]; [|lra]. exfalso. apply HP. eapply H. left. reflexivity.
Qed.
Lemma fin_zero M (P : nat -> Prop) r t : (forall i j v, In (i, j, v) M -> P i /\ P j) -> ~ P t -> zero_at (finalize_symmetric (dense M)) r t.
Proof.
  intros H HP. split; unfold finalize_symmetric; match goal with |- context [(?a <=? ?b)%nat] => destruct (a <=? b)%nat end;
    apply (dense_zero M (fun i j => P i /\ P j)); try exact H; tauto.
Qed.
Section Uncoupled.
Variables (V : benv) (B : bay).
Notation E := (b_env V).
Lemma alone_zero N o p K r t : alone_kC E N o p K -> ~ (o <= t < o + ndof (pn_sh p))%nat -> zero_at K r t.
Proof.
  intros [p' H] Ht. destruct (calc_kC_inv _ _ _ _ _ H) as (mdl & kC & kG & R0). rewrite (kr_K _ _ _ _ _ _ _ _ R0). cbn [ka_fin finalized].
  destruct (kr_rebuild _ _ _ _ _ _ _ _ R0) as (p1 & ER & S). destruct (rebuild_inv _ _ _ _ ER) as (A1 & _).
  assert (Hn : ndof (kernel_view p') = ndof (pn_sh p)). { unfold ndof, kernel_view. cbn. rewrite (si_sh _ _ (sr_in _ _ S)), (si_sh _ _ A1). reflexivity. }
  apply (fin_zero _ (fun i => (o <= i < o + ndof (pn_sh p))%nat)); [|exact Ht]. intros i j v Hin. unfold coo_add in Hin. apply in_app_or in Hin. destruct Hin as [Hin|Hin].
  - pose proof (kr_kC _ _ _ _ _ _ _ _ R0) as C. cbv zeta in C. destruct C as [(_ & _ & _ & F & _ & HC)|([C|[C|C]] & _)]; try (exfalso; apply C; reflexivity); try discriminate C.
    rewrite HC in Hin. pose proof (own_fk0 _ _ _ _ _ _ _ _ _ Hin) as HO. rewrite Hn in HO. exact HO.
  - pose proof (kr_kG _ _ _ _ _ _ _ _ R0) as G. cbv zeta in G. destruct (pn_N_cte p) as [[Nxx Nyy] Nxy]. destruct G as [(_ & _ & ->)|[(_ & _ & _ & HG)|(l & G & _)]]; [destruct Hin| |discriminate G].
    rewrite HG in Hin. pose proof (own_fkG0 _ _ _ _ _ _ _ _ _ _ _ Hin) as HO. rewrite Hn in HO. exact HO.
Qed.
Hypothesis HB : built V B.
Hypothesis HS : forall p, In p (by_panels B) -> sh_m (pn_sh p) = sh_m (by_sh B) /\ sh_n (pn_sh p) = sh_n (by_sh B).
Lemma pads_series s b : In s (by_s2 B) -> s2_base s = Some b -> (3 * sh_m (pn_sh b) * sh_n (pn_sh b) = skin_dim B)%nat.
Proof using HB. intros Hs Eb. pose proof (g_s2 _ (built_good _ _ HB)) as HG. rewrite List.Forall_forall in HG. destruct (HG s Hs) as (_ & _ & Hb). destruct (Hb b Eb) as (_ & _ & Hm & Hn). unfold skin_dim. rewrite ?Hm, ?Hn. reflexivity. Qed.
Lemma entries_zero Ms r t : (forall j M, nth_error Ms j = Some M -> zero_at M r t) -> zero_at (entries Ms) r t.
Proof.
  intro H. unfold zero_at, entries. induction Ms as [|M l IH]; [split; reflexivity|]. destruct (H 0%nat M eq_refl) as [H1 H2]. destruct IH as [I1 I2]; [intros j M' Hj; exact (H (S j) M' Hj)|].
  unfold suml in *. cbn [map fold_right]. rewrite H1, H2, I1, I2. split; ring.
Qed.
Lemma zero_plus M N1 N2 r t : (forall a b, M a b = N1 a b + N2 a b) -> zero_at N1 r t -> zero_at N2 r t -> zero_at M r t.
Proof. intros H [A1 A2] [B1 B2]. split; rewrite H; [rewrite A1, B1|rewrite A2, B2]; ring. Qed.
Lemma zero_none r t : zero_at (fun _ _ => 0) r t. Proof. split; reflexivity. Qed.
Lemma s1_zero N s M r t : s1_part V B (alone_kC E) (kCf_of V B) N s M -> ~ (t < skin_dim B)%nat -> zero_at M r t.
Proof.
  intros (h & Kb & _ & Hb & HM) Ht. apply (zero_plus _ _ _ _ _ HM).
  - unfold pad_part in Hb. destruct (s1_bdef s) as [D|]; [|rewrite Hb; apply zero_none]. eapply alone_zero; [exact Hb|]. rewrite ndof3. unfold skin_dim in Ht. cbn. cbn in Ht. lia.
  - unfold flange_part. destruct (s1_fdef s) as [D|]; [|apply zero_none]. apply (fin_zero _ (fun i => (i < skin_dim B)%nat)); [|exact Ht].
    intros i j v Hin. exact (fits_fkCf (skin_dim B) _ _ _ _ _ _ _ _ _ _ (le_n _) _ _ _ Hin).
Qed.
Lemma s2_zero N o s M r t : In s (by_s2 B) -> s2_part V B (alone_kC E) true N o s M -> ~ (t < skin_dim B \/ o <= t < o + flange_dim s)%nat -> zero_at M r t.
Proof.
  intros Hin (Kb & Kf & Hb & Hf & HM) Ht. apply (zero_plus _ _ _ _ _ HM).
  - destruct (s2_base s) as [b|] eqn:Eb; [|rewrite Hb; apply zero_none]. eapply alone_zero; [exact Hb|]. rewrite ndof3. pose proof (pads_series s b Hin Eb) as Hp. lia.
  - unfold flange_dim in Ht. destruct (s2_flange s) as [q|] eqn:Eq; [|rewrite Hf; apply zero_none]. destruct Hf as (K & l & HK & _ & HKf). apply (zero_plus _ _ _ _ _ HKf).
    + eapply alone_zero; [exact HK|]. rewrite ndof3. lia.
    + unfold joint. cbv zeta. apply (fin_zero _ (fun i => (i < skin_dim B \/ o <= i < o + 3 * sh_m (pn_sh q) * sh_n (pn_sh q))%nat)); [|exact Ht].
      intros i j v Hi. unfold skin_flange in Hi. apply in_app_or in Hi. destruct Hi as [Hi|Hi]; [|apply in_app_or in Hi; destruct Hi as [Hi|Hi]].
      * pose proof (fits_fkCss (skin_dim B) _ _ _ _ _ _ (le_n _) _ _ _ Hi). tauto.
      * revert i j v Hi. match goal with |- forall i j v, In _ ?M -> _ => enough (HW : within 0 (skin_dim B) o (o + 3 * sh_m (pn_sh q) * sh_n (pn_sh q)) M) by (intros i j v Hi; destruct (HW _ _ _ Hi); lia) end.
        unfold skin_dim. replace (3 * sh_m (by_sh B) * sh_n (by_sh B))%nat with (0 + DOF * (sh_n (by_sh B) * sh_m (by_sh B)))%nat by (unfold DOF; lia).
        replace (o + 3 * sh_m (pn_sh q) * sh_n (pn_sh q))%nat with (o + DOF * (sh_n (pn_sh q) * sh_m (pn_sh q)))%nat by (unfold DOF; lia). cbv delta [fkCsf] beta zeta. apply within_ikjl; wf3.
      * revert i j v Hi. match goal with |- forall i j v, In _ ?M -> _ => enough (HW : within o (o + 3 * sh_m (pn_sh q) * sh_n (pn_sh q)) o (o + 3 * sh_m (pn_sh q) * sh_n (pn_sh q)) M) by (intros i j v Hi; destruct (HW _ _ _ Hi); lia) end.
        replace (o + 3 * sh_m (pn_sh q) * sh_n (pn_sh q))%nat with (o + DOF * (sh_n (pn_sh q) * sh_m (pn_sh q)))%nat by (unfold DOF; lia). cbv delta [fkCff] beta zeta. apply within_ikjl; wf3.
Qed.
Theorem flanges_apart B' K : bay_kC V B = (B', Ok K) -> forall j k s u x y, j <> k -> nth_error (by_s2 B) j = Some s -> nth_error (by_s2 B) k = Some u ->
  (x < flange_dim s)%nat -> (y < flange_dim u)%nat -> K (slice_of B j + x)%nat (slice_of B k + y)%nat = 0.
Proof using HB HS.
  intros H j k s u x y Hjk Ej Ek Hx Hy. destruct (bay_kC_parts _ _ _ _ (g_s1 _ (built_good _ _ HB)) H) as (_ & Ks & K1s & K2s & F0 & F1 & L2 & F2 & HK).
  pose proof (slice_fits _ _ _ Ej) as [S1 S2]. pose proof (slice_fits _ _ _ Ek) as [S3 S4].
  assert (HD : (slice_of B j + flange_dim s <= slice_of B k \/ slice_of B k + flange_dim u <= slice_of B j)%nat).
  { destruct (lt_dec j k); [left; eapply slices_apart; eauto|right; eapply slices_apart; eauto; lia]. }
  set (r := (slice_of B j + x)%nat) in *. set (t := (slice_of B k + y)%nat) in *. rewrite HK.
  assert (Z0 : zero_at (entries Ks) r t).
  { apply entries_zero. intros i M Hi. destruct (Forall2_nth _ _ _ _ _ F0 Hi) as (p & Ep & Hp). destruct (HS p (nth_error_In _ _ Ep)) as [Hm Hn]. eapply alone_zero; [exact Hp|]. rewrite ndof3, Hm, Hn. unfold skin_dim, t in *. lia. }
  assert (Z1 : zero_at (entries K1s) r t).
  { apply entries_zero. intros i M Hi. destruct (Forall2_nth _ _ _ _ _ F1 Hi) as (p & Ep & Hp). eapply s1_zero; [exact Hp|]. unfold t. lia. }
  assert (Z2 : zero_at (entries K2s) r t).
  { apply entries_zero. intros i M Hi. destruct (F2 i M Hi) as (v & Ev & Hv). destruct (Nat.eq_dec i k) as [->|Hik].
    - assert (v = u) by congruence. subst v. assert (HZ : zero_at M t r); [|destruct HZ; split; assumption]. eapply s2_zero; [exact (nth_error_In _ _ Ek)|exact Hv|]. unfold r, t in *. lia.
    - eapply s2_zero; [exact (nth_error_In _ _ Ev)|exact Hv|]. assert (HD2 : (slice_of B i + flange_dim v <= slice_of B k \/ slice_of B k + flange_dim u <= slice_of B i)%nat) by (destruct (lt_dec i k); [left; eapply slices_apart; eauto|right; eapply slices_apart; eauto; lia]). unfold t in *. lia. }
  rewrite (proj1 Z0), (proj1 Z1), (proj1 Z2). ring.
Qed.
End Uncoupled.

(* ------------------------------------------------- the pad of a new 2D stiffener *)
Lemma listed_plyts p : pn_plyts p <> [] -> rebuilt_plyts p = pn_plyts p.
Proof. intro H. unfold rebuilt_plyts. destruct (pn_plyts p); [congruence|reflexivity]. Qed.
Theorem pad_offset V B ys rho bb bf D fd mf nf B' : add_bladestiff2d V ys rho bb bf (Ok (Some D)) (Ok fd) mf nf B = (B', Ok tt) ->
  (forall p, In p (by_panels B) -> pn_plyts p <> []) ->
  exists s b h, by_s2 B' = by_s2 B ++ [s] /\ by_panels B' = by_panels B /\ s2_base s = Some b /\ beside B (s2_p1 s) (s2_p2 s) h /\ pn_offset b = - (h + lam_height (Some D)) / 2.
Proof.
  intros H HP. unfold add_bladestiff2d in H. unfold bbind at 1 2, blift at 1 2 in H. cbv iota beta in H. unfold bbind, bget, blift, bmod in H.
  destruct (find_panels B ys) as [[i j]|]; [|discriminate]. cbn [fst snd] in H. unfold new_stiff2 in H.
  destruct (nth_error (by_panels B) i) as [p|] eqn:Ei; [|discriminate]. destruct (nth_error (by_panels B) j) as [q|] eqn:Ej; [|discriminate]. cbv zeta in H.
  unfold s2_rebuild, two_panels in H. cbn [s2_p1 s2_p2] in H. rewrite Ei, Ej in H. destruct (agree_panels p q); [|discriminate].
  apply pair_equal_spec in H. destruct H as [<- _]. eexists _, _, _. split; [reflexivity|]. split; [reflexivity|]. split; [reflexivity|]. split.
  - exists p, q. split; [exact Ei|]. split; [exact Ej|reflexivity].
  - cbn. unfold thickness, lam_height. rewrite !listed_plyts by (apply HP; eapply nth_error_In; eassumption). rewrite !total_suml. unfold skin_h. rewrite !total_suml. field.
Qed.
(* ------------------------------------------------- aerodynamics *)
Lemma cA_never V B B' K : bay_cA V B <> (B', Ok K).
Proof.
  intro H. unfold bay_cA in H. destruct (bind_run _ _ _ _ _ H) as [(B1 & u & H1 & H2)|(e & _ & He)]; [|discriminate].
  destruct (bind_run _ _ _ _ _ H2) as [(B2 & n & _ & H3)|(e & _ & He)]; [|discriminate].
  destruct (bind_run _ _ _ _ _ H3) as [(B3 & v & _ & H4)|(e & _ & He)]; [|discriminate].
  unfold bbind, bget in H4. destruct (by_panels B3); discriminate.
Qed.
Lemma aero_size b B B' u : bay_aero b B = (B', u) -> by_size B' = by_size B /\ by_panels B' = by_panels B.
Proof.
  intro H. unfold bay_aero in H. unfold bbind at 1, bget in H. destruct (by_beta B).
  - apply pair_equal_spec in H. destruct H as [<- _]. split; reflexivity.
  - destruct (by_Mach B) as [M|]; [|apply pair_equal_spec in H; destruct H as [<- _]; split; reflexivity].
    destruct (Rlt_dec M 1); [apply pair_equal_spec in H; destruct H as [<- _]; split; reflexivity|].
    unfold bbind in H. destruct (Req_EM_T M 1); unfold bmod, bret in H;
      destruct (by_rho_air B), (by_V B), (by_speed_sound B), (if b then is_some (by_r B) else true); apply pair_equal_spec in H; destruct H as [<- _]; split; reflexivity.
Qed.

(* ------------------------------------------------- the pad of a 1D stiffener has no mass *)
Theorem padded_no_mass V B s B' K : built V B -> In s (by_s1 B) -> s1_bdef s <> None -> bay_kM V B <> (B', Ok K).
Proof.
  intros HB Hs Hp H. destruct (built_good _ _ HB) as [G1 G2].
  assert (HPl : List.Forall plied (by_s2 B)) by (eapply List.Forall_impl; [|exact G2]; intros t Ht; apply Ht).
  destruct (bay_kM_parts _ _ _ _ G1 HPl H) as (_ & Ks & K1s & K2s & _ & F1 & _).
  destruct (In_nth_error _ _ Hs) as [j Hj]. destruct (Forall2_nth_l _ _ _ _ _ F1 Hj) as (M & _ & h & Kb & _ & HM & _). unfold pad_part in HM.
  destruct (s1_bdef s) as [D|]; [|congruence]. destruct HM as [p' HM]. exact (pad_has_no_mass V B (SInt (bay_dim B)) _ _ _ _ _ _ _ _ _ HM).
Qed.
(* ------------------------------------------------- the attribute size *)
Section Size.
Variable P : option nat -> Prop.
Definition sz {A} (f : bmethod A) : Prop := forall B, P (by_size B) -> P (by_size (fst (f B))).
Lemma sz_bind {A C} (x : bmethod A) (f : A -> bmethod C) : sz x -> (forall a, sz (f a)) -> sz (bbind x f).
Proof. intros Hx Hf B HB. unfold bbind. specialize (Hx B HB). destruct (x B) as [B1 [a|e]]; [apply Hf; exact Hx|exact Hx]. Qed.
Lemma sz_ret {A} (a : A) : sz (bret a). Proof. intros B HB. exact HB. Qed.
Lemma sz_raise {A} e : sz (@braise A e). Proof. intros B HB. exact HB. Qed.
Lemma sz_lift {A} (x : res A) : sz (blift x). Proof. intros B HB. exact HB. Qed.
Lemma sz_get : sz bget. Proof. intros B HB. exact HB. Qed.
Lemma sz_each {A} (f : nat -> bmethod A) : (forall i, sz (f i)) -> forall k i, sz (each f i k).
Proof. intros Hf. induction k as [|k IH]; intro i; cbn [each]; [apply sz_ret|]. apply sz_bind; [apply Hf|]. intro a. apply sz_bind; [apply IH|]. intro l. apply sz_ret. Qed.
Lemma sz_panels {A} (f : nat -> bmethod A) : (forall i, sz (f i)) -> sz (each_panel f).
Proof. intros Hf B HB. unfold each_panel. apply sz_each; assumption. Qed.
Lemma sz_s1s {A} (f : nat -> bmethod A) : (forall i, sz (f i)) -> sz (each_s1 f).
Proof. intros Hf B HB. unfold each_s1. apply sz_each; assumption. Qed.
Lemma sz_skin {A} i (m : method A) : sz (on_skin i m).
Proof. intros B HB. unfold on_skin. destruct (nth_error _ _) as [p|]; [|exact HB]. destruct (m p). exact HB. Qed.
Lemma sz_mod f : (forall B, by_size (f B) = by_size B) -> sz (bmod f). Proof. intros Hf B HB. unfold bmod. cbn [fst]. rewrite Hf. exact HB. Qed.
Lemma sz_get1 j : sz (get_s1 j). Proof. intros B HB. unfold get_s1. destruct (nth_error _ _); exact HB. Qed.
Lemma sz_get2 j : sz (get_s2 j). Proof. intros B HB. unfold get_s2. destruct (nth_error _ _); exact HB. Qed.
Ltac sized := repeat first [apply sz_ret | apply sz_raise | apply sz_lift | apply sz_get | apply sz_skin | apply sz_get1 | apply sz_get2
  | apply sz_each; intros ? | apply sz_panels; intros ? | apply sz_s1s; intros ? | apply sz_bind; [|intros ?] | apply sz_mod; intros ?; reflexivity
  | match goal with |- sz (match ?x with _ => _ end) => destruct x end
  | progress unfold re_s1, re_s2, put_s1, put_s2, on_base1, on_base2, on_flange, coo_mat ].
Lemma sz_rebuild V : sz (bay_rebuild V).
Proof. unfold bay_rebuild. sized. Qed.
Lemma sz_s1kC V N o j : sz (s1_kC V N o o j). Proof. unfold s1_kC. sized. Qed.
Lemma sz_s2kC V N o j : sz (s2_kC V N o o j). Proof. unfold s2_kC. cbv zeta. sized. Qed.
Lemma sz_sum f : (forall o j, sz (f o j)) -> forall k j o acc, sz (sum_s2 f j k o acc).
Proof. intro Hf. induction k as [|k IH]; intros j o acc; cbn [sum_s2]; [sized|]. apply sz_bind; [apply Hf|intro]. apply sz_bind; [sized|intro]. apply IH. Qed.
Lemma sz_aero b : sz (bay_aero b).
Proof. intros B HB. destruct (bay_aero b B) as [B' u] eqn:E. destruct (aero_size _ _ _ _ E) as [H _]. cbn [fst]. rewrite H. exact HB. Qed.
End Size.
Lemma bay_kC_sets_size V B B' K : bay_kC V B = (B', Ok K) -> by_size B' <> None.
Proof.
  intro H. unfold bay_kC, bay_matrix in H. destruct (bind_run _ _ _ _ _ H) as [(B1 & u & _ & Hn)|(e & _ & HE)]; [clear H; rename Hn into H|discriminate HE]. destruct (bind_run _ _ _ _ _ H) as [(B2 & N & HN & Hn)|(e & _ & HE)]; [clear H; rename Hn into H|discriminate HE].
  destruct (size_value _ _ _ HN) as (_ & H2 & _).
  match type of H with ?f B2 = _ => assert (HS : sz (fun o => o <> None) f) end.
  - apply sz_bind; [apply sz_panels; intro; apply sz_skin|intro]. apply sz_bind; [apply sz_s1s; intro; apply sz_s1kC|intro]. apply sz_bind; [apply sz_get|intro]. apply sz_bind; [apply sz_lift|intro].
    apply sz_bind; [apply sz_sum; intros; apply sz_s2kC|intro o]. destruct o; [apply sz_ret|apply sz_raise].
  - specialize (HS B2). rewrite H in HS. apply HS. rewrite H2. discriminate.
Qed.
(* calc_kA of a bay on which nothing called get_size *)
Lemma kA_needs_size V B B' K : by_size B = None -> bay_kA V B <> (B', Ok K).
Proof.
  intros HN H. unfold bay_kA in H. destruct (bind_run _ _ _ _ _ H) as [(B1 & u & H1 & Hn)|(e & _ & HE)]; [clear H; rename Hn into H|discriminate HE]. destruct (bind_run _ _ _ _ _ H) as [(B2 & v & H2 & Hn)|(e & _ & HE)]; [clear H; rename Hn into H|discriminate HE]. destruct (bind_run _ _ _ _ _ H) as [(B3 & w & H3 & Hn)|(e & _ & HE)]; [clear H; rename Hn into H|discriminate HE].
  pose proof (sz_rebuild (fun o => o = None) V B HN) as S1. rewrite H1 in S1. cbn [fst] in S1. destruct (aero_size _ _ _ _ H2) as [S2 _].
  unfold bget in H3. apply pair_equal_spec in H3. destruct H3 as [<- HH]. injection HH as <-. rewrite S2, S1 in H. destruct (by_panels B2); discriminate.
Qed.
Lemma assembled_size V B : assembled V B -> by_size B = None.
Proof.
  induction 1 as [B _ _ _ H|B y1 y2 stack plyts plyt props prop mdl rho _ IH|B ys rho bb bf bd fd _ IH|B ys rho bb bf bd fd mf nf _ IH]; [exact H|exact IH| |].
  - refine ((_ : sz (fun o => o = None) (add_bladestiff1d V ys rho bb bf bd fd)) B IH). unfold add_bladestiff1d. cbv zeta.
    repeat first [apply sz_ret | apply sz_raise | apply sz_lift | apply sz_get | apply sz_bind; [|intros ?] | apply sz_mod; intros ?; reflexivity | match goal with |- sz _ (match ?x with _ => _ end) => destruct x end].
  - refine ((_ : sz (fun o => o = None) (add_bladestiff2d V ys rho bb bf bd fd mf nf)) B IH). unfold add_bladestiff2d. cbv zeta.
    repeat first [apply sz_ret | apply sz_raise | apply sz_lift | apply sz_get | apply sz_bind; [|intros ?] | apply sz_mod; intros ?; reflexivity | match goal with |- sz _ (match ?x with _ => _ end) => destruct x end].
Qed.
