(* Runs of the bay: what the calls return in terms of the panels and stiffeners it was given. *)
From Coq Require Import Reals List Arith Bool Lia Lra FunctionalExtensionality.
From Verif Require Import Base_Sum Model_Types Model_Coo Model_Result Model_Num Model_DB Model_Shell Model_Fext Model_Multi Model_New Model_StiffKer Model_Bay
  Spec_Algebra Spec_Shell Spec_Rebuild Spec_Bay Proof_Shell Proof_Place Proof_Multi Proof_Hist Proof_StiffKer Proof_Ana.
Import ListNotations.
Open Scope R_scope.

Lemma set_at_length {A} i (x : A) l : length (set_at i x l) = length l.
Proof. revert i. induction l as [|y l IH]; intros [|i]; cbn; auto. Qed.
Lemma nth_set_at {A} i (x : A) l k : nth_error (set_at i x l) k = if (k =? i)%nat then match nth_error l k with Some _ => Some x | None => None end else nth_error l k.
Proof. revert i k. induction l as [|y l IH]; intros [|i] [|k]; cbn; auto. - destruct (k =? i)%nat; reflexivity. Qed.
Lemma nth_set_same {A} i (x : A) l y : nth_error l i = Some y -> nth_error (set_at i x l) i = Some x.
Proof. intro H. rewrite nth_set_at, Nat.eqb_refl, H. reflexivity. Qed.
Lemma set_at_set_at {A} i (x y : A) l : set_at i y (set_at i x l) = set_at i y l.
Proof. revert i. induction l as [|z l IH]; intros [|i]; cbn; auto. f_equal. apply IH. Qed.
Lemma Forall2_set_at {A B} (R : A -> B -> Prop) l l' i a b : Forall2 R l l' -> nth_error l i = Some a -> R a b -> Forall2 R l (set_at i b l').
Proof.
  intro H. revert i. induction H as [|x y l l' Hx H IH]; intros [|i] Hi Hr; cbn in *; try discriminate; constructor; auto.
  injection Hi as ->. exact Hr.
Qed.
Lemma F2_length {A B} (R : A -> B -> Prop) l l' : Forall2 R l l' -> length l = length l'.
Proof. induction 1; cbn; congruence. Qed.
Lemma Forall2_nth {A B} (R : A -> B -> Prop) l l' i b : Forall2 R l l' -> nth_error l' i = Some b -> exists a, nth_error l i = Some a /\ R a b.
Proof. intro H. revert i. induction H as [|x y l l' Hx H IH]; intros [|i] Hi; cbn in *; try discriminate; [injection Hi as <-; eauto|apply IH; exact Hi]. Qed.
Lemma Forall2_nth_l {A B} (R : A -> B -> Prop) l l' i a : Forall2 R l l' -> nth_error l i = Some a -> exists b, nth_error l' i = Some b /\ R a b.
Proof. intro H. revert i. induction H as [|x y l l' Hx H IH]; intros [|i] Hi; cbn in *; try discriminate; [injection Hi as <-; eauto|apply IH; exact Hi]. Qed.
Lemma nth_Forall2 {A B} (R : A -> B -> Prop) l : forall l', length l' = length l -> (forall j b, nth_error l' j = Some b -> exists a, nth_error l j = Some a /\ R a b) -> Forall2 R l l'.
Proof.
  induction l as [|a l IH]; intros [|b l'] HL H; cbn in HL; try discriminate; constructor.
  - destruct (H 0%nat b eq_refl) as (a' & E & HR). injection E as <-. exact HR.
  - apply IH; [lia|]. intros j b' Hj. exact (H (S j) b' Hj).
Qed.
Lemma total_suml l : total l = suml l (fun t => t).
Proof. unfold total. rewrite <- (Rplus_0_l (suml l _)). generalize 0. induction l as [|x l IH]; intro z; cbn [fold_left]; [unfold suml; cbn; ring|]. rewrite IH. unfold suml. cbn [map fold_right]. ring. Qed.

Definition orel {A} (R : A -> A -> Prop) (x y : option A) : Prop :=
  match x, y with None, None => True | Some a, Some b => R a b | _, _ => False end.

(* the panel has the same definition, and keeps the thicknesses it was given *)
Definition kept (p : panel) : Prop := pn_plyts p <> [] \/ pn_plyt p = None.
Definition f_inv (p q : panel) : Prop := alike p q /\ (kept p -> pn_plyts q = pn_plyts p).
Lemma f_inv_refl p : f_inv p p.
Proof. split; [apply alike_refl|auto]. Qed.
Lemma rebuild_plyts E p : kept p -> pn_plyts (fst (rebuild E p)) = pn_plyts p.
Proof.
  destruct p as [sh r mo nx ny st pt pts lp lps rho rhos off ort lam ABD sz N Nc fl be ga ra ma v kC kG kT kM kA].
  intro H. unfold kept in H. cbn in H. destruct pts as [|t0 ts].
  - destruct H as [H|H]; [exfalso; apply H; reflexivity|]. subst pt. unfold_panel.
    destruct mo as [[mdl|]|]; [|reflexivity|destruct r]; (destruct st as [|s0 st]; [reflexivity|]); destruct lps as [|l0 lps], lp as [|lp0 lp], rhos as [|rh0 rhos]; reflexivity.
  - unfold_panel.
    destruct mo as [[mdl|]|]; [|reflexivity|destruct r]; (destruct st as [|s0 st]; [reflexivity|]); destruct lps as [|l0 lps], lp as [|lp0 lp], rhos as [|rh0 rhos]; reflexivity.
Qed.
Lemma kept_inv p q : f_inv p q -> kept p -> kept q.
Proof. intros [HA HP] HK. unfold kept. rewrite (HP HK). destruct HA as [[]]. rewrite si_plyt. exact HK. Qed.

Section Run.
Variables (V : benv) (B0 : bay).
Notation E := (b_env V).

(* the panel was rebuilt, and other calls may have followed *)
Definition p_inv (p q : panel) : Prop := exists p1, rebuild E p = (p1, Ok tt) /\ eqv p1 q.
Record s1_inv (s t : stiff1) : Prop := {
  s1i_p1 : s1_p1 t = s1_p1 s; s1i_p2 : s1_p2 t = s1_p2 s; s1i_rho : s1_rho t = s1_rho s; s1i_ys : s1_ys t = s1_ys s; s1i_bb : s1_bb t = s1_bb s; s1i_bf : s1_bf t = s1_bf s;
  s1i_bdef : s1_bdef t = s1_bdef s; s1i_fdef : s1_fdef t = s1_fdef s; s1i_Fx : s1_Fx t = s1_Fx s;
  s1i_base : s1_bdef s = None -> s1_base t = None; s1i_flam : s1_fdef s = None -> s1_flam t = None }.
Record s2_inv (s t : stiff2) : Prop := {
  s2i_p1 : s2_p1 t = s2_p1 s; s2i_p2 : s2_p2 t = s2_p2 s; s2i_ys : s2_ys t = s2_ys s; s2i_bdef : s2_bdef t = s2_bdef s; s2i_rho : s2_rho t = s2_rho s;
  s2i_base : orel f_inv (s2_base s) (s2_base t); s2i_flange : orel f_inv (s2_flange s) (s2_flange t) }.
Record inv (B : bay) : Prop := {
  i_sh : by_sh B = by_sh B0; i_r : by_r B = by_r B0;
  i_panels : Forall2 p_inv (by_panels B0) (by_panels B);
  i_s1 : Forall2 s1_inv (by_s1 B0) (by_s1 B); i_s2 : Forall2 s2_inv (by_s2 B0) (by_s2 B) }.

Definition ens {A} (f : bmethod A) (P : A -> Prop) : Prop :=
  forall B1 B2 r, inv B1 -> f B1 = (B2, r) -> inv B2 /\ forall a, r = Ok a -> P a.

Lemma ens_bind {A C} (x : bmethod A) (f : A -> bmethod C) P Q : ens x P -> (forall a, P a -> ens (f a) Q) -> ens (bbind x f) Q.
Proof.
  intros Hx Hf B1 B2 r HI H. unfold bbind in H. destruct (x B1) as [B' [a|e]] eqn:Ex.
  - destruct (Hx _ _ _ HI Ex) as [HI' Ha]. exact (Hf a (Ha a eq_refl) _ _ _ HI' H).
  - apply pair_equal_spec in H. destruct H as [<- <-]. destruct (Hx _ _ _ HI Ex) as [HI' _]. split; [exact HI'|discriminate].
Qed.
Lemma ens_ret {A} (a : A) (P : A -> Prop) : P a -> ens (bret a) P.
Proof. intros Ha B1 B2 r HI H. apply pair_equal_spec in H. destruct H as [<- <-]. split; [exact HI|]. intros b Hb. injection Hb as <-. exact Ha. Qed.
Lemma ens_raise {A} e (P : A -> Prop) : ens (braise e) P.
Proof. intros B1 B2 r HI H. apply pair_equal_spec in H. destruct H as [<- <-]. split; [exact HI|discriminate]. Qed.
Lemma ens_lift {A} (x : res A) (P : A -> Prop) : (forall a, x = Ok a -> P a) -> ens (blift x) P.
Proof. intros Ha B1 B2 r HI H. apply pair_equal_spec in H. destruct H as [<- <-]. split; [exact HI|exact Ha]. Qed.
Lemma ens_get : ens bget inv.
Proof. intros B1 B2 r HI H. apply pair_equal_spec in H. destruct H as [<- <-]. split; [exact HI|]. intros b Hb. injection Hb as <-. exact HI. Qed.
Lemma ens_weaken {A} (f : bmethod A) (P Q : A -> Prop) : ens f P -> (forall a, P a -> Q a) -> ens f Q.
Proof. intros H HQ B1 B2 r HI Hf. destruct (H _ _ _ HI Hf) as [H1 H2]. split; [exact H1|]. intros a Ha. apply HQ, H2, Ha. Qed.
Lemma ens_mod (f : bay -> bay) (P : unit -> Prop) : (forall B, inv B -> inv (f B)) -> P tt -> ens (bmod f) P.
Proof. intros Hf HP B1 B2 r HI H. apply pair_equal_spec in H. destruct H as [<- <-]. split; [apply Hf, HI|]. intros [] _. exact HP. Qed.

Lemma ens_each {A} (f : nat -> bmethod A) (P : nat -> A -> Prop) : (forall j, ens (f j) (P j)) -> forall k i,
  ens (each f i k) (fun l => length l = k /\ forall j a, nth_error l j = Some a -> P (i + j)%nat a).
Proof.
  intro Hf. induction k as [|k IH]; intro i; cbn [each].
  - apply ens_ret. split; [reflexivity|]. intros [|j] a Ha; discriminate Ha.
  - eapply ens_bind; [apply Hf|]. intros a Ha. cbv beta. eapply ens_bind; [apply (IH (S i))|]. intros l [HL Hl]. cbv beta. apply ens_ret.
    split; [cbn; congruence|]. intros [|j] b Hb; cbn in Hb.
    + injection Hb as <-. rewrite Nat.add_0_r. exact Ha.
    + replace (i + S j)%nat with (S i + j)%nat by lia. apply Hl. exact Hb.
Qed.

(* a panel of the skin *)
Lemma p_inv_alike p q : p_inv p q -> alike p q.
Proof. intros (p1 & H & He). eapply alike_trans; [|apply eqv_alike; exact He]. pose proof (rebuild_alike E p) as HA. rewrite H in HA. exact HA. Qed.
Lemma p_inv_after k p q : p_inv p q -> p_inv p (after E k q).
Proof. intros (p1 & H & He). exists p1. split; [exact H|]. apply after_eqv; [exact (rebuild_idem _ _ _ _ H)|exact He]. Qed.
Lemma p_inv_plyts p q : p_inv p q -> pn_plyts q = rebuilt_plyts p.
Proof. intros (p1 & H & He). rewrite (eq_plyts _ _ He). destruct (rebuild_inv _ _ _ _ H) as (_ & _ & _ & _ & _ & _ & _ & _ & A9 & _). exact A9. Qed.
Lemma p_inv_lam p q : p_inv p q -> pn_lam q = Some (rebuilt_lam E p).
Proof. intros (p1 & H & He). rewrite (eq_lam _ _ He). destruct (rebuild_inv _ _ _ _ H) as (_ & _ & _ & _ & _ & _ & A7 & _). exact A7. Qed.
Lemma inv_set_panel B i p q : inv B -> nth_error (by_panels B0) i = Some p -> p_inv p q -> inv (set_panels B (set_at i q (by_panels B))).
Proof. intros [] Hi Hq. constructor; cbn; auto. eapply Forall2_set_at; eassumption. Qed.
Lemma ens_skin {A} (m : method A) (P : panel -> A -> Prop) i :
  (forall p q q' r, p_inv p q -> m q = (q', r) -> p_inv p q' /\ forall a, r = Ok a -> P p a) ->
  ens (on_skin i m) (fun a => exists p, nth_error (by_panels B0) i = Some p /\ P p a).
Proof.
  intros Hm B1 B2 r HI H. unfold on_skin in H. destruct (nth_error (by_panels B1) i) as [q|] eqn:Eq.
  - destruct (Forall2_nth _ _ _ _ _ (i_panels _ HI) Eq) as (p & Ep & Hp). destruct (m q) as [q' r'] eqn:Em.
    apply pair_equal_spec in H. destruct H as [<- <-]. destruct (Hm _ _ _ _ Hp Em) as [H1 H2].
    split; [eapply inv_set_panel; eassumption|]. intros a Ha. exists p. auto.
  - apply pair_equal_spec in H. destruct H as [<- <-]. split; [exact HI|discriminate].
Qed.
Lemma ens_panels {A} (m : method A) (P : panel -> A -> Prop) :
  (forall p q q' r, p_inv p q -> m q = (q', r) -> p_inv p q' /\ forall a, r = Ok a -> P p a) ->
  ens (each_panel (fun i => on_skin i m)) (fun l => Forall2 P (by_panels B0) l).
Proof.
  intros Hm B1 B2 r HI H. unfold each_panel in H. rewrite <- (F2_length _ _ _ (i_panels _ HI)) in H.
  destruct (ens_each _ _ (fun i => ens_skin m P i Hm) _ _ _ _ _ HI H) as [H1 H2]. split; [exact H1|].
  intros l Hl. destruct (H2 l Hl) as [HL Hn]. apply nth_Forall2; [exact HL|]. intros j b Hb. exact (Hn j b Hb).
Qed.
Lemma skin_kC N o : forall p q q' r, p_inv p q -> calc_kC E (mkKargs (SInt N) o o false None None None None None false) q = (q', r) ->
  p_inv p q' /\ forall K, r = Ok K -> alone_kC E N o p (finalize_symmetric K).
Proof.
  intros p q q' r Hp H. set (A := mkKargs _ _ _ _ _ _ _ _ _ _) in H. split.
  - replace q' with (after E (CkC A) q); [apply p_inv_after; exact Hp|]. cbn [after]. rewrite H. reflexivity.
  - intros K ->. pose proof (kC_alike E A p q (p_inv_alike _ _ Hp)) as HK. rewrite H in HK. cbn [snd] in HK.
    destruct Hp as (p1 & HR & _). pose proof (calc_kC_result E (SInt N) o false None false p p1 HR) as H1.
    pose proof (calc_kC_result E (SInt N) o true None false p p1 HR) as H2. fold A in H1. rewrite <- HK in H1. rewrite kC_result_fin, <- H1 in H2. cbn [rmap rbind] in H2.
    unfold alone_kC. destruct (calc_kC E (mkKargs (SInt N) o o true None None None None None false) p) as [p' r'] eqn:EE. exists p'. cbn [snd] in H2. rewrite H2. reflexivity.
Qed.
Lemma skin_kG c N o : forall p q q' r, p_inv p q -> calc_kG E (mkKargs (SInt N) o o false c None None None None false) q = (q', r) ->
  p_inv p q' /\ forall K, r = Ok K -> alone_kG E c N o p (finalize_symmetric K).
Proof.
  intros p q q' r Hp H. set (A := mkKargs _ _ _ _ _ _ _ _ _ _) in H. split.
  - replace q' with (after E (CkG A) q); [apply p_inv_after; exact Hp|]. cbn [after]. rewrite H. reflexivity.
  - intros K ->. pose proof (kG_alike E A p q (p_inv_alike _ _ Hp)) as HK. rewrite H in HK. cbn [snd] in HK.
    destruct Hp as (p1 & HR & _). pose proof (calc_kG_result E (SInt N) o false c false p p1 HR) as H1.
    pose proof (calc_kG_result E (SInt N) o true c false p p1 HR) as H2. fold A in H1. rewrite <- HK in H1. rewrite kG_result_fin, <- H1 in H2. cbn [rmap rbind] in H2.
    unfold alone_kG. destruct (calc_kG E (mkKargs (SInt N) o o true c None None None None false) p) as [p' r'] eqn:EE. exists p'. cbn [snd] in H2. rewrite H2. reflexivity.
Qed.
Lemma skin_kM N o : forall p q q' r, p_inv p q -> calc_kM E (SInt N) o o None None None None false q = (q', r) ->
  p_inv p q' /\ forall K, r = Ok K -> alone_kM E N o p (finalize_symmetric K).
Proof.
  intros p q q' r Hp H. split.
  - replace q' with (after E (CkM (SInt N) o o None None None None false) q); [apply p_inv_after; exact Hp|]. cbn [after]. rewrite H. reflexivity.
  - intros K ->. destruct Hp as (p1 & HR & He). exists p1.
    destruct (ra_kM E (SInt N) o o None None None None false p1 q (eqv_eqv0 _ _ He)) as [HK _]. rewrite H in HK. cbn [snd] in HK.
    assert (Hk : exists mdl, pn_model p1 = Some (Known mdl)) by (apply (rebuild_known _ _ _ _ HR)).
    assert (HL : pn_lam p1 <> None). { destruct (rebuild_inv _ _ _ _ HR) as (_ & _ & _ & _ & _ & _ & A7 & _). rewrite A7. discriminate. }
    pose proof (calc_kM_result E (SInt N) o false p1 Hk HL) as H1. pose proof (calc_kM_result E (SInt N) o true p1 Hk HL) as H2.
    rewrite HK in H1. rewrite kM_result_fin, <- H1 in H2. cbn [rmap rbind] in H2.
    destruct (calc_kM E (SInt N) o o None None None None true p1) as [p' r'] eqn:EE. exists p'. cbn [snd] in H2. rewrite H2. split; [exact HR|reflexivity].
Qed.
Lemma skin_rebuild : forall p q q' r, p_inv p q -> rebuild E q = (q', r) -> p_inv p q' /\ forall u : unit, r = Ok u -> True.
Proof.
  intros p q q' r Hp H. split; [|auto]. replace q' with (after E CRebuild q); [apply p_inv_after; exact Hp|]. cbn [after]. rewrite H. reflexivity.
Qed.

(* ------------------------------------------------- stiffeners without freedoms of their own *)
Lemma two_panels_ok {A} B i j (f : panel -> panel -> res A) a : inv B -> two_panels B i j f = Ok a ->
  exists p q p' q', nth_error (by_panels B0) i = Some p /\ nth_error (by_panels B0) j = Some q /\
    nth_error (by_panels B) i = Some p' /\ nth_error (by_panels B) j = Some q' /\ p_inv p p' /\ p_inv q q' /\ agree_panels p' q' = true /\ f p' q' = Ok a.
Proof.
  intros HI H. unfold two_panels in H. destruct (nth_error (by_panels B) i) as [p'|] eqn:Ei; [|discriminate].
  destruct (nth_error (by_panels B) j) as [q'|] eqn:Ej; [|discriminate]. destruct (agree_panels p' q') eqn:EA; [|discriminate].
  destruct (Forall2_nth _ _ _ _ _ (i_panels _ HI) Ei) as (p & Hp & Hp'). destruct (Forall2_nth _ _ _ _ _ (i_panels _ HI) Ej) as (q & Hq & Hq').
  exists p, q, p', q'. auto 10.
Qed.
Lemma skin_h_inv p q p' q' : p_inv p p' -> p_inv q q' -> skin_h p' q' = (thickness p + thickness q) / 2.
Proof. intros Hp Hq. unfold skin_h, thickness. rewrite (p_inv_plyts _ _ Hp), (p_inv_plyts _ _ Hq), !total_suml. lra. Qed.
Lemma base_shell_inv B D rho h ys bb : inv B -> base_shell B D rho h ys bb = base_shell B0 D rho h ys bb.
Proof. intro HI. unfold base_shell, bay_edges. rewrite (i_sh _ HI), (i_r _ HI). reflexivity. Qed.

Lemma ply_sums_spec l : forall h0 y E1 S1, ply_sums l (Some h0) y E1 S1 = (E1 + flange_E1 l, S1 + flange_S1_from (y + h0 / 2) l).
Proof.
  induction l as [|p l IH]; intros h0 y E1 S1; cbn [ply_sums flange_S1_from].
  - unfold flange_E1, suml. cbn. f_equal; ring.
  - rewrite IH. unfold flange_E1, suml. cbn [map fold_right]. f_equal; [ring|].
    replace (y + (h0 / 2 + ply_h p / 2) + ply_h p / 2) with (y + h0 / 2 + ply_h p) by lra.
    replace (y + (h0 / 2 + ply_h p / 2)) with (y + h0 / 2 + ply_h p / 2) by lra. ring.
Qed.
Lemma flange_ES_spec l : flange_ES l = (flange_E1 l, flange_S1 l).
Proof.
  unfold flange_ES. destruct l as [|p l]; [reflexivity|]. cbn [ply_sums]. rewrite ply_sums_spec.
  unfold flange_S1, flange_E1, suml. cbn [map fold_right flange_S1_from]. f_equal; [ring|].
  replace (ply_h p / 2 + ply_h p / 2) with (0 + ply_h p) by lra. rewrite (Rplus_0_l (ply_h p / 2)). ring.
Qed.

(* a stiffener just rebuilt *)
Record s1_fresh (s t : stiff1) (h : R) : Prop := {
  fr_inv : s1_inv s t; fr_h : beside B0 (s1_p1 s) (s1_p2 s) h;
  fr_base : s1_base t = option_map (fun D => base_shell B0 D (s1_rho s) h (s1_ys s) (s1_bb s)) (s1_bdef s);
  fr_flam : s1_flam t = option_map (fun D => b_plies V (ld_stack D) (ld_plyts D) (ld_props D)) (s1_fdef s);
  fr_dbf : s1_dbf t = flange_axis s h;
  fr_hf : s1_fdef s <> None -> s1_hf t = lam_height (s1_fdef s);
  fr_J : s1_fdef s <> None -> s1_Jxx t = flange_torsion s;
  fr_E : forall D, s1_fdef s = Some D -> let l := b_plies V (ld_stack D) (ld_plyts D) (ld_props D) in
    s1_E1 t = flange_E1 l /\ s1_S1 t = flange_S1 l /\ s1_F1 t = s1_bf s ^ 2 / 12 * flange_E1 l }.
Lemma s1_rebuild_fresh B s t t' : inv B -> s1_inv s t -> s1_rebuild V B t = Ok t' -> exists h, s1_fresh s t' h.
Proof.
  intros HI HS H. unfold s1_rebuild in H. destruct (two_panels_ok _ _ _ _ _ HI H) as (p & q & p' & q' & Ep & Eq & _ & _ & Hp & Hq & _ & HF).
  destruct HS as [A1 A2 A3 A4 A5 A6 A7 A8 A9 A10 A11]. rewrite A1 in Ep. rewrite A2 in Eq.
  exists ((thickness p + thickness q) / 2). apply (f_equal (fun x => match x with Ok y => y | Err _ => t end)) in HF. cbv beta iota zeta in HF. subst t'.
  rewrite (skin_h_inv _ _ _ _ Hp Hq), A1, A2, A3, A4, A5, A6, A7, A8, A9.
  assert (HB : forall D, base_shell B D (s1_rho s) ((thickness p + thickness q) / 2) (s1_ys s) (s1_bb s) = base_shell B0 D (s1_rho s) ((thickness p + thickness q) / 2) (s1_ys s) (s1_bb s)) by (intro; apply base_shell_inv; exact HI).
  constructor.
  - constructor; cbn; try reflexivity.
    + intro HN. rewrite HN. apply A10. exact HN.
    + intro HN. rewrite HN. apply A11. exact HN.
  - exists p, q. auto.
  - cbn. destruct (s1_bdef s) as [D|]; cbn; [rewrite HB; reflexivity|apply A10; reflexivity].
  - cbn. destruct (s1_fdef s) as [D|]; cbn; [reflexivity|apply A11; reflexivity].
  - cbn. unfold flange_axis, lam_height. destruct (s1_bdef s) as [D|]; [rewrite total_suml|]; reflexivity.
  - cbn. intro HN. unfold lam_height. destruct (s1_fdef s) as [D|]; [apply total_suml|congruence].
  - cbn. intro HN. unfold flange_torsion, lam_height. destruct (s1_fdef s) as [D|]; [rewrite total_suml; reflexivity|congruence].
  - intros D HD. cbn. rewrite HD. cbn. rewrite flange_ES_spec. cbn. auto.
Qed.
Lemma inv_set_s1 B i s t : inv B -> nth_error (by_s1 B0) i = Some s -> s1_inv s t -> inv (set_s1 B (set_at i t (by_s1 B))).
Proof. intros [] Hi Hq. constructor; cbn; auto. eapply Forall2_set_at; eassumption. Qed.

(* calls on the stiffener j, from the rebuilt stiffener on *)
Lemma re_s1_run j B1 B2 r : inv B1 -> re_s1 V j B1 = (B2, r) ->
  inv B2 /\ (forall u, r = Ok u -> exists s t h, nth_error (by_s1 B0) j = Some s /\ nth_error (by_s1 B2) j = Some t /\ s1_fresh s t h).
Proof.
  intros HI H. unfold re_s1, get_s1, bbind, bget, blift, put_s1, bmod in H.
  destruct (nth_error (by_s1 B1) j) as [t|] eqn:Et; [|apply pair_equal_spec in H; destruct H as [<- <-]; split; [exact HI|discriminate]].
  destruct (Forall2_nth _ _ _ _ _ (i_s1 _ HI) Et) as (s & Es & Hs).
  destruct (s1_rebuild V B1 t) as [t'|e] eqn:ER; [|apply pair_equal_spec in H; destruct H as [<- <-]; split; [exact HI|discriminate]].
  destruct (s1_rebuild_fresh _ _ _ _ HI Hs ER) as (h & HF). apply pair_equal_spec in H. destruct H as [<- <-].
  split; [eapply inv_set_s1; [exact HI|exact Es|exact (fr_inv _ _ _ HF)]|]. intros u _. exists s, t', h. split; [exact Es|].
  split; [|exact HF]. cbn. eapply nth_set_same. exact Et.
Qed.
Lemma s1_fresh_base s t h b : s1_fresh s t h -> s1_bdef s <> None -> s1_inv s (s1_with_base t b).
Proof. intros [[] ? ? ? ? ? ? ?] HN. constructor; cbn; auto. intro HH. congruence. Qed.

Definition pad_part (alone : nat -> nat -> panel -> matrix -> Prop) (N : nat) (s : stiff1) (h : R) (Kb : matrix) : Prop :=
  match s1_bdef s with None => Kb = (fun _ _ => 0) | Some D => alone N 0%nat (base_shell B0 D (s1_rho s) h (s1_ys s) (s1_bb s)) Kb end.
Definition flange_part (K : R -> list ply -> coo) (s : stiff1) (h : R) : matrix :=
  match s1_fdef s with None => fun _ _ => 0 | Some D => finalize_symmetric (dense (K h (b_plies V (ld_stack D) (ld_plyts D) (ld_props D)))) end.
(* the pad, then the flange *)
Definition s1_part (alone : nat -> nat -> panel -> matrix -> Prop) (K : stiff1 -> R -> list ply -> coo) (N : nat) (s : stiff1) (M : matrix) : Prop :=
  exists h Kb, beside B0 (s1_p1 s) (s1_p2 s) h /\ pad_part alone N s h Kb /\ forall r t, M r t = Kb r t + flange_part (K s) s h r t.
Definition kCf_of (s : stiff1) (h : R) (l : list ply) : coo :=
  fkCf (e_tables E) (e_basis E) (by_sh B0) (s1_ys s) (s1_bf s) (flange_axis s h) (flange_E1 l) (s1_bf s ^ 2 / 12 * flange_E1 l) (flange_S1 l) (flange_torsion s) 0 0.
Definition kGf_of (s : stiff1) (h : R) (l : list ply) : coo :=
  fkGf (e_tables E) (e_basis E) (by_sh B0) (s1_ys s) (default 0 (s1_Fx s)) 0 0.
Definition kMf_of (s : stiff1) (h : R) (l : list ply) : coo :=
  fkMf (e_tables E) (e_basis E) (by_sh B0) (s1_ys s) (s1_rho s) h 0 (lam_height (s1_fdef s)) (s1_bf s) (flange_axis s h) 0 0.

Lemma calc_kC_fin N o p p' K : calc_kC E (mkKargs (SInt N) o o false None None None None None false) p = (p', Ok K) -> alone_kC E N o p (finalize_symmetric K).
Proof.
  intro H. assert (HR : exists p1, rebuild E p = (p1, Ok tt)). { unfold calc_kC in H. unfold mbind at 1 in H. destruct (rebuild E p) as [p1 [[]|]]; [eauto|discriminate]. }
  destruct HR as [p1 HR]. pose proof (calc_kC_result E (SInt N) o false None false p p1 HR) as H1. pose proof (calc_kC_result E (SInt N) o true None false p p1 HR) as H2.
  rewrite H in H1. rewrite kC_result_fin, <- H1 in H2. cbn [rmap rbind snd] in H2. unfold alone_kC.
  destruct (calc_kC E (mkKargs (SInt N) o o true None None None None None false) p) as [q r]. exists q. cbn [snd] in H2. rewrite H2. reflexivity.
Qed.
Lemma finalize_oadd o K : finalize_symmetric (oval (oadd o K)) = fun r t => finalize_symmetric (oval o) r t + finalize_symmetric K r t.
Proof. extensionality r. extensionality t. unfold finalize_symmetric, oval, oadd. destruct o; destruct (r <=? t)%nat; cbn; lra. Qed.
Lemma finalize_none : finalize_symmetric (oval None) = fun _ _ => 0.
Proof. extensionality r. extensionality t. unfold finalize_symmetric. destruct (r <=? t)%nat; reflexivity. Qed.
Lemma coo_mat_run size M B B' r : coo_mat size M B = (B', r) -> B' = B /\ forall K, r = Ok K -> K = dense M.
Proof.
  unfold coo_mat, bbind, blift, to_shape. destruct (in_shape size M); cbn; intro H; apply pair_equal_spec in H; destruct H as [<- <-]; (split; [reflexivity|]); intros K HK; [injection HK as <-; reflexivity|discriminate].
Qed.
(* calls on the pad of the stiffener j *)
Lemma on_base1_run {A} (m : method A) j s t h B1 B2 r : inv B1 -> nth_error (by_s1 B0) j = Some s -> nth_error (by_s1 B1) j = Some t -> s1_fresh s t h ->
  on_base1 j m B1 = (B2, r) ->
  inv B2 /\ (exists t', nth_error (by_s1 B2) j = Some t' /\ exists b, t' = s1_with_base t b) /\
  (forall o, r = Ok o -> match s1_bdef s with
    | None => o = None
    | Some D => exists b' a, m (base_shell B0 D (s1_rho s) h (s1_ys s) (s1_bb s)) = (b', Ok a) /\ o = Some a end).
Proof.
  intros HI Es Et HF H. unfold on_base1, get_s1, bbind, put_s1, bmod, blift in H. rewrite Et, (fr_base _ _ _ HF) in H.
  destruct (s1_bdef s) as [D|] eqn:ED; cbn [option_map] in H.
  - destruct (m (base_shell B0 D (s1_rho s) h (s1_ys s) (s1_bb s))) as [b' r'] eqn:Em.
    assert (HI2 : inv (set_s1 B1 (set_at j (s1_with_base t (Some b')) (by_s1 B1)))).
    { eapply inv_set_s1; [exact HI|exact Es|]. eapply s1_fresh_base; [exact HF|rewrite ED; discriminate]. }
    assert (HN : nth_error (by_s1 (set_s1 B1 (set_at j (s1_with_base t (Some b')) (by_s1 B1)))) j = Some (s1_with_base t (Some b'))) by (cbn; eapply nth_set_same; exact Et).
    destruct r' as [a|e]; apply pair_equal_spec in H; destruct H as [<- <-].
    + split; [exact HI2|]. split; [exists (s1_with_base t (Some b')); split; [exact HN|eauto]|]. intros o Ho. injection Ho as <-. exists b', a. auto.
    + split; [exact HI2|]. split; [exists (s1_with_base t (Some b')); split; [exact HN|eauto]|]. discriminate.
  - apply pair_equal_spec in H. destruct H as [<- <-]. split; [exact HI|]. split.
    + exists t. split; [exact Et|]. exists (s1_base t). destruct t; reflexivity.
    + intros o Ho. injection Ho as <-. reflexivity.
Qed.

Lemma bind_run {A C} (x : bmethod A) (f : A -> bmethod C) B B' r : bbind x f B = (B', r) ->
  (exists B1 a, x B = (B1, Ok a) /\ f a B1 = (B', r)) \/ (exists e, x B = (B', Err e) /\ r = Err e).
Proof.
  unfold bbind. destruct (x B) as [B1 [a|e]]; intro H; [left; eauto|right].
  apply pair_equal_spec in H. destruct H as [<- <-]. eauto.
Qed.
Lemma get_s1_run j B B' r t : nth_error (by_s1 B) j = Some t -> get_s1 j B = (B', r) -> B' = B /\ r = Ok t.
Proof. unfold get_s1. intros -> H. apply pair_equal_spec in H. destruct H as [<- <-]. auto. Qed.
Lemma get_run B B' r : bget B = (B', r) -> B' = B /\ r = Ok B.
Proof. intro H. apply pair_equal_spec in H. destruct H as [<- <-]. auto. Qed.
Lemma ret_run {A} (a : A) B B' r : bret a B = (B', r) -> B' = B /\ r = Ok a.
Proof. intro H. apply pair_equal_spec in H. destruct H as [<- <-]. auto. Qed.

Definition s1_post (alone : nat -> nat -> panel -> matrix -> Prop) (K : stiff1 -> R -> list ply -> coo) (N j : nat) (o : option matrix) : Prop :=
  exists s, nth_error (by_s1 B0) j = Some s /\ s1_part alone K N s (finalize_symmetric (oval o)).

Lemma ens_s1_kC N j : ens (s1_kC V N 0 0 j) (s1_post (alone_kC E) kCf_of N j).
Proof.
  intros B1 B2 r HI H. unfold s1_kC in H.
  destruct (bind_run _ _ _ _ _ H) as [(B3 & u & H1 & H2)|(e & H1 & ->)]; [|destruct (re_s1_run _ _ _ _ HI H1); split; [assumption|discriminate]].
  destruct (re_s1_run _ _ _ _ HI H1) as [HI3 HF]. destruct (HF u eq_refl) as (s & t & h & Es & Et & HFr). clear H H1 HF. rename H2 into H.
  destruct (bind_run _ _ _ _ _ H) as [(B4 & k0 & H1 & H2)|(e & H1 & ->)]; [|destruct (on_base1_run _ _ _ _ _ _ _ _ HI3 Es Et HFr H1) as [? _]; split; [assumption|discriminate]].
  destruct (on_base1_run _ _ _ _ _ _ _ _ HI3 Es Et HFr H1) as (HI4 & (t' & Et' & b & ->) & HB). specialize (HB k0 eq_refl). clear H. rename H2 into H.
  destruct (bind_run _ _ _ _ _ H) as [(B5 & t5 & H3 & H4)|(e & H3 & ->)]; [|destruct (get_s1_run _ _ _ _ _ Et' H3); discriminate].
  destruct (get_s1_run _ _ _ _ _ Et' H3) as [-> Hx]. injection Hx as ->. clear H H3. rename H4 into H.
  destruct (bind_run _ _ _ _ _ H) as [(B5 & B6 & H3 & H4)|(e & H3 & ->)]; [|destruct (get_run _ _ _ H3); discriminate].
  destruct (get_run _ _ _ H3) as [-> Hx]. injection Hx as ->. clear H H3. rename H4 into H.
  assert (HPad : pad_part (alone_kC E) N s h (finalize_symmetric (oval k0))).
  { unfold pad_part. destruct (s1_bdef s) as [D|]; [|subst k0; apply finalize_none]. destruct HB as (b' & a & Hm & ->). exact (calc_kC_fin _ _ _ _ _ Hm). }
  cbn [s1_with_base s1_flam] in H. rewrite (fr_flam _ _ _ HFr) in H. destruct (s1_fdef s) as [D|] eqn:ED; cbn [option_map] in H.
  - destruct (bind_run _ _ _ _ _ H) as [(B5 & k1 & H3 & H4)|(e & H3 & ->)]; [|destruct (coo_mat_run _ _ _ _ _ H3) as [-> _]; split; [assumption|discriminate]].
    destruct (coo_mat_run _ _ _ _ _ H3) as [-> HK]. specialize (HK k1 eq_refl). destruct (ret_run _ _ _ _ H4) as [-> ->]. split; [exact HI4|].
    intros o Ho. injection Ho as <-. exists s. split; [exact Es|]. exists h, (finalize_symmetric (oval k0)). split; [exact (fr_h _ _ _ HFr)|]. split; [exact HPad|].
    intros x y. rewrite finalize_oadd. unfold flange_part. rewrite ED, HK. unfold kCf_of. cbn [s1_with_base s1_ys s1_bf s1_dbf s1_E1 s1_F1 s1_S1 s1_Jxx].
    destruct (fr_E _ _ _ HFr D ED) as (-> & -> & ->). rewrite (fr_dbf _ _ _ HFr), (fr_J _ _ _ HFr) by (rewrite ED; discriminate). rewrite (i_sh _ HI4).
    destruct (fr_inv _ _ _ HFr) as [_ _ _ -> _ -> _ _ _ _ _]. reflexivity.
  - destruct (ret_run _ _ _ _ H) as [-> ->]. split; [exact HI4|]. intros o Ho. injection Ho as <-. exists s. split; [exact Es|].
    exists h, (finalize_symmetric (oval k0)). split; [exact (fr_h _ _ _ HFr)|]. split; [exact HPad|]. intros x y. unfold flange_part. rewrite ED. lra.
Qed.
Lemma ens_s1_kM N j : ens (s1_kM V N 0 0 j) (s1_post (fun N o p K => exists p', calc_kM E (SInt N) o o None None None None true p = (p', Ok K)) kMf_of N j).
Proof.
  intros B1 B2 r HI H. unfold s1_kM in H.
  destruct (bind_run _ _ _ _ _ H) as [(B3 & u & H1 & H2)|(e & H1 & ->)]; [|destruct (re_s1_run _ _ _ _ HI H1); split; [assumption|discriminate]].
  destruct (re_s1_run _ _ _ _ HI H1) as [HI3 HF]. destruct (HF u eq_refl) as (s & t & h & Es & Et & HFr). clear H H1 HF. rename H2 into H.
  destruct (bind_run _ _ _ _ _ H) as [(B4 & k0 & H1 & H2)|(e & H1 & ->)]; [|destruct (on_base1_run _ _ _ _ _ _ _ _ HI3 Es Et HFr H1) as [? _]; split; [assumption|discriminate]].
  destruct (on_base1_run _ _ _ _ _ _ _ _ HI3 Es Et HFr H1) as (HI4 & (t' & Et' & b & ->) & HB). specialize (HB k0 eq_refl). clear H. rename H2 into H.
  destruct (bind_run _ _ _ _ _ H) as [(B5 & t5 & H3 & H4)|(e & H3 & ->)]; [|destruct (get_s1_run _ _ _ _ _ Et' H3); discriminate].
  destruct (get_s1_run _ _ _ _ _ Et' H3) as [-> Hx]. injection Hx as ->. clear H H3. rename H4 into H.
  destruct (bind_run _ _ _ _ _ H) as [(B5 & B6 & H3 & H4)|(e & H3 & ->)]; [|destruct (get_run _ _ _ H3); discriminate].
  destruct (get_run _ _ _ H3) as [-> Hx]. injection Hx as ->. clear H H3. rename H4 into H.
  (* a base shell has no model: calc_kM raises *)
  assert (HB' : s1_bdef s = None /\ k0 = None).
  { destruct (s1_bdef s) as [D|]; [|auto]. exfalso. destruct HB as (b' & a & Hm & _). unfold calc_kM in Hm. discriminate Hm. }
  destruct HB' as [EB ->]. assert (HPad : pad_part (fun N o p K => exists p', calc_kM E (SInt N) o o None None None None true p = (p', Ok K)) N s h (fun _ _ => 0)).
  { unfold pad_part. rewrite EB. reflexivity. }
  cbn [s1_with_base s1_flam] in H. rewrite (fr_flam _ _ _ HFr) in H. destruct (s1_fdef s) as [D|] eqn:ED; cbn [option_map] in H.
  - destruct (bind_run _ _ _ _ _ H) as [(B5 & h' & H3 & H4)|(e & H3 & ->)]; [|apply pair_equal_spec in H3; destruct H3 as [<- _]; split; [assumption|discriminate]].
    apply pair_equal_spec in H3. destruct H3 as [<- H3]. cbn [s1_with_base s1_p1 s1_p2] in H3.
    destruct (two_panels_ok _ _ _ _ _ HI4 H3) as (p & q & p' & q' & Ep & Eq & _ & _ & Hp & Hq & _ & HH). injection HH as HH. rewrite (skin_h_inv _ _ _ _ Hp Hq) in HH.
    assert (Hh : h' = h). { destruct (fr_h _ _ _ HFr) as (p2 & q2 & E1 & E2 & ->). destruct (fr_inv _ _ _ HFr) as [I1 I2 _ _ _ _ _ _ _ _ _]. rewrite I1 in Ep. rewrite I2 in Eq. congruence. }
    subst h'. rewrite Hh in H4.
    destruct (bind_run _ _ _ _ _ H4) as [(B6 & k1 & H5 & H6)|(e & H5 & ->)]; [|destruct (coo_mat_run _ _ _ _ _ H5) as [-> _]; split; [assumption|discriminate]].
    destruct (coo_mat_run _ _ _ _ _ H5) as [-> HK]. specialize (HK k1 eq_refl). destruct (ret_run _ _ _ _ H6) as [-> ->]. split; [exact HI4|].
    intros o Ho. injection Ho as <-. exists s. split; [exact Es|]. exists h, (fun _ _ => 0). split; [exact (fr_h _ _ _ HFr)|]. split; [exact HPad|].
    intros x y. rewrite finalize_oadd, finalize_none. unfold flange_part. rewrite ED, HK. unfold kMf_of. cbn [s1_with_base s1_ys s1_bf s1_dbf s1_rho s1_hf].
    rewrite (fr_dbf _ _ _ HFr), (fr_hf _ _ _ HFr) by (rewrite ED; discriminate). rewrite (i_sh _ HI4), ED.
    destruct (fr_inv _ _ _ HFr) as [_ _ -> -> _ -> _ _ _ _ _]. reflexivity.
  - destruct (ret_run _ _ _ _ H) as [-> ->]. split; [exact HI4|]. intros o Ho. injection Ho as <-. exists s. split; [exact Es|].
    exists h, (fun _ _ => 0). split; [exact (fr_h _ _ _ HFr)|]. split; [exact HPad|]. intros x y. unfold flange_part. rewrite ED, finalize_none. lra.
Qed.
Lemma ens_s1_kG c N j : ens (s1_kG V c N 0 0 j) (fun o => c = None /\ exists s h, nth_error (by_s1 B0) j = Some s /\ forall x y, finalize_symmetric (oval o) x y = flange_part (kGf_of s) s h x y).
Proof.
  intros B1 B2 r HI H. unfold s1_kG in H. destruct c as [c|]; [apply pair_equal_spec in H; destruct H as [<- <-]; split; [assumption|discriminate]|].
  destruct (bind_run _ _ _ _ _ H) as [(B3 & u & H1 & H2)|(e & H1 & ->)]; [|destruct (re_s1_run _ _ _ _ HI H1); split; [assumption|discriminate]].
  destruct (re_s1_run _ _ _ _ HI H1) as [HI3 HF]. destruct (HF u eq_refl) as (s & t & h & Es & Et & HFr). clear H H1 HF. rename H2 into H.
  destruct (bind_run _ _ _ _ _ H) as [(B5 & t5 & H3 & H4)|(e & H3 & ->)]; [|destruct (get_s1_run _ _ _ _ _ Et H3); discriminate].
  destruct (get_s1_run _ _ _ _ _ Et H3) as [-> Hx]. injection Hx as ->. clear H H3. rename H4 into H.
  destruct (bind_run _ _ _ _ _ H) as [(B5 & B6 & H3 & H4)|(e & H3 & ->)]; [|destruct (get_run _ _ _ H3); discriminate].
  destruct (get_run _ _ _ H3) as [-> Hx]. injection Hx as ->. clear H H3. rename H4 into H.
  rewrite (fr_flam _ _ _ HFr) in H. destruct (s1_fdef s) as [D|] eqn:ED; cbn [option_map] in H.
  - destruct (bind_run _ _ _ _ _ H) as [(B5 & k1 & H3 & H4)|(e & H3 & ->)]; [|destruct (coo_mat_run _ _ _ _ _ H3) as [-> _]; split; [assumption|discriminate]].
    destruct (coo_mat_run _ _ _ _ _ H3) as [-> HK]. specialize (HK k1 eq_refl). destruct (ret_run _ _ _ _ H4) as [-> ->]. split; [exact HI3|].
    intros o Ho. injection Ho as <-. split; [reflexivity|]. exists s, h. split; [exact Es|]. intros x y. unfold flange_part. rewrite ED, HK. unfold kGf_of.
    rewrite (i_sh _ HI3). destruct (fr_inv _ _ _ HFr) as [_ _ _ -> _ _ _ _ -> _ _]. reflexivity.
  - destruct (ret_run _ _ _ _ H) as [-> ->]. split; [exact HI3|]. intros o Ho. injection Ho as <-. split; [reflexivity|]. exists s, h. split; [exact Es|].
    intros x y. unfold flange_part. rewrite ED, finalize_none. reflexivity.
Qed.

(* ------------------------------------------------- stiffeners with freedoms of their own *)
Lemma f_inv_rebuild p q : f_inv p q -> f_inv p (fst (rebuild E q)).
Proof.
  intros HF. pose proof HF as [H1 H2]. split; [eapply alike_trans; [exact H1|apply rebuild_alike]|]. intro HN. rewrite <- (H2 HN). apply rebuild_plyts. exact (kept_inv _ _ HF HN).
Qed.
Lemma f_inv_soft {A} (m : method A) p q : soft m -> known q -> f_inv p q -> f_inv p (fst (m q)).
Proof.
  intros Hm Hk [H1 H2]. pose proof (Hm q Hk) as He. split; [eapply alike_trans; [exact H1|apply eqv_alike; exact He]|].
  intro HN. rewrite (eq_plyts _ _ He). exact (H2 HN).
Qed.
Lemma f_inv_after_rebuild {A} (m : method A) p q : soft m -> f_inv p q -> f_inv p (fst (mbind (rebuild E) (fun _ => m) q)).
Proof.
  intros Hm Hf. pose proof (f_inv_rebuild _ _ Hf) as H1. unfold mbind. destruct (rebuild E q) as [q1 [u|e]] eqn:ER; [|exact H1].
  apply f_inv_soft; [exact Hm|eapply rebuild_known; exact ER|exact H1].
Qed.
Lemma f_inv_kC A p q : f_inv p q -> f_inv p (fst (calc_kC E A q)).
Proof. rewrite kC_split. apply f_inv_after_rebuild. apply soft_kC. Qed.
Lemma f_inv_kG A p q : f_inv p q -> f_inv p (fst (calc_kG E A q)).
Proof. rewrite kG_split. apply f_inv_after_rebuild. apply soft_kG. Qed.
Lemma f_inv_kM N o fin p q : f_inv p q -> f_inv p (fst (calc_kM E (SInt N) o o None None None None fin q)).
Proof.
  intro H. destruct (pn_model q) as [[mdl|]|] eqn:Hq.
  - apply f_inv_soft; [apply soft_kM|exists mdl; exact Hq|exact H].
  - replace (fst (calc_kM E (SInt N) o o None None None None fin q)) with q; [exact H|]. unfold calc_kM, mbind, the_model, mget. cbn. rewrite Hq. reflexivity.
  - replace (fst (calc_kM E (SInt N) o o None None None None fin q)) with q; [exact H|]. unfold calc_kM, mbind, the_model, mget. cbn. rewrite Hq. reflexivity.
Qed.
Lemma f_inv_set_lam p q l A : f_inv p q -> f_inv p (set_lam q l A).
Proof. intros [H1 H2]. split; [eapply alike_trans; [exact H1|constructor; try reflexivity; constructor; reflexivity]|exact H2]. Qed.
Lemma f_inv_size p q : f_inv p q -> f_inv p (fst (get_size q)).
Proof.
  intro H. destruct (pn_model q) as [[mdl|]|] eqn:Hq.
  - apply f_inv_soft; [apply soft_get_size|exists mdl; exact Hq|exact H].
  - replace (fst (get_size q)) with q; [exact H|]. unfold get_size, mbind, the_model, mget. cbn. rewrite Hq. reflexivity.
  - replace (fst (get_size q)) with q; [exact H|]. unfold get_size, mbind, the_model, mget. cbn. rewrite Hq. reflexivity.
Qed.
Lemma f_inv_lam p q q1 : f_inv p q -> rebuild E q = (q1, Ok tt) -> pn_lam q1 = Some (rebuilt_lam E p).
Proof.
  intros [[Hi _ _ _ _ _ A7 A8 A9 _ _] _] H. destruct (rebuild_inv _ _ _ _ H) as (_ & _ & _ & _ & _ & _ & B7 & _). rewrite B7. unfold rebuilt_lam. destruct Hi.
  rewrite si_stack, A7, A8, A9, si_offset. reflexivity.
Qed.
Lemma inv_set_s2 B i s t : inv B -> nth_error (by_s2 B0) i = Some s -> s2_inv s t -> inv (set_s2 B (set_at i t (by_s2 B))).
Proof. intros [] Hi Hq. constructor; cbn; auto. eapply Forall2_set_at; eassumption. Qed.
Lemma s2_with_inv s t b f : s2_inv s t -> orel f_inv (s2_base s) b -> orel f_inv (s2_flange s) f -> s2_inv s (s2_with t b f).
Proof. intros [] Hb Hf. constructor; cbn; auto. Qed.
Lemma re_s2_run j B1 B2 r : inv B1 -> re_s2 V j B1 = (B2, r) -> inv B2.
Proof.
  intros HI H. unfold re_s2, get_s2, bbind, bget, blift, put_s2, bmod in H.
  destruct (nth_error (by_s2 B1) j) as [t|] eqn:Et; [|apply pair_equal_spec in H; destruct H as [<- <-]; exact HI].
  destruct (Forall2_nth _ _ _ _ _ (i_s2 _ HI) Et) as (s & Es & Hs).
  destruct (s2_rebuild V B1 t) as [t'|e] eqn:ER; [|apply pair_equal_spec in H; destruct H as [<- <-]; exact HI].
  apply pair_equal_spec in H. destruct H as [<- <-]. eapply inv_set_s2; [exact HI|exact Es|].
  unfold s2_rebuild in ER. destruct (two_panels_ok _ _ _ _ _ HI ER) as (p & q & p' & q' & _ & _ & _ & _ & _ & _ & _ & HF).
  apply (f_equal (fun x => match x with Ok y => y | Err _ => t end)) in HF. cbv beta iota zeta in HF. subst t'. pose proof Hs as [_ _ _ _ _ Hb Hf].
  apply s2_with_inv; [exact Hs| |].
  - destruct (s2_base s) as [b|], (s2_base t) as [b'|]; cbn in Hb |- *; try contradiction; [|exact I].
    destruct (s2_bdef t); [apply f_inv_set_lam|]; exact Hb.
  - destruct (s2_flange s) as [b|], (s2_flange t) as [b'|]; cbn in Hf |- *; try contradiction; [|exact I]. apply f_inv_set_lam. exact Hf.
Qed.
Lemma ens_re_s2 j : ens (re_s2 V j) (fun _ => True).
Proof. intros B1 B2 r HI H. split; [eapply re_s2_run; eassumption|auto]. Qed.
Lemma ens_re_s1 j : ens (re_s1 V j) (fun _ => True).
Proof. intros B1 B2 r HI H. destruct (re_s1_run _ _ _ _ HI H). split; [assumption|auto]. Qed.
(* calls on the flange or the pad *)
Lemma on_flange_run {A} (m : method A) j B1 B2 r : inv B1 -> (forall p q, f_inv p q -> f_inv p (fst (m q))) -> on_flange j m B1 = (B2, r) ->
  inv B2 /\ forall o, r = Ok o -> exists s t, nth_error (by_s2 B0) j = Some s /\ s2_inv s t /\ nth_error (by_s2 B1) j = Some t /\
    match s2_flange s with
    | None => o = None /\ B2 = B1
    | Some p => exists q q' a, f_inv p q /\ m q = (q', Ok a) /\ o = Some a /\ nth_error (by_s2 B2) j = Some (s2_with t (s2_base t) (Some q')) /\
        B2 = set_s2 B1 (set_at j (s2_with t (s2_base t) (Some q')) (by_s2 B1))
    end.
Proof.
  intros HI Hm H. unfold on_flange, get_s2, bbind, put_s2, bmod, blift in H.
  destruct (nth_error (by_s2 B1) j) as [t|] eqn:Et; [|apply pair_equal_spec in H; destruct H as [<- <-]; split; [exact HI|discriminate]].
  destruct (Forall2_nth _ _ _ _ _ (i_s2 _ HI) Et) as (s & Es & Hs). pose proof (s2i_flange _ _ Hs) as Hf.
  destruct (s2_flange s) as [p|] eqn:Ep, (s2_flange t) as [q|] eqn:Eq; cbn in Hf; try contradiction.
  - destruct (m q) as [q' r'] eqn:Em.
    assert (HI2 : inv (set_s2 B1 (set_at j (s2_with t (s2_base t) (Some q')) (by_s2 B1)))).
    { eapply inv_set_s2; [exact HI|exact Es|]. apply s2_with_inv; [exact Hs|exact (s2i_base _ _ Hs)|]. rewrite Ep. cbn. pose proof (Hm p q Hf) as HH. rewrite Em in HH. exact HH. }
    destruct r' as [a|e]; apply pair_equal_spec in H; destruct H as [<- <-].
    + split; [exact HI2|]. intros o Ho. injection Ho as <-. exists s, t. split; [exact Es|]. split; [exact Hs|]. split; [reflexivity|]. rewrite Ep. exists q, q', a.
      split; [exact Hf|]. split; [exact Em|]. split; [reflexivity|]. split; [cbn; eapply nth_set_same; exact Et|reflexivity].
    + split; [exact HI2|discriminate].
  - apply pair_equal_spec in H. destruct H as [<- <-]. split; [exact HI|]. intros o Ho. injection Ho as <-. exists s, t. split; [exact Es|]. split; [exact Hs|]. split; [reflexivity|]. rewrite Ep. auto.
Qed.
Lemma on_base2_run {A} (m : method A) j B1 B2 r : inv B1 -> (forall p q, f_inv p q -> f_inv p (fst (m q))) -> on_base2 j m B1 = (B2, r) ->
  inv B2 /\ forall o, r = Ok o -> exists s t, nth_error (by_s2 B0) j = Some s /\ s2_inv s t /\ nth_error (by_s2 B1) j = Some t /\
    match s2_base s with
    | None => o = None /\ B2 = B1
    | Some p => exists q q' a, f_inv p q /\ m q = (q', Ok a) /\ o = Some a /\ nth_error (by_s2 B2) j = Some (s2_with t (Some q') (s2_flange t)) /\
        B2 = set_s2 B1 (set_at j (s2_with t (Some q') (s2_flange t)) (by_s2 B1))
    end.
Proof.
  intros HI Hm H. unfold on_base2, get_s2, bbind, put_s2, bmod, blift in H.
  destruct (nth_error (by_s2 B1) j) as [t|] eqn:Et; [|apply pair_equal_spec in H; destruct H as [<- <-]; split; [exact HI|discriminate]].
  destruct (Forall2_nth _ _ _ _ _ (i_s2 _ HI) Et) as (s & Es & Hs). pose proof (s2i_base _ _ Hs) as Hf.
  destruct (s2_base s) as [p|] eqn:Ep, (s2_base t) as [q|] eqn:Eq; cbn in Hf; try contradiction.
  - destruct (m q) as [q' r'] eqn:Em.
    assert (HI2 : inv (set_s2 B1 (set_at j (s2_with t (Some q') (s2_flange t)) (by_s2 B1)))).
    { eapply inv_set_s2; [exact HI|exact Es|]. apply s2_with_inv; [exact Hs| |exact (s2i_flange _ _ Hs)]. rewrite Ep. cbn. pose proof (Hm p q Hf) as HH. rewrite Em in HH. exact HH. }
    destruct r' as [a|e]; apply pair_equal_spec in H; destruct H as [<- <-].
    + split; [exact HI2|]. intros o Ho. injection Ho as <-. exists s, t. split; [exact Es|]. split; [exact Hs|]. split; [reflexivity|]. rewrite Ep. exists q, q', a.
      split; [exact Hf|]. split; [exact Em|]. split; [reflexivity|]. split; [cbn; eapply nth_set_same; exact Et|reflexivity].
    + split; [exact HI2|discriminate].
  - apply pair_equal_spec in H. destruct H as [<- <-]. split; [exact HI|]. intros o Ho. injection Ho as <-. exists s, t. split; [exact Es|]. split; [exact Hs|]. split; [reflexivity|]. rewrite Ep. auto.
Qed.

Lemma kC_alone N o p q q' K : alike p q -> calc_kC E (mkKargs (SInt N) o o false None None None None None false) q = (q', Ok K) -> alone_kC E N o p (finalize_symmetric K).
Proof.
  intros HA H. pose proof (kC_alike E (mkKargs (SInt N) o o false None None None None None false) p q HA) as HK. rewrite H in HK.
  destruct (calc_kC E (mkKargs (SInt N) o o false None None None None None false) p) as [p' r] eqn:Ep. cbn [snd] in HK. subst r. exact (calc_kC_fin _ _ _ _ _ Ep).
Qed.
Lemma kG_alone c N o p q q' K : alike p q -> calc_kG E (mkKargs (SInt N) o o false c None None None None false) q = (q', Ok K) -> alone_kG E c N o p (finalize_symmetric K).
Proof.
  intros HA H. pose proof (kG_alike E (mkKargs (SInt N) o o false c None None None None false) p q HA) as HK. rewrite H in HK. cbn [snd] in HK.
  assert (HR : exists p1, rebuild E p = (p1, Ok tt)). { unfold calc_kG in HK. unfold mbind at 1 in HK. destruct (rebuild E p) as [p1 [[]|]]; [eauto|discriminate]. }
  destruct HR as [p1 HR]. pose proof (calc_kG_result E (SInt N) o false c false p p1 HR) as H1. pose proof (calc_kG_result E (SInt N) o true c false p p1 HR) as H2.
  rewrite <- HK in H1. rewrite kG_result_fin, <- H1 in H2. cbn [rmap rbind] in H2. unfold alone_kG.
  destruct (calc_kG E (mkKargs (SInt N) o o true c None None None None false) p) as [x r]. exists x. cbn [snd] in H2. rewrite H2. reflexivity.
Qed.
(* the mass matrix is not rebuilt before it is computed *)
Definition kM_of (N o : nat) (p : panel) (K : matrix) : Prop :=
  K = finalize_symmetric (dense (fkM (chosen_model p) (e_tables E) (kernel_view p) (pn_rho p) (suml (pn_plyts p) (fun t => t)) (pn_offset p) o o)).
Lemma kM_alone N o p q q' K : f_inv p q -> kept p -> calc_kM E (SInt N) o o None None None None false q = (q', Ok K) -> kM_of N o p (finalize_symmetric K).
Proof.
  intros [HA HP] HN H. pose proof (calc_kM_inv _ _ _ _ _ _ _ _ _ _ _ _ H) as (mdl & kM & HR). destruct HR as [Hs Hm Hr HK _ _ HkM].
  cbn in HkM. destruct HkM as [(_ & _ & _ & HkM)|([HH|HH] & _)]; [|congruence|congruence].
  unfold kM_of. rewrite HK. cbn [finalized]. f_equal. f_equal. rewrite HkM. rewrite <- (total_suml (pn_plyts p)). unfold total. rewrite <- (HP HN).
  destruct HA as [[]]. rewrite si_rho, si_offset.
  assert (Hq : mdl = chosen_model p).
  { assert (Hmq : pn_model q = Some (Known mdl)). { destruct Hs. congruence. }
    unfold status in al_model. rewrite Hmq in al_model. destruct (pn_model p) as [[mp|]|] eqn:Emp; try discriminate; injection al_model as <-; unfold chosen_model; rewrite Hmq; reflexivity. }
  rewrite <- Hq, <- (fkM_bare _ _ (kernel_view q')), <- (fkM_bare _ _ (kernel_view p)). f_equal.
  unfold bare, kernel_view. cbn. assert (Hsh : pn_sh q' = pn_sh p) by (destruct Hs as [[]]; congruence). rewrite Hsh, Hr. unfold r0 in al_r. unfold default. rewrite al_r. reflexivity.
Qed.
Definition root_lam (s : stiff2) (l : laminate) : Prop :=
  match s2_base s with Some b => l = rebuilt_lam E b | None => exists p, nth_error (by_panels B0) (s2_p1 s) = Some p /\ l = rebuilt_lam E p end.
Definition joint (s : stiff2) (q : panel) (l : laminate) (o : nat) : matrix :=
  let lq := rebuilt_lam E q in
  let kk := kt_kr Ycte l lq 0 0 in
  finalize_symmetric (dense (skin_flange (e_tables E) (e_basis E) (fst kk) (default 0 (snd kk)) (by_sh B0) (pn_sh q) (s2_ys s) 0 o)).
Definition s2_part (alone : nat -> nat -> panel -> matrix -> Prop) (joined : bool) (N o : nat) (s : stiff2) (M : matrix) : Prop :=
  exists Kb Kf, match s2_base s with None => Kb = (fun _ _ => 0) | Some b => alone N 0%nat b Kb end /\
    match s2_flange s with
    | None => Kf = (fun _ _ => 0)
    | Some q => exists K l, alone N o q K /\ root_lam s l /\ forall r t, Kf r t = K r t + (if joined then joint s q l o r t else 0)
    end /\ forall r t, M r t = Kb r t + Kf r t.
Lemma s2_inv_again B j s t s' t' : inv B -> nth_error (by_s2 B0) j = Some s -> nth_error (by_s2 B0) j = Some s' -> nth_error (by_s2 B) j = Some t -> nth_error (by_s2 B) j = Some t' -> s = s' /\ t = t'.
Proof. intros. split; congruence. Qed.

Lemma ens_s2_kC N o j : ens (s2_kC V N o o j) (fun out => exists s, nth_error (by_s2 B0) j = Some s /\ s2_part (alone_kC E) true N o s (finalize_symmetric (oval out))).
Proof.
  intros B1 B2 r HI H. unfold s2_kC in H. cbv zeta in H.
  destruct (bind_run _ _ _ _ _ H) as [(B3 & u & H1 & H2)|(e & H1 & ->)]; [|split; [exact (re_s2_run _ _ _ _ HI H1)|discriminate]].
  assert (HI3 := re_s2_run _ _ _ _ HI H1). clear H H1. rename H2 into H.
  destruct (bind_run _ _ _ _ _ H) as [(B4 & k0 & H1 & H2)|(e & H1 & ->)]; [|destruct (on_base2_run _ _ _ _ _ HI3 (f_inv_kC _) H1); split; [assumption|discriminate]].
  destruct (on_base2_run _ _ _ _ _ HI3 (f_inv_kC _) H1) as [HI4 Hb]. destruct (Hb k0 eq_refl) as (s & t & Es & Hs & Et & HB). clear H H1 Hb. rename H2 into H.
  destruct (bind_run _ _ _ _ _ H) as [(B5 & kf & H1 & H2)|(e & H1 & ->)]; [|destruct (on_flange_run _ _ _ _ _ HI4 (f_inv_kC _) H1); split; [assumption|discriminate]].
  destruct (on_flange_run _ _ _ _ _ HI4 (f_inv_kC _) H1) as [HI5 Hb]. destruct (Hb kf eq_refl) as (s' & t' & Es' & Hs' & Et' & HF). clear H H1 Hb. rename H2 into H.
  assert (s' = s) by congruence. subst s'.
  assert (HPb : match s2_base s with None => finalize_symmetric (oval k0) = (fun _ _ => 0) | Some b => alone_kC E N 0%nat b (finalize_symmetric (oval k0)) end).
  { destruct (s2_base s) as [b|]; [|destruct HB as [-> _]; apply finalize_none]. destruct HB as (q & q' & a & [Hq _] & Hc & -> & _). exact (kC_alone _ _ _ _ _ _ Hq Hc). }
  destruct (s2_flange s) as [fl|] eqn:Efl.
  2:{ destruct HF as [-> _]. destruct (ret_run _ _ _ _ H) as [-> ->]. split; [exact HI5|]. intros out Ho. injection Ho as <-. exists s. split; [exact Es|].
      exists (finalize_symmetric (oval k0)), (fun _ _ => 0). split; [exact HPb|]. rewrite Efl. split; [reflexivity|]. intros; lra. }
  destruct HF as (q & q' & Kf & Hq & Hc & -> & _ & _).
  (* both laminates *)
  destruct (bind_run _ _ _ _ _ H) as [(B6 & s0 & H1 & H2)|(e & H1 & ->)].
  2:{ unfold get_s2 in H1. destruct (nth_error (by_s2 B5) j); [discriminate|]. apply pair_equal_spec in H1. destruct H1 as [<- _]. split; [assumption|discriminate]. }
  assert (H1' : B6 = B5 /\ nth_error (by_s2 B5) j = Some s0). { unfold get_s2 in H1. destruct (nth_error (by_s2 B5) j); [|discriminate]. apply pair_equal_spec in H1. destruct H1 as [<- H1]. injection H1 as ->. auto. }
  destruct H1' as [-> Es0]. clear H H1. rename H2 into H.
  destruct (Forall2_nth _ _ _ _ _ (i_s2 _ HI5) Es0) as (s'' & Es'' & Hs0). assert (s'' = s) by congruence. subst s''.
  match type of H with bbind ?x _ _ = _ => set (step := x) in H end.
  assert (HS : forall B6 r6, step B5 = (B6, r6) -> inv B6 /\ forall u, r6 = Ok u ->
     match s2_base s with
     | None => nth_error (by_s2 B6) j = Some s0 /\ exists p p', nth_error (by_panels B0) (s2_p1 s) = Some p /\ nth_error (by_panels B6) (s2_p1 s) = Some p' /\ p_inv p p'
     | Some b => exists b', nth_error (by_s2 B6) j = Some (s2_with s0 (Some b') (s2_flange s0)) /\ pn_lam b' = Some (rebuilt_lam E b)
     end).
  { intros B6 r6 H6. unfold step in H6. pose proof (s2i_base _ _ Hs0) as Hbb. destruct (s2_base s) as [b|] eqn:Eb, (s2_base s0) as [b0|] eqn:Eb0; cbn in Hbb; try contradiction.
    - destruct (bind_run _ _ _ _ _ H6) as [(B7 & u7 & H7 & H8)|(e & H7 & ->)]; [|destruct (on_base2_run _ _ _ _ _ HI5 f_inv_rebuild H7); split; [assumption|discriminate]].
      destruct (on_base2_run _ _ _ _ _ HI5 f_inv_rebuild H7) as [HI7 Hx]. destruct (Hx u7 eq_refl) as (s7 & t7 & Es7 & Hs7 & Et7 & HB7).
      assert (s7 = s) by congruence. subst s7. assert (t7 = s0) by congruence. subst t7. rewrite Eb in HB7. destruct HB7 as (q7 & q7' & [] & Hq7 & Hr7 & _ & HN7 & _).
      destruct (ret_run _ _ _ _ H8) as [-> ->]. split; [exact HI7|]. intros u8 _. exists q7'. split; [exact HN7|]. exact (f_inv_lam _ _ _ Hq7 Hr7).
    - destruct (ens_skin (rebuild E) (fun _ _ => True) (s2_p1 s0) (fun p q q' r Hp Hr => conj (proj1 (skin_rebuild p q q' r Hp Hr)) (fun _ _ => I)) _ _ _ HI5 H6) as [HI6 Hx].
      split; [exact HI6|]. intros u8 Hu. unfold on_skin in H6. destruct (nth_error (by_panels B5) (s2_p1 s0)) as [p5|] eqn:E5; [|apply pair_equal_spec in H6; destruct H6 as [_ <-]; discriminate].
      destruct (rebuild E p5) as [p6 r7] eqn:E6. apply pair_equal_spec in H6. destruct H6 as [<- <-]. split; [exact Es0|].
      destruct (Forall2_nth _ _ _ _ _ (i_panels _ HI5) E5) as (p & Ep & Hp). rewrite (s2i_p1 _ _ Hs0) in *. exists p, p6. split; [exact Ep|]. split; [cbn; eapply nth_set_same; exact E5|].
      exact (proj1 (skin_rebuild _ _ _ _ Hp E6)). }
  destruct (bind_run _ _ _ _ _ H) as [(B6 & u6 & H1 & H2)|(e & H1 & ->)]; [|destruct (HS _ _ H1); split; [assumption|discriminate]].
  destruct (HS _ _ H1) as [HI6 HL]. specialize (HL u6 eq_refl). clear H H1 HS step. rename H2 into H.
  destruct (bind_run _ _ _ _ _ H) as [(B7 & u7 & H1 & H2)|(e & H1 & ->)]; [|destruct (on_flange_run _ _ _ _ _ HI6 f_inv_rebuild H1); split; [assumption|discriminate]].
  destruct (on_flange_run _ _ _ _ _ HI6 f_inv_rebuild H1) as [HI7 Hx]. destruct (Hx u7 eq_refl) as (s7 & t7 & Es7 & Hs7 & Et7 & HB7). clear H H1 Hx. rename H2 into H.
  assert (s7 = s) by congruence. subst s7. rewrite Efl in HB7. destruct HB7 as (q7 & q7' & [] & Hq7 & Hr7 & _ & HN7 & HB7).
  assert (HLq := f_inv_lam _ _ _ Hq7 Hr7).
  destruct (bind_run _ _ _ _ _ H) as [(B8 & s8 & H1 & H2)|(e & H1 & ->)]; [|unfold get_s2 in H1; rewrite HN7 in H1; discriminate].
  unfold get_s2 in H1. rewrite HN7 in H1. apply pair_equal_spec in H1. destruct H1 as [<- H1]. injection H1 as <-. clear H. rename H2 into H.
  destruct (bind_run _ _ _ _ _ H) as [(B8 & b8 & H1 & H2)|(e & H1 & ->)]; [|destruct (get_run _ _ _ H1); discriminate].
  destruct (get_run _ _ _ H1) as [-> Hb8]. injection Hb8 as ->. clear H H1. rename H2 into H.
  destruct (bind_run _ _ _ _ _ H) as [(B8 & kk & H1 & H2)|(e & H1 & ->)]; [|apply pair_equal_spec in H1; destruct H1 as [<- _]; split; [assumption|discriminate]].
  apply pair_equal_spec in H1. destruct H1 as [<- Hkk]. clear H. rename H2 into H. cbn [s2_with s2_base s2_flange s2_p1 s2_ys] in H, Hkk.
  assert (Hlam : exists l, root_lam s l /\ kk = (fst (kt_kr Ycte l (rebuilt_lam E fl) 0 0), default 0 (snd (kt_kr Ycte l (rebuilt_lam E fl) 0 0)))).
  { unfold root_lam. pose proof (s2i_base _ _ Hs7) as Hb7. destruct (s2_base s) as [b|] eqn:Eb.
    - destruct HL as (b' & Hb' & Hlb). assert (t7 = s2_with s0 (Some b') (s2_flange s0)) by congruence. subst t7. cbn [s2_with s2_base] in Hkk. unfold bay_kt_kr in Hkk. rewrite Hlb, HLq in Hkk.
      cbn in Hkk. injection Hkk as <-. exists (rebuilt_lam E b). split; [reflexivity|]. reflexivity.
    - destruct HL as (Hs0' & p & p' & Ep & Ep' & Hp). assert (t7 = s0) by congruence. subst t7. rewrite (s2i_p1 _ _ Hs7) in Hkk. destruct (s2_base s0) as [bx|] eqn:Ebx; [cbn in Hb7; contradiction|].
      assert (Ep7 : nth_error (by_panels B7) (s2_p1 s) = Some p') by (rewrite HB7; exact Ep'). rewrite Ep7 in Hkk. unfold bay_kt_kr in Hkk. rewrite (p_inv_lam _ _ Hp), HLq in Hkk.
      cbn in Hkk. injection Hkk as <-. exists (rebuilt_lam E p). split; [exists p; auto|]. reflexivity. }
  destruct Hlam as (l & Hl & ->). cbn [fst snd] in H.
  assert (Hsh : pn_sh q7' = pn_sh fl). { destruct (rebuild_inv _ _ _ _ Hr7) as ([] & _). destruct Hq7 as [[[]] _]. congruence. }
  destruct (bind_run _ _ _ _ _ H) as [(B8 & k1 & H1 & H2)|(e & H1 & ->)]; [|destruct (coo_mat_run _ _ _ _ _ H1) as [-> _]; split; [assumption|discriminate]].
  destruct (coo_mat_run _ _ _ _ _ H1) as [-> K1]. specialize (K1 k1 eq_refl). clear H H1. rename H2 into H.
  destruct (bind_run _ _ _ _ _ H) as [(B8 & k2 & H1 & H2)|(e & H1 & ->)]; [|destruct (coo_mat_run _ _ _ _ _ H1) as [-> _]; split; [assumption|discriminate]].
  destruct (coo_mat_run _ _ _ _ _ H1) as [-> K2]. specialize (K2 k2 eq_refl). clear H H1. rename H2 into H.
  destruct (bind_run _ _ _ _ _ H) as [(B8 & k3 & H1 & H2)|(e & H1 & ->)]; [|destruct (coo_mat_run _ _ _ _ _ H1) as [-> _]; split; [assumption|discriminate]].
  destruct (coo_mat_run _ _ _ _ _ H1) as [-> K3]. specialize (K3 k3 eq_refl). clear H H1. rename H2 into H.
  destruct (ret_run _ _ _ _ H) as [-> ->]. split; [exact HI7|]. intros out Ho. injection Ho as <-. exists s. split; [exact Es|].
  exists (finalize_symmetric (oval k0)), (fun r t => finalize_symmetric Kf r t + joint s fl l o r t). split; [exact HPb|]. rewrite Efl. split.
  - exists (finalize_symmetric Kf), l. split; [destruct Hq as [Hq _]; exact (kC_alone _ _ _ _ _ _ Hq Hc)|]. split; [exact Hl|]. intros; reflexivity.
  - intros x y. rewrite !finalize_oadd. unfold joint. rewrite K1, K2, K3, Hsh, (i_sh _ HI7), (s2i_ys _ _ Hs7).
    unfold skin_flange. change (?a ++ ?b ++ ?c) with (coo_add a (coo_add b c)). rewrite !finalize_plus. lra.
Qed.

Lemma ens_s2_kG c N o j : ens (s2_kG V c N o o j) (fun out => exists s, nth_error (by_s2 B0) j = Some s /\
  match s2_flange s with None => finalize_symmetric (oval out) = (fun _ _ => 0) | Some q => alone_kG E None N o q (finalize_symmetric (oval out)) end).
Proof.
  intros B1 B2 r HI H. unfold s2_kG in H.
  destruct (bind_run _ _ _ _ _ H) as [(B3 & u & H1 & H2)|(e & H1 & ->)]; [|split; [exact (re_s2_run _ _ _ _ HI H1)|discriminate]].
  assert (HI3 := re_s2_run _ _ _ _ HI H1). destruct (on_flange_run _ _ _ _ _ HI3 (f_inv_kG _) H2) as [HI4 Hb]. split; [exact HI4|].
  intros out ->. destruct (Hb out eq_refl) as (s & t & Es & Hs & Et & HF). exists s. split; [exact Es|].
  destruct (s2_flange s) as [p|]; [|destruct HF as [-> _]; apply finalize_none]. destruct HF as (q & q' & a & [Hq _] & Hc & -> & _). exact (kG_alone _ _ _ _ _ _ _ Hq Hc).
Qed.
Definition plied (s : stiff2) : Prop := (forall b, s2_base s = Some b -> kept b) /\ (forall q, s2_flange s = Some q -> kept q).
Definition s2_mass (N o : nat) (s : stiff2) (M : matrix) : Prop :=
  exists Kb Kf, match s2_base s with None => Kb = (fun _ _ => 0) | Some b => kM_of N 0%nat b Kb end /\
    match s2_flange s with None => Kf = (fun _ _ => 0) | Some q => kM_of N o q Kf end /\ forall r t, M r t = Kb r t + Kf r t.
Lemma finalize_oplus a b : finalize_symmetric (oval (oplus a b)) = fun r t => finalize_symmetric (oval a) r t + finalize_symmetric (oval b) r t.
Proof.
  destruct b as [b|]; cbn [oplus].
  - exact (finalize_oadd a b).
  - rewrite finalize_none. apply functional_extensionality; intro r. apply functional_extensionality; intro t. ring.
Qed.
Lemma ens_s2_kM N o j : (forall s, nth_error (by_s2 B0) j = Some s -> plied s) -> ens (s2_kM V N o o j) (fun out => exists s, nth_error (by_s2 B0) j = Some s /\ s2_mass N o s (finalize_symmetric (oval out))).
Proof.
  intros HP B1 B2 r HI H. unfold s2_kM in H.
  destruct (bind_run _ _ _ _ _ H) as [(B3 & u & H1 & H2)|(e & H1 & ->)]; [|split; [exact (re_s2_run _ _ _ _ HI H1)|discriminate]].
  assert (HI3 := re_s2_run _ _ _ _ HI H1). clear H H1. rename H2 into H.
  destruct (bind_run _ _ _ _ _ H) as [(B4 & k0 & H1 & H2)|(e & H1 & ->)]; [|destruct (on_base2_run _ _ _ _ _ HI3 (f_inv_kM _ _ _) H1); split; [assumption|discriminate]].
  destruct (on_base2_run _ _ _ _ _ HI3 (f_inv_kM _ _ _) H1) as [HI4 Hb]. destruct (Hb k0 eq_refl) as (s & t & Es & Hs & Et & HB). clear H H1 Hb. rename H2 into H.
  destruct (bind_run _ _ _ _ _ H) as [(B5 & kf & H1 & H2)|(e & H1 & ->)]; [|destruct (on_flange_run _ _ _ _ _ HI4 (f_inv_kM _ _ _) H1); split; [assumption|discriminate]].
  destruct (on_flange_run _ _ _ _ _ HI4 (f_inv_kM _ _ _) H1) as [HI5 Hb]. destruct (Hb kf eq_refl) as (s' & t' & Es' & Hs' & Et' & HF). clear H H1 Hb. rename H2 into H.
  assert (s' = s) by congruence. subst s'. destruct (ret_run _ _ _ _ H) as [-> ->]. split; [exact HI5|]. intros out Ho. injection Ho as <-. exists s. split; [exact Es|].
  destruct (HP _ Es) as [Hp1 Hp2]. exists (finalize_symmetric (oval k0)), (finalize_symmetric (oval kf)). split; [|split].
  - destruct (s2_base s) as [b|]; [|destruct HB as [-> _]; apply finalize_none]. destruct HB as (q & q' & a & Hq & Hc & -> & _). exact (kM_alone _ _ _ _ _ _ Hq (Hp1 _ eq_refl) Hc).
  - destruct (s2_flange s) as [b|]; [|destruct HF as [-> _]; apply finalize_none]. destruct HF as (q & q' & a & Hq & Hc & -> & _). exact (kM_alone _ _ _ _ _ _ Hq (Hp2 _ eq_refl) Hc).
  - intros. rewrite finalize_oplus. reflexivity.
Qed.

(* the size *)
Lemma ens_flange_size j : ens (on_flange j get_size) (fun o => exists s, nth_error (by_s2 B0) j = Some s /\ default 0%nat o = flange_dim s /\ (o = None <-> s2_flange s = None)).
Proof.
  intros B1 B2 r HI H. destruct (on_flange_run _ _ _ _ _ HI f_inv_size H) as [HI2 Hb]. split; [exact HI2|]. intros o ->. destruct (Hb o eq_refl) as (s & t & Es & Hs & Et & HF).
  exists s. split; [exact Es|]. unfold flange_dim. destruct (s2_flange s) as [p|]; [|destruct HF as [-> _]; cbn; split; [reflexivity|tauto]].
  destruct HF as (q & q' & a & [Hq _] & Hc & -> & _). destruct (get_size_inv _ _ _ Hc) as (mdl & _ & -> & _). split; [|split; discriminate].
  destruct Hq as [[]]. unfold db_dofs. cbn. rewrite si_sh. reflexivity.
Qed.
Lemma fold_add l : forall n, fold_left Nat.add l n = (n + fold_right Nat.add 0 l)%nat.
Proof. induction l as [|a l IH]; intro n; cbn; [lia|]. rewrite IH. lia. Qed.
Lemma ens_size : ens bay_size (fun n => n = bay_dim B0).
Proof.
  intros B1 B2 r HI H. unfold bay_size in H.
  destruct (bind_run _ _ _ _ _ H) as [(B3 & b & H1 & H2)|(e & H1 & ->)]; [|destruct (get_run _ _ _ H1); discriminate].
  destruct (get_run _ _ _ H1) as [-> Hb]. injection Hb as ->. clear H H1. rename H2 into H.
  destruct (by_model B1) as [[mdl|]|]; try (apply pair_equal_spec in H; destruct H as [<- <-]; split; [exact HI|discriminate]).
  cbv zeta in H. rewrite <- (F2_length _ _ _ (i_s2 _ HI)) in H.
  revert HI H. revert B1 B2 r.
  assert (HN : forall n0, n0 = skin_dim B0 -> ens (bay_do l <- each (fun j => bay_do o <- on_flange j get_size; match o with Some n => bret n | None => braise AttributeError end) 0 (length (by_s2 B0));
    let n := fold_left Nat.add l n0 in bay_do _ <- bmod (fun B => set_bsize B (Some n)); bret n) (fun n => n = bay_dim B0)).
  { intros n0 Hn0. eapply ens_bind.
    - apply (ens_each _ (fun j n => exists s, nth_error (by_s2 B0) j = Some s /\ n = flange_dim s)). intro j. eapply ens_bind; [apply ens_flange_size|].
      intros o (s & Es & Ho & _). destruct o as [n|]; [|apply ens_raise]. apply ens_ret. exists s. auto.
    - intros l [HL Hl]. cbv zeta. eapply ens_bind; [apply (ens_mod _ (fun _ => True)); [intros B []; constructor; assumption|exact I]|]. intros _ _. apply ens_ret.
      rewrite fold_add, Hn0. unfold bay_dim. f_equal. clear - HL Hl. revert l HL Hl. induction (by_s2 B0) as [|s l0 IH]; intros [|a l] HL Hl; cbn in HL; try discriminate; [reflexivity|].
      cbn. destruct (Hl 0%nat a eq_refl) as (s' & Es' & ->). cbn in Es'. injection Es' as <-. f_equal. apply (IH l); [lia|]. intros j b Hj. exact (Hl (S j) b Hj). }
  intros B1 B2 r HI H. refine (HN _ _ B1 B2 r HI H). unfold skin_dim, db_dofs. rewrite (i_sh _ HI). reflexivity.
Qed.
Lemma flanges_app l1 l2 : flanges_dim (l1 ++ l2) = (flanges_dim l1 + flanges_dim l2)%nat.
Proof. induction l1 as [|a l IH]; cbn; [reflexivity|]. unfold flanges_dim in *. rewrite IH. lia. Qed.
Lemma firstn_S_nth {A} (l : list A) j a : nth_error l j = Some a -> firstn (S j) l = firstn j l ++ [a].
Proof. revert j. induction l as [|b l IH]; intros [|j] H; try discriminate; cbn in H. - injection H as ->. reflexivity. - cbn. rewrite <- (IH j H). reflexivity. Qed.
Lemma ens_sum_s2 (f : nat -> nat -> bmethod (option matrix)) (P : nat -> stiff2 -> matrix -> Prop) :
  (forall o j, ens (f o j) (fun out => exists s, nth_error (by_s2 B0) j = Some s /\ P o s (finalize_symmetric (oval out)))) ->
  forall k j acc, ens (sum_s2 f j k (slice_of B0 j) acc) (fun out => exists Ms, length Ms = k /\
    (forall i M, nth_error Ms i = Some M -> exists s, nth_error (by_s2 B0) (j + i) = Some s /\ P (slice_of B0 (j + i)) s M) /\
    forall r t, finalize_symmetric (oval out) r t = finalize_symmetric (oval acc) r t + entries Ms r t).
Proof.
  intros Hf. induction k as [|k IH]; intros j acc; cbn [sum_s2].
  - apply ens_ret. exists []. split; [reflexivity|]. split; [intros [|i] M HM; discriminate HM|]. intros. unfold entries. cbn. lra.
  - eapply ens_bind; [apply Hf|]. intros M (s & Es & HM). cbv beta. eapply ens_bind; [apply ens_flange_size|]. intros n (s' & Es' & Hn & _).
    assert (s' = s) by congruence. subst s'. replace (slice_of B0 j + default 0%nat n)%nat with (slice_of B0 (S j)).
    2:{ unfold slice_of. rewrite (firstn_S_nth _ _ _ Es), flanges_app, Hn. cbn. lia. }
    eapply ens_weaken; [apply IH|]. intros out (Ms & HL & HMs & Hsum). exists (finalize_symmetric (oval M) :: Ms). split; [cbn; congruence|]. split.
    + intros [|i] M' HM'; cbn in HM'; [injection HM' as <-; rewrite Nat.add_0_r; exists s; auto|].
      destruct (HMs i M' HM') as (s' & H1 & H2). replace (j + S i)%nat with (S j + i)%nat by lia. exists s'. auto.
    + intros. rewrite Hsum, finalize_oplus. unfold entries. cbn. lra.
Qed.

(* the rebuild of the bay *)
Definition made1 (s : stiff1) : Prop := (s1_bdef s = None -> s1_base s = None) /\ (s1_fdef s = None -> s1_flam s = None).
Definition pre (k : nat) (B : bay) : Prop :=
  by_sh B = by_sh B0 /\ by_r B = by_r B0 /\ by_s1 B = by_s1 B0 /\ by_s2 B = by_s2 B0 /\ length (by_panels B) = length (by_panels B0) /\
  (forall i, (k <= i)%nat -> nth_error (by_panels B) i = nth_error (by_panels B0) i) /\
  (forall i q, (i < k)%nat -> nth_error (by_panels B) i = Some q -> exists p, nth_error (by_panels B0) i = Some p /\ p_inv p q).
Definition re_panel (i : nat) : bmethod unit :=
  bay_do _ <- on_skin i (rebuild E);
    bay_do B <- bget;
    match nth_error (by_panels B) i with
    | None => braise IndexError
    | Some p => match by_model B with
                | Some _ => if same_model (by_model B) (pn_model p) then bret tt else braise AssertionError
                | None => bmod (fun B => set_bmodel B (pn_model p))
                end
    end.
Lemma re_panel_run i B1 B2 u : pre i B1 -> re_panel i B1 = (B2, Ok u) -> pre (S i) B2.
Proof.
  intros (P1 & P2 & P3 & P4 & P5 & P6 & P7) H. unfold re_panel in H.
  destruct (bind_run _ _ _ _ _ H) as [(B3 & v & H1 & H2)|(e & H1 & HH)]; [|discriminate HH].
  assert (HP : pre (S i) B3).
  { unfold on_skin in H1. destruct (nth_error (by_panels B1) i) as [p|] eqn:Ep; [|discriminate]. destruct (rebuild E p) as [p' r'] eqn:Er.
    apply pair_equal_spec in H1. destruct H1 as [<- ->]. destruct v. unfold pre. cbn. rewrite set_at_length. do 5 (split; [assumption|]). split.
    - intros k Hk. rewrite nth_set_at. destruct (k =? i)%nat eqn:Ek; [apply Nat.eqb_eq in Ek; lia|]. apply P6. lia.
    - intros k q Hk Hq. rewrite nth_set_at in Hq. destruct (k =? i)%nat eqn:Ek.
      + apply Nat.eqb_eq in Ek. subst k. rewrite Ep in Hq. injection Hq as <-. exists p. rewrite P6 in Ep by lia. split; [exact Ep|]. exists p'. split; [exact Er|]. apply eqv_refl. exact (rebuild_known _ _ _ _ Er).
      + apply Nat.eqb_neq in Ek. apply P7; [lia|exact Hq]. }
  destruct (bind_run _ _ _ _ _ H2) as [(B4 & b & H3 & H4)|(e & H3 & HH)]; [|discriminate HH]. destruct (get_run _ _ _ H3) as [-> Hb]. injection Hb as ->.
  destruct (nth_error (by_panels B3) i); [|discriminate]. destruct (by_model B3) eqn:EM.
  - destruct (same_model _ _); [|discriminate]. apply pair_equal_spec in H4. destruct H4 as [<- _]. exact HP.
  - apply pair_equal_spec in H4. destruct H4 as [<- _]. exact HP.
Qed.
Lemma each_re_panel k : forall i B1 B2 l, pre i B1 -> each re_panel i k B1 = (B2, Ok l) -> pre (i + k) B2.
Proof.
  induction k as [|k IH]; intros i B1 B2 l HP H; cbn [each] in H.
  - apply pair_equal_spec in H. destruct H as [<- _]. rewrite Nat.add_0_r. exact HP.
  - destruct (bind_run _ _ _ _ _ H) as [(B3 & v & H1 & H2)|(e & H1 & HH)]; [|discriminate HH]. apply (re_panel_run _ _ _ _ HP) in H1.
    destruct (bind_run _ _ _ _ _ H2) as [(B4 & b & H3 & H4)|(e & H3 & HH)]; [|discriminate HH]. apply (IH _ _ _ _ H1) in H3.
    apply pair_equal_spec in H4. destruct H4 as [<- _]. replace (i + S k)%nat with (S i + k)%nat by lia. exact H3.
Qed.
Lemma s1_inv_refl s : made1 s -> s1_inv s s.
Proof. intros []. constructor; auto. Qed.
Lemma s2_inv_refl s : s2_inv s s.
Proof. constructor; auto; [destruct (s2_base s)|destruct (s2_flange s)]; cbn; auto; apply f_inv_refl. Qed.
Lemma Forall2_same {A} (R : A -> A -> Prop) l : List.Forall (fun a => R a a) l -> Forall2 R l l.
Proof. induction 1; constructor; assumption. Qed.
Lemma bay_rebuild_run B2 u : List.Forall made1 (by_s1 B0) -> bay_rebuild V B0 = (B2, Ok u) -> inv B2.
Proof.
  intros HM H. unfold bay_rebuild in H. fold re_panel in H.
  destruct (bind_run _ _ _ _ _ H) as [(B3 & v & H1 & H2)|(e & H1 & HH)]; [|discriminate HH].
  assert (HI : inv B3).
  { unfold each_panel in H1. apply each_re_panel in H1.
    - destruct H1 as (P1 & P2 & P3 & P4 & P5 & P6 & P7). constructor; auto.
      + apply nth_Forall2; [exact P5|]. intros j b Hb. apply P7; [|exact Hb]. cbn. rewrite <- P5. apply nth_error_Some. congruence.
      + rewrite P3. apply Forall2_same. eapply List.Forall_impl; [|exact HM]. intros. apply s1_inv_refl. assumption.
      + rewrite P4. apply Forall2_same. apply List.Forall_forall. intros. apply s2_inv_refl.
    - repeat (split; [reflexivity|]). intros i q Hi. lia. }
  clear H H1. rename H2 into H. destruct (bind_run _ _ _ _ _ H) as [(B4 & w & H1 & H2)|(e & H1 & HH)]; [|discriminate HH].
  assert (HI4 : inv B4) by (exact (proj1 (ens_each _ (fun _ _ => True) ens_re_s1 _ _ _ _ _ HI H1))).
  destruct (bind_run _ _ _ _ _ H2) as [(B5 & b & H3 & H4)|(e & H3 & HH)]; [|discriminate HH]. destruct (get_run _ _ _ H3) as [-> Hb]. injection Hb as ->.
  destruct (bind_run _ _ _ _ _ H4) as [(B6 & x & H5 & H6)|(e & H5 & HH)]; [|discriminate HH].
  assert (HI6 : inv B6) by (exact (proj1 (ens_each _ (fun _ _ => True) ens_re_s2 _ _ _ _ _ HI4 H5))).
  destruct (ret_run _ _ _ _ H6) as [-> _]. exact HI6.
Qed.

Lemma entries_oadd l : forall acc r t, finalize_symmetric (oval (fold_left oadd l acc)) r t = finalize_symmetric (oval acc) r t + entries (map finalize_symmetric l) r t.
Proof. induction l as [|M l IH]; intros acc r t; cbn [fold_left map]; [unfold entries; cbn; lra|]. rewrite IH, finalize_oadd. unfold entries. cbn. lra. Qed.
Lemma entries_oplus l : forall acc r t, finalize_symmetric (oval (fold_left oplus l acc)) r t = finalize_symmetric (oval acc) r t + entries (map (fun o => finalize_symmetric (oval o)) l) r t.
Proof. induction l as [|M l IH]; intros acc r t; cbn [fold_left map]; [unfold entries; cbn; lra|]. rewrite IH, finalize_oplus. unfold entries. cbn. lra. Qed.
Lemma Forall2_map_r {A B C} (R : A -> C -> Prop) (f : B -> C) l l' : Forall2 (fun a b => R a (f b)) l l' -> Forall2 R l (map f l').
Proof. induction 1; constructor; assumption. Qed.
Theorem bay_matrix_parts (Kp : nat -> method matrix) (K1 : nat -> nat -> bmethod (option matrix)) (K2 : nat -> nat -> nat -> bmethod (option matrix))
    (Pp : panel -> matrix -> Prop) (P1 : stiff1 -> matrix -> Prop) (P2 : nat -> stiff2 -> matrix -> Prop) B2 K :
  List.Forall made1 (by_s1 B0) ->
  (forall p q q' r, p_inv p q -> Kp (bay_dim B0) q = (q', r) -> p_inv p q' /\ forall M, r = Ok M -> Pp p (finalize_symmetric M)) ->
  (forall j, ens (K1 (bay_dim B0) j) (fun o => exists s, nth_error (by_s1 B0) j = Some s /\ P1 s (finalize_symmetric (oval o)))) ->
  (forall o j, ens (K2 (bay_dim B0) o j) (fun out => exists s, nth_error (by_s2 B0) j = Some s /\ P2 o s (finalize_symmetric (oval out)))) ->
  bay_matrix V Kp K1 K2 B0 = (B2, Ok K) ->
  inv B2 /\ exists Ks K1s K2s, Forall2 Pp (by_panels B0) Ks /\ Forall2 P1 (by_s1 B0) K1s /\ length K2s = length (by_s2 B0) /\
    (forall j M, nth_error K2s j = Some M -> exists s, nth_error (by_s2 B0) j = Some s /\ P2 (slice_of B0 j) s M) /\
    forall r t, K r t = entries Ks r t + entries K1s r t + entries K2s r t.
Proof.
  intros HM Hp H1s H2s H. unfold bay_matrix in H.
  destruct (bind_run _ _ _ _ _ H) as [(B3 & v & H1 & H2)|(e & H1 & HH)]; [|discriminate HH]. apply bay_rebuild_run in H1; [|exact HM]. rename H1 into HI. clear H. rename H2 into H.
  destruct (bind_run _ _ _ _ _ H) as [(B4 & N & H1 & H2)|(e & H1 & HH)]; [|discriminate HH]. destruct (ens_size _ _ _ HI H1) as [HI4 HN]. specialize (HN N eq_refl). subst N. clear H H1. rename H2 into H.
  destruct (bind_run _ _ _ _ _ H) as [(B5 & l0 & H1 & H2)|(e & H1 & HH)]; [|discriminate HH]. destruct (ens_panels _ (fun p M => Pp p (finalize_symmetric M)) Hp _ _ _ HI4 H1) as [HI5 H0]. specialize (H0 l0 eq_refl). clear H H1. rename H2 into H.
  destruct (bind_run _ _ _ _ _ H) as [(B6 & l1 & H1 & H2)|(e & H1 & HH)]; [|discriminate HH]. unfold each_s1 in H1. rewrite <- (F2_length _ _ _ (i_s1 _ HI5)) in H1.
  destruct (ens_each _ _ H1s _ _ _ _ _ HI5 H1) as [HI6 Hl1]. destruct (Hl1 l1 eq_refl) as [HL1 Hn1]. clear H H1 Hl1. rename H2 into H.
  destruct (bind_run _ _ _ _ _ H) as [(B7 & b & H1 & H2)|(e & H1 & HH)]; [|discriminate HH]. destruct (get_run _ _ _ H1) as [-> Hb]. injection Hb as ->. clear H H1. rename H2 into H.
  destruct (bind_run _ _ _ _ _ H) as [(B7 & o & H1 & H2)|(e & H1 & HH)]; [|discriminate HH]. apply pair_equal_spec in H1. destruct H1 as [<- H1]. clear H. rename H2 into H.
  assert (Ho : o = slice_of B0 0). { unfold skin_size in H1. destruct (by_model B6) as [[mdl|]|]; try discriminate. injection H1 as <-. unfold slice_of, skin_dim. cbn. rewrite (i_sh _ HI6). lia. }
  subst o. rewrite <- (F2_length _ _ _ (i_s2 _ HI6)) in H.
  destruct (bind_run _ _ _ _ _ H) as [(B7 & out & H3 & H2)|(e & H3 & HH)]; [|discriminate HH].
  destruct (ens_sum_s2 _ P2 H2s _ _ _ _ _ _ HI6 H3) as [HI7 Hs]. destruct (Hs out eq_refl) as (Ms & HLM & HMs & Hsum).
  destruct out as [out|]; [|discriminate]. apply pair_equal_spec in H2. destruct H2 as [<- H2]. injection H2 as <-.
  split; [exact HI7|]. exists (map finalize_symmetric l0), (map (fun o => finalize_symmetric (oval o)) l1), Ms.
  split; [apply Forall2_map_r; exact H0|]. split.
  { apply Forall2_map_r. apply nth_Forall2; [exact HL1|]. intros j b Hb. destruct (Hn1 j b Hb) as (s & E1 & E2). exists s. auto. }
  split; [exact HLM|]. split; [exact HMs|]. intros r t. transitivity (finalize_symmetric (oval (Some out)) r t); [reflexivity|]. rewrite (Hsum r t), entries_oplus, entries_oadd, finalize_none. lra.
Qed.
(* the three matrices *)
Definition s1_geo (s : stiff1) (M : matrix) : Prop := exists h, forall r t, M r t = flange_part (kGf_of s) s h r t.
Definition s2_geo (N o : nat) (s : stiff2) (M : matrix) : Prop := match s2_flange s with None => M = (fun _ _ => 0) | Some q => alone_kG E None N o q M end.
Theorem bay_kC_parts B2 K : List.Forall made1 (by_s1 B0) -> bay_kC V B0 = (B2, Ok K) -> let N := bay_dim B0 in
  inv B2 /\ exists Ks K1s K2s, Forall2 (alone_kC E N 0) (by_panels B0) Ks /\ Forall2 (s1_part (alone_kC E) kCf_of N) (by_s1 B0) K1s /\ length K2s = length (by_s2 B0) /\
    (forall j M, nth_error K2s j = Some M -> exists s, nth_error (by_s2 B0) j = Some s /\ s2_part (alone_kC E) true N (slice_of B0 j) s M) /\
    forall r t, K r t = entries Ks r t + entries K1s r t + entries K2s r t.
Proof.
  intros HM H N. refine (bay_matrix_parts _ _ _ (alone_kC E N 0) (s1_part (alone_kC E) kCf_of N) (s2_part (alone_kC E) true N) _ _ HM _ _ _ H).
  - apply skin_kC.
  - intro j. eapply ens_weaken; [apply ens_s1_kC|]. intros o Ho. unfold s1_post in Ho. exact Ho.
  - intros o j. apply ens_s2_kC.
Qed.
Theorem bay_kG_parts c B2 K : List.Forall made1 (by_s1 B0) -> bay_kG V c B0 = (B2, Ok K) -> let N := bay_dim B0 in
  inv B2 /\ exists Ks K1s K2s, Forall2 (alone_kG E c N 0) (by_panels B0) Ks /\ Forall2 (fun s M => c = None /\ s1_geo s M) (by_s1 B0) K1s /\ length K2s = length (by_s2 B0) /\
    (forall j M, nth_error K2s j = Some M -> exists s, nth_error (by_s2 B0) j = Some s /\ s2_geo N (slice_of B0 j) s M) /\
    forall r t, K r t = entries Ks r t + entries K1s r t + entries K2s r t.
Proof.
  intros HM H N. refine (bay_matrix_parts _ _ _ (alone_kG E c N 0) (fun s M => c = None /\ s1_geo s M) (s2_geo N) _ _ HM _ _ _ H).
  - apply skin_kG.
  - intro j. eapply ens_weaken; [apply ens_s1_kG|]. intros o (Hc & s & h & Es & Hh). exists s. split; [exact Es|]. split; [exact Hc|]. exists h. exact Hh.
  - intros o j. apply ens_s2_kG.
Qed.
Theorem bay_kM_parts B2 K : List.Forall made1 (by_s1 B0) -> List.Forall plied (by_s2 B0) -> bay_kM V B0 = (B2, Ok K) -> let N := bay_dim B0 in
  inv B2 /\ exists Ks K1s K2s, Forall2 (alone_kM E N 0) (by_panels B0) Ks /\
    Forall2 (s1_part (fun N o p K => exists p', calc_kM E (SInt N) o o None None None None true p = (p', Ok K)) kMf_of N) (by_s1 B0) K1s /\ length K2s = length (by_s2 B0) /\
    (forall j M, nth_error K2s j = Some M -> exists s, nth_error (by_s2 B0) j = Some s /\ s2_mass N (slice_of B0 j) s M) /\
    forall r t, K r t = entries Ks r t + entries K1s r t + entries K2s r t.
Proof.
  intros HM HP H N. refine (bay_matrix_parts _ _ _ (alone_kM E N 0) (s1_part (fun N o p K => exists p', calc_kM E (SInt N) o o None None None None true p = (p', Ok K)) kMf_of N) (s2_mass N) _ _ HM _ _ _ H).
  - apply skin_kM.
  - intro j. eapply ens_weaken; [apply ens_s1_kM|]. intros o Ho. unfold s1_post in Ho. exact Ho.
  - intros o j. apply ens_s2_kM. intros s Hs. rewrite List.Forall_forall in HP. apply HP. eapply nth_error_In. exact Hs.
Qed.
End Run.
