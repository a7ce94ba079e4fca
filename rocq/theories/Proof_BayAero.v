(* The aerodynamic matrix of a bay. *)
From Coq Require Import Reals List Arith Bool ZArith Lia Lra.
From Verif Require Import Proof_Num.
From Verif Require Import Base_Sum Model_Types Model_Coo Model_Result Model_Num Model_DB Model_Shell Model_Multi Model_Bay
  Spec_Algebra Spec_Panel Spec_Shell Spec_Aero Spec_Integral Spec_Bardell Spec_Flow Spec_Bay Spec_BayWork Spec_BayAero
  Proof_Shell Proof_Total Proof_Hist Proof_Aero Proof_Bay Proof_BayMade Proof_BayTotal Proof_BayTop.
From Coq Require Import List.
Import ListNotations.
Open Scope R_scope.

(* the flow attributes change in bay_aero only *)
Definition flow_of (B : bay) := (by_flow_x B, by_beta B, by_rho_air B, by_speed_sound B, (by_Mach B, by_V B, by_r B), map (fun p => (pn_beta p, pn_gamma p)) (by_panels B)).
Definition sf {A} (f : bmethod A) : Prop := forall B, flow_of (fst (f B)) = flow_of B.
Lemma sf_bind {A C} (x : bmethod A) (f : A -> bmethod C) : sf x -> (forall a, sf (f a)) -> sf (bbind x f).
Proof. intros Hx Hf B. unfold bbind. specialize (Hx B). destruct (x B) as [B1 [a|e]]; cbn [fst] in Hx; [rewrite <- Hx; apply Hf|exact Hx]. Qed.
Lemma sf_ret {A} (a : A) : sf (bret a). Proof. intro B. reflexivity. Qed.
Lemma sf_raise {A} e : sf (@braise A e). Proof. intro B. reflexivity. Qed.
Lemma sf_lift {A} (x : res A) : sf (blift x). Proof. intro B. reflexivity. Qed.
Lemma sf_get : sf bget. Proof. intro B. reflexivity. Qed.
Lemma sf_each {A} (f : nat -> bmethod A) : (forall i, sf (f i)) -> forall k i, sf (each f i k).
Proof. intros Hf. induction k as [|k IH]; intro i; cbn [each]; [apply sf_ret|]. apply sf_bind; [apply Hf|]. intro a. apply sf_bind; [apply IH|]. intro l. apply sf_ret. Qed.
Lemma sf_panels {A} (f : nat -> bmethod A) : (forall i, sf (f i)) -> sf (each_panel f).
Proof. intros Hf B. unfold each_panel. apply sf_each; assumption. Qed.
Lemma sf_s1s {A} (f : nat -> bmethod A) : (forall i, sf (f i)) -> sf (each_s1 f).
Proof. intros Hf B. unfold each_s1. apply sf_each; assumption. Qed.
Lemma map_set_at {A C} (g : A -> C) i a l p : nth_error l i = Some p -> g a = g p -> map g (set_at i a l) = map g l.
Proof. revert i. induction l as [|x l IH]; intros [|i] Hn Hg; try discriminate; cbn in *; [congruence|]. f_equal. exact (IH i Hn Hg). Qed.
Definition kp {A} (m : method A) : Prop := forall p, pn_beta (fst (m p)) = pn_beta p /\ pn_gamma (fst (m p)) = pn_gamma p.
Lemma kp_bind {A C} (x : method A) (f : A -> method C) : kp x -> (forall a, kp (f a)) -> kp (mbind x f).
Proof. intros Hx Hf p. unfold mbind. specialize (Hx p). destruct (x p) as [p1 [a|e]]; cbn [fst] in Hx; [|exact Hx]. destruct Hx as [<- <-]. apply Hf. Qed.
Lemma kp_ret {A} (a : A) : kp (mret a). Proof. intro p. split; reflexivity. Qed.
Lemma kp_raise {A} e : kp (@mraise A e). Proof. intro p. split; reflexivity. Qed.
Lemma kp_lift {A} (x : res A) : kp (mlift x). Proof. intro p. split; reflexivity. Qed.
Lemma kp_get : kp mget. Proof. intro p. split; reflexivity. Qed.
Lemma kp_mod f : (forall p, pn_beta (f p) = pn_beta p /\ pn_gamma (f p) = pn_gamma p) -> kp (mmod f). Proof. intros Hf p. exact (Hf p). Qed.
Lemma rebuild_keeps E : kp (rebuild E).
Proof.
  unfold rebuild. repeat first [apply kp_ret | apply kp_raise | apply kp_lift | apply kp_get | apply kp_bind; [|intros ?]
  | apply kp_mod; intros ?; repeat match goal with |- context [match ?x with _ => _ end] => destruct x end; split; reflexivity
  | match goal with |- kp (match ?x with _ => _ end) => destruct x end | progress unfold get_lam_ABD, the_model, get_size
  | intros ?; repeat match goal with |- context [match ?x with _ => _ end] => destruct x end; split; reflexivity ].
Qed.
Lemma sf_skin i E : sf (on_skin i (rebuild E)).
Proof.
  intro B. unfold on_skin. destruct (nth_error _ _) as [p|] eqn:EP; [|reflexivity]. destruct (rebuild_keeps E p) as [H1 H2]. destruct (rebuild E p) as [q r] eqn:ER. cbn [fst] in *.
  unfold flow_of. cbn. f_equal. eapply map_set_at; [exact EP|]. congruence.
Qed.
Lemma sf_mod f : (forall B, flow_of (f B) = flow_of B) -> sf (bmod f). Proof. intros Hf B. exact (Hf B). Qed.
Lemma sf_get1 j : sf (get_s1 j). Proof. intro B. unfold get_s1. destruct (nth_error _ _); reflexivity. Qed.
Lemma sf_get2 j : sf (get_s2 j). Proof. intro B. unfold get_s2. destruct (nth_error _ _); reflexivity. Qed.
Ltac flowed := repeat first [apply sf_ret | apply sf_raise | apply sf_lift | apply sf_get | apply sf_skin | apply sf_get1 | apply sf_get2
  | apply sf_each; intros ? | apply sf_panels; intros ? | apply sf_s1s; intros ? | apply sf_bind; [|intros ?] | apply sf_mod; intros ?; reflexivity
  | match goal with |- sf (match ?x with _ => _ end) => destruct x end
  | progress unfold re_s1, re_s2, put_s1, put_s2, on_base1, on_base2, on_flange, coo_mat ].
Lemma sf_rebuild V : sf (bay_rebuild V).
Proof. unfold bay_rebuild. flowed. Qed.

Lemma aero_run B B' : bay_aero false B = (B', Ok tt) ->
  by_panels B' = by_panels B /\ by_size B' = by_size B /\ by_flow_x B' = by_flow_x B /\ by_rho_air B' = by_rho_air B /\ by_V B' = by_V B /\ by_r B' = by_r B /\
  (by_Mach B' = by_Mach B \/ by_Mach B = Some 1 /\ by_Mach B' = Some (10001 / 10000)).
Proof.
  intro H. unfold bay_aero in H. unfold bbind at 1, bget in H. destruct (by_beta B).
  - apply pair_equal_spec in H. destruct H as [<- _]. repeat split; try reflexivity. left; reflexivity.
  - destruct (by_Mach B) as [M|] eqn:EM; [|discriminate]. destruct (Rlt_dec M 1); [discriminate|].
    unfold bbind in H. destruct (Req_EM_T M 1) as [->|]; unfold bmod, bret in H; destruct (by_rho_air B) eqn:E1, (by_V B) eqn:E2, (by_speed_sound B); try discriminate;
      apply pair_equal_spec in H; destruct H as [<- _]; cbn; rewrite ?E1, ?E2, ?EM; repeat split; auto.
Qed.

Lemma unfinalized E sz o o' p q K : calc_kA E sz o o' false p = (q, Ok K) -> exists q', calc_kA E sz o o' true p = (q', Ok (make_skew K)).
Proof.
  intro H. unfold calc_kA, mbind in *. destruct (the_model p) as [p1 [mdl|]]; [|discriminate]. destruct (eval_size sz p1) as [p2 [size|]]; [|discriminate].
  destruct (fix_r p2) as [p3 [u|]]; [|discriminate]. destruct (aero_coeffs p3) as [p4 [bg|]]; [|discriminate].
  cbn [mmod mget mlift mret mraise] in *. unfold mmod, mget in *.
  match type of H with context [match pn_flow_x ?x with _ => _ end] => destruct (pn_flow_x x) as [[|]|] end; [| |discriminate];
    (unfold mlift in *; match type of H with context [to_shape ?a ?b] => destruct (to_shape a b) as [kA|] end; [|discriminate]);
    unfold mret in *; apply pair_equal_spec in H; destruct H as [_ HK]; injection HK as <-; eexists; reflexivity.
Qed.

Theorem bay_kA_step V B B' K : good B -> bay_kA V B = (B', Ok K) -> exists p0 l0 q q1 l1 K0, by_panels B = p0 :: l0 /\ flow_over B p0 q /\
  calc_kA (b_env V) SNone 0 0 false q = (q1, Ok K0) /\ K = make_skew K0 /\ by_panels B' = q1 :: l1 /\ by_flow_x B' = by_flow_x B /\ by_r B' = by_r B.
Proof.
  intros HB H. unfold bay_kA in H.
  destruct (bind_run _ _ _ _ _ H) as [(B1 & u & H1 & Hn)|(e & _ & HE)]; [clear H; rename Hn into H|discriminate HE].
  destruct (bind_run _ _ _ _ _ H) as [(B2 & v & H2 & Hn)|(e & _ & HE)]; [clear H; rename Hn into H|discriminate HE].
  destruct v. unfold bbind at 1, bget in H.
  pose proof (bay_rebuild_run _ _ _ _ (g_s1 _ HB) H1) as HI. pose proof (sf_rebuild V B) as HF. rewrite H1 in HF. cbn [fst] in HF. unfold flow_of in HF. injection HF as F1 F2 F3 F4 F5 F6 F7 F8.
  destruct (aero_run _ _ H2) as (P1 & P2 & P3 & P4 & P5 & P6 & P7).
  destruct (by_panels B2) as [|p l] eqn:EP; [discriminate|]. destruct (by_size B2) as [n|]; [|discriminate].
  destruct (bind_run _ _ _ _ _ H) as [(B3 & K0 & H3 & Hn)|(e & _ & HE)]; [clear H; rename Hn into H|discriminate HE].
  unfold on_skin in H3. rewrite EP in H3. cbn [nth_error] in H3.
  destruct (calc_kA (b_env V) SNone 0 0 false (give_aero B2 p)) as [q1 r1] eqn:EK. apply pair_equal_spec in H3. destruct H3 as [HB3 ->].
  unfold bret in H. apply pair_equal_spec in H. destruct H as [HB' HK]. injection HK as HK. cbn [set_at] in HB3.
  pose proof (i_panels _ _ _ HI) as HP. rewrite <- P1 in HP. inversion HP as [|p0 p' l0 l' HP0 HPl EA EB]; subst.
  exists p0, l0, (give_aero B2 p), q1, l, K0. split; [reflexivity|]. split; [|split; [exact EK|split; [reflexivity|cbn; split; [reflexivity|split; congruence]]]].
  rewrite <- P1, <- EA in F8. cbn [map] in F8. injection F8 as F8 F9 F10.
  destruct HP0 as (p1 & HR & HE). destruct (rebuild_inv _ _ _ _ HR) as (R1 & R2 & R3 & _ & R4 & R5 & _). destruct HE as [[S1 S2 S3 S4 S5 S6 S7 S8 S9 S10] E2 E3 E4 E5 E6 E7 E8 E9 E10 E11 E12].
  constructor; cbn [give_aero pn_sh pn_flow_x pn_rho_air pn_V pn_r pn_Mach pn_model pn_nx pn_ny pn_beta pn_gamma]; try congruence.
  all: destruct R1; congruence.
Qed.

Theorem bay_kA_first V B B' K : built V B -> bay_kA V B = (B', Ok K) -> exists p0 l0 q q', by_panels B = p0 :: l0 /\ flow_over B p0 q /\ calc_kA (b_env V) SNone 0 0 true q = (q', Ok K).
Proof.
  intros HB H. destruct (bay_kA_step _ _ _ _ (built_good _ _ HB) H) as (p0 & l0 & q & q1 & l1 & K0 & A1 & A2 & A3 & A4 & _).
  destruct (unfinalized _ _ _ _ _ _ _ A3) as (q' & HQ). exists p0, l0, q, q'. subst K. auto.
Qed.

Theorem bay_kA_again V B B1 K1 rho ss M U B2 K2 : built V B -> bay_kA V B = (B1, Ok K1) -> bay_kA V (new_flow B1 rho ss M U) = (B2, Ok K2) -> K2 = K1.
Proof.
  intros HB H1 H2. pose proof (built_good _ _ (built_kA V B HB)) as HG. rewrite H1 in HG. cbn [fst] in HG.
  destruct (bay_kA_step _ _ _ _ (built_good _ _ HB) H1) as (p0 & l0 & q & q1 & l1 & K0 & A1 & A2 & A3 & A4 & A5 & A6 & A7).
  assert (HG' : good (new_flow B1 rho ss M U)) by (destruct HG; constructor; assumption).
  destruct (bay_kA_step _ _ _ _ HG' H2) as (p0' & l0' & q2 & q3 & l3 & K0' & C1 & C2 & C3 & C4 & _).
  cbn [new_flow by_panels] in C1. rewrite A5 in C1. injection C1 as <- <-. subst K1 K2. f_equal.
  destruct (calc_kA_inv _ _ _ _ _ _ _ _ A3) as (mdl & be & ga & kA & fx & D1 & _ & D3 & D4 & D5 & D6 & D7 & D8 & D9 & _ & D10 & D11 & D12 & D13).
  destruct (calc_kA_inv _ _ _ _ _ _ _ _ C3) as (mdl' & be' & ga' & kA' & fx' & G1 & G2 & G3 & G4 & G5 & G6 & G7 & G8 & G9 & _).
  destruct A2 as [F1 F2 F3 F4 F5 F6 F7 F8 F9 F10 F11]. destruct C2 as [I1 I2 I3 I4 I5 I6 I7 I8 I9 I10 I11]. cbn [new_flow by_flow_x by_r] in I7, I8.
  assert (N1 : pn_nx q2 = pn_nx q) by (rewrite I3, D10, D5, F3, F1; lia). assert (N2 : pn_ny q2 = pn_ny q) by (rewrite I4, D11, D5, F4, F1; lia).
  assert (EM : mdl' = mdl). { rewrite I2 in G1. injection G1 as <-. unfold chosen_model. rewrite D12, D1. reflexivity. }
  assert (EF : fx' = fx) by congruence.
  assert (EB : be' = be /\ ga' = ga). { rewrite I5, I6, D3, D4 in G2. destruct G2 as [[X1 X2]|[X1 _]]; [injection X1 as ->; auto|discriminate]. }
  destruct EB as [-> ->]. subst mdl' fx'. rewrite G9, D9, G8, D8, N1, N2. f_equal.
  assert (EV : kernel_view q3 = kernel_view q1). { unfold kernel_view. rewrite G3, G4, D3, D4, G5, I1, G6, D6. unfold radius_of. rewrite I7, A7, F7. reflexivity. }
  rewrite EV. reflexivity.
Qed.

Lemma flow_over_coeffs V B p q q' K : flow_over B p q -> pn_beta p = None -> calc_kA (b_env V) SNone 0 0 true q = (q', Ok K) ->
  exists rho M U, by_rho_air B = Some rho /\ by_Mach B = Some M /\ by_V B = Some U /\ 1 <= M /\
    let M' := if Req_EM_T M 1 then 10001 / 10000 else M in
    pn_beta q' = Some (piston_beta rho U M') /\ pn_gamma q' = Some (piston_gamma rho U M' (match by_r B with Some r => r | None => 0 end)).
Proof.
  intros [F1 F2 F3 F4 F5 F6 F7 F8 F9 F10 F11] Hb H. rewrite Hb in F5.
  destruct (calc_kA_inv _ _ _ _ _ _ _ _ H) as (mdl & be & ga & kA & fx' & _ & HC & Hbe & Hga & _).
  destruct HC as [[E1 _]|(_ & M & rho & U & E1 & HM & E2 & E3 & Eb & Eg)]; [rewrite F5 in E1; discriminate|].
  rewrite F9 in E2. rewrite F10 in E3. unfold radius_of in Eg. unfold used_mach in Eb, Eg. rewrite F7 in Eg. rewrite E1 in F11.
  assert (HS : forall x, x * x = x ^ 2) by (intro; ring).
  destruct F11 as [F11|[F11 F12]].
  - exists rho, M, U. split; [exact E2|]. split; [congruence|]. split; [exact E3|]. split; [exact HM|]. cbv zeta. rewrite Hbe, Hga. subst be ga.
    destruct (Req_EM_T M 1); split; f_equal; auto.
  - injection F12 as ->. exists rho, 1, U. split; [exact E2|]. split; [exact F11|]. split; [exact E3|]. split; [lra|]. cbv zeta. rewrite Hbe, Hga. subst be ga.
    destruct (Req_EM_T 1 1) as [_|X]; [|destruct X; reflexivity]. destruct (Req_EM_T (10001/10000) 1) as [X|_]; [lra|]. split; f_equal; auto.
Qed.

Theorem bay_kA_work V B B' K p l fx N c d : built V B -> by_panels B = p :: l -> pn_beta p = None -> flown_bay V B p fx -> held_along_flow (pn_sh p) fx ->
  by_r B = None \/ by_r B = Some 0 -> bay_kA V B = (B', Ok K) -> (ndof (pn_sh p) <= N)%nat ->
  exists rho M U, by_rho_air B = Some rho /\ by_Mach B = Some M /\ by_V B = Some U /\ 1 <= M /\
    panel_integral (pn_sh p) (pressure_work exact_basis (pn_sh p) fx (piston_beta rho U (if Req_EM_T M 1 then 10001 / 10000 else M)) 0 (own 0 c) (own 0 d)) (bilinear N K c d).
Proof.
  intros HB HP Hb HF Hh Hr H HN. destruct (bay_kA_first _ _ _ _ HB H) as (p0 & l0 & q & q' & HP' & HO & HK). rewrite HP in HP'. injection HP' as <- <-.
  destruct (flow_over_coeffs _ _ _ _ _ _ HO Hb HK) as (rho & M & U & A1 & A2 & A3 & A4 & A5 & A6).
  exists rho, M, U. do 4 (split; [assumption|]).
  assert (G0 : pn_gamma q' = Some 0). { rewrite A6. f_equal. unfold piston_gamma. destruct Hr as [-> | ->]; destruct (Req_EM_T 0 0) as [_|X]; try reflexivity; destruct X; reflexivity. }
  destruct HO as [F1 F2 F3 F4 F5 F6 F7 F8 F9 F10 F11]. rewrite <- F1 in *.
  assert (HQ : flown (b_env V) q fx). { unfold flown_bay in HF. cbv zeta in HF. unfold flown. rewrite F3, F4, F8. rewrite F1 in *. exact HF. }
  assert (HQ' : aero_rule (b_env V) q) by (unfold flown in HQ; unfold aero_rule; tauto). destruct HQ as (A & C & D & I & M1 & M2 & W & _).
  apply (kA_work (b_env V) q fx A C D I M1 M2 W HQ' SNone 0%nat q' K _ N c d Hh HK A5 G0). exact HN.
Qed.

Theorem bay_kA_runs V B : good B -> bay_ready B -> by_size B <> None -> complete_flow B -> exists B' K, bay_kA V B = (B', Ok K).
Proof.
  intros HG HR HS (C1 & C2 & C3 & C4 & M & C5 & C6).
  destruct (bay_rebuild_go V B HR HG) as (B1 & E1 & S1). unfold bay_kA. unfold bbind at 1. rewrite E1.
  pose proof (sz_rebuild (fun x => x <> None) V B HS) as HZ. rewrite E1 in HZ. cbn [fst] in HZ.
  pose proof (sf_rebuild V B) as HF. rewrite E1 in HF. cbn [fst] in HF. unfold flow_of in HF. injection HF as F1 F2 F3 F4 F5 F6 F7 F8.
  assert (HA : exists B2, bay_aero false B1 = (B2, Ok tt) /\ exists M', by_Mach B2 = Some M' /\ 1 <= M').
  { unfold bay_aero. unfold bbind at 1, bget. destruct (by_beta B1). { eexists. split; [reflexivity|]. rewrite F5. eauto. }
    rewrite F5, C5. destruct (Rlt_dec M 1); [lra|]. rewrite <- F3 in C2. rewrite <- F6 in C3. rewrite <- F4 in C4. unfold bbind.
    destruct (Req_EM_T M 1); unfold bmod, bret; destruct (by_rho_air B1), (by_V B1), (by_speed_sound B1); try congruence; eexists; (split; [reflexivity|]); eexists; (split; [first [reflexivity|rewrite F5; exact C5]|lra]). }
  destruct HA as (B2 & E2 & M' & HM1 & HM2). unfold bbind at 1. rewrite E2. unfold bbind at 1, bget.
  destruct (aero_run _ _ E2) as (P1 & P2 & P3 & P4 & P5 & P6 & P7).
  pose proof (i_panels _ _ _ (st_inv _ _ _ S1)) as HP. rewrite <- P1 in HP. destruct (by_panels B2) as [|q l] eqn:EQ.
  { inversion HP as [EA|]. destruct (rd_some _ HR). symmetry; exact EA. }
  destruct (by_size B2) as [n|] eqn:ES; [|rewrite <- P2 in HZ; destruct HZ; reflexivity].
  inversion HP as [|p0 p' l0 l' HP0 HPl EA EB]; subst. pose proof (p_inv_model V _ _ HP0) as HM.
  destruct (by_flow_x B) as [fx|] eqn:EF; [|destruct C1; reflexivity].
  destruct (calc_kA_ok (b_env V) SNone 0 0 false (give_aero B2 q) (chosen_model p0) fx) as (q' & K & HK).
  - exact HM.
  - cbn. congruence.
  - right. exists M'. destruct (by_rho_air B) as [rho|] eqn:X1; [|destruct C2; reflexivity]. destruct (by_V B) as [U|] eqn:X2; [|destruct C3; reflexivity]. exists rho, U. cbn.
    split; [exact HM1|]. split; [exact HM2|]. split; congruence.
  - cbn. lia.
  - cbn. lia.
  - unfold bbind, on_skin. rewrite EQ. cbn [nth_error]. rewrite HK. do 2 eexists. reflexivity.
Qed.

(* a bay with one panel and no stiffener is ready for another call *)
Lemma same_model_refl m : same_model (Some (Known m)) (Some (Known m)) = true. Proof. destruct m; reflexivity. Qed.
Lemma ready_again V B B1 K p rho ss M U : bay_ready B -> by_panels B = [p] -> by_s1 B = [] -> by_s2 B = [] -> bay_kA V B = (B1, Ok K) -> bay_ready (new_flow B1 rho ss M U) /\ by_size B1 <> None.
Proof.
  intros HR HP H1 H2 H. destruct (rd_parts _ HR p) as (HC & S1 & S2); [rewrite HP; left; reflexivity|]. destruct (rebuild_ok (b_env V) p (proj1 HC)) as [p1 ER].
  destruct (rebuild_inv _ _ _ _ ER) as (R1 & R2 & R3 & _).
  assert (HE : bay_rebuild V B = (set_bmodel (set_panels B [p1]) (Some (Known (chosen_model p))), Ok tt)).
  { unfold bay_rebuild, bbind, each_panel, each_s1, bget. rewrite HP. cbn [length each]. unfold bbind, on_skin. rewrite HP. cbn [nth_error]. rewrite ER. cbn [set_at].
    cbn [set_panels by_set by_panels nth_error by_model]. rewrite R3. destruct B as [b1 b2 b3 b4 b5 b6 b7 b8 b9 b10 b11 b12 b13 b14 b15 b16 b17 b18 b19 b20 b21].
    destruct (rd_model _ HR p) as [E|E]; [rewrite HP; left; reflexivity| |]; cbn in *; subst; cbn; idtac. all: destruct (chosen_model p); reflexivity. }
  unfold bay_kA in H. unfold bbind at 1 in H. rewrite HE in H.
  destruct (bind_run _ _ _ _ _ H) as [(B2 & v & H3 & Hn)|(e & _ & HX)]; [clear H; rename Hn into H|discriminate HX]. destruct v.
  assert (HB2 : exists x, B2 = set_bMach (set_bmodel (set_panels B [p1]) (Some (Known (chosen_model p)))) x).
  { unfold bay_aero in H3. unfold bbind at 1, bget in H3. destruct (by_beta _). { apply pair_equal_spec in H3. destruct H3 as [<- _]. eexists. reflexivity. }
    destruct (by_Mach _) as [m|]; [|discriminate]. destruct (Rlt_dec m 1); [discriminate|]. unfold bbind in H3.
    destruct (Req_EM_T m 1); unfold bmod, bret in H3; repeat match type of H3 with context [match by_rho_air ?b with _ => _ end] => destruct (by_rho_air b) | context [match by_V ?b with _ => _ end] => destruct (by_V b) | context [match by_speed_sound ?b with _ => _ end] => destruct (by_speed_sound b) end; try discriminate;
      apply pair_equal_spec in H3; destruct H3 as [<- _]; eexists; reflexivity. }
  destruct HB2 as [x ->]. unfold bbind at 1, bget in H. cbn [set_bMach set_bmodel set_panels by_set by_panels by_size] in H.
  destruct (by_size B) as [n|] eqn:ES; [|discriminate].
  destruct (bind_run _ _ _ _ _ H) as [(B3 & K0 & H4 & Hn)|(e & _ & HX)]; [clear H; rename Hn into H|discriminate HX].
  unfold on_skin in H4. cbn [set_bMach set_bmodel set_panels by_set by_panels nth_error] in H4.
  match type of H4 with context [give_aero ?b p1] => set (q := give_aero b p1) in * end.
  pose proof (soft_kA (b_env V) SNone 0 0 false q) as HS. destruct (calc_kA (b_env V) SNone 0 0 false q) as [q1 r1] eqn:EK. cbn [fst] in HS.
  destruct HS as [[Y1 Y2 Y3 Y4 Y5 Y6 Y7 Y8 Y9 Y10] E2 E3 E4 E5 E6 E7 E8 E9 E10 E11 E12]; [exists (chosen_model p); exact R3|].
  apply pair_equal_spec in H4. destruct H4 as [<- ->]. unfold bret in H. apply pair_equal_spec in H. destruct H as [<- _].
  cbn [new_flow by_size set_panels by_set]. split; [|cbn; rewrite ?ES; discriminate].
  assert (HCM : chosen_model q1 = chosen_model p). { unfold chosen_model at 1. rewrite E4. cbn. rewrite R3. reflexivity. }
  assert (HC1 : part_ready p1).
  { apply (alike_ready p); [|exact HC]. apply (p_inv_alike V). exists p1. split; [exact ER|]. apply eqv_refl. exists (chosen_model p). exact R3. }
  cbn in Y1, Y2, E10, E11. destruct R1.
  constructor; cbn [new_flow by_panels by_s1 by_s2 by_model by_sh set_panels set_at by_set].
  - discriminate.
  - intros p0 [<-|[]]. cbn in *. split; [|split; congruence]. destruct HC1 as [(G1 & G2 & G3 & G4) G5]. split; [|congruence].
    split; [rewrite E4; cbn; congruence|]. split; [congruence|]. split; [rewrite E11, E2; exact G3|rewrite E10; cbn in Y3; rewrite Y3; exact G4].
  - intros p0 q0 [<-|[]] [<-|[]]. split; reflexivity.
  - intros p0 [<-|[]]. right. rewrite HCM. reflexivity.
  - cbn. rewrite H1. intros s [].
  - cbn. rewrite H2. intros s [].
Qed.
Theorem bay_kA_total V B : built V B -> bay_ready B -> by_size B <> None -> complete_flow B -> exists B' K, bay_kA V B = (B', Ok K).
Proof. intros HB. apply bay_kA_runs. exact (built_good _ _ HB). Qed.
Lemma good_new_flow B rho ss M U : good B -> good (new_flow B rho ss M U).
Proof. intros []. constructor; assumption. Qed.
