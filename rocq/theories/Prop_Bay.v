(* Stiffened bays (StiffPanelBay): size, slices, matrices, failures. A bay is any built bay (Spec_Bay.v): made
   by add_panel, add_bladestiff1d and add_bladestiff2d and any other calls in any order. The parts of its
   matrices and their work are in Spec_BayWork.v; alone_kC, alone_kG and alone_kM are the matrices one panel
   returns when asked alone. *)
From Coq Require Import Reals List Arith Bool Lia Lra.
From Coquelicot Require Import Coquelicot.
From Verif Require Import Base_Sum Model_Types Model_Coo Model_Result Model_Num Model_DB Model_Shell Model_Fext Model_Multi Model_New Model_StiffKer Model_Bay
  Spec_Algebra Spec_Panel Spec_Shell Spec_Kinematics Spec_Quadrature Spec_Integral Spec_Bardell Spec_Rebuild Spec_Window Spec_Stiff Spec_Bay Spec_BayWork Spec_BayCalls
  Proof_BayMade Proof_BayWork Proof_BayTotal Proof_BayCalls Proof_BayTop Ex_Panel Ex_Exact Ex_Multi Ex_Rebuild Ex_Bay.
Import ListNotations.
Open Scope R_scope.

(* ------------------------------------------------- C47 *)
Theorem C47_size_is_skin_and_flanges : forall B B' n, bay_size B = (B', Ok n) ->
  n = (skin_dim B + list_sum (map flange_dim (by_s2 B)))%nat /\ by_size B' = Some n.
Proof. intros B B' n H. destruct (size_value _ _ _ H) as (-> & H1 & _). split; [|exact H1]. unfold bay_dim, flanges_dim. f_equal. induction (by_s2 B) as [|s l IH]; cbn; [reflexivity|]. rewrite IH. reflexivity. Qed.
Print Assumptions C47_size_is_skin_and_flanges.
(* the slices start after the skin, lie inside the matrix, follow each other and cover it *)
Theorem C47_slices : forall B,
  (forall j s, nth_error (by_s2 B) j = Some s -> (skin_dim B <= slice_of B j)%nat /\ (slice_of B j + flange_dim s <= bay_dim B)%nat) /\
  (forall j k s, (j < k)%nat -> nth_error (by_s2 B) j = Some s -> (slice_of B j + flange_dim s <= slice_of B k)%nat) /\
  (forall k, (k < bay_dim B)%nat -> (k < skin_dim B)%nat \/ exists j s, nth_error (by_s2 B) j = Some s /\ (slice_of B j <= k < slice_of B j + flange_dim s)%nat).
Proof. intro B. split; [apply slice_fits|]. split; [intros; eapply slices_apart; eassumption|apply slices_cover]. Qed.
Print Assumptions C47_slices.
(* two flanges act on each other only through the skin *)
Theorem C47_flanges_are_not_coupled : forall V B B' K, built V B ->
  (forall p, In p (by_panels B) -> sh_m (pn_sh p) = sh_m (by_sh B) /\ sh_n (pn_sh p) = sh_n (by_sh B)) ->
  bay_kC V B = (B', Ok K) -> forall j k s u x y, j <> k -> nth_error (by_s2 B) j = Some s -> nth_error (by_s2 B) k = Some u ->
  (x < flange_dim s)%nat -> (y < flange_dim u)%nat -> K (slice_of B j + x)%nat (slice_of B k + y)%nat = 0.
Proof. intros V B B' K HB HS H. exact (flanges_apart V B HB HS B' K H). Qed.
Print Assumptions C47_flanges_are_not_coupled.
(* a stiffener with a pad and no flange can be added, and then no matrix is returned *)
Theorem C47_flange_needed : forall V B s, built V B -> In s (by_s2 B) -> s2_flange s = None ->
  forall B' K c, bay_kC V B <> (B', Ok K) /\ bay_kG V c B <> (B', Ok K) /\ bay_kM V B <> (B', Ok K).
Proof. intros V B s HB Hs Hf B' K c. split; [|split]; intro H; unfold bay_kC, bay_kG, bay_kM in H; exact (flanges_needed V _ _ _ B B' K HB H s Hs Hf). Qed.
Print Assumptions C47_flange_needed.
Definition bay_pad : bay := fst (add_bladestiff2d bay_env 1 None (1/2) (1/2) (Ok ex_def) (Ok None) 1 1 bay_1d).
Theorem C47_pad_only_refuted : exists V B s, built V B /\ In s (by_s2 B) /\ s2_flange s = None /\ s2_base s <> None /\
  forall B' K, bay_kC V B <> (B', Ok K).
Proof.
  assert (HB : built bay_env bay_pad) by apply built_2d, bay_1d_built.
  assert (HS : exists s, by_s2 bay_pad = [s] /\ s2_flange s = None /\ s2_base s <> None).
  { unfold bay_pad. rewrite bay_1d_eq. unfold add_bladestiff2d, ex_def. unfold bbind at 1 2, blift at 1 2. cbv iota beta. unfold bbind at 1, bget. unfold bbind, blift.
    erewrite pick; [|reflexivity..]. cbn. eexists. split; [reflexivity|]. split; [reflexivity|discriminate]. }
  destruct HS as (s & E1 & E2 & E3). exists bay_env, bay_pad, s. assert (HI : In s (by_s2 bay_pad)) by (rewrite E1; left; reflexivity).
  split; [exact HB|]. split; [exact HI|]. split; [exact E2|]. split; [exact E3|]. intros B' K. exact (proj1 (C47_flange_needed _ _ s HB HI E2 B' K None)).
Qed.
Print Assumptions C47_pad_only_refuted.
Example C47_case : built bay_env bay_2d /\ bay_dim bay_2d = 6%nat /\ slice_of bay_2d 0 = 3%nat /\ exists B' K, bay_kC bay_env bay_2d = (B', Ok K).
Proof.
  split; [exact bay_2d_built|]. split; [rewrite bay_2d_eq; reflexivity|]. split; [rewrite bay_2d_eq; reflexivity|].
  exact (bay_kC_total bay_env bay_2d bay_2d_ready (built_good bay_env bay_2d bay_2d_built)).
Qed.

(* ------------------------------------------------- C61 *)
Section C61.
Variables (V : benv) (B : bay) (n : nat).
Notation E := (b_env V). Notation N := (bay_dim B).
Hypothesis HB : built V B.
Hypothesis HT : tables_integrate (e_tables E) (e_basis E) n.
Hypothesis Hn : bay_terms B n.
Hypothesis HL : bay_lengths B.
Variables (c d : nat -> R).
Theorem C61_stiffness_is_work_of_parts : forall B' K, bay_kC V B = (B', Ok K) -> exists Ws W1s W2s,
  Forall2 (fun p W => own_work (alone_kC E) N 0 p c d W) (by_panels B) Ws /\
  Forall2 (stiff1_work V B N c d) (by_s1 B) W1s /\ at_slices B (stiff2_work V B N c d) W2s /\
  bilinear N K c d = total_work Ws + total_work W1s + total_work W2s.
Proof using HB HT Hn HL. exact (kC_is_work V B n HB HT Hn HL c d). Qed.
Theorem C61_geometric_stiffness_is_work_of_parts : forall cc B' K, bay_kG V cc B = (B', Ok K) ->
  (cc <> None -> by_s1 B = []) /\ exists Ws W1s W2s,
  Forall2 (fun p W => own_work (alone_kG E cc) N 0 p c d W) (by_panels B) Ws /\
  Forall2 (stiff1_geo V B c d) (by_s1 B) W1s /\ at_slices B (stiff2_geo V N c d) W2s /\
  bilinear N K c d = total_work Ws + total_work W1s + total_work W2s.
Proof using HB HT Hn HL. exact (kG_is_work V B n HB HT Hn HL c d). Qed.
Theorem C61_mass_is_work_of_parts : forall B' K, bay_kM V B = (B', Ok K) ->
  (forall s p, In s (by_s2 B) -> s2_base s = Some p \/ s2_flange s = Some p -> geometry_ok (chosen_model p) (kernel_view p)) ->
  (forall s, In s (by_s1 B) -> s1_bdef s = None) /\ exists Ws W1s W2s,
  Forall2 (fun p W => own_work (alone_kM E) N 0 p c d W) (by_panels B) Ws /\
  Forall2 (stiff1_inertia V B c d) (by_s1 B) W1s /\ at_slices B (stiff2_inertia V c d) W2s /\
  bilinear N K c d = total_work Ws + total_work W1s + total_work W2s.
Proof using HB HT Hn HL. exact (kM_is_work V B n HB HT Hn HL c d). Qed.
End C61.
Print Assumptions C61_stiffness_is_work_of_parts.
Print Assumptions C61_geometric_stiffness_is_work_of_parts.
Print Assumptions C61_mass_is_work_of_parts.
Example C61_case : built bay_env bay_2d /\ tables_integrate (e_tables (b_env bay_env)) (e_basis (b_env bay_env)) 1 /\ bay_terms bay_2d 1 /\ bay_lengths bay_2d /\
  (exists B' K, bay_kC bay_env bay_2d = (B', Ok K)) /\ (exists B' K, bay_kG bay_env None bay_2d = (B', Ok K)).
Proof.
  split; [exact bay_2d_built|]. split; [exact two_tables|]. split; [apply bay_2d_terms|]. split; [apply bay_2d_terms|].
  split; [exact (bay_kC_total bay_env bay_2d bay_2d_ready (built_good bay_env bay_2d bay_2d_built))|exact (bay_kG_total _ _ bay_2d_ready (built_good _ _ bay_2d_built))].
Qed.
Example C61_mass_case : built bay_env bay_mass /\ bay_terms bay_mass 1 /\ bay_lengths bay_mass /\ (exists B' K, bay_kM bay_env bay_mass = (B', Ok K)) /\
  (forall s p, In s (by_s2 bay_mass) -> s2_base s = Some p \/ s2_flange s = Some p -> geometry_ok (chosen_model p) (kernel_view p)).
Proof.
  split; [exact bay_mass_built|]. split; [apply bay_mass_terms|]. split; [apply bay_mass_terms|].
  split; [apply (bay_kM_total _ _ bay_mass_ready (built_good _ _ bay_mass_built)); rewrite bay_mass_eq; intros s Hs; cbn in Hs; destruct Hs as [<-|[]]; reflexivity|].
  rewrite bay_mass_eq. intros s p Hs Hp. cbn in Hs. destruct Hs as [<-|[]]. destruct Hp as [Hp|Hp]; cbn in Hp; [discriminate|]. injection Hp as <-. split; [cbn; lra|]; split; [cbn; lra|discriminate].
Qed.

(* ------------------------------------------------- C62 *)
Theorem C62_stiffness_is_returned : forall V B, built V B -> bay_ready B -> exists B' K, bay_kC V B = (B', Ok K).
Proof. intros V B HB HR. exact (bay_kC_total V B HR (built_good _ _ HB)). Qed.
Print Assumptions C62_stiffness_is_returned.
Theorem C62_geometric_stiffness_is_returned : forall V B, built V B -> bay_ready B -> exists B' K, bay_kG V None B = (B', Ok K).
Proof. intros V B HB HR. exact (bay_kG_total V B HR (built_good _ _ HB)). Qed.
Print Assumptions C62_geometric_stiffness_is_returned.
(* Missing: stiffeners with pads *)
Theorem C62_mass_is_returned_without_pads_partial : forall V B, built V B -> bay_ready B ->
  (forall s, In s (by_s1 B) -> s1_bdef s = None) -> (forall s, In s (by_s2 B) -> s2_base s = None) -> exists B' K, bay_kM V B = (B', Ok K).
Proof. intros V B HB HR. exact (bay_kM_total V B HR (built_good _ _ HB)). Qed.
Print Assumptions C62_mass_is_returned_without_pads_partial.
Example C62_case : built bay_env bay_2d /\ bay_ready bay_2d /\ built bay_env bay_mass /\ bay_ready bay_mass.
Proof. exact (conj bay_2d_built (conj bay_2d_ready (conj bay_mass_built bay_mass_ready))). Qed.
(* the matrices of a bay whose 1D stiffener has a pad: the stiffness is returned, the mass never *)
Theorem C62_padded_stiffener_has_no_mass : forall V B s, built V B -> In s (by_s1 B) -> s1_bdef s <> None -> forall B' K, bay_kM V B <> (B', Ok K).
Proof. intros V B s HB Hs Hp B' K. exact (padded_no_mass V B s B' K HB Hs Hp). Qed.
Print Assumptions C62_padded_stiffener_has_no_mass.
Theorem C62_mass_is_returned_refuted : exists V B, built V B /\ bay_ready B /\ (exists B' K, bay_kC V B = (B', Ok K)) /\
  forall B' K, bay_kM V B <> (B', Ok K).
Proof.
  exists bay_env, bay_padded. split; [exact bay_padded_built|]. split; [exact bay_padded_ready|].
  split; [exact (bay_kC_total bay_env bay_padded bay_padded_ready (built_good bay_env bay_padded bay_padded_built))|]. intros B' K.
  assert (HS : exists s, by_s1 bay_padded = [s] /\ s1_bdef s <> None) by (rewrite bay_padded_eq; eexists; split; [reflexivity|discriminate]).
  destruct HS as (s & E1 & E2). apply (padded_no_mass _ _ s _ _ bay_padded_built); [rewrite E1; left; reflexivity|exact E2].
Qed.
Print Assumptions C62_mass_is_returned_refuted.

(* ------------------------------------------------- C63 *)
(* Missing: the same stiffness for every division of the skin. Instead, k panels make the skin k times as
   stiff as one panel over the whole width. *)
Theorem C63_every_panel_counts_as_the_whole_skin_partial : forall V B p0, built V B -> by_s1 B = [] -> by_s2 B = [] ->
  (forall q, In q (by_panels B) -> exists x1 x2 y1 y2, q = limits p0 x1 x2 y1 y2) ->
  forall B1 K K0, bay_kC V B = (B1, Ok K) -> alone_kC (b_env V) (skin_dim B) 0 p0 K0 ->
  forall r t, K r t = INR (length (by_panels B)) * K0 r t.
Proof. exact skin_times. Qed.
Print Assumptions C63_every_panel_counts_as_the_whole_skin_partial.
(* the same skin in one panel and cut at y = 1 *)
Theorem C63_division_of_the_skin_refuted : exists V B,
  let whole := add_panel 0 2 [] [] None [] [] None None B in
  let cut := add_panel 1 2 [] [] None [] [] None None (add_panel 0 1 [] [] None [] [] None None B) in
  built V whole /\ built V cut /\ sh_b (by_sh B) = 2 /\ by_panels B = [] /\
  exists B1 B2 K1 K2, bay_kC V whole = (B1, Ok K1) /\ bay_kC V cut = (B2, Ok K2) /\ K2 0%nat 0%nat = 2 * K1 0%nat 0%nat /\ K1 0%nat 0%nat <> 0.
Proof.
  exists thin_V, thin_empty. cbv zeta. fold thin_one. fold thin_two. split; [exact thin_one_built|]. split; [exact thin_two_built|]. split; [reflexivity|]. split; [reflexivity|].
  destruct (bay_kC_total thin_V thin_one thin_one_ready (built_good thin_V thin_one thin_one_built)) as (B1 & K1 & H1). destruct (bay_kC_total thin_V thin_two thin_two_ready (built_good thin_V thin_two thin_two_built)) as (B2 & K2 & H2).
  exists B1, B2, K1, K2. split; [exact H1|]. split; [exact H2|]. destruct thin_skin_runs as (K0 & HK & H0).
  assert (E1 : K1 0%nat 0%nat = INR 1 * K0 0%nat 0%nat).
  { apply (skin_times thin_V thin_one thin_skin thin_one_built eq_refl eq_refl) with (B1 := B1); [|exact H1|exact HK]. intros q Hq. cbn in Hq. destruct Hq as [<-|[]]. exists (-1), 1, 0, 2. reflexivity. }
  assert (E2 : K2 0%nat 0%nat = INR 2 * K0 0%nat 0%nat).
  { apply (skin_times thin_V thin_two thin_skin thin_two_built eq_refl eq_refl) with (B1 := B2); [|exact H2|exact HK]. intros q Hq. cbn in Hq. destruct Hq as [<-|[<-|[]]]; [exists (-1), 1, 0, 1|exists (-1), 1, 1, 2]; reflexivity. }
  rewrite E1, E2, H0. cbn [INR]. split; [ring|]. pose proof thin_k_pos. lra.
Qed.
Print Assumptions C63_division_of_the_skin_refuted.

(* ------------------------------------------------- C64 *)
(* other limits y1 and y2 of the panels and other widths of the pads of 1D stiffeners: the same matrices *)
Theorem C64_limits_are_ignored : forall V B ps l, built V B -> panels_moved (by_panels B) ps -> pads_resized (by_s1 B) l ->
  let B' := set_s1 (set_panels B ps) l in
  (forall B1 B2 K K', bay_kC V B = (B1, Ok K) -> bay_kC V B' = (B2, Ok K') -> forall r t, K' r t = K r t) /\
  (forall B1 B2 K K', bay_kM V B = (B1, Ok K) -> bay_kM V B' = (B2, Ok K') -> forall r t, K' r t = K r t).
Proof. intros V B ps l HB HP HR. split; [exact (moved_kC V B ps l HB HP HR)|exact (moved_kM V B ps l HB HP HR)]. Qed.
Print Assumptions C64_limits_are_ignored.
(* a panel from y = 1 to y = 1 is as stiff as the skin *)
Theorem C64_panels_keep_to_their_strip_refuted : exists V B y, let B1 := add_panel y y [] [] None [] [] None None B in
  built V B1 /\ by_panels B = [] /\ by_s1 B = [] /\ by_s2 B = [] /\ exists B2 K, bay_kC V B1 = (B2, Ok K) /\ K 0%nat 0%nat <> 0.
Proof.
  exists thin_V, thin_empty, 1. cbv zeta. fold thin_none. split; [exact thin_none_built|]. do 3 (split; [reflexivity|]).
  destruct (bay_kC_total thin_V thin_none thin_none_ready (built_good thin_V thin_none thin_none_built)) as (B1 & K1 & H1). exists B1, K1. split; [exact H1|]. destruct thin_skin_runs as (K0 & HK & H0).
  assert (E1 : K1 0%nat 0%nat = INR 1 * K0 0%nat 0%nat).
  { apply (skin_times thin_V thin_none thin_skin thin_none_built eq_refl eq_refl) with (B1 := B1); [|exact H1|exact HK]. intros q Hq. cbn in Hq. destruct Hq as [<-|[]]. exists (-1), 1, 1, 1. reflexivity. }
  rewrite E1, H0. cbn [INR]. pose proof thin_k_pos. lra.
Qed.
Print Assumptions C64_panels_keep_to_their_strip_refuted.
Example C64_case : exists ps l, panels_moved (by_panels bay_padded) ps /\ pads_resized (by_s1 bay_padded) l /\ ps <> by_panels bay_padded /\ l <> by_s1 bay_padded.
Proof.
  rewrite bay_padded_eq. unfold bay_padded_value. cbn [by_panels by_s1]. eexists _, _.
  split; [constructor; [exists 5, 6; reflexivity|constructor; [exists 6, 7; reflexivity|constructor]]|]. split; [constructor; [exists 5; reflexivity|constructor]|].
  split; intro H.
  - apply (f_equal (fun l => match l with p :: _ => sh_y1 (pn_sh p) | [] => 0 end)) in H. cbn in H. lra.
  - apply (f_equal (fun l => match l with s :: _ => s1_bb s | [] => 0 end)) in H. cbn in H. lra.
Qed.

(* ------------------------------------------------- C65 *)
Theorem C65_stiffness_does_not_depend_on_earlier_calls : forall V B B', built V B -> bay_calls V B B' ->
  forall B1 B2 K K', bay_kC V B = (B1, Ok K) -> bay_kC V B' = (B2, Ok K') -> forall r t, K' r t = K r t.
Proof. exact calls_kC_same. Qed.
Print Assumptions C65_stiffness_does_not_depend_on_earlier_calls.
Theorem C65_geometric_stiffness_does_not_depend_on_earlier_calls : forall V c B B', built V B -> bay_calls V B B' ->
  forall B1 B2 K K', bay_kG V c B = (B1, Ok K) -> bay_kG V c B' = (B2, Ok K') -> forall r t, K' r t = K r t.
Proof. exact calls_kG_same. Qed.
Print Assumptions C65_geometric_stiffness_does_not_depend_on_earlier_calls.
Theorem C65_mass_does_not_depend_on_earlier_calls : forall V B B', built V B -> bay_calls V B B' ->
  forall B1 B2 K K', bay_kM V B = (B1, Ok K) -> bay_kM V B' = (B2, Ok K') -> forall r t, K' r t = K r t.
Proof. exact calls_kM_same. Qed.
Print Assumptions C65_mass_does_not_depend_on_earlier_calls.
Example C65_case : exists B' K, bay_calls bay_env bay_2d B' /\ B' <> bay_2d /\ bay_kC bay_env bay_2d = (B', Ok K).
Proof.
  destruct (bay_kC_total bay_env bay_2d bay_2d_ready (built_good bay_env bay_2d bay_2d_built)) as (B' & K & H). exists B', K. split; [eapply calls_kC; [apply calls_none|exact H]|]. split; [|exact H].
  intro HE. subst B'. apply (bay_kC_sets_size _ _ _ _ H). rewrite bay_2d_eq. reflexivity.
Qed.

(* ------------------------------------------------- C68 *)
(* Missing: panels whose thickness is given by plyt. *)
Theorem C68_pad_lies_below_the_skin_partial : forall V B ys rho bb bf D fd mf nf B',
  add_bladestiff2d V ys rho bb bf (Ok (Some D)) (Ok fd) mf nf B = (B', Ok tt) -> (forall p, In p (by_panels B) -> pn_plyts p <> []) ->
  exists s b h, by_s2 B' = by_s2 B ++ [s] /\ by_panels B' = by_panels B /\ s2_base s = Some b /\ beside B (s2_p1 s) (s2_p2 s) h /\
    pn_offset b = - (h + lam_height (Some D)) / 2.
Proof. exact pad_offset. Qed.
Print Assumptions C68_pad_lies_below_the_skin_partial.
(* a skin 1/8 thick, given by plyt, and a pad 1/8 thick: the middle of the pad is 1/16 below the mid-surface *)
Theorem C68_pad_below_the_skin_refuted : exists V B s b h, built V B /\ by_s2 B = [s] /\ s2_base s = Some b /\ beside B (s2_p1 s) (s2_p2 s) h /\
  pn_offset b <> - (h + lam_height (s2_bdef s)) / 2.
Proof.
  exists bay_env, bay_2d. rewrite bay_2d_eq. eexists _, _, (1 / 8). split; [rewrite <- bay_2d_eq; exact bay_2d_built|]. split; [reflexivity|]. split; [reflexivity|]. split.
  - eexists _, _. split; [reflexivity|]. split; [reflexivity|]. unfold thickness, rebuilt_plyts, suml. cbn. field.
  - unfold lam_height, suml. cbn. lra.
Qed.
Print Assumptions C68_pad_below_the_skin_refuted.

(* ------------------------------------------------- C69 *)
(* calc_cA never returns; calc_kA returns only after a call that sets size *)
Theorem C69_aerodynamic_damping_refuted : forall V B B' K, bay_cA V B <> (B', Ok K).
Proof. exact cA_never. Qed.
Print Assumptions C69_aerodynamic_damping_refuted.
Theorem C69_first_call_refuted : forall V B, assembled V B -> forall B' K, bay_kA V B <> (B', Ok K).
Proof. intros V B HB B' K. exact (kA_needs_size V B B' K (assembled_size V B HB)). Qed.
Print Assumptions C69_first_call_refuted.
(* a completely defined bay with complete flow data *)
Definition bay_flow : bay := add_panel 0 2 [] [] None [] [] None None
  (mkBay thin_shell None None [0] (Some 1) [] [1] [] 1300 [] [] [] [] [] None (Some true) None (Some 1) (Some 300) (Some 2) (Some 600)).
Example C69_case : assembled thin_V bay_flow /\ bay_ready bay_flow /\ by_flow_x bay_flow = Some true /\ by_rho_air bay_flow = Some 1 /\
  by_speed_sound bay_flow = Some 300 /\ by_Mach bay_flow = Some 2 /\ by_V bay_flow = Some 600.
Proof.
  split; [apply asm_panel, asm_new; reflexivity|]. split; [|repeat split; reflexivity].
  constructor; cbn [bay_flow add_panel by_panels by_s1 by_s2 by_model by_sh].
  - discriminate.
  - each_in; ready_skin.
  - intros p q Hp Hq. cbn in Hp, Hq. destruct Hp as [<-|[]], Hq as [<-|[]]; split; reflexivity.
  - each_in; left; reflexivity.
  - each_in.
  - each_in.
Qed.
