(* Properties of _rebuild, of the checks of Ritz vectors, and of sequences of calls: C50, C51, C55, C56. *)
From Coq Require Import Reals List Arith Bool Lia Lra.
From Verif Require Import Base_Sum Model_Types Model_Coo Model_Result Model_Num Model_DB Model_Bardell Model_Shell Model_Field Model_Fext
  Spec_Panel Spec_Shell Spec_Rebuild Proof_Shell Proof_FieldEdge Proof_Total Proof_FintApi Proof_Hist Ex_Panel Ex_Exact Ex_Rebuild.
Import ListNotations.
Open Scope R_scope.

(* C50: a second _rebuild changes nothing. *)
Theorem C50_idempotent E p p1 u : rebuild E p = (p1, Ok u) -> rebuild E p1 = (p1, Ok u).
Proof. exact (rebuild_idem E p p1 u). Qed.
Print Assumptions C50_idempotent.

(* C50: _rebuild succeeds exactly when the panel is completely defined; otherwise it raises ValueError. *)
Theorem C50_fails_exactly_when_incomplete E p :
  (complete p -> exists p1, rebuild E p = (p1, Ok tt)) /\
  (~ complete p -> exists p1, rebuild E p = (p1, Err ValueError)).
Proof.
  split; intro H.
  - apply rebuild_ok. exact H.
  - destruct (rebuild E p) as [p1 [u|e]] eqn:Hp.
    + exfalso. apply H. apply status_complete. apply (rebuild_ok_iff E p). exists p1, u. exact Hp.
    + exists p1. rewrite (rebuild_err E p p1 e Hp). reflexivity.
Qed.
Print Assumptions C50_fails_exactly_when_incomplete.

(* C50: what the user set stays, what was missing is filled. Missing for the full claim: the numbers of
   integration points, raised to m and n, and ABD (C50_refuted). *)
Theorem C50_user_values_kept_partial E p p1 u : rebuild E p = (p1, Ok u) ->
  (* geometry, numbers of terms, edges, limits, stacking, single values and loads *)
  (pn_sh p1 = pn_sh p /\ pn_r p1 = pn_r p /\ pn_stack p1 = pn_stack p /\ pn_plyt p1 = pn_plyt p /\ pn_laminaprop p1 = pn_laminaprop p /\
   pn_rho p1 = pn_rho p /\ pn_offset p1 = pn_offset p /\ pn_ortho p1 = pn_ortho p /\ pn_N p1 = pn_N p /\ pn_N_cte p1 = pn_N_cte p /\
   pn_flow_x p1 = pn_flow_x p /\ pn_beta p1 = pn_beta p /\ pn_gamma p1 = pn_gamma p /\ pn_rho_air p1 = pn_rho_air p /\
   pn_Mach p1 = pn_Mach p /\ pn_V p1 = pn_V p) /\
  (* enough integration points *)
  ((sh_m (pn_sh p) <= pn_nx p)%nat -> pn_nx p1 = pn_nx p) /\ ((sh_n (pn_sh p) <= pn_ny p)%nat -> pn_ny p1 = pn_ny p) /\
  (sh_m (pn_sh p) <= pn_nx p1)%nat /\ (sh_n (pn_sh p) <= pn_ny p1)%nat /\
  (* values per ply, given or repeated *)
  (pn_plyts p <> [] -> pn_plyts p1 = pn_plyts p) /\ (forall t, pn_plyts p = [] -> pn_plyt p = Some t -> pn_plyts p1 = repeat t (length (pn_stack p))) /\
  (pn_laminaprops p <> [] -> pn_laminaprops p1 = pn_laminaprops p) /\ (pn_laminaprops p = [] -> pn_laminaprops p1 = repeat (pn_laminaprop p) (length (pn_stack p))) /\
  (pn_rhos p <> [] -> pn_rhos p1 = pn_rhos p) /\ (pn_rhos p = [] -> pn_rhos p1 = repeat (pn_rho p) (length (pn_stack p))) /\
  (* the model, given or chosen by the radius *)
  (forall m, pn_model p = Some m -> pn_model p1 = Some m) /\
  (pn_model p = None -> pn_r p = None -> pn_model p1 = Some (Known PlateModel)) /\
  (forall r, pn_model p = None -> pn_r p = Some r -> pn_model p1 = Some (Known CylModel)).
Proof.
  intro H. destruct (rebuild_inv _ _ _ _ H) as (A1 & A2 & A3 & A4 & A5 & A6 & A7 & A8 & A9 & A10 & A11 & A12 & A13 & A14 & A15 & A16 & A17 & _).
  assert (M : forall A (x : A) (l : list R), map (fun _ => x) l = repeat x (length l)).
  { intros A x l. induction l as [|a l IH]; cbn; [reflexivity|rewrite IH; reflexivity]. }
  destruct A1. unfold rebuilt_plyts, rebuilt_props, rebuilt_rhos, chosen_model in *.
  split; [repeat split; assumption|].
  split; [intro; lia|]. split; [intro; lia|]. split; [lia|]. split; [lia|].
  split; [intro G; rewrite A9; destruct (pn_plyts p); [congruence|reflexivity]|].
  split; [intros t G Ht; rewrite A9, G, Ht; cbn [default]; apply M|].
  split; [intro G; rewrite A10; destruct (pn_laminaprops p); [congruence|reflexivity]|].
  split; [intro G; rewrite A10, G; apply M|].
  split; [intro G; rewrite A11; destruct (pn_rhos p); [congruence|reflexivity]|].
  split; [intro G; rewrite A11, G; apply M|].
  split; [intros m G; rewrite A3, G; destruct m; [reflexivity|congruence]|].
  split; [intros G Hr; rewrite A3, G, Hr; reflexivity|].
  intros r G Hr; rewrite A3, G, Hr; reflexivity.
Qed.
Print Assumptions C50_user_values_kept_partial.

(* C50 is false as stated: the laminate matrix the user assigned is overwritten. *)
Theorem C50_refuted : exists E p F p1 G, complete p /\ rebuild E (with_ABD p F) = (p1, Ok tt) /\ pn_ABD p1 = Some G /\ F 0%nat 0%nat <> G 0%nat 0%nat.
Proof.
  destruct (rebuild_ok thin_env (with_ABD (thin_panel 1 1) (fun _ _ => 2)) (thin_complete 1 1)) as [p1 H].
  destruct (rebuild_inv _ _ _ _ H) as (_ & _ & _ & _ & _ & _ & _ & A8 & _).
  exists thin_env, (thin_panel 1 1), (fun _ _ => 2), p1. eexists. split; [apply thin_complete|].
  split; [exact H|]. split; [exact A8|]. cbn. lra.
Qed.
Print Assumptions C50_refuted.

Example C50_case r : exists p1, rebuild ex_env (ex_panel r) = (p1, Ok tt).
Proof. apply rebuild_ok. apply ex_complete. Qed.

(* C51: calc_kC, calc_kG and calc_kT refuse a vector that does not have the size of the matrix: TypeError when it is not an
   array, ValueError otherwise. Missing for the full claim: calc_fint and the fields (C51_refuted). *)
Theorem C51_wrong_vector_refused_partial E A p c : complete p -> ka_c A = Some c ->
  ~ vector_ok (size_value (ka_size A) (pn_sh p)) (Some c) ->
  let e := match c with CObj => TypeError | _ => ValueError end in
  snd (calc_kC E A p) = Err e /\ snd (calc_kG E A p) = Err e /\ snd (calc_kT E A p) = Err e.
Proof.
  intros Hc HA Hv. cbv zeta. split; [|split].
  - exact (kC_bad E A p c Hc HA Hv).
  - exact (kG_bad E A p c Hc HA Hv).
  - exact (kT_bad E A p c Hc HA Hv).
Qed.
Print Assumptions C51_wrong_vector_refused_partial.

(* the same for the vector of the constant stress state *)
Theorem C51_wrong_constant_vector_refused_partial E A p p' K : calc_kC E A p = (p', Ok K) ->
  vector_ok (size_value (ka_size A) (pn_sh p)) (ka_c_cte A).
Proof. exact (kC_cte_ok E A p p' K). Qed.
Print Assumptions C51_wrong_constant_vector_refused_partial.

Example C51_case : exists c, ~ vector_ok (size_value SNone ex_shell) (Some c).
Proof. exists (CVec [1; 2]). cbn. lia. Qed.

(* C51 is false of calc_fint and uvw: a vector longer than the size is accepted, *)
Theorem C51_refuted : exists E p c q u, (length c > size_value SNone (pn_sh p))%nat /\
  calc_fint E c SNone 0 None None None p = (q, Ok u) /\
  exists XY f, shell_uvw (fun l => l) vec_basis 1 c None None 2 2 p = (p, Ok (XY, f)).
Proof.
  destruct (rebuild_ok thin_env (thin_panel 1 1) (thin_complete 1 1)) as [p1 H].
  destruct (rebuild_inv _ _ _ _ H) as (A1 & _ & A3 & _ & _ & _ & _ & A8 & _).
  destruct (calc_fint_ok thin_env [1; 2; 3; 4; 5] SNone 0 None None None p1 _ A3) as (q & u & F).
  - exact I.
  - intros _. rewrite A8. discriminate.
  - rewrite (si_sh _ _ A1). cbn. lia.
  - rewrite (si_sh _ _ A1). cbn. lia.
  - exists thin_env, p1, [1; 2; 3; 4; 5], q, u. split; [rewrite (si_sh _ _ A1); cbn; lia|]. split; [exact F|].
    unfold shell_uvw, mbind, mget, mlift, the_model. rewrite A3, (si_sh _ _ A1). cbn [default_field meshgrid linspace].
    unfold default_field, meshgrid. cbn -[Rmult Rdiv INR fuvw kernel_view].
    unfold fuvw, field_guard. unfold kernel_view. cbn -[Rmult Rdiv INR field_arrays pn_sh]. rewrite (si_sh _ _ A1). cbn -[Rmult Rdiv INR field_arrays].
    do 2 eexists. reflexivity.
Qed.
Print Assumptions C51_refuted.

(* and a shorter one makes calc_fint read beyond the end of the vector, for every panel. *)
Theorem C51_short_vector_read_out_of_bounds E p c mdl : pn_model p = Some (Known mdl) -> pn_ABD p <> None ->
  (length c < 3 * (sh_m (pn_sh p) * sh_n (pn_sh p)))%nat -> snd (calc_fint E c SNone 0 None None None p) = Err OutOfBounds.
Proof.
  intros Hm HF Hc.
  unfold calc_fint, mbind, mget. rewrite Hm. unfold eval_size, get_size, the_model, mbind, mget, mmod, mret. rewrite Hm.
  unfold fix_r, mmod, mlift. cbn -[calc_fint_num Nat.ltb Nat.mul kernel_view].
  destruct (pn_ABD p) as [F|]; [|congruence].
  assert (Hn : forall s nx ny, exists u, calc_fint_num mdl (e_rule E) (e_basis E) (vec c) (FMat F) s 0 nx ny = Ok u) by (intros; destruct mdl; eexists; reflexivity).
  match goal with |- context [calc_fint_num _ _ _ _ _ ?s 0 ?nx ?ny] => destruct (Hn s nx ny) as [u ->] end.
  replace (length c <? _)%nat with true; [reflexivity|]. symmetry. apply Nat.ltb_lt. exact Hc.
Qed.
Print Assumptions C51_short_vector_read_out_of_bounds.

(* C55: a stacking sequence with as many plies and an offset assigned after a calculation are used by the next one, as if the
   panel had been defined so. Missing for the full claim: the thickness and the material (C55_refuted). *)
Theorem C55_stack_and_offset_followed_partial E A p p' K st off : calc_kC E A p = (p', Ok K) -> length st = length (pn_stack p) ->
  snd (calc_kC E A (with_stack p' st off)) = snd (calc_kC E A (with_stack p st off)).
Proof.
  intros H Hn. destruct (kC_lists _ _ _ _ _ H) as (L1 & L2 & L3 & L4 & L5 & HA).
  destruct (calc_kC_inv _ _ _ _ _ H) as (mdl & kC & kG & R). destruct (kr_rebuild _ _ _ _ _ _ _ _ R) as (p1 & ER & S).
  assert (Hc : exists p1 u, rebuild E p = (p1, Ok u)) by (exists p1, tt; exact ER).
  apply (rebuild_ok_iff E p) in Hc. destruct Hc as (_ & C2 & C3 & C4).
  apply kC_alike0. apply stack_followed; assumption.
Qed.
Print Assumptions C55_stack_and_offset_followed_partial.

(* C55: a ply thickness and lamina properties assigned after a calculation are ignored, for every panel *)
Theorem C55_thickness_and_material_ignored E A p p' K t lp : calc_kC E A p = (p', Ok K) ->
  snd (calc_kC E A (with_plyt p' t)) = Ok K /\ snd (calc_kC E A (with_laminaprop p' lp)) = Ok K.
Proof.
  intro H. destruct (kC_lists _ _ _ _ _ H) as (L1 & L2 & L3 & L4 & L5 & HA).
  rewrite (kC_alike0 E A p' (with_plyt p' t)) by (apply plyt_ignored; exact L4).
  rewrite (kC_alike0 E A p' (with_laminaprop p' lp)) by (apply prop_ignored; exact L5).
  rewrite (kC_alike E A p p' HA), H. split; reflexivity.
Qed.
Print Assumptions C55_thickness_and_material_ignored.

(* C55 is false: a panel whose ply thickness is doubled after a first calculation keeps its stiffness, one defined with that
   thickness has twice the stiffness. *)
Theorem C55_refuted : exists E A p p' K t K2, calc_kC E A p = (p', Ok K) /\
  snd (calc_kC E A (with_plyt p' t)) = Ok K /\ snd (calc_kC E A (with_plyt p t)) = Ok K2 /\ K2 0%nat 0%nat = 2 * K 0%nat 0%nat /\ K2 0%nat 0%nat <> K 0%nat 0%nat.
Proof.
  destruct (thin_again 1 1) as (p' & K & H & HK & HA). destruct (thin_runs 2 1) as (p2 & K2 & H2 & HK2).
  exists thin_env, thin_args, (thin_panel 1 1), p', K, 2, K2. split; [exact H|]. split; [apply HA|].
  split; [change (with_plyt (thin_panel 1 1) 2) with (thin_panel 2 1); rewrite H2; reflexivity|].
  rewrite HK, HK2. split; [ring|]. pose proof thin_k_pos. lra.
Qed.
Print Assumptions C55_refuted.

(* C56: the stiffness, geometric stiffness, tangent stiffness and external force returned (or the error raised) do not depend
   on the calculations made before, whatever these were and whether they succeeded. Missing for the full claim: calc_kM and
   calc_fint, which need a panel already rebuilt (next theorem, C56_refuted), and calc_kA (C27). *)
Theorem C56_earlier_calls_do_not_matter_partial E l p :
  (forall A, snd (calc_kC E A (history E l p)) = snd (calc_kC E A p)) /\
  (forall A, snd (calc_kG E A (history E l p)) = snd (calc_kG E A p)) /\
  (forall A, snd (calc_kT E A (history E l p)) = snd (calc_kT E A p)) /\
  (forall Bs L inc sz col0, snd (calc_fext E Bs L inc sz col0 (history E l p)) = snd (calc_fext E Bs L inc sz col0 p)).
Proof.
  pose proof (history_alike E l p) as H. split; [|split; [|split]]; intros.
  - apply kC_alike. exact H.
  - apply kG_alike. exact H.
  - apply kT_alike. exact H.
  - apply fext_alike. exact H.
Qed.
Print Assumptions C56_earlier_calls_do_not_matter_partial.

(* C56 for calc_kM and calc_fint: on a panel already rebuilt *)
Theorem C56_mass_and_internal_force_of_rebuilt_panel E l p : rebuild E p = (p, Ok tt) ->
  (forall sz row0 col0 h rho nx ny fin, snd (calc_kM E sz row0 col0 h rho nx ny fin (history E l p)) = snd (calc_kM E sz row0 col0 h rho nx ny fin p)) /\
  (forall c sz col0 nx ny F, snd (calc_fint E c sz col0 nx ny F (history E l p)) = snd (calc_fint E c sz col0 nx ny F p)).
Proof.
  intro Hp. split; intros.
  - apply kM_history. exact Hp.
  - apply fint_history. exact Hp.
Qed.
Print Assumptions C56_mass_and_internal_force_of_rebuilt_panel.

Example C56_rebuilt_case : exists p, rebuild ex_env p = (p, Ok tt) /\ pn_sh p = ex_shell.
Proof.
  destruct (rebuild_ok ex_env (ex_panel None) (ex_complete None)) as [p1 H]. exists p1.
  split; [exact (rebuild_idem _ _ _ _ H)|]. destruct (rebuild_inv _ _ _ _ H) as (A1 & _). apply A1.
Qed.

(* C56 is false of calc_kM: on a new panel it raises KeyError, after another calculation it returns a matrix. *)
Theorem C56_refuted : exists E p l K, complete p /\
  snd (calc_kM E SNone 0 0 None None None None true p) = Err KeyError /\
  snd (calc_kM E SNone 0 0 None None None None true (history E l p)) = Ok K.
Proof.
  destruct (rebuild_ok thin_env (thin_panel 1 1) (thin_complete 1 1)) as [p1 H].
  destruct (rebuild_inv _ _ _ _ H) as (A1 & _ & A3 & _ & _ & _ & A7 & A8 & _).
  destruct (calc_kM_ok thin_env SNone 0 0 None None None None true p1 _ _ A3 A7) as (q & K & F).
  all: try (rewrite ?(si_sh _ _ A1); cbn; lia).
  all: try exact I.
  - exists thin_env, (thin_panel 1 1), [CRebuild], K. split; [apply thin_complete|]. split; [reflexivity|].
    unfold history. cbn [fold_left after]. rewrite H. cbn [fst]. exact (f_equal snd F).
Qed.
Print Assumptions C56_refuted.
