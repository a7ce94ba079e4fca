(* What the calls on a panel leave unchanged, and calculations on panels with the same definition. *)
From Coq Require Import Reals List Arith Bool Lia Lra.
From Verif Require Import Base_Sum Model_Types Model_Coo Model_Result Model_Num Model_DB Model_Shell Model_Fext
  Spec_Panel Spec_Shell Spec_Rebuild Proof_Shell Proof_FieldEdge Proof_Total.
Import ListNotations.
Open Scope R_scope.

Definition r0 (p : panel) : R := match pn_r p with Some r => r | None => 0 end.
Definition status (p : panel) : option model := match pn_model p with Some Unknown => None | _ => Some (chosen_model p) end.
Definition has_plyts (p : panel) : bool := match pn_plyts p, pn_plyt p with [], None => false | _, _ => true end.
Definition has_props (p : panel) : bool := match pn_laminaprops p, pn_laminaprop p with [], [] => false | _, _ => true end.

(* the two panels have the same definition *)
Record alike (p q : panel) : Prop := {
  al_in : same_inputs p q; al_prop : pn_laminaprop q = pn_laminaprop p;
  al_r : r0 q = r0 p; al_model : status q = status p;
  al_nx : Nat.max (pn_nx q) (sh_m (pn_sh q)) = Nat.max (pn_nx p) (sh_m (pn_sh p));
  al_ny : Nat.max (pn_ny q) (sh_n (pn_sh q)) = Nat.max (pn_ny p) (sh_n (pn_sh p));
  al_plyts : rebuilt_plyts q = rebuilt_plyts p; al_props : rebuilt_props q = rebuilt_props p; al_rhos : rebuilt_rhos q = rebuilt_rhos p;
  al_hp : has_plyts q = has_plyts p; al_hl : has_props q = has_props p }.

Lemma alike_refl p : alike p p.
Proof. constructor; try reflexivity. apply same_inputs_refl. Qed.
Lemma alike_trans p q r : alike p q -> alike q r -> alike p r.
Proof. intros [] []. constructor; try congruence. eapply same_inputs_trans; eassumption. Qed.
Lemma alike_sym p q : alike p q -> alike q p.
Proof. intros [[] ?]. constructor; try congruence. constructor; congruence. Qed.

(* the two panels are rebuilt to the same laminate *)
Record eqv (p q : panel) : Prop := {
  eq_in : same_inputs p q; eq_prop : pn_laminaprop q = pn_laminaprop p;
  eq_r : r0 q = r0 p; eq_model : pn_model q = pn_model p; eq_known : exists m, pn_model p = Some (Known m);
  eq_nx : pn_nx q = pn_nx p; eq_ny : pn_ny q = pn_ny p; eq_lam : pn_lam q = pn_lam p; eq_ABD : pn_ABD q = pn_ABD p;
  eq_plyts : pn_plyts q = pn_plyts p; eq_props : pn_laminaprops q = pn_laminaprops p; eq_rhos : pn_rhos q = pn_rhos p }.

Lemma eqv_trans p q r : eqv p q -> eqv q r -> eqv p r.
Proof. intros [] []. constructor; try congruence. - eapply same_inputs_trans; eassumption. Qed.
Lemma eqv_sym p q : eqv p q -> eqv q p.
Proof. intros [[] ? ? ? [m Hm]]. constructor; try congruence. - constructor; congruence. - exists m; congruence. Qed.

Lemma eqv_alike p q : eqv p q -> alike p q.
Proof.
  intros [H1 H2 H3 H4 [k Hk] H6 H7 H8 H9 H10 H11 H12]. pose proof H1 as HH. destruct HH.
  constructor; try assumption.
  - unfold status, chosen_model. rewrite H4, Hk. reflexivity.
  - rewrite H6. f_equal. rewrite si_sh. reflexivity.
  - rewrite H7. f_equal. rewrite si_sh. reflexivity.
  - unfold rebuilt_plyts. rewrite H10, si_plyt, si_stack. reflexivity.
  - unfold rebuilt_props. rewrite H11, H2, si_stack. reflexivity.
  - unfold rebuilt_rhos. rewrite H12, si_rho, si_stack. reflexivity.
  - unfold has_plyts. rewrite H10, si_plyt. reflexivity.
  - unfold has_props. rewrite H11, H2. reflexivity.
Qed.

Ltac unfold_panel := cbv [rebuild mbind mmod mget mret mraise mlift get_lam_ABD get_size the_model
       pn_sh pn_r pn_model pn_nx pn_ny pn_stack pn_plyt pn_plyts pn_laminaprop pn_laminaprops pn_rho pn_rhos
       pn_offset pn_ortho pn_lam pn_ABD pn_size pn_N pn_N_cte pn_flow_x pn_beta pn_gamma pn_rho_air pn_Mach pn_V
       pn_kC pn_kG pn_kT pn_kM pn_kA set_nxny set_model set_material set_lam set_size default fst snd] in *.

(* _rebuild keeps the definition, whether it succeeds or not *)
Lemma rebuild_alike E p : alike p (fst (rebuild E p)).
Proof.
  destruct p as [sh r mo nx ny st pt pts lp lps rho rhos off ort lam ABD sz N Nc fl be ga ra ma v kC kG kT kM kA].
  destruct mo as [[mdl|]|]; destruct st as [|st0 st]; destruct lps as [|lp0 lps]; try (destruct lp as [|l0 l1]);
  destruct rhos as [|rh0 rs]; destruct pts as [|t0 ts]; try (destruct pt as [t|]);
  unfold_panel; (constructor; [constructor; reflexivity|..]);
  cbn [pn_sh pn_r pn_model pn_nx pn_ny pn_stack pn_plyt pn_plyts pn_laminaprop pn_laminaprops pn_rho pn_rhos];
  try reflexivity; try (rewrite <- Nat.max_assoc, Nat.max_id; reflexivity).
Qed.

(* when _rebuild succeeds: the panel is completely defined *)
Lemma rebuild_ok_iff E p : (exists p1 u, rebuild E p = (p1, Ok u)) <->
  status p <> None /\ pn_stack p <> [] /\ has_props p = true /\ has_plyts p = true.
Proof.
  destruct p as [sh r mo nx ny st pt pts lp lps rho rhos off ort lam ABD sz N Nc fl be ga ra ma v kC kG kT kM kA].
  destruct mo as [[mdl|]|]; destruct st as [|st0 st]; destruct lps as [|lp0 lps]; try (destruct lp as [|l0 l1]);
  destruct rhos as [|rh0 rs]; destruct pts as [|t0 ts]; try (destruct pt as [t|]);
  unfold_panel; cbv [status has_props has_plyts chosen_model pn_model pn_laminaprop pn_laminaprops pn_plyts pn_plyt pn_stack pn_r];
  (split; [intros (p1 & u & H); try discriminate H; repeat split; discriminate
          |intros (H1 & H2 & H3 & H4); try discriminate; try congruence; do 2 eexists; reflexivity]).
Qed.
Lemma rebuild_err E p p1 e : rebuild E p = (p1, Err e) -> e = ValueError.
Proof.
  destruct p as [sh r mo nx ny st pt pts lp lps rho rhos off ort lam ABD sz N Nc fl be ga ra ma v kC kG kT kM kA].
  destruct mo as [[mdl|]|]; destruct st as [|st0 st]; destruct lps as [|lp0 lps]; try (destruct lp as [|l0 l1]);
  destruct rhos as [|rh0 rs]; destruct pts as [|t0 ts]; try (destruct pt as [t|]);
  unfold_panel; intro H; inversion H; reflexivity.
Qed.
Lemma status_complete p : status p <> None /\ pn_stack p <> [] /\ has_props p = true /\ has_plyts p = true <-> complete p.
Proof.
  unfold status, has_props, has_plyts, complete.
  destruct (pn_model p) as [[m|]|]; destruct (pn_laminaprops p), (pn_laminaprop p), (pn_plyts p), (pn_plyt p);
  intuition congruence.
Qed.
Lemma settled_rebuild E p mdl : pn_model p = Some (Known mdl) ->
  Nat.max (pn_nx p) (sh_m (pn_sh p)) = pn_nx p -> Nat.max (pn_ny p) (sh_n (pn_sh p)) = pn_ny p ->
  pn_stack p <> [] -> pn_laminaprops p <> [] -> pn_rhos p <> [] -> pn_plyts p <> [] ->
  pn_lam p = Some (e_lib E (pn_stack p) (pn_plyts p) (pn_laminaprops p) (pn_rhos p) (pn_offset p)) ->
  pn_ABD p = Some (lam_matrix (pn_ortho p) (e_lib E (pn_stack p) (pn_plyts p) (pn_laminaprops p) (pn_rhos p) (pn_offset p))) ->
  pn_size p = Some (3 * sh_m (pn_sh p) * sh_n (pn_sh p))%nat ->
  rebuild E p = (p, Ok tt).
Proof.
  destruct p as [sh r mo nx ny st pt pts lp lps rho rhos off ort lam ABD sz N Nc fl be ga ra ma v kC kG kT kM kA].
  cbn [pn_sh pn_model pn_nx pn_ny pn_stack pn_plyts pn_laminaprops pn_rhos pn_offset pn_ortho pn_lam pn_ABD pn_size].
  intros -> Hx Hy Hst Hlp Hrh Hpt -> -> ->.
  destruct st as [|st0 st]; [congruence|]. destruct lps as [|lp0 lps]; [congruence|].
  destruct rhos as [|rh0 rhos]; [congruence|]. destruct pts as [|t0 ts]; [congruence|].
  unfold_panel. rewrite Hx, Hy. destruct mdl; reflexivity.
Qed.
Lemma rebuild_idem E p p1 u : rebuild E p = (p1, Ok u) -> rebuild E p1 = (p1, Ok u).
Proof.
  intro H. destruct u.
  assert (Hc : exists p1 u, rebuild E p = (p1, Ok u)) by (exists p1, tt; exact H).
  apply (rebuild_ok_iff E p) in Hc. destruct Hc as (_ & _ & Hp & Ht).
  destruct (rebuild_inv _ _ _ _ H) as (A1 & A2 & A3 & A4 & A5 & A6 & A7 & A8 & A9 & A10 & A11 & A12 & _ & _ & _ & A16 & A17 & _).
  destruct A1. unfold rebuilt_lam in A7, A8.
  assert (Hst : exists s0 st, pn_stack p = s0 :: st) by (destruct (pn_stack p) as [|s0 st]; [congruence|exists s0, st; reflexivity]).
  destruct Hst as (s0 & st & Hst).
  eapply settled_rebuild.
  - exact A3.
  - rewrite A5, si_sh. rewrite <- Nat.max_assoc, Nat.max_id. reflexivity.
  - rewrite A6, si_sh. rewrite <- Nat.max_assoc, Nat.max_id. reflexivity.
  - rewrite si_stack. exact A16.
  - rewrite A10. unfold rebuilt_props. rewrite Hst. destruct (pn_laminaprops p); discriminate.
  - rewrite A11. unfold rebuilt_rhos. rewrite Hst. destruct (pn_rhos p); discriminate.
  - rewrite A9. unfold rebuilt_plyts. rewrite Hst. destruct (pn_plyts p); discriminate.
  - rewrite A7, si_stack, A9, A10, A11, si_offset. reflexivity.
  - rewrite A8, si_ortho, si_stack, A9, A10, A11, si_offset. reflexivity.
  - rewrite A12, si_sh. reflexivity.
Qed.

(* panels with the same definition are rebuilt alike *)
Lemma rebuild_rel E p q : alike p q ->
  (exists p1 q1, rebuild E p = (p1, Ok tt) /\ rebuild E q = (q1, Ok tt) /\ eqv p1 q1) \/
  (exists p1 q1, rebuild E p = (p1, Err ValueError) /\ rebuild E q = (q1, Err ValueError)).
Proof.
  intro H. destruct (rebuild E p) as [p1 [[]|e]] eqn:Hp.
  - left. assert (Hc : exists p1 u, rebuild E p = (p1, Ok u)) by (exists p1, tt; exact Hp).
    apply (rebuild_ok_iff E p) in Hc.
    assert (Hq : exists q1 u, rebuild E q = (q1, Ok u)).
    { apply (rebuild_ok_iff E q). destruct H as [[] ]. destruct Hc as (H1 & H2 & H3 & H4). repeat split; congruence. }
    destruct Hq as (q1 & [] & Hq). exists p1, q1. split; [reflexivity|split; [exact Hq|]].
    destruct (rebuild_inv _ _ _ _ Hp) as (A1 & A2 & A3 & A4 & A5 & A6 & A7 & A8 & A9 & A10 & A11 & _ & _ & _ & _ & _ & A17 & _).
    destruct (rebuild_inv _ _ _ _ Hq) as (B1 & B2 & B3 & B4 & B5 & B6 & B7 & B8 & B9 & B10 & B11 & _ & _ & _ & _ & _ & B17 & _).
    destruct H as [H1 H2 H3 H4 H5 H6 H7 H8 H9 H10 H11].
    assert (HL : rebuilt_lam E q = rebuilt_lam E p).
    { unfold rebuilt_lam. rewrite H7, H8, H9, (si_stack _ _ H1), (si_offset _ _ H1). reflexivity. }
    assert (HM : chosen_model q = chosen_model p).
    { unfold status in H4. destruct (pn_model p) as [[]|] eqn:Ep; destruct (pn_model q) as [[]|] eqn:Eq; congruence. }
    constructor; try congruence.
    + destruct A1, B1, H1. constructor; congruence.
    + unfold r0 in *. rewrite A2, B2. exact H3.
    + eexists; exact A3.
    + rewrite A8, B8, HL, (si_ortho _ _ H1). reflexivity.
  - right. assert (e = ValueError) by (eapply rebuild_err; exact Hp). subst e.
    destruct (rebuild E q) as [q1 [[]|e]] eqn:Hq.
    + exfalso. assert (Hc : exists q1 u, rebuild E q = (q1, Ok u)) by (exists q1, tt; exact Hq).
      apply (rebuild_ok_iff E q) in Hc.
      assert (Hn : exists p1 u, rebuild E p = (p1, Ok u)).
      { apply (rebuild_ok_iff E p). destruct H as [[] ]. destruct Hc as (H1 & H2 & H3 & H4). repeat split; congruence. }
      destruct Hn as (p2 & u & Hn). rewrite Hp in Hn. discriminate Hn.
    + assert (e = ValueError) by (eapply rebuild_err; exact Hq). subst e. exists p1, q1. split; reflexivity.
Qed.

(* ------------------------------------------------- states *)
Definition known (q : panel) : Prop := exists m, pn_model q = Some (Known m).
Definition soft {A} (m : method A) : Prop := forall q, known q -> eqv q (fst (m q)).

Lemma eqv_refl q : known q -> eqv q q.
Proof. intro H. constructor; try reflexivity. - apply same_inputs_refl. - exact H. Qed.
Lemma eqv_known' p q : eqv p q -> known q.
Proof. intros H. destruct (eq_known _ _ H) as [m Hm]. exists m. rewrite (eq_model _ _ H). exact Hm. Qed.
Lemma soft_bind {A B} (x : method A) (f : A -> method B) : soft x -> (forall a, soft (f a)) -> soft (mbind x f).
Proof.
  intros Hx Hf q Hq. unfold mbind. specialize (Hx q Hq). destruct (x q) as [q' [a|e]]; [|exact Hx].
  apply (eqv_trans q q'); [exact Hx|]. apply Hf. exact (eqv_known' _ _ Hx).
Qed.
Lemma soft_ret {A} (a : A) : soft (mret a). Proof. intros q Hq. apply eqv_refl. exact Hq. Qed.
Lemma soft_raise {A} e : soft (mraise (A := A) e). Proof. intros q Hq. apply eqv_refl. exact Hq. Qed.
Lemma soft_lift {A} (x : res A) : soft (mlift x). Proof. intros q Hq. apply eqv_refl. exact Hq. Qed.
Lemma soft_get : soft mget. Proof. intros q Hq. apply eqv_refl. exact Hq. Qed.
Lemma soft_model : soft the_model.
Proof. intros q Hq. unfold the_model. destruct (pn_model q) as [[]|]; apply eqv_refl; exact Hq. Qed.
Lemma soft_lam : soft get_lam_ABD.
Proof. intros q Hq. unfold get_lam_ABD. destruct (pn_lam q); apply eqv_refl; exact Hq. Qed.
Lemma soft_set_size n : soft (mmod (fun q => set_size q n)).
Proof. intros q Hq. constructor; try reflexivity. - constructor; reflexivity. - exact Hq. Qed.
Lemma soft_set_matrices f1 f2 f3 f4 f5 : soft (mmod (fun q => set_matrices q (f1 q) (f2 q) (f3 q) (f4 q) (f5 q))).
Proof. intros q Hq. constructor; try reflexivity. - constructor; reflexivity. - exact Hq. Qed.
Lemma soft_set_aero f1 f2 f3 : soft (mmod (fun q => set_aero q (f1 q) (f2 q) (f3 q))).
Proof. intros q Hq. constructor; try reflexivity. - constructor; reflexivity. - exact Hq. Qed.
Lemma soft_fix_r : soft fix_r.
Proof. intros q Hq. constructor; try reflexivity. - constructor; reflexivity. - exact Hq. Qed.
Lemma soft_get_size : soft get_size.
Proof.
  unfold get_size. apply soft_bind; [apply soft_model|intro mdl]. apply soft_bind; [apply soft_get|intro p].
  apply soft_bind; [apply soft_set_size|intros _; apply soft_ret].
Qed.
Lemma soft_eval_size a : soft (eval_size a).
Proof.
  destruct a; cbn; [apply soft_get_size|apply soft_ret|]. apply soft_bind; [apply soft_get_size|intro; apply soft_ret].
Qed.

Ltac soft_step :=
  match goal with
  | |- soft (mbind _ _) => apply soft_bind; [|intros ?]
  | |- soft (mret _) => apply soft_ret
  | |- soft (mraise _) => apply soft_raise
  | |- soft (mlift _) => apply soft_lift
  | |- soft mget => apply soft_get
  | |- soft the_model => apply soft_model
  | |- soft get_lam_ABD => apply soft_lam
  | |- soft get_size => apply soft_get_size
  | |- soft (eval_size _) => apply soft_eval_size
  | |- soft fix_r => apply soft_fix_r
  | |- soft (mmod (fun q => set_matrices q _ _ _ _ _)) => refine (soft_set_matrices _ _ _ _ _)
  | |- soft (mmod (fun q => set_aero q _ _ _)) => refine (soft_set_aero _ _ _)
  | |- soft (let _ := _ in _) => cbv zeta
  | |- soft (match ?x with _ => _ end) => destruct x
  | |- soft (if ?x then _ else _) => destruct x
  end.

Definition kC_rest (E : env) (A : kargs) : method matrix :=
  ltac:(let t := eval unfold calc_kC in (calc_kC E A) in match t with mbind _ (fun _ => ?r) => exact r end).
Definition kG_rest (E : env) (A : kargs) : method matrix :=
  ltac:(let t := eval unfold calc_kG in (calc_kG E A) in match t with mbind _ (fun _ => ?r) => exact r end).
Lemma kC_split E A p : calc_kC E A p = mbind (rebuild E) (fun _ => kC_rest E A) p. Proof. reflexivity. Qed.
Lemma kG_split E A p : calc_kG E A p = mbind (rebuild E) (fun _ => kG_rest E A) p. Proof. reflexivity. Qed.

Lemma soft_kC E A : soft (kC_rest E A).
Proof. unfold kC_rest. repeat soft_step. Qed.
Lemma soft_kG E A : soft (kG_rest E A).
Proof. unfold kG_rest. repeat soft_step. Qed.
Lemma soft_kM E sz row0 col0 h rho nx ny fin : soft (calc_kM E sz row0 col0 h rho nx ny fin).
Proof. unfold calc_kM. repeat soft_step. Qed.
Lemma soft_aero : soft aero_coeffs.
Proof. unfold aero_coeffs. repeat soft_step. Qed.
Lemma soft_kA E sz row0 col0 fin : soft (calc_kA E sz row0 col0 fin).
Proof. unfold calc_kA. repeat (soft_step || apply soft_aero). Qed.
Lemma soft_cA E mu sz fin : soft (calc_cA E mu sz fin).
Proof. unfold calc_cA. repeat soft_step. Qed.
Lemma soft_fint E c sz col0 nx ny F : soft (calc_fint E c sz col0 nx ny F).
Proof. unfold calc_fint. repeat soft_step. Qed.
Lemma soft_fext Q Bs L inc sz col0 : soft (shell_fext Q Bs L inc sz col0).
Proof. unfold shell_fext. repeat soft_step. Qed.

Lemma rebuild_known E p p1 u : rebuild E p = (p1, Ok u) -> known p1.
Proof. intro H. destruct (rebuild_inv _ _ _ _ H) as (_ & _ & H3 & _). eexists; exact H3. Qed.
Lemma after_rebuild {A} E (m : method A) p : soft m -> alike p (fst (mbind (rebuild E) (fun _ => m) p)).
Proof.
  intro Hm. pose proof (rebuild_alike E p) as H. unfold mbind. destruct (rebuild E p) as [p1 [u|e]] eqn:Hp; [|exact H].
  apply (alike_trans p p1); [exact H|]. apply eqv_alike. apply Hm. eapply rebuild_known; exact Hp.
Qed.
(* a calculation that reads the model first *)
Lemma soft_alike {A} (m : method A) p : soft m -> (~ known p -> fst (m p) = p) -> alike p (fst (m p)).
Proof.
  intros Hm Hn. destruct (pn_model p) as [[k|]|] eqn:Hk.
  - apply eqv_alike. apply Hm. exists k; exact Hk.
  - rewrite Hn; [apply alike_refl|]. intros [k H]. congruence.
  - rewrite Hn; [apply alike_refl|]. intros [k H]. congruence.
Qed.
Lemma unknown_cases p : ~ known p -> pn_model p = Some Unknown \/ pn_model p = None.
Proof. intro H. destruct (pn_model p) as [[k|]|] eqn:Hk; [|left; reflexivity|right; reflexivity]. exfalso. apply H. exists k. exact Hk. Qed.
Lemma unknown_model p : ~ known p -> the_model p = (p, Err KeyError).
Proof. intro H. unfold the_model. destruct (unknown_cases p H) as [-> | ->]; reflexivity. Qed.

Lemma after_alike E k p : alike p (after E k p).
Proof.
  destruct k; cbn [after].
  - apply rebuild_alike.
  - rewrite kC_split. apply after_rebuild, soft_kC.
  - rewrite kG_split. apply after_rebuild, soft_kG.
  - unfold calc_kT.
    set (A' := mkKargs _ _ _ _ _ _ _ _ _ _).
    assert (H1 : alike p (fst (calc_kC E A' p))) by (rewrite kC_split; apply after_rebuild, soft_kC).
    unfold mbind at 1. destruct (calc_kC E A' p) as [p1 [kC|e]]; [|exact H1]. cbn [fst] in H1.
    assert (H2 : alike p1 (fst (calc_kG E A' p1))) by (rewrite kG_split; apply after_rebuild, soft_kG).
    unfold mbind at 1. destruct (calc_kG E A' p1) as [p2 [kG|e]]; cbn [fst] in H2.
    + apply (alike_trans p p1); [exact H1|]. apply (alike_trans p1 p2); [exact H2|].
      constructor; try reflexivity. constructor; reflexivity.
    + apply (alike_trans p p1); [exact H1|exact H2].
  - apply soft_alike; [apply soft_kM|]. intro H. unfold calc_kM. unfold mbind at 1, mget at 1. cbv zeta.
    unfold mbind at 1. rewrite unknown_model by exact H. reflexivity.
  - apply soft_alike; [apply soft_kA|]. intro H. unfold calc_kA. unfold mbind at 1. rewrite unknown_model by exact H. reflexivity.
  - apply soft_alike; [apply soft_cA|]. intro H. unfold calc_cA. destruct sz; unfold get_size, mbind, mret; rewrite unknown_model by exact H; reflexivity.
  - apply soft_alike; [apply soft_fint|]. intro H. unfold calc_fint. unfold mbind at 1, mget at 1.
    destruct (unknown_cases p H) as [-> | ->]; reflexivity.
  - unfold calc_fext. apply after_rebuild, soft_fext.
Qed.
Lemma history_alike E l p : alike p (history E l p).
Proof.
  unfold history. revert p. induction l as [|k l IH]; intro p; cbn [fold_left]; [apply alike_refl|].
  apply (alike_trans p (after E k p)); [apply after_alike|apply IH].
Qed.

(* ------------------------------------------------- results *)
(* what the calculations other than _rebuild and the aerodynamic ones read *)
Record eqv0 (p q : panel) : Prop := {
  e0_sh : pn_sh q = pn_sh p; e0_r : r0 q = r0 p; e0_model : pn_model q = pn_model p; e0_known : exists m, pn_model p = Some (Known m);
  e0_nx : pn_nx q = pn_nx p; e0_ny : pn_ny q = pn_ny p; e0_lam : pn_lam q = pn_lam p; e0_ABD : pn_ABD q = pn_ABD p;
  e0_plyts : pn_plyts q = pn_plyts p; e0_rho : pn_rho q = pn_rho p; e0_offset : pn_offset q = pn_offset p; e0_ortho : pn_ortho q = pn_ortho p;
  e0_N : pn_N q = pn_N p; e0_N_cte : pn_N_cte q = pn_N_cte p }.
Lemma eqv_eqv0 p q : eqv p q -> eqv0 p q.
Proof. intros [[]]. constructor; assumption. Qed.
Lemma eqv0_trans p q r : eqv0 p q -> eqv0 q r -> eqv0 p r.
Proof. intros [] []. constructor; congruence. Qed.
Lemma eqv0_sym p q : eqv0 p q -> eqv0 q p.
Proof. intros [? ? ? [m Hm]]. constructor; try congruence. exists m; congruence. Qed.
Lemma eqv0_known' p q : eqv0 p q -> known q.
Proof. intros H. destruct (e0_known _ _ H) as [m Hm]. exists m. rewrite (e0_model _ _ H). exact Hm. Qed.
Definition runs_alike {A} (m m' : method A) (p q : panel) : Prop :=
  snd (m p) = snd (m' q) /\ eqv0 (fst (m p)) (fst (m' q)).
Lemma ra_bind {A B} (x x' : method A) (f f' : A -> method B) p q :
  runs_alike x x' p q -> (forall a p' q', eqv0 p' q' -> runs_alike (f a) (f' a) p' q') -> runs_alike (mbind x f) (mbind x' f') p q.
Proof.
  intros [Hs He] Hf. unfold runs_alike, mbind. destruct (x p) as [p' [a|e]], (x' q) as [q' [a'|e']]; cbn in Hs, He; inversion Hs; subst.
  - apply Hf. exact He.
  - split; [reflexivity|exact He].
Qed.
Lemma ra_get {A} (f f' : panel -> method A) p q :
  eqv0 p q -> runs_alike (f p) (f' q) p q -> runs_alike (mbind mget f) (mbind mget f') p q.
Proof. intros _ H. exact H. Qed.
Lemma ra_ret {A} (a : A) p q : eqv0 p q -> runs_alike (mret a) (mret a) p q.
Proof. intro H. split; [reflexivity|exact H]. Qed.
Lemma ra_raise {A} e p q : eqv0 p q -> runs_alike (mraise (A := A) e) (mraise e) p q.
Proof. intro H. split; [reflexivity|exact H]. Qed.
Lemma ra_lift {A} (x x' : res A) p q : eqv0 p q -> x = x' -> runs_alike (mlift x) (mlift x') p q.
Proof. intros H <-. split; [reflexivity|exact H]. Qed.
Lemma ra_model p q : eqv0 p q -> runs_alike the_model the_model p q.
Proof.
  intro H. unfold runs_alike, the_model. rewrite (e0_model _ _ H). destruct (pn_model p) as [[]|]; split; try reflexivity; exact H.
Qed.
Lemma ra_lam p q : eqv0 p q -> runs_alike get_lam_ABD get_lam_ABD p q.
Proof.
  intro H. unfold runs_alike, get_lam_ABD. rewrite (e0_lam _ _ H), (e0_ortho _ _ H).
  destruct (pn_lam p); split; try reflexivity; exact H.
Qed.
(* a change of state that keeps both panels *)
Lemma ra_mod f f' p q : eqv0 p q -> soft (mmod f) -> soft (mmod f') -> runs_alike (mmod f) (mmod f') p q.
Proof.
  intros H Hf Hf'. split; [reflexivity|]. apply (eqv0_trans _ p); [apply eqv0_sym, eqv_eqv0, Hf; exact (e0_known _ _ H)|].
  apply (eqv0_trans p q); [exact H|]. apply eqv_eqv0, Hf'. exact (eqv0_known' _ _ H).
Qed.
Lemma ra_get_size p q : eqv0 p q -> runs_alike get_size get_size p q.
Proof.
  intro H. unfold get_size. apply ra_bind; [apply ra_model; exact H|]. intros m p1 q1 H1.
  apply ra_get; [exact H1|]. rewrite (e0_sh _ _ H1).
  apply ra_bind; [apply ra_mod; [exact H1|apply soft_set_size|apply soft_set_size]|]. intros _ p2 q2 H2. apply ra_ret; exact H2.
Qed.
Lemma ra_eval_size a p q : eqv0 p q -> runs_alike (eval_size a) (eval_size a) p q.
Proof.
  intro H. destruct a; cbn; [apply ra_get_size; exact H|apply ra_ret; exact H|].
  apply ra_bind; [apply ra_get_size; exact H|]. intros; apply ra_ret; assumption.
Qed.
Lemma ra_fix_r p q : eqv0 p q -> runs_alike fix_r fix_r p q.
Proof. intro H. apply ra_mod; [exact H|apply soft_fix_r|apply soft_fix_r]. Qed.

(* what the kernels other than the aerodynamic ones see *)
Definition bare (s : shell) : shell :=
  mkShell (sh_a s) (sh_b s) (sh_r s) (sh_m s) (sh_n s) (sh_x1 s) (sh_x2 s) (sh_y1 s) (sh_y2 s) 0 0
    (sh_xu s) (sh_xv s) (sh_xw s) (sh_yu s) (sh_yv s) (sh_yw s).
Lemma bare_eqv p q : eqv0 p q -> bare (kernel_view q) = bare (kernel_view p).
Proof.
  intros H. unfold bare, kernel_view. cbn. pose proof (e0_r _ _ H) as Hr. unfold r0 in Hr. rewrite Hr, (e0_sh _ _ H). reflexivity.
Qed.
Lemma fk0_bare mdl T s F row0 col0 : fk0 mdl T (bare s) F row0 col0 = fk0 mdl T s F row0 col0.
Proof. destruct mdl; reflexivity. Qed.
Lemma fkG0_bare mdl T s N1 N2 N3 row0 col0 : fkG0 mdl T (bare s) N1 N2 N3 row0 col0 = fkG0 mdl T s N1 N2 N3 row0 col0.
Proof. destruct mdl; reflexivity. Qed.
Lemma fkM_bare mdl T s rho h off row0 col0 : fkM mdl T (bare s) rho h off row0 col0 = fkM mdl T s rho h off row0 col0.
Proof. destruct mdl; reflexivity. Qed.
Lemma fkC_num_bare mdl Q B c F s row0 col0 nx ny NL : fkC_num mdl Q B c F (bare s) row0 col0 nx ny NL = fkC_num mdl Q B c F s row0 col0 nx ny NL.
Proof. destruct mdl; reflexivity. Qed.
Lemma fkG_num_bare mdl Q B c F s row0 col0 nx ny NL N1 N2 N3 :
  fkG_num mdl Q B c F (bare s) row0 col0 nx ny NL N1 N2 N3 = fkG_num mdl Q B c F s row0 col0 nx ny NL N1 N2 N3.
Proof. destruct mdl; reflexivity. Qed.
Lemma fkM_num_bare mdl Q B s off H row0 col0 nx ny : fkM_num mdl Q B (bare s) off H row0 col0 nx ny = fkM_num mdl Q B s off H row0 col0 nx ny.
Proof. destruct mdl; reflexivity. Qed.
Lemma fint_bare mdl Q B c F s col0 nx ny : calc_fint_num mdl Q B c F (bare s) col0 nx ny = calc_fint_num mdl Q B c F s col0 nx ny.
Proof. destruct mdl; reflexivity. Qed.

Lemma eqv_F (Fo : option finput) p q : eqv0 p q ->
  match Fo with Some F => F | None => match pn_ABD q with Some F => FMat F | None => FOther end end =
  match Fo with Some F => F | None => match pn_ABD p with Some F => FMat F | None => FOther end end.
Proof. intro H. rewrite (e0_ABD _ _ H). reflexivity. Qed.

Ltac soft_mods := repeat soft_step; try apply soft_fix_r.
Ltac ra_step :=
  match goal with
  | |- runs_alike (mbind mget _) (mbind mget _) _ _ => apply ra_get; [assumption|]
  | |- runs_alike (mbind _ _) (mbind _ _) _ _ => apply ra_bind; [|intros ? ? ? ?]
  | |- runs_alike (mret _) (mret _) _ _ => apply ra_ret; assumption
  | |- runs_alike (mraise _) (mraise _) _ _ => apply ra_raise; assumption
  | |- runs_alike (mlift _) (mlift _) _ _ => apply ra_lift; [assumption|try reflexivity]
  | |- runs_alike the_model the_model _ _ => apply ra_model; assumption
  | |- runs_alike get_lam_ABD get_lam_ABD _ _ => apply ra_lam; assumption
  | |- runs_alike get_size get_size _ _ => apply ra_get_size; assumption
  | |- runs_alike (eval_size _) (eval_size _) _ _ => apply ra_eval_size; assumption
  | |- runs_alike fix_r fix_r _ _ => apply ra_fix_r; assumption
  | |- runs_alike (mmod _) (mmod _) _ _ => apply ra_mod; [assumption|soft_step|soft_step]
  end.

Section Eqv.
Variables p q : panel.
Hypothesis H : eqv0 p q.
Let sp := kernel_view p. Let sq := kernel_view q.
Lemma fk0_eqv mdl T F row0 col0 : fk0 mdl T (kernel_view q) F row0 col0 = fk0 mdl T (kernel_view p) F row0 col0.
Proof using All. rewrite <- fk0_bare, (bare_eqv _ _ H), fk0_bare. reflexivity. Qed.
Lemma fkG0_eqv mdl T N1 N2 N3 row0 col0 : fkG0 mdl T (kernel_view q) N1 N2 N3 row0 col0 = fkG0 mdl T (kernel_view p) N1 N2 N3 row0 col0.
Proof using All. rewrite <- fkG0_bare, (bare_eqv _ _ H), fkG0_bare. reflexivity. Qed.
Lemma fkM_eqv mdl T rho h off row0 col0 : fkM mdl T (kernel_view q) rho h off row0 col0 = fkM mdl T (kernel_view p) rho h off row0 col0.
Proof using All. rewrite <- fkM_bare, (bare_eqv _ _ H), fkM_bare. reflexivity. Qed.
Lemma fkC_num_eqv mdl Q B c F row0 col0 nx ny NL :
  fkC_num mdl Q B c F (kernel_view q) row0 col0 nx ny NL = fkC_num mdl Q B c F (kernel_view p) row0 col0 nx ny NL.
Proof using All. rewrite <- fkC_num_bare, (bare_eqv _ _ H), fkC_num_bare. reflexivity. Qed.
Lemma fkG_num_eqv mdl Q B c F row0 col0 nx ny NL N1 N2 N3 :
  fkG_num mdl Q B c F (kernel_view q) row0 col0 nx ny NL N1 N2 N3 = fkG_num mdl Q B c F (kernel_view p) row0 col0 nx ny NL N1 N2 N3.
Proof using All. rewrite <- fkG_num_bare, (bare_eqv _ _ H), fkG_num_bare. reflexivity. Qed.
Lemma fkM_num_eqv mdl Q B off h row0 col0 nx ny :
  fkM_num mdl Q B (kernel_view q) off h row0 col0 nx ny = fkM_num mdl Q B (kernel_view p) off h row0 col0 nx ny.
Proof using All. rewrite <- fkM_num_bare, (bare_eqv _ _ H), fkM_num_bare. reflexivity. Qed.
Lemma fint_eqv mdl Q B c F col0 nx ny :
  calc_fint_num mdl Q B c F (kernel_view q) col0 nx ny = calc_fint_num mdl Q B c F (kernel_view p) col0 nx ny.
Proof using All. rewrite <- fint_bare, (bare_eqv _ _ H), fint_bare. reflexivity. Qed.
Lemma fext_eqv Q Bs col0 n L inc x :
  fext_loops Q Bs (kernel_view q) col0 n L inc x = fext_loops Q Bs (kernel_view p) col0 n L inc x.
Proof using All.
  assert (E : forall s, fext_loops Q Bs (bare s) col0 n L inc x = fext_loops Q Bs s col0 n L inc x) by reflexivity.
  rewrite <- E, (bare_eqv _ _ H), E. reflexivity.
Qed.
End Eqv.

Lemma ra_kC E A p q : eqv0 p q -> runs_alike (kC_rest E A) (kC_rest E A) p q.
Proof.
  intro H0. unfold kC_rest.
  ra_step; [ra_step|]. rename a into size.
  ra_step; [destruct (ka_c A); repeat ra_step|]. rename a into cl. cbv zeta.
  ra_step; [ra_step|]. rename a into mdl.
  ra_step. ra_step; [ra_step|].
  ra_step. rewrite (e0_nx _ _ H2), (e0_ny _ _ H2). rename p' into pa, q' into qa, p'0 into pb, q'0 into qb, p'1 into pc, q'1 into qc, p'2 into pd, q'2 into qd.
  rewrite (eqv_F (ka_F A) pd qd) by exact H3. rewrite (e0_ABD _ _ H3), (e0_N_cte _ _ H3).
  ra_step.
  { destruct (negb _).
    - ra_step. rewrite (fk0_eqv pd qd) by exact H3. reflexivity.
    - destruct cl; [|destruct (ka_F A); [destruct (ka_NL A); [ra_step|]|]]; ra_step; rewrite (fkC_num_eqv pd qd) by exact H3; reflexivity. }
  ra_step.
  { destruct (is_some (ka_c_cte A) || any3 (pn_N_cte pd))%bool; [|ra_step].
    ra_step; [destruct (ka_c_cte A); repeat ra_step|].
    destruct (pn_N_cte pd) as [[N1 N2] N3].
    destruct (negb (ka_NL A) && negb (is_some (ka_c_cte A)))%bool.
    - ra_step; [|ra_step]. ra_step. rewrite (fkG0_eqv pd qd) by exact H3. reflexivity.
    - destruct a1; [|ra_step]. ra_step; [|ra_step]. ra_step. rewrite (fkG_num_eqv pd qd) by exact H3. reflexivity. }
  ra_step; [ra_step|ra_step].
Qed.

Lemma ra_kG E A p q : eqv0 p q -> runs_alike (kG_rest E A) (kG_rest E A) p q.
Proof.
  intro H0. unfold kG_rest.
  ra_step; [ra_step|]. rename a into size.
  ra_step; [destruct (ka_c A); repeat ra_step|]. rename a into cl. cbv zeta.
  ra_step; [ra_step|]. rename a into mdl.
  ra_step; [ra_step|]. rename p' into pa, q' into qa, p'0 into pb, q'0 into qb, p'1 into pc, q'1 into qc, p'2 into pd, q'2 into qd.
  ra_step. rewrite (e0_nx _ _ H3), (e0_ny _ _ H3), (e0_N _ _ H3).
  destruct (pn_N pd) as [[N1 N2] N3].
  ra_step.
  { destruct (negb _).
    - ra_step. rewrite (fkG0_eqv pd qd) by exact H3. reflexivity.
    - ra_step; [destruct (ka_F A); repeat ra_step|]. ra_step. rewrite (fkG_num_eqv pd qd) by exact H3. reflexivity. }
  ra_step; [ra_step|ra_step].
Qed.

Lemma ra_kM E sz row0 col0 h rho nx ny fin p q : eqv0 p q ->
  runs_alike (calc_kM E sz row0 col0 h rho nx ny fin) (calc_kM E sz row0 col0 h rho nx ny fin) p q.
Proof.
  intro H0. unfold calc_kM. ra_step. cbv zeta. ra_step; [ra_step|]. rename a into mdl. ra_step; [ra_step|].
  ra_step; [ra_step|]. rename a0 into size.
  rename p' into pa, q' into qa, p'0 into pb, q'0 into qb, p'1 into pc, q'1 into qc.
  ra_step. rewrite (e0_nx _ _ H0), (e0_ny _ _ H0), (e0_lam _ _ H2), (e0_plyts _ _ H2), (e0_offset _ _ H2), (e0_rho _ _ H2).
  destruct (pn_lam pc) as [lam|]; [|destruct h; [destruct rho|]; try ra_step].
  - destruct (default (default (pn_nx p) nx, default (pn_ny p) ny, fun _ _ => lam_h (default _ (Some lam))) h) as [[hx hy] hh].
    destruct (default (default (pn_nx p) nx, default (pn_ny p) ny, fun _ _ => lam_intrho (default _ (Some lam)) / lam_h (default _ (Some lam))) rho) as [[rx ry] rr].
    ra_step.
    + destruct (negb _).
      * ra_step. rewrite (fkM_eqv pc qc) by exact H2. reflexivity.
      * destruct (_ && _)%bool; ra_step. rewrite (fkM_num_eqv pc qc) by exact H2. reflexivity.
    + ra_step; ra_step.
  - cbn [default]. destruct a0 as [[hx hy] hh]. destruct a1 as [[rx ry] rr].
    ra_step.
    + destruct (negb _).
      * ra_step. rewrite (fkM_eqv pc qc) by exact H2. reflexivity.
      * destruct (_ && _)%bool; ra_step. rewrite (fkM_num_eqv pc qc) by exact H2. reflexivity.
    + ra_step; ra_step.
Qed.

Lemma ra_fint E c sz col0 nx ny F p q : eqv0 p q ->
  runs_alike (calc_fint E c sz col0 nx ny F) (calc_fint E c sz col0 nx ny F) p q.
Proof.
  intro H0. unfold calc_fint. ra_step. rewrite (e0_model _ _ H0). destruct (pn_model p) as [[mdl|]|]; [|ra_step|ra_step].
  ra_step; [ra_step|]. rename a into size. ra_step; [ra_step|]. rename p' into pa, q' into qa, p'0 into pb, q'0 into qb.
  ra_step. cbv zeta. rewrite (eqv_F F pb qb) by exact H1. rewrite (e0_nx _ _ H1), (e0_ny _ _ H1), (e0_sh _ _ H1).
  ra_step.
  - ra_step. rewrite (fint_eqv pb qb) by exact H1. reflexivity.
  - destruct (_ || _)%bool; ra_step.
Qed.

Lemma ra_fext Q Bs L inc sz col0 p q : eqv0 p q ->
  runs_alike (shell_fext Q Bs L inc sz col0) (shell_fext Q Bs L inc sz col0) p q.
Proof.
  intro H0. unfold shell_fext. ra_step. rewrite (e0_model _ _ H0). destruct (pn_model p) as [[mdl|]|]; [|ra_step|ra_step].
  ra_step; [ra_step|]. ra_step; [ra_step|]. ra_step. ra_step.
  match goal with H : eqv0 ?a ?b |- context [kernel_view ?b] => rewrite (fext_eqv a b) by exact H end. reflexivity.
Qed.

Lemma rebuilt_result {A} E (m : method A) p q : (forall p q, eqv0 p q -> runs_alike m m p q) -> alike p q ->
  snd (mbind (rebuild E) (fun _ => m) q) = snd (mbind (rebuild E) (fun _ => m) p).
Proof.
  intros Hm Hpq. unfold mbind. destruct (rebuild_rel E p q Hpq) as [(p1 & q1 & -> & -> & He)|(p1 & q1 & -> & ->)].
  - destruct (Hm _ _ (eqv_eqv0 _ _ He)) as [Hs Hf]. symmetry; exact Hs.
  - reflexivity.
Qed.
Lemma kC_alike E A p q : alike p q -> snd (calc_kC E A q) = snd (calc_kC E A p).
Proof. intro H. rewrite !kC_split. apply rebuilt_result; [apply ra_kC|exact H]. Qed.
Lemma kG_alike E A p q : alike p q -> snd (calc_kG E A q) = snd (calc_kG E A p).
Proof. intro H. rewrite !kG_split. apply rebuilt_result; [apply ra_kG|exact H]. Qed.
Lemma fext_alike E Bs L inc sz col0 p q : alike p q -> snd (calc_fext E Bs L inc sz col0 q) = snd (calc_fext E Bs L inc sz col0 p).
Proof. intro H. unfold calc_fext. apply rebuilt_result; [intros; apply ra_fext; assumption|exact H]. Qed.
Lemma kT_alike E A p q : alike p q -> snd (calc_kT E A q) = snd (calc_kT E A p).
Proof.
  intro H. unfold calc_kT. set (A' := mkKargs _ _ _ _ _ _ _ _ _ _).
  pose proof (kC_alike E A' p q H) as HC.
  assert (Hp : alike p (fst (calc_kC E A' p))) by (rewrite kC_split; apply after_rebuild, soft_kC).
  assert (Hq : alike q (fst (calc_kC E A' q))) by (rewrite kC_split; apply after_rebuild, soft_kC).
  unfold mbind, mmod, mret.
  destruct (calc_kC E A' p) as [p1 [kC|e]], (calc_kC E A' q) as [q1 [kC'|e']]; cbn in HC, Hp, Hq; inversion HC; subst; try reflexivity.
  assert (Hpq : alike p1 q1).
  { apply (alike_trans p1 p); [apply alike_sym; exact Hp|]. apply (alike_trans p q); assumption. }
  pose proof (kG_alike E A' p1 q1 Hpq) as HG.
  destruct (calc_kG E A' p1) as [p2 [kG|e]], (calc_kG E A' q1) as [q2 [kG'|e']]; cbn in HG; inversion HG; subst; reflexivity.
Qed.

(* a panel that _rebuild leaves as it is stays so *)
Lemma after_eqv E k p q : rebuild E p = (p, Ok tt) -> eqv p q -> eqv p (after E k q).
Proof.
  intros Hp Hq.
  assert (R : forall q, eqv p q -> exists q1, rebuild E q = (q1, Ok tt) /\ eqv p q1).
  { intros x Hx. destruct (rebuild_rel E p x (eqv_alike _ _ Hx)) as [(p1 & q1 & H1 & H2 & H3)|(p1 & q1 & H1 & H2)].
    - rewrite Hp in H1. apply pair_equal_spec in H1. destruct H1 as [<- _]. exists q1. split; assumption.
    - rewrite Hp in H1. discriminate H1. }
  assert (S : forall A (m : method A) x, soft m -> eqv p x -> eqv p (fst (m x))).
  { intros A m x Hm Hx. apply (eqv_trans p x); [exact Hx|]. apply Hm. exact (eqv_known' _ _ Hx). }
  assert (B : forall A (m : method A) x, soft m -> eqv p x -> eqv p (fst (mbind (rebuild E) (fun _ => m) x))).
  { intros A m x Hm Hx. destruct (R x Hx) as (q1 & H1 & H2). unfold mbind. rewrite H1. apply S; assumption. }
  destruct k; cbn [after].
  - destruct (R q Hq) as (q1 & -> & H). exact H.
  - rewrite kC_split. apply B; [apply soft_kC|exact Hq].
  - rewrite kG_split. apply B; [apply soft_kG|exact Hq].
  - unfold calc_kT. set (A' := mkKargs _ _ _ _ _ _ _ _ _ _).
    assert (H1 : eqv p (fst (calc_kC E A' q))) by (rewrite kC_split; apply B; [apply soft_kC|exact Hq]).
    unfold mbind at 1. destruct (calc_kC E A' q) as [q1 [kC|e]]; [|exact H1]. cbn [fst] in H1.
    assert (H2 : eqv p (fst (calc_kG E A' q1))) by (rewrite kG_split; apply B; [apply soft_kG|exact H1]).
    unfold mbind at 1. destruct (calc_kG E A' q1) as [q2 [kG|e]]; [|exact H2]. cbn [fst] in H2.
    apply S; [|exact H2]. repeat soft_step.
  - apply S; [apply soft_kM|exact Hq].
  - apply S; [apply soft_kA|exact Hq].
  - apply S; [apply soft_cA|exact Hq].
  - apply S; [apply soft_fint|exact Hq].
  - unfold calc_fext. apply B; [apply soft_fext|exact Hq].
Qed.
Lemma history_eqv E l p : rebuild E p = (p, Ok tt) -> eqv p (history E l p).
Proof.
  intro Hp. unfold history. assert (H0 : eqv p p) by (apply eqv_refl; eapply rebuild_known; exact Hp).
  revert H0. generalize p at 2 4. induction l as [|k l IH]; intros q Hq; cbn [fold_left]; [exact Hq|].
  apply IH. apply after_eqv; assumption.
Qed.
Lemma kM_history E l sz row0 col0 h rho nx ny fin p : rebuild E p = (p, Ok tt) ->
  snd (calc_kM E sz row0 col0 h rho nx ny fin (history E l p)) = snd (calc_kM E sz row0 col0 h rho nx ny fin p).
Proof. intro Hp. symmetry. apply ra_kM. apply eqv_eqv0, history_eqv. exact Hp. Qed.
Lemma fint_history E l c sz col0 nx ny F p : rebuild E p = (p, Ok tt) ->
  snd (calc_fint E c sz col0 nx ny F (history E l p)) = snd (calc_fint E c sz col0 nx ny F p).
Proof. intro Hp. symmetry. apply ra_fint. apply eqv_eqv0, history_eqv. exact Hp. Qed.

(* ------------------------------------------------- attributes assigned between calculations *)
Record alike0 (p q : panel) : Prop := {
  a0_sh : pn_sh q = pn_sh p; a0_stack : pn_stack q = pn_stack p; a0_rho : pn_rho q = pn_rho p;
  a0_offset : pn_offset q = pn_offset p; a0_ortho : pn_ortho q = pn_ortho p; a0_N : pn_N q = pn_N p; a0_N_cte : pn_N_cte q = pn_N_cte p;
  a0_r : r0 q = r0 p; a0_model : status q = status p;
  a0_nx : Nat.max (pn_nx q) (sh_m (pn_sh q)) = Nat.max (pn_nx p) (sh_m (pn_sh p));
  a0_ny : Nat.max (pn_ny q) (sh_n (pn_sh q)) = Nat.max (pn_ny p) (sh_n (pn_sh p));
  a0_plyts : rebuilt_plyts q = rebuilt_plyts p; a0_props : rebuilt_props q = rebuilt_props p; a0_rhos : rebuilt_rhos q = rebuilt_rhos p;
  a0_hp : has_plyts q = has_plyts p; a0_hl : has_props q = has_props p }.
Lemma rebuild_rel0 E p q : alike0 p q ->
  (exists p1 q1, rebuild E p = (p1, Ok tt) /\ rebuild E q = (q1, Ok tt) /\ eqv0 p1 q1) \/
  (exists p1 q1, rebuild E p = (p1, Err ValueError) /\ rebuild E q = (q1, Err ValueError)).
Proof.
  intro H. destruct (rebuild E p) as [p1 [[]|e]] eqn:Hp.
  - left. assert (Hc : exists p1 u, rebuild E p = (p1, Ok u)) by (exists p1, tt; exact Hp).
    apply (rebuild_ok_iff E p) in Hc.
    assert (Hq : exists q1 u, rebuild E q = (q1, Ok u)).
    { apply (rebuild_ok_iff E q). destruct H. destruct Hc as (H1 & H2 & H3 & H4). repeat split; congruence. }
    destruct Hq as (q1 & [] & Hq). exists p1, q1. split; [reflexivity|split; [exact Hq|]].
    destruct (rebuild_inv _ _ _ _ Hp) as (A1 & A2 & A3 & A4 & A5 & A6 & A7 & A8 & A9 & A10 & A11 & _).
    destruct (rebuild_inv _ _ _ _ Hq) as (B1 & B2 & B3 & B4 & B5 & B6 & B7 & B8 & B9 & B10 & B11 & _).
    destruct H as [G1 G2 G3 G4 G5 G6 G7 H3 H4 H5 H6 H7 H8 H9 H10 H11].
    assert (HL : rebuilt_lam E q = rebuilt_lam E p).
    { unfold rebuilt_lam. rewrite H7, H8, H9, G2, G4. reflexivity. }
    assert (HM : chosen_model q = chosen_model p).
    { unfold status in H4. destruct (pn_model p) as [[]|] eqn:Ep; destruct (pn_model q) as [[]|] eqn:Eq; congruence. }
    destruct A1, B1. constructor; try congruence.
    + unfold r0 in *. rewrite A2, B2. exact H3.
    + eexists; exact A3.
  - right. assert (e = ValueError) by (eapply rebuild_err; exact Hp). subst e.
    destruct (rebuild E q) as [q1 [[]|e]] eqn:Hq.
    + exfalso. assert (Hc : exists q1 u, rebuild E q = (q1, Ok u)) by (exists q1, tt; exact Hq).
      apply (rebuild_ok_iff E q) in Hc.
      assert (Hn : exists p1 u, rebuild E p = (p1, Ok u)).
      { apply (rebuild_ok_iff E p). destruct H. destruct Hc as (H1 & H2 & H3 & H4). repeat split; congruence. }
      destruct Hn as (p2 & u & Hn). rewrite Hp in Hn. discriminate Hn.
    + assert (e = ValueError) by (eapply rebuild_err; exact Hq). subst e. exists p1, q1. split; reflexivity.
Qed.
Lemma kC_alike0 E A p q : alike0 p q -> snd (calc_kC E A q) = snd (calc_kC E A p).
Proof.
  intro H. rewrite !kC_split. unfold mbind.
  destruct (rebuild_rel0 E p q H) as [(p1 & q1 & -> & -> & He)|(p1 & q1 & -> & ->)]; [|reflexivity].
  destruct (ra_kC E A _ _ He) as [Hs _]. symmetry; exact Hs.
Qed.
Lemma alike0_refl p : alike0 p p. Proof. constructor; reflexivity. Qed.
Lemma plyt_ignored p t : pn_plyts p <> [] -> alike0 p (with_plyt p t).
Proof.
  intro H. constructor; try reflexivity; unfold rebuilt_plyts, has_plyts; cbn [with_plyt pn_plyts pn_plyt pn_stack];
  destruct (pn_plyts p); try congruence; reflexivity.
Qed.
Lemma prop_ignored p l : pn_laminaprops p <> [] -> alike0 p (with_laminaprop p l).
Proof.
  intro H. constructor; try reflexivity; unfold rebuilt_props, has_props; cbn [with_laminaprop pn_laminaprops pn_laminaprop pn_stack];
  destruct (pn_laminaprops p); try congruence; reflexivity.
Qed.
(* a finished calculation leaves the lists per ply *)
Lemma kC_lists E A p p' K : calc_kC E A p = (p', Ok K) ->
  pn_plyts p' = rebuilt_plyts p /\ pn_laminaprops p' = rebuilt_props p /\ pn_rhos p' = rebuilt_rhos p /\
  pn_plyts p' <> [] /\ pn_laminaprops p' <> [] /\ alike p p'.
Proof.
  intro H. pose proof (after_alike E (CkC A) p) as HA. cbn [after] in HA. rewrite H in HA. cbn [fst] in HA.
  destruct (calc_kC_inv _ _ _ _ _ H) as (mdl & kC & kG & R). destruct (kr_rebuild _ _ _ _ _ _ _ _ R) as (p1 & ER & S).
  destruct (rebuild_inv _ _ _ _ ER) as (A1 & A2 & A3 & A4 & A5 & A6 & A7 & A8 & A9 & A10 & A11 & A12 & _ & _ & _ & A16 & _).
  rewrite (sr_plyts _ _ S), (sr_props _ _ S), (sr_rhos _ _ S), A9, A10, A11.
  split; [reflexivity|split; [reflexivity|split; [reflexivity|split; [|split; [|exact HA]]]]]; unfold rebuilt_plyts, rebuilt_props;
  destruct (pn_stack p), (pn_plyts p), (pn_laminaprops p); cbn; congruence.
Qed.
(* a change of the stacking sequence with the same number of plies, or of the offset *)
Lemma stack_followed p p' st off : pn_plyts p' = rebuilt_plyts p -> pn_laminaprops p' = rebuilt_props p -> pn_rhos p' = rebuilt_rhos p ->
  alike p p' -> pn_stack p <> [] -> has_plyts p = true -> has_props p = true -> length st = length (pn_stack p) ->
  alike0 (with_stack p st off) (with_stack p' st off).
Proof.
  intros H1 H2 H3 H4 Hs Hp Hl Hn. destruct H4 as [I1 I2 I3 I4 I5 I6 I7 I8 I9 I10 I11]. destruct I1.
  assert (M : forall A (x : A), map (fun _ => x) st = map (fun _ => x) (pn_stack p)).
  { intros A x. clear -Hn. revert Hn. generalize (pn_stack p). induction st as [|a st IH]; intros [|b l] Hn; cbn in *; try lia; [reflexivity|].
    f_equal. apply IH. lia. }
  assert (Hst : st <> []) by (destruct st, (pn_stack p); cbn in Hn; congruence || discriminate).
  constructor; cbn; try assumption; try congruence.
  - unfold rebuilt_plyts in *. cbn [with_stack pn_plyts pn_plyt pn_stack]. rewrite si_plyt, H1. rewrite !M.
    destruct (pn_plyts p); [|reflexivity]. destruct (pn_stack p); [congruence|reflexivity].
  - unfold rebuilt_props in *. cbn [with_stack pn_laminaprops pn_laminaprop pn_stack]. rewrite I2, H2. rewrite !M.
    destruct (pn_laminaprops p); [|reflexivity]. destruct (pn_stack p); [congruence|reflexivity].
  - unfold rebuilt_rhos in *. cbn [with_stack pn_rhos pn_rho pn_stack]. rewrite si_rho, H3. rewrite !M.
    destruct (pn_rhos p); [|reflexivity]. destruct (pn_stack p); [congruence|reflexivity].
Qed.

(* ------------------------------------------------- vectors of the wrong size *)
Definition vector_error (c : carg) : exn := match c with CObj => TypeError | _ => ValueError end.
Lemma check_c_bad c n : ~ vector_ok n (Some c) -> check_c c n = Err (vector_error c).
Proof.
  destruct c as [l| |]; cbn; try reflexivity. intro H. destruct (length l =? n)%nat eqn:E; [|reflexivity].
  apply Nat.eqb_eq in E. congruence.
Qed.
Lemma size_of E sz p p1 u : rebuild E p = (p1, Ok u) -> exists p2, eval_size sz p1 = (p2, Ok (size_value sz (pn_sh p))).
Proof.
  intro H. destruct (rebuild_inv _ _ _ _ H) as (A1 & A2 & A3 & _). pose proof (si_sh _ _ A1) as Hs.
  destruct sz; cbn; unfold get_size, the_model, mbind, mget, mmod, mret; rewrite ?A3, ?Hs; eexists; reflexivity.
Qed.
Lemma kC_bad E A p c : complete p -> ka_c A = Some c -> ~ vector_ok (size_value (ka_size A) (pn_sh p)) (Some c) ->
  snd (calc_kC E A p) = Err (vector_error c).
Proof.
  intros Hc HA Hv. destruct (rebuild_ok E p Hc) as [p1 ER]. destruct (size_of E (ka_size A) p p1 _ ER) as [p2 E2].
  unfold calc_kC. unfold mbind at 1. rewrite ER. unfold mbind at 1. rewrite E2. rewrite HA.
  unfold mbind, mlift. rewrite check_c_bad by exact Hv. reflexivity.
Qed.
Lemma kG_bad E A p c : complete p -> ka_c A = Some c -> ~ vector_ok (size_value (ka_size A) (pn_sh p)) (Some c) ->
  snd (calc_kG E A p) = Err (vector_error c).
Proof.
  intros Hc HA Hv. destruct (rebuild_ok E p Hc) as [p1 ER]. destruct (size_of E (ka_size A) p p1 _ ER) as [p2 E2].
  unfold calc_kG. unfold mbind at 1. rewrite ER. unfold mbind at 1. rewrite E2. rewrite HA.
  unfold mbind, mlift. rewrite check_c_bad by exact Hv. reflexivity.
Qed.
Lemma kT_bad E A p c : complete p -> ka_c A = Some c -> ~ vector_ok (size_value (ka_size A) (pn_sh p)) (Some c) ->
  snd (calc_kT E A p) = Err (vector_error c).
Proof.
  intros Hc HA Hv. unfold calc_kT. set (A' := mkKargs _ _ _ _ _ _ _ _ _ _).
  pose proof (kC_bad E A' p c Hc HA Hv) as H. unfold mbind. destruct (calc_kC E A' p) as [p1 [K|e]]; cbn in H; [discriminate|].
  cbn. exact H.
Qed.
Lemma kC_cte_ok E A p p' K : calc_kC E A p = (p', Ok K) -> vector_ok (size_value (ka_size A) (pn_sh p)) (ka_c_cte A).
Proof.
  intro H. destruct (calc_kC_inv _ _ _ _ _ H) as (mdl & kC & kG & R). pose proof (kr_kG _ _ _ _ _ _ _ _ R) as G.
  cbv zeta in G. destruct (pn_N_cte p) as [[N1 N2] N3].
  destruct G as [(-> & _)|[(-> & _)|(l & -> & Hl & _)]]; cbn; try exact I. exact Hl.
Qed.
