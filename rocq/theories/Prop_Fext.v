(* Loads, prescribed displacements and their penalty stiffness.
   A load vector is compared with the loads through the work it does: uvw_is (Spec_Field.v) names the
   displacement functions that Shell.uvw evaluates for a Ritz vector, and work_at, along_side,
   spring_work (Spec_Fext.v) are the work of forces and springs in such displacements. *)
From Coq Require Import Reals List Arith Bool Lia Lra Permutation.
From Coquelicot Require Import Coquelicot.
From Verif Require Import Base_Sum Model_Types Model_Coo Model_Result Model_Num Model_DB Model_Bardell Model_Shell Model_Field Model_Fext
  Spec_Algebra Spec_Kinematics Spec_Quadrature Spec_Integral Spec_Bardell Spec_Panel Spec_Shell Spec_Field Spec_Fext
  Proof_Bardell Proof_Shell Proof_Total Proof_FieldEdge Proof_Fext Proof_FextApi Proof_Pd Ex_Panel Ex_Fint Ex_Exact Ex_Fext Proof_AnaApi.
Import ListNotations.
Open Scope R_scope.

(* a plate with 1 x 1 terms and one with 4 x 5 terms *)
Definition lp4 : panel := ex_panel (Some 10).
Lemma perm_id {A} : forall l : list A, Permutation (rev l) l.
Proof. intro l. apply Permutation_sym, Permutation_rev. Qed.
Lemma fext_length E Bs L inc sz col0 p p' f : calc_fext E Bs L inc sz col0 p = (p', Ok f) -> length f = size_value sz (pn_sh p).
Proof. intro H. apply (calc_fext_spec _ _ _ _ _ _ _ _ _ H). Qed.
Lemma run_calls_placed h L outs : run_calls h no_loads = (L, outs) -> List.Forall well_placed (all_lines L).
Proof. intro H. apply (run_calls_work _ _ _ _ H). constructor. Qed.
Definition lp4c : panel := set_model lp4 (Some (Known CylModel)).
Definition lv4 : list R := ex_vec 65.
Lemma lp4_runs L inc : List.Forall well_placed (all_lines L) ->
  exists p' f U, calc_fext ex_env vec_basis L inc (SStr 5) 5 lp4 = (p', Ok f) /\ uvw_is (@rev _) vec_basis 2 p' (skipn 5 lv4) U /\ pn_sh p' = ex_shell.
Proof.
  intro HL. destruct (calc_fext_ok ex_env vec_basis L inc (SStr 5) 5 lp4) as (p' & f & H);
    [apply ex_complete|exact HL|cbn; lia|cbn; lia|cbn; lia|].
  exists p', f. pose proof (calc_fext_spec _ _ _ _ _ _ _ _ _ H) as (HR & _).
  apply rebuild_inv in HR. destruct HR as (Hin & _ & Hm & _). pose proof (si_sh _ _ Hin) as Hsh.
  eexists. split; [exact H|]. split; [|exact Hsh].
  apply (uvw_is_ok _ _ _ _ _ _ perm_id Hm); rewrite ?Hsh; try discriminate; cbn; lia.
Qed.

(* ------------------------------------------------- C32 *)
Theorem C32_load_vector_does_the_work_of_the_loads : forall E L inc sz col0 p p' f d U sched nc,
  calc_fext E vec_basis L inc sz col0 p = (p', Ok f) ->
  (forall l, Permutation (sched l) l) -> uvw_is sched vec_basis nc p' (skipn col0 d) U ->
  length f = size_value sz (pn_sh p) /\
  dot (length f) (vec f) (vec d) =
    constant_work (e_rule E) (pn_sh p) L U + inc * incremented_work (e_rule E) (pn_sh p) L U.
Proof. intros. eapply fext_work; eassumption. Qed.
Print Assumptions C32_load_vector_does_the_work_of_the_loads.
(* the sums along a side are the integrals along it, for polynomial densities *)
Theorem C32_line_loads_are_integrated : forall len q p g, 0 < len -> (2 <= q <= 64)%nat -> (length p <= 2 * q)%nat ->
  (forall t, g ((t + 1) * len / 2) = poly p t) ->
  Rabs (along_side code_rule q len g - RInt g 0 len) <= len / 2 * (1 / 10 ^ 16 * suml p Rabs).
Proof. intros len q p g Hl. intros. apply side_rule; try assumption; lra. Qed.
Print Assumptions C32_line_loads_are_integrated.
(* with a single term along the side (or more than 64) they are lost without an error *)
Theorem C32_line_loads_lost_with_one_term : forall len q g, (1 <= q)%nat -> ~ (2 <= q <= 64)%nat -> along_side code_rule q len g = 0.
Proof. exact side_rule_none. Qed.
Print Assumptions C32_line_loads_lost_with_one_term.
Example C32_case : exists L outs p' f U, run_calls some_calls no_loads = (L, outs) /\
  calc_fext ex_env vec_basis L (1/2) (SStr 5) 5 lp4 = (p', Ok f) /\ uvw_is (@rev _) vec_basis 2 p' (skipn 5 lv4) U.
Proof.
  destruct some_calls_run as (L & outs & H & _). destruct (lp4_runs L (1/2)) as (p' & f & U & H1 & H2 & Hsh).
  - exact (run_calls_placed _ _ _ H).
  - exists L, outs, p', f, U. repeat split; assumption.
Qed.
(* force 1 + x along a side of length 2 with displacement x^2 at four points *)
Example C32_side_case : forall t, (fun x => (1 + x) * x^2) ((t + 1) * 2 / 2) = poly [2; 5; 4; 1] t.
Proof. intro t. unfold poly. cbn -[pow]. field. Qed.

(* ------------------------------------------------- C33 *)
Theorem C33_incrementation : forall E Bs L inc sz col0 p p0 p1 p2 f f0 f1,
  calc_fext E Bs L 0 sz col0 p = (p0, Ok f0) -> calc_fext E Bs L 1 sz col0 p = (p1, Ok f1) ->
  calc_fext E Bs L inc sz col0 p = (p2, Ok f) ->
  forall k, nth k f 0 = nth k f0 0 + inc * (nth k f1 0 - nth k f0 0).
Proof. intros. eapply fext_affine; eassumption. Qed.
Print Assumptions C33_incrementation.
Theorem C33_superposition_in_any_order : forall E Bs L1 L2 L inc sz col0 p p1 p2 p' f1 f2 f, merges L1 L2 L ->
  calc_fext E Bs L1 inc sz col0 p = (p1, Ok f1) -> calc_fext E Bs L2 inc sz col0 p = (p2, Ok f2) ->
  calc_fext E Bs L inc sz col0 p = (p', Ok f) ->
  forall k, nth k f 0 = nth k f1 0 + nth k f2 0.
Proof. intros. eapply (fext_superposition E Bs L1 L2); eassumption. Qed.
Print Assumptions C33_superposition_in_any_order.
Definition two_loads : loads := fst (run_calls [PointLoad 1 1 1 2 3 true; LineLoadX 2 (Some (fun y => y)) None None true] no_loads).
Definition load_a : loads := fst (run_calls [PointLoad 1 1 1 2 3 true] no_loads).
Definition load_b : loads := fst (run_calls [LineLoadX 2 (Some (fun y => y)) None None true] no_loads).
Example C33_case : merges load_a load_b two_loads /\
  exists p' f, calc_fext ex_env vec_basis two_loads (1/3) (SStr 5) 5 lp4 = (p', Ok f).
Proof.
  split; [repeat split; apply Permutation_refl|].
  destruct (lp4_runs two_loads (1/3)) as (p' & f & _ & H & _ & _); [repeat constructor|]. exists p', f. exact H.
Qed.

(* ------------------------------------------------- C34 *)
Theorem C34_load_vector_in_its_slice : forall E Bs L inc sz col0 p p' p0 f f0,
  calc_fext E Bs L inc sz col0 p = (p', Ok f) -> calc_fext E Bs L inc SNone 0 p = (p0, Ok f0) ->
  length f = size_value sz (pn_sh p) /\
  forall k, (k < length f)%nat ->
  nth k f 0 = if ((col0 <=? k) && (k <? col0 + 3 * (sh_m (pn_sh p) * sh_n (pn_sh p))))%nat%bool then nth (k - col0) f0 0 else 0.
Proof.
  intros E Bs L inc sz col0 p p' p0 f f0 H H0. split; [eapply fext_length; eassumption|]. intros k Hk. rewrite (fext_slice _ _ _ _ _ _ _ _ _ _ _ H H0).
  apply Nat.ltb_lt in Hk. rewrite Hk, andb_true_r. reflexivity.
Qed.
Print Assumptions C34_load_vector_in_its_slice.
Example C34_case : exists p' f p0 f0, calc_fext ex_env vec_basis two_loads (1/3) (SStr 5) 5 lp4 = (p', Ok f) /\
  calc_fext ex_env vec_basis two_loads (1/3) SNone 0 lp4 = (p0, Ok f0) /\ length f = 65%nat.
Proof.
  destruct (calc_fext_ok ex_env vec_basis two_loads (1/3) (SStr 5) 5 lp4) as (p' & f & H); [apply ex_complete|repeat constructor|cbn; lia..|].
  destruct (calc_fext_ok ex_env vec_basis two_loads (1/3) SNone 0 lp4) as (p0 & f0 & H0); [apply ex_complete|repeat constructor|cbn; lia..|].
  exists p', f, p0, f0. repeat split; try assumption. rewrite (fext_length _ _ _ _ _ _ _ _ _ H). reflexivity.
Qed.

(* ------------------------------------------------- C35 *)
Theorem C35_definitions_validated : forall k L,
  (meaningful k -> snd (call_method k L) = Ok tt) /\ (~ meaningful k -> call_method k L = (L, Err ValueError)).
Proof. exact call_outcome. Qed.
Print Assumptions C35_definitions_validated.
(* whatever the calls, the load vector does the work of those that were accepted, each scaled by inc
   unless it was defined as constant *)
Theorem C35_history_of_definitions : forall E h L outs inc sz col0 p p' f d U sched nc, run_calls h no_loads = (L, outs) ->
  calc_fext E vec_basis L inc sz col0 p = (p', Ok f) ->
  (forall l, Permutation (sched l) l) -> uvw_is sched vec_basis nc p' (skipn col0 d) U ->
  map fst outs = h /\ dot (length f) (vec f) (vec d) = accepted_work (e_rule E) (pn_sh p) U inc outs.
Proof. intros. eapply history_work; eassumption. Qed.
Print Assumptions C35_history_of_definitions.
(* and calc_fext accepts it *)
Theorem C35_accepted_definitions_run : forall E Bs h L outs inc sz col0 p, run_calls h no_loads = (L, outs) -> complete p ->
  (sh_m (pn_sh p) <= 30)%nat -> (sh_n (pn_sh p) <= 30)%nat ->
  (col0 + 3 * (sh_m (pn_sh p) * sh_n (pn_sh p)) <= size_value sz (pn_sh p))%nat ->
  exists p' f, calc_fext E Bs L inc sz col0 p = (p', Ok f).
Proof. exact history_runs. Qed.
Print Assumptions C35_accepted_definitions_run.
Example C35_case : exists L outs, run_calls some_calls no_loads = (L, outs) /\
  map snd outs = [Ok tt; Ok tt; Err ValueError; Ok tt; Ok tt; Ok tt] /\ complete lp4.
Proof. destruct some_calls_run as (L & outs & H & H'). exists L, outs. repeat split; try assumption; apply ex_complete. Qed.

(* ------------------------------------------------- C36 *)
Theorem C36_point_constraints_pull : forall E pds inc sz col0 p p' f L outs Ms c d Uc Ud sched nc,
  run_calls (map pd_call pds) no_loads = (L, outs) ->
  calc_fext E vec_basis L inc sz col0 p = (p', Ok f) ->
  (col0 + 3 * (sh_m (pn_sh p) * sh_n (pn_sh p)) <= length f)%nat ->
  Forall2 (fun q M => fkCpd code_basis (pd_ku q) (pd_kv q) (pd_kw q) (kernel_view p') (pd_x q) (pd_y q) (length f) col0 col0 = Ok M) pds Ms ->
  (forall l, Permutation (sched l) l) ->
  uvw_is sched vec_basis nc p' (skipn col0 c) Uc -> uvw_is sched vec_basis nc p' (skipn col0 d) Ud ->
  suml Ms (fun M => bilinear (length f) (finalize_symmetric (dense M)) (vec c) (vec d)) - dot (length f) (vec f) (vec d) =
  suml pds (pd_work Uc Ud inc).
Proof. intros. eapply pd_equilibrium; try eassumption. apply code_vec_same. Qed.
Print Assumptions C36_point_constraints_pull.
Theorem C36_point_constraint_energy : forall ku kv kw p x y size col0 M c Uc sched nc,
  fkCpd code_basis ku kv kw (kernel_view p) x y size col0 col0 = Ok M -> (col0 + 3 * (sh_m (pn_sh p) * sh_n (pn_sh p)) <= size)%nat ->
  (forall l, Permutation (sched l) l) -> uvw_is sched vec_basis nc p (skipn col0 c) Uc ->
  quad size (finalize_symmetric (dense M)) (vec c) = ku * Uc 0%nat x y ^ 2 + kv * Uc 1%nat x y ^ 2 + kw * Uc 2%nat x y ^ 2.
Proof.
  intros ku kv kw p x y size col0 M c Uc sched nc HM Hf Hs HU. unfold quad.
  rewrite (pd_bilinear_fields _ _ _ _ _ _ _ _ _ _ _ _ _ _ _ _ _ code_vec_same HM Hf Hs HU HU). unfold spring_work. ring.
Qed.
Print Assumptions C36_point_constraint_energy.
Theorem C36_point_constraint_symmetric_psd : forall Bs ku kv kw s xp yp size o M,
  fkCpd Bs ku kv kw s xp yp size o o = Ok M ->
  (o + 3 * (sh_m s * sh_n s) <= size)%nat -> 0 <= ku -> 0 <= kv -> 0 <= kw ->
  symmetric (finalize_symmetric (dense M)) /\ psd size (finalize_symmetric (dense M)).
Proof. exact pd_psd. Qed.
Print Assumptions C36_point_constraint_symmetric_psd.
(* calc_stiffness_point_constraint: springs in the selected displacements and rotations *)
Theorem C36_stiffness_point_constraint : forall x y u v w phix phiy kuvw kphi p p' K c d Uc Ud sched nc,
  calc_stiffness_point_constraint vec_basis x y u v w phix phiy kuvw kphi p = (p', Ok K) ->
  (forall l, Permutation (sched l) l) -> uvw_is sched vec_basis nc p' c Uc -> uvw_is sched vec_basis nc p' d Ud ->
  bilinear (3 * (sh_m (pn_sh p) * sh_n (pn_sh p))) K (vec c) (vec d) =
  spring kuvw u (Uc 0%nat x y) (Ud 0%nat x y) + spring kuvw v (Uc 1%nat x y) (Ud 1%nat x y) + spring kuvw w (Uc 2%nat x y) (Ud 2%nat x y)
  + spring kphi phix (Uc 3%nat x y) (Ud 3%nat x y) + spring kphi phiy (Uc 4%nat x y) (Ud 4%nat x y).
Proof. intros. eapply constraint_form; eassumption. Qed.
Print Assumptions C36_stiffness_point_constraint.
Definition two_pds : list pdef := [mkPdef 1 1 100 (1/10) 0 0 50 0 true; mkPdef 2 (1/2) 0 0 20 (-1) 0 0 false].
Example C36_case : exists L outs p' f U Ms, run_calls (map pd_call two_pds) no_loads = (L, outs) /\
  calc_fext ex_env vec_basis L (1/2) (SStr 5) 5 lp4 = (p', Ok f) /\ uvw_is (@rev _) vec_basis 2 p' (skipn 5 lv4) U /\
  Forall2 (fun q M => fkCpd code_basis (pd_ku q) (pd_kv q) (pd_kw q) (kernel_view p') (pd_x q) (pd_y q) (length f) 5 5 = Ok M) two_pds Ms.
Proof.
  destruct (run_calls (map pd_call two_pds) no_loads) as [L outs] eqn:HL.
  destruct (lp4_runs L (1/2)) as (p' & f & U & H1 & H2 & Hsh).
  { exact (run_calls_placed _ _ _ HL). }
  exists L, outs, p', f, U. rewrite (fext_length _ _ _ _ _ _ _ _ _ H1).
  change (size_value (SStr 5) (pn_sh lp4)) with 65%nat.
  assert (HM : forall q, exists M, fkCpd code_basis (pd_ku q) (pd_kv q) (pd_kw q) (kernel_view p') (pd_x q) (pd_y q) 65 5 5 = Ok M).
  { intro q. apply fkCpd_ok. change (sh_m (kernel_view p')) with (sh_m (pn_sh p')). change (sh_n (kernel_view p')) with (sh_n (pn_sh p')). rewrite Hsh. cbn. lia. }
  destruct (HM (mkPdef 1 1 100 (1/10) 0 0 50 0 true)) as [M1 HM1]. destruct (HM (mkPdef 2 (1/2) 0 0 20 (-1) 0 0 false)) as [M2 HM2].
  exists [M1; M2]. repeat split; try assumption. constructor; [exact HM1|]. constructor; [exact HM2|]. constructor.
Qed.
Example C36_constraint_case : exists p' K U, calc_stiffness_point_constraint vec_basis 1 1 true false true true false 100 10 lp4c = (p', Ok K) /\
  uvw_is (@rev _) vec_basis 2 p' (ex_vec 60) U.
Proof.
  destruct (calc_stiffness_point_constraint vec_basis 1 1 true false true true false 100 10 lp4c) as [p' [K|e]] eqn:H.
  - eexists; exists K; eexists. split; [reflexivity|]. unfold calc_stiffness_point_constraint, mbind, the_model in H. change (pn_model lp4c) with (Some (Known CylModel)) in H. cbv iota in H.
    rewrite (get_size_run lp4c CylModel eq_refl) in H. unfold mget, mlift, call_fg in H. change ((_ && _)%bool) with true in H. cbv iota in H. unfold mret in H.
    apply pair_equal_spec in H. destruct H as [<- _].
    apply (uvw_is_ok _ _ _ _ _ CylModel); try reflexivity; try apply perm_id; try discriminate; cbn; lia.
  - exfalso. unfold calc_stiffness_point_constraint, mbind, the_model in H. change (pn_model lp4c) with (Some (Known CylModel)) in H. cbv iota in H.
    rewrite (get_size_run lp4c CylModel eq_refl) in H. unfold mget, mlift, call_fg in H. change ((_ && _)%bool) with true in H. cbv iota in H. discriminate H.
Qed.

(* ------------------------------------------------- C37 *)
(* C37 does not hold: the constants ku and kv of a line are put on the coefficients of w *)
Theorem C37_refuted : exists s xp M c I,
  fkCld_xcte code_tables code_basis 1 0 0 s xp (3 * (sh_m s * sh_n s)) 0 0 = Ok M /\
  quad (3 * (sh_m s * sh_n s)) (finalize_symmetric (dense M)) c = 0 /\
  is_RInt (fun y => 1 * ritz_field code_basis s (own 0 c) 0%nat xp y ^ 2) 0 (sh_b s) I /\ 0 < I.
Proof. exact line_pd_refuted. Qed.
Print Assumptions C37_refuted.
(* constants in w only: the stiffness is that of the line *)
Theorem C37_partial_w_constants : forall T Bs kw s xp yp size o c d, tables_integrate T Bs (Nat.max (sh_m s) (sh_n s)) ->
  sh_a s <> 0 -> sh_b s <> 0 -> (o + 3 * (sh_m s * sh_n s) <= size)%nat ->
  (forall M, fkCld_xcte T Bs 0 0 kw s xp size o o = Ok M ->
    is_RInt (fun y => spring_work (ritz_field Bs s (own o c)) (ritz_field Bs s (own o d)) xp y 0 0 0 0 kw 0) 0 (sh_b s)
      (bilinear size (finalize_symmetric (dense M)) c d)) /\
  (forall M, fkCld_ycte T Bs 0 0 kw s yp size o o = Ok M ->
    is_RInt (fun x => spring_work (ritz_field Bs s (own o c)) (ritz_field Bs s (own o d)) x yp 0 0 0 0 kw 0) 0 (sh_a s)
      (bilinear size (finalize_symmetric (dense M)) c d)).
Proof. intros. split; intros; [eapply ldx_w|eapply ldy_w]; eassumption. Qed.
Print Assumptions C37_partial_w_constants.
(* any constants: each acts on the field that the coefficients of w make with the shape functions of
   its own component *)
Theorem C37_partial_exact_value : forall T Bs ku kv kw s xp yp size o c d, tables_integrate T Bs (Nat.max (sh_m s) (sh_n s)) ->
  sh_a s <> 0 -> sh_b s <> 0 -> (o + 3 * (sh_m s * sh_n s) <= size)%nat ->
  let F c q x y := third_field Bs s o c q x y in
  (forall M, fkCld_xcte T Bs ku kv kw s xp size o o = Ok M ->
    is_RInt (fun y => ku * (F c 0%nat xp y * F d 0%nat xp y) + kv * (F c 1%nat xp y * F d 1%nat xp y) + kw * (F c 2%nat xp y * F d 2%nat xp y))
      0 (sh_b s) (bilinear size (finalize_symmetric (dense M)) c d)) /\
  (forall M, fkCld_ycte T Bs ku kv kw s yp size o o = Ok M ->
    is_RInt (fun x => ku * (F c 0%nat x yp * F d 0%nat x yp) + kv * (F c 1%nat x yp * F d 1%nat x yp) + kw * (F c 2%nat x yp * F d 2%nat x yp))
      0 (sh_a s) (bilinear size (finalize_symmetric (dense M)) c d)).
Proof. intros. split; intros; [apply (ldx_bilinear T)|apply (ldy_bilinear T)]; assumption. Qed.
Print Assumptions C37_partial_exact_value.
Example C37_case : exists M M', fkCld_xcte exact_tables exact_basis 0 0 7 ex_shell 1 65 5 5 = Ok M /\ fkCld_ycte exact_tables exact_basis 0 0 7 ex_shell 1 65 5 5 = Ok M' /\
  tables_integrate exact_tables exact_basis (Nat.max (sh_m ex_shell) (sh_n ex_shell)).
Proof.
  destruct (fkCld_xcte_ok exact_tables exact_basis 0 0 7 ex_shell 1 65 5) as [M HM]; [cbn; lia|].
  destruct (fkCld_ycte_ok exact_tables exact_basis 0 0 7 ex_shell 1 65 5) as [M' HM']; [cbn; lia|].
  exists M, M'. split; [exact HM|]. split; [exact HM'|]. apply exact_tables_integrate. cbn. lia.
Qed.
