(* Histories of load definitions, prescribed displacements and their penalty stiffness. *)
From Coq Require Import Reals List Arith Bool Lia Lra Permutation.
From Coquelicot Require Import Coquelicot.
From Verif Require Import Base_Sum Model_Types Model_Coo Model_Result Model_Num Model_DB Data_Bardell Model_Bardell Model_Shell Model_Field Model_Fext
  Spec_Algebra Spec_Kinematics Spec_Quadrature Spec_Panel Spec_Shell Spec_Bardell Spec_Integral Spec_Field Spec_Fext
  Proof_Coo Proof_Shell Proof_Total Proof_Ana Proof_Terms Proof_FieldApi Proof_FieldEdge Proof_Fext.
Import ListNotations.
Open Scope R_scope.

(* ------------------------------------------------- C35 *)
Lemma is_some_iff {A} (o : option A) : is_some o = true <-> o <> None.
Proof. destruct o; cbn; split; congruence. Qed.
Lemma any_func_iff f g h : any_func f g h = true <-> some_function f g h.
Proof. unfold any_func, some_function. rewrite !orb_true_iff, !is_some_iff. tauto. Qed.
Lemma truthy_iff k : truthy k = true <-> exists x, x <> 0 /\ k = Some x.
Proof.
  destruct k as [k|]; cbn; [|split; [discriminate|intros (x & _ & H); discriminate]].
  destruct (Req_EM_T k 0) as [->|Hk]; split; try discriminate; try reflexivity.
  - intros (x & Hx & H). injection H as <-. contradiction.
  - intros _. exists k. split; [exact Hk|reflexivity].
Qed.
Lemma any_const_iff k l m : any_const k l m = true <-> some_constant k l m.
Proof.
  unfold any_const, some_constant. rewrite !orb_true_iff, !truthy_iff. split.
  - intros [[(x & Hx & H)|(x & Hx & H)]|(x & Hx & H)]; exists x; tauto.
  - intros (x & Hx & [H|[H|H]]); [left; left|left; right|right]; exists x; tauto.
Qed.
Lemma pd_component_ok k f : both_or_neither k f -> exists g, pd_component k f = Ok g /\ forall t, comp g t = penalty k f t.
Proof.
  unfold both_or_neither, pd_component, penalty. destruct k as [k|], f as [f|]; intro H;
    try (exfalso; assert (false = true) by (destruct H; intuition congruence); congruence).
  - eexists. split; [reflexivity|]. intro t. reflexivity.
  - exists None. split; [reflexivity|]. intro t. cbn. ring.
Qed.
Lemma pd_component_bad k f : ~ both_or_neither k f -> pd_component k f = Err ValueError.
Proof.
  unfold both_or_neither, pd_component. destruct k as [k|], f as [f|]; intro H; try reflexivity; exfalso; apply H; split; congruence.
Qed.
Lemma both_dec k f : {both_or_neither k f} + {~ both_or_neither k f}.
Proof.
  unfold both_or_neither. destruct k as [k|], f as [f|]; [left|right|right|left]; try (split; congruence); intros [H1 H2]; intuition congruence.
Qed.

Definition pd_meaningful ku kv kw fu fv fw :=
  some_constant ku kv kw /\ both_or_neither ku fu /\ both_or_neither kv fv /\ both_or_neither kw fw.
Lemma some_constant_function ku kv kw fu fv fw : pd_meaningful ku kv kw fu fv fw -> some_function fu fv fw.
Proof.
  intros ((x & Hx & H) & B1 & B2 & B3). unfold both_or_neither, some_function in *.
  destruct H as [-> | [-> | ->]]; [left|right; left|right; right]; intro E.
  - apply B1 in E. discriminate.
  - apply B2 in E. discriminate.
  - apply B3 in E. discriminate.
Qed.
Lemma pd_entry_cases x y ku kv kw fu fv fw :
  (pd_meaningful ku kv kw fu fv fw /\ exists l, pd_entry x y ku kv kw fu fv fw = Ok l /\ dl_x l = x /\ dl_y l = y /\
     forall t, comp (dl_fx l) t = penalty ku fu t /\ comp (dl_fy l) t = penalty kv fv t /\ comp (dl_fz l) t = penalty kw fw t) \/
  (~ pd_meaningful ku kv kw fu fv fw /\ pd_entry x y ku kv kw fu fv fw = Err ValueError).
Proof.
  unfold pd_entry. destruct (any_const ku kv kw) eqn:EC; cbn [negb].
  2:{ right. split; [|reflexivity]. intros [H _]. apply any_const_iff in H. congruence. }
  apply any_const_iff in EC.
  destruct (any_func fu fv fw) eqn:EF; cbn [negb].
  2:{ right. split; [|reflexivity]. intros H. apply some_constant_function, any_func_iff in H. congruence. }
  destruct (both_dec ku fu) as [Bu|Bu].
  2:{ right. rewrite (pd_component_bad _ _ Bu). split; [intros (_ & H & _); contradiction|reflexivity]. }
  destruct (pd_component_ok _ _ Bu) as (gu & -> & Gu). cbn [rbind].
  destruct (both_dec kv fv) as [Bv|Bv].
  2:{ right. rewrite (pd_component_bad _ _ Bv). split; [intros (_ & _ & H & _); contradiction|reflexivity]. }
  destruct (pd_component_ok _ _ Bv) as (gv & -> & Gv). cbn [rbind].
  destruct (both_dec kw fw) as [Bw|Bw].
  2:{ right. rewrite (pd_component_bad _ _ Bw). split; [intros (_ & _ & _ & H); contradiction|reflexivity]. }
  destruct (pd_component_ok _ _ Bw) as (gw & -> & Gw). cbn [rbind].
  left. split; [exact (conj EC (conj Bu (conj Bv Bw)))|]. eexists. split; [reflexivity|]. repeat split; auto.
Qed.

(* total work of the loads *)
Definition total_work Q s L U inc := constant_work Q s L U + inc * incremented_work Q s L U.
Lemma suml_snoc {A} (l : list A) x f : suml (l ++ [x]) f = suml l f + f x.
Proof. rewrite suml_app. cbn. ring. Qed.

Lemma call_cases k L :
  (meaningful k /\ exists L', call_method k L = (L', Ok tt) /\
     (List.Forall well_placed (all_lines L) -> List.Forall well_placed (all_lines L')) /\
     forall Q s U inc, total_work Q s L' U inc = total_work Q s L U inc + call_work Q s U inc k) \/
  (~ meaningful k /\ call_method k L = (L, Err ValueError)).
Proof.
  assert (HWP : forall (cte : bool) l, well_placed l ->
     (List.Forall well_placed (all_lines L) -> List.Forall well_placed (all_lines (if cte then add_distr L l else add_distr_inc L l))) /\
     (List.Forall well_placed (all_lines L) -> List.Forall well_placed (all_lines (if cte then add_dpd L l else add_dpd_inc L l)))).
  { intros cte l Hl. unfold all_lines. split; destruct cte; cbn [add_distr add_distr_inc add_dpd add_dpd_inc ld_distr ld_distr_inc ld_dpd ld_dpd_inc];
    rewrite !List.Forall_app; intros; repeat split; try tauto; constructor; [exact Hl|constructor|exact Hl|constructor|exact Hl|constructor|exact Hl|constructor]. }
  assert (HD : forall (cte : bool) l Q s U inc,
     total_work Q s (if cte then add_distr L l else add_distr_inc L l) U inc = total_work Q s L U inc + (if cte then 1 else inc) * line_work Q s U l /\
     total_work Q s (if cte then add_dpd L l else add_dpd_inc L l) U inc = total_work Q s L U inc + (if cte then 1 else inc) * line_work Q s U l).
  { intros cte l Q s U inc. unfold total_work, constant_work, incremented_work. split; destruct cte;
    cbn [add_distr add_distr_inc add_dpd add_dpd_inc ld_distr ld_distr_inc ld_dpd ld_dpd_inc ld_point ld_point_inc ld_ppd ld_ppd_inc]; rewrite suml_snoc; ring. }
  destruct k as [x y fx fy fz cte|x fx fy fz cte|y fx fy fz cte|x y ku up kv vp kw wp cte|x ku kv kw fu fv fw cte|y ku kv kw fu fv fw cte]; cbn [meaningful call_method].
  - left. split; [exact I|]. eexists. split; [reflexivity|]. split; [destruct cte; exact (fun H => H)|].
    intros Q s U inc. unfold total_work, constant_work, incremented_work, call_work. destruct cte; cbn [add_point add_point_inc ld_point ld_point_inc ld_distr ld_distr_inc ld_ppd ld_ppd_inc ld_dpd ld_dpd_inc];
    rewrite suml_snoc; unfold point_work; cbn [pl_x pl_y pl_fx pl_fy pl_fz]; ring.
  - unfold add_distr_load_fixed_x. destruct (any_func fx fy fz) eqn:EF; cbn [negb].
    + left. split; [apply any_func_iff; exact EF|]. eexists. split; [reflexivity|].
      split; [apply (HWP cte (mkDload (Some x) None fx fy fz) I)|].
      intros Q s U inc. rewrite (proj1 (HD cte _ Q s U inc)). reflexivity.
    + right. split; [|reflexivity]. intro H. apply any_func_iff in H. congruence.
  - unfold add_distr_load_fixed_y. destruct (any_func fx fy fz) eqn:EF; cbn [negb].
    + left. split; [apply any_func_iff; exact EF|]. eexists. split; [reflexivity|].
      split; [apply (HWP cte (mkDload None (Some y) fx fy fz) I)|].
      intros Q s U inc. rewrite (proj1 (HD cte _ Q s U inc)). reflexivity.
    + right. split; [|reflexivity]. intro H. apply any_func_iff in H. congruence.
  - left. split; [exact I|]. eexists. split; [reflexivity|]. split; [destruct cte; exact (fun H => H)|].
    intros Q s U inc. unfold total_work, constant_work, incremented_work, call_work. destruct cte; cbn [add_ppd add_ppd_inc ld_point ld_point_inc ld_distr ld_distr_inc ld_ppd ld_ppd_inc ld_dpd ld_dpd_inc];
    rewrite suml_snoc; unfold point_work; cbn [pl_x pl_y pl_fx pl_fy pl_fz]; ring.
  - unfold add_distr_pd_fixed_x, add_pd. destruct (pd_entry_cases (Some x) None ku kv kw fu fv fw) as [(HM & l & -> & Hx & Hy & HG)|(HM & ->)].
    + left. split; [exact HM|]. eexists. split; [reflexivity|].
      assert (Hl : well_placed l) by (unfold well_placed; rewrite Hx, Hy; exact I). split; [apply (HWP cte l Hl)|].
      intros Q s U inc. rewrite (proj2 (HD cte l Q s U inc)). cbn [call_work]. f_equal. f_equal.
      unfold line_work. rewrite Hx. apply along_side_ext. intro t. unfold density. rewrite Hx, Hy.
      destruct (HG t) as (-> & -> & ->). reflexivity.
    + right. split; [exact HM|reflexivity].
  - unfold add_distr_pd_fixed_y, add_pd. destruct (pd_entry_cases None (Some y) ku kv kw fu fv fw) as [(HM & l & -> & Hx & Hy & HG)|(HM & ->)].
    + left. split; [exact HM|]. eexists. split; [reflexivity|].
      assert (Hl : well_placed l) by (unfold well_placed; rewrite Hx, Hy; exact I). split; [apply (HWP cte l Hl)|].
      intros Q s U inc. rewrite (proj2 (HD cte l Q s U inc)). cbn [call_work]. f_equal. f_equal.
      unfold line_work. rewrite Hx. apply along_side_ext. intro t. unfold density. rewrite Hx, Hy.
      destruct (HG t) as (-> & -> & ->). reflexivity.
    + right. split; [exact HM|reflexivity].
Qed.

Theorem call_outcome k L : (meaningful k -> snd (call_method k L) = Ok tt) /\
  (~ meaningful k -> call_method k L = (L, Err ValueError)).
Proof.
  destruct (call_cases k L) as [(H & L' & HL & _)|(H & HL)]; split; intro H'; try contradiction; [rewrite HL; reflexivity|exact HL].
Qed.

Lemma run_calls_work h : forall L L' outs, run_calls h L = (L', outs) ->
  map fst outs = h /\ (List.Forall well_placed (all_lines L) -> List.Forall well_placed (all_lines L')) /\
  forall Q s U inc, total_work Q s L' U inc = total_work Q s L U inc + accepted_work Q s U inc outs.
Proof.
  induction h as [|k h IH]; intros L L' outs H; cbn [run_calls] in H.
  - injection H as <- <-. repeat split; auto. intros. unfold accepted_work. cbn. ring.
  - destruct (call_method k L) as [L1 r] eqn:EK. destruct (run_calls h L1) as [L2 outs'] eqn:ER. injection H as <- <-.
    destruct (IH _ _ _ ER) as (E1 & E2 & E3). unfold accepted_work in *. cbn [map fst suml snd].
    destruct (call_cases k L) as [(_ & L1' & HL & HP & HW)|(_ & HL)]; rewrite HL in EK; injection EK as <- <-.
    + repeat split; [congruence|auto|]. intros. rewrite E3, HW. ring.
    + repeat split; [congruence|auto|]. intros. rewrite E3. ring.
Qed.

Theorem history_work E Bs h L outs inc sz col0 p p' f d U sched nc : run_calls h no_loads = (L, outs) ->
  calc_fext E Bs L inc sz col0 p = (p', Ok f) ->
  (forall l, Permutation (sched l) l) -> uvw_is sched Bs nc p' (skipn col0 d) U ->
  map fst outs = h /\ dot (length f) (vec f) (vec d) = accepted_work (e_rule E) (pn_sh p) U inc outs.
Proof.
  intros Hh H Hs HU. destruct (run_calls_work _ _ _ _ Hh) as (E1 & _ & E3). split; [exact E1|].
  rewrite (proj2 (fext_work _ _ _ _ _ _ _ _ _ _ _ _ _ H Hs HU)). fold (total_work (e_rule E) (pn_sh p) L U inc). rewrite E3.
  unfold total_work, constant_work, incremented_work, no_loads. cbn. ring.
Qed.
Theorem history_runs E Bs h L outs inc sz col0 p : run_calls h no_loads = (L, outs) -> complete p ->
  (sh_m (pn_sh p) <= 30)%nat -> (sh_n (pn_sh p) <= 30)%nat ->
  (col0 + 3 * (sh_m (pn_sh p) * sh_n (pn_sh p)) <= size_value sz (pn_sh p))%nat ->
  exists p' f, calc_fext E Bs L inc sz col0 p = (p', Ok f).
Proof.
  intros Hh Hc Hm Hn Hf. apply calc_fext_ok; try assumption. apply (run_calls_work _ _ _ _ Hh). constructor.
Qed.
