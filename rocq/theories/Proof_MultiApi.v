(* The properties of assemblies, from the preceding files. *)
From Coq Require Import Reals List Arith Bool Lia Lra.
From Verif Require Import Base_Sum Model_Types Model_Coo Model_Result Model_Num Model_DB Model_Shell Model_Fext Model_Field Model_Conn Model_Multi   Spec_Algebra Spec_Integral Spec_Panel Spec_Shell Spec_Fext Spec_Conn Spec_Multi Spec_MultiConn   Proof_Coo Proof_Ana Proof_Terms Proof_Shell Proof_Api Proof_Total Proof_FintApi Proof_Place Proof_Multi Proof_MultiConn Proof_MultiSign.
From Verif Require Import Proof_FieldEdge Spec_Kinematics Model_Field Proof_MultiConn Proof_MultiSign Proof_MultiTop Proof_MultiHist.
Import ListNotations.
Open Scope R_scope.

(* ------------------------------------------------- statements for the properties *)
Lemma laid_at h ids : forall o pre i post, laid_out h ids o -> ids = pre ++ i :: post ->
  xp_start (h i) = Some (o + list_sum (map (fun i => width (h i)) pre))%nat /\
  xp_end (h i) = Some (o + list_sum (map (fun i => width (h i)) pre) + width (h i))%nat.
Proof.
  induction ids as [|j ids IH]; intros o pre i post L HE; [destruct pre; discriminate|].
  cbn [laid_out] in L. destruct L as (L1 & L2 & L3). destruct pre as [|q pre]; cbn [app] in HE; injection HE as -> HE.
  - cbn. rewrite Nat.add_0_r. auto.
  - destruct (IH _ pre i post L3 HE) as (A1 & A2). cbn [map]. rewrite A1, A2. cbn [list_sum fold_right]. unfold list_sum. split; f_equal; lia.
Qed.
Lemma slices_of_new ids cn w : ids <> [] -> NoDup ids ->
  let w' := fst (new_assembly ids cn w) in let s := snd (new_assembly ids cn w) in
  let n i := (3 * (sh_m (pn_sh (xp (w_panel w i))) * sh_n (pn_sh (xp (w_panel w i)))))%nat in
  let size := list_sum (map n ids) in
  asm_size w' s = (w', s, Ok size) /\
  (forall pre i post, ids = pre ++ i :: post ->
     xp_start (w_panel w' i) = Some (list_sum (map n pre)) /\ xp_end (w_panel w' i) = Some (list_sum (map n pre) + n i)%nat) /\
  (forall k, (k < size)%nat -> exists i, In i ids /\ in_slice (w_panel w') i k) /\
  (forall i j k, In i ids -> In j ids -> in_slice (w_panel w') i k -> in_slice (w_panel w') j k -> i = j /\ (k < size)%nat) /\
  w_conn w' = w_conn w /\
  (forall i, xp (w_panel w' i) = xp (w_panel w i) /\ xp_group (w_panel w' i) = xp_group (w_panel w i) /\ xp_loads (w_panel w' i) = xp_loads (w_panel w i)) /\
  (forall i, ~ In i ids -> w_panel w' i = w_panel w i).
Proof.
  intros Hne ND w' s n size.
  destruct (set_spans_frame ids 0 w) as (F1 & F2 & F3).
  pose proof (set_spans_laid ids 0 w ND) as L. change (set_spans ids 0 w) with w' in *.
  assert (HW : forall i, width (w_panel w' i) = n i).
  { intro i. unfold width, n. destruct (F2 i) as (-> & _). lia. }
  assert (HT : total_width (w_panel w') ids = size).
  { unfold total_width, size. f_equal. apply map_ext. exact HW. }
  split; [rewrite asm_size_total; cbn [s new_assembly snd as_panels]; rewrite HT; reflexivity|].
  split.
  { intros pre i post HE. destruct (laid_at _ _ 0 pre i post L HE) as (A1 & A2). rewrite A1, A2, HW. cbn [Nat.add].
    replace (map (fun i0 => width (w_panel w' i0)) pre) with (map n pre) by (apply map_ext; intro; symmetry; apply HW). auto. }
  split; [intros k Hk; apply (laid_cover _ _ 0 k L); rewrite HT; lia|].
  split; [|auto]. intros i j k Hi Hj Si Sj. split; [apply (laid_disjoint _ _ 0 i j k ND L Hi Hj Si Sj)|].
  rewrite <- HT. apply (slice_range _ _ i k L Hi Si).
Qed.
Lemma fields_each sched Bv c group gridx gridy w s w' s' fs :
  asm_uvw sched Bv c group gridx gridy w s = (w', s', Ok fs) ->
  w' = w /\ s' = s /\
  for_group (w_panel w) group (fun i f =>
    let x := w_panel w i in let XY := meshgrid (linspace (sh_a (pn_sh (xp x))) gridx) (linspace (sh_b (pn_sh (xp x))) gridy) in
    fst f = XY /\ fuvw sched Bv (pslice (xp_start x) (xp_end x) c) (kernel_view (xp x)) (snd (fst XY)) (snd (snd XY)) (as_cores s) = Ok (snd f)) (as_panels s) fs.
Proof.
  unfold asm_uvw. intro H. apply pair_equal_spec in H. destruct H as [H H3]. apply pair_equal_spec in H. destruct H as [<- <-].
  split; [reflexivity|]. split; [reflexivity|]. eapply for_group_impl; [|eapply group_grid_each; exact H3].
  intros i f _ Hf. cbv zeta. unfold one_uvw in Hf. destruct (pn_model (xp (w_panel w i))) as [[mdl|]|]; try discriminate.
  apply rbind_inv in Hf. destruct Hf as (g & Hg & Hf). apply Ok_inj in Hf. subst f. split; [reflexivity|exact Hg].
Qed.
Lemma gauss_each sched Bv c group X Y w s w' s' fs :
  asm_uvw_gauss sched Bv c group (Some X) (Some Y) w s = (w', s', Ok fs) ->
  for_group (w_panel w) group (fun i f => let x := w_panel w i in let XY := meshgrid X Y in
    fst f = XY /\ fuvw sched Bv (pslice (xp_start x) (xp_end x) c) (kernel_view (xp x)) (snd (fst XY)) (snd (snd XY)) (as_cores s) = Ok (snd f)) (as_panels s) fs.
Proof.
  unfold asm_uvw_gauss. intro H. apply pair_equal_spec in H. destruct H as [H H3]. apply pair_equal_spec in H. destruct H as [<- <-].
  eapply for_group_impl; [|eapply group_gauss_each; exact H3].
  intros i f _ Hf. cbv zeta. unfold one_uvw in Hf. destruct (pn_model (xp (w_panel w i))) as [[mdl|]|]; try discriminate.
  apply rbind_inv in Hf. destruct Hf as (g & Hg & Hf). apply Ok_inj in Hf. subst f. split; [reflexivity|exact Hg].
Qed.
Lemma works_nonneg E Bs h ids (c : nat -> R) l Ws {P : nat -> Prop} : (forall i, In i ids -> sound E h i /\ P i) -> List.Forall (usable h ids) l ->
  Forall2 (fun cn => conn_work E Bs h cn c c) l Ws -> 0 <= suml Ws (fun W => W).
Proof.
  intros HS HU F. induction F as [|cn W l Ws HW F IH]; cbn [suml]; [lra|].
  apply List.Forall_cons_iff in HU. destruct HU as [(U1 & U2 & _) HU].
  pose proof (conn_work_nonneg E Bs h cn c W (proj1 (HS _ U1)) (proj1 (HS _ U2)) HW). specialize (IH HU). lra.
Qed.
Lemma works_zero E Bs h ids (c d : nat -> R) l Ws {P : nat -> Prop} : (forall i, In i ids -> sound E h i /\ P i) -> List.Forall (usable h ids) l ->
  List.Forall (fun cn => no_jump Bs h cn c) l -> Forall2 (fun cn => conn_work E Bs h cn c d) l Ws -> suml Ws (fun W => W) = 0.
Proof.
  intros HS HU HJ F. induction F as [|cn W l Ws HW F IH]; cbn [suml]; [lra|].
  apply List.Forall_cons_iff in HU. destruct HU as [(U1 & U2 & _) HU]. apply List.Forall_cons_iff in HJ. destruct HJ as [J1 HJ].
  rewrite (conn_work_zero E Bs h cn c d W (proj1 (HS _ U1)) J1 HW). rewrite IH by assumption. lra.
Qed.
Section Stiffness.
Variables (E : env) (Bs : basis) (M k : nat) (arg : option nat) (w : world) (s : assembly).
Let h := w_panel w.
Let ids := as_panels s.
Let size := total_width h ids.
Lemma conn_stiffness :
  assembled w s -> as_kC_conn s = None -> (match arg with Some k' => Some k' | None => as_conn s end) = Some k ->
  w_conn w k <> [] -> List.Forall (usable h ids) (w_conn w k) ->
  (forall i, In i ids -> sound E h i /\ (sh_m (geometry h i) <= M)%nat /\ (sh_n (geometry h i) <= M)%nat) ->
  tables_integrate (e_tables E) Bs M ->
  exists w' s' K, get_kC_conn E Bs arg true w s = (w', s', Ok (CMat size K)) /\
    (forall r t, K r t = K t r) /\
    (forall c d, exists Ws, Forall2 (fun cn => conn_work E Bs h cn c d) (w_conn w k) Ws /\ bilinear size K c d = suml Ws (fun W => W)) /\
    (forall c, 0 <= quad size K c) /\
    (forall c, List.Forall (fun cn => no_jump Bs h cn c) (w_conn w k) -> forall d, bilinear size K c d = 0).
Proof.
  intros HA Hc Harg Hl HU HS HT.
  destruct (get_conn_run E Bs arg w s k M HA Harg Hc Hl HU HS HT) as (w' & K & R1 & _ & _ & _ & R5 & R6).
  exists w', (mkAsm (as_panels s) (as_conn s) (Some (CMat size K)) (as_cores s)), K. split; [exact R1|]. split; [exact R5|]. split; [exact R6|]. split.
  - intro c. destruct (R6 c c) as (Ws & F & B). unfold quad, size, h, ids. rewrite B. apply (works_nonneg E Bs h ids c _ _ HS HU F).
  - intros c HJ d. destruct (R6 c d) as (Ws & F & B). unfold size, h, ids. rewrite B. apply (works_zero E Bs h ids c d _ _ HS HU HJ F).
Qed.
End Stiffness.
Lemma in_order_kept E Bs M k arg w s : assembled w s -> as_kC_conn s = None ->
  let h := w_panel w in let ids := as_panels s in
  (match arg with Some k' => Some k' | None => as_conn s end) = Some k ->
  w_conn w k <> [] -> List.Forall (usable h ids) (w_conn w k) -> List.Forall (in_order h) (w_conn w k) ->
  (forall i, In i ids -> sound E h i /\ (sh_m (geometry h i) <= M)%nat /\ (sh_n (geometry h i) <= M)%nat) ->
  tables_integrate (e_tables E) Bs M ->
  forall k', w_conn (fst (fst (get_kC_conn E Bs arg true w s))) k' = w_conn w k'.
Proof.
  intros HA Hc h ids Harg Hl HU HO HS HT k'.
  destruct (get_conn_run E Bs arg w s k M HA Harg Hc Hl HU HS HT) as (w' & K & R1 & _ & R3 & R4 & _). rewrite R1. cbn [fst].
  destruct (Nat.eq_dec k' k) as [->|Hk]; [|apply R3; exact Hk]. rewrite R4. rewrite <- map_id. apply map_ext_in. intros cn Hcn.
  rewrite List.Forall_forall in HO. specialize (HO cn Hcn). unfold in_order in HO. unfold left_as. fold h. apply Nat.ltb_lt in HO. rewrite HO. reflexivity.
Qed.
Lemma fint_in_slices E Bs M k w s c vs : assembled w s -> as_kC_conn s = None ->
  let h := w_panel w in let ids := as_panels s in let size := total_width h ids in
  as_conn s = Some k -> w_conn w k <> [] -> List.Forall (usable h ids) (w_conn w k) ->
  (forall i, In i ids -> sound E h i /\ (sh_m (geometry h i) <= M)%nat /\ (sh_n (geometry h i) <= M)%nat) ->
  tables_integrate (e_tables E) Bs M -> length c = size -> Forall2 (own_fint E h c) ids vs ->
  exists w' s' f KC, asm_fint E Bs c w s = (w', s', Ok f) /\
    (forall i v a r, In (i, v) (combine ids vs) -> xp_start (h i) = Some a -> (r < width (h i))%nat ->
       f (a + r)%nat = v r + sumn size (fun t => KC (a + r)%nat t * nth t c 0)) /\
    (forall r t, KC r t = KC t r) /\
    (forall u v, exists Ws, Forall2 (fun cn => conn_work E Bs h cn u v) (w_conn w k) Ws /\ bilinear size KC u v = suml Ws (fun W => W)).
Proof.
  intros HA Hc h ids size Hk Hl HU HS HT Hlen HF.
  destruct (asm_fint_total E Bs M k w s HA Hc Hl HU HS HT c vs Hk Hlen HF) as (w' & s' & f & KC & H1 & H2 & H3 & H4).
  exists w', s', f, KC. split; [exact H1|]. split; [|auto]. intros i v a r Hi Ha Hr. rewrite H2. f_equal.
  destruct HA as (_ & ND & L). pose proof (stacked_at h ids 0 vs i v r ND L Hi (eq_sym (forall2_len _ _ _ HF)) a Ha Hr) as HS'. rewrite Nat.sub_0_r in HS'. exact HS'.
Qed.
Lemma fext_in_slices E Bv inc w s vs : assembled w s ->
  let h := w_panel w in let ids := as_panels s in
  Forall2 (own_fext E Bv h inc) ids vs ->
  exists w' f, asm_fext E Bv inc w s = (w', s, Ok f) /\
    (forall i v a r, In (i, v) (combine ids vs) -> xp_start (h i) = Some a -> (r < width (h i))%nat -> f (a + r)%nat = v r).
Proof.
  intros HA h ids HF. destruct (asm_fext_stacked E w s HA Bv inc vs HF) as (w' & H1). exists w', (stacked h ids vs). split; [exact H1|].
  intros i v a r Hi Ha Hr. destruct HA as (_ & ND & L). pose proof (stacked_at h ids 0 vs i v r ND L Hi (eq_sym (forall2_len _ _ _ HF)) a Ha Hr) as HS'. rewrite Nat.sub_0_r in HS'. exact HS'.
Qed.
Lemma others_kept w s ids cn : assembled w s -> (forall i, In i (as_panels s) -> ~ In i ids) ->
  let w' := fst (new_assembly ids cn w) in assembled w' s /\ forall i, In i (as_panels s) -> w_panel w' i = w_panel w i.
Proof.
  intros (A1 & A2 & A3) Hd w'. destruct (set_spans_frame ids 0 w) as (_ & _ & F3).
  assert (HE : forall i, In i (as_panels s) -> w_panel w' i = w_panel w i) by (intros i Hi; apply F3; apply Hd; exact Hi).
  split; [|exact HE]. split; [exact A1|]. split; [exact A2|].
  apply (laid_ext (w_panel w)); [|exact A3]. intros i Hi. rewrite (HE i Hi). auto.
Qed.
