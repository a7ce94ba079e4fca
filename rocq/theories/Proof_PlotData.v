(* The data of the contour plots. *)
From Coq Require Import Reals List Arith Bool String Lia Lra Permutation.
From Verif Require Import Base_Sum Model_Types Model_Coo Model_Result Model_DB Model_Bardell Model_Shell Model_Field Model_Multi Model_Plot Spec_Panel Spec_Field Spec_Plot
  Proof_Shell Proof_FieldApi Proof_Plot.
From Coq Require Import List.
Import ListNotations.
Open Scope R_scope.

(* ------------------------------------------------- limits *)
Lemma fold_min l x : least (x :: l) (fold_left Rmin l x).
Proof.
  revert x. induction l as [|y l IH]; intro x; cbn [fold_left].
  - split; [left; reflexivity|]. intros z [<-|[]]. lra.
  - destruct (IH (Rmin x y)) as [H1 H2]. split.
    + destruct H1 as [E|H1]; [|right; right; exact H1]. revert E. unfold Rmin at 1. destruct (Rle_dec x y); intro E; [left|right; left]; exact E.
    + pose proof (H2 _ (or_introl eq_refl)) as M. intros z [<-|[<-|Hz]].
      * eapply Rle_trans; [exact M|apply Rmin_l].
      * eapply Rle_trans; [exact M|apply Rmin_r].
      * apply H2. right. exact Hz.
Qed.
Lemma fold_max l x : greatest (x :: l) (fold_left Rmax l x).
Proof.
  revert x. induction l as [|y l IH]; intro x; cbn [fold_left].
  - split; [left; reflexivity|]. intros z [<-|[]]. lra.
  - destruct (IH (Rmax x y)) as [H1 H2]. split.
    + destruct H1 as [E|H1]; [|right; right; exact H1]. revert E. unfold Rmax at 1. destruct (Rle_dec x y); intro E; [right; left|left]; exact E.
    + pose proof (H2 _ (or_introl eq_refl)) as M. intros z [<-|[<-|Hz]].
      * eapply Rle_trans; [apply Rmax_l|exact M].
      * eapply Rle_trans; [apply Rmax_r|exact M].
      * apply H2. right. exact Hz.
Qed.
Lemma bound_min g l : l <> [] -> exists v, bound g arr_min l = Ok v /\ limit g (least l) v.
Proof. intro N. destruct g as [g|]; [exists g; split; reflexivity|]. destruct l as [|x l]; [congruence|]. eexists. split; [reflexivity|]. apply fold_min. Qed.
Lemma bound_max g l : l <> [] -> exists v, bound g arr_max l = Ok v /\ limit g (greatest l) v.
Proof. intro N. destruct g as [g|]; [exists g; split; reflexivity|]. destruct l as [|x l]; [congruence|]. eexists. split; [reflexivity|]. apply fold_max. Qed.
Lemma bound_min_ok g l v : bound g arr_min l = Ok v -> limit g (least l) v.
Proof. destruct g as [g|]; [intro E; injection E as <-; reflexivity|]. destruct l as [|x l]; [discriminate|]. intro E. injection E as <-. apply fold_min. Qed.
Lemma bound_max_ok g l v : bound g arr_max l = Ok v -> limit g (greatest l) v.
Proof. destruct g as [g|]; [intro E; injection E as <-; reflexivity|]. destruct l as [|x l]; [discriminate|]. intro E. injection E as <-. apply fold_max. Qed.
Lemma add_const_nth k l q : (q < List.length l)%nat -> nth q (add_const k l) 0 = nth q l 0 + k.
Proof. intro H. unfold add_const. rewrite (nth_indep _ 0 (0 + k)) by (rewrite map_length; exact H). apply (map_nth (fun x => x + k)). Qed.
Lemma add_scaled_nth k f l q : (q < List.length l)%nat -> nth q (add_scaled k f l) 0 = nth q l 0 + k * nth q f 0.
Proof.
  intro H. unfold add_scaled. set (g := fun q => nth q l 0 + k * nth q f 0). rewrite (nth_indep _ 0 (g 0%nat)) by (rewrite map_length, seq_length; exact H).
  rewrite map_nth. rewrite seq_nth by exact H. reflexivity.
Qed.

(* ------------------------------------------------- names *)
Lemma kind_displ k v : nth_error uvw_components k = Some v -> in_names v plot_displs = true.
Proof. intro E. do 5 (destruct k as [|k]; [injection E as <-; reflexivity|]). destruct k; discriminate. Qed.
Lemma kind_strain k v : nth_error strain_components k = Some v -> in_names v plot_displs = false /\ in_names v plot_strains = true.
Proof. intro E. do 6 (destruct k as [|k]; [injection E as <-; split; reflexivity|]). destruct k; discriminate. Qed.
Lemma kind_stress k v : nth_error stress_components k = Some v -> in_names v plot_displs = false /\ in_names v plot_strains = false /\ in_names v plot_stresses = true.
Proof. intro E. do 6 (destruct k as [|k]; [injection E as <-; repeat split; reflexivity|]). destruct k; discriminate. Qed.

Section Data.
Variables (sched : scheduler) (Bs : basis).

Lemma plot_calc_ok o c vec xs ys gx gy NL X Y v H : component_of sched Bs o c None vec xs ys gx gy NL X Y v -> (In vec strain_components -> NL = true) ->
  exists H1, plot_calc sched Bs o c vec xs ys gx gy NL H = (H1, Ok tt) /\ hp_fields H1 (fo_fields o) vec = Some v /\ hp_mesh H1 (fo_mesh o) = (Some X, Some Y) /\
   forall k vs, in_names vec plot_displs = true -> snd (shell_uvw sched Bs (fo_cores o) c xs ys gx gy (fo_panel o)) = Ok ((X, Y), vs) ->
     (k < 5)%nat -> hp_fields H1 (fo_fields o) (nth k uvw_components EmptyString) = Some (fst X, nth k vs []).
Proof.
  intros (k & vs & -> & [[Hk Hc]|[[Hk Hc]|[Hk Hc]]]) HN; unfold plot_calc.
  - rewrite (kind_displ _ _ Hk). unfold obj_uvw. rewrite Hc. eexists. split; [reflexivity|]. cbn [fst]. rewrite keep_fields, keep_mesh.
    split; [apply put_at, pos_displ, Hk|]. split; [reflexivity|]. intros k' vs' _ E Hk'. injection E as <-. apply put_at.
    apply pos_displ. apply nth_error_nth'. exact Hk'.
  - destruct (kind_strain _ _ Hk) as [K1 K2]. rewrite K1, K2. rewrite (HN (nth_error_In _ _ Hk)) in Hc. unfold obj_strain. rewrite Hc.
    eexists. split; [reflexivity|]. cbn [fst]. rewrite keep_fields, keep_mesh. split; [apply put_at, pos_strain, Hk|]. split; [reflexivity|]. discriminate.
  - destruct (kind_stress _ _ Hk) as (K1 & K2 & K3). rewrite K1, K2, K3. unfold obj_stress, obj_strain.
    destruct (strain_of_stress _ _ _ _ _ _ _ _ _ _ _ _ _ Hc) as [es ->]. rewrite Hc.
    eexists. split; [reflexivity|]. cbn [fst]. rewrite keep_fields, keep_mesh. split; [apply put_at, pos_stress, Hk|]. split; [reflexivity|]. discriminate.
Qed.

Theorem plot_shows o c vec xs ys gx gy lo hi ox oy NL X Y v H :
  component_of sched Bs o c None vec xs ys gx gy NL X Y v -> (In vec strain_components -> NL = true) -> snd v <> [] ->
  exists H' d, plot_shell sched Bs o c vec None xs ys gx gy lo hi ox oy NL H = (H', Ok d) /\ pl_field d = v /\
    pl_x d = map (fun y => y + oy) (snd Y) /\ pl_y d = map (fun x => x + ox) (snd X) /\
    limit lo (least (snd v)) (pl_min d) /\ limit hi (greatest (snd v)) (pl_max d).
Proof.
  intros Hc HN Hv. destruct (plot_calc_ok o c vec xs ys gx gy NL X Y v H Hc HN) as (H1 & E1 & E2 & E3 & _).
  unfold plot_shell. rewrite E1, E2, E3. destruct (bound_min lo _ Hv) as (a & -> & La). destruct (bound_max hi _ Hv) as (b & -> & Lb).
  eexists. eexists. split; [reflexivity|]. cbn. auto.
Qed.

Theorem plot_deforms o c vec xs ys gx gy lo hi sf ox oy NL X Y v us H :
  component_of sched Bs o c None vec xs ys gx gy NL X Y v -> (In vec strain_components -> NL = true) -> snd v <> [] ->
  List.length (snd Y) = List.length (snd X) ->
  snd (shell_uvw sched Bs (fo_cores o) c xs ys gx gy (fo_panel o)) = Ok ((X, Y), us) ->
  exists H' d, plot_shell sched Bs o c vec (Some sf) xs ys gx gy lo hi ox oy NL H = (H', Ok d) /\ pl_field d = v /\
    List.length (pl_x d) = List.length (snd X) /\ List.length (pl_y d) = List.length (snd X) /\
    forall q, (q < List.length (snd X))%nat ->
      nth q (pl_x d) 0 = nth q (snd Y) 0 + oy + sf * nth q (nth 1 us []) 0 /\
      nth q (pl_y d) 0 = nth q (snd X) 0 + ox - sf * nth q (nth 0 us []) 0.
Proof.
  intros Hc HN Hv HL HU. destruct (plot_calc_ok o c vec xs ys gx gy NL X Y v H Hc HN) as (H1 & E1 & E2 & E3 & E4).
  unfold plot_shell. rewrite E1, E2, E3. destruct (bound_min lo _ Hv) as (a & -> & La). destruct (bound_max hi _ Hv) as (b & -> & Lb).
  assert (L : forall k f l, List.length (add_scaled k f l) = List.length l) by (intros; unfold add_scaled; rewrite map_length, seq_length; reflexivity).
  assert (L' : forall k l, List.length (add_const k l) = List.length l) by (intros; unfold add_const; apply map_length).
  assert (F : forall q, (q < List.length (snd X))%nat ->
    nth q (add_scaled sf (nth 1 us []) (add_const oy (snd Y))) 0 = nth q (snd Y) 0 + oy + sf * nth q (nth 1 us []) 0 /\
    nth q (add_scaled (- sf) (nth 0 us []) (add_const ox (snd X))) 0 = nth q (snd X) 0 + ox - sf * nth q (nth 0 us []) 0).
  { intros q Hq. rewrite !add_scaled_nth by (rewrite L'; lia). rewrite !add_const_nth by lia. split; ring. }
  destruct (in_names vec plot_displs) eqn:ED.
  - pose proof (E4 0%nat us eq_refl HU ltac:(lia)) as U0. pose proof (E4 1%nat us eq_refl HU ltac:(lia)) as U1. cbn [nth uvw_components] in U0, U1. rewrite U0, U1.
    eexists. eexists. split; [reflexivity|]. cbn [pl_field pl_x pl_y fst snd]. rewrite !L, !L'. auto.
  - unfold obj_uvw at 1. rewrite HU. rewrite !keep_fields. unfold put_fields at 1. change (pos "u" displ_names) with (Some 0%nat). unfold put_fields at 1. change (pos "v" displ_names) with (Some 1%nat).
    eexists. eexists. split; [reflexivity|]. cbn [pl_field pl_x pl_y fst snd]. rewrite !L, !L'. auto.
Qed.

(* the components without values *)
Theorem transverse_fails o c vec d xs ys gx gy lo hi ox oy NL H : In vec ["gyz"; "gxz"; "Qy"; "Qx"]%string ->
  hp_fields H (fo_fields o) vec = None -> forall H' v, plot_shell sched Bs o c vec d xs ys gx gy lo hi ox oy NL H <> (H', Ok v).
Proof.
  intros Hv Hn H' v. unfold plot_shell.
  assert (P : fst (plot_calc sched Bs o c vec xs ys gx gy NL H) = fst (plot_calc sched Bs o c vec xs ys gx gy NL H) /\
     hp_fields (fst (plot_calc sched Bs o c vec xs ys gx gy NL H)) (fo_fields o) vec = None).
  { split; [reflexivity|]. unfold plot_calc.
    assert (S : forall N, hp_fields (fst (obj_strain sched Bs o c xs ys gx gy N H)) (fo_fields o) vec = None).
    { intro N. unfold obj_strain. destruct (snd (shell_strain sched Bs (fo_cores o) c xs ys gx gy N (fo_panel o))) as [[[X Y] f]|]; cbn [fst]; [|rewrite begin_fields; exact Hn].
      rewrite keep_fields. unfold put_fields. destruct Hv as [<-|[<-|[<-|[<-|[]]]]]; exact Hn. }
    destruct Hv as [<-|[<-|[<-|[<-|[]]]]]; cbn [in_names existsb plot_displs plot_strains plot_stresses displ_names strain_names stress_names app String.eqb Ascii.eqb Bool.eqb orb fst]; try apply S.
    all: unfold obj_stress; specialize (S NL); destruct (obj_strain sched Bs o c xs ys gx gy NL H) as [G [r|e]]; cbn [fst] in *; [|exact S];
      destruct (snd (shell_stress sched Bs (fo_cores o) c None xs ys gx gy NL (fo_panel o))) as [[[X Y] f]|]; cbn [fst]; [|exact S]; rewrite keep_fields; exact S. }
  destruct P as [_ P]. destruct (plot_calc sched Bs o c vec xs ys gx gy NL H) as [H1 [[]|e]]; [|discriminate]. cbn [fst] in P. rewrite P. discriminate.
Qed.

(* ------------------------------------------------- what is left on the object *)
Theorem plot_restores o c vec d xs ys gx gy lo hi ox oy NL H H' v : plot_shell sched Bs o c vec d xs ys gx gy lo hi ox oy NL H = (H', Ok v) ->
  forall n w, hp_fields H (fo_fields o) n = Some w -> hp_fields H' (fo_fields o) n = Some w.
Proof.
  unfold plot_shell. destruct (plot_calc sched Bs o c vec xs ys gx gy NL H) as [H1 [[]|e]]; [|discriminate].
  destruct (hp_fields H1 (fo_fields o) vec) as [f|]; [|discriminate]. destruct (hp_mesh H1 (fo_mesh o)) as [[X|] [Y|]]; try discriminate.
  destruct (bound lo arr_min (snd f)) as [a|]; [|discriminate]. destruct (bound hi arr_max (snd f)) as [b|]; [|discriminate].
  match goal with |- context [let '(H2, r2) := ?t in _] => destruct t as [H2 [xy|e]] end; [|discriminate].
  intro E. apply (f_equal fst) in E. cbn [fst] in E. rewrite <- E. intros n w Hn. rewrite set_fields_same. unfold restore. rewrite Hn. reflexivity.
Qed.
End Data.

(* ------------------------------------------------- MultiDomain.plot *)
Lemma in_component k fs v : In v (component k fs) <-> exists f, In f fs /\ In v (nth k (snd f) []).
Proof. unfold component. apply in_flat_map. Qed.
Theorem asm_plot_limits sched Bv c group vec xs ys gx gy gauss xg yg lo hi k m w s w1 s1 fs :
  group_call sched Bv c group vec gx gy gauss xg yg k m -> m w s = (w1, s1, Ok fs) -> (exists f, In f fs /\ nth k (snd f) [] <> []) ->
  exists a b, asm_plot_data sched Bv c group vec xs ys gx gy gauss xg yg lo hi w s = (w1, s1, Ok (a, b)) /\
    limit lo (least (flat_map (fun f => nth k (snd f) []) fs)) a /\ limit hi (greatest (flat_map (fun f => nth k (snd f) []) fs)) b.
Proof.
  intros Hm HR (f & Hf & Hne).
  assert (N : component k fs <> []).
  { destruct (nth k (snd f) []) as [|v l] eqn:E; [congruence|]. intro Z. assert (In v (component k fs)) as I; [|rewrite Z in I; destruct I].
    apply in_component. exists f. rewrite E. split; [exact Hf|left; reflexivity]. }
  destruct (bound_min lo _ N) as (a & Ea & La). destruct (bound_max hi _ N) as (b & Eb & Lb). exists a, b. split; [|split; assumption].
  unfold asm_plot_data. destruct Hm as [[Hk ->]|[[Hk ->]|[Hk ->]]].
  - rewrite (kind_displ _ _ Hk). unfold abind at 1. rewrite HR. rewrite (pos_displ _ _ Hk). unfold abind, alift. rewrite Ea, Eb. reflexivity.
  - destruct (kind_strain _ _ Hk) as [-> ->]. unfold abind at 1. rewrite HR. rewrite (pos_strain _ _ Hk). unfold abind, alift. rewrite Ea, Eb. reflexivity.
  - destruct (kind_stress _ _ Hk) as (-> & -> & ->). unfold abind at 1. rewrite HR. rewrite (pos_stress _ _ Hk). unfold abind, alift. rewrite Ea, Eb. reflexivity.
Qed.
Theorem asm_plot_transverse sched Bv c group vec xs ys gx gy gauss xg yg lo hi w s : In vec ["gyz"; "gxz"; "Qy"; "Qx"]%string ->
  forall r, snd (asm_plot_data sched Bv c group vec xs ys gx gy gauss xg yg lo hi w s) <> Ok r.
Proof.
  intros Hv r. unfold asm_plot_data. destruct Hv as [<-|[<-|[<-|[<-|[]]]]]; cbn [in_names existsb plot_displs plot_strains plot_stresses displ_names strain_names stress_names app String.eqb Ascii.eqb Bool.eqb orb pos option_map];
    unfold abind; match goal with |- context [(?f w s)] => destruct (f w s) as [[w1 s1] [fs|e]] end; discriminate.
Qed.

(* ------------------------------------------------- the transverse components, after any calls *)
Definition absent (vec : string) (H : heap) : Prop := forall l, hp_fields H l vec = None.
Definition transverse : list string := ["gyz"; "gxz"; "Qy"; "Qx"]%string.
Section Absent.
Variables (sched : scheduler) (Bs : basis) (vec : string).
Hypothesis Hv : In vec transverse.
Lemma keep_absent o H n r : n = displ_names \/ n = strain_names \/ n = stress_names -> absent vec H -> absent vec (keep o H n r).
Proof.
  intros Hn HA l. destruct r as [[X Y] f]. unfold keep. cbn [set_fields set_mesh hp_fields]. destruct (l =? fo_fields o)%nat; [|apply HA].
  unfold put_fields. replace (pos vec n) with (@None nat); [apply HA|].
  destruct Hn as [->|[->| ->]]; destruct Hv as [<-|[<-|[<-|[<-|[]]]]]; reflexivity.
Qed.
Lemma uvw_absent o c xs ys gx gy H : absent vec H -> absent vec (fst (obj_uvw sched Bs o c xs ys gx gy H)).
Proof. intro HA. unfold obj_uvw. destruct (snd _); cbn [fst]; [apply keep_absent; auto|intro l; rewrite begin_fields; apply HA]. Qed.
Lemma strain_absent o c xs ys gx gy NL H : absent vec H -> absent vec (fst (obj_strain sched Bs o c xs ys gx gy NL H)).
Proof. intro HA. unfold obj_strain. destruct (snd _); cbn [fst]; [apply keep_absent; auto|intro l; rewrite begin_fields; apply HA]. Qed.
Lemma stress_absent o c ABD xs ys gx gy NL H : absent vec H -> absent vec (fst (obj_stress sched Bs o c ABD xs ys gx gy NL H)).
Proof.
  intro HA. unfold obj_stress. pose proof (strain_absent o c xs ys gx gy NL H HA) as E. destruct (obj_strain sched Bs o c xs ys gx gy NL H) as [G [r|e]]; cbn [fst] in *; [|exact E].
  destruct (snd _); cbn [fst]; [apply keep_absent; auto|exact E].
Qed.
Lemma calc_absent o c n xs ys gx gy NL H : absent vec H -> absent vec (fst (plot_calc sched Bs o c n xs ys gx gy NL H)).
Proof.
  intro HA. unfold plot_calc. destruct (in_names n plot_displs); [apply uvw_absent; exact HA|]. destruct (in_names n plot_strains); [apply strain_absent; exact HA|].
  destruct (in_names n plot_stresses); [apply stress_absent; exact HA|exact HA].
Qed.
Lemma restore_absent o H H2 : absent vec H -> absent vec H2 -> absent vec (set_fields H2 (fo_fields o) (restore (hp_fields H (fo_fields o)) (hp_fields H2 (fo_fields o)))).
Proof. intros HA HB l. cbn [set_fields hp_fields]. destruct (l =? fo_fields o)%nat; [|apply HB]. unfold restore. rewrite HA. apply HB. Qed.
Lemma plot_absent o c n d xs ys gx gy lo hi ox oy NL H : absent vec H -> absent vec (fst (plot_shell sched Bs o c n d xs ys gx gy lo hi ox oy NL H)).
Proof.
  intro HA. unfold plot_shell. pose proof (calc_absent o c n xs ys gx gy NL H HA) as E. destruct (plot_calc sched Bs o c n xs ys gx gy NL H) as [H1 [[]|e]]; cbn [fst] in E; [|exact E].
  destruct (hp_fields H1 (fo_fields o) n) as [f|]; [|exact E]. destruct (hp_mesh H1 (fo_mesh o)) as [[X|] [Y|]]; try exact E.
  destruct (bound lo arr_min (snd f)) as [a|]; [|exact E]. destruct (bound hi arr_max (snd f)) as [b|]; [|exact E].
  destruct d as [sf|]; [|cbn [fst]; apply restore_absent; assumption].
  destruct (in_names n plot_displs).
  - destruct (hp_fields H1 (fo_fields o) "u"%string), (hp_fields H1 (fo_fields o) "v"%string); cbn [fst]; try apply restore_absent; assumption.
  - pose proof (uvw_absent o c xs ys gx gy H1 E) as E2. destruct (obj_uvw sched Bs o c xs ys gx gy H1) as [H2 [r|e]]; cbn [fst] in E2; [|exact E2].
    destruct (hp_fields H2 (fo_fields o) "u"%string), (hp_fields H2 (fo_fields o) "v"%string); cbn [fst]; try apply restore_absent; assumption.
Qed.
Theorem transverse_never ks H : absent vec H -> forall o c d xs ys gx gy lo hi ox oy NL H' v,
  plot_shell sched Bs o c vec d xs ys gx gy lo hi ox oy NL (fold_left (run_call sched Bs) ks H) <> (H', Ok v).
Proof.
  intros HA. assert (A : absent vec (fold_left (run_call sched Bs) ks H)).
  { revert H HA. induction ks as [|k ks IH]; intros H HA; [exact HA|]. cbn [fold_left]. apply IH.
    destruct k; cbn [run_call]; [apply uvw_absent|apply strain_absent|apply stress_absent|apply plot_absent]; exact HA. }
  intros. apply transverse_fails; [exact Hv|apply A].
Qed.
End Absent.
