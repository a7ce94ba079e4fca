(* Fields kept on an object and the data of the plots. *)
From Coq Require Import Reals List Arith Bool String Lia Lra Permutation.
From Verif Require Import Base_Sum Model_Types Model_Coo Model_Result Model_DB Model_Bardell Model_Shell Model_Field Model_Multi Model_Plot Spec_Panel Spec_Field Spec_Plot
  Proof_Shell Proof_FieldApi Proof_FieldDeriv Proof_FieldEdge Ex_Panel Ex_Fint Ex_Field.
From Coq Require Import List.
Import ListNotations.
Open Scope R_scope.

(* ------------------------------------------------- heap *)
Lemma set_fields_same H l d : hp_fields (set_fields H l d) l = d.
Proof. cbn. rewrite Nat.eqb_refl. reflexivity. Qed.
Lemma set_mesh_same H l m : hp_mesh (set_mesh H l m) l = m.
Proof. cbn. rewrite Nat.eqb_refl. reflexivity. Qed.
Lemma keep_mesh o H n X Y f : hp_mesh (keep o H n ((X, Y), f)) (fo_mesh o) = (Some X, Some Y).
Proof. unfold keep. cbn. rewrite Nat.eqb_refl. reflexivity. Qed.
Lemma keep_fields o H n X Y f : hp_fields (keep o H n ((X, Y), f)) (fo_fields o) = put_fields (hp_fields H (fo_fields o)) n (fst X) f.
Proof. unfold keep. cbn. rewrite Nat.eqb_refl. reflexivity. Qed.
Lemma keep_other o H n r l m : m <> fo_mesh o -> l <> fo_fields o -> seen (keep o H n r) (m, l) = seen H (m, l).
Proof.
  intros H1 H2. destruct r as [[X Y] f]. unfold seen, keep. cbn.
  apply Nat.eqb_neq in H1, H2. rewrite H1, H2. reflexivity.
Qed.

(* ------------------------------------------------- names *)
Ltac each_name k E := repeat (destruct k as [|k]; [cbn in E; injection E as <-|]); try (cbn in E; destruct k; discriminate).
Lemma pos_displ k v : nth_error uvw_components k = Some v -> pos v displ_names = Some k.
Proof. intro E. do 5 (destruct k as [|k]; [injection E as <-; reflexivity|]). destruct k; discriminate. Qed.
Lemma pos_strain k v : nth_error strain_components k = Some v -> pos v strain_names = Some k.
Proof. intro E. do 6 (destruct k as [|k]; [injection E as <-; reflexivity|]). destruct k; discriminate. Qed.
Lemma pos_stress k v : nth_error stress_components k = Some v -> pos v stress_names = Some k.
Proof. intro E. do 6 (destruct k as [|k]; [injection E as <-; reflexivity|]). destruct k; discriminate. Qed.
Lemma put_at d n s vs v k : pos v n = Some k -> put_fields d n s vs v = Some (s, nth k vs []).
Proof. intro E. unfold put_fields. rewrite E. reflexivity. Qed.

Section Calls.
Variables (sched : scheduler) (Bs : basis).

(* ------------------------------------------------- results of a call *)
Theorem after_uvw o c xs ys gx gy H H' m f : obj_uvw sched Bs o c xs ys gx gy H = (H', Ok (m, f)) ->
  exists X Y, hp_mesh H' m = (Some X, Some Y) /\ forall vec, In vec uvw_components ->
  exists v, hp_fields H' f vec = Some v /\ component_of sched Bs o c None vec xs ys gx gy true X Y v.
Proof.
  unfold obj_uvw. destruct (snd (shell_uvw sched Bs (fo_cores o) c xs ys gx gy (fo_panel o))) as [r|] eqn:E; intro E1; inversion E1; subst.
  destruct r as [[X Y] vs]. exists X, Y. split; [apply keep_mesh|]. intros vec Hv. apply In_nth_error in Hv. destruct Hv as [k Hk].
  rewrite keep_fields. rewrite (put_at _ _ _ _ _ _ (pos_displ _ _ Hk)). eexists. split; [reflexivity|]. exists k, vs. auto.
Qed.
Theorem after_strain o c xs ys gx gy NL H H' m f : obj_strain sched Bs o c xs ys gx gy NL H = (H', Ok (m, f)) ->
  exists X Y, hp_mesh H' m = (Some X, Some Y) /\ forall vec, In vec strain_components ->
  exists v, hp_fields H' f vec = Some v /\ component_of sched Bs o c None vec xs ys gx gy NL X Y v.
Proof.
  unfold obj_strain. destruct (snd (shell_strain sched Bs (fo_cores o) c xs ys gx gy NL (fo_panel o))) as [r|] eqn:E; intro E1; inversion E1; subst.
  destruct r as [[X Y] vs]. exists X, Y. split; [apply keep_mesh|]. intros vec Hv. apply In_nth_error in Hv. destruct Hv as [k Hk].
  rewrite keep_fields. rewrite (put_at _ _ _ _ _ _ (pos_strain _ _ Hk)). eexists. split; [reflexivity|]. exists k, vs. auto.
Qed.
Lemma strain_of_stress o c ABD xs ys gx gy NL p XY vs : snd (shell_stress sched Bs o c ABD xs ys gx gy NL p) = Ok (XY, vs) ->
  exists es, snd (shell_strain sched Bs o c xs ys gx gy NL p) = Ok (XY, es).
Proof.
  unfold shell_stress, mbind, mget. destruct (shell_strain sched Bs o c xs ys gx gy NL p) as [p1 [[XY1 es]|e]]; cbn; [|discriminate].
  destruct (match ABD with Some F => Some F | None => pn_ABD p1 end); cbn; [|discriminate]. intro E. injection E as <- _. eauto.
Qed.
Theorem after_stress o c ABD xs ys gx gy NL H H' m f : obj_stress sched Bs o c ABD xs ys gx gy NL H = (H', Ok (m, f)) ->
  exists X Y, hp_mesh H' m = (Some X, Some Y) /\ forall vec, In vec strain_components \/ In vec stress_components ->
  exists v, hp_fields H' f vec = Some v /\ component_of sched Bs o c ABD vec xs ys gx gy NL X Y v.
Proof.
  unfold obj_stress, obj_strain.
  destruct (snd (shell_stress sched Bs (fo_cores o) c ABD xs ys gx gy NL (fo_panel o))) as [[XY vs]|] eqn:E.
  2:{ destruct (snd (shell_strain sched Bs (fo_cores o) c xs ys gx gy NL (fo_panel o))); discriminate. }
  destruct (strain_of_stress _ _ _ _ _ _ _ _ _ _ _ E) as [es Ee]. rewrite Ee. destruct XY as [X Y]. intro E1. pose proof (f_equal snd E1) as E2. apply (f_equal fst) in E1. cbn [fst snd] in E1, E2. injection E2 as <- <-. rewrite <- E1. clear E1.
  exists X, Y. split; [apply keep_mesh|]. intros vec [Hv|Hv]; apply In_nth_error in Hv; destruct Hv as [k Hk]; rewrite !keep_fields.
  - assert (Hn : pos vec stress_names = None).
    { clear - Hk. do 6 (destruct k as [|k]; [injection Hk as <-; reflexivity|]). destruct k; discriminate. }
    unfold put_fields at 1. rewrite Hn. rewrite (put_at _ _ _ _ _ _ (pos_strain _ _ Hk)). eexists. split; [reflexivity|]. exists k, es. auto.
  - rewrite (put_at _ _ _ _ _ _ (pos_stress _ _ Hk)). eexists. split; [reflexivity|]. exists k, vs. auto.
Qed.

(* ------------------------------------------------- other objects *)
Lemma begin_other o xs ys gx gy H m l : m <> fo_mesh o -> seen (begin o xs ys gx gy H) (m, l) = seen H (m, l).
Proof.
  intro N. apply Nat.eqb_neq in N. unfold begin. destruct (default_field (pn_sh (fo_panel o)) xs ys gx gy) as [[X Y]|]; [|reflexivity].
  unfold seen. cbn. rewrite N. reflexivity.
Qed.
Lemma uvw_other o c xs ys gx gy H m l : m <> fo_mesh o -> l <> fo_fields o -> seen (fst (obj_uvw sched Bs o c xs ys gx gy H)) (m, l) = seen H (m, l).
Proof. intros. unfold obj_uvw. destruct (snd _); [apply keep_other|apply begin_other]; assumption. Qed.
Lemma strain_other o c xs ys gx gy NL H m l : m <> fo_mesh o -> l <> fo_fields o -> seen (fst (obj_strain sched Bs o c xs ys gx gy NL H)) (m, l) = seen H (m, l).
Proof. intros. unfold obj_strain. destruct (snd _); [apply keep_other|apply begin_other]; assumption. Qed.
Lemma stress_other o c ABD xs ys gx gy NL H m l : m <> fo_mesh o -> l <> fo_fields o -> seen (fst (obj_stress sched Bs o c ABD xs ys gx gy NL H)) (m, l) = seen H (m, l).
Proof.
  intros Hm Hl. unfold obj_stress. pose proof (strain_other o c xs ys gx gy NL H m l) as E.
  destruct (obj_strain sched Bs o c xs ys gx gy NL H) as [G [r|e]]; cbn [fst] in *; [|auto].
  destruct (snd _); cbn [fst]; [rewrite keep_other by assumption|]; auto.
Qed.
Lemma plot_calc_other o c vec xs ys gx gy NL H m l : m <> fo_mesh o -> l <> fo_fields o -> seen (fst (plot_calc sched Bs o c vec xs ys gx gy NL H)) (m, l) = seen H (m, l).
Proof.
  intros. unfold plot_calc. destruct (in_names vec plot_displs); [apply uvw_other; assumption|].
  destruct (in_names vec plot_strains); [apply strain_other; assumption|].
  destruct (in_names vec plot_stresses); [apply stress_other; assumption|]. reflexivity.
Qed.
Lemma set_fields_other H l' d m l : l <> l' -> seen (set_fields H l' d) (m, l) = seen H (m, l).
Proof. intro N. apply Nat.eqb_neq in N. unfold seen. cbn. rewrite N. reflexivity. Qed.
Lemma plot_other o c vec d xs ys gx gy lo hi ox oy NL H m l : m <> fo_mesh o -> l <> fo_fields o ->
  seen (fst (plot_shell sched Bs o c vec d xs ys gx gy lo hi ox oy NL H)) (m, l) = seen H (m, l).
Proof.
  intros Hm Hl. unfold plot_shell. pose proof (plot_calc_other o c vec xs ys gx gy NL H m l Hm Hl) as E.
  destruct (plot_calc sched Bs o c vec xs ys gx gy NL H) as [H1 [[]|e]]; cbn [fst] in E; [|exact E].
  destruct (hp_fields H1 (fo_fields o) vec) as [v|]; [|exact E]. destruct (hp_mesh H1 (fo_mesh o)) as [[X|] [Y|]]; try exact E.
  destruct (bound lo arr_min (snd v)) as [a|]; [|exact E]. destruct (bound hi arr_max (snd v)) as [b|]; [|exact E].
  destruct d as [sf|]; [|cbn [fst]; rewrite set_fields_other by exact Hl; exact E].
  destruct (in_names vec plot_displs).
  - destruct (hp_fields H1 (fo_fields o) "u"%string), (hp_fields H1 (fo_fields o) "v"%string); cbn [fst]; try rewrite set_fields_other by exact Hl; exact E.
  - pose proof (uvw_other o c xs ys gx gy H1 m l Hm Hl) as E2. destruct (obj_uvw sched Bs o c xs ys gx gy H1) as [H2 [r|e]]; cbn [fst] in E2; rewrite E in E2.
    + destruct (hp_fields H2 (fo_fields o) "u"%string), (hp_fields H2 (fo_fields o) "v"%string); cbn [fst]; try rewrite set_fields_other by exact Hl; exact E2.
    + exact E2.
Qed.
Theorem others_kept ks H m l : (forall k, In k ks -> m <> fo_mesh (callee k) /\ l <> fo_fields (callee k)) ->
  seen (fold_left (run_call sched Bs) ks H) (m, l) = seen H (m, l).
Proof.
  revert H. induction ks as [|k ks IH]; intros H Hk; [reflexivity|]. cbn [fold_left]. rewrite IH by (intros k' Hk'; apply Hk; right; exact Hk').
  destruct (Hk k (or_introl eq_refl)) as [H1 H2]. destruct k; cbn [run_call callee] in *;
    [apply uvw_other|apply strain_other|apply stress_other|apply plot_other]; assumption.
Qed.
(* new dictionaries: the old ones are not touched *)
Theorem clear_keeps o H o' H' ks m l : obj_clear o H = (o', H') -> (m < hp_next H)%nat -> (l < hp_next H)%nat ->
  (forall k, In k ks -> callee k = o') -> seen (fold_left (run_call sched Bs) ks H') (m, l) = seen H (m, l).
Proof.
  unfold obj_clear. intro E. injection E as <- <-. intros Hm Hl Hk. rewrite others_kept.
  - unfold seen. cbn. replace (m =? hp_next H)%nat with false by (symmetry; apply Nat.eqb_neq; lia).
    replace (l =? hp_next H)%nat with false by (symmetry; apply Nat.eqb_neq; lia). reflexivity.
  - intros k Hin. rewrite (Hk _ Hin). cbn. lia.
Qed.

(* ------------------------------------------------- calls that fail *)
Lemma begin_fields o xs ys gx gy H l : hp_fields (begin o xs ys gx gy H) l = hp_fields H l.
Proof. unfold begin. destruct (default_field (pn_sh (fo_panel o)) xs ys gx gy) as [[X Y]|]; reflexivity. Qed.
Lemma begin_mesh o xs ys gx gy H X Y : default_field (pn_sh (fo_panel o)) xs ys gx gy = Ok (X, Y) -> hp_mesh (begin o xs ys gx gy H) (fo_mesh o) = (Some X, Some Y).
Proof. intro E. unfold begin. rewrite E. apply set_mesh_same. Qed.
Theorem uvw_failed o c xs ys gx gy H H' e : obj_uvw sched Bs o c xs ys gx gy H = (H', Err e) -> forall l, hp_fields H' l = hp_fields H l.
Proof. unfold obj_uvw. destruct (snd _); [discriminate|]. intro E. apply (f_equal fst) in E. cbn [fst] in E. rewrite <- E. intro l. apply begin_fields. Qed.
Theorem strain_failed o c xs ys gx gy NL H H' e : obj_strain sched Bs o c xs ys gx gy NL H = (H', Err e) -> forall l, hp_fields H' l = hp_fields H l.
Proof. unfold obj_strain. destruct (snd _); [discriminate|]. intro E. apply (f_equal fst) in E. cbn [fst] in E. rewrite <- E. intro l. apply begin_fields. Qed.

(* ------------------------------------------------- sizes *)
Lemma shape_eqb_eq a b : shape_eqb a b = true -> a = b.
Proof.
  revert b. induction a as [|x a IH]; intros [|y b]; cbn; try discriminate; [reflexivity|]. intro E.
  apply andb_true_iff in E. destruct E as [E1 E2]. apply Nat.eqb_eq in E1. rewrite E1, (IH _ E2). reflexivity.
Qed.
Lemma stress_lengths nc c ABD xs ys gx gy NL p X Y vs : (forall l, Permutation (sched l) l) -> sh_a (pn_sh p) <> 0 -> sh_b (pn_sh p) <> 0 ->
  snd (shell_stress sched Bs nc c ABD xs ys gx gy NL p) = Ok ((X, Y), vs) -> forall k, (k < 6)%nat -> List.length (nth k vs []) = List.length (snd X).
Proof.
  intros Hs Ha Hb. unfold shell_stress, mbind, mget. destruct (shell_strain sched Bs nc c xs ys gx gy NL p) as [p1 [[XY1 es]|e]] eqn:E; cbn; [|discriminate].
  destruct (match ABD with Some F => Some F | None => pn_ABD p1 end); cbn; [|discriminate]. intro E1. injection E1 as -> <-.
  destruct (strain_schedule _ _ _ _ _ _ _ _ _ _ _ _ _ _ Hs Ha Hb E) as (_ & _ & _ & L). intros k Hk.
  do 6 (destruct k as [|k]; [cbn [nth]; rewrite map_length, seq_length; apply (L 0%nat ltac:(lia))|]). lia.
Qed.
Theorem own_mesh o c ABD vec xs ys gx gy NL X Y v : (forall l, Permutation (sched l) l) -> sh_a (pn_sh (fo_panel o)) <> 0 -> sh_b (pn_sh (fo_panel o)) <> 0 ->
  component_of sched Bs o c ABD vec xs ys gx gy NL X Y v -> fst v = fst X /\ fst Y = fst X /\ List.length (snd v) = List.length (snd X) /\ List.length (snd Y) = List.length (snd X).
Proof.
  intros Hs Ha Hb (k & vs & -> & Hc). cbn [fst snd].
  assert (D : forall xs ys, default_field (pn_sh (fo_panel o)) xs ys gx gy = Ok (X, Y) -> fst Y = fst X).
  { clear. intros xs ys. unfold default_field. destruct (match xs with Some _ => _ | None => _ end) as [A B].
    destruct (shape_eqb (fst A) (fst B)) eqn:E; [|discriminate]. intro E1. injection E1 as <- <-. symmetry. apply shape_eqb_eq. exact E. }
  assert (DU : forall vs, snd (shell_uvw sched Bs (fo_cores o) c xs ys gx gy (fo_panel o)) = Ok ((X, Y), vs) -> default_field (pn_sh (fo_panel o)) xs ys gx gy = Ok (X, Y)).
  { intros vs'. unfold shell_uvw, mbind, mget, mlift, the_model. destruct (default_field (pn_sh (fo_panel o)) xs ys gx gy) as [XY|]; cbn; [|discriminate].
    destruct (pn_model (fo_panel o)) as [[m|]|]; cbn; try discriminate. destruct (fuvw _ _ _ _ _ _ _); cbn; [|discriminate]. intro E. injection E as -> _. reflexivity. }
  assert (DS : forall vs, snd (shell_strain sched Bs (fo_cores o) c xs ys gx gy NL (fo_panel o)) = Ok ((X, Y), vs) -> default_field (pn_sh (fo_panel o)) xs ys gx gy = Ok (X, Y)).
  { intros vs'. unfold shell_strain, mbind, mget, mlift, the_model. destruct (default_field (pn_sh (fo_panel o)) xs ys gx gy) as [XY|]; cbn; [|discriminate].
    destruct (pn_model (fo_panel o)) as [[m|]|]; cbn; try discriminate. destruct (pn_r (fo_panel o)); cbn; [|discriminate].
    destruct (fstrain _ _ _ _ _ _ _ _); cbn; [|discriminate]. intro E. injection E as -> _. reflexivity. }
  assert (K : forall A (n : nat) (l : list A) x, nth_error l k = Some x -> List.length l = n -> (k < n)%nat).
  { intros A n l x E <-. apply nth_error_Some. congruence. }
  destruct Hc as [[Hk Hc]|[[Hk Hc]|[Hk Hc]]].
  - pose proof (D _ _ (DU _ Hc)) as HD. destruct (shell_uvw sched Bs (fo_cores o) c xs ys gx gy (fo_panel o)) as [p' r] eqn:E. cbn in Hc. subst r.
    destruct (uvw_schedule _ _ _ _ _ _ _ _ _ _ _ _ _ Hs E) as (_ & _ & LY & L). repeat split; auto.
    apply L. apply (K _ 5%nat _ _ Hk eq_refl).
  - pose proof (D _ _ (DS _ Hc)) as HD. destruct (shell_strain sched Bs (fo_cores o) c xs ys gx gy NL (fo_panel o)) as [p' r] eqn:E. cbn in Hc. subst r.
    destruct (strain_schedule _ _ _ _ _ _ _ _ _ _ _ _ _ _ Hs Ha Hb E) as (_ & _ & LY & L). repeat split; auto.
    apply L. apply (K _ 6%nat _ _ Hk eq_refl).
  - destruct (strain_of_stress _ _ _ _ _ _ _ _ _ _ _ Hc) as [es Es]. pose proof (D _ _ (DS _ Es)) as HD.
    destruct (shell_strain sched Bs (fo_cores o) c xs ys gx gy NL (fo_panel o)) as [p' r] eqn:E. cbn in Es. subst r.
    destruct (strain_schedule _ _ _ _ _ _ _ _ _ _ _ _ _ _ Hs Ha Hb E) as (_ & _ & LY & L). repeat split; auto.
    apply (stress_lengths _ _ _ _ _ _ _ _ _ _ _ _ Hs Ha Hb Hc). apply (K _ 6%nat _ _ Hk eq_refl).
Qed.
End Calls.
