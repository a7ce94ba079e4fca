(* uvw, strain and stress of a Shell object. *)
From Coq Require Import Reals List Arith Bool Lia Lra Permutation ZArith.
From Coquelicot Require Import Coquelicot.
From Verif Require Import Base_Sum Model_Types Model_Coo Model_Result Model_Num Model_DB Data_Bardell Model_Bardell Model_Shell Model_Field
  Spec_Algebra Spec_Kinematics Spec_Quadrature Spec_Bardell Spec_Panel Spec_Shell Spec_Field
  Proof_Poly Proof_Bardell Proof_Shell Proof_Api Proof_Field Proof_Fint2 Proof_FintApi.
Import ListNotations.
Open Scope R_scope.

(* field k of uvw, and strain k *)
Definition uvw_at (Bs : basis) (s : shell) (c : nat -> R) (k : nat) (x y : R) : R :=
  let X := natural x (sh_a s) in let Y := natural y (sh_b s) in
  match k with
  | 0%nat => d_u Bs s c X Y | 1%nat => d_v Bs s c X Y | 2%nat => d_w Bs s c X Y
  | 3%nat => - d_wx Bs s c X Y | _ => - d_wy Bs s c X Y
  end.
Definition strain_at (NL : bool) (Bs : basis) (s : shell) (c : nat -> R) (k : nat) (x y : R) : R :=
  (if NL then doubled_strain else lin_strain) (field_curvature s) Bs s c (natural x (sh_a s)) (natural y (sh_b s)) k.

Definition guard_ok (c : list R) (s : shell) (xs ys : list R) (nc : nat) : Prop :=
  nc <> 0%nat /\ (sh_m s <= 30)%nat /\ (sh_n s <= 30)%nat /\ (3 * (sh_m s * sh_n s) <= length c)%nat /\ length xs = length ys.
Lemma field_guard_ok c s xs ys nc u : field_guard c s xs ys nc = Ok u -> guard_ok c s xs ys nc.
Proof.
  unfold field_guard, guard_ok. destruct (Nat.eqb_spec nc 0); [discriminate|].
  destruct (_ && _)%bool eqn:E; [|discriminate]. intros _.
  rewrite !andb_true_iff, !Nat.leb_le, Nat.eqb_eq in E. unfold NMAX, DOF in E. tauto.
Qed.
Lemma field_guard_run c s xs ys nc : guard_ok c s xs ys nc -> field_guard c s xs ys nc = Ok tt.
Proof.
  unfold field_guard, guard_ok. intros (H1 & H2 & H3 & H4 & H5). destruct (Nat.eqb_spec nc 0); [congruence|].
  replace (_ && _)%bool with true; [reflexivity|]. symmetry. rewrite !andb_true_iff, !Nat.leb_le, Nat.eqb_eq. unfold NMAX, DOF. tauto.
Qed.

Lemma point_values_ext f g xs ys : (forall x y, f x y = g x y) -> point_values f xs ys = point_values g xs ys.
Proof. intro H. unfold point_values. apply map_ext. intros; apply H. Qed.

Lemma fuvw_values sched Bs c s xs ys nc : (forall l, Permutation (sched l) l) -> guard_ok c s xs ys nc ->
  fuvw sched Bs c s xs ys nc = Ok (map (fun k => point_values (uvw_at Bs s (vec c) k) xs ys) (seq 0 5)).
Proof.
  intros Hs Hg. unfold fuvw. rewrite (field_guard_run _ _ _ _ _ Hg). cbn [rbind].
  destruct Hg as (Hnc & _ & _ & _ & Hlen). rewrite field_arrays_values by assumption. cbn [map combine seq Nat.leb fst snd].
  f_equal. f_equal; [apply point_values_ext; intros; apply at_u|]. f_equal; [apply point_values_ext; intros; apply at_v|].
  f_equal; [apply point_values_ext; intros; apply at_w|]. unfold point_values at 1 2. rewrite !map_map.
  f_equal; [apply map_ext; intros; rewrite at_wx; unfold uvw_at; ring|].
  f_equal. apply map_ext; intros; rewrite at_wy; unfold uvw_at; ring.
Qed.
Lemma fstrain_values sched Bs c s xs ys nc NL : (forall l, Permutation (sched l) l) -> sh_a s <> 0 -> sh_b s <> 0 -> guard_ok c s xs ys nc ->
  fstrain sched Bs c s xs ys nc NL = Ok (map (fun k => point_values (strain_at NL Bs s (vec c) k) xs ys) (seq 0 6)).
Proof.
  intros Hs Ha Hb Hg. unfold fstrain. rewrite (field_guard_run _ _ _ _ _ Hg). cbn [rbind].
  destruct Hg as (Hnc & _ & _ & _ & Hlen). rewrite field_arrays_values by assumption. cbn [map seq].
  assert (HK : forall k x y, (3 <= k)%nat -> strain_at NL Bs s (vec c) k x y = lin_strain (field_curvature s) Bs s (vec c) (natural x (sh_a s)) (natural y (sh_b s)) k).
  { intros k x y Hk. unfold strain_at. rewrite strain_split. do 3 (destruct k as [|k]; [lia|]). ring. }
  f_equal. f_equal; [apply point_values_ext; intros; apply at_exx; assumption|].
  f_equal; [apply point_values_ext; intros; apply at_eyy; assumption|].
  f_equal; [apply point_values_ext; intros; apply at_gxy; assumption|].
  f_equal; [apply point_values_ext; intros; rewrite HK by lia; apply at_kxx; assumption|].
  f_equal; [apply point_values_ext; intros; rewrite HK by lia; apply at_kyy; assumption|].
  f_equal. apply point_values_ext; intros; rewrite HK by lia; apply at_kxy; assumption.
Qed.

(* ------------------------------------------------- methods *)
Theorem shell_uvw_values sched Bs nc c xs ys gx gy p p' XY out : (forall l, Permutation (sched l) l) ->
  shell_uvw sched Bs nc c xs ys gx gy p = (p', Ok (XY, out)) ->
  p' = p /\ default_field (pn_sh p) xs ys gx gy = Ok XY /\ guard_ok c (pn_sh p) (snd (fst XY)) (snd (snd XY)) nc /\
  (exists mdl, pn_model p = Some (Known mdl)) /\
  out = map (fun k => point_values (uvw_at Bs (kernel_view p) (vec c) k) (snd (fst XY)) (snd (snd XY))) (seq 0 5).
Proof.
  intros Hs H. unfold shell_uvw in H. unfold mbind at 1, mget at 1 in H. unfold mbind at 1, mlift at 1 in H.
  destruct (default_field _ _ _ _ _) as [XY0|] eqn:ED; [|discriminate].
  unfold mbind at 1 in H. destruct (the_model p) as [p1 [mdl|]] eqn:EM; [|discriminate].
  apply the_model_inv in EM. destruct EM as [-> Hm].
  unfold mbind at 1, mlift at 1 in H. destruct (fuvw _ _ _ _ _ _ _) as [f|] eqn:EF; [|discriminate].
  unfold mret in H. injection H as <- <- <-.
  assert (HG : guard_ok c (kernel_view p) (snd (fst XY0)) (snd (snd XY0)) nc).
  { unfold fuvw in EF. destruct (field_guard c (kernel_view p) (snd (fst XY0)) (snd (snd XY0)) nc) eqn:EG; [|discriminate]. exact (field_guard_ok _ _ _ _ _ _ EG). }
  rewrite fuvw_values in EF by assumption. injection EF as <-.
  split; [reflexivity|]. split; [reflexivity|]. split; [exact HG|]. split; [eauto|reflexivity].
Qed.

Theorem shell_uvw_runs sched Bs nc c xs ys gx gy p mdl XY : (forall l, Permutation (sched l) l) ->
  pn_model p = Some (Known mdl) -> default_field (pn_sh p) xs ys gx gy = Ok XY ->
  guard_ok c (pn_sh p) (snd (fst XY)) (snd (snd XY)) nc ->
  shell_uvw sched Bs nc c xs ys gx gy p = (p, Ok (XY,
    map (fun k => point_values (uvw_at Bs (kernel_view p) (vec c) k) (snd (fst XY)) (snd (snd XY))) (seq 0 5))).
Proof.
  intros Hs Hm HD HG. unfold shell_uvw. unfold mbind at 1, mget at 1. unfold mbind at 1, mlift at 1. rewrite HD.
  unfold mbind at 1, the_model at 1. rewrite Hm. unfold mbind at 1, mlift at 1. rewrite fuvw_values by assumption. reflexivity.
Qed.

Lemma default_one s x y gx gy : default_field s (one_point x) (one_point y) gx gy = Ok (([1%nat], [x]), ([1%nat], [y])).
Proof. reflexivity. Qed.

Lemma nth_seq_map {A} (f : nat -> A) n k d : (k < n)%nat -> nth k (map f (seq 0 n)) d = f k.
Proof. intro H. rewrite (nth_indep _ d (f 0%nat)) by (rewrite map_length, seq_length; exact H). rewrite map_nth, seq_nth by exact H. reflexivity. Qed.
Lemma point_values_nth f xs ys q : length xs = length ys -> (q < length xs)%nat -> nth q (point_values f xs ys) 0 = f (nth q xs 0) (nth q ys 0).
Proof.
  intros Hl Hq. unfold point_values. rewrite <- (map_nth_combine f xs ys Hl). apply (nth_seq_map (fun q => f (nth q xs 0) (nth q ys 0)) _ _ _ Hq).
Qed.
Lemma point_values_length f xs ys : length xs = length ys -> length (point_values f xs ys) = length xs.
Proof. intro H. unfold point_values. rewrite map_length, combine_length, <- H. lia. Qed.

(* C15 *)
Theorem uvw_schedule sched Bs nc c xs ys gx gy p p' X Y out : (forall l, Permutation (sched l) l) ->
  shell_uvw sched Bs nc c xs ys gx gy p = (p', Ok ((X, Y), out)) ->
  p' = p /\ length out = 5%nat /\ length (snd Y) = length (snd X) /\
  forall k, (k < 5)%nat -> length (nth k out []) = length (snd X) /\
  forall q, (q < length (snd X))%nat -> exists XY1 out1,
    shell_uvw (fun l => l) Bs 1 c (one_point (nth q (snd X) 0)) (one_point (nth q (snd Y) 0)) gx gy p = (p, Ok (XY1, out1)) /\
    nth k out1 [] = [nth q (nth k out []) 0].
Proof.
  intros Hs H. destruct (shell_uvw_values _ _ _ _ _ _ _ _ _ _ _ _ Hs H) as (-> & HD & HG & (mdl & Hm) & ->). cbn [fst snd] in *.
  assert (HG' := HG). destruct HG' as (Hnc & Hm1 & Hn1 & Hc & Hl).
  split; [reflexivity|]. split; [rewrite map_length; reflexivity|]. split; [symmetry; exact Hl|].
  intros k Hk. rewrite (nth_seq_map _ _ _ _ Hk). split; [apply point_values_length; exact Hl|].
  intros q Hq. eexists; eexists. split.
  - apply (shell_uvw_runs _ _ _ _ _ _ _ _ _ mdl _ (fun l => Permutation_refl l) Hm (default_one _ _ _ _ _)).
    unfold guard_ok. cbn [fst snd length]. repeat split; try assumption. discriminate.
  - rewrite (nth_seq_map _ _ _ _ Hk). rewrite point_values_nth by assumption. reflexivity.
Qed.

Theorem shell_strain_values sched Bs nc c xs ys gx gy NL p p' XY out : (forall l, Permutation (sched l) l) ->
  sh_a (pn_sh p) <> 0 -> sh_b (pn_sh p) <> 0 ->
  shell_strain sched Bs nc c xs ys gx gy NL p = (p', Ok (XY, out)) ->
  p' = p /\ default_field (pn_sh p) xs ys gx gy = Ok XY /\ guard_ok c (pn_sh p) (snd (fst XY)) (snd (snd XY)) nc /\
  (exists mdl, pn_model p = Some (Known mdl)) /\ pn_r p <> None /\
  out = map (fun k => point_values (strain_at NL Bs (kernel_view p) (vec c) k) (snd (fst XY)) (snd (snd XY))) (seq 0 6).
Proof.
  intros Hs Ha Hb H. unfold shell_strain in H. unfold mbind at 1, mget at 1 in H. unfold mbind at 1, mlift at 1 in H.
  destruct (default_field _ _ _ _ _) as [XY0|] eqn:ED; [|discriminate].
  unfold mbind at 1 in H. destruct (the_model p) as [p1 [mdl|]] eqn:EM; [|discriminate].
  apply the_model_inv in EM. destruct EM as [-> Hm].
  destruct (pn_r p) as [r|] eqn:Er; [|discriminate].
  unfold mbind at 1, mlift at 1 in H. destruct (fstrain _ _ _ _ _ _ _ _) as [f|] eqn:EF; [|discriminate].
  unfold mret in H. injection H as <- <- <-.
  assert (HG : guard_ok c (kernel_view p) (snd (fst XY0)) (snd (snd XY0)) nc).
  { unfold fstrain in EF. destruct (field_guard c (kernel_view p) (snd (fst XY0)) (snd (snd XY0)) nc) eqn:EG; [|discriminate]. exact (field_guard_ok _ _ _ _ _ _ EG). }
  rewrite fstrain_values in EF by assumption. injection EF as <-.
  split; [reflexivity|]. split; [reflexivity|]. split; [exact HG|]. split; [eauto|]. split; [discriminate|reflexivity].
Qed.
Theorem shell_strain_runs sched Bs nc c xs ys gx gy NL p mdl XY : (forall l, Permutation (sched l) l) ->
  sh_a (pn_sh p) <> 0 -> sh_b (pn_sh p) <> 0 ->
  pn_model p = Some (Known mdl) -> pn_r p <> None -> default_field (pn_sh p) xs ys gx gy = Ok XY ->
  guard_ok c (pn_sh p) (snd (fst XY)) (snd (snd XY)) nc ->
  shell_strain sched Bs nc c xs ys gx gy NL p = (p, Ok (XY,
    map (fun k => point_values (strain_at NL Bs (kernel_view p) (vec c) k) (snd (fst XY)) (snd (snd XY))) (seq 0 6))).
Proof.
  intros Hs Ha Hb Hm Hr HD HG. unfold shell_strain. unfold mbind at 1, mget at 1. unfold mbind at 1, mlift at 1. rewrite HD.
  unfold mbind at 1, the_model at 1. rewrite Hm. destruct (pn_r p) as [r|] eqn:Er; [|congruence].
  unfold mbind at 1, mlift at 1. rewrite fstrain_values by assumption. reflexivity.
Qed.

Theorem strain_schedule sched Bs nc c xs ys gx gy NL p p' X Y out : (forall l, Permutation (sched l) l) ->
  sh_a (pn_sh p) <> 0 -> sh_b (pn_sh p) <> 0 ->
  shell_strain sched Bs nc c xs ys gx gy NL p = (p', Ok ((X, Y), out)) ->
  p' = p /\ length out = 6%nat /\ length (snd Y) = length (snd X) /\
  forall k, (k < 6)%nat -> length (nth k out []) = length (snd X) /\
  forall q, (q < length (snd X))%nat -> exists XY1 out1,
    shell_strain (fun l => l) Bs 1 c (one_point (nth q (snd X) 0)) (one_point (nth q (snd Y) 0)) gx gy NL p = (p, Ok (XY1, out1)) /\
    nth k out1 [] = [nth q (nth k out []) 0].
Proof.
  intros Hs Ha Hb H. destruct (shell_strain_values _ _ _ _ _ _ _ _ _ _ _ _ _ Hs Ha Hb H) as (-> & HD & HG & (mdl & Hm) & Hr & ->). cbn [fst snd] in *.
  assert (HG' := HG). destruct HG' as (Hnc & Hm1 & Hn1 & Hc & Hl).
  split; [reflexivity|]. split; [rewrite map_length; reflexivity|]. split; [symmetry; exact Hl|].
  intros k Hk. rewrite (nth_seq_map _ _ _ _ Hk). split; [apply point_values_length; exact Hl|].
  intros q Hq. eexists; eexists. split.
  - apply (shell_strain_runs _ _ _ _ _ _ _ _ _ _ mdl _ (fun l => Permutation_refl l) Ha Hb Hm Hr (default_one _ _ _ _ _)).
    unfold guard_ok. cbn [fst snd length]. repeat split; try assumption. discriminate.
  - rewrite (nth_seq_map _ _ _ _ Hk). rewrite point_values_nth by assumption. reflexivity.
Qed.

(* ------------------------------------------------- the functions of position *)
Lemma uvw_is_at sched Bs nc p c U : (forall l, Permutation (sched l) l) -> uvw_is sched Bs nc p c U ->
  (sh_m (pn_sh p) <= 30)%nat /\ (sh_n (pn_sh p) <= 30)%nat /\
  (3 * (sh_m (pn_sh p) * sh_n (pn_sh p)) <= length c)%nat /\
  forall k x y, (k < 5)%nat -> U k x y = uvw_at Bs (kernel_view p) (vec c) k x y.
Proof.
  intros Hs H.
  assert (HG : forall x y, exists XY, (sh_m (pn_sh p) <= 30)%nat /\ (sh_n (pn_sh p) <= 30)%nat /\ (3 * (sh_m (pn_sh p) * sh_n (pn_sh p)) <= length c)%nat /\
     XY = (([1%nat], [x]), ([1%nat], [y])) /\
     [[U 0%nat x y]; [U 1%nat x y]; [U 2%nat x y]; [U 3%nat x y]; [U 4%nat x y]] =
     map (fun k => point_values (uvw_at Bs (kernel_view p) (vec c) k) (snd (fst XY)) (snd (snd XY))) (seq 0 5)).
  { intros x y. destruct (H x y 0%nat 0%nat) as [XY HU]. destruct (shell_uvw_values _ _ _ _ _ _ _ _ _ _ _ _ Hs HU) as (_ & HD & (_ & G1 & G2 & G3 & _) & _ & HO).
    rewrite default_one in HD. injection HD as <-. eauto 10. }
  destruct (HG 0 0) as (_ & G1 & G2 & G3 & _). split; [exact G1|]. split; [exact G2|]. split; [exact G3|].
  intros k x y Hk. destruct (HG x y) as (XY & _ & _ & _ & -> & HO). cbn in HO. injection HO as H0 H1 H2 H3 H4.
  do 5 (destruct k as [|k]; [assumption|]). lia.
Qed.
Lemma strain_is_at sched Bs nc p c NL E : (forall l, Permutation (sched l) l) -> sh_a (pn_sh p) <> 0 -> sh_b (pn_sh p) <> 0 ->
  strain_is sched Bs nc p c NL E -> pn_r p <> None /\
  forall k x y, (k < 6)%nat -> E k x y = strain_at NL Bs (kernel_view p) (vec c) k x y.
Proof.
  intros Hs Ha Hb H.
  assert (HG : forall x y, exists XY, pn_r p <> None /\ XY = (([1%nat], [x]), ([1%nat], [y])) /\
     [[E 0%nat x y]; [E 1%nat x y]; [E 2%nat x y]; [E 3%nat x y]; [E 4%nat x y]; [E 5%nat x y]] =
     map (fun k => point_values (strain_at NL Bs (kernel_view p) (vec c) k) (snd (fst XY)) (snd (snd XY))) (seq 0 6)).
  { intros x y. destruct (H x y 0%nat 0%nat) as [XY HU]. destruct (shell_strain_values _ _ _ _ _ _ _ _ _ _ _ _ _ Hs Ha Hb HU) as (_ & HD & _ & _ & Hr & HO).
    rewrite default_one in HD. injection HD as <-. eauto. }
  split; [destruct (HG 0 0) as (_ & Hr & _); exact Hr|].
  intros k x y Hk. destruct (HG x y) as (XY & _ & -> & HO). unfold point_values in HO. cbn -[strain_at kernel_view] in HO. injection HO as H0 H1 H2 H3 H4 H5.
  do 6 (destruct k as [|k]; [assumption|]). lia.
Qed.

Lemma field_curvature_panel p : pn_r p <> None -> field_curvature (kernel_view p) = panel_curvature p.
Proof. intro H. unfold field_curvature, panel_curvature, kernel_view. cbn [sh_r]. destruct (pn_r p); [reflexivity|congruence]. Qed.
