(* Fields and forces of a stiffened bay. *)
From Coq Require Import Reals List Arith Bool Lra Lia Permutation.
From Verif Require Import Base_Sum Model_Types Model_Coo Model_Result Model_Num Model_DB Model_Shell Model_Field Model_Fext Model_Bay Model_BayField
  Spec_Algebra Spec_Kinematics Spec_Bay Spec_BayField Proof_Field Proof_Bay.
From Coq Require Import List.
Import ListNotations.
Open Scope R_scope.

(* ------------------------------------------------- get_size changes the kept sizes only *)
Definition resized (s t : stiff2) : Prop := (s2_flange s = None /\ s2_flange t = None) \/
  (exists q n, s2_flange s = Some q /\ s2_flange t = Some (set_size q n)).
Lemma resized_refl s : resized s s.
Proof. destruct (s2_flange s) as [q|] eqn:E; [right; exists q, (pn_size q); split; [exact E|]; rewrite E; destruct q; reflexivity|left; split; exact E]. Qed.
Lemma resized_trans s t u : resized s t -> resized t u -> resized s u.
Proof.
  intros [[A1 A2]|(q & n & A1 & A2)] [[B1 B2]|(q' & n' & B1 & B2)]; try congruence.
  - left. split; assumption.
  - right. rewrite A2 in B1. injection B1 as <-. exists q, n'. split; [exact A1|]. rewrite B2. reflexivity.
Qed.
Record kept (B B' : bay) : Prop := { k_sh : by_sh B' = by_sh B; k_model : by_model B' = by_model B; k_order : by_order B' = by_order B;
  k_forces : by_forces B' = by_forces B; k_panels : by_panels B' = by_panels B; k_s2 : Forall2 resized (by_s2 B) (by_s2 B') }.
Lemma all_refl l : Forall2 resized l l.
Proof. induction l; constructor; [apply resized_refl|assumption]. Qed.
Lemma kept_refl B : kept B B.
Proof. constructor; try reflexivity. apply all_refl. Qed.
Lemma all_trans : forall l1 l2 l3, Forall2 resized l1 l2 -> Forall2 resized l2 l3 -> Forall2 resized l1 l3.
Proof. intros l1 l2 l3 H. revert l3. induction H; intros l3 H3; inversion H3; subst; constructor; [eapply resized_trans; eassumption|auto]. Qed.
Lemma kept_trans A B C : kept A B -> kept B C -> kept A C.
Proof. intros [] []. constructor; try congruence. eapply all_trans; eassumption. Qed.
Lemma kept_size B n : kept B (set_bsize B n).
Proof. constructor; try reflexivity. apply all_refl. Qed.
Lemma resized_dim s t : resized s t -> flange_dim t = flange_dim s.
Proof. intros [[A1 A2]|(q & n & A1 & A2)]; unfold flange_dim; rewrite A1, A2; reflexivity. Qed.
Lemma all_dim l l' : Forall2 resized l l' -> flanges_dim l' = flanges_dim l.
Proof. induction 1; [reflexivity|]. cbn [flanges_dim fold_right] in *. fold (flanges_dim l') (flanges_dim l). rewrite IHForall2, (resized_dim _ _ H). reflexivity. Qed.
Lemma kept_dim B B' : kept B B' -> bay_dim B' = bay_dim B.
Proof. intros []. unfold bay_dim, skin_dim. rewrite k_sh0, (all_dim _ _ k_s3). reflexivity. Qed.
Lemma all_nth : forall l l' j t, Forall2 resized l l' -> nth_error l' j = Some t -> exists s, nth_error l j = Some s /\ resized s t.
Proof. intros l l' j t H. revert j. induction H; intros [|j] Hj; cbn in *; try discriminate; [injection Hj as <-; eauto|eauto]. Qed.
Lemma kept_sized B B' : kept B B' -> sized B -> sized B'.
Proof.
  intros [] [H1 H2]. split; [rewrite k_model0; exact H1|]. intros t Ht. destruct (In_nth_error _ _ Ht) as [j Hj]. destruct (all_nth _ _ _ _ k_s3 Hj) as (s & Hs & Hr).
  destruct (H2 s (nth_error_In _ _ Hs)) as (q & mdl & E1 & E2). destruct Hr as [[A1 A2]|(q' & n & A1 & A2)]; [congruence|]. rewrite E1 in A1. injection A1 as <-. exists (set_size q n), mdl. split; [exact A2|exact E2].
Qed.
Lemma set_resized l j s t : nth_error l j = Some s -> resized s t -> Forall2 resized l (set_at j t l).
Proof. intros H R. eapply Forall2_set_at; [apply all_refl|exact H|exact R]. Qed.
Lemma flange_size_go B j s : sized B -> nth_error (by_s2 B) j = Some s -> exists B', on_flange j get_size B = (B', Ok (Some (flange_dim s))) /\ kept B B'.
Proof.
  intros [_ H2] Hj. destruct (H2 s (nth_error_In _ _ Hj)) as (q & mdl & E1 & E2).
  unfold on_flange, get_s2, bbind, put_s2, bmod, blift, bret. rewrite Hj, E1. unfold get_size, mbind, the_model, mget, mmod, mret. rewrite E2. cbv beta iota.
  eexists. split; [unfold flange_dim; rewrite E1; destruct mdl; reflexivity|]. constructor; try reflexivity. cbn [by_s2 set_s2 by_set].
  eapply set_resized; [exact Hj|]. right. exists q. eexists. split; [exact E1|]. reflexivity.
Qed.
Lemma bind_ok {A C} (x : bmethod A) (f : A -> bmethod C) B B' a : x B = (B', Ok a) -> bbind x f B = f a B'.
Proof. intro H. unfold bbind. rewrite H. reflexivity. Qed.
Lemma bind_err {A C} (x : bmethod A) (f : A -> bmethod C) B B' e : x B = (B', Err e) -> bbind x f B = (B', Err e).
Proof. intro H. unfold bbind. rewrite H. reflexivity. Qed.
Notation count := (fun j => bbind (on_flange j get_size) (fun o => match o with Some n => bret n | None => braise AttributeError end)).
Lemma count_go : forall k i B, sized B -> (i + k <= length (by_s2 B))%nat ->
  exists B' l, each count i k B = (B', Ok l) /\ kept B B' /\ fold_right Nat.add 0%nat l = flanges_dim (firstn k (skipn i (by_s2 B))).
Proof.
  induction k as [|k IH]; intros i B HS Hl.
  - exists B, []. split; [reflexivity|]. split; [apply kept_refl|reflexivity].
  - destruct (nth_error (by_s2 B) i) as [s|] eqn:Es; [|apply nth_error_None in Es; lia].
    destruct (flange_size_go _ _ _ HS Es) as (B1 & E1 & K1). pose proof (kept_sized _ _ K1 HS) as S1.
    pose proof (F2_length _ _ _ (k_s2 _ _ K1)) as HL1. destruct (IH (S i) B1 S1 ltac:(rewrite <- HL1; lia)) as (B2 & l & E2 & K2 & F2).
    exists B2, (flange_dim s :: l). cbn [each]. split; [|split; [eapply kept_trans; eassumption|]].
    { assert (EC : count i B = (B1, Ok (flange_dim s))) by (rewrite (bind_ok _ _ _ _ _ E1); reflexivity). rewrite (bind_ok _ _ _ _ _ EC). erewrite bind_ok; [|exact E2]. reflexivity. }
    cbn [fold_right]. rewrite F2.
    assert (HD : Forall2 resized (firstn k (skipn (S i) (by_s2 B))) (firstn k (skipn (S i) (by_s2 B1)))).
    { generalize (k_s2 _ _ K1). generalize (by_s2 B) (by_s2 B1). clear. generalize (S i) as a. intros a l l' H. revert a k. induction H; intros a k; [rewrite !skipn_nil, !firstn_nil; constructor|].
      destruct a as [|a]; [|apply IHForall2]. cbn [skipn]. destruct k as [|k]; [constructor|]. cbn [firstn]. constructor; [assumption|]. exact (IHForall2 0%nat k). }
    rewrite (all_dim _ _ HD). clear - Es. revert i Es. induction (by_s2 B) as [|t l0 IHl]; intros [|i] Es; cbn in Es; try discriminate.
    + injection Es as ->. reflexivity.
    + cbn [skipn]. cbn [skipn] in IHl. exact (IHl i Es).
Qed.
Lemma size_go B : sized B -> exists B', bay_size B = (B', Ok (bay_dim B)) /\ kept B B'.
Proof.
  intros HS. pose proof HS as [[mdl Hm] _]. destruct (count_go (length (by_s2 B)) 0 B HS (le_n _)) as (B1 & l & E1 & K1 & F1).
  exists (set_bsize B1 (Some (bay_dim B))). split.
  - unfold bay_size. erewrite bind_ok; [|reflexivity]. rewrite Hm. cbv zeta. erewrite bind_ok; [|exact E1]. unfold bbind, bmod, bret. rewrite fold_add, F1. cbn [skipn]. rewrite firstn_all.
    unfold bay_dim, skin_dim, db_dofs. reflexivity.
  - eapply kept_trans; [exact K1|apply kept_size].
Qed.
(* ------------------------------------------------- fields *)
Lemma map_disp (f : R -> R -> R) (g : R -> R -> R) xs ys : (forall x y, f x y = g x y) -> point_values f xs ys = map (fun xy => g (fst xy) (snd xy)) (combine xs ys).
Proof. intro H. unfold point_values. apply map_ext. intros [x y]. apply H. Qed.
Lemma fuvw_disps sched Bs c s xs ys nc : (forall l, Permutation (sched l) l) -> nc <> 0%nat -> (sh_m s <= 30)%nat -> (sh_n s <= 30)%nat ->
  (3 * sh_m s * sh_n s <= length c)%nat -> length xs = length ys -> fuvw sched Bs c s xs ys nc = Ok (disps Bs s (vec c) xs ys).
Proof.
  intros Hsch Hnc Hm Hn Hc Hl. unfold fuvw, field_guard. destruct (Nat.eqb_spec nc 0); [contradiction|].
  assert (E : ((sh_m s <=? NMAX) && (sh_n s <=? NMAX) && (DOF * (sh_m s * sh_n s) <=? length c) && (length xs =? length ys))%nat%bool = true).
  { rewrite !andb_true_iff. repeat split; try (apply Nat.leb_le; unfold NMAX, DOF in *; lia). apply Nat.eqb_eq. exact Hl. }
  rewrite E. cbn [rbind]. rewrite field_arrays_values by assumption. cbn [map seq combine fst snd Nat.leb]. unfold disps. cbn [map].
  f_equal. f_equal; [apply map_disp; intros; apply at_u|]. f_equal; [apply map_disp; intros; apply at_v|]. f_equal; [apply map_disp; intros; apply at_w|].
  f_equal; [|f_equal]; rewrite (map_disp _ _ _ _ (at_wx Bs s (vec c))) || rewrite (map_disp _ _ _ _ (at_wy Bs s (vec c))); rewrite map_map; apply map_ext; intros [x y]; unfold disp; cbn [fst snd]; unfold Spec_Quadrature.natural; ring.
Qed.
Lemma mesh_length xs ys : length (snd (fst (meshgrid xs ys))) = length (snd (snd (meshgrid xs ys))).
Proof. unfold meshgrid. cbn [fst snd]. induction ys as [|y ys IH]; [reflexivity|]. cbn [flat_map]. rewrite !app_length, map_length, IH. reflexivity. Qed.
Section Points.
Variables (xs ys : option ndarray) (gridx gridy : nat).
Notation accepted := (points_ok xs ys).
Lemma accepted_ok : accepted -> points_accepted xs ys = true.
Proof. unfold points_ok, points_accepted. destruct xs as [X|], ys as [Y|]; try reflexivity. intros (H1 & H2 & _). unfold one_dim. rewrite H1, H2. reflexivity. Qed.
Lemma accepted_length a b : accepted -> length (snd (fst (bay_points a b xs ys gridx gridy))) = length (snd (snd (bay_points a b xs ys gridx gridy))).
Proof. unfold points_ok, bay_points. destruct xs as [X|], ys as [Y|]; try (intros _; apply mesh_length). intros (_ & _ & H). exact H. Qed.

Lemma skin_go sched Bs nc c B : (forall l, Permutation (sched l) l) -> sized B -> length c = bay_dim B -> nc <> 0%nat ->
  (sh_m (by_sh B) <= 30)%nat -> (sh_n (by_sh B) <= 30)%nat -> accepted ->
  exists B', let XY := bay_points (sh_a (by_sh B)) (sh_b (by_sh B)) xs ys gridx gridy in
    bay_uvw_skin sched Bs nc c xs ys gridx gridy B = (B', Ok (XY, disps Bs (by_sh B) (vec (firstn (skin_dim B) c)) (snd (fst XY)) (snd (snd XY)))) /\ kept B B'.
Proof.
  intros Hs HS Hc Hnc Hm Hn HA. destruct (size_go B HS) as (B1 & E1 & K1). exists B1. cbv zeta. split; [|exact K1].
  pose proof HS as [[mdl Hmdl] _]. pose proof (k_model _ _ K1) as HM1. pose proof (k_sh _ _ K1) as HS1.
  assert (EC : skin_constants c B = (B1, Ok (firstn (skin_dim B) c))).
  { unfold skin_constants. rewrite (bind_ok _ _ _ _ _ E1). rewrite (bind_ok bget _ _ B1 B1 eq_refl). rewrite Hc, Nat.eqb_refl.
    unfold bbind, blift, skin_size, bret. rewrite HM1, Hmdl, HS1. reflexivity. }
  unfold bay_uvw_skin. rewrite (bind_ok bget _ _ B B eq_refl). cbv zeta. rewrite (bind_ok _ _ _ _ _ EC). rewrite (accepted_ok HA).
  erewrite bind_ok; [reflexivity|]. unfold blift. f_equal. apply fuvw_disps; try assumption; [|apply accepted_length; exact HA].
  rewrite firstn_length, Hc. unfold bay_dim, skin_dim. lia.
Qed.
Lemma skin_wrong sched Bs nc c B : sized B -> length c <> bay_dim B -> exists B', bay_uvw_skin sched Bs nc c xs ys gridx gridy B = (B', Err ValueError).
Proof.
  intros HS Hc. destruct (size_go B HS) as (B1 & E1 & K1). exists B1. unfold bay_uvw_skin. rewrite (bind_ok bget _ _ B B eq_refl). cbv zeta. apply bind_err.
  unfold skin_constants. rewrite (bind_ok _ _ _ _ _ E1). rewrite (bind_ok bget _ _ B1 B1 eq_refl). destruct (Nat.eqb_spec (length c) (bay_dim B)); [contradiction|reflexivity].
Qed.
Lemma flange_go sched Bs nc c B s q : (forall l, Permutation (sched l) l) -> sized B -> length c = bay_dim B -> nc <> 0%nat ->
  nth_error (by_order B) 0 = Some false -> nth_error (by_s2 B) 0 = Some s -> s2_flange s = Some q ->
  (sh_m (pn_sh q) <= 30)%nat -> (sh_n (pn_sh q) <= 30)%nat -> accepted ->
  exists B', let XY := bay_points (sh_a (by_sh B)) (sh_b (pn_sh q)) xs ys gridx gridy in
    bay_uvw_stiffener sched Bs nc c 0 Flange xs ys gridx gridy B =
      (B', Ok (XY, disps Bs (pn_sh q) (vec (firstn (flange_dim s) (skipn (slice_of B 0) c))) (snd (fst XY)) (snd (snd XY)))) /\ kept B B'.
Proof.
  intros Hs HS Hc Hnc Ho Hs0 Hq Hm Hn HA. destruct (flange_size_go B 0 s HS Hs0) as (B1 & E1 & K1). pose proof (kept_sized _ _ K1 HS) as S1.
  destruct (size_go B1 S1) as (B2 & E2 & K2). pose proof (kept_trans _ _ _ K1 K2) as K. exists B2. cbv zeta. split; [|exact K].
  pose proof HS as [[mdl Hmdl] _].
  assert (EC : stiffener_constants c 0 B = (B2, Ok (firstn (flange_dim s) (skipn (skin_dim B) c)))).
  { unfold stiffener_constants. rewrite (bind_ok bget _ _ B B eq_refl). rewrite Ho. rewrite (bind_ok _ _ B B (skin_dim B)); [|unfold blift, skin_size; rewrite Hmdl; reflexivity].
    destruct (by_order B) as [|o l] eqn:El; [discriminate|]. cbn [firstn skipn existsb filter length]. rewrite (bind_ok _ _ _ _ _ E1), (bind_ok _ _ _ _ _ E2).
    rewrite Hc, (kept_dim _ _ K1), Nat.eqb_refl. reflexivity. }
  unfold bay_uvw_stiffener. rewrite (bind_ok bget _ _ B B eq_refl). rewrite Ho. rewrite (bind_ok _ _ _ _ _ EC). cbn [firstn filter length].
  destruct (nth_error (by_s2 B2) 0) as [t|] eqn:Et; [|apply nth_error_None in Et; pose proof (F2_length _ _ _ (k_s2 _ _ K)); destruct (by_s2 B); cbn in *; [discriminate|lia]].
  destruct (all_nth _ _ _ _ (k_s2 _ _ K) Et) as (s' & Hs' & HR). rewrite Hs0 in Hs'. injection Hs' as <-. destruct HR as [[A1 _]|(q' & n & A1 & A2)]; [congruence|].
  rewrite Hq in A1. injection A1 as <-. rewrite (bind_ok _ _ B2 B2 t); [|unfold get_s2; rewrite Et; reflexivity]. rewrite A2. cbv zeta. rewrite (accepted_ok HA).
  change (pn_sh (set_size q n)) with (pn_sh q). change (kernel_view (set_size q n)) with (kernel_view q).
  unfold slice_of. cbn [firstn flanges_dim fold_right]. rewrite Nat.add_0_r.
  erewrite bind_ok; [reflexivity|]. unfold blift. f_equal. rewrite fuvw_disps; try assumption; [reflexivity| |apply accepted_length; exact HA].
  cbn [kernel_view sh_m sh_n]. rewrite firstn_length, skipn_length, Hc. unfold bay_dim, flange_dim. rewrite Hq.
  destruct (by_s2 B) as [|s1 l]; [discriminate|]. cbn in Hs0. injection Hs0 as ->. cbn [flanges_dim fold_right]. unfold flange_dim at 1. rewrite Hq. lia.
Qed.
Lemma later_fail sched Bs nc c B si rg B' r : (0 < si)%nat -> bay_uvw_stiffener sched Bs nc c si rg xs ys gridx gridy B = (B', Ok r) -> False.
Proof.
  intros Hsi H. unfold bay_uvw_stiffener in H. rewrite (bind_ok bget _ _ B B eq_refl) in H. destruct (nth_error (by_order B) si) as [[|]|] eqn:Eo; try discriminate.
  assert (HX : existsb negb (skipn 1 (firstn (S si) (by_order B))) = true).
  { apply existsb_exists. exists false. split; [|reflexivity]. destruct (by_order B) as [|o l]; [destruct si; discriminate|]. destruct si as [|si]; [lia|]. cbn [firstn skipn].
    cbn in Eo. clear - Eo. revert si Eo. induction l as [|x l IH]; intros [|si] Eo; cbn in Eo; try discriminate; [injection Eo as ->; left; reflexivity|]. right. exact (IH si Eo). }
  destruct rg.
  - unfold stiffener_constants in H. destruct (bind_run _ _ _ _ _ H) as [(B1 & a & H1 & H2)|(e & _ & HE)]; [|discriminate HE].
    rewrite (bind_ok bget _ _ B B eq_refl) in H1. rewrite Eo in H1. destruct (bind_run _ _ _ _ _ H1) as [(B2 & b & H3 & H4)|(e & _ & HE)]; [|discriminate HE]. rewrite HX in H4. discriminate.
  - discriminate.
  - destruct (bind_run _ _ _ _ _ H) as [(B2 & b & H3 & H4)|(e & _ & HE)]; [|discriminate HE]. rewrite HX in H4. discriminate.
Qed.
End Points.
(* ------------------------------------------------- forces *)
Lemma repeat_sum a b : repeat 0 a ++ repeat 0 b = repeat 0 (a + b).
Proof. symmetry. apply repeat_app. Qed.
Lemma forces_ok ff : forall k j acc B B' f, flange_forces ff j k acc B = (B', Ok f) -> (forall i, (j <= i < j + k)%nat -> ff i = Some []) /\ exists n, f = acc ++ repeat 0 n.
Proof.
  induction k as [|k IH]; intros j acc B B' f H.
  - cbn in H. unfold bret in H. injection H as _ <-. split; [lia|]. exists 0%nat. cbn. rewrite app_nil_r. reflexivity.
  - cbn [flange_forces] in H. rewrite (bind_ok bget _ _ B B eq_refl) in H.
    destruct (bind_run _ _ _ _ _ H) as [(B1 & s & H1 & H2)|(e & _ & HE)]; [|discriminate HE]. destruct (s2_flange s); [|discriminate].
    destruct (bind_run _ _ _ _ _ H2) as [(B2 & n & H3 & H4)|(e & _ & HE)]; [|discriminate HE]. destruct (ff j) as [[|x l]|] eqn:Ef; try discriminate.
    destruct (IH _ _ _ _ _ H4) as [I1 [n' I2]]. split.
    + intros i Hi. destruct (Nat.eq_dec i j) as [->|]; [exact Ef|]. apply I1. lia.
    + exists (default 0%nat n + n')%nat. rewrite I2, <- app_assoc, repeat_sum. reflexivity.
Qed.
Lemma fext_ok ff B B' f : bay_fext ff B = (B', Ok f) -> by_forces B = [] /\ (forall j, (j < length (by_s2 B))%nat -> ff j = Some []) /\ Forall (fun x => x = 0) f.
Proof.
  intro H. unfold bay_fext in H. rewrite (bind_ok bget _ _ B B eq_refl) in H. destruct (bind_run _ _ _ _ _ H) as [(B1 & k & H1 & H2)|(e & _ & HE)]; [|discriminate HE].
  destruct (by_forces B); [|discriminate]. destruct (forces_ok _ _ _ _ _ _ _ H2) as [I1 [n I2]]. split; [reflexivity|]. split; [intros j Hj; apply I1; lia|].
  rewrite I2, repeat_sum. apply Forall_forall. intros x Hx. exact (repeat_spec _ _ _ Hx).
Qed.
Lemma fext_go ff : forall B, sized B -> by_forces B = [] -> (forall j, (j < length (by_s2 B))%nat -> ff j = Some []) ->
  exists B', bay_fext ff B = (B', Ok (repeat 0 (bay_dim B))) /\ kept B B'.
Proof.
  intros B HS HF Hff. pose proof HS as [[mdl Hm] _].
  assert (G : forall k j acc B1, sized B1 -> length (by_s2 B1) = length (by_s2 B) -> (j + k <= length (by_s2 B))%nat ->
    exists B2, flange_forces ff j k acc B1 = (B2, Ok (acc ++ repeat 0 (flanges_dim (firstn k (skipn j (by_s2 B1)))))) /\ kept B1 B2).
  { induction k as [|k IH]; intros j acc B1 S1 L1 Hl.
    - exists B1. cbn. rewrite app_nil_r. split; [reflexivity|apply kept_refl].
    - destruct (nth_error (by_s2 B1) j) as [s|] eqn:Es; [|apply nth_error_None in Es; lia].
      destruct (flange_size_go _ _ _ S1 Es) as (B2 & E2 & K2). pose proof (F2_length _ _ _ (k_s2 _ _ K2)) as L2.
      destruct (IH (S j) (acc ++ repeat 0 (flange_dim s)) B2 (kept_sized _ _ K2 S1) ltac:(congruence) ltac:(lia)) as (B3 & E3 & K3).
      exists B3. split; [|eapply kept_trans; eassumption]. cbn [flange_forces]. rewrite (bind_ok bget _ _ B1 B1 eq_refl).
      rewrite (bind_ok _ _ B1 B1 s); [|unfold get_s2; rewrite Es; reflexivity]. destruct S1 as [_ S1]. destruct (S1 s (nth_error_In _ _ Es)) as (q & md & Hq & _). rewrite Hq.
      rewrite (bind_ok _ _ _ _ _ E2). rewrite (Hff j ltac:(lia)). cbn [default]. rewrite E3. f_equal. f_equal. rewrite <- app_assoc, repeat_sum. f_equal. f_equal.
      assert (HD : Forall2 resized (firstn k (skipn (S j) (by_s2 B1))) (firstn k (skipn (S j) (by_s2 B2)))).
      { generalize (k_s2 _ _ K2). generalize (by_s2 B1) (by_s2 B2). clear. generalize (S j) as a. intros a l l' H. revert a k. induction H; intros a k; [rewrite !skipn_nil, !firstn_nil; constructor|].
        destruct a as [|a]; [|apply IHForall2]. cbn [skipn]. destruct k as [|k]; [constructor|]. cbn [firstn]. constructor; [assumption|]. exact (IHForall2 0%nat k). }
      rewrite (all_dim _ _ HD). clear - Es. revert j Es. induction (by_s2 B1) as [|t l0 IHl]; intros [|j] Es; cbn in Es; try discriminate.
      + injection Es as ->. reflexivity.
      + cbn [skipn]. cbn [skipn] in IHl. exact (IHl j Es). }
  destruct (G (length (by_s2 B)) 0%nat (repeat 0 (skin_dim B)) B HS eq_refl (le_n _)) as (B2 & E2 & K2). exists B2. split; [|exact K2].
  unfold bay_fext. rewrite (bind_ok bget _ _ B B eq_refl). rewrite (bind_ok _ _ B B (skin_dim B)); [|unfold blift, skin_size; rewrite Hm; reflexivity]. rewrite HF, E2.
  cbn [skipn]. rewrite firstn_all, repeat_sum. reflexivity.
Qed.
