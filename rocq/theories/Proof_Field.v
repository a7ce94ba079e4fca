(* The field functions: independence of the schedule, values at the points. *)
From Coq Require Import Reals List Arith Bool Lia Lra Permutation.
From Verif Require Import Base_Sum Model_Types Model_Coo Model_Result Model_Num Model_DB Model_Bardell Model_Shell Model_Field
  Spec_Algebra Spec_Kinematics Spec_Quadrature Spec_Panel Spec_Shell.
Import ListNotations.
Open Scope R_scope.

(* ------------------------------------------------- padding *)
Lemma add_size_spec size nc : nc <> 0%nat ->
  (size + add_size size nc = nc * size_core size nc)%nat /\
  length (cores (repeat 0 size) nc) = (size + add_size size nc)%nat.
Proof.
  intro Hnc. unfold size_core. pose proof (Nat.mod_upper_bound size nc Hnc) as Hm.
  pose proof (Nat.div_mod size nc Hnc) as Hd.
  assert (HA : (size + add_size size nc = nc * (if size mod nc =? 0 then size / nc else S (size / nc)))%nat).
  { unfold add_size. destruct (Nat.eqb_spec (size mod nc) 0) as [H0|H0].
    - rewrite H0, Nat.sub_0_r, Nat.eqb_refl. lia.
    - destruct (Nat.eqb_spec (nc - size mod nc) nc); nia. }
  split.
  - rewrite HA. rewrite Nat.mul_comm, Nat.div_mul by exact Hnc. lia.
  - unfold cores. rewrite repeat_length. destruct (Nat.eqb_spec (size mod nc) 0) as [H0|H0].
    + rewrite repeat_length. unfold add_size. rewrite H0, Nat.sub_0_r, Nat.eqb_refl. lia.
    + rewrite app_length, !repeat_length. lia.
Qed.

Lemma cores_nth xs nc q : (q < length xs)%nat -> nth q (cores xs nc) 0 = nth q xs 0.
Proof.
  intro Hq. unfold cores. destruct (_ =? 0)%nat; [reflexivity|]. apply app_nth1. exact Hq.
Qed.

Lemma core_at_nth xs nc q : nc <> 0%nat -> (q < length xs)%nat ->
  let sc := size_core (length xs) nc in core_at xs nc (q / sc) (q mod sc) = nth q xs 0.
Proof.
  cbv zeta. intros Hnc Hq. unfold core_at. destruct (add_size_spec (length xs) nc Hnc) as [Hs _].
  assert (Hsc : size_core (length xs) nc <> 0%nat) by nia.
  pose proof (Nat.div_mod q _ Hsc) as Hd. rewrite Nat.mul_comm, <- Hd. apply cores_nth. exact Hq.
Qed.

(* ------------------------------------------------- stores in any order *)
Definition key : Type := nat * nat * nat.
Definition keyb (k : key) (k' p' q' : nat) : bool := ((k' =? fst (fst k)) && (p' =? snd (fst k)) && (q' =? snd k))%nat%bool.
Lemma keyb_true k k' p' q' : keyb k k' p' q' = true <-> k = (k', p', q').
Proof.
  destruct k as [[a b] c]. unfold keyb. cbn. rewrite !andb_true_iff, !Nat.eqb_eq. split.
  - intros [[-> ->] ->]. reflexivity.
  - intro H. inversion H. auto.
Qed.

Lemma run_stores_value (val : nat -> nat -> nat -> R) l :
  (forall st, In st l -> snd st = val (fst (fst (fst st))) (snd (fst (fst st))) (snd (fst st))) ->
  forall k p q, run_stores l k p q = if existsb (fun st => keyb (fst st) k p q) l then val k p q else 0.
Proof.
  intros H k p q. unfold run_stores.
  assert (G : forall l mem, (forall st, In st l -> snd st = val (fst (fst (fst st))) (snd (fst (fst st))) (snd (fst st))) ->
    fold_left (fun mem (st : store) => let '(k, p, q, v) := (fst (fst (fst st)), snd (fst (fst st)), snd (fst st), snd st) in
    fun k' p' q' => if ((k' =? k) && (p' =? p) && (q' =? q))%nat%bool then v else mem k' p' q') l mem k p q =
    if existsb (fun st => keyb (fst st) k p q) l then val k p q else mem k p q).
  { clear. induction l as [|st l IH]; intros mem H; [reflexivity|].
    cbn [fold_left]. rewrite IH by (intros; apply H; right; assumption). cbn [existsb].
    change ((k =? fst (fst (fst st))) && (p =? snd (fst (fst st))) && (q =? snd (fst st)))%nat%bool with (keyb (fst st) k p q).
    match goal with |- (if ?b then _ else _) = _ => destruct b end; [rewrite orb_true_r; reflexivity|]. rewrite orb_false_r.
    cbv beta. unfold key, store in *. destruct (keyb (fst st) k p q) eqn:E; [|try rewrite E; reflexivity]. try rewrite E. apply keyb_true in E. rewrite (H st (or_introl eq_refl)), E. reflexivity. }
  apply G. exact H.
Qed.

Lemma existsb_perm {A} (f : A -> bool) l l' : Permutation l l' -> existsb f l = existsb f l'.
Proof.
  intro H. induction H; cbn; [reflexivity|rewrite IHPermutation; reflexivity| |congruence].
  destruct (f x), (f y); reflexivity.
Qed.

Definition store_value (fs : list (R -> R -> R)) xs ys nc (k p q : nat) : R :=
  nth k fs (fun _ _ => 0) (core_at xs nc p q) (core_at ys nc p q).

Lemma in_combine_seq {A} (l : list A) k x d : In (k, x) (combine (seq 0 (length l)) l) -> nth k l d = x /\ (k < length l)%nat.
Proof.
  intro H. assert (G : forall (l : list A) o, In (k, x) (combine (seq o (length l)) l) -> (o <= k < o + length l)%nat /\ nth (k - o) l d = x).
  { clear. induction l as [|y l IH]; intros o H; [contradiction|]. cbn in H. destruct H as [H|H].
    - inversion H; subst. rewrite Nat.sub_diag. cbn. split; [lia|reflexivity].
    - apply IH in H. destruct H as [H1 H2]. cbn [length]. split; [lia|].
      replace (k - o)%nat with (S (k - S o)) by lia. exact H2. }
  apply G in H. rewrite Nat.sub_0_r in H. split; [apply H|lia].
Qed.

Lemma all_stores_in fs xs ys nc st : In st (all_stores fs xs ys nc) ->
  snd st = store_value fs xs ys nc (fst (fst (fst st))) (snd (fst (fst st))) (snd (fst st)).
Proof.
  intro H. unfold all_stores in H. apply in_flat_map in H. destruct H as (p & _ & H).
  unfold chunk_stores in H. apply in_flat_map in H. destruct H as ((k & f) & Hk & H).
  apply in_map_iff in H. destruct H as (q & <- & _). cbn.
  apply (in_combine_seq fs k f (fun _ _ => 0)) in Hk. destruct Hk as [Hk _]. unfold store_value. rewrite Hk. reflexivity.
Qed.

Lemma combine_seq_in {A} (l : list A) k d : (k < length l)%nat -> In (k, nth k l d) (combine (seq 0 (length l)) l).
Proof.
  assert (G : forall (l : list A) o k, (k < length l)%nat -> In ((o + k)%nat, nth k l d) (combine (seq o (length l)) l)).
  { clear. induction l as [|y l IH]; intros o k Hk; [cbn in Hk; lia|]. destruct k as [|k].
    - left. rewrite Nat.add_0_r. reflexivity.
    - right. cbn [nth]. replace (o + S k)%nat with (S o + k)%nat by lia. apply IH. cbn in Hk. lia. }
  intro H. apply (G l 0%nat k H).
Qed.

Lemma all_stores_has fs xs ys nc k p q : (k < length fs)%nat -> (p < nc)%nat -> (q < size_core (length xs) nc)%nat ->
  existsb (fun st => keyb (fst st) k p q) (all_stores fs xs ys nc) = true.
Proof.
  intros Hk Hp Hq. apply existsb_exists.
  exists ((k, p, q), store_value fs xs ys nc k p q). split; [|cbn; apply keyb_true; reflexivity].
  unfold all_stores. apply in_flat_map. exists p. split; [apply in_seq; lia|].
  unfold chunk_stores. apply in_flat_map. exists (k, nth k fs (fun _ _ => 0)). split; [apply combine_seq_in; exact Hk|].
  apply in_map_iff. exists q. split; [reflexivity|apply in_seq; lia].
Qed.

(* ------------------------------------------------- ravel *)
Lemma seq_map_add n : forall o, seq o n = map (fun i => (o + i)%nat) (seq 0 n).
Proof.
  induction n as [|n IH]; intro o; [reflexivity|]. cbn [seq map]. rewrite Nat.add_0_r. f_equal.
  rewrite IH, (IH 1%nat), map_map. apply map_ext. intro; lia.
Qed.
Lemma flat_rows {A} (g : nat -> nat -> A) nc sc : sc <> 0%nat ->
  flat_map (fun p => map (g p) (seq 0 sc)) (seq 0 nc) = map (fun q => g (q / sc)%nat (q mod sc)%nat) (seq 0 (nc * sc)).
Proof.
  intro Hsc. induction nc as [|nc IH]; [reflexivity|].
  rewrite seq_S, flat_map_app, IH. replace (S nc * sc)%nat with (nc * sc + sc)%nat by lia.
  rewrite seq_app, map_app. f_equal. cbn [flat_map]. rewrite app_nil_r. rewrite (seq_map_add sc (0 + nc * sc)), map_map.
  apply map_ext_in. intros q Hq. apply in_seq in Hq.
  replace (0 + nc * sc + q)%nat with (q + nc * sc)%nat by lia.
  rewrite Nat.div_add, Nat.mod_add by exact Hsc. rewrite Nat.div_small, Nat.mod_small by lia. reflexivity.
Qed.
Lemma firstn_map_seq {A} (g : nat -> A) n N : (n <= N)%nat -> firstn n (map g (seq 0 N)) = map g (seq 0 n).
Proof.
  intro H. rewrite firstn_map. f_equal. replace N with (n + (N - n))%nat by lia. rewrite seq_app, firstn_app.
  rewrite seq_length, Nat.sub_diag. cbn [firstn]. rewrite app_nil_r. rewrite <- (seq_length n 0) at 1. apply firstn_all.
Qed.
Lemma map_nth_combine {A} (f : R -> R -> A) xs ys : length xs = length ys ->
  map (fun q => f (nth q xs 0) (nth q ys 0)) (seq 0 (length xs)) = map (fun xy => f (fst xy) (snd xy)) (combine xs ys).
Proof.
  revert ys; induction xs as [|x xs IH]; intros [|y ys] H; try discriminate; [reflexivity|].
  cbn [length seq map combine fst snd nth]. f_equal. rewrite <- IH by (injection H; auto).
  rewrite <- seq_shift, map_map. reflexivity.
Qed.

Definition point_values (f : R -> R -> R) (xs ys : list R) : list R := map (fun xy => f (fst xy) (snd xy)) (combine xs ys).

Theorem field_arrays_values sched fs xs ys nc : (forall l, Permutation (sched l) l) -> nc <> 0%nat -> length xs = length ys ->
  field_arrays sched fs xs ys nc = map (fun f => point_values f xs ys) fs.
Proof.
  intros Hsched Hnc Hlen. unfold field_arrays. set (mem := run_stores _).
  assert (Hmem : forall k p q, (k < length fs)%nat -> (p < nc)%nat -> (q < size_core (length xs) nc)%nat ->
     mem k p q = store_value fs xs ys nc k p q).
  { intros k p q Hk Hp Hq. unfold mem. rewrite (run_stores_value (store_value fs xs ys nc)).
    - rewrite (existsb_perm _ _ _ (Hsched _)), all_stores_has by assumption. reflexivity.
    - intros st Hst. apply all_stores_in. apply (Permutation_in _ (Hsched _) Hst). }
  destruct (add_size_spec (length xs) nc Hnc) as [Hs _].
  transitivity (map (fun k => point_values (nth k fs (fun _ _ => 0)) xs ys) (seq 0 (length fs))).
  - apply map_ext_in. intros k Hk. apply in_seq in Hk. unfold ravel.
    destruct (Nat.eq_dec (length xs) 0) as [H0|H0].
    + rewrite H0. cbn [firstn]. unfold point_values. destruct xs; [reflexivity|discriminate].
    + assert (Hsc : size_core (length xs) nc <> 0%nat) by nia.
      rewrite flat_rows by exact Hsc. rewrite firstn_map_seq by lia.
      unfold point_values. rewrite <- (map_nth_combine _ xs ys Hlen). apply map_ext_in. intros q Hq. apply in_seq in Hq.
      rewrite Hmem.
      * unfold store_value. rewrite core_at_nth by (assumption || lia). pose proof (core_at_nth ys nc q Hnc) as Hy. cbv zeta in Hy. rewrite <- Hlen in Hy. rewrite Hy by lia. reflexivity.
      * lia.
      * apply Nat.div_lt_upper_bound; [exact Hsc|]. nia.
      * apply Nat.mod_upper_bound. exact Hsc.
  - clear. assert (G : forall (l : list (R -> R -> R)) o, map (fun k => point_values (nth (k - o) l (fun _ _ => 0)) xs ys) (seq o (length l)) = map (fun f => point_values f xs ys) l).
    { induction l as [|f l IH]; intro o; [reflexivity|]. cbn [length seq map]. rewrite Nat.sub_diag. cbn [nth]. f_equal.
      rewrite <- (IH (S o)). apply map_ext_in. intros k Hk. apply in_seq in Hk. replace (k - o)%nat with (S (k - S o)) by lia. reflexivity. }
    rewrite <- (G fs 0%nat). apply map_ext. intro k. rewrite Nat.sub_0_r. reflexivity.
Qed.

(* ------------------------------------------------- values at a point *)
Lemma loop_sum_sumn s body : loop_sum s body =
  sumn (sh_n s) (fun j => sumn (sh_m s) (fun i => body i j (DOF * (j * sh_m s + i))%nat)).
Proof. unfold loop_sum. rewrite suml_seq0. apply sumn_ext; intros j _. apply suml_seq0. Qed.

Section At.
Variables (Bs : basis) (s : shell) (c : nat -> R).
Hypothesis Ha : sh_a s <> 0.
Hypothesis Hb : sh_b s <> 0.
Notation X x := (natural x (sh_a s)).
Notation Y y := (natural y (sh_b s)).

Lemma loop_scal k body : loop_sum s (fun i j col => k * body i j col) = k * loop_sum s body.
Proof. rewrite !loop_sum_sumn, <- sumn_scal. apply sumn_ext; intros j _. rewrite <- sumn_scal. reflexivity. Qed.
Lemma loop_plus f g : loop_sum s (fun i j col => f i j col + g i j col) = loop_sum s f + loop_sum s g.
Proof. rewrite !loop_sum_sumn, <- sumn_plus. apply sumn_ext; intros j _. rewrite <- sumn_plus. reflexivity. Qed.
Lemma loop_ext f g : (forall i j col, f i j col = g i j col) -> loop_sum s f = loop_sum s g.
Proof. intro H. rewrite !loop_sum_sumn. apply sumn_ext; intros j _. apply sumn_ext; intros i _. apply H. Qed.

Lemma loop_fld d p q x y : (d < 3)%nat ->
  loop_sum s (fun i j col => c (col + d)%nat * shape Bs p i (pt_xi s x) (xedge s d) * shape Bs q j (pt_eta s y) (yedge s d)) =
  fld Bs s c d p q (X x) (Y y).
Proof. intros _. rewrite loop_sum_sumn. reflexivity. Qed.

Lemma at_u x y : cfuvw_u Bs s c x y = d_u Bs s c (X x) (Y y).
Proof. apply (loop_fld 0 0 0). lia. Qed.
Lemma at_v x y : cfuvw_v Bs s c x y = d_v Bs s c (X x) (Y y).
Proof. apply (loop_fld 1 0 0). lia. Qed.
Lemma at_w x y : cfuvw_w Bs s c x y = d_w Bs s c (X x) (Y y).
Proof. apply (loop_fld 2 0 0). lia. Qed.
Lemma at_wx x y : cfwx Bs s c x y = d_wx Bs s c (X x) (Y y).
Proof.
  unfold cfwx, d_wx. rewrite <- (loop_fld 2 1 0) by lia. rewrite <- loop_scal. apply loop_ext. intros. cbn [shape xedge yedge]. ring.
Qed.
Lemma at_wy x y : cfwy Bs s c x y = d_wy Bs s c (X x) (Y y).
Proof.
  unfold cfwy, d_wy. rewrite <- (loop_fld 2 0 1) by lia. rewrite <- loop_scal. apply loop_ext. intros. cbn [shape xedge yedge]. ring.
Qed.
Lemma at_wxi x y : cs_wxi Bs s c x y = fld Bs s c 2 1 0 (X x) (Y y).
Proof. apply (loop_fld 2 1 0). lia. Qed.
Lemma at_weta x y : cs_weta Bs s c x y = fld Bs s c 2 0 1 (X x) (Y y).
Proof. apply (loop_fld 2 0 1). lia. Qed.

Definition field_curvature : R := if Req_EM_T (sh_r s) 0 then 0 else 1 / sh_r s.
Notation EPS NL := ((if NL then doubled_strain else lin_strain) field_curvature Bs s c).

Lemma strain_split (NL : bool) x y k : EPS NL (X x) (Y y) k =
  lin_strain field_curvature Bs s c (X x) (Y y) k + nl NL * match k with
   | 0%nat => d_wx Bs s c (X x) (Y y) * d_wx Bs s c (X x) (Y y) / 2
   | 1%nat => d_wy Bs s c (X x) (Y y) * d_wy Bs s c (X x) (Y y) / 2
   | 2%nat => 2 * d_wx Bs s c (X x) (Y y) * d_wy Bs s c (X x) (Y y)
   | _ => 0 end.
Proof.
  destruct NL; unfold nl; [|ring]. unfold doubled_strain, strain.
  destruct k as [|[|[|[|[|[|k]]]]]]; cbn [vk_strain]; field.
Qed.

Lemma at_exx NL x y : cfstrain_exx Bs s c NL x y = EPS NL (X x) (Y y) 0%nat.
Proof.
  rewrite strain_split. unfold cfstrain_exx. rewrite loop_plus. cbn [lin_strain]. unfold d_ux.
  rewrite <- (loop_fld 0 1 0) by lia. rewrite at_wxi.
  rewrite (loop_ext (fun i j col => nl NL * 2 / (sh_a s * sh_a s) * c (col + 2)%nat * bfp Bs i (pt_xi s x) (sh_xw s) *
     bf Bs j (pt_eta s y) (sh_yw s) * fld Bs s c 2 1 0 (X x) (Y y))
    (fun i j col => (nl NL * 2 / (sh_a s * sh_a s) * fld Bs s c 2 1 0 (X x) (Y y)) * (c (col + 2)%nat * bfp Bs i (pt_xi s x) (sh_xw s) *
     bf Bs j (pt_eta s y) (sh_yw s)))) by (intros; field; auto).
  rewrite loop_scal. change (loop_sum s (fun i j col => c (col + 2)%nat * bfp Bs i (pt_xi s x) (sh_xw s) * bf Bs j (pt_eta s y) (sh_yw s)))
    with (cs_wxi Bs s c x y). rewrite at_wxi. rewrite <- loop_scal.
  f_equal; [apply loop_ext; intros; cbn [shape xedge yedge]; ring|]. unfold d_wx. field; auto.
Qed.
Lemma at_eyy NL x y : cfstrain_eyy Bs s c NL x y = EPS NL (X x) (Y y) 1%nat.
Proof.
  rewrite strain_split. unfold cfstrain_eyy. cbn [lin_strain]. unfold d_vy, field_curvature, d_w.
  rewrite (loop_ext _ (fun i j col => (2 / sh_b s) * (c (col + 1)%nat * shape Bs 0 i (pt_xi s x) (xedge s 1) * shape Bs 1 j (pt_eta s y) (yedge s 1)) +
    ((if Req_EM_T (sh_r s) 0 then 0 else 1 / sh_r s) * (c (col + 2)%nat * shape Bs 0 i (pt_xi s x) (xedge s 2) * shape Bs 0 j (pt_eta s y) (yedge s 2)) +
     nl NL * 2 / (sh_b s * sh_b s) * cs_weta Bs s c x y * (c (col + 2)%nat * shape Bs 0 i (pt_xi s x) (xedge s 2) * shape Bs 1 j (pt_eta s y) (yedge s 2))))).
  2:{ intros. cbn [shape xedge yedge]. destruct (Req_EM_T (sh_r s) 0); field; auto. }
  rewrite !loop_plus, !loop_scal, !loop_fld by lia. rewrite at_weta. unfold d_wy. field; auto.
Qed.
Lemma at_gxy NL x y : cfstrain_gxy Bs s c NL x y = EPS NL (X x) (Y y) 2%nat.
Proof.
  rewrite strain_split. unfold cfstrain_gxy. cbn [lin_strain]. unfold d_uy, d_vx.
  rewrite (loop_ext _ (fun i j col => (2 / sh_b s) * (c (col + 0)%nat * shape Bs 0 i (pt_xi s x) (xedge s 0) * shape Bs 1 j (pt_eta s y) (yedge s 0)) +
    ((2 / sh_a s) * (c (col + 1)%nat * shape Bs 1 i (pt_xi s x) (xedge s 1) * shape Bs 0 j (pt_eta s y) (yedge s 1)) +
     (nl NL * 4 / (sh_a s * sh_b s) * cs_weta Bs s c x y * (c (col + 2)%nat * shape Bs 1 i (pt_xi s x) (xedge s 2) * shape Bs 0 j (pt_eta s y) (yedge s 2)) +
      nl NL * 4 / (sh_a s * sh_b s) * cs_wxi Bs s c x y * (c (col + 2)%nat * shape Bs 0 i (pt_xi s x) (xedge s 2) * shape Bs 1 j (pt_eta s y) (yedge s 2)))))).
  2:{ intros. cbn [shape xedge yedge]. field; auto. }
  rewrite !loop_plus, !loop_scal, !loop_fld by lia. rewrite at_weta, at_wxi. unfold d_wx, d_wy. field; auto.
Qed.
Lemma at_kxx x y : cfstrain_kxx Bs s c x y = lin_strain field_curvature Bs s c (X x) (Y y) 3%nat.
Proof.
  unfold cfstrain_kxx. cbn [lin_strain]. unfold d_wxx.
  rewrite (loop_ext _ (fun i j col => (- 4 / (sh_a s * sh_a s)) * (c (col + 2)%nat * shape Bs 2 i (pt_xi s x) (xedge s 2) * shape Bs 0 j (pt_eta s y) (yedge s 2)))).
  2:{ intros. cbn [shape xedge yedge]. field; auto. }
  rewrite loop_scal, loop_fld by lia. field; auto.
Qed.
Lemma at_kyy x y : cfstrain_kyy Bs s c x y = lin_strain field_curvature Bs s c (X x) (Y y) 4%nat.
Proof.
  unfold cfstrain_kyy. cbn [lin_strain]. unfold d_wyy.
  rewrite (loop_ext _ (fun i j col => (- 4 / (sh_b s * sh_b s)) * (c (col + 2)%nat * shape Bs 0 i (pt_xi s x) (xedge s 2) * shape Bs 2 j (pt_eta s y) (yedge s 2)))).
  2:{ intros. cbn [shape xedge yedge]. field; auto. }
  rewrite loop_scal, loop_fld by lia. field; auto.
Qed.
Lemma at_kxy x y : cfstrain_kxy Bs s c x y = lin_strain field_curvature Bs s c (X x) (Y y) 5%nat.
Proof.
  unfold cfstrain_kxy. cbn [lin_strain]. unfold d_wxy.
  rewrite (loop_ext _ (fun i j col => (- 8 / (sh_a s * sh_b s)) * (c (col + 2)%nat * shape Bs 1 i (pt_xi s x) (xedge s 2) * shape Bs 1 j (pt_eta s y) (yedge s 2)))).
  2:{ intros. cbn [shape xedge yedge]. field; auto. }
  rewrite loop_scal, loop_fld by lia. field; auto.
Qed.
End At.
