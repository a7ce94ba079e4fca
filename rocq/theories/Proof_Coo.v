From Coq Require Import Reals List Arith Bool Lia Lra.
From Verif Require Import Base_Sum Model_Coo Spec_Algebra.
Import ListNotations.
Open Scope R_scope.

(* position of r in the block starting at o with m terms along x, n along y *)
Definition inblk (o m n r : nat) : bool := ((o <=? r) && (r <? o + DOF * (n * m)))%nat%bool.
Definition ix (o m r : nat) : nat := (((r - o) / DOF) mod m)%nat.
Definition jx (o m r : nat) : nat := (((r - o) / DOF) / m)%nat.
Definition cx (o r : nat) : nat := ((r - o) mod DOF)%nat.

Definition wf_block (b : block) : Prop :=
  forall d e v, In (d, e, v) b -> (d < DOF)%nat /\ (e < DOF)%nat.

Lemma pos_iff o m n i j r : (i < m)%nat -> (j < n)%nat ->
  (dofpos o m i j <= r /\ r < dofpos o m i j + DOF)%nat <->
  (inblk o m n r = true /\ i = ix o m r /\ j = jx o m r).
Proof.
  intros Hi Hj. unfold dofpos, inblk, ix, jx, DOF.
  rewrite andb_true_iff, Nat.leb_le, Nat.ltb_lt. split.
  - intros [H1 H2].
    assert (Hq : ((r - o) / 3 = j * m + i)%nat).
    { symmetry. apply (Nat.div_unique _ 3 _ (r - (o + 3 * (j * m + i)))%nat); lia. }
    rewrite Hq. split; [split; [lia|]|].
    + assert (j * m + i < n * m)%nat by nia. lia.
    + split.
      * rewrite Nat.add_comm, Nat.mod_add, Nat.mod_small; lia.
      * rewrite Nat.add_comm, Nat.div_add, Nat.div_small; lia.
  - intros [[H1 H2] [-> ->]].
    assert (Hm : (m <> 0)%nat) by lia.
    set (q := ((r - o) / 3)%nat) in *.
    assert (Hq : (q / m * m + q mod m = q)%nat).
    { rewrite Nat.mul_comm. symmetry. apply Nat.div_mod. exact Hm. }
    rewrite Hq.
    assert (Hr : (r - o = 3 * q + (r - o) mod 3)%nat) by (apply Nat.div_mod; lia).
    assert ((r - o) mod 3 < 3)%nat by (apply Nat.mod_upper_bound; lia).
    lia.
Qed.

Lemma inblk_bounds o m n r : inblk o m n r = true ->
  (ix o m r < m)%nat /\ (jx o m r < n)%nat /\ (cx o r < DOF)%nat /\
  r = (dofpos o m (ix o m r) (jx o m r) + cx o r)%nat.
Proof.
  unfold inblk, ix, jx, cx, dofpos, DOF. rewrite andb_true_iff, Nat.leb_le, Nat.ltb_lt.
  intros [H1 H2].
  assert (Hm : (m <> 0)%nat) by (intro; subst; lia).
  set (q := ((r - o) / 3)%nat).
  assert (Hr : (r - o = 3 * q + (r - o) mod 3)%nat) by (apply Nat.div_mod; lia).
  assert (Hr3 : ((r - o) mod 3 < 3)%nat) by (apply Nat.mod_upper_bound; lia).
  assert (Hq : (q < n * m)%nat) by lia.
  assert (Hqq : (q = m * (q / m) + q mod m)%nat) by (apply Nat.div_mod; exact Hm).
  split; [apply Nat.mod_upper_bound; exact Hm|].
  split; [apply Nat.div_lt_upper_bound; lia|].
  split; [exact Hr3|]. lia.
Qed.

Lemma dofpos_in o m n i j d : (i < m)%nat -> (j < n)%nat -> (d < DOF)%nat ->
  inblk o m n (dofpos o m i j + d) = true /\
  ix o m (dofpos o m i j + d) = i /\ jx o m (dofpos o m i j + d) = j /\ cx o (dofpos o m i j + d) = d.
Proof.
  intros Hi Hj Hd.
  destruct (proj1 (pos_iff o m n i j (dofpos o m i j + d) Hi Hj)) as [H1 [H2 H3]]; [unfold DOF in *; lia|].
  split; [exact H1|]. split; [symmetry; exact H2|]. split; [symmetry; exact H3|].
  destruct (inblk_bounds _ _ _ _ H1) as (_ & _ & _ & H4).
  rewrite <- H2, <- H3 in H4. lia.
Qed.

(* ------------------------------------------------------- dense value of the loop nests *)
Lemma suml_emit skip row col b r s : wf_block b ->
  suml (emit skip row col b) (fun t => match t with (i, j, v) =>
     if ((i =? r) && (j =? s))%nat%bool then v else 0 end) =
  if (skip && (col <? row)%nat)%bool then 0 else
  if ((row <=? r) && (r <? row + DOF) && (col <=? s) && (s <? col + DOF))%nat%bool
  then loc b (r - row) (s - col) else 0.
Proof.
  intro Hb. unfold emit. destruct (skip && (col <? row)%nat)%bool; [reflexivity|].
  rewrite suml_map. unfold loc.
  destruct (((row <=? r) && (r <? row + DOF) && (col <=? s) && (s <? col + DOF))%nat%bool) eqn:E.
  - apply suml_ext. intros [[d e] v] Hin. destruct (Hb d e v Hin) as [Hd He].
    rewrite !andb_true_iff, !Nat.leb_le, !Nat.ltb_lt in E.
    destruct (Nat.eqb_spec (row + d) r); destruct (Nat.eqb_spec (col + e) s);
    destruct (Nat.eqb_spec d (r - row)); destruct (Nat.eqb_spec e (s - col)); try reflexivity; exfalso; lia.
  - apply suml_0. intros [[d e] v] Hin. destruct (Hb d e v Hin) as [Hd He].
    destruct (Nat.eqb_spec (row + d) r); destruct (Nat.eqb_spec (col + e) s); try reflexivity.
    exfalso. subst r s.
    rewrite !andb_false_iff, !Nat.leb_gt, !Nat.ltb_ge in E. unfold DOF in *. lia.
Qed.

Definition skipped (skip : bool) (row0 col0 mA mB i k j l : nat) : bool :=
  (skip && (dofpos col0 mB k l <? dofpos row0 mA i j)%nat)%bool.

Definition loop_value (skip : bool) (row0 col0 mA nA mB nB : nat)
    (ker : nat -> nat -> nat -> nat -> block) (r s : nat) : R :=
  if (inblk row0 mA nA r && inblk col0 mB nB s)%bool then
    if skipped skip row0 col0 mA mB (ix row0 mA r) (ix col0 mB s) (jx row0 mA r) (jx col0 mB s) then 0
    else loc (ker (ix row0 mA r) (ix col0 mB s) (jx row0 mA r) (jx col0 mB s)) (cx row0 r) (cx col0 s)
  else 0.

Lemma loop_sum skip row0 col0 mA nA mB nB ker r s :
  (forall i k j l, wf_block (ker i k j l)) ->
  sumn mA (fun i => sumn mB (fun k => sumn nA (fun j => sumn nB (fun l =>
    suml (emit skip (dofpos row0 mA i j) (dofpos col0 mB k l) (ker i k j l))
      (fun t => match t with (i0, j0, v) => if ((i0 =? r) && (j0 =? s))%nat%bool then v else 0 end)))))
  = loop_value skip row0 col0 mA nA mB nB ker r s.
Proof.
  intro Hwf. unfold loop_value.
  destruct (inblk row0 mA nA r && inblk col0 mB nB s)%bool eqn:E.
  - apply andb_true_iff in E. destruct E as [Er Es].
    destruct (inblk_bounds _ _ _ _ Er) as (Hi & Hj & Hc & Hr).
    destruct (inblk_bounds _ _ _ _ Es) as (Hi' & Hj' & Hc' & Hs).
    set (i0 := ix row0 mA r) in *. set (j0 := jx row0 mA r) in *. set (c0 := cx row0 r) in *.
    set (k0 := ix col0 mB s) in *. set (l0 := jx col0 mB s) in *. set (e0 := cx col0 s) in *.
    set (V := if skipped skip row0 col0 mA mB i0 k0 j0 l0 then 0 else loc (ker i0 k0 j0 l0) c0 e0).
    rewrite (sumn_ext mA _ (fun i => if (i =? i0)%nat then V else 0)).
    { rewrite sumn_single. destruct (Nat.ltb_spec i0 mA); [reflexivity|lia]. }
    intros i Him.
    rewrite (sumn_ext mB _ (fun k => if (k =? k0)%nat then (if (i =? i0)%nat then V else 0) else 0)).
    { rewrite sumn_single. destruct (Nat.ltb_spec k0 mB); [reflexivity|lia]. }
    intros k Hkm.
    rewrite (sumn_ext nA _ (fun j => if (j =? j0)%nat then (if (k =? k0)%nat then (if (i =? i0)%nat then V else 0) else 0) else 0)).
    { rewrite sumn_single. destruct (Nat.ltb_spec j0 nA); [reflexivity|lia]. }
    intros j Hjn.
    rewrite (sumn_ext nB _ (fun l => if (l =? l0)%nat then (if (j =? j0)%nat then (if (k =? k0)%nat then (if (i =? i0)%nat then V else 0) else 0) else 0) else 0)).
    { rewrite sumn_single. destruct (Nat.ltb_spec l0 nB); [reflexivity|lia]. }
    intros l Hln.
    rewrite suml_emit by apply Hwf.
    pose proof (pos_iff row0 mA nA i j r Him Hjn) as P1.
    pose proof (pos_iff col0 mB nB k l s Hkm Hln) as P2.
    fold i0 j0 in P1. fold k0 l0 in P2.
    destruct (Nat.eqb_spec l l0) as [El|El]; [|
      destruct (_ && _)%bool; [reflexivity|];
      destruct (_ && _)%bool eqn:E2; [|reflexivity];
      rewrite !andb_true_iff, !Nat.leb_le, !Nat.ltb_lt in E2;
      destruct (proj1 P2) as (_ & _ & ?); [lia|contradiction]].
    destruct (Nat.eqb_spec j j0) as [Ej|Ej]; [|
      destruct (_ && _)%bool; [reflexivity|];
      destruct (_ && _)%bool eqn:E2; [|reflexivity];
      rewrite !andb_true_iff, !Nat.leb_le, !Nat.ltb_lt in E2;
      destruct (proj1 P1) as (_ & _ & ?); [lia|contradiction]].
    destruct (Nat.eqb_spec k k0) as [Ek|Ek]; [|
      destruct (_ && _)%bool; [reflexivity|];
      destruct (_ && _)%bool eqn:E2; [|reflexivity];
      rewrite !andb_true_iff, !Nat.leb_le, !Nat.ltb_lt in E2;
      destruct (proj1 P2) as (_ & ? & _); [lia|contradiction]].
    destruct (Nat.eqb_spec i i0) as [Ei|Ei]; [|
      destruct (_ && _)%bool; [reflexivity|];
      destruct (_ && _)%bool eqn:E2; [|reflexivity];
      rewrite !andb_true_iff, !Nat.leb_le, !Nat.ltb_lt in E2;
      destruct (proj1 P1) as (_ & ? & _); [lia|contradiction]].
    subst i j k l. unfold V, skipped.
    destruct (_ && _)%bool; [reflexivity|].
    replace (r - dofpos row0 mA i0 j0)%nat with c0 by lia.
    replace (s - dofpos col0 mB k0 l0)%nat with e0 by lia.
    destruct (_ && _)%bool eqn:E2; [reflexivity|].
    exfalso. rewrite !andb_false_iff, !Nat.leb_gt, !Nat.ltb_ge in E2. lia.
  - assert (HE : ~ (inblk row0 mA nA r = true /\ inblk col0 mB nB s = true)).
    { intros [H1 H2]. rewrite H1, H2 in E. discriminate. }
    clear E.
    apply sumn_0; intros i Hi. apply sumn_0; intros k Hk.
    apply sumn_0; intros j Hj. apply sumn_0; intros l Hl.
    rewrite suml_emit by apply Hwf.
    destruct (_ && _)%bool; [reflexivity|].
    destruct (_ && _)%bool eqn:E2; [|reflexivity].
    rewrite !andb_true_iff, !Nat.leb_le, !Nat.ltb_lt in E2.
    destruct (proj1 (pos_iff row0 mA nA i j r Hi Hj)) as (Hr & _); [lia|].
    destruct (proj1 (pos_iff col0 mB nB k l s Hk Hl)) as (Hs & _); [lia|].
    exfalso. apply HE. split; assumption.
Qed.

Lemma dense_ikjl skip row0 col0 mA nA mB nB ker r s :
  (forall i k j l, wf_block (ker i k j l)) ->
  dense (loop_ikjl skip row0 col0 mA nA mB nB ker) r s =
  loop_value skip row0 col0 mA nA mB nB ker r s.
Proof.
  intro Hwf. rewrite <- loop_sum by exact Hwf. unfold dense, loop_ikjl.
  rewrite suml_flat_map, suml_seq0. apply sumn_ext; intros i _.
  rewrite suml_flat_map, suml_seq0. apply sumn_ext; intros k _.
  rewrite suml_flat_map, suml_seq0. apply sumn_ext; intros j _.
  rewrite suml_flat_map, suml_seq0. reflexivity.
Qed.

Lemma dense_jlik skip row0 col0 mA nA mB nB ker r s :
  (forall i k j l, wf_block (ker i k j l)) ->
  dense (loop_jlik skip row0 col0 mA nA mB nB ker) r s =
  loop_value skip row0 col0 mA nA mB nB ker r s.
Proof.
  intro Hwf. rewrite <- loop_sum by exact Hwf. unfold dense, loop_jlik.
  rewrite suml_flat_map, suml_seq0.
  rewrite (sumn_ext nA _ (fun j => sumn mA (fun i => sumn mB (fun k => sumn nB (fun l =>
    suml (emit skip (dofpos row0 mA i j) (dofpos col0 mB k l) (ker i k j l))
      (fun t => match t with (i0, j0, v) => if ((i0 =? r) && (j0 =? s))%nat%bool then v else 0 end)))))).
  - rewrite sumn_swap. apply sumn_ext; intros i _. rewrite sumn_swap. reflexivity.
  - intros j _. rewrite suml_flat_map, suml_seq0.
    rewrite (sumn_ext nB _ (fun l => sumn mA (fun i => sumn mB (fun k =>
      suml (emit skip (dofpos row0 mA i j) (dofpos col0 mB k l) (ker i k j l))
      (fun t => match t with (i0, j0, v) => if ((i0 =? r) && (j0 =? s))%nat%bool then v else 0 end))))).
    + rewrite sumn_swap. apply sumn_ext; intros i _. rewrite sumn_swap. reflexivity.
    + intros l _. rewrite suml_flat_map, suml_seq0. apply sumn_ext; intros i _.
      rewrite suml_flat_map, suml_seq0. reflexivity.
Qed.

(* ------------------------------------------------------- accumulation over points *)
Lemma add_values_length acc vs : length (add_values acc vs) = length acc.
Proof.
  revert vs; induction acc as [|x acc IH]; intros [|v vs]; cbn; auto.
Qed.

Lemma suml_combine_add (pos : list (nat * nat)) acc vs (g : nat * nat -> bool) :
  length acc = length pos -> length vs = length pos ->
  suml (combine pos (add_values acc vs)) (fun t => if g (fst t) then snd t else 0) =
  suml (combine pos acc) (fun t => if g (fst t) then snd t else 0) +
  suml (combine pos vs) (fun t => if g (fst t) then snd t else 0).
Proof.
  revert acc vs; induction pos as [|p pos IH]; intros [|x acc] [|v vs] H1 H2; cbn in *; try discriminate; try ring.
  rewrite IH by congruence. destruct (g p); ring.
Qed.

Lemma dense_alt M r s : dense M r s =
  suml M (fun t => if ((fst (fst t) =? r) && (snd (fst t) =? s))%nat%bool then snd t else 0).
Proof. apply suml_ext. intros [[i j] v] _. reflexivity. Qed.

Lemma combine_fst_snd {A B} (l : list (A * B)) : combine (map fst l) (map snd l) = l.
Proof. induction l as [|[x y] l IH]; cbn; congruence. Qed.

Lemma dense_accumulate {P} (pts : list P) (entries : P -> coo) r s :
  (forall p q, map fst (entries p) = map fst (entries q)) ->
  dense (accumulate pts entries) r s = suml pts (fun p => dense (entries p) r s).
Proof.
  intro Hpos. destruct pts as [|p0 pts0]; [reflexivity|].
  unfold accumulate. set (pos := map fst (entries p0)). remember (p0 :: pts0) as pts eqn:Ep. clear Ep pts0.
  rewrite dense_alt.
  set (g := fun q : nat * nat => ((fst q =? r) && (snd q =? s))%nat%bool).
  change (suml (combine pos (fold_left (fun acc p => add_values acc (map snd (entries p))) pts (map (fun _ => 0) pos)))
    (fun t => if g (fst t) then snd t else 0) = suml pts (fun p => dense (entries p) r s)).
  assert (H0 : suml (combine pos (map (fun _ => 0) pos)) (fun t => if g (fst t) then snd t else 0) = 0).
  { clear. induction pos as [|p pos IH]; cbn; [reflexivity|]. cbn in IH. rewrite IH. destruct (g p); ring. }
  assert (HG : forall acc, length acc = length pos ->
    suml (combine pos (fold_left (fun acc p => add_values acc (map snd (entries p))) pts acc))
      (fun t => if g (fst t) then snd t else 0) =
    suml (combine pos acc) (fun t => if g (fst t) then snd t else 0) + suml pts (fun p => dense (entries p) r s)).
  { clear H0. induction pts as [|p pts IH]; intros acc Hacc; cbn [fold_left suml]; [ring|].
    rewrite IH by (rewrite add_values_length; exact Hacc).
    rewrite suml_combine_add; [|exact Hacc|].
    - assert (E : suml (combine pos (map snd (entries p))) (fun t => if g (fst t) then snd t else 0) = dense (entries p) r s).
      { unfold pos. rewrite (Hpos p0 p), combine_fst_snd, dense_alt. reflexivity. }
      rewrite E. ring.
    - unfold pos. rewrite (Hpos p0 p), !map_length. reflexivity. }
  rewrite HG by (rewrite map_length; reflexivity). rewrite H0. ring.
Qed.

Lemma map_fst_emit skip row col b b' :
  map fst b = map fst b' -> map fst (emit skip row col b) = map fst (emit skip row col b').
Proof.
  intro H. unfold emit. destruct (_ && _)%bool; [reflexivity|].
  rewrite !map_map.
  transitivity (map (fun q : nat * nat => ((row + fst q)%nat, (col + snd q)%nat)) (map fst b)).
  - rewrite map_map. apply map_ext. intros [[d e] v]. reflexivity.
  - rewrite H, map_map. apply map_ext. intros [[d e] v]. reflexivity.
Qed.

Lemma map_flat_map {A B C} (f : B -> C) (g : A -> list B) l :
  map f (flat_map g l) = flat_map (fun x => map f (g x)) l.
Proof. induction l as [|x l IH]; cbn; [reflexivity|]. rewrite map_app, IH. reflexivity. Qed.

Lemma flat_map_eq {A B} (g h : A -> list B) l : (forall x, g x = h x) -> flat_map g l = flat_map h l.
Proof. intro H. induction l as [|x l IH]; cbn; [reflexivity|]. rewrite H, IH. reflexivity. Qed.

Lemma map_fst_ikjl skip row0 col0 mA nA mB nB ker ker' :
  (forall i k j l, map fst (ker i k j l) = map fst (ker' i k j l)) ->
  map fst (loop_ikjl skip row0 col0 mA nA mB nB ker) = map fst (loop_ikjl skip row0 col0 mA nA mB nB ker').
Proof.
  intro H. unfold loop_ikjl.
  repeat (rewrite !map_flat_map; apply flat_map_eq; intro).
  apply map_fst_emit, H.
Qed.

Lemma map_fst_jlik skip row0 col0 mA nA mB nB ker ker' :
  (forall i k j l, map fst (ker i k j l) = map fst (ker' i k j l)) ->
  map fst (loop_jlik skip row0 col0 mA nA mB nB ker) = map fst (loop_jlik skip row0 col0 mA nA mB nB ker').
Proof.
  intro H. unfold loop_jlik.
  repeat (rewrite !map_flat_map; apply flat_map_eq; intro).
  apply map_fst_emit, H.
Qed.

(* ------------------------------------------------------- full matrices *)
(* V i k j l d e : value for A=(i,j) component d, B=(k,l) component e *)
Definition fullmat (o m n : nat) (V : nat -> nat -> nat -> nat -> nat -> nat -> R) (r s : nat) : R :=
  if (inblk o m n r && inblk o m n s)%bool
  then V (ix o m r) (ix o m s) (jx o m r) (jx o m s) (cx o r) (cx o s) else 0.

Lemma finalize_full K o m n V :
  (forall i k j l d e, (d < DOF)%nat -> (e < DOF)%nat ->  V i k j l d e = V k i l j e d) ->
  (forall r s, K r s = if (inblk o m n r && inblk o m n s)%bool then
     if skipped true o o m m (ix o m r) (ix o m s) (jx o m r) (jx o m s) then 0
     else V (ix o m r) (ix o m s) (jx o m r) (jx o m s) (cx o r) (cx o s) else 0) ->
  forall r s, finalize_symmetric K r s = fullmat o m n V r s.
Proof.
  intros Hsym HK.
  assert (Hup : forall r s, (r <= s)%nat -> K r s = fullmat o m n V r s).
  { intros r s Hrs. rewrite HK. unfold fullmat.
    destruct (inblk o m n r && inblk o m n s)%bool eqn:E; [|reflexivity].
    apply andb_true_iff in E. destruct E as [Er Es].
    destruct (inblk_bounds _ _ _ _ Er) as (Hi & Hj & Hc & Hr).
    destruct (inblk_bounds _ _ _ _ Es) as (Hi' & Hj' & Hc' & Hs).
    unfold skipped. cbn [andb].
    destruct (Nat.ltb_spec (dofpos o m (ix o m s) (jx o m s)) (dofpos o m (ix o m r) (jx o m r))) as [Hlt|]; [|reflexivity].
    exfalso. unfold dofpos, DOF in *. lia. }
  intros r s. unfold finalize_symmetric. destruct (Nat.leb_spec r s) as [H|H].
  - apply Hup, H.
  - rewrite Hup by lia. unfold fullmat. rewrite andb_comm.
    destruct (inblk o m n r && inblk o m n s)%bool eqn:E; [|reflexivity].
    apply andb_true_iff in E. destruct E as [Er Es].
    destruct (inblk_bounds _ _ _ _ Er) as (_ & _ & Hc & _).
    destruct (inblk_bounds _ _ _ _ Es) as (_ & _ & Hc' & _).
    apply Hsym; assumption.
Qed.

(* sums over the degrees of freedom of a block *)
Definition dofsum (m n : nat) (g : nat -> nat -> nat -> R) : R :=
  sumn n (fun j => sumn m (fun i => sumn DOF (fun d => g i j d))).

Lemma sum_block o m n N g : (o + DOF * (n * m) <= N)%nat ->
  sumn N (fun r => if inblk o m n r then g r (ix o m r) (jx o m r) (cx o r) else 0) =
  dofsum m n (fun i j d => g (dofpos o m i j + d)%nat i j d).
Proof.
  intro HN. rewrite (sumn_window o (DOF * (n * m)) N) by
    (exact HN || (intros i Hi Ho; unfold inblk;
      destruct (Nat.leb_spec o i); destruct (Nat.ltb_spec i (o + DOF * (n * m))); try reflexivity; exfalso; lia)).
  unfold dofsum.
  rewrite (Nat.mul_comm DOF), <- sumn_flatten, <- sumn_flatten.
  apply sumn_ext; intros j Hj. apply sumn_ext; intros i Hi. apply sumn_ext; intros d Hd.
  replace (o + ((j * m + i) * DOF + d))%nat with (dofpos o m i j + d)%nat by (unfold dofpos; lia).
  destruct (dofpos_in o m n i j d Hi Hj Hd) as (E1 & E2 & E3 & E4).
  rewrite E1, E2, E3, E4. reflexivity.
Qed.

Lemma bilinear_full o m n V N c d : (o + DOF * (n * m) <= N)%nat ->
  bilinear N (fullmat o m n V) c d =
  dofsum m n (fun i j p => dofsum m n (fun k l q =>
    c (dofpos o m i j + p)%nat * V i k j l p q * d (dofpos o m k l + q)%nat)).
Proof.
  intro HN. unfold bilinear.
  rewrite <- (sum_block o m n N (fun r i j p => dofsum m n (fun k l q => c r * V i k j l p q * d (dofpos o m k l + q)%nat)) HN).
  apply sumn_ext; intros r Hr. destruct (inblk o m n r) eqn:Er.
  - rewrite <- (sum_block o m n N (fun s k l q => c r * V (ix o m r) k (jx o m r) l (cx o r) q * d s) HN).
    apply sumn_ext; intros s Hs. unfold fullmat. rewrite Er. cbn [andb].
    destruct (inblk o m n s); [reflexivity|ring].
  - apply sumn_0; intros s Hs. unfold fullmat. rewrite Er. cbn [andb]. ring.
Qed.

Lemma dofsum_ext m n f g :
  (forall i j d, (i < m)%nat -> (j < n)%nat -> (d < DOF)%nat -> f i j d = g i j d) -> dofsum m n f = dofsum m n g.
Proof.
  intro H. unfold dofsum. apply sumn_ext; intros j Hj. apply sumn_ext; intros i Hi.
  apply sumn_ext; intros d Hd. apply H; assumption.
Qed.

Lemma dofsum_scal m n c f : dofsum m n (fun i j d => c * f i j d) = c * dofsum m n f.
Proof.
  unfold dofsum. rewrite <- sumn_scal. apply sumn_ext; intros j _.
  rewrite <- sumn_scal. apply sumn_ext; intros i _. apply sumn_scal.
Qed.

Lemma dofsum_plus m n f g : dofsum m n (fun i j d => f i j d + g i j d) = dofsum m n f + dofsum m n g.
Proof.
  unfold dofsum. rewrite <- sumn_plus. apply sumn_ext; intros j _.
  rewrite <- sumn_plus. apply sumn_ext; intros i _. apply sumn_plus.
Qed.

Lemma dofsum_sumn m n q f : dofsum m n (fun i j d => sumn q (fun a => f a i j d)) = sumn q (fun a => dofsum m n (f a)).
Proof.
  unfold dofsum.
  rewrite (sumn_swap q n (fun a j => sumn m (fun i => sumn DOF (fun d => f a i j d)))).
  apply sumn_ext; intros j _.
  rewrite (sumn_swap q m (fun a i => sumn DOF (fun d => f a i j d))).
  apply sumn_ext; intros i _. apply sumn_swap.
Qed.

Lemma dofsum_suml {A} m n (l : list A) f : dofsum m n (fun i j d => suml l (fun a => f a i j d)) = suml l (fun a => dofsum m n (f a)).
Proof.
  unfold dofsum. rewrite suml_sumn_swap. apply sumn_ext; intros j _.
  rewrite suml_sumn_swap. apply sumn_ext; intros i _. rewrite suml_sumn_swap. reflexivity.
Qed.

Lemma dofsum_0 m n f : (forall i j d, (i < m)%nat -> (j < n)%nat -> (d < DOF)%nat -> f i j d = 0) -> dofsum m n f = 0.
Proof.
  intro H. unfold dofsum. apply sumn_0; intros j Hj. apply sumn_0; intros i Hi.
  apply sumn_0; intros d Hd. apply H; assumption.
Qed.

(* the three components spelled out *)
Lemma dofsum_3 m n g : dofsum m n g =
  sumn n (fun j => sumn m (fun i => g i j 0%nat + g i j 1%nat + g i j 2%nat)).
Proof.
  unfold dofsum. apply sumn_ext; intros j _. apply sumn_ext; intros i _.
  unfold DOF. cbn [sumn]. ring.
Qed.

(* Gram matrices: V = sum over points of weight * sum_{a,b<q} M a b * S a (A) * S b (B) *)
Definition cfield (o m n : nat) (c : nat -> R) (S : nat -> nat -> nat -> R) : R :=
  dofsum m n (fun i j d => c (dofpos o m i j + d)%nat * S i j d).

Lemma gram_bilinear_dofsum {P} (pts : list P) (w : P -> R) q
   (M : P -> nat -> nat -> R) (S : P -> nat -> nat -> nat -> nat -> R) oA mA nA oB mB nB c d :
  dofsum mA nA (fun i j p => dofsum mB nB (fun k l e =>
    c (dofpos oA mA i j + p)%nat *
    suml pts (fun x => w x * sumn q (fun a => sumn q (fun b => M x a b * S x a i j p * S x b k l e))) *
    d (dofpos oB mB k l + e)%nat)) =
  suml pts (fun x => w x * form q (M x) (fun a => cfield oA mA nA c (S x a)) (fun b => cfield oB mB nB d (S x b))).
Proof.
  transitivity (dofsum mA nA (fun i j p => dofsum mB nB (fun k l e =>
    suml pts (fun x => w x * sumn q (fun a => sumn q (fun b =>
       M x a b * (c (dofpos oA mA i j + p)%nat * S x a i j p) * (d (dofpos oB mB k l + e)%nat * S x b k l e))))))).
  { apply dofsum_ext; intros i j p _ _ _. apply dofsum_ext; intros k l e _ _ _.
    rewrite <- suml_scal, <- suml_scal_r. apply suml_ext; intros x _.
    rewrite (Rmult_comm (c _)), !Rmult_assoc. f_equal.
    rewrite (Rmult_comm (c _)), <- !sumn_scal_r. apply sumn_ext; intros a _.
    rewrite <- !sumn_scal_r. apply sumn_ext; intros b _. ring. }
  transitivity (dofsum mA nA (fun i j p => suml pts (fun x => dofsum mB nB (fun k l e =>
     w x * sumn q (fun a => sumn q (fun b =>
       M x a b * (c (dofpos oA mA i j + p)%nat * S x a i j p) * (d (dofpos oB mB k l + e)%nat * S x b k l e))))))).
  { apply dofsum_ext; intros. apply dofsum_suml. }
  rewrite dofsum_suml. apply suml_ext; intros x _.
  transitivity (dofsum mA nA (fun i j p => w x * sumn q (fun a => sumn q (fun b =>
      M x a b * (c (dofpos oA mA i j + p)%nat * S x a i j p) * cfield oB mB nB d (S x b))))).
  { apply dofsum_ext; intros i j p _ _ _. rewrite dofsum_scal. f_equal.
    rewrite dofsum_sumn. apply sumn_ext; intros a _. rewrite dofsum_sumn. apply sumn_ext; intros b _.
    rewrite dofsum_scal. reflexivity. }
  rewrite dofsum_scal. f_equal. rewrite dofsum_sumn. unfold form. apply sumn_ext; intros a _.
  rewrite dofsum_sumn. apply sumn_ext; intros b _.
  rewrite (dofsum_ext mA nA _ (fun i j p => (M x a b * cfield oB mB nB d (S x b)) * (c (dofpos oA mA i j + p)%nat * S x a i j p))).
  - rewrite dofsum_scal. unfold cfield. ring.
  - intros; ring.
Qed.

Theorem gram_bilinear {P} (pts : list P) (w : P -> R) q M (S : P -> nat -> nat -> nat -> nat -> R) o m n N V c d :
  (o + DOF * (n * m) <= N)%nat ->
  (forall i k j l p e, (i < m)%nat -> (k < m)%nat -> (j < n)%nat -> (l < n)%nat -> (p < DOF)%nat -> (e < DOF)%nat ->
     V i k j l p e = suml pts (fun x => w x * sumn q (fun a => sumn q (fun b => M x a b * S x a i j p * S x b k l e)))) ->
  bilinear N (fullmat o m n V) c d =
  suml pts (fun x => w x * form q (M x) (fun a => cfield o m n c (S x a)) (fun b => cfield o m n d (S x b))).
Proof.
  intros HN HV. rewrite bilinear_full by exact HN.
  rewrite <- gram_bilinear_dofsum.
  apply dofsum_ext; intros i j p Hi Hj Hp. apply dofsum_ext; intros k l e Hk Hl He.
  rewrite HV by assumption. reflexivity.
Qed.
