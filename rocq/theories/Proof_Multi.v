(* Assemblies: slices, block-diagonal matrices, vectors. *)
From Coq Require Import Reals List Arith Bool Lia Lra FunctionalExtensionality.
From Verif Require Import Base_Sum Model_Types Model_Coo Model_Result Model_Num Model_DB Model_Shell Model_Fext Model_Field Model_Multi Spec_Multi Spec_Panel Spec_Shell
  Proof_Shell Proof_Api Proof_Total Proof_Place.
Import ListNotations.
Open Scope R_scope.

(* ------------------------------------------------- slices *)
Lemma width_ndof x : width x = ndof (pn_sh (xp x)).
Proof. unfold width, ndof. symmetry. apply Nat.mul_assoc. Qed.
Lemma put_same {A} (h : nat -> A) i x : put h i x i = x.
Proof. unfold put. rewrite Nat.eqb_refl. reflexivity. Qed.
Lemma put_other {A} (h : nat -> A) i x k : k <> i -> put h i x k = h k.
Proof. intro H. unfold put. rewrite (proj2 (Nat.eqb_neq k i) H). reflexivity. Qed.

Lemma set_spans_frame ids : forall o w,
  w_conn (set_spans ids o w) = w_conn w /\
  (forall k, xp (w_panel (set_spans ids o w) k) = xp (w_panel w k) /\ xp_group (w_panel (set_spans ids o w) k) = xp_group (w_panel w k) /\
             xp_loads (w_panel (set_spans ids o w) k) = xp_loads (w_panel w k)) /\
  (forall k, ~ In k ids -> w_panel (set_spans ids o w) k = w_panel w k).
Proof.
  induction ids as [|i ids IH]; intros o w; cbn [set_spans]; [repeat split|].
  specialize (IH (o + width (w_panel w i))%nat (put_panel w i (with_span (w_panel w i) o (o + width (w_panel w i))))).
  destruct IH as (H1 & H2 & H3). split; [exact H1|]. split.
  - intro k. destruct (H2 k) as (A & B & C). rewrite A, B, C. unfold put_panel; cbn [w_panel].
    destruct (Nat.eq_dec k i) as [->|Hk]; [rewrite put_same|rewrite put_other by exact Hk]; repeat split.
  - intros k Hk. rewrite H3 by (intro; apply Hk; right; assumption). unfold put_panel; cbn [w_panel]. apply put_other. intros ->. apply Hk. left. reflexivity.
Qed.
Lemma laid_ext h h' ids : forall o, (forall k, In k ids -> xp_start (h' k) = xp_start (h k) /\ xp_end (h' k) = xp_end (h k) /\ width (h' k) = width (h k)) ->
  laid_out h ids o -> laid_out h' ids o.
Proof.
  induction ids as [|i ids IH]; intros o H L; [exact I|]. cbn [laid_out] in *. destruct L as (L1 & L2 & L3).
  destruct (H i (or_introl eq_refl)) as (A & B & C). rewrite A, B, C. split; [exact L1|]. split; [exact L2|].
  apply IH; [intros; apply H; right; assumption|exact L3].
Qed.
Lemma width_frame ids o w k : width (w_panel (set_spans ids o w) k) = width (w_panel w k).
Proof. destruct (set_spans_frame ids o w) as (_ & H & _). unfold width. destruct (H k) as (-> & _). reflexivity. Qed.
Lemma set_spans_laid ids : forall o w, NoDup ids -> laid_out (w_panel (set_spans ids o w)) ids o.
Proof.
  induction ids as [|i ids IH]; intros o w ND; [exact I|]. cbn [set_spans laid_out].
  apply NoDup_cons_iff in ND. destruct ND as [Ni ND].
  set (w1 := put_panel w i _). destruct (set_spans_frame ids (o + width (w_panel w i)) w1) as (_ & _ & H3).
  assert (E1 : w_panel w1 i = with_span (w_panel w i) o (o + width (w_panel w i))) by (unfold w1, put_panel; cbn; apply put_same).
  rewrite (H3 i Ni), E1. cbn [with_span xp_start xp_end]. change (width (with_span (w_panel w i) o (o + width (w_panel w i)))) with (width (w_panel w i)).
  split; [reflexivity|]. split; [reflexivity|]. apply IH; exact ND.
Qed.
Lemma total_ext h h' ids : (forall k, width (h' k) = width (h k)) -> total_width h' ids = total_width h ids.
Proof. intro H. unfold total_width. f_equal. apply map_ext. exact H. Qed.
Lemma asm_size_total w s : asm_size w s = (w, s, Ok (total_width (w_panel w) (as_panels s))).
Proof. unfold asm_size, total_width.
  assert (H : forall l, fold_right (fun i n => (width (w_panel w i) + n)%nat) 0%nat l = list_sum (map (fun i => width (w_panel w i)) l)).
  { induction l as [|i l IH]; [reflexivity|]. cbn [fold_right map list_sum]. rewrite IH. reflexivity. }
  rewrite H. reflexivity.
Qed.
Lemma laid_bound h ids : forall o i, laid_out h ids o -> In i ids -> exists a, xp_start (h i) = Some a /\ xp_end (h i) = Some (a + width (h i))%nat /\ (o <= a)%nat /\ (a + width (h i) <= o + total_width h ids)%nat.
Proof.
  induction ids as [|j ids IH]; intros o i L Hi; [contradiction|]. cbn [laid_out] in L. destruct L as (L1 & L2 & L3).
  unfold total_width. cbn [map list_sum fold_right]. fold (list_sum (map (fun i => width (h i)) ids)). fold (total_width h ids).
  destruct Hi as [->|Hi].
  - exists o. repeat split; try assumption; lia.
  - destruct (IH _ _ L3 Hi) as (a & A1 & A2 & A3 & A4). exists a. repeat split; try assumption; lia.
Qed.
(* different panels have disjoint slices, in the order of the list *)
Lemma laid_order h l1 l2 i : forall o, laid_out h (l1 ++ i :: l2) o -> xp_start (h i) = Some (o + total_width h l1)%nat.
Proof.
  induction l1 as [|j l1 IH]; intros o L; cbn [app laid_out] in L.
  - destruct L as (L1 & _). unfold total_width. cbn. rewrite Nat.add_0_r. exact L1.
  - destruct L as (_ & _ & L). rewrite (IH _ L). unfold total_width. cbn [map list_sum fold_right]. f_equal. fold (list_sum (map (fun i => width (h i)) l1)). lia.
Qed.

(* ------------------------------------------------- sums over the panels *)
Definition moved (o : nat) (M : matrix) : matrix := fun r t => if ((o <=? r) && (o <=? t))%nat%bool then M (r - o)%nat (t - o)%nat else 0.
Lemma moved_block o n M bs r t : at_block o n M r t + moved (o + n) (block_diag bs) r t = moved o (block_diag ((n, M) :: bs)) r t.
Proof.
  unfold at_block, moved. cbn [block_diag].
  destruct (o <=? r)%nat eqn:A; destruct (o <=? t)%nat eqn:B; cbn [andb]; rewrite ?andb_false_r; cbn [andb];
    repeat match goal with H : (_ <=? _)%nat = true |- _ => apply Nat.leb_le in H | H : (_ <=? _)%nat = false |- _ => apply Nat.leb_gt in H end.
  - replace (r <? o + n)%nat with (r - o <? n)%nat by (destruct (r - o <? n)%nat eqn:C; symmetry; [apply Nat.ltb_lt in C; apply Nat.ltb_lt|apply Nat.ltb_ge in C; apply Nat.ltb_ge]; lia).
    replace (t <? o + n)%nat with (t - o <? n)%nat by (destruct (t - o <? n)%nat eqn:C; symmetry; [apply Nat.ltb_lt in C; apply Nat.ltb_lt|apply Nat.ltb_ge in C; apply Nat.ltb_ge]; lia).
    replace (o + n <=? r)%nat with (n <=? r - o)%nat by (destruct (n <=? r - o)%nat eqn:C; symmetry; [apply Nat.leb_le in C; apply Nat.leb_le|apply Nat.leb_gt in C; apply Nat.leb_gt]; lia).
    replace (o + n <=? t)%nat with (n <=? t - o)%nat by (destruct (n <=? t - o)%nat eqn:C; symmetry; [apply Nat.leb_le in C; apply Nat.leb_le|apply Nat.leb_gt in C; apply Nat.leb_gt]; lia).
    destruct (r - o <? n)%nat eqn:C; destruct (t - o <? n)%nat eqn:D; cbn [andb].
    + apply Nat.ltb_lt in C. replace (n <=? r - o)%nat with false by (symmetry; apply Nat.leb_gt; lia). cbn [andb]. lra.
    + apply Nat.ltb_lt in C. replace (n <=? r - o)%nat with false by (symmetry; apply Nat.leb_gt; lia). cbn [andb]. lra.
    + apply Nat.ltb_lt in D. replace (n <=? t - o)%nat with false by (symmetry; apply Nat.leb_gt; lia). rewrite andb_false_r. lra.
    + rewrite Nat.sub_add_distr, Nat.sub_add_distr. lra.
  - replace (o + n <=? t)%nat with false by (symmetry; apply Nat.leb_gt; lia). rewrite andb_false_r. lra.
  - replace (o + n <=? r)%nat with false by (symmetry; apply Nat.leb_gt; lia). cbn [andb]. lra.
  - replace (o + n <=? r)%nat with false by (symmetry; apply Nat.leb_gt; lia). cbn [andb]. lra.
Qed.
Lemma moved_0 M : moved 0 M = M.
Proof. extensionality r. extensionality t. unfold moved. cbn [Nat.leb andb]. rewrite !Nat.sub_0_r. reflexivity. Qed.

Definition oval (a : option matrix) (r t : nat) : R := match a with None => 0 | Some K => K r t end.
Definition blocks (h : nat -> xpanel) (ids : list nat) (Ks : list matrix) : list (nat * matrix) := combine (map (fun i => width (h i)) ids) Ks.

(* only the Shell objects in ids changed, each by the call *)
Record touched {A} (call : nat -> nat -> method A) (ids : list nat) (w w' : world) : Prop := {
  tc_conn : w_conn w' = w_conn w;
  tc_out : forall k, ~ In k ids -> w_panel w' k = w_panel w k;
  tc_in : forall k, In k ids -> exists o p' a, xp_start (w_panel w k) = Some o /\ call k o (xp (w_panel w k)) = (p', Ok a) /\
             w_panel w' k = with_panel (w_panel w k) p' }.
Lemma put_panel_at w i x : w_panel (put_panel w i x) i = x.
Proof. unfold put_panel. cbn. apply put_same. Qed.
Lemma put_panel_else w i x k : k <> i -> w_panel (put_panel w i x) k = w_panel w k.
Proof. intro H. unfold put_panel. cbn. apply put_other. exact H. Qed.
Lemma touched_cons {A} (call : nat -> nat -> method A) i ids w o p' a w' : ~ In i ids -> xp_start (w_panel w i) = Some o ->
  call i o (xp (w_panel w i)) = (p', Ok a) -> touched call ids (put_panel w i (with_panel (w_panel w i) p')) w' -> touched call (i :: ids) w w'.
Proof.
  intros Ni Hs Hc [T1 T2 T3]. constructor.
  - rewrite T1. reflexivity.
  - intros k Hk. rewrite T2 by (intro; apply Hk; right; assumption). apply put_panel_else. intros ->. apply Hk. left. reflexivity.
  - intros k [<-|Hk].
    + exists o, p', a. rewrite T2 by exact Ni. rewrite put_panel_at. repeat split; assumption.
    + assert (k <> i) by (intros ->; contradiction). destruct (T3 k Hk) as (o1 & p1 & a1 & B1 & B2 & B3).
      rewrite put_panel_else in B1, B2, B3 by assumption. exists o1, p1, a1. repeat split; assumption.
Qed.

Lemma sum_panels_blocks call ids : forall o w s acc Ks, NoDup ids -> laid_out (w_panel w) ids o ->
  Forall2 (fun i K0 => forall a, xp_start (w_panel w i) = Some a ->
     exists p', call a (xp (w_panel w i)) = (p', Ok (at_block a (width (w_panel w i)) K0))) ids Ks ->
  exists w' acc', sum_panels call ids acc w s = (w', s, Ok acc') /\ touched (fun _ => call) ids w w' /\ (acc' = None -> ids = [] /\ acc = None) /\
    forall r t, oval acc' r t = oval acc r t + moved o (block_diag (blocks (w_panel w) ids Ks)) r t.
Proof.
  induction ids as [|i ids IH]; intros o w s acc Ks ND L HF.
  - exists w, acc. split; [reflexivity|]. split; [constructor; [reflexivity|reflexivity|intros k []]|]. split; [auto|]. intros r t. unfold moved. cbn. destruct (_ && _)%bool; lra.
  - inversion HF as [|? K0 ? Ks' HK HF']; subst. apply NoDup_cons_iff in ND. destruct ND as [Ni ND].
    cbn [laid_out] in L. destruct L as (L1 & L2 & L3). destruct (HK _ L1) as [p' Hp].
    set (w1 := put_panel w i (with_panel (w_panel w i) p')).
    assert (Hoth : forall k, In k ids -> w_panel w1 k = w_panel w k) by (intros k Hk; apply put_panel_else; intros ->; contradiction).
    destruct (IH (o + width (w_panel w i))%nat w1 s (oadd acc (at_block o (width (w_panel w i)) K0)) Ks' ND) as (w' & acc' & H1 & H2 & H3 & H4).
    + apply (laid_ext (w_panel w)); [|exact L3]. intros k Hk. rewrite Hoth by exact Hk. auto.
    + clear - HF' Hoth. revert Hoth. induction HF' as [|k K ids Ks HK HF IH]; intro Hoth; constructor; [|apply IH; intros; apply Hoth; right; assumption].
      rewrite Hoth by (left; reflexivity). exact HK.
    + exists w', acc'. split.
      * cbn [sum_panels]. unfold abind at 1, aworld at 1. rewrite L1. unfold abind at 1, on_panel at 1. rewrite Hp. exact H1.
      * split; [apply (touched_cons _ _ _ _ o p' (at_block o (width (w_panel w i)) K0)); assumption|]. split.
        { intro HN. destruct (H3 HN) as [_ HH]. discriminate HH. }
        intros r t. rewrite H4.
        replace (block_diag (blocks (w_panel w1) ids Ks')) with (block_diag (blocks (w_panel w) ids Ks')).
        2:{ unfold blocks. do 2 f_equal. apply map_ext_in. intros k Hk. rewrite Hoth by exact Hk. reflexivity. }
        unfold blocks at 2. cbn [map combine]. fold (blocks (w_panel w) ids Ks'). rewrite <- moved_block.
        unfold oadd. destruct acc; cbn [oval]; lra.
Qed.
Lemma finalize_add K L : finalize_symmetric (fun r t => K r t + L r t) = fun r t => finalize_symmetric K r t + finalize_symmetric L r t.
Proof. extensionality r. extensionality t. unfold finalize_symmetric. destruct (r <=? t)%nat; reflexivity. Qed.
Lemma finalize_block_diag bs : finalize_symmetric (block_diag bs) = block_diag (map (fun b => (fst b, finalize_symmetric (snd b))) bs).
Proof.
  extensionality r. extensionality t. unfold finalize_symmetric at 1. revert r t.
  induction bs as [|[n M] bs IH]; intros r t; cbn [block_diag map fst snd]; [destruct (r <=? t)%nat; reflexivity|].
  rewrite <- IH. unfold finalize_symmetric at 1.
  destruct (r <=? t)%nat eqn:A.
  - destruct ((r <? n) && (t <? n))%nat%bool; [reflexivity|]. destruct ((n <=? r) && (n <=? t))%nat%bool eqn:B; [|reflexivity].
    apply andb_true_iff in B. destruct B as [B1 B2]. apply Nat.leb_le in A, B1, B2. replace (r - n <=? t - n)%nat with true by (symmetry; apply Nat.leb_le; lia). reflexivity.
  - rewrite (andb_comm (t <? n)%nat), (andb_comm (n <=? t)%nat).
    destruct ((r <? n) && (t <? n))%nat%bool; [reflexivity|]. destruct ((n <=? r) && (n <=? t))%nat%bool eqn:B; [|reflexivity].
    apply andb_true_iff in B. destruct B as [B1 B2]. apply Nat.leb_gt in A. apply Nat.leb_le in B1, B2. replace (r - n <=? t - n)%nat with false by (symmetry; apply Nat.leb_gt; lia). reflexivity.
Qed.

(* ------------------------------------------------- matrices of the assembly *)
Lemma kC_result_fin E p size o c NL : kC_result E p size o true c NL = rmap finalize_symmetric (kC_result E p size o false c NL).
Proof.
  unfold kC_result. destruct (pn_N_cte p) as [[? ?] ?].
  destruct (match c with None => Ok None | Some c => rbind (check_c c size) (fun l => Ok (Some l)) end) as [cl|]; cbn [rbind]; [|reflexivity].
  match goal with |- rbind ?x _ = rmap _ (rbind ?x _) => destruct x as [kC|]; cbn [rbind]; [|reflexivity] end.
  match goal with |- rbind ?x _ = rmap _ (rbind ?x _) => destruct x as [K|]; cbn [rbind]; reflexivity end.
Qed.
Lemma kG_result_fin E p size o c NL : kG_result E p size o true c NL = rmap finalize_symmetric (kG_result E p size o false c NL).
Proof.
  unfold kG_result. destruct (pn_N p) as [[? ?] ?].
  match goal with |- rbind ?x _ = rmap _ (rbind ?x _) => destruct x as [cl|]; cbn [rbind]; [|reflexivity] end.
  match goal with |- rbind ?x _ = rmap _ (rbind ?x _) => destruct x as [K|]; cbn [rbind]; reflexivity end.
Qed.
Lemma kM_result_fin E p size o : kM_result E p size o true = rmap finalize_symmetric (kM_result E p size o false).
Proof. unfold kM_result. destruct (to_shape _ _); reflexivity. Qed.
Lemma kC_solo E p p' n fin c K : calc_kC E (mkKargs SNone 0 0 fin c None None None None false) p = (p', Ok K) -> n = ndof (pn_sh p) ->
  kC_result E p n 0 fin c false = Ok K /\ exists p1, rebuild E p = (p1, Ok tt).
Proof.
  intros H ->. assert (HR : exists p1, rebuild E p = (p1, Ok tt)).
  { unfold calc_kC in H. unfold mbind at 1 in H. destruct (rebuild E p) as [p1 [[]|]]; [eauto|discriminate]. }
  split; [|exact HR]. destruct HR as [p1 ER].
  pose proof (calc_kC_result E SNone 0 fin c false p p1 ER) as HH. rewrite size_none in HH. rewrite <- HH, H. reflexivity.
Qed.
Lemma kG_solo E p p' n fin c K : calc_kG E (mkKargs SNone 0 0 fin c None None None None false) p = (p', Ok K) -> n = ndof (pn_sh p) ->
  kG_result E p n 0 fin c false = Ok K /\ exists p1, rebuild E p = (p1, Ok tt).
Proof.
  intros H ->. assert (HR : exists p1, rebuild E p = (p1, Ok tt)).
  { unfold calc_kG in H. unfold mbind at 1 in H. destruct (rebuild E p) as [p1 [[]|]]; [eauto|discriminate]. }
  split; [|exact HR]. destruct HR as [p1 ER].
  pose proof (calc_kG_result E SNone 0 fin c false p p1 ER) as HH. rewrite size_none in HH. rewrite <- HH, H. reflexivity.
Qed.
Lemma snd_pair {A B} (x : A * B) b : snd x = b -> exists a, x = (a, b).
Proof. intro H. exists (fst x). destruct x; cbn in *; congruence. Qed.
Lemma forall2_impl {A B} (P Q : A -> B -> Prop) l m : (forall x y, In x l -> P x y -> Q x y) -> Forall2 P l m -> Forall2 Q l m.
Proof. intros H HF. induction HF; constructor; [apply H; [left; reflexivity|assumption]|]. apply IHHF. intros; apply H; [right|]; assumption. Qed.
Lemma forall2_ex {A B C} (P : A -> C -> Prop) (R : C -> B -> Prop) l m : Forall2 (fun x y => exists z, P x z /\ R z y) l m -> exists n, Forall2 P l n /\ Forall2 R n m.
Proof.
  induction 1 as [|x y l m (z & H1 & H2) _ (n & H3 & H4)]; [exists []; split; constructor|]. exists (z :: n). split; constructor; assumption.
Qed.
Lemma combine_map_snd {A B C} (f : B -> C) (l : list A) (m : list B) : combine l (map f m) = map (fun b => (fst b, f (snd b))) (combine l m).
Proof. revert m; induction l as [|x l IH]; intros [|y m]; cbn; try reflexivity. rewrite IH. reflexivity. Qed.
Definition fin_if (fin : bool) (K : matrix) : matrix := if fin then finalize_symmetric K else K.
Lemma forall2_map_eq {A B} (f : A -> B) l m : Forall2 (fun x y => y = f x) l m -> m = map f l.
Proof. induction 1 as [|x y l m -> _ ->]; reflexivity. Qed.

Section Sums.
Variables (E : env) (w : world) (s : assembly).
Hypothesis HA : assembled w s.
Notation ids := (as_panels s). Notation h := (w_panel w). Notation size := (total_width (w_panel w) (as_panels s)).

Lemma total_ge i a : In i ids -> xp_start (h i) = Some a -> (a + width (h i) <= size)%nat.
Proof using HA. intros Hi Ha. destruct HA as (_ & _ & L). destruct (laid_bound _ _ _ _ L Hi) as (b & B1 & _ & _ & B2). assert (a = b) by congruence. subst. lia. Qed.

Lemma sum_final call fin (own : nat -> matrix -> Prop) Ks :
  (forall i K, In i ids -> own i K -> exists K0, K = fin_if fin K0 /\ forall a, xp_start (h i) = Some a -> exists p', call a (xp (h i)) = (p', Ok (at_block a (width (h i)) K0))) ->
  Forall2 own ids Ks ->
  exists w' acc, sum_panels call ids None w s = (w', s, Ok acc) /\ touched (fun _ => call) ids w w' /\ ofinal fin acc = Ok (Some (diagonal h ids Ks)).
Proof using HA.
  intros H HF. destruct HA as (Hne & ND & L).
  assert (HF1 : Forall2 (fun i K => exists K0, (forall a, xp_start (h i) = Some a -> exists p', call a (xp (h i)) = (p', Ok (at_block a (width (h i)) K0))) /\ K = fin_if fin K0) ids Ks).
  { apply (forall2_impl own); [|exact HF]. intros i K Hi Hk. destruct (H i K Hi Hk) as (K0 & H1 & H2). exists K0. split; assumption. }
  apply (forall2_ex (fun i K0 => forall a, xp_start (h i) = Some a -> exists p', call a (xp (h i)) = (p', Ok (at_block a (width (h i)) K0))) (fun K0 K => K = fin_if fin K0)) in HF1.
  destruct HF1 as (K0s & HF1 & HF2). apply forall2_map_eq in HF2.
  destruct (sum_panels_blocks call ids 0 w s None K0s ND L HF1) as (w' & acc & S1 & S2 & S3 & S4).
  exists w', acc. split; [exact S1|]. split; [exact S2|].
  destruct acc as [K|]; [|exfalso; apply Hne; apply (S3 eq_refl)].
  assert (HK : K = diagonal h ids K0s).
  { extensionality r. extensionality t. specialize (S4 r t). cbn [oval] in S4. rewrite S4, moved_0. unfold diagonal, blocks. lra. }
  unfold ofinal. rewrite HF2. destruct fin; cbn [fin_if]; f_equal; f_equal; rewrite HK.
  - unfold diagonal. rewrite finalize_block_diag, combine_map_snd. reflexivity.
  - unfold diagonal. f_equal. f_equal. symmetry. erewrite map_ext; [apply map_id|]. intro; reflexivity.
Qed.

Lemma acheck_ok c : (forall l, c = Some (CVec l) -> length l = size) -> (exists i K fin, own_kC E h fin c i K \/ own_kG E h fin c i K) -> acheck c size w s = (w, s, Ok tt).
Proof using .
  intros Hl (i & K & fin & Ho). destruct c as [[l| |]|]; cbn [acheck]; [| | |reflexivity].
  - unfold abind, alift, aret. cbn [check_c]. rewrite (Hl l eq_refl), Nat.eqb_refl. reflexivity.
  - exfalso. destruct Ho as [(a & p' & Ha & H)|(a & p' & Ha & H)]; cbn [part] in H;
      [apply kC_solo with (n := ndof (pn_sh (xp (h i)))) in H; [|reflexivity]; destruct H as [H _]; unfold kC_result in H; destruct (pn_N_cte _) as [[? ?] ?]
      |apply kG_solo with (n := ndof (pn_sh (xp (h i)))) in H; [|reflexivity]; destruct H as [H _]; unfold kG_result in H; destruct (pn_N _) as [[? ?] ?]]; discriminate H.
  - exfalso. destruct Ho as [(a & p' & Ha & H)|(a & p' & Ha & H)]; cbn [part] in H;
      [apply kC_solo with (n := ndof (pn_sh (xp (h i)))) in H; [|reflexivity]; destruct H as [H _]; unfold kC_result in H; destruct (pn_N_cte _) as [[? ?] ?]
      |apply kG_solo with (n := ndof (pn_sh (xp (h i)))) in H; [|reflexivity]; destruct H as [H _]; unfold kG_result in H; destruct (pn_N _) as [[? ?] ?]]; discriminate H.
Qed.

Lemma own_kC_call c fin i K : (forall l, c = Some (CVec l) -> length l = size) -> In i ids -> own_kC E h fin c i K ->
  exists K0, K = fin_if fin K0 /\ forall a, xp_start (h i) = Some a -> exists p', calc_kC E (md_args size a c false) (xp (h i)) = (p', Ok (at_block a (width (h i)) K0)).
Proof using HA.
  intros Hl Hi (a & p' & Ha & H).
  destruct (kC_solo _ _ _ (width (h i)) _ _ _ H (width_ndof _)) as [HK [p1 ER]].
  assert (HK0 : exists K0, K = fin_if fin K0 /\ kC_result E (xp (h i)) (width (h i)) 0 false (part a (width (h i)) c) false = Ok K0).
  { destruct fin; [|exists K; split; [reflexivity|exact HK]]. rewrite kC_result_fin in HK.
    destruct (kC_result E _ _ 0 false _ _) as [K0|]; [|discriminate]. cbn in HK. injection HK as <-. exists K0. split; reflexivity. }
  destruct HK0 as (K0 & HK1 & HK2). exists K0. split; [exact HK1|]. intros b Hb. assert (b = a) by congruence. subst b.
  apply snd_pair. unfold md_args. rewrite (calc_kC_result E (SInt size) a false c false _ p1 ER). cbn [size_value].
  rewrite width_ndof in *. apply kC_place; [exact Hl| |exact HK2]. rewrite <- width_ndof. apply total_ge; assumption.
Qed.
Lemma own_kG_call c fin i K : (forall l, c = Some (CVec l) -> length l = size) -> In i ids -> own_kG E h fin c i K ->
  exists K0, K = fin_if fin K0 /\ forall a, xp_start (h i) = Some a -> exists p', calc_kG E (md_args size a c false) (xp (h i)) = (p', Ok (at_block a (width (h i)) K0)).
Proof using HA.
  intros Hl Hi (a & p' & Ha & H).
  destruct (kG_solo _ _ _ (width (h i)) _ _ _ H (width_ndof _)) as [HK [p1 ER]].
  assert (HK0 : exists K0, K = fin_if fin K0 /\ kG_result E (xp (h i)) (width (h i)) 0 false (part a (width (h i)) c) false = Ok K0).
  { destruct fin; [|exists K; split; [reflexivity|exact HK]]. rewrite kG_result_fin in HK.
    destruct (kG_result E _ _ 0 false _ _) as [K0|]; [|discriminate]. cbn in HK. injection HK as <-. exists K0. split; reflexivity. }
  destruct HK0 as (K0 & HK1 & HK2). exists K0. split; [exact HK1|]. intros b Hb. assert (b = a) by congruence. subst b.
  apply snd_pair. unfold md_args. rewrite (calc_kG_result E (SInt size) a false c false _ p1 ER). cbn [size_value].
  rewrite width_ndof in *. apply kG_place; [exact Hl| |exact HK2]. rewrite <- width_ndof. apply total_ge; assumption.
Qed.
Lemma own_kM_call fin i K : In i ids -> own_kM E h fin i K ->
  exists K0, K = fin_if fin K0 /\ forall a, xp_start (h i) = Some a -> exists p', calc_kM E (SInt size) a a None None None None false (xp (h i)) = (p', Ok (at_block a (width (h i)) K0)).
Proof using HA.
  intros Hi (p' & H).
  assert (HP : (exists mdl, pn_model (xp (h i)) = Some (Known mdl)) /\ pn_lam (xp (h i)) <> None).
  { pose proof (calc_kM_inv _ _ _ _ _ _ _ _ _ _ _ _ H) as (mdl & kM & R). destruct R as [R1 R2 _ _ _ _ R3]. split.
    - exists mdl. rewrite <- (sr_model _ _ R1). exact R2.
    - destruct R3 as [(_ & _ & R3 & _)|([R3|R3] & _)]; [exact R3|congruence|congruence]. }
  destruct HP as [HP1 HP2].
  assert (HK : kM_result E (xp (h i)) (width (h i)) 0 fin = Ok K).
  { pose proof (calc_kM_result E SNone 0 fin (xp (h i)) HP1 HP2) as HH. rewrite size_none, <- width_ndof in HH. rewrite <- HH, H. reflexivity. }
  assert (HK0 : exists K0, K = fin_if fin K0 /\ kM_result E (xp (h i)) (width (h i)) 0 false = Ok K0).
  { destruct fin; [|exists K; split; [reflexivity|exact HK]]. rewrite kM_result_fin in HK.
    destruct (kM_result E _ _ 0 false) as [K0|]; [|discriminate]. cbn in HK. injection HK as <-. exists K0. split; reflexivity. }
  destruct HK0 as (K0 & HK1 & HK2). exists K0. split; [exact HK1|]. intros a Ha.
  apply snd_pair. rewrite (calc_kM_result E (SInt size) a false _ HP1 HP2). cbn [size_value].
  rewrite width_ndof in *. apply kM_place; [|exact HK2]. rewrite <- width_ndof. apply total_ge; assumption.
Qed.

Theorem asm_kG_diagonal c fin Ks : (forall l, c = Some (CVec l) -> length l = size) -> Forall2 (own_kG E h fin c) ids Ks ->
  exists w', asm_kG E c fin w s = (w', s, Ok (Some (diagonal h ids Ks))) /\ touched (fun _ a => calc_kG E (md_args size a c false)) ids w w'.
Proof using HA.
  intros Hl HF. destruct (sum_final (fun a => calc_kG E (md_args size a c false)) fin (own_kG E h fin c) Ks (fun i K Hi Ho => own_kG_call c fin i K Hl Hi Ho) HF) as (w' & acc & S1 & S2 & S3).
  exists w'. split; [|exact S2]. unfold asm_kG. unfold abind at 1. rewrite asm_size_total.
  unfold abind at 1. rewrite acheck_ok; [|exact Hl|].
  2:{ destruct HA as (Hne & _ & _). destruct ids as [|i l]; [congruence|]. inversion HF; subst. eauto 10. }
  unfold abind at 1, aself at 1. unfold abind at 1. rewrite S1. unfold alift. rewrite S3. reflexivity.
Qed.
Theorem asm_kM_diagonal fin Ks : Forall2 (own_kM E h fin) ids Ks ->
  exists w', asm_kM E fin w s = (w', s, Ok (Some (diagonal h ids Ks))) /\ touched (fun _ a => calc_kM E (SInt size) a a None None None None false) ids w w'.
Proof using HA.
  intros HF. destruct (sum_final (fun a => calc_kM E (SInt size) a a None None None None false) fin (own_kM E h fin) Ks (fun i K Hi Ho => own_kM_call fin i K Hi Ho) HF) as (w' & acc & S1 & S2 & S3).
  exists w'. split; [|exact S2]. unfold asm_kM. unfold abind at 1. rewrite asm_size_total.
  unfold abind at 1, aself at 1. unfold abind at 1. rewrite S1. unfold alift. rewrite S3. reflexivity.
Qed.
(* up to the connections *)
Theorem asm_kC_diagonal Bs arg c fin Ks : (forall l, c = Some (CVec l) -> length l = size) -> Forall2 (own_kC E h fin c) ids Ks ->
  exists w1, touched (fun _ a => calc_kC E (md_args size a c false)) ids w w1 /\
  asm_kC E Bs arg c fin w s = match get_kC_conn E Bs arg true w1 s with
    | (w2, s2, Ok m) => (w2, s2, add_connmat size (Some (diagonal h ids Ks)) m)
    | (w2, s2, Err e) => (w2, s2, Err e) end.
Proof using HA.
  intros Hl HF. destruct (sum_final (fun a => calc_kC E (md_args size a c false)) fin (own_kC E h fin c) Ks (fun i K Hi Ho => own_kC_call c fin i K Hl Hi Ho) HF) as (w' & acc & S1 & S2 & S3).
  exists w'. split; [exact S2|]. unfold asm_kC. unfold abind at 1. rewrite asm_size_total.
  unfold abind at 1. rewrite acheck_ok; [|exact Hl|].
  2:{ destruct HA as (Hne & _ & _). destruct ids as [|i l]; [congruence|]. inversion HF; subst. eauto 10. }
  unfold abind at 1, aself at 1. unfold abind at 1. rewrite S1. unfold abind at 1, alift at 1. rewrite S3. reflexivity.
Qed.
End Sums.

(* ------------------------------------------------- vectors of the assembly *)
Definition vmoved (o : nat) (v : nat -> R) : nat -> R := fun k => if (o <=? k)%nat then v (k - o)%nat else 0.
Lemma vmoved_block o n v bs k : at_slice o n v k + vmoved (o + n) (block_vector bs) k = vmoved o (block_vector ((n, v) :: bs)) k.
Proof.
  unfold at_slice, vmoved. cbn [block_vector].
  destruct (o <=? k)%nat eqn:A; cbn [andb]; [apply Nat.leb_le in A|apply Nat.leb_gt in A].
  - destruct (k <? o + n)%nat eqn:B.
    + apply Nat.ltb_lt in B. replace (k - o <? n)%nat with true by (symmetry; apply Nat.ltb_lt; lia).
      replace (o + n <=? k)%nat with false by (symmetry; apply Nat.leb_gt; lia). lra.
    + apply Nat.ltb_ge in B. replace (k - o <? n)%nat with false by (symmetry; apply Nat.ltb_ge; lia).
      replace (o + n <=? k)%nat with true by (symmetry; apply Nat.leb_le; lia). rewrite Nat.sub_add_distr. lra.
  - replace (o + n <=? k)%nat with false by (symmetry; apply Nat.leb_gt; lia). lra.
Qed.
Lemma sum_vectors_blocks call ids : forall o w s acc vs, NoDup ids -> laid_out (w_panel w) ids o ->
  Forall2 (fun i v => forall a, xp_start (w_panel w i) = Some a ->
     exists p', call i a (xp (w_panel w i)) = (p', Ok (at_slice a (width (w_panel w i)) v))) ids vs ->
  exists w' acc', sum_vectors call ids acc w s = (w', s, Ok acc') /\ touched call ids w w' /\
    forall k, acc' k = acc k + vmoved o (block_vector (combine (map (fun i => width (w_panel w i)) ids) vs)) k.
Proof.
  induction ids as [|i ids IH]; intros o w s acc vs ND L HF.
  - exists w, acc. split; [reflexivity|]. split; [constructor; [reflexivity|reflexivity|intros k []]|]. intros k. unfold vmoved. cbn. destruct (_ <=? _)%nat; lra.
  - inversion HF as [|? v ? vs' HK HF']; subst. apply NoDup_cons_iff in ND. destruct ND as [Ni ND].
    cbn [laid_out] in L. destruct L as (L1 & L2 & L3). destruct (HK _ L1) as [p' Hp].
    set (w1 := put_panel w i (with_panel (w_panel w i) p')).
    assert (Hoth : forall k, In k ids -> w_panel w1 k = w_panel w k) by (intros k Hk; apply put_panel_else; intros ->; contradiction).
    destruct (IH (o + width (w_panel w i))%nat w1 s (vadd acc (at_slice o (width (w_panel w i)) v)) vs' ND) as (w' & acc' & H1 & H2 & H4).
    + apply (laid_ext (w_panel w)); [|exact L3]. intros k Hk. rewrite Hoth by exact Hk. auto.
    + clear - HF' Hoth. revert Hoth. induction HF' as [|k K ids Ks HK HF IH]; intro Hoth; constructor; [|apply IH; intros; apply Hoth; right; assumption].
      rewrite Hoth by (left; reflexivity). exact HK.
    + exists w', acc'. split.
      * cbn [sum_vectors]. unfold abind at 1, aworld at 1. rewrite L1. unfold abind at 1, on_panel at 1. rewrite Hp. exact H1.
      * split; [apply (touched_cons _ _ _ _ o p' (at_slice o (width (w_panel w i)) v)); assumption|].
        intros k. rewrite H4.
        replace (map (fun i => width (w_panel w1 i)) ids) with (map (fun i => width (w_panel w i)) ids).
        2:{ apply map_ext_in. intros q Hq. rewrite Hoth by exact Hq. reflexivity. }
        cbn [map combine]. rewrite <- vmoved_block. unfold vadd. lra.
Qed.
Section Vectors.
Variables (E : env) (w : world) (s : assembly).
Hypothesis HA : assembled w s.
Notation ids := (as_panels s). Notation h := (w_panel w). Notation size := (total_width (w_panel w) (as_panels s)).
Lemma sum_stacked call (own : nat -> (nat -> R) -> Prop) vs :
  (forall i v, In i ids -> own i v -> forall a, xp_start (h i) = Some a -> exists p', call i a (xp (h i)) = (p', Ok (at_slice a (width (h i)) v))) ->
  Forall2 own ids vs -> exists w', sum_vectors call ids (fun _ => 0) w s = (w', s, Ok (stacked h ids vs)) /\ touched call ids w w'.
Proof using HA.
  intros H HF. destruct HA as (Hne & ND & L).
  destruct (sum_vectors_blocks call ids 0 w s (fun _ => 0) vs ND L) as (w' & acc & S1 & S2 & S3).
  { apply (forall2_impl own); [|exact HF]. exact H. }
  exists w'. split; [|exact S2]. rewrite S1. do 2 f_equal. extensionality k. rewrite S3. unfold vmoved, stacked. cbn [Nat.leb]. rewrite Nat.sub_0_r. lra.
Qed.
Theorem asm_fext_stacked Bv inc vs : Forall2 (own_fext E Bv h inc) ids vs ->
  exists w', asm_fext E Bv inc w s = (w', s, Ok (stacked h ids vs)).
Proof using HA.
  intro HF.
  destruct (sum_stacked (fun i o => do l <- calc_fext E Bv (xp_loads (h i)) inc (SInt size) o; mret (vec l)) (own_fext E Bv h inc) vs
    ltac:(intros i v Hi (p' & l & Hl & ->) a Ha; rewrite width_ndof; destruct (fext_place E Bv (xp_loads (h i)) inc a size (xp (h i)) p' l ltac:(rewrite <- width_ndof; apply (total_ge w s HA); assumption) Hl)
      as (p2 & f & F1 & F2 & F3); exists p2; unfold mbind, mret; rewrite F1, F3; reflexivity) HF) as (w' & S1 & S2).
  exists w'. unfold asm_fext. unfold abind at 1. rewrite asm_size_total. unfold abind at 1, aself at 1. unfold abind at 1, aworld at 1. exact S1.
Qed.
Theorem asm_fint_stacked Bs c vs : length c = size -> Forall2 (own_fint E h c) ids vs ->
  exists w1, touched (fun _ o => do u <- calc_fint E c (SInt size) o None None None; mret (vdense u)) ids w w1 /\
  asm_fint E Bs c w s = match get_kC_conn E Bs None true w1 s with
    | (w2, s2, Ok m) => (w2, s2, rmap (vadd (stacked h ids vs)) (conn_times size m c))
    | (w2, s2, Err e) => (w2, s2, Err e) end.
Proof using HA.
  intros Hl HF.
  destruct (sum_stacked (fun _ o => do u <- calc_fint E c (SInt size) o None None None; mret (vdense u)) (own_fint E h c) vs
    ltac:(intros i v Hi (b & p' & u & Hb & Hu & ->) a Ha; assert (b = a) by congruence; subst b; rewrite width_ndof in *;
      destruct (fint_place E c a size (xp (h i)) p' u Hl ltac:(rewrite <- width_ndof; apply (total_ge w s HA); assumption) Hu)
      as (p2 & u2 & F1 & F2); exists p2; unfold mbind, mret; rewrite F1, F2; reflexivity) HF) as (w' & S1 & S2).
  exists w'. split; [exact S2|]. unfold asm_fint. unfold abind at 1. rewrite asm_size_total. unfold abind at 1, aself at 1. unfold abind at 1. rewrite S1.
  unfold abind at 1. destruct (get_kC_conn E Bs None true w' s) as [[w2 s2] [m|e]]; [|reflexivity].
  unfold abind, alift, aret. destruct (conn_times size m c); reflexivity.
Qed.
End Vectors.
