(* External forces of a Shell object. *)
From Coq Require Import Reals List Arith Bool Lia Lra Permutation.
From Coquelicot Require Import Coquelicot.
From Verif Require Import Base_Sum Model_Types Model_Coo Model_Result Model_Num Model_DB Model_Bardell Model_Shell Model_Field Model_Fext
  Spec_Algebra Spec_Kinematics Spec_Quadrature Spec_Panel Spec_Shell Spec_Field Spec_Fext
  Proof_Coo Proof_Shell Proof_Total Proof_FieldApi Proof_FieldEdge.
Import ListNotations.
Open Scope R_scope.

(* ------------------------------------------------- the array g *)
Lemma store_g_snoc g l st r c : store_g g (l ++ [st]) r c =
  if ((r =? fst (fst st)) && (c =? snd (fst st)))%nat%bool then snd st else store_g g l r c.
Proof. unfold store_g. rewrite fold_left_app. reflexivity. Qed.

Lemma store_g_out g l r c : ~ In (r, c) (map fst l) -> store_g g l r c = g r c.
Proof.
  induction l as [|st l IH] using rev_ind; intro H; [reflexivity|].
  rewrite store_g_snoc. rewrite map_app, in_app_iff in H. cbn in H.
  destruct (Nat.eqb_spec r (fst (fst st))); destruct (Nat.eqb_spec c (snd (fst st))); cbn [andb]; try (apply IH; tauto).
  exfalso. apply H. right. left. destruct (fst st); cbn in *; congruence.
Qed.
Lemma store_g_in g l r c v : In (r, c) (map fst l) -> (forall st, In st l -> fst st = (r, c) -> snd st = v) -> store_g g l r c = v.
Proof.
  induction l as [|st l IH] using rev_ind; intros H Hv; [destruct H|].
  rewrite store_g_snoc. rewrite map_app, in_app_iff in H. cbn in H.
  destruct (Nat.eqb_spec r (fst (fst st))); destruct (Nat.eqb_spec c (snd (fst st))); cbn [andb];
    try (apply IH; [destruct H as [H|[H|[]]]; [exact H|destruct (fst st); cbn in *; congruence]
                   |intros t Ht; apply Hv; rewrite in_app_iff; left; exact Ht]).
  apply Hv; [rewrite in_app_iff; right; left; reflexivity|]. destruct (fst st); cbn in *; congruence.
Qed.

(* value stored in row r for component d of term (i, j) *)
Definition gentry (Bs : basis) (s : shell) (x y : R) (r i j d : nat) : R :=
  let xi := natural x (sh_a s) in let eta := natural y (sh_b s) in
  match r, d with
  | 0%nat, 0%nat => bf Bs i xi (sh_xu s) * bf Bs j eta (sh_yu s)
  | 1%nat, 1%nat => bf Bs i xi (sh_xv s) * bf Bs j eta (sh_yv s)
  | 2%nat, 2%nat => bf Bs i xi (sh_xw s) * bf Bs j eta (sh_yw s)
  | 3%nat, 2%nat => - (2 / sh_a s) * bfp Bs i xi (sh_xw s) * bf Bs j eta (sh_yw s)
  | 4%nat, 2%nat => - (2 / sh_b s) * bf Bs i xi (sh_xw s) * bfp Bs j eta (sh_yw s)
  | _, _ => 0
  end.
(* rows and components written by fg *)
Definition written (r d : nat) : bool :=
  match r, d with 0%nat, 0%nat => true | 1%nat, 1%nat => true | 2%nat, 2%nat => true | 3%nat, 2%nat => true | 4%nat, 2%nat => true | _, _ => false end.

Definition clean (s : shell) (g : garray) : Prop :=
  forall r i j d, (i < sh_m s)%nat -> (j < sh_n s)%nat -> (d < 3)%nat -> written r d = false ->
  g r (3 * (j * sh_m s + i) + d)%nat = 0.

Lemma fg_in Bs s x y st : In st (fg Bs s x y) -> exists i j d, (i < sh_m s)%nat /\ (j < sh_n s)%nat /\ (d < 3)%nat /\
  written (fst (fst st)) d = true /\ snd (fst st) = (3 * (j * sh_m s + i) + d)%nat /\ snd st = gentry Bs s x y (fst (fst st)) i j d.
Proof.
  unfold fg. intro H. apply in_flat_map in H. destruct H as (j & Hj & H). apply in_flat_map in H. destruct H as (i & Hi & H).
  apply in_seq in Hj. apply in_seq in Hi. cbn [In] in H.
  destruct H as [<-|[<-|[<-|[<-|[<-|[]]]]]]; [exists i, j, 0%nat|exists i, j, 1%nat|exists i, j, 2%nat|exists i, j, 2%nat|exists i, j, 2%nat];
    cbn [fst snd written gentry]; unfold DOF; repeat split; try lia.
Qed.
Lemma fg_key Bs s x y r i j d : (i < sh_m s)%nat -> (j < sh_n s)%nat -> written r d = true ->
  In (r, (3 * (j * sh_m s + i) + d)%nat) (map fst (fg Bs s x y)).
Proof.
  intros Hi Hj Hw. unfold fg. rewrite flat_map_concat_map, concat_map, map_map, <- flat_map_concat_map.
  apply in_flat_map. exists j. split; [apply in_seq; lia|].
  rewrite flat_map_concat_map, concat_map, map_map, <- flat_map_concat_map.
  apply in_flat_map. exists i. split; [apply in_seq; lia|]. unfold DOF. cbn [map fst In].
  destruct r as [|[|[|[|[|r]]]]]; destruct d as [|[|[|d]]]; try discriminate; tauto.
Qed.

Lemma fg_value Bs s x y g r i j d : clean s g -> (i < sh_m s)%nat -> (j < sh_n s)%nat -> (d < 3)%nat ->
  store_g g (fg Bs s x y) r (3 * (j * sh_m s + i) + d)%nat = gentry Bs s x y r i j d.
Proof.
  intros Hc Hi Hj Hd. destruct (written r d) eqn:Hw.
  - apply store_g_in; [apply fg_key; assumption|]. intros st Hin Hk.
    apply fg_in in Hin. destruct Hin as (i' & j' & d' & Hi' & Hj' & Hd' & Hw' & E1 & E2).
    rewrite Hk in *. cbn [fst snd] in *.
    destruct (dof_inj _ _ _ _ _ _ _ Hi Hi' Hd Hd' E1) as (-> & -> & ->). exact E2.
  - rewrite store_g_out.
    + rewrite (Hc _ _ _ _ Hi Hj Hd Hw). destruct r as [|[|[|[|[|r]]]]]; destruct d as [|[|[|d]]]; try discriminate; reflexivity.
    + intro Hin. apply in_map_iff in Hin. destruct Hin as (st & Hk & Hin).
      apply fg_in in Hin. destruct Hin as (i' & j' & d' & Hi' & Hj' & Hd' & Hw' & E1 & E2).
      rewrite Hk in *. cbn [fst snd] in *.
      destruct (dof_inj _ _ _ _ _ _ _ Hi Hi' Hd Hd' E1) as (-> & -> & ->). congruence.
Qed.
Lemma fg_clean Bs s x y g : clean s g -> clean s (store_g g (fg Bs s x y)).
Proof.
  intros Hc r i j d Hi Hj Hd Hw. rewrite fg_value by assumption.
  destruct r as [|[|[|[|[|r]]]]]; destruct d as [|[|[|d]]]; try discriminate; reflexivity.
Qed.
Lemma zeros_clean s : clean s zeros_g. Proof. intros r i j d _ _ _ _. reflexivity. Qed.

(* sum over the entries of a vector of 3 m n entries *)
Lemma sum_dof m n (f : nat -> R) : sumn (3 * (m * n)) f = sumn n (fun j => sumn m (fun i => sumn 3 (fun d => f (3 * (j * m + i) + d)%nat))).
Proof.
  replace (3 * (m * n))%nat with (n * m * 3)%nat by lia. rewrite <- sumn_flatten, <- sumn_flatten.
  apply sumn_ext; intros j _. apply sumn_ext; intros i _. apply sumn_ext; intros d _. f_equal. lia.
Qed.

(* a row of g times a vector is the corresponding field *)
Lemma row_field Bs s x y g r (c : nat -> R) : clean s g -> (r < 5)%nat ->
  sumn (3 * (sh_m s * sh_n s)) (fun k => store_g g (fg Bs s x y) r k * c k) = uvw_at Bs s c r x y.
Proof.
  intros Hc Hr. rewrite sum_dof.
  rewrite (sumn_ext _ _ (fun j => sumn (sh_m s) (fun i => sumn 3 (fun d => gentry Bs s x y r i j d * c (3 * (j * sh_m s + i) + d)%nat)))).
  2:{ intros j Hj. apply sumn_ext; intros i Hi. apply sumn_ext; intros d Hd. rewrite fg_value by assumption. reflexivity. }
  unfold uvw_at, d_u, d_v, d_w, d_wx, d_wy, fld, ritz.
  destruct r as [|[|[|[|[|r]]]]]; try lia; cbn [sumn gentry shape xedge yedge];
    try rewrite <- sumn_scal; try rewrite <- sumn_opp; apply sumn_ext; intros j Hj;
    try rewrite <- sumn_scal; try rewrite <- sumn_opp; apply sumn_ext; intros i Hi; ring.
Qed.

(* ------------------------------------------------- the loops *)
Section Loops.
Variables (Q : rule) (Bs : basis) (s : shell) (col0 N : nat).
Let n := (3 * (sh_m s * sh_n s))%nat.
(* displacements of the panel's slice of a vector *)
Definition slice_of (d : nat -> R) : nat -> R := fun k => d (col0 + k)%nat.
Definition Uof (d : nat -> R) : displacements := uvw_at Bs s (slice_of d).

Definition inv (st : fstate) : Prop := clean s (fst st) /\ length (snd st) = N.
(* st' is st with forces of work W added *)
Definition adds (W : (nat -> R) -> R) (st st' : fstate) : Prop :=
  inv st' /\ forall d, dot N (vec (snd st')) d = dot N (vec (snd st)) d + W d.

Lemma slice_add_ok v f f' : length f = N -> slice_add col0 n v f = Ok f' -> length f' = N /\
  forall d, dot N (vec f') d = dot N (vec f) d + sumn n (fun k => v k * slice_of d k).
Proof.
  intros Hl. unfold slice_add. destruct (Nat.eqb_spec n 0) as [E|E].
  - intro H. apply Ok_inj in H. subst f'. split; [exact Hl|]. intro d. rewrite E. cbn. ring.
  - destruct (Nat.leb_spec (col0 + n) (length f)) as [Hf|]; [|discriminate]. intro H. apply Ok_inj in H. subst f'.
    rewrite map_length, seq_length. split; [exact Hl|]. intro d. unfold dot.
    rewrite (sumn_ext N _ (fun k => vec f k * d k + (if ((col0 <=? k) && (k <? col0 + n))%nat%bool then v (k - col0)%nat * d k else 0))).
    2:{ intros k Hk. unfold vec at 1. rewrite Hl. rewrite nth_seq_map by exact Hk. fold (vec f k).
        destruct (_ && _)%bool; ring. }
    rewrite sumn_plus. f_equal. rewrite (sumn_window col0 n N).
    + apply sumn_ext; intros k Hk. unfold slice_of.
      destruct (Nat.leb_spec col0 (col0 + k)); [|lia]. destruct (Nat.ltb_spec (col0 + k) (col0 + n)); [|lia]. cbn [andb].
      replace (col0 + k - col0)%nat with k by lia. reflexivity.
    + lia.
    + intros k Hk Ho. destruct (Nat.leb_spec col0 k); destruct (Nat.ltb_spec k (col0 + n)); cbn [andb]; try reflexivity. lia.
Qed.

Lemma dot_g_work wt x y fx fy fz inc g d : clean s g ->
  sumn n (fun k => wt * dot_g fx fy fz inc (store_g g (fg Bs s x y)) k * slice_of d k) =
  wt * (inc * work_at (Uof d) x y fx fy fz).
Proof.
  intro Hc. unfold work_at, Uof. rewrite <- !(row_field Bs s x y g) by (assumption || lia).
  fold n. unfold dot_g.
  rewrite (sumn_ext n _ (fun k => wt * inc * fx * (store_g g (fg Bs s x y) 0%nat k * slice_of d k)
     + (wt * inc * fy * (store_g g (fg Bs s x y) 1%nat k * slice_of d k) + wt * inc * fz * (store_g g (fg Bs s x y) 2%nat k * slice_of d k)))) by (intros; ring).
  rewrite !sumn_plus, !sumn_scal. ring.
Qed.

Lemma add_at_ok wt x y fx fy fz inc st st' : inv st -> add_at Bs s col0 n wt x y fx fy fz inc st = Ok st' ->
  adds (fun d => wt * (inc * work_at (Uof d) x y fx fy fz)) st st'.
Proof.
  intros [Hc Hl]. unfold add_at, call_fg. destruct (_ && _)%bool; [|discriminate]. cbn [rbind].
  destruct (slice_add col0 n _ (snd st)) as [f|e] eqn:E; [|discriminate]. cbn [rbind]. intro H. apply Ok_inj in H. subst st'.
  destruct (slice_add_ok _ _ _ Hl E) as [Hl' Hd]. split; [split; [apply fg_clean; exact Hc|exact Hl']|].
  intro d. cbn [snd]. rewrite Hd. f_equal. apply dot_g_work. exact Hc.
Qed.

Lemma rfold_ok {A} (body : fstate -> A -> res fstate) (W : A -> (nat -> R) -> R) l :
  (forall st st' x, inv st -> In x l -> body st x = Ok st' -> adds (W x) st st') ->
  forall st st', inv st -> rfold body l st = Ok st' -> adds (fun d => suml l (fun x => W x d)) st st'.
Proof.
  induction l as [|x l IH]; intros Hb st st' Hi H.
  - apply Ok_inj in H. subst st'. split; [exact Hi|]. intro d. cbn. ring.
  - cbn in H. destruct (body st x) as [st1|e] eqn:E; [|discriminate]. cbn in H.
    destruct (Hb st st1 x Hi (or_introl eq_refl) E) as [Hi1 H1].
    destruct (IH (fun a b c Ha Hin => Hb a b c Ha (or_intror Hin)) st1 st' Hi1 H) as [Hi' H'].
    split; [exact Hi'|]. intro d. rewrite H', H1. cbn. ring.
Qed.

Lemma or_zero_comp f t : or_zero f t = comp f t. Proof. destruct f; reflexivity. Qed.

Lemma point_step_ok st st' l : inv st -> point_step Bs s col0 n st l = Ok st' ->
  adds (fun d => snd l * point_work (Uof d) (fst l)) st st'.
Proof.
  intros Hi H. unfold point_step in H. apply (add_at_ok _ _ _ _ _ _ _ _ _ Hi) in H. destruct H as [H1 H2].
  split; [exact H1|]. intro d. rewrite H2. unfold point_work. ring.
Qed.
Lemma distr_step_ok st st' l : inv st -> distr_step Q Bs s col0 n st l = Ok st' ->
  well_placed (fst l) /\ adds (fun d => snd l * line_work Q s (Uof d) (fst l)) st st'.
Proof.
  intros Hi H. unfold distr_step in H. unfold line_work, density, along_side, well_placed.
  destruct (dl_x (fst l)) as [x|], (dl_y (fst l)) as [y|]; try discriminate; (split; [exact I|]).
  - apply (rfold_ok _ (fun q d => let y := (fst q + 1) * sh_b s / 2 in snd q * (sh_b s / 2) *
      (snd l * work_at (Uof d) x y (or_zero (dl_fx (fst l)) y) (or_zero (dl_fy (fst l)) y) (or_zero (dl_fz (fst l)) y)))) in H;
      [|intros a b q Ha _ Hq; exact (add_at_ok _ _ _ _ _ _ _ _ _ Ha Hq)|exact Hi].
    destruct H as [H1 H2]. split; [exact H1|]. intro d. rewrite H2. f_equal. rewrite <- suml_scal.
    apply suml_ext; intros q _. cbv zeta. rewrite !or_zero_comp. ring.
  - apply (rfold_ok _ (fun q d => let x := (fst q + 1) * sh_a s / 2 in snd q * (sh_a s / 2) *
      (snd l * work_at (Uof d) x y (or_zero (dl_fx (fst l)) x) (or_zero (dl_fy (fst l)) x) (or_zero (dl_fz (fst l)) x)))) in H;
      [|intros a b q Ha _ Hq; exact (add_at_ok _ _ _ _ _ _ _ _ _ Ha Hq)|exact Hi].
    destruct H as [H1 H2]. split; [exact H1|]. intro d. rewrite H2. f_equal. rewrite <- suml_scal.
    apply suml_ext; intros q _. cbv zeta. rewrite !or_zero_comp. ring.
Qed.

Lemma suml_tagged {A} (w : A -> R) inc (l k : list A) :
  suml (tagged inc l k) (fun x => snd x * w (fst x)) = suml l w + inc * suml k w.
Proof.
  unfold tagged. rewrite suml_app, !suml_map. cbn [fst snd]. rewrite !suml_scal. ring.
Qed.

Lemma fext_loops_ok L inc st st' : inv st -> fext_loops Q Bs s col0 n L inc st = Ok st' ->
  adds (fun d => constant_work Q s L (Uof d) + inc * incremented_work Q s L (Uof d)) st st'.
Proof.
  intros Hi H. unfold fext_loops in H.
  destruct (rfold (point_step Bs s col0 n) _ st) as [s1|e] eqn:E1; [|discriminate]. cbn [rbind] in H.
  destruct (rfold (distr_step Q Bs s col0 n) _ s1) as [s2|e] eqn:E2; [|discriminate]. cbn [rbind] in H.
  destruct (rfold (point_step Bs s col0 n) _ s2) as [s3|e] eqn:E3; [|discriminate]. cbn [rbind] in H.
  apply (rfold_ok _ (fun l d => snd l * point_work (Uof d) (fst l))) in E1;
    [|intros a b l Ha _ Hb; apply (point_step_ok _ _ _ Ha Hb)|exact Hi]. destruct E1 as [I1 D1].
  apply (rfold_ok _ (fun l d => snd l * line_work Q s (Uof d) (fst l))) in E2;
    [|intros a b l Ha _ Hb; apply (distr_step_ok _ _ _ Ha Hb)|exact I1]. destruct E2 as [I2 D2].
  apply (rfold_ok _ (fun l d => snd l * point_work (Uof d) (fst l))) in E3;
    [|intros a b l Ha _ Hb; apply (point_step_ok _ _ _ Ha Hb)|exact I2]. destruct E3 as [I3 D3].
  apply (rfold_ok _ (fun l d => snd l * line_work Q s (Uof d) (fst l))) in H;
    [|intros a b l Ha _ Hb; apply (distr_step_ok _ _ _ Ha Hb)|exact I3]. destruct H as [I4 D4].
  split; [exact I4|]. intro d. rewrite D4, D3, D2, D1. rewrite !suml_tagged.
  unfold constant_work, incremented_work. ring.
Qed.

(* running the loops *)
Hypothesis (Hm : (sh_m s <= 30)%nat) (Hn : (sh_n s <= 30)%nat) (Hfit : (col0 + n <= N)%nat).
Lemma add_at_runs wt x y fx fy fz inc st : inv st -> exists st', add_at Bs s col0 n wt x y fx fy fz inc st = Ok st' /\ inv st'.
Proof using Hm Hn Hfit.
  intros Hi. assert (H : exists st', add_at Bs s col0 n wt x y fx fy fz inc st = Ok st').
  { unfold add_at, call_fg. change NMAX with 30%nat. rewrite (proj2 (Nat.leb_le _ _) Hm), (proj2 (Nat.leb_le _ _) Hn). cbn [andb rbind].
    unfold slice_add. destruct (n =? 0)%nat; [eexists; reflexivity|]. rewrite (proj2 Hi), (proj2 (Nat.leb_le _ _) Hfit).
    cbn [rbind]. eexists; reflexivity. }
  destruct H as [st' H]. exists st'. split; [exact H|]. apply (add_at_ok _ _ _ _ _ _ _ _ _ Hi H).
Qed.
Lemma rfold_runs {A} (body : fstate -> A -> res fstate) l :
  (forall st x, inv st -> In x l -> exists st', body st x = Ok st' /\ inv st') ->
  forall st, inv st -> exists st', rfold body l st = Ok st' /\ inv st'.
Proof using.
  induction l as [|x l IH]; intros Hb st Hi; [exists st; split; [reflexivity|exact Hi]|].
  destruct (Hb st x Hi (or_introl eq_refl)) as (s1 & E1 & I1).
  destruct (IH (fun a b Ha Hin => Hb a b Ha (or_intror Hin)) s1 I1) as (s2 & E2 & I2).
  exists s2. cbn. rewrite E1. split; assumption.
Qed.
Lemma point_runs l st : inv st -> exists st', rfold (point_step Bs s col0 n) l st = Ok st' /\ inv st'.
Proof using Hm Hn Hfit. apply rfold_runs. intros st0 x Hi _. apply add_at_runs. exact Hi. Qed.
Lemma distr_runs inc l k st : List.Forall well_placed (l ++ k) -> inv st ->
  exists st', rfold (distr_step Q Bs s col0 n) (tagged inc l k) st = Ok st' /\ inv st'.
Proof using Hm Hn Hfit.
  intro HF. apply rfold_runs. intros st0 x Hi Hx.
  assert (Hw : well_placed (fst x)).
  { rewrite List.Forall_forall in HF. apply HF. unfold tagged in Hx. apply in_app_iff in Hx. apply in_app_iff.
    destruct Hx as [Hx|Hx]; apply in_map_iff in Hx; destruct Hx as (z & <- & Hz); [left|right]; exact Hz. }
  unfold well_placed in Hw. unfold distr_step. destruct (dl_x (fst x)), (dl_y (fst x)); try contradiction;
  apply rfold_runs; try exact Hi; intros st1 q Hi1 _; apply add_at_runs; exact Hi1.
Qed.
Lemma fext_loops_runs L inc st : List.Forall well_placed (all_lines L) -> inv st ->
  exists st', fext_loops Q Bs s col0 n L inc st = Ok st'.
Proof using Hm Hn Hfit.
  intros HF Hi. unfold all_lines in HF. rewrite !app_assoc in HF. unfold fext_loops.
  destruct (point_runs (tagged inc (ld_point L) (ld_point_inc L)) st Hi) as (s1 & -> & I1). cbn [rbind].
  destruct (distr_runs inc (ld_distr L) (ld_distr_inc L) s1) as (s2 & -> & I2);
    [rewrite !List.Forall_app in *; tauto|exact I1|]. cbn [rbind].
  destruct (point_runs (tagged inc (ld_ppd L) (ld_ppd_inc L)) s2 I2) as (s3 & -> & I3). cbn [rbind].
  destruct (distr_runs inc (ld_dpd L) (ld_dpd_inc L) s3) as (s4 & -> & I4);
    [rewrite !List.Forall_app in *; tauto|exact I3|]. eexists; reflexivity.
Qed.
End Loops.

(* ------------------------------------------------- calc_fext *)
Lemma set_size_same p k : pn_size p = k -> set_size p k = p.
Proof. intros <-. destruct p; reflexivity. Qed.

Lemma get_size_run p mdl : pn_model p = Some (Known mdl) ->
  get_size p = (set_size p (Some (3 * sh_m (pn_sh p) * sh_n (pn_sh p))%nat), Ok (3 * sh_m (pn_sh p) * sh_n (pn_sh p))%nat).
Proof.
  intro H. unfold get_size, mbind, the_model, mget, mmod, mret. rewrite H. cbn [mbind]. destruct mdl; reflexivity.
Qed.

Lemma eval_size_run a p mdl : pn_model p = Some (Known mdl) -> pn_size p = Some (3 * sh_m (pn_sh p) * sh_n (pn_sh p))%nat ->
  eval_size a p = (p, Ok (size_value a (pn_sh p))).
Proof.
  intros H Hs. destruct a; cbn [eval_size]; unfold mbind, mret; rewrite ?(get_size_run _ _ H), ?(set_size_same p) by exact Hs; reflexivity.
Qed.

(* calc_fext = rebuild, then the loops on the rebuilt object *)
Lemma calc_fext_run E Bs L inc sz col0 p :
  calc_fext E Bs L inc sz col0 p =
  match rebuild E p with
  | (p', Ok tt) => (p', rmap snd (fext_loops (e_rule E) Bs (kernel_view p') col0 (3 * (sh_m (pn_sh p) * sh_n (pn_sh p))) L inc
                        (zeros_g, repeat 0 (size_value sz (pn_sh p)))))
  | (p', Err e) => (p', Err e)
  end.
Proof.
  unfold calc_fext, mbind at 1. destruct (rebuild E p) as [p' [[]|e]] eqn:HR; [|reflexivity].
  apply rebuild_inv in HR. destruct HR as (Hin & _ & Hm & _ & _ & _ & _ & _ & _ & _ & _ & Hsz & _).
  pose proof (si_sh _ _ Hin) as Hsh. rewrite <- Hsh in Hsz.
  unfold shell_fext, mbind, mget. rewrite Hm. rewrite (eval_size_run _ _ _ Hm Hsz). rewrite (get_size_run _ _ Hm).
  rewrite (set_size_same _ _ Hsz). unfold mlift. rewrite Hsh. rewrite Nat.mul_assoc. reflexivity.
Qed.

Lemma length_repeat0 n : length (repeat 0 n) = n. Proof. apply repeat_length. Qed.
Lemma vec_zeros n k : vec (repeat 0 n) k = 0.
Proof. unfold vec. revert k; induction n as [|n IH]; intros [|k]; cbn; auto. Qed.

Lemma calc_fext_spec E Bs L inc sz col0 p p' f : calc_fext E Bs L inc sz col0 p = (p', Ok f) ->
  rebuild E p = (p', Ok tt) /\ length f = size_value sz (pn_sh p) /\
  forall d, dot (length f) (vec f) d =
    constant_work (e_rule E) (kernel_view p') L (Uof Bs (kernel_view p') col0 d)
    + inc * incremented_work (e_rule E) (kernel_view p') L (Uof Bs (kernel_view p') col0 d).
Proof.
  rewrite calc_fext_run. destruct (rebuild E p) as [q [[]|e]] eqn:HR; [|discriminate].
  destruct (fext_loops _ _ _ _ _ _ _ _) as [st'|e] eqn:EL; [|discriminate]. cbn [rmap rbind]. intro H.
  apply pair_equal_spec in H. destruct H as [<- H]. apply Ok_inj in H. subst f. split; [reflexivity|].
  pose proof HR as HR'. apply rebuild_inv in HR'. destruct HR' as (Hin & _). pose proof (si_sh _ _ Hin) as Hsh.
  rewrite <- Hsh in EL. change (pn_sh q) with (pn_sh q) in EL.
  apply (fext_loops_ok (e_rule E) Bs (kernel_view q) col0 (size_value sz (pn_sh p))) in EL.
  - destruct EL as [[_ Hl] Hd]. split; [exact Hl|]. rewrite Hl. intro d. rewrite Hd. cbn [snd]. unfold dot at 1.
    rewrite (sumn_0 _ (fun i => vec (repeat 0 _) i * d i)); [ring|]. intros i _. rewrite vec_zeros. ring.
  - split; [apply zeros_clean|]. cbn [snd]. rewrite repeat_length, Hsh. reflexivity.
Qed.

Lemma calc_fext_ok E Bs L inc sz col0 p : complete p -> List.Forall well_placed (all_lines L) ->
  (sh_m (pn_sh p) <= 30)%nat -> (sh_n (pn_sh p) <= 30)%nat -> (col0 + 3 * (sh_m (pn_sh p) * sh_n (pn_sh p)) <= size_value sz (pn_sh p))%nat ->
  exists p' f, calc_fext E Bs L inc sz col0 p = (p', Ok f).
Proof.
  intros Hc HF Hm Hn Hfit. rewrite calc_fext_run. destruct (rebuild_ok E p Hc) as (p1 & HR). rewrite HR.
  apply rebuild_inv in HR. destruct HR as (Hin & _). pose proof (si_sh _ _ Hin) as Hsh. rewrite <- Hsh in *.
  destruct (fext_loops_runs (e_rule E) Bs (kernel_view p1) col0 (size_value sz (pn_sh p1)) Hm Hn Hfit L inc
     (zeros_g, repeat 0 (size_value sz (pn_sh p1))) HF) as [st' Hst].
  - split; [apply zeros_clean|]. apply repeat_length.
  - cbn in Hst |- *. rewrite Hst. eexists. eexists. reflexivity.
Qed.

(* ------------------------------------------------- work as a function of the displacements *)
Definition same_disp (U V : displacements) : Prop := forall k x y, (k < 3)%nat -> U k x y = V k x y.
Lemma work_at_ext U V x y fx fy fz : same_disp U V -> work_at U x y fx fy fz = work_at V x y fx fy fz.
Proof. intro H. unfold work_at. rewrite !H by lia. reflexivity. Qed.
Lemma density_ext U V l t : same_disp U V -> density U l t = density V l t.
Proof. intro H. unfold density. destruct (dl_x l), (dl_y l); try reflexivity; apply work_at_ext; exact H. Qed.
Lemma along_side_ext Q q len g h : (forall t, g t = h t) -> along_side Q q len g = along_side Q q len h.
Proof. intro H. apply suml_ext. intros t _. rewrite H. reflexivity. Qed.
Lemma line_work_ext Q s U V l : same_disp U V -> line_work Q s U l = line_work Q s V l.
Proof. intro H. unfold line_work. destruct (dl_x l); apply along_side_ext; intro t; apply density_ext; exact H. Qed.
Lemma constant_work_ext Q s L U V : same_disp U V -> constant_work Q s L U = constant_work Q s L V.
Proof.
  intro H. unfold constant_work. f_equal; [f_equal; [f_equal|]|]; apply suml_ext; intros l _;
  (apply line_work_ext || apply work_at_ext); exact H.
Qed.
Lemma incremented_work_ext Q s L U V : same_disp U V -> incremented_work Q s L U = incremented_work Q s L V.
Proof.
  intro H. unfold incremented_work. f_equal; [f_equal; [f_equal|]|]; apply suml_ext; intros l _;
  (apply line_work_ext || apply work_at_ext); exact H.
Qed.

Lemma nth_skip {A} (l : list A) o k d : nth k (skipn o l) d = nth (o + k) l d.
Proof. revert l k; induction o as [|o IH]; intros l k; [reflexivity|]. destruct l; [destruct k; reflexivity|]. cbn. apply IH. Qed.

Lemma uvw_at_cext Bs s c d k x y : (forall q, c q = d q) -> uvw_at Bs s c k x y = uvw_at Bs s d k x y.
Proof.
  intro H. assert (HF : forall e a b X Y, fld Bs s c e a b X Y = fld Bs s d e a b X Y).
  { intros. unfold fld, ritz. apply sumn_ext; intros j _. apply sumn_ext; intros i _. rewrite H. reflexivity. }
  unfold uvw_at, d_u, d_v, d_w, d_wx, d_wy. destruct k as [|[|[|[|k]]]]; rewrite HF; reflexivity.
Qed.

(* the displacements returned by uvw for the panel's slice of d *)
Lemma uvw_slice sched Bs nc p d U col0 : (forall l, Permutation (sched l) l) -> uvw_is sched Bs nc p (skipn col0 d) U ->
  same_disp (Uof Bs (kernel_view p) col0 (vec d)) U.
Proof.
  intros Hs HU k x y Hk. destruct (uvw_is_at _ _ _ _ _ _ Hs HU) as (_ & _ & _ & HV). rewrite HV by lia.
  unfold Uof. apply uvw_at_cext. intro q. unfold slice_of, vec. rewrite nth_skip. reflexivity.
Qed.

(* C32 *)
Theorem fext_work E Bs L inc sz col0 p p' f d U sched nc : calc_fext E Bs L inc sz col0 p = (p', Ok f) ->
  (forall l, Permutation (sched l) l) -> uvw_is sched Bs nc p' (skipn col0 d) U ->
  length f = size_value sz (pn_sh p) /\
  dot (length f) (vec f) (vec d) =
    constant_work (e_rule E) (pn_sh p) L U + inc * incremented_work (e_rule E) (pn_sh p) L U.
Proof.
  intros H Hs HU. apply calc_fext_spec in H. destruct H as (HR & Hl & Hd). split; [exact Hl|]. rewrite Hd.
  apply rebuild_inv in HR. destruct HR as (Hin & _). pose proof (si_sh _ _ Hin) as Hsh.
  pose proof (uvw_slice _ _ _ _ _ _ _ Hs HU) as HE.
  rewrite (constant_work_ext _ _ _ _ _ HE), (incremented_work_ext _ _ _ _ _ HE). rewrite <- Hsh. reflexivity.
Qed.

(* ------------------------------------------------- entries *)
Definition unitf (k : nat) : nat -> R := fun q => if (q =? k)%nat then 1 else 0.
Lemma dot_unit N x k : (k < N)%nat -> dot N x (unitf k) = x k.
Proof.
  intro Hk. unfold dot, unitf. rewrite (sumn_ext N _ (fun i => if (i =? k)%nat then x i else 0)) by (intros i _; destruct (i =? k)%nat; ring).
  rewrite sumn_single. destruct (Nat.ltb_spec k N); [reflexivity|lia].
Qed.
Definition entry_work E Bs p' col0 L inc k :=
  constant_work (e_rule E) (kernel_view p') L (Uof Bs (kernel_view p') col0 (unitf k))
  + inc * incremented_work (e_rule E) (kernel_view p') L (Uof Bs (kernel_view p') col0 (unitf k)).
Lemma fext_entry E Bs L inc sz col0 p p' f k : calc_fext E Bs L inc sz col0 p = (p', Ok f) -> (k < length f)%nat ->
  nth k f 0 = entry_work E Bs p' col0 L inc k.
Proof.
  intros H Hk. apply calc_fext_spec in H. destruct H as (HR & Hl & Hd). unfold entry_work. rewrite <- Hd, dot_unit by exact Hk. reflexivity.
Qed.
Lemma fext_state E Bs L inc sz col0 p p' f L' inc' sz' col0' p'' f' :
  calc_fext E Bs L inc sz col0 p = (p', Ok f) -> calc_fext E Bs L' inc' sz' col0' p = (p'', Ok f') -> p'' = p'.
Proof. intros H H'. apply calc_fext_spec in H, H'. destruct H as [H _], H' as [H' _]. congruence. Qed.

(* C33 *)
Theorem fext_affine E Bs L inc sz col0 p p0 p1 p2 f f0 f1 :
  calc_fext E Bs L 0 sz col0 p = (p0, Ok f0) -> calc_fext E Bs L 1 sz col0 p = (p1, Ok f1) ->
  calc_fext E Bs L inc sz col0 p = (p2, Ok f) ->
  forall k, nth k f 0 = nth k f0 0 + inc * (nth k f1 0 - nth k f0 0).
Proof.
  intros H0 H1 H k. pose proof (fext_state _ _ _ _ _ _ _ _ _ _ _ _ _ _ _ H0 H1). pose proof (fext_state _ _ _ _ _ _ _ _ _ _ _ _ _ _ _ H0 H). subst p1 p2.
  pose proof (proj1 (proj2 (calc_fext_spec _ _ _ _ _ _ _ _ _ H0))) as L0.
  pose proof (proj1 (proj2 (calc_fext_spec _ _ _ _ _ _ _ _ _ H1))) as L1.
  pose proof (proj1 (proj2 (calc_fext_spec _ _ _ _ _ _ _ _ _ H))) as L2.
  destruct (Nat.lt_ge_cases k (length f)) as [Hk|Hk].
  - rewrite (fext_entry _ _ _ _ _ _ _ _ _ _ H0), (fext_entry _ _ _ _ _ _ _ _ _ _ H1), (fext_entry _ _ _ _ _ _ _ _ _ _ H) by congruence.
    unfold entry_work. ring.
  - rewrite !nth_overflow by congruence. ring.
Qed.

Lemma suml_perm_app {A} (l l1 l2 : list A) f : Permutation l (l1 ++ l2) -> suml l f = suml l1 f + suml l2 f.
Proof. intro H. rewrite (suml_perm _ _ _ H). apply suml_app. Qed.

Theorem fext_superposition E Bs L1 L2 L inc sz col0 p p1 p2 p' f1 f2 f : merges L1 L2 L ->
  calc_fext E Bs L1 inc sz col0 p = (p1, Ok f1) -> calc_fext E Bs L2 inc sz col0 p = (p2, Ok f2) ->
  calc_fext E Bs L inc sz col0 p = (p', Ok f) ->
  forall k, nth k f 0 = nth k f1 0 + nth k f2 0.
Proof.
  intros (M1 & M2 & M3 & M4 & M5 & M6 & M7 & M8) H1 H2 H k.
  pose proof (fext_state _ _ _ _ _ _ _ _ _ _ _ _ _ _ _ H1 H2). pose proof (fext_state _ _ _ _ _ _ _ _ _ _ _ _ _ _ _ H1 H). subst p2 p'.
  pose proof (proj1 (proj2 (calc_fext_spec _ _ _ _ _ _ _ _ _ H1))) as E1.
  pose proof (proj1 (proj2 (calc_fext_spec _ _ _ _ _ _ _ _ _ H2))) as E2.
  pose proof (proj1 (proj2 (calc_fext_spec _ _ _ _ _ _ _ _ _ H))) as E3.
  destruct (Nat.lt_ge_cases k (length f)) as [Hk|Hk].
  - rewrite (fext_entry _ _ _ _ _ _ _ _ _ _ H1), (fext_entry _ _ _ _ _ _ _ _ _ _ H2), (fext_entry _ _ _ _ _ _ _ _ _ _ H) by congruence.
    unfold entry_work, constant_work, incremented_work.
    rewrite (suml_perm_app _ _ _ _ M1), (suml_perm_app _ _ _ _ M2), (suml_perm_app _ _ _ _ M3), (suml_perm_app _ _ _ _ M4),
      (suml_perm_app _ _ _ _ M5), (suml_perm_app _ _ _ _ M6), (suml_perm_app _ _ _ _ M7), (suml_perm_app _ _ _ _ M8). ring.
  - rewrite !nth_overflow by congruence. ring.
Qed.

(* C34 *)
Lemma work_zero Q s L U inc : (forall k x y, (k < 3)%nat -> U k x y = 0) -> constant_work Q s L U + inc * incremented_work Q s L U = 0.
Proof.
  intro H. assert (HW : forall x y a b c, work_at U x y a b c = 0) by (intros; unfold work_at; rewrite !H by lia; ring).
  assert (HL : forall l, line_work Q s U l = 0).
  { intro l. unfold line_work, along_side. assert (HD : forall t, density U l t = 0) by (intro t; unfold density; destruct (dl_x l), (dl_y l); auto).
    destruct (dl_x l); apply suml_0; intros t _; rewrite HD; ring. }
  unfold constant_work, incremented_work. rewrite !(suml_0 _ (line_work Q s U)) by (intros; apply HL).
  rewrite !(suml_0 _ (point_work U)) by (intros; apply HW). ring.
Qed.
Lemma uvw_at_zero Bs s c k x y : (forall q, (q < 3 * (sh_m s * sh_n s))%nat -> c q = 0) -> uvw_at Bs s c k x y = 0.
Proof.
  intro H. assert (HF : forall e a b X Y, (e < 3)%nat -> fld Bs s c e a b X Y = 0).
  { intros e a b X Y He. unfold fld, ritz. apply sumn_0; intros j Hj. apply sumn_0; intros i Hi. rewrite H; [ring|nia]. }
  unfold uvw_at, d_u, d_v, d_w, d_wx, d_wy. destruct k as [|[|[|[|k]]]]; rewrite HF by lia; ring.
Qed.

Theorem fext_slice E Bs L inc sz col0 p p' p0 f f0 : calc_fext E Bs L inc sz col0 p = (p', Ok f) ->
  calc_fext E Bs L inc SNone 0 p = (p0, Ok f0) ->
  forall k, nth k f 0 = if ((col0 <=? k) && (k <? col0 + 3 * (sh_m (pn_sh p) * sh_n (pn_sh p))) && (k <? length f))%nat%bool then nth (k - col0) f0 0 else 0.
Proof.
  intros H H0 k. pose proof (fext_state _ _ _ _ _ _ _ _ _ _ _ _ _ _ _ H H0). subst p0.
  pose proof (calc_fext_spec _ _ _ _ _ _ _ _ _ H) as (HR & EL & _). pose proof (proj1 (proj2 (calc_fext_spec _ _ _ _ _ _ _ _ _ H0))) as E0.
  apply rebuild_inv in HR. destruct HR as (Hin & _). pose proof (si_sh _ _ Hin) as Hsh.
  destruct (Nat.ltb_spec k (length f)) as [Hk|Hk].
  2:{ rewrite andb_false_r. rewrite nth_overflow by exact Hk. reflexivity. }
  rewrite andb_true_r. rewrite (fext_entry _ _ _ _ _ _ _ _ _ _ H) by exact Hk.
  destruct (Nat.leb_spec col0 k) as [H1|H1]; cbn [andb].
  - destruct (Nat.ltb_spec k (col0 + 3 * (sh_m (pn_sh p) * sh_n (pn_sh p)))) as [H2|H2].
    + cbn [size_value] in E0. rewrite (fext_entry _ _ _ _ _ _ _ _ _ _ H0) by lia. unfold entry_work.
      assert (HE : same_disp (Uof Bs (kernel_view p') col0 (unitf k)) (Uof Bs (kernel_view p') 0 (unitf (k - col0)))).
      { intros q x y _. unfold Uof. apply uvw_at_cext. intro z. unfold slice_of, unitf.
        destruct (Nat.eqb_spec (col0 + z) k); destruct (Nat.eqb_spec (0 + z) (k - col0)); try reflexivity; exfalso; lia. }
      rewrite (constant_work_ext _ _ _ _ _ HE), (incremented_work_ext _ _ _ _ _ HE). reflexivity.
    + unfold entry_work. apply work_zero. intros q x y _. unfold Uof. apply uvw_at_zero. intros z Hz. unfold slice_of, unitf.
      change (sh_m (kernel_view p')) with (sh_m (pn_sh p')) in Hz. change (sh_n (kernel_view p')) with (sh_n (pn_sh p')) in Hz. rewrite Hsh in Hz.
      destruct (Nat.eqb_spec (col0 + z) k); [exfalso; lia|reflexivity].
  - unfold entry_work. apply work_zero. intros q x y _. unfold Uof. apply uvw_at_zero. intros z Hz. unfold slice_of, unitf.
    destruct (Nat.eqb_spec (col0 + z) k); [exfalso; lia|reflexivity].
Qed.
