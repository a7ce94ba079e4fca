(* Rotations, strains and boundary values as derivatives and end values of the displacement field. *)
From Coq Require Import Reals List Arith Bool Lia Lra Permutation ZArith.
From Coquelicot Require Import Coquelicot.
From Verif Require Import Base_Sum Model_Types Model_Coo Model_Result Model_Num Model_DB Data_Bardell Model_Bardell Model_Shell Model_Field
  Spec_Algebra Spec_Kinematics Spec_Quadrature Spec_Bardell Spec_Panel Spec_Shell Spec_Field
  Proof_Poly Proof_Bardell Proof_Shell Proof_Api Proof_Field Proof_Fint2 Proof_FintApi Proof_FieldApi.
Import ListNotations.
Open Scope R_scope.

(* ------------------------------------------------- stored functions *)
Definition dtab (tab : list lit_entry) (i : nat) : Z * list Z := (tenZ SC, zderiv (zterms (snd (nth i tab (None, []))))).
Definition tab_ok (tab : list lit_entry) : bool := forallb (fun t => decimals_ok (snd t)) tab.
Lemma tabs_ok : (tab_ok lit_f && tab_ok lit_fp)%bool = true.
Proof. vm_compute. reflexivity. Qed.
Lemma dtable_f : table_check 3 7 (dtab lit_f) lit_fp = true.
Proof. vm_compute. reflexivity. Qed.
Lemma dtable_fp : table_check 4 6 (dtab lit_fp) lit_fpp = true.
Proof. vm_compute. reflexivity. Qed.
Lemma flags_f : forallb (fun it => flag_ok (fst it) (fst (snd it))) (combine (seq 0 30) lit_f) = true /\ 
  forallb (fun it => flag_ok (fst it) (fst (snd it))) (combine (seq 0 30) lit_fp) = true.
Proof. split; vm_compute; reflexivity. Qed.

Lemma tab_derive tab i x e : tab_ok tab = true -> length tab = 30%nat ->
  forallb (fun it => flag_ok (fst it) (fst (snd it))) (combine (seq 0 30) tab) = true -> (i < 30)%nat ->
  is_derive (fun x => scalar_fun tab i x e) x (flag e i * qeval (dtab tab i) x).
Proof.
  intros Ht HL HF Hi. destruct (nth_error tab i) as [t|] eqn:E; [|apply nth_error_None in E; lia].
  unfold tab_ok in Ht. rewrite forallb_forall in Ht, HF. specialize (Ht t (nth_error_In _ _ E)).
  specialize (HF _ (nth_combine_seq tab i t 30 E ltac:(lia))). cbn [fst snd] in HF.
  apply (is_derive_ext (fun x => flag e i * qeval (tenZ SC, zterms (snd t)) x)).
  - intro y. unfold scalar_fun. rewrite E. unfold lit_fun. rewrite (flag_sound _ _ _ HF), (lit_poly_z _ _ Ht).
    unfold qeval. cbn [fst snd]. rewrite tenZ_IZR. reflexivity.
  - apply (is_derive_scal (qeval (tenZ SC, zterms (snd t)))).
    unfold dtab. rewrite (nth_error_nth tab i (None, []) E). apply qeval_derive.
Qed.
Lemma code_f_derive i x e : (i < 30)%nat -> is_derive (fun x => code_f i x e) x (flag e i * qeval (dtab lit_f i) x).
Proof. intro Hi. apply tab_derive; [|reflexivity|exact (proj1 flags_f)|exact Hi]. pose proof tabs_ok as H. apply andb_true_iff in H. apply H. Qed.
Lemma code_fp_derive i x e : (i < 30)%nat -> is_derive (fun x => code_fp i x e) x (flag e i * qeval (dtab lit_fp i) x).
Proof. intro Hi. apply tab_derive; [|reflexivity|exact (proj2 flags_f)|exact Hi]. pose proof tabs_ok as H. apply andb_true_iff in H. apply H. Qed.

(* shape functions whose stored derivatives are within t1, t2 of the derivatives on dom *)
Definition near_basis (dom : R -> Prop) (t : nat -> R) (Bs : basis) : Prop :=
  forall k i x e, (k < 2)%nat -> (i < 30)%nat -> dom x ->
  near_derivative (fun x => shape Bs k i x e) x (shape Bs (S k) i x e) (t k).

Definition unit_dom (x : R) : Prop := -1 <= x <= 1.
Definition tol (k : nat) : R := match k with 0%nat => 3 / 10 ^ 7 | _ => 4 / 10 ^ 6 end.

Lemma if_le (b : bool) v : 0 <= v -> (if b then 0 else v) <= v.
Proof. destruct b; lra. Qed.
Lemma code_near : near_basis unit_dom tol code_basis.
Proof.
  intros k i x e Hk Hi Hx. destruct k as [|[|k]]; [| |lia]; cbn [shape code_basis bf bfp bfpp]; eexists.
  - split; [apply code_f_derive; exact Hi|]. eapply Rle_trans; [apply (table_bound 3 7 _ _ i x e dtable_f Hi Hx)|]. unfold tol; apply if_le; apply Rlt_le, Rdiv_lt_0_compat; [lra|apply pow_lt; lra].
  - split; [apply code_fp_derive; exact Hi|]. eapply Rle_trans; [apply (table_bound 4 6 _ _ i x e dtable_fp Hi Hx)|]. unfold tol; apply if_le; apply Rlt_le, Rdiv_lt_0_compat; [lra|apply pow_lt; lra].
Qed.
Lemma exact_near : near_basis (fun _ => True) (fun _ => 0) exact_basis.
Proof.
  intros k i x e Hk Hi _. destruct k as [|[|k]]; [| |lia]; cbn [shape exact_basis bf bfp bfpp].
  - exists (flag e i * Derive (bardell i) x). split; [|rewrite Rminus_diag_eq, Rabs_R0; lra].
    apply (is_derive_scal (bardell i)). apply Derive_correct. eexists. apply bardell_derive. exact Hi.
  - exists (flag e i * Derive_n (bardell i) 2 x). split; [|rewrite Rminus_diag_eq, Rabs_R0; lra].
    apply (is_derive_scal (Derive (bardell i))). rewrite Derive2_bardell by exact Hi.
    apply (is_derive_ext (qeval (bz1 i))); [intro; symmetry; apply Derive_bardell; exact Hi|].
    unfold bz1, bz2. apply (qeval_derive (fst (bz i)) (zderiv (snd (bz i)))).
Qed.
Lemma vec_shape k i x e : (i < 30)%nat -> shape vec_basis k i x e = shape code_basis k i x e.
Proof.
  intro Hi. destruct vec_tables as (E1 & E2 & E3), vec_lengths as (L1 & L2 & L3).
  destruct k as [|[|k]]; cbn [shape vec_basis code_basis bf bfp bfpp]; unfold code_f, code_fp, code_fpp; rewrite <- ?E1, <- ?E2, <- ?E3.
  - apply vector_is_scalar; lia.
  - apply vector_is_scalar; lia.
  - apply vector_is_scalar; lia.
Qed.
Lemma near_ext (dom : R -> Prop) t Bs Bs' : (forall k i x e, (i < 30)%nat -> shape Bs' k i x e = shape Bs k i x e) -> near_basis dom t Bs -> near_basis dom t Bs'.
Proof.
  intros HE H k i x e Hk Hi Hx. destruct (H k i x e Hk Hi Hx) as (D & HD & Hb). exists D. rewrite HE by exact Hi. split; [|exact Hb].
  apply (is_derive_ext (fun x => shape Bs k i x e)); [intro; symmetry; apply HE; exact Hi|exact HD].
Qed.
Lemma vec_near : near_basis unit_dom tol vec_basis.
Proof. exact (near_ext _ _ code_basis vec_basis vec_shape code_near). Qed.

(* ------------------------------------------------- double sums *)
Ltac req := lazymatch goal with |- @eq _ ?a ?b => change (@eq R a b) end.
Section Ritz.
Variables (m n : nat) (c : nat -> R) (d : nat).
Lemma ritz_derive_x (X : nat -> R -> R) (D Y : nat -> R) x : (forall i, (i < m)%nat -> is_derive (X i) x (D i)) ->
  is_derive (fun x => ritz m n c d (fun i => X i x) Y) x (ritz m n c d D Y).
Proof.
  intro H. unfold ritz. apply (is_derive_sumn n (fun j x => sumn m (fun i => c (3 * (j * m + i) + d)%nat * X i x * Y j))).
  intros j Hj. apply (is_derive_sumn m (fun i x => c (3 * (j * m + i) + d)%nat * X i x * Y j)). intros i Hi.
  apply (is_derive_ext (fun x => (c (3 * (j * m + i) + d)%nat * Y j) * X i x)); [intro; req; ring|].
  replace (c (3 * (j * m + i) + d)%nat * D i * Y j) with ((c (3 * (j * m + i) + d)%nat * Y j) * D i) by ring. apply (is_derive_scal (X i)). apply H. exact Hi.
Qed.
Lemma ritz_derive_y (X : nat -> R) (Y : nat -> R -> R) (D : nat -> R) y : (forall j, (j < n)%nat -> is_derive (Y j) y (D j)) ->
  is_derive (fun y => ritz m n c d X (fun j => Y j y)) y (ritz m n c d X D).
Proof.
  intro H. unfold ritz. apply (is_derive_sumn n (fun j y => sumn m (fun i => c (3 * (j * m + i) + d)%nat * X i * Y j y))).
  intros j Hj. apply (is_derive_sumn m (fun i y => c (3 * (j * m + i) + d)%nat * X i * Y j y)). intros i Hi.
  apply (is_derive_scal (Y j)). apply H. exact Hj.
Qed.
Lemma sumn_abs k f : Rabs (sumn k f) <= sumn k (fun i => Rabs (f i)).
Proof. induction k as [|k IH]; cbn [sumn]; [rewrite Rabs_R0; lra|]. eapply Rle_trans; [apply Rabs_triang|]. lra. Qed.
Lemma sumn_le' k f g : (forall i, (i < k)%nat -> f i <= g i) -> sumn k f <= sumn k g.
Proof. induction k as [|k IH]; cbn [sumn]; intro H; [lra|]. apply Rplus_le_compat; [apply IH; intros; apply H; lia|apply H; lia]. Qed.

Lemma ritz_near_x (X X' Y : nat -> R) t : (forall i, (i < m)%nat -> Rabs (X i - X' i) <= t) ->
  Rabs (ritz m n c d X Y - ritz m n c d X' Y) <= t * sumn n (fun j => sumn m (fun i => Rabs (c (3 * (j * m + i) + d)%nat) * Rabs 1 * Rabs (Y j))).
Proof.
  intro H. unfold ritz. rewrite <- sumn_minus, <- sumn_scal.
  eapply Rle_trans; [apply sumn_abs|]. apply sumn_le'. intros j Hj. rewrite <- sumn_minus, <- sumn_scal.
  eapply Rle_trans; [apply sumn_abs|]. apply sumn_le'. intros i Hi.
  replace (_ - _) with (c (3 * (j * m + i) + d)%nat * (X i - X' i) * Y j) by ring. rewrite !Rabs_mult, Rabs_R1.
  replace (t * _) with (Rabs (c (3 * (j * m + i) + d)%nat) * t * Rabs (Y j)) by ring.
  apply Rmult_le_compat_r; [apply Rabs_pos|]. apply Rmult_le_compat_l; [apply Rabs_pos|]. apply H; exact Hi.
Qed.
Lemma ritz_near_y (X Y Y' : nat -> R) t : (forall j, (j < n)%nat -> Rabs (Y j - Y' j) <= t) ->
  Rabs (ritz m n c d X Y - ritz m n c d X Y') <= t * sumn n (fun j => sumn m (fun i => Rabs (c (3 * (j * m + i) + d)%nat) * Rabs (X i) * Rabs 1)).
Proof.
  intro H. unfold ritz. rewrite <- sumn_minus, <- sumn_scal.
  eapply Rle_trans; [apply sumn_abs|]. apply sumn_le'. intros j Hj. rewrite <- sumn_minus, <- sumn_scal.
  eapply Rle_trans; [apply sumn_abs|]. apply sumn_le'. intros i Hi.
  replace (_ - _) with (c (3 * (j * m + i) + d)%nat * X i * (Y j - Y' j)) by ring. rewrite !Rabs_mult, Rabs_R1.
  replace (t * _) with (Rabs (c (3 * (j * m + i) + d)%nat) * Rabs (X i) * t) by ring.
  apply Rmult_le_compat_l; [apply Rmult_le_pos; apply Rabs_pos|]. apply H; exact Hj.
Qed.
End Ritz.

Lemma near_scal k f x v eps : near_derivative f x v eps -> near_derivative (fun x => k * f x) x (k * v) (Rabs k * eps).
Proof.
  intros (D & HD & Hb). exists (k * D). split; [apply (is_derive_scal f); exact HD|].
  replace (k * v - k * D) with (k * (v - D)) by ring. rewrite Rabs_mult. apply Rmult_le_compat_l; [apply Rabs_pos|exact Hb].
Qed.
Lemma near_ext' f g x v v' eps eps' : (forall x, f x = g x) -> v = v' -> eps = eps' -> near_derivative f x v eps -> near_derivative g x v' eps'.
Proof. intros H <- <- (D & HD & Hb). exists D. split; [apply (is_derive_ext f); assumption|exact Hb]. Qed.
Lemma near_zero f x v : near_derivative f x v 0 -> is_derive f x v.
Proof. intros (D & HD & Hb). replace v with D; [exact HD|]. pose proof (Rabs_pos (v - D)). assert (Rabs (v - D) = 0) by lra. destruct (Req_dec (v - D) 0) as [E|E]; [lra|]. apply Rabs_pos_lt in E. lra. Qed.
Lemma near_eq f x v : is_derive f x v -> near_derivative f x v 0.
Proof. intro H. exists v. split; [exact H|]. rewrite Rminus_diag_eq, Rabs_R0; lra. Qed.

Lemma natural_derive x a : is_derive (fun x => natural x a) x (2 / a).
Proof. unfold natural. auto_derive; [exact I|]. unfold Rdiv. ring. Qed.

Section Fld.
Variables (dom : R -> Prop) (t : nat -> R) (Bs : basis) (s : shell) (c : nat -> R).
Hypotheses (HB : near_basis dom t Bs) (Hm : (sh_m s <= 30)%nat) (Hn : (sh_n s <= 30)%nat) (Ha : 0 < sh_a s) (Hb : 0 < sh_b s).
Notation a := (sh_a s).
Notation b := (sh_b s).
Notation one := (fun _ : nat => 1).

Lemma near_comp f x v eps len : 0 < len -> near_derivative f (natural x len) v eps -> near_derivative (fun x => f (natural x len)) x (2 / len * v) (2 / len * eps).
Proof.
  intros Hl (D & HD & Hb'). exists (2 / len * D). assert (0 < 2 / len) by (apply Rdiv_lt_0_compat; lra). split.
  - apply (is_derive_comp f (fun x => natural x len) x D (2 / len) HD (natural_derive x len)).
  - replace (2 / len * v - 2 / len * D) with (2 / len * (v - D)) by ring. rewrite Rabs_mult, Rabs_right by lra. apply Rmult_le_compat_l; lra.
Qed.

Lemma fld_near_x d p q x Y : (p < 2)%nat -> dom (natural x a) ->
  near_derivative (fun x => fld Bs s c d p q (natural x a) Y) x (2 / a * fld Bs s c d (S p) q (natural x a) Y)
    (2 / a * (t p * abs_terms s c d one (fun j => shape Bs q j Y (yedge s d)))).
Proof.
  intros Hp Hx. apply (near_comp (fun X => fld Bs s c d p q X Y)); [exact Ha|]. unfold fld.
  exists (ritz (sh_m s) (sh_n s) c d (fun i => Derive (fun x => shape Bs p i x (xedge s d)) (natural x a)) (fun j => shape Bs q j Y (yedge s d))). split.
  - apply (ritz_derive_x _ _ _ _ (fun i x => shape Bs p i x (xedge s d))). intros i Hi.
    destruct (HB p i (natural x a) (xedge s d) Hp ltac:(lia) Hx) as (D & HD & _). apply Derive_correct. exists D. exact HD.
  - apply ritz_near_x. intros i Hi. destruct (HB p i (natural x a) (xedge s d) Hp ltac:(lia) Hx) as (D & HD & Hd).
    rewrite (is_derive_unique _ _ _ HD). exact Hd.
Qed.
Lemma fld_near_y d p q X y : (q < 2)%nat -> dom (natural y b) ->
  near_derivative (fun y => fld Bs s c d p q X (natural y b)) y (2 / b * fld Bs s c d p (S q) X (natural y b))
    (2 / b * (t q * abs_terms s c d (fun i => shape Bs p i X (xedge s d)) one)).
Proof.
  intros Hq Hy. apply (near_comp (fun Y => fld Bs s c d p q X Y)); [exact Hb|]. unfold fld.
  exists (ritz (sh_m s) (sh_n s) c d (fun i => shape Bs p i X (xedge s d)) (fun j => Derive (fun y => shape Bs q j y (yedge s d)) (natural y b))). split.
  - apply (ritz_derive_y _ _ _ _ _ (fun j y => shape Bs q j y (yedge s d))). intros j Hj.
    destruct (HB q j (natural y b) (yedge s d) Hq ltac:(lia) Hy) as (D & HD & _). apply Derive_correct. exists D. exact HD.
  - apply ritz_near_y. intros j Hj. destruct (HB q j (natural y b) (yedge s d) Hq ltac:(lia) Hy) as (D & HD & Hd).
    rewrite (is_derive_unique _ _ _ HD). exact Hd.
Qed.

(* values of the fields of uvw and strain: bounds as functions of the coefficients *)
Definition bx (d p q : nat) (y : R) : R := 2 / a * (t p * abs_terms s c d one (fun j => shape Bs q j (natural y b) (yedge s d))).
Definition by_ (d p q : nat) (x : R) : R := 2 / b * (t q * abs_terms s c d (fun i => shape Bs p i (natural x a) (xedge s d)) one).

Lemma disp_near k x y : (k < 3)%nat -> dom (natural x a) -> dom (natural y b) ->
  near_derivative (fun x => uvw_at Bs s c k x y) x (2 / a * fld Bs s c k 1 0 (natural x a) (natural y b)) (bx k 0 0 y) /\
  near_derivative (fun y => uvw_at Bs s c k x y) y (2 / b * fld Bs s c k 0 1 (natural x a) (natural y b)) (by_ k 0 0 x).
Proof.
  intros Hk Hx Hy. do 3 (destruct k as [|k]; [split; [apply fld_near_x|apply fld_near_y]; (lia || assumption)|]). lia.
Qed.
Lemma rot_near x y : dom (natural x a) -> dom (natural y b) ->
  near_derivative (fun x => uvw_at Bs s c 2 x y) x (- uvw_at Bs s c 3 x y) (bx 2 0 0 y) /\
  near_derivative (fun y => uvw_at Bs s c 2 x y) y (- uvw_at Bs s c 4 x y) (by_ 2 0 0 x).
Proof.
  intros Hx Hy. destruct (disp_near 2 x y ltac:(lia) Hx Hy) as [H1 H2].
  split; [apply (near_ext' _ _ _ _ _ _ _ (fun _ => eq_refl) (eq_sym (Ropp_involutive _)) eq_refl H1)|
          apply (near_ext' _ _ _ _ _ _ _ (fun _ => eq_refl) (eq_sym (Ropp_involutive _)) eq_refl H2)].
Qed.
Lemma scaled_near f g x v v' eps l : 0 < l -> (forall x, g x = - (2 / l * f x)) -> v' = - (2 / l * v) -> near_derivative f x v eps -> near_derivative g x v' (2 / l * eps).
Proof.
  intros Hl Hg -> H. assert (Hp : 0 < 2 / l) by (apply Rdiv_lt_0_compat; lra). apply (near_scal (- (2 / l))) in H.
  refine (near_ext' _ _ _ _ _ _ _ _ _ _ H); [intro; rewrite Hg; ring|ring|]. rewrite Rabs_Ropp, Rabs_right by lra. reflexivity.
Qed.
Lemma curv_near x y : dom (natural x a) -> dom (natural y b) ->
  near_derivative (fun x => uvw_at Bs s c 3 x y) x (lin_strain 0 Bs s c (natural x a) (natural y b) 3) (2 / a * bx 2 1 0 y) /\
  near_derivative (fun y => uvw_at Bs s c 4 x y) y (lin_strain 0 Bs s c (natural x a) (natural y b) 4) (2 / b * by_ 2 0 1 x) /\
  near_derivative (fun y => uvw_at Bs s c 3 x y) y (1 / 2 * lin_strain 0 Bs s c (natural x a) (natural y b) 5) (2 / a * by_ 2 1 0 x) /\
  near_derivative (fun x => uvw_at Bs s c 4 x y) x (1 / 2 * lin_strain 0 Bs s c (natural x a) (natural y b) 5) (2 / b * bx 2 0 1 y).
Proof.
  intros Hx Hy. assert (a <> 0) by lra. assert (b <> 0) by lra. cbn [lin_strain]. unfold d_wxx, d_wyy, d_wxy. split; [|split; [|split]].
  - refine (scaled_near _ _ _ _ _ _ _ Ha (fun x => eq_refl) _ (fld_near_x 2 1 0 x (natural y b) ltac:(lia) Hx)).
    field; auto.
  - refine (scaled_near _ _ _ _ _ _ _ Hb (fun x => eq_refl) _ (fld_near_y 2 0 1 (natural x a) y ltac:(lia) Hy)).
    field; auto.
  - refine (scaled_near _ _ _ _ _ _ _ Ha (fun x => eq_refl) _ (fld_near_y 2 1 0 (natural x a) y ltac:(lia) Hy)).
    field; auto.
  - refine (scaled_near _ _ _ _ _ _ _ Hb (fun x => eq_refl) _ (fld_near_x 2 0 1 x (natural y b) ltac:(lia) Hx)).
    field; auto.
Qed.
End Fld.

(* ------------------------------------------------- methods *)
Lemma natural_unit x len : 0 < len -> 0 <= x <= len -> unit_dom (natural x len).
Proof.
  intros Hl Hx. unfold unit_dom, natural. replace (2 * x / len) with (2 * (x / len)) by (field; lra).
  assert (0 <= x / len) by (apply Rmult_le_pos; [lra|left; apply Rinv_0_lt_compat; lra]).
  assert (x / len <= 1). { apply (Rmult_le_reg_r len); [lra|]. replace (x / len * len) with x by (field; lra). lra. } lra.
Qed.
Lemma vec_abs_terms s c d X Y : (sh_m s <= 30)%nat -> (sh_n s <= 30)%nat -> forall X' Y',
  (forall i, (i < 30)%nat -> X i = X' i) -> (forall j, (j < 30)%nat -> Y j = Y' j) -> abs_terms s c d X Y = abs_terms s c d X' Y'.
Proof.
  intros Hm Hn X' Y' HX HY. unfold abs_terms. apply sumn_ext. intros j Hj. apply sumn_ext. intros i Hi. rewrite HX, HY by lia. reflexivity.
Qed.

Section Api.
Variables (dom : R -> Prop) (t : nat -> R) (Bs : basis) (sched : scheduler) (nc : nat) (p : panel) (c : list R) (U E : nat -> R -> R -> R).
Hypotheses (HB : near_basis dom t Bs) (Hs : forall l, Permutation (sched l) l)
  (Ha : 0 < sh_a (pn_sh p)) (Hb : 0 < sh_b (pn_sh p)) (HU : uvw_is sched Bs nc p c U).
Notation a := (sh_a (pn_sh p)).
Notation b := (sh_b (pn_sh p)).
Notation Bx := (bx t Bs (pn_sh p) (vec c)).
Notation By := (by_ t Bs (pn_sh p) (vec c)).

Theorem uvw_rotations x y : dom (natural x a) -> dom (natural y b) ->
  near_derivative (fun x => U 2%nat x y) x (- U 3%nat x y) (Bx 2%nat 0%nat 0%nat y) /\
  near_derivative (fun y => U 2%nat x y) y (- U 4%nat x y) (By 2%nat 0%nat 0%nat x).
Proof.
  intros Hx Hy. destruct (uvw_is_at _ _ _ _ _ _ Hs HU) as (Hm & Hn & Hc & HV).
  destruct (rot_near dom t Bs (kernel_view p) (vec c) HB Hm Hn Ha Hb x y Hx Hy) as [H1 H2]. split.
  - refine (near_ext' _ _ _ _ _ _ _ _ _ _ H1); [intro; symmetry; apply HV; lia|rewrite HV by lia; reflexivity|reflexivity].
  - refine (near_ext' _ _ _ _ _ _ _ _ _ _ H2); [intro; symmetry; apply HV; lia|rewrite HV by lia; reflexivity|reflexivity].
Qed.

Lemma abs_sum_near v1 v2 d1 d2 e1 e2 : Rabs (v1 - d1) <= e1 -> Rabs (v2 - d2) <= e2 -> Rabs ((v1 + v2) - (d1 + d2)) <= e1 + e2.
Proof. intros H1 H2. replace (v1 + v2 - (d1 + d2)) with ((v1 - d1) + (v2 - d2)) by ring. eapply Rle_trans; [apply Rabs_triang|lra]. Qed.

Theorem strain_derivatives x y : dom (natural x a) -> dom (natural y b) -> strain_is sched Bs nc p c false E ->
  near_derivative (fun x => U 0%nat x y) x (E 0%nat x y) (Bx 0%nat 0%nat 0%nat y) /\
  near_derivative (fun y => U 1%nat x y) y (E 1%nat x y - panel_curvature p * U 2%nat x y) (By 1%nat 0%nat 0%nat x) /\
  (exists uy vx, is_derive (fun y => U 0%nat x y) y uy /\ is_derive (fun x => U 1%nat x y) x vx /\
     Rabs (E 2%nat x y - (uy + vx)) <= By 0%nat 0%nat 0%nat x + Bx 1%nat 0%nat 0%nat y) /\
  near_derivative (fun x => U 3%nat x y) x (E 3%nat x y) (2 / a * Bx 2%nat 1%nat 0%nat y) /\
  near_derivative (fun y => U 4%nat x y) y (E 4%nat x y) (2 / b * By 2%nat 0%nat 1%nat x) /\
  (exists d1 d2, is_derive (fun y => U 3%nat x y) y d1 /\ is_derive (fun x => U 4%nat x y) x d2 /\
     Rabs (E 5%nat x y - (d1 + d2)) <= 2 / a * By 2%nat 1%nat 0%nat x + 2 / b * Bx 2%nat 0%nat 1%nat y).
Proof.
  intros Hx Hy HE. destruct (uvw_is_at _ _ _ _ _ _ Hs HU) as (Hm & Hn & Hc & HV).
  destruct (strain_is_at _ _ _ _ _ _ _ Hs (Rgt_not_eq _ _ Ha) (Rgt_not_eq _ _ Hb) HE) as (Hr & HEV).
  assert (Hlow : forall k, (k < 3)%nat -> 
    near_derivative (fun x => U k x y) x (2 / a * fld Bs (kernel_view p) (vec c) k 1 0 (natural x a) (natural y b)) (Bx k 0%nat 0%nat y) /\
    near_derivative (fun y => U k x y) y (2 / b * fld Bs (kernel_view p) (vec c) k 0 1 (natural x a) (natural y b)) (By k 0%nat 0%nat x)).
  { intros k Hk. destruct (disp_near dom t Bs (kernel_view p) (vec c) HB Hm Hn Ha Hb k x y Hk Hx Hy) as [H1 H2]. split.
    - refine (near_ext' _ _ _ _ _ _ _ _ eq_refl _ H1); [intro; symmetry; apply HV; lia|reflexivity].
    - refine (near_ext' _ _ _ _ _ _ _ _ eq_refl _ H2); [intro; symmetry; apply HV; lia|reflexivity]. }
  destruct (curv_near dom t Bs (kernel_view p) (vec c) HB Hm Hn Ha Hb x y Hx Hy) as (C1 & C2 & C3 & C4).
  assert (HE' : forall k, (k < 6)%nat -> E k x y = lin_strain (panel_curvature p) Bs (kernel_view p) (vec c) (natural x a) (natural y b) k).
  { intros k Hk. rewrite HEV by exact Hk. unfold strain_at. rewrite field_curvature_panel by exact Hr. reflexivity. }
  assert (HK : forall k, (3 <= k < 6)%nat -> E k x y = lin_strain 0 Bs (kernel_view p) (vec c) (natural x a) (natural y b) k).
  { intros k Hk. rewrite HE' by lia. do 3 (destruct k as [|k]; [lia|]). do 3 (destruct k as [|k]; [reflexivity|]). lia. }
  split; [|split; [|split; [|split; [|split]]]].
  - destruct (Hlow 0%nat ltac:(lia)) as [H1 _]. refine (near_ext' _ _ _ _ _ _ _ (fun _ => eq_refl) _ eq_refl H1). rewrite HE' by lia. reflexivity.
  - destruct (Hlow 1%nat ltac:(lia)) as [_ H1]. refine (near_ext' _ _ _ _ _ _ _ (fun _ => eq_refl) _ eq_refl H1). rewrite HE' by lia.
    cbn [lin_strain]. rewrite HV by lia. unfold uvw_at, d_vy. cbn [kernel_view sh_a sh_b]. ring.
  - destruct (Hlow 0%nat ltac:(lia)) as [_ (D1 & HD1 & HB1)], (Hlow 1%nat ltac:(lia)) as [(D2 & HD2 & HB2) _].
    exists D1, D2. split; [exact HD1|]. split; [exact HD2|]. rewrite HE' by lia. exact (abs_sum_near _ _ _ _ _ _ HB1 HB2).
  - refine (near_ext' _ _ _ _ _ _ _ _ _ eq_refl C1); [intro; symmetry; apply HV; lia|rewrite HK by lia; reflexivity].
  - refine (near_ext' _ _ _ _ _ _ _ _ _ eq_refl C2); [intro; symmetry; apply HV; lia|rewrite HK by lia; reflexivity].
  - destruct C3 as (D1 & HD1 & HB1), C4 as (D2 & HD2 & HB2). exists D1, D2.
    split; [apply (is_derive_ext (fun y => uvw_at Bs (kernel_view p) (vec c) 3 x y)); [intro; symmetry; apply HV; lia|exact HD1]|].
    split; [apply (is_derive_ext (fun x => uvw_at Bs (kernel_view p) (vec c) 4 x y)); [intro; symmetry; apply HV; lia|exact HD2]|].
    rewrite HK by lia. pose proof (abs_sum_near _ _ _ _ _ _ HB1 HB2) as H.
    set (L := lin_strain _ _ _ _ _ _ 5) in *. assert (HL : 1 / 2 * L + 1 / 2 * L = L) by field.
    change (lin_strain 0 Bs (kernel_view p) (vec c) (natural x (sh_a (kernel_view p))) (natural y (sh_b (kernel_view p))) 5) with L in H.
    rewrite HL in H. exact H.
Qed.

(* C13: nonlinear strains *)
Variable E' : nat -> R -> R -> R.
Theorem strain_nonlinear x y : strain_is sched Bs nc p c false E -> strain_is sched Bs nc p c true E' ->
  E' 0%nat x y = E 0%nat x y + 1 / 2 * (U 3%nat x y * U 3%nat x y) /\
  E' 1%nat x y = E 1%nat x y + 1 / 2 * (U 4%nat x y * U 4%nat x y) /\
  E' 2%nat x y = E 2%nat x y + 2 * (U 3%nat x y * U 4%nat x y) /\
  (forall k, (3 <= k < 6)%nat -> E' k x y = E k x y).
Proof.
  intros HE HE'. destruct (uvw_is_at _ _ _ _ _ _ Hs HU) as (Hm & Hn & Hc & HV).
  destruct (strain_is_at _ _ _ _ _ _ _ Hs (Rgt_not_eq _ _ Ha) (Rgt_not_eq _ _ Hb) HE) as (Hr & HEV).
  destruct (strain_is_at _ _ _ _ _ _ _ Hs (Rgt_not_eq _ _ Ha) (Rgt_not_eq _ _ Hb) HE') as (_ & HEV').
  rewrite !HEV, !HEV', !HV by lia. unfold strain_at, uvw_at, doubled_strain, strain. cbn [vk_strain]. repeat split; try field.
  intros k Hk. rewrite HEV, HEV' by lia. unfold strain_at, doubled_strain, strain. do 3 (destruct k as [|k]; [lia|]).
  do 3 (destruct k as [|k]; [cbn [vk_strain]; ring|]). lia.
Qed.
End Api.
