(* Numerical integration over adjacent windows. *)
From Coq Require Import Reals List Arith Bool Lia Lra.
From Coquelicot Require Import Coquelicot.
From Verif Require Import Base_Sum Model_Types Model_Coo Model_Result Model_Num Model_DB Model_Shell
  Spec_Algebra Spec_Kinematics Spec_Quadrature Spec_Panel Spec_Shell Spec_Integral Spec_Window
  Proof_Num Proof_Shell Proof_Total Proof_Api Proof_AnaApi Proof_FintApi Proof_Aero.
Import ListNotations.
Open Scope R_scope.

(* ------------------------------------------------- polynomials *)
Fixpoint padd (p q : list R) : list R :=
  match p, q with [], _ => q | _, [] => p | a :: p', b :: q' => (a + b) :: padd p' q' end.
Definition pscale (k : R) (p : list R) : list R := map (Rmult k) p.
Fixpoint pmul (p q : list R) : list R := match p with [] => [] | a :: p' => padd (pscale a q) (0 :: pmul p' q) end.
Lemma poly_padd p : forall q x, poly (padd p q) x = poly p x + poly q x.
Proof. induction p as [|a p IH]; intros [|b q] x; cbn; try ring. rewrite IH. ring. Qed.
Lemma poly_pscale k p x : poly (pscale k p) x = k * poly p x.
Proof. unfold pscale. induction p as [|a p IH]; cbn; [ring|]. rewrite IH. ring. Qed.
Lemma poly_pmul p q x : poly (pmul p q) x = poly p x * poly q x.
Proof. induction p as [|a p IH]; cbn [pmul poly]; [ring|]. rewrite poly_padd, poly_pscale. cbn [poly]. rewrite IH. ring. Qed.
Lemma padd_length p : forall q, length (padd p q) = Nat.max (length p) (length q).
Proof. induction p as [|a p IH]; intros [|b q]; cbn; try reflexivity. rewrite IH. reflexivity. Qed.
Lemma pmul_length p q d e : (length p <= S d)%nat -> (length q <= S e)%nat -> (length (pmul p q) <= S (d + e))%nat.
Proof.
  revert d. induction p as [|a p IH]; intros d Hp Hq; cbn [pmul length] in *; [lia|].
  rewrite padd_length. unfold pscale. rewrite map_length. cbn [length].
  destruct d as [|d].
  - destruct p; [cbn; lia|cbn in Hp; lia].
  - specialize (IH d). assert (length (pmul p q) <= S (d + e))%nat by (apply IH; [lia|exact Hq]). lia.
Qed.

Lemma pu_ext d f g : (forall x, f x = g x) -> poly_upto d f -> poly_upto d g.
Proof. intros H (l & Hl & Hf). exists l. split; [exact Hl|]. intro x. rewrite <- H. apply Hf. Qed.
Lemma pu_weaken d e f : (d <= e)%nat -> poly_upto d f -> poly_upto e f.
Proof. intros H (l & Hl & Hf). exists l. split; [lia|exact Hf]. Qed.
Lemma pu_const d c : poly_upto d (fun _ => c).
Proof. exists [c]. split; [cbn; lia|]. intro x; cbn; ring. Qed.
Lemma pu_plus d f g : poly_upto d f -> poly_upto d g -> poly_upto d (fun x => f x + g x).
Proof. intros (l & Hl & Hf) (k & Hk & Hg). exists (padd l k). split; [rewrite padd_length; lia|]. intro x. rewrite poly_padd, Hf, Hg. reflexivity. Qed.
Lemma pu_scale d k f : poly_upto d f -> poly_upto d (fun x => k * f x).
Proof. intros (l & Hl & Hf). exists (pscale k l). split; [unfold pscale; rewrite map_length; exact Hl|]. intro x. rewrite poly_pscale, Hf. reflexivity. Qed.
Lemma pu_mult d e f g : poly_upto d f -> poly_upto e g -> poly_upto (d + e) (fun x => f x * g x).
Proof. intros (l & Hl & Hf) (k & Hk & Hg). exists (pmul l k). split; [apply pmul_length; assumption|]. intro x. rewrite poly_pmul, Hf, Hg. reflexivity. Qed.
Lemma pu_sum d n f : (forall i, (i < n)%nat -> poly_upto d (f i)) -> poly_upto d (fun x => sumn n (fun i => f i x)).
Proof.
  induction n as [|n IH]; intro H; cbn [sumn]; [apply pu_const|]. apply pu_plus; [apply IH; intros; apply H; lia|apply H; lia].
Qed.
Lemma pu_affine d f u v : poly_upto d f -> poly_upto d (fun x => f (u * x + v)).
Proof.
  intros (l & Hl & Hf). apply (pu_ext d (fun x => poly l (u * x + v))); [intro; rewrite Hf; reflexivity|].
  clear f Hf. revert d Hl. induction l as [|c l IH]; intros d Hl; cbn [poly]; [apply pu_const|].
  destruct l as [|c' l].
  - cbn. apply (pu_ext d (fun _ => c)); [intro; ring|apply pu_const].
  - destruct d as [|d]; [cbn in Hl; lia|].
    apply pu_plus; [apply pu_const|]. apply (pu_mult 1 d); [|apply IH; cbn in *; lia].
    exists [v; u]. split; [cbn; lia|]. intro; cbn; ring.
Qed.
Lemma poly_cont l x : continuous (poly l) x.
Proof.
  induction l as [|c l IH]; [apply continuous_const|].
  apply (continuous_plus (fun _ => c) (fun x => x * poly l x)); [apply continuous_const|].
  apply (continuous_mult (fun x => x) (poly l)); [apply continuous_id|exact IH].
Qed.
Lemma pu_ex d f lo hi : poly_upto d f -> ex_RInt f lo hi.
Proof.
  intros (l & _ & Hf). apply (ex_RInt_ext (poly l)); [intros; symmetry; apply Hf|].
  apply (@ex_RInt_continuous R_CompleteNormedModule). intros x _. apply poly_cont.
Qed.

(* ------------------------------------------------- rules moved to a window *)
Lemma rule_window Q n d f lo hi : rule_exact Q n d -> poly_upto d f ->
  suml (Q n) (fun t => snd t * ((hi - lo) / 2) * f (node lo hi (fst t))) = RInt f lo hi.
Proof.
  intros [_ HQ] Hf.
  set (g := fun t => (hi - lo) / 2 * f ((hi - lo) / 2 * t + (lo + hi) / 2)).
  assert (Hg : poly_upto d g) by (apply pu_scale, pu_affine; exact Hf).
  pose proof (HQ g Hg) as HI.
  assert (HC : is_RInt g (-1) 1 (RInt f lo hi)).
  { apply (is_RInt_comp_lin f ((hi - lo) / 2) ((lo + hi) / 2) (-1) 1).
    replace ((hi - lo) / 2 * -1 + (lo + hi) / 2) with lo by field. replace ((hi - lo) / 2 * 1 + (lo + hi) / 2) with hi by field.
    apply (@RInt_correct R_CompleteNormedModule). eapply pu_ex; exact Hf. }
  rewrite <- (@is_RInt_unique R_CompleteNormedModule _ _ _ _ HC), (@is_RInt_unique R_CompleteNormedModule _ _ _ _ HI).
  apply suml_ext. intros t _. unfold g, node.
  replace ((hi - lo) / 2 * fst t + (lo + hi) / 2) with (lo + (hi - lo) * (fst t + 1) / 2) by field. ring.
Qed.
Lemma suml_combine {A} (l : list A) n (f : A -> R) : length l = n -> suml (combine (seq 0 n) l) (fun x => f (snd x)) = suml l f.
Proof.
  intros <-. generalize 0%nat. induction l as [|a l IH]; intro k; cbn; [reflexivity|]. unfold suml in *. cbn. rewrite IH. reflexivity.
Qed.

Section Split.
Variables (Q : rule) (s : shell) (nx ny : nat) (g : R -> R -> R).
Let I (x1 x2 y1 y2 : R) := integrate Q (shell_limits s x1 x2 y1 y2) nx ny (fun _ _ xi eta => g xi eta).
Lemma interval_given p1 p2 len : given p1 p2 -> interval p1 p2 len = (p1, p2).
Proof. intros [H1 H2]. unfold interval. destruct (Req_EM_T p1 (-1)); [contradiction|]. destruct (Req_EM_T p2 (-1)); [contradiction|reflexivity]. Qed.

(* the integral over a window: a sum over the points in y of an integral over x *)
Lemma integrate_x d x1 x2 y1 y2 : rule_exact Q nx d -> sh_a s <> 0 -> (forall eta, poly_upto d (fun xi => g xi eta)) -> given x1 x2 ->
  I x1 x2 y1 y2 = suml (combine (seq 0 ny) (Q ny)) (fun py =>
    let '(ylo, yhi) := interval y1 y2 (sh_b s) in
    snd (snd py) * ((yhi - ylo) / 2) * RInt (fun x => g (natural x (sh_a s)) (natural (node ylo yhi (fst (snd py))) (sh_b s))) x1 x2).
Proof.
  intros HQ Ha Hg Hx. unfold I, integrate. rewrite suml_swap. apply suml_ext. intros py _.
  unfold xregion, yregion. cbn [shell_limits sh_x1 sh_x2 sh_y1 sh_y2 sh_a sh_b]. rewrite interval_given by exact Hx.
  destruct (interval y1 y2 (sh_b s)) as [ylo yhi].
  rewrite <- (rule_window Q nx d _ x1 x2 HQ).
  - rewrite <- suml_scal. destruct HQ as [HL _].
    rewrite <- (suml_combine (Q nx) nx _ HL). apply suml_ext. intros px _. ring.
  - apply (pu_ext d (fun x => g (2 / sh_a s * x + - 1) (natural (node ylo yhi (fst (snd py))) (sh_b s)))).
    + intro x. unfold natural. f_equal. field. exact Ha.
    + apply (pu_affine d (fun xi => g xi (natural (node ylo yhi (fst (snd py))) (sh_b s)))). apply Hg.
Qed.
Lemma integrate_y d x1 x2 y1 y2 : rule_exact Q ny d -> sh_b s <> 0 -> (forall xi, poly_upto d (fun eta => g xi eta)) -> given y1 y2 ->
  I x1 x2 y1 y2 = suml (combine (seq 0 nx) (Q nx)) (fun px =>
    let '(xlo, xhi) := interval x1 x2 (sh_a s) in
    snd (snd px) * ((xhi - xlo) / 2) * RInt (fun y => g (natural (node xlo xhi (fst (snd px))) (sh_a s)) (natural y (sh_b s))) y1 y2).
Proof.
  intros HQ Hb Hg Hy. unfold I, integrate. apply suml_ext. intros px _.
  unfold xregion, yregion. cbn [shell_limits sh_x1 sh_x2 sh_y1 sh_y2 sh_a sh_b]. rewrite (interval_given y1 y2) by exact Hy.
  destruct (interval x1 x2 (sh_a s)) as [xlo xhi].
  rewrite <- (rule_window Q ny d _ y1 y2 HQ).
  - rewrite <- suml_scal. destruct HQ as [HL _].
    rewrite <- (suml_combine (Q ny) ny _ HL). apply suml_ext. intros py _. ring.
  - apply (pu_ext d (fun y => g (natural (node xlo xhi (fst (snd px))) (sh_a s)) (2 / sh_b s * y + - 1))).
    + intro y. unfold natural. f_equal. field. exact Hb.
    + apply (pu_affine d (fun eta => g (natural (node xlo xhi (fst (snd px))) (sh_a s)) eta)). apply Hg.
Qed.
Lemma nat_poly d len eta : len <> 0 -> (forall e, poly_upto d (fun xi => g xi e)) -> poly_upto d (fun x => g (natural x len) eta).
Proof.
  intros Ha Hg. apply (pu_ext d (fun x => g (2 / len * x + - 1) eta)).
  - intro x. unfold natural. f_equal. field. exact Ha.
  - apply (pu_affine d (fun xi => g xi eta)). apply Hg.
Qed.
Lemma nat_poly' d len xi : len <> 0 -> (forall e, poly_upto d (fun eta => g e eta)) -> poly_upto d (fun y => g xi (natural y len)).
Proof.
  intros Ha Hg. apply (pu_ext d (fun y => g xi (2 / len * y + - 1))).
  - intro x. unfold natural. f_equal. field. exact Ha.
  - apply (pu_affine d (fun eta => g xi eta)). apply Hg.
Qed.
Lemma split_x d x1 x2 x3 y1 y2 : rule_exact Q nx d -> sh_a s <> 0 -> (forall eta, poly_upto d (fun xi => g xi eta)) ->
  given x1 x2 -> given x2 x3 -> I x1 x3 y1 y2 = I x1 x2 y1 y2 + I x2 x3 y1 y2.
Proof.
  intros HQ Ha Hg H12 H23. assert (H13 : given x1 x3) by (destruct H12, H23; split; assumption).
  rewrite !(integrate_x d) by assumption. rewrite <- suml_plus. apply suml_ext. intros py _.
  destruct (interval y1 y2 (sh_b s)) as [ylo yhi].
  rewrite <- (RInt_Chasles (fun x => g (natural x (sh_a s)) (natural (node ylo yhi (fst (snd py))) (sh_b s))) x1 x2 x3).
  - change plus with Rplus. ring.
  - apply (pu_ex d). apply nat_poly; assumption.
  - apply (pu_ex d). apply nat_poly; assumption.
Qed.
Lemma split_y d x1 x2 y1 y2 y3 : rule_exact Q ny d -> sh_b s <> 0 -> (forall xi, poly_upto d (fun eta => g xi eta)) ->
  given y1 y2 -> given y2 y3 -> I x1 x2 y1 y3 = I x1 x2 y1 y2 + I x1 x2 y2 y3.
Proof.
  intros HQ Ha Hg H12 H23. assert (H13 : given y1 y3) by (destruct H12, H23; split; assumption).
  rewrite !(integrate_y d) by assumption. rewrite <- suml_plus. apply suml_ext. intros px _.
  destruct (interval x1 x2 (sh_a s)) as [xlo xhi].
  rewrite <- (RInt_Chasles (fun y => g (natural (node xlo xhi (fst (snd px))) (sh_a s)) (natural y (sh_b s))) y1 y2 y3).
  - change plus with Rplus. ring.
  - apply (pu_ex d). apply nat_poly'; assumption.
  - apply (pu_ex d). apply nat_poly'; assumption.
Qed.
End Split.

(* ------------------------------------------------- degrees of the integrands *)
Definition poly2 (d : nat) (g : R -> R -> R) : Prop :=
  (forall eta, poly_upto d (fun xi => g xi eta)) /\ (forall xi, poly_upto d (fun eta => g xi eta)).
Lemma p2_ext d f g : (forall x y, f x y = g x y) -> poly2 d f -> poly2 d g.
Proof.
  intros H [H1 H2]. split; intro t.
  - apply (pu_ext d (fun x => f x t)); [intro; apply H|apply H1].
  - apply (pu_ext d (f t)); [intro; apply H|apply H2].
Qed.
Lemma p2_weaken d e f : (d <= e)%nat -> poly2 d f -> poly2 e f.
Proof. intros H [H1 H2]. split; intro; apply (pu_weaken d e); auto. Qed.
Lemma p2_const d c : poly2 d (fun _ _ => c).
Proof. split; intro; apply pu_const. Qed.
Lemma p2_plus d f g : poly2 d f -> poly2 d g -> poly2 d (fun x y => f x y + g x y).
Proof. intros [H1 H2] [H3 H4]. split; intro t; [apply (pu_plus d (fun x => f x t) (fun x => g x t))|apply (pu_plus d (f t) (g t))]; auto. Qed.
Lemma p2_scale d k f : poly2 d f -> poly2 d (fun x y => k * f x y).
Proof. intros [H1 H2]. split; intro t; [apply (pu_scale d k (fun x => f x t))|apply (pu_scale d k (f t))]; auto. Qed.
Lemma p2_opp d f : poly2 d f -> poly2 d (fun x y => - f x y).
Proof. intro H. apply (p2_ext d (fun x y => -1 * f x y)); [intros; ring|apply p2_scale; exact H]. Qed.
Lemma p2_mult d e f g : poly2 d f -> poly2 e g -> poly2 (d + e) (fun x y => f x y * g x y).
Proof. intros [H1 H2] [H3 H4]. split; intro t; [apply (pu_mult d e (fun x => f x t) (fun x => g x t))|apply (pu_mult d e (f t) (g t))]; auto. Qed.
Lemma p2_sum d n f : (forall i, (i < n)%nat -> poly2 d (f i)) -> poly2 d (fun x y => sumn n (fun i => f i x y)).
Proof.
  intro H. split; intro t; [apply (pu_sum d n (fun i x => f i x t))|apply (pu_sum d n (fun i => f i t))]; intros i Hi; apply H; exact Hi.
Qed.

Section Degrees.
Variables (Bs : basis) (s : shell) (D : nat) (kappa : R).
Hypothesis HB : poly_basis Bs (Nat.max (sh_m s) (sh_n s)) D.
Lemma fld_poly c d p q : poly2 D (fld Bs s c d p q).
Proof using HB.
  unfold fld, ritz. split; intro t.
  - apply (pu_sum D (sh_n s) (fun j x => sumn (sh_m s) (fun i => c (3 * (j * sh_m s + i) + d)%nat * shape Bs p i x (xedge s d) * shape Bs q j t (yedge s d)))).
    intros j Hj. apply (pu_sum D (sh_m s) (fun i x => c (3 * (j * sh_m s + i) + d)%nat * shape Bs p i x (xedge s d) * shape Bs q j t (yedge s d))).
    intros i Hi. apply (pu_ext D (fun x => c (3 * (j * sh_m s + i) + d)%nat * shape Bs q j t (yedge s d) * shape Bs p i x (xedge s d))); [intro; ring|].
    apply pu_scale. apply HB. lia.
  - apply (pu_sum D (sh_n s) (fun j x => sumn (sh_m s) (fun i => c (3 * (j * sh_m s + i) + d)%nat * shape Bs p i t (xedge s d) * shape Bs q j x (yedge s d)))).
    intros j Hj. apply (pu_sum D (sh_m s) (fun i x => c (3 * (j * sh_m s + i) + d)%nat * shape Bs p i t (xedge s d) * shape Bs q j x (yedge s d))).
    intros i Hi. apply pu_scale. apply HB. lia.
Qed.
Ltac slope := unfold d_u, d_v, d_w, d_ux, d_uy, d_vx, d_vy, d_wx, d_wy, d_wxx, d_wyy, d_wxy; (apply p2_scale, fld_poly || apply fld_poly).
Lemma lin_poly c k : poly2 D (fun xi eta => lin_strain kappa Bs s c xi eta k).
Proof using HB.
  unfold lin_strain. destruct k as [|[|[|[|[|[|k]]]]]].
  - slope.
  - apply p2_plus; [slope|]. apply p2_scale. slope.
  - apply p2_plus; slope.
  - apply p2_opp. slope.
  - apply p2_opp. slope.
  - apply p2_opp, p2_scale. slope.
  - apply p2_const.
Qed.
Lemma vk_poly c k : poly2 (D + D) (fun xi eta => vk_strain Bs s c xi eta k).
Proof using HB.
  unfold vk_strain. destruct k as [|[|[|k]]].
  - apply p2_scale, p2_mult; slope.
  - apply p2_scale, p2_mult; slope.
  - apply p2_mult; slope.
  - apply p2_const.
Qed.
Lemma dstrain_poly c v k : poly2 (D + D) (fun xi eta => dstrain kappa Bs s c v xi eta k).
Proof using HB.
  unfold dstrain. apply p2_plus; [apply (p2_weaken D); [lia|apply lin_poly]|].
  destruct k as [|[|[|k]]].
  - apply p2_mult; slope.
  - apply p2_mult; slope.
  - apply p2_plus; apply p2_mult; slope.
  - apply p2_const.
Qed.
Lemma dstrain0_poly v k : poly2 D (fun xi eta => dstrain kappa Bs s (fun _ => 0) v xi eta k).
Proof using HB.
  apply (p2_ext D (fun xi eta => lin_strain kappa Bs s v xi eta k)); [|apply lin_poly].
  intros x y. unfold dstrain.
  assert (Z : forall d p q, fld Bs s (fun _ => 0) d p q x y = 0).
  { intros. unfold fld, ritz. apply sumn_0. intros. apply sumn_0. intros. ring. }
  unfold d_wx, d_wy. rewrite !Z. destruct k as [|[|[|k]]]; ring.
Qed.
Lemma state_poly (NL : bool) c v k : poly2 (if NL then D + D else D) (fun xi eta => dstrain kappa Bs s (state NL c) v xi eta k).
Proof using HB. destruct NL; [apply dstrain_poly|apply dstrain0_poly]. Qed.
Lemma doubled_poly c k : poly2 (D + D) (fun xi eta => doubled_strain kappa Bs s c xi eta k).
Proof using HB.
  unfold doubled_strain, strain. apply p2_plus.
  - apply p2_plus; [apply (p2_weaken D); [lia|apply lin_poly]|apply vk_poly].
  - destruct k as [|[|[|k]]]; try apply p2_const. apply p2_mult; slope.
Qed.
Lemma form_poly n F d (e e' : R -> R -> nat -> R) : (forall k, poly2 d (fun x y => e x y k)) -> (forall k, poly2 d (fun x y => e' x y k)) ->
  poly2 (d + d) (fun x y => form n F (e x y) (e' x y)).
Proof using Type.
  intros H1 H2. unfold form. apply (p2_sum (d + d) n (fun i x y => sumn n (fun j => F i j * e x y i * e' x y j))). intros i _.
  apply (p2_sum (d + d) n (fun j x y => F i j * e x y i * e' x y j)). intros j _.
  apply p2_mult; [apply p2_scale, H1|apply H2].
Qed.
Lemma resultant_poly F d (e : R -> R -> nat -> R) k : (forall k, poly2 d (fun x y => e x y k)) -> poly2 d (fun x y => resultant F (e x y) k).
Proof using Type.
  intros H. unfold resultant. apply (p2_sum d 6 (fun l x y => F k l * e x y l)). intros l _. apply p2_scale, H.
Qed.
Lemma dot_poly d d' n (e e' : R -> R -> nat -> R) : (forall k, poly2 d (fun x y => e x y k)) -> (forall k, poly2 d' (fun x y => e' x y k)) ->
  poly2 (d + d') (fun x y => dot n (e x y) (e' x y)).
Proof using Type.
  intros H1 H2. unfold dot. apply (p2_sum (d + d') n (fun l x y => e x y l * e' x y l)). intros l _. apply p2_mult; auto.
Qed.
Lemma membrane_poly d (N1 N2 N3 : R -> R -> R) u v : poly2 d N1 -> poly2 d N2 -> poly2 d N3 ->
  poly2 (d + (D + D)) (fun x y => membrane_work Bs s (N1 x y) (N2 x y) (N3 x y) u v x y).
Proof using HB.
  intros H1 H2 H3. unfold membrane_work. repeat apply p2_plus.
  - apply p2_mult; [exact H1|]. apply p2_mult; slope.
  - apply p2_mult; [exact H2|]. apply p2_mult; slope.
  - apply p2_mult; [exact H3|]. apply p2_plus; apply p2_mult; slope.
Qed.
Lemma kinetic_poly tw h rho off u v : poly2 (D + D) (kinetic Bs s tw h rho off u v).
Proof using HB.
  assert (U : forall v, poly2 D (fun x y => d_u Bs s v x y + off * d_wx Bs s v x y)) by (intro; apply p2_plus; [slope|apply p2_scale; slope]).
  assert (V : forall v, poly2 D (fun x y => d_v Bs s v x y + off * d_wy Bs s v x y)) by (intro; apply p2_plus; [slope|apply p2_scale; slope]).
  unfold kinetic. cbv zeta. apply p2_plus; apply p2_scale.
  - repeat apply p2_plus.
    + apply (p2_mult D D _ _ (U u) (U v)).
    + apply (p2_mult D D _ _ (V u) (V v)).
    + apply p2_mult; slope.
  - apply p2_plus; apply p2_mult; slope.
Qed.
End Degrees.

(* ------------------------------------------------- the functions of the package are polynomials *)
From Verif Require Import Model_Bardell Spec_Bardell Data_Bardell Proof_Poly Proof_Bardell Spec_Window.
Lemma mono_poly d k c : (k <= d)%nat -> poly_upto d (fun x => c * x ^ k).
Proof.
  intro H. exists (repeat 0 k ++ [c]). split.
  - rewrite app_length, repeat_length. cbn. lia.
  - intro x. clear H. induction k as [|k IH]; cbn [repeat app poly pow]; [ring|]. rewrite <- IH. ring.
Qed.
Lemma lit_poly_upto d l : forallb (fun t => (fst t <=? d)%nat) l = true -> poly_upto d (lit_poly l).
Proof.
  unfold lit_poly. induction l as [|t l IH]; intro H.
  - exists []. split; [cbn; lia|]. intro x. reflexivity.
  - cbn [forallb] in H. apply andb_true_iff in H. destruct H as [H1 H2]. apply Nat.leb_le in H1.
    apply (pu_plus d (fun x => lit_val (snd t) * x ^ fst t) (fun x => suml l (fun t => lit_val (snd t) * x ^ fst t))).
    + apply mono_poly. exact H1.
    + apply IH, H2.
Qed.
Definition deg_check (tab : list lit_entry) : bool :=
  forallb (fun it => forallb (fun t => (fst t <=? Nat.max 3 (fst it))%nat) (snd (snd it))) (combine (seq 0 30) tab).
Lemma deg_checked : deg_check lit_f = true /\ deg_check lit_fp = true /\ deg_check lit_fpp = true /\
  length lit_f = 30%nat /\ length lit_fp = 30%nat /\ length lit_fpp = 30%nat.
Proof. vm_compute. repeat split; reflexivity. Qed.
Lemma scalar_poly tab i e d : deg_check tab = true -> length tab = 30%nat -> (i <= d)%nat -> (3 <= d)%nat ->
  poly_upto d (fun x => scalar_fun tab i x e).
Proof.
  intros HC HL Hi H3. unfold scalar_fun. destruct (nth_error tab i) as [t|] eqn:En.
  - unfold lit_fun. apply pu_scale. apply lit_poly_upto.
    unfold deg_check in HC. rewrite forallb_forall in HC.
    specialize (HC (i, t) (nth_combine_seq tab i t 30 En ltac:(lia))). cbn [fst snd] in HC.
    apply forallb_forall. intros u Hu. rewrite forallb_forall in HC. specialize (HC u Hu). apply Nat.leb_le in HC. apply Nat.leb_le. lia.
  - apply pu_const.
Qed.
Theorem code_basis_poly m : poly_basis code_basis m (Nat.max 3 (m - 1)).
Proof.
  destruct deg_checked as (C1 & C2 & C3 & L1 & L2 & L3).
  intros p i e Hi. destruct p as [|[|p]]; cbn [shape code_basis bf bfp bfpp]; unfold code_f, code_fp, code_fpp; apply scalar_poly; try assumption; lia.
Qed.
Lemma zeval_poly l : forall x, zeval l x = poly (map IZR l) x.
Proof. induction l as [|a l IH]; intro x; cbn; [reflexivity|]. rewrite IH. reflexivity. Qed.
Lemma zderiv_from_length l : forall k, length (zderiv_from k l) = length l.
Proof. induction l as [|a l IH]; intro k; cbn; [reflexivity|]. rewrite IH. reflexivity. Qed.
Lemma zderiv_length l : (length (zderiv l) <= length l)%nat.
Proof. destruct l as [|a l]; cbn; [lia|]. rewrite zderiv_from_length. lia. Qed.
Lemma bz_degs : forallb (fun i => (length (snd (bz i)) <=? S (Nat.max 3 i))%nat) (seq 0 30) = true.
Proof. vm_compute. reflexivity. Qed.
Lemma qeval_upto d q : (length (snd q) <= S d)%nat -> poly_upto d (qeval q).
Proof.
  intro H. apply (pu_ext d (fun x => / IZR (fst q) * zeval (snd q) x)).
  - intro x. unfold qeval, Rdiv. ring.
  - apply pu_scale. exists (map IZR (snd q)). split; [rewrite map_length; exact H|]. apply zeval_poly.
Qed.
Theorem exact_basis_poly m : (m <= 30)%nat -> poly_basis exact_basis m (Nat.max 3 (m - 1)).
Proof.
  intros Hm p i e Hi. assert (Hi' : (i < 30)%nat) by lia.
  assert (HL : (length (snd (bz i)) <= S (Nat.max 3 (m - 1)))%nat).
  { pose proof bz_degs as H. rewrite forallb_forall in H. specialize (H i ltac:(apply in_seq; lia)). apply Nat.leb_le in H. lia. }
  destruct p as [|[|p]]; cbn [shape exact_basis bf bfp bfpp]; apply pu_scale.
  - eapply pu_ext; [intro x; symmetry; apply bardell_qeval; exact Hi'|]. apply qeval_upto. exact HL.
  - eapply pu_ext; [intro x; symmetry; apply Derive_bardell; exact Hi'|]. apply qeval_upto.
    unfold bz1. cbn [snd]. pose proof (zderiv_length (snd (bz i))). lia.
  - eapply pu_ext; [intro x; symmetry; apply Derive2_bardell; exact Hi'|]. apply qeval_upto.
    unfold bz2. cbn [snd]. pose proof (zderiv_length (snd (bz i))). pose proof (zderiv_length (zderiv (snd (bz i)))). lia.
Qed.

(* ------------------------------------------------- matrices of adjacent windows *)
Definition kC_degree (A : kargs) (D : nat) : nat := let d := if ka_NL A then (D + D)%nat else D in (d + d)%nat.
Definition kG_degree (A : kargs) (D : nat) : nat := ((if ka_NL A then (D + D) else D) + (D + D))%nat.

Lemma entrywise (K1 K2 K3 : nat -> nat -> R) :
  (exists N0, forall N c d, (N0 <= N)%nat -> bilinear N K3 c d = bilinear N K1 c d + bilinear N K2 c d) ->
  forall r t, K3 r t = K1 r t + K2 r t.
Proof.
  intros [N0 H] r t. set (N := (N0 + S r + S t)%nat). specialize (H N (unitv r) (unitv t) ltac:(unfold N; lia)).
  rewrite !bilinear_unit in H by (unfold N; lia). exact H.
Qed.

Section kC.
Variables (E : env) (A : kargs) (p : panel) (F : nat -> nat -> R) (D : nat).
Hypothesis Hnum : numeric_kC A.
Hypothesis Hcte : ka_c_cte A = None.
Hypothesis HN : pn_N_cte p = (0, 0, 0).
Hypothesis Hfin : ka_fin A = true.
Hypothesis Hrc : ka_row0 A = ka_col0 A.
Hypothesis Hg : geometry_ok (chosen_model p) (kernel_view p).
Hypothesis HF : laminate_used E A p = FMat F.
Hypothesis HABD : is_ABD F.
Hypothesis HB : poly_basis (e_basis E) (Nat.max (sh_m (pn_sh p)) (sh_n (pn_sh p))) D.
Let g c d xi eta := let eps v := dstrain (curvature (chosen_model p) (kernel_view p)) (e_basis E) (kernel_view p)
                   (state (ka_NL A) (own (ka_col0 A) (given_vector (ka_c A)))) (own (ka_col0 A) v) xi eta in
    form 6 F (eps c) (eps d).
Lemma kC_window x1 x2 y1 y2 p' K N c d : calc_kC E A (limits p x1 x2 y1 y2) = (p', Ok K) -> (ka_col0 A + ndof (pn_sh p) <= N)%nat ->
  bilinear N K c d = integrate (e_rule E) (shell_limits (kernel_view p) x1 x2 y1 y2) (points_x A p) (points_y A p) (fun _ _ xi eta => g c d xi eta).
Proof using All.
  intros H HNN.
  rewrite (calc_kC_energy E A (limits p x1 x2 y1 y2) p' K N c d H Hnum Hcte HN Hfin Hrc Hg HNN).
  - change (laminate_used E A (limits p x1 x2 y1 y2)) with (laminate_used E A p). rewrite HF. reflexivity.
  - change (laminate_used E A (limits p x1 x2 y1 y2)) with (laminate_used E A p). rewrite HF. intros i j _ _. exact HABD.
Qed.
Lemma kC_poly c d : poly2 (kC_degree A D) (g c d).
Proof using HB.
  unfold g, kC_degree. cbv zeta. apply form_poly; intro k; apply (state_poly (e_basis E) (kernel_view p) D); exact HB.
Qed.
Theorem kC_split_x x1 x2 x3 y1 y2 p13 p12 p23 K13 K12 K23 :
  rule_exact (e_rule E) (points_x A p) (kC_degree A D) -> given x1 x2 -> given x2 x3 ->
  calc_kC E A (limits p x1 x3 y1 y2) = (p13, Ok K13) -> calc_kC E A (limits p x1 x2 y1 y2) = (p12, Ok K12) ->
  calc_kC E A (limits p x2 x3 y1 y2) = (p23, Ok K23) -> forall r t, K13 r t = K12 r t + K23 r t.
Proof using All.
  intros HQ H12 H23 E13 E12 E23. apply entrywise. exists (ka_col0 A + ndof (pn_sh p))%nat. intros N c d HNN.
  rewrite (kC_window _ _ _ _ _ _ _ _ _ E13 HNN), (kC_window _ _ _ _ _ _ _ _ _ E12 HNN), (kC_window _ _ _ _ _ _ _ _ _ E23 HNN).
  apply (split_x (e_rule E) (kernel_view p) (points_x A p) (points_y A p) (g c d) (kC_degree A D)); try assumption.
  - apply Hg.
  - apply kC_poly.
Qed.
Theorem kC_split_y x1 x2 y1 y2 y3 p13 p12 p23 K13 K12 K23 :
  rule_exact (e_rule E) (points_y A p) (kC_degree A D) -> given y1 y2 -> given y2 y3 ->
  calc_kC E A (limits p x1 x2 y1 y3) = (p13, Ok K13) -> calc_kC E A (limits p x1 x2 y1 y2) = (p12, Ok K12) ->
  calc_kC E A (limits p x1 x2 y2 y3) = (p23, Ok K23) -> forall r t, K13 r t = K12 r t + K23 r t.
Proof using All.
  intros HQ H12 H23 E13 E12 E23. apply entrywise. exists (ka_col0 A + ndof (pn_sh p))%nat. intros N c d HNN.
  rewrite (kC_window _ _ _ _ _ _ _ _ _ E13 HNN), (kC_window _ _ _ _ _ _ _ _ _ E12 HNN), (kC_window _ _ _ _ _ _ _ _ _ E23 HNN).
  apply (split_y (e_rule E) (kernel_view p) (points_x A p) (points_y A p) (g c d) (kC_degree A D)); try assumption.
  - apply Hg.
  - apply kC_poly.
Qed.
(* the whole panel is the window [0, a] x [0, b] *)
Theorem kC_whole p0 p1 K0 K1 :
  calc_kC E A (limits p (-1) 1 (-1) 1) = (p0, Ok K0) ->
  calc_kC E A (limits p 0 (sh_a (pn_sh p)) 0 (sh_b (pn_sh p))) = (p1, Ok K1) ->
  sh_a (pn_sh p) <> -1 -> sh_b (pn_sh p) <> -1 -> forall r t, K1 r t = K0 r t.
Proof using All.
  intros E0 E1 Ha Hb r t. enough (K1 r t = K0 r t + 0) by lra. revert r t.
  apply (entrywise K0 (fun _ _ => 0) K1). exists (ka_col0 A + ndof (pn_sh p))%nat. intros N c d HNN.
  rewrite (kC_window _ _ _ _ _ _ _ _ _ E0 HNN), (kC_window _ _ _ _ _ _ _ _ _ E1 HNN).
  replace (bilinear N (fun _ _ => 0) c d) with 0.
  - rewrite Rplus_0_r. unfold integrate, xregion, yregion. cbn [shell_limits sh_x1 sh_x2 sh_y1 sh_y2 sh_a sh_b kernel_view].
    rewrite !interval_given by (split; assumption || lra).
    unfold interval. destruct (Req_EM_T (-1) (-1)) as [_|n]; [|exfalso; apply n; reflexivity]. reflexivity.
  - unfold bilinear. symmetry. apply sumn_0. intros. apply sumn_0. intros. ring.
Qed.
End kC.

Section kG.
Variables (E : env) (A : kargs) (p : panel) (F : nat -> nat -> R) (D : nat).
Hypothesis Hnum : ka_c A <> None \/ ka_NL A = true.
Hypothesis Hfin : ka_fin A = true.
Hypothesis Hrc : ka_row0 A = ka_col0 A.
Hypothesis Hg : geometry_ok (chosen_model p) (kernel_view p).
Hypothesis HF : laminate_used E A p = FMat F.
Hypothesis HABD : is_ABD F.
Hypothesis HB : poly_basis (e_basis E) (Nat.max (sh_m (pn_sh p)) (sh_n (pn_sh p))) D.
Let g c d xi eta := 
    let '(Nxx, Nyy, Nxy) := pn_N p in
    let eps k := (if ka_NL A then doubled_strain else lin_strain) (curvature (chosen_model p) (kernel_view p))
                   (e_basis E) (kernel_view p) (own (ka_col0 A) (given_vector (ka_c A))) xi eta k in
    let N k := resultant F eps k in
    membrane_work (e_basis E) (kernel_view p) (Nxx + N 0%nat) (Nyy + N 1%nat) (Nxy + N 2%nat)
      (own (ka_col0 A) c) (own (ka_col0 A) d) xi eta.
Lemma kG_window x1 x2 y1 y2 p' K N c d : calc_kG E A (limits p x1 x2 y1 y2) = (p', Ok K) -> (ka_col0 A + ndof (pn_sh p) <= N)%nat ->
  bilinear N K c d = integrate (e_rule E) (shell_limits (kernel_view p) x1 x2 y1 y2) (points_x A p) (points_y A p) (fun _ _ xi eta => g c d xi eta).
Proof using All.
  intros H HNN.
  pose proof (calc_kG_energy' E A (limits p x1 x2 y1 y2) p' K N c d H Hnum Hfin Hrc Hg HNN) as EN.
  change (laminate_used E A (limits p x1 x2 y1 y2)) with (laminate_used E A p) in EN.
  change (pn_N (limits p x1 x2 y1 y2)) with (pn_N p) in EN. unfold g.
  rewrite HF in EN. destruct (pn_N p) as [[Nxx Nyy] Nxy].
  rewrite EN; [destruct (ka_NL A); reflexivity|]. intros i j _ _. exact HABD.
Qed.
Lemma kG_poly c d : poly2 (kG_degree A D) (g c d).
Proof using All.
  unfold g, kG_degree. destruct (pn_N p) as [[Nxx Nyy] Nxy]. cbv zeta.
  assert (R : forall k, poly2 (if ka_NL A then D + D else D) (fun x y => resultant F (fun k0 : nat =>
   (if ka_NL A then doubled_strain else lin_strain) (curvature (chosen_model p) (kernel_view p)) (e_basis E) (kernel_view p)
     (own (ka_col0 A) (given_vector (ka_c A))) x y k0) k)).
  { intro k. apply resultant_poly. intro l. destruct (ka_NL A); [apply doubled_poly|apply lin_poly]; exact HB. }
  apply (membrane_poly (e_basis E) (kernel_view p) D); [exact HB|..]; apply p2_plus; try apply p2_const; apply R.
Qed.
Theorem kG_split_x x1 x2 x3 y1 y2 p13 p12 p23 K13 K12 K23 :
  rule_exact (e_rule E) (points_x A p) (kG_degree A D) -> given x1 x2 -> given x2 x3 ->
  calc_kG E A (limits p x1 x3 y1 y2) = (p13, Ok K13) -> calc_kG E A (limits p x1 x2 y1 y2) = (p12, Ok K12) ->
  calc_kG E A (limits p x2 x3 y1 y2) = (p23, Ok K23) -> forall r t, K13 r t = K12 r t + K23 r t.
Proof using All.
  intros HQ H12 H23 E13 E12 E23. apply entrywise. exists (ka_col0 A + ndof (pn_sh p))%nat. intros N c d HNN.
  rewrite (kG_window _ _ _ _ _ _ _ _ _ E13 HNN), (kG_window _ _ _ _ _ _ _ _ _ E12 HNN), (kG_window _ _ _ _ _ _ _ _ _ E23 HNN).
  apply (split_x (e_rule E) (kernel_view p) (points_x A p) (points_y A p) (g c d) (kG_degree A D)); try assumption.
  - apply Hg.
  - apply kG_poly.
Qed.
Theorem kG_split_y x1 x2 y1 y2 y3 p13 p12 p23 K13 K12 K23 :
  rule_exact (e_rule E) (points_y A p) (kG_degree A D) -> given y1 y2 -> given y2 y3 ->
  calc_kG E A (limits p x1 x2 y1 y3) = (p13, Ok K13) -> calc_kG E A (limits p x1 x2 y1 y2) = (p12, Ok K12) ->
  calc_kG E A (limits p x1 x2 y2 y3) = (p23, Ok K23) -> forall r t, K13 r t = K12 r t + K23 r t.
Proof using All.
  intros HQ H12 H23 E13 E12 E23. apply entrywise. exists (ka_col0 A + ndof (pn_sh p))%nat. intros N c d HNN.
  rewrite (kG_window _ _ _ _ _ _ _ _ _ E13 HNN), (kG_window _ _ _ _ _ _ _ _ _ E12 HNN), (kG_window _ _ _ _ _ _ _ _ _ E23 HNN).
  apply (split_y (e_rule E) (kernel_view p) (points_x A p) (points_y A p) (g c d) (kG_degree A D)); try assumption.
  - apply Hg.
  - apply kG_poly.
Qed.
End kG.

(* the mass matrix with the thickness and density of the laminate, given point by point *)
Section kM.
Variables (E : env) (sz : size_arg) (col0 : nat) (nxo nyo : option nat) (p : panel) (h rho : R) (D mx my nx' ny' : nat).
Hypothesis Hg : geometry_ok (chosen_model p) (kernel_view p).
Hypothesis HB : poly_basis (e_basis E) (Nat.max (sh_m (pn_sh p)) (sh_n (pn_sh p))) D.
Let ho := Some (mx, my, fun _ _ : nat => h).
Let ro := Some (nx', ny', fun _ _ : nat => rho).
Let g c d xi eta := kinetic (e_basis E) (kernel_view p) twelfth h rho (pn_offset p) (own col0 c) (own col0 d) xi eta.
Lemma kM_window x1 x2 y1 y2 p' K N c d : calc_kM E sz col0 col0 ho ro nxo nyo true (limits p x1 x2 y1 y2) = (p', Ok K) -> (col0 + ndof (pn_sh p) <= N)%nat ->
  bilinear N K c d = integrate (e_rule E) (shell_limits (kernel_view p) x1 x2 y1 y2) (default (pn_nx p) nxo) (default (pn_ny p) nyo) (fun _ _ xi eta => g c d xi eta).
Proof using All.
  intros H HNN.
  destruct (calc_kM_energy E sz col0 col0 ho ro nxo nyo (limits p x1 x2 y1 y2) p' K N c d H ltac:(left; discriminate) eq_refl Hg HNN)
    as (h' & rho' & E1 & E2 & EN).
  cbn in E1, E2. subst h' rho'. rewrite EN. reflexivity.
Qed.
Theorem kM_split_x x1 x2 x3 y1 y2 p13 p12 p23 K13 K12 K23 :
  rule_exact (e_rule E) (default (pn_nx p) nxo) (D + D) -> given x1 x2 -> given x2 x3 ->
  calc_kM E sz col0 col0 ho ro nxo nyo true (limits p x1 x3 y1 y2) = (p13, Ok K13) ->
  calc_kM E sz col0 col0 ho ro nxo nyo true (limits p x1 x2 y1 y2) = (p12, Ok K12) ->
  calc_kM E sz col0 col0 ho ro nxo nyo true (limits p x2 x3 y1 y2) = (p23, Ok K23) -> forall r t, K13 r t = K12 r t + K23 r t.
Proof using All.
  intros HQ H12 H23 E13 E12 E23. apply entrywise. exists (col0 + ndof (pn_sh p))%nat. intros N c d HNN.
  rewrite (kM_window _ _ _ _ _ _ _ _ _ E13 HNN), (kM_window _ _ _ _ _ _ _ _ _ E12 HNN), (kM_window _ _ _ _ _ _ _ _ _ E23 HNN).
  apply (split_x (e_rule E) (kernel_view p) (default (pn_nx p) nxo) (default (pn_ny p) nyo) (g c d) (D + D)); try assumption.
  - apply Hg.
  - apply (kinetic_poly (e_basis E) (kernel_view p) D). exact HB.
Qed.
Theorem kM_split_y x1 x2 y1 y2 y3 p13 p12 p23 K13 K12 K23 :
  rule_exact (e_rule E) (default (pn_ny p) nyo) (D + D) -> given y1 y2 -> given y2 y3 ->
  calc_kM E sz col0 col0 ho ro nxo nyo true (limits p x1 x2 y1 y3) = (p13, Ok K13) ->
  calc_kM E sz col0 col0 ho ro nxo nyo true (limits p x1 x2 y1 y2) = (p12, Ok K12) ->
  calc_kM E sz col0 col0 ho ro nxo nyo true (limits p x1 x2 y2 y3) = (p23, Ok K23) -> forall r t, K13 r t = K12 r t + K23 r t.
Proof using All.
  intros HQ H12 H23 E13 E12 E23. apply entrywise. exists (col0 + ndof (pn_sh p))%nat. intros N c d HNN.
  rewrite (kM_window _ _ _ _ _ _ _ _ _ E13 HNN), (kM_window _ _ _ _ _ _ _ _ _ E12 HNN), (kM_window _ _ _ _ _ _ _ _ _ E23 HNN).
  apply (split_y (e_rule E) (kernel_view p) (default (pn_nx p) nxo) (default (pn_ny p) nyo) (g c d) (D + D)); try assumption.
  - apply Hg.
  - apply (kinetic_poly (e_basis E) (kernel_view p) D). exact HB.
Qed.
End kM.

Section fint.
Variables (E : env) (cl : list R) (sz : size_arg) (col0 : nat) (nxo nyo : option nat) (Fo : option finput) (p : panel) (F : nat -> nat -> R) (D : nat).
Hypothesis Hg : geometry_ok (chosen_model p) (kernel_view p).
Hypothesis HF : fint_laminate Fo p = FMat F.
Hypothesis HABD : is_ABD F.
Hypothesis HB : poly_basis (e_basis E) (Nat.max (sh_m (pn_sh p)) (sh_n (pn_sh p))) D.
Let g v xi eta := 
    dot 6 (resultant F (doubled_strain (curvature (chosen_model p) (kernel_view p)) (e_basis E) (kernel_view p) (own col0 (vec cl)) xi eta))
          (dstrain (curvature (chosen_model p) (kernel_view p)) (e_basis E) (kernel_view p) (own col0 (vec cl)) (own col0 v) xi eta).
Lemma fint_window x1 x2 y1 y2 p' u N v : calc_fint E cl sz col0 nxo nyo Fo (limits p x1 x2 y1 y2) = (p', Ok u) -> (col0 + ndof (pn_sh p) <= N)%nat ->
  dot N (vdense u) v = integrate (e_rule E) (shell_limits (kernel_view p) x1 x2 y1 y2) (default (pn_nx p) nxo) (default (pn_ny p) nyo) (fun _ _ xi eta => g v xi eta).
Proof using All.
  intros H HNN.
  rewrite (calc_fint_work E cl sz col0 nxo nyo Fo (limits p x1 x2 y1 y2) p' u N v H Hg HNN).
  - change (fint_laminate Fo (limits p x1 x2 y1 y2)) with (fint_laminate Fo p). rewrite HF. reflexivity.
  - change (fint_laminate Fo (limits p x1 x2 y1 y2)) with (fint_laminate Fo p). rewrite HF. intros i j _ _. exact HABD.
Qed.
Lemma dot_unit N u r : (r < N)%nat -> dot N u (unitv r) = u r.
Proof using Type.
  intro Hr. unfold dot, unitv. rewrite (sumn_ext N _ (fun i => if (i =? r)%nat then u i else 0)).
  - rewrite sumn_single. apply Nat.ltb_lt in Hr. rewrite Hr. reflexivity.
  - intros i _. destruct (i =? r)%nat; ring.
Qed.
Lemma g_poly v : poly2 ((D + D) + (D + D)) (g v).
Proof using HB.
  unfold g. apply dot_poly; intro k; [apply resultant_poly; intro l; apply doubled_poly|apply dstrain_poly]; exact HB.
Qed.
Theorem fint_split_x x1 x2 x3 y1 y2 p13 p12 p23 u13 u12 u23 :
  rule_exact (e_rule E) (default (pn_nx p) nxo) ((D + D) + (D + D)) -> given x1 x2 -> given x2 x3 ->
  calc_fint E cl sz col0 nxo nyo Fo (limits p x1 x3 y1 y2) = (p13, Ok u13) ->
  calc_fint E cl sz col0 nxo nyo Fo (limits p x1 x2 y1 y2) = (p12, Ok u12) ->
  calc_fint E cl sz col0 nxo nyo Fo (limits p x2 x3 y1 y2) = (p23, Ok u23) -> forall r, vdense u13 r = vdense u12 r + vdense u23 r.
Proof using All.
  intros HQ H12 H23 E13 E12 E23 r. set (N := (col0 + ndof (pn_sh p) + S r)%nat).
  assert (HNN : (col0 + ndof (pn_sh p) <= N)%nat) by (unfold N; lia).
  rewrite <- (dot_unit N (vdense u13) r), <- (dot_unit N (vdense u12) r), <- (dot_unit N (vdense u23) r) by (unfold N; lia).
  rewrite (fint_window _ _ _ _ _ _ _ _ E13 HNN), (fint_window _ _ _ _ _ _ _ _ E12 HNN), (fint_window _ _ _ _ _ _ _ _ E23 HNN).
  apply (split_x (e_rule E) (kernel_view p) (default (pn_nx p) nxo) (default (pn_ny p) nyo) (g (unitv r)) ((D + D) + (D + D))); try assumption.
  - apply Hg.
  - apply g_poly.
Qed.
Theorem fint_split_y x1 x2 y1 y2 y3 p13 p12 p23 u13 u12 u23 :
  rule_exact (e_rule E) (default (pn_ny p) nyo) ((D + D) + (D + D)) -> given y1 y2 -> given y2 y3 ->
  calc_fint E cl sz col0 nxo nyo Fo (limits p x1 x2 y1 y3) = (p13, Ok u13) ->
  calc_fint E cl sz col0 nxo nyo Fo (limits p x1 x2 y1 y2) = (p12, Ok u12) ->
  calc_fint E cl sz col0 nxo nyo Fo (limits p x1 x2 y2 y3) = (p23, Ok u23) -> forall r, vdense u13 r = vdense u12 r + vdense u23 r.
Proof using All.
  intros HQ H12 H23 E13 E12 E23 r. set (N := (col0 + ndof (pn_sh p) + S r)%nat).
  assert (HNN : (col0 + ndof (pn_sh p) <= N)%nat) by (unfold N; lia).
  rewrite <- (dot_unit N (vdense u13) r), <- (dot_unit N (vdense u12) r), <- (dot_unit N (vdense u23) r) by (unfold N; lia).
  rewrite (fint_window _ _ _ _ _ _ _ _ E13 HNN), (fint_window _ _ _ _ _ _ _ _ E12 HNN), (fint_window _ _ _ _ _ _ _ _ E23 HNN).
  apply (split_y (e_rule E) (kernel_view p) (default (pn_nx p) nxo) (default (pn_ny p) nyo) (g (unitv r)) ((D + D) + (D + D))); try assumption.
  - apply Hg.
  - apply g_poly.
Qed.
End fint.

(* ------------------------------------------------- the closed forms *)
Lemma fk0_limits mdl T s x1 x2 y1 y2 F r c : fk0 mdl T (shell_limits s x1 x2 y1 y2) F r c = fk0 mdl T s F r c.
Proof. destruct mdl; reflexivity. Qed.
Lemma fkG0_limits mdl T s x1 x2 y1 y2 n1 n2 n3 r c : fkG0 mdl T (shell_limits s x1 x2 y1 y2) n1 n2 n3 r c = fkG0 mdl T s n1 n2 n3 r c.
Proof. destruct mdl; reflexivity. Qed.
Lemma fkM_limits mdl T s x1 x2 y1 y2 rho h off r c : fkM mdl T (shell_limits s x1 x2 y1 y2) rho h off r c = fkM mdl T s rho h off r c.
Proof. destruct mdl; reflexivity. Qed.
Lemma view_limits p x1 x2 y1 y2 : kernel_view (limits p x1 x2 y1 y2) = shell_limits (kernel_view p) x1 x2 y1 y2.
Proof. reflexivity. Qed.
Theorem kC_closed_limits E A p x1 x2 y1 y2 p' q' K K' :
  ka_c A = None -> ka_F A = None -> ka_NL A = false -> ka_c_cte A = None ->
  calc_kC E A p = (p', Ok K) -> calc_kC E A (limits p x1 x2 y1 y2) = (q', Ok K') -> K' = K.
Proof.
  intros H1 H2 H3 H4 R R'.
  destruct (calc_kC_inv _ _ _ _ _ R) as (mdl & kC & kG & R1). destruct (calc_kC_inv _ _ _ _ _ R') as (mdl' & kC' & kG' & R1').
  destruct R1 as [(p1 & Hp1 & Hs) Hm Hr HK Hsh _ HkC HkG]. destruct R1' as [(p1' & Hp1' & Hs') Hm' Hr' HK' Hsh' _ HkC' HkG']. cbv zeta in *.
  destruct (rebuilt_facts E A _ _ _ _ Hp1 Hs Hm Hr) as (-> & Hv & _ & _ & _ & HABD & _).
  destruct (rebuilt_facts E A _ _ _ _ Hp1' Hs' Hm' Hr') as (-> & Hv' & _ & _ & _ & HABD' & _).
  change (chosen_model (limits p x1 x2 y1 y2)) with (chosen_model p) in *.
  change (pn_N_cte (limits p x1 x2 y1 y2)) with (pn_N_cte p) in *.
  rewrite view_limits in Hv'. rewrite Hv, Hv' in *. rewrite HK, HK'. f_equal. f_equal.
  - destruct HkC as [(_ & _ & _ & F & HFe & ->)|([Hn|[Hn|Hn]] & _)]; [|congruence..].
    destruct HkC' as [(_ & _ & _ & F' & HFe' & ->)|([Hn|[Hn|Hn]] & _)]; [|congruence..].
    rewrite fk0_limits. rewrite HABD in HFe. rewrite HABD' in HFe'.
    assert (EF : F' = F) by (inversion HFe; inversion HFe'; subst; reflexivity). rewrite EF. reflexivity.
  - destruct (pn_N_cte p) as [[Nxx Nyy] Nxy].
    destruct HkG as [(_ & Ha & ->)|[(_ & Ha & _ & ->)|(l & Hl & _)]]; [| |congruence];
    destruct HkG' as [(_ & Ha' & ->)|[(_ & Ha' & _ & ->)|(l' & Hl' & _)]]; try congruence.
    apply fkG0_limits.
Qed.
Theorem kG_closed_limits E A p x1 x2 y1 y2 p' q' K K' :
  ka_c A = None -> ka_NL A = false ->
  calc_kG E A p = (p', Ok K) -> calc_kG E A (limits p x1 x2 y1 y2) = (q', Ok K') -> K' = K.
Proof.
  intros H1 H2 R R'. pose proof (calc_kG_analytic _ _ _ _ _ R H1 H2) as G. pose proof (calc_kG_analytic _ _ _ _ _ R' H1 H2) as G'.
  change (pn_N (limits p x1 x2 y1 y2)) with (pn_N p) in G'. destruct (pn_N p) as [[Nxx Nyy] Nxy].
  destruct G as (g & -> & _ & ->). destruct G' as (g' & -> & _ & ->). rewrite view_limits, fkG0_limits. reflexivity.
Qed.
Theorem kM_closed_limits E sz row0 col0 nxo nyo fin p x1 x2 y1 y2 p' q' K K' :
  calc_kM E sz row0 col0 None None nxo nyo fin p = (p', Ok K) ->
  calc_kM E sz row0 col0 None None nxo nyo fin (limits p x1 x2 y1 y2) = (q', Ok K') -> K' = K.
Proof.
  intros R R'. rewrite (calc_kM_analytic _ _ _ _ _ _ _ _ _ _ R), (calc_kM_analytic _ _ _ _ _ _ _ _ _ _ R').
  rewrite view_limits, fkM_limits. reflexivity.
Qed.

(* ------------------------------------------------- limits left at their defaults *)
Lemma integrate_whole_x Q s nx ny g y1 y2 : sh_a s <> -1 ->
  integrate Q (shell_limits s (-1) 1 y1 y2) nx ny g = integrate Q (shell_limits s 0 (sh_a s) y1 y2) nx ny g.
Proof.
  intro Ha. unfold integrate, xregion, yregion. cbn [shell_limits sh_x1 sh_x2 sh_y1 sh_y2 sh_a sh_b].
  rewrite (interval_given 0 (sh_a s)) by (split; assumption || lra).
  unfold interval at 1. destruct (Req_EM_T (-1) (-1)) as [_|n]; [|exfalso; apply n; reflexivity]. reflexivity.
Qed.
Theorem kC_whole_x E A p F x1 y1 y2 p13 p12 p23 K13 K12 K23 D :
  numeric_kC A -> ka_c_cte A = None -> pn_N_cte p = (0, 0, 0) -> ka_fin A = true -> ka_row0 A = ka_col0 A ->
  geometry_ok (chosen_model p) (kernel_view p) -> laminate_used E A p = FMat F -> is_ABD F ->
  poly_basis (e_basis E) (Nat.max (sh_m (pn_sh p)) (sh_n (pn_sh p))) D ->
  rule_exact (e_rule E) (points_x A p) (kC_degree A D) -> x1 <> -1 -> sh_a (pn_sh p) <> -1 ->
  calc_kC E A (limits p (-1) 1 y1 y2) = (p13, Ok K13) -> calc_kC E A (limits p 0 x1 y1 y2) = (p12, Ok K12) ->
  calc_kC E A (limits p x1 (sh_a (pn_sh p)) y1 y2) = (p23, Ok K23) -> forall r t, K13 r t = K12 r t + K23 r t.
Proof.
  intros Hnum Hcte HN Hfin Hrc Hg HF HABD HB HQ Hx Ha E13 E12 E23.
  apply entrywise. exists (ka_col0 A + ndof (pn_sh p))%nat. intros N c d HNN.
  rewrite (kC_window E A p F D Hnum Hcte HN Hfin Hrc Hg HF HABD HB _ _ _ _ _ _ _ _ _ E13 HNN),
    (kC_window E A p F D Hnum Hcte HN Hfin Hrc Hg HF HABD HB _ _ _ _ _ _ _ _ _ E12 HNN),
    (kC_window E A p F D Hnum Hcte HN Hfin Hrc Hg HF HABD HB _ _ _ _ _ _ _ _ _ E23 HNN).
  rewrite integrate_whole_x by exact Ha.
  apply (split_x (e_rule E) (kernel_view p) (points_x A p) (points_y A p) _ (kC_degree A D)); try assumption.
  - apply Hg.
  - apply (kC_poly E A p F D HB).
  - split; [lra|exact Hx].
  - split; assumption.
Qed.
Lemma same_region Q s x1 x2 x1' x2' y1 y2 y1' y2' nx ny g :
  interval x1 x2 (sh_a s) = interval x1' x2' (sh_a s) -> interval y1 y2 (sh_b s) = interval y1' y2' (sh_b s) ->
  integrate Q (shell_limits s x1 x2 y1 y2) nx ny g = integrate Q (shell_limits s x1' x2' y1' y2') nx ny g.
Proof.
  intros H1 H2. unfold integrate, xregion, yregion. cbn [shell_limits sh_x1 sh_x2 sh_y1 sh_y2 sh_a sh_b]. rewrite H1, H2. reflexivity.
Qed.
(* a lower limit of -1 makes both limits of that direction ineffective *)
Theorem kC_upper_ignored E A p F x2 y2 p1 p2 K1 K2 :
  numeric_kC A -> ka_c_cte A = None -> pn_N_cte p = (0, 0, 0) -> ka_fin A = true -> ka_row0 A = ka_col0 A ->
  geometry_ok (chosen_model p) (kernel_view p) -> laminate_used E A p = FMat F -> is_ABD F ->
  calc_kC E A (limits p (-1) x2 (-1) y2) = (p1, Ok K1) -> calc_kC E A (limits p (-1) 1 (-1) 1) = (p2, Ok K2) ->
  forall r t, K1 r t = K2 r t.
Proof.
  intros Hnum Hcte HN Hfin Hrc Hg HF HABD E1 E2 r t.
  set (N := (ka_col0 A + ndof (pn_sh p) + S r + S t)%nat).
  assert (HNN : (ka_col0 A + ndof (pn_sh p) <= N)%nat) by (unfold N; lia).
  rewrite <- (bilinear_unit N K1 r t), <- (bilinear_unit N K2 r t) by (unfold N; lia).
  rewrite (calc_kC_energy E A (limits p (-1) x2 (-1) y2) p1 K1 N _ _ E1 Hnum Hcte HN Hfin Hrc Hg HNN);
    [|change (laminate_used E A (limits p (-1) x2 (-1) y2)) with (laminate_used E A p); rewrite HF; intros i j _ _; exact HABD].
  rewrite (calc_kC_energy E A (limits p (-1) 1 (-1) 1) p2 K2 N _ _ E2 Hnum Hcte HN Hfin Hrc Hg HNN);
    [|change (laminate_used E A (limits p (-1) 1 (-1) 1)) with (laminate_used E A p); rewrite HF; intros i j _ _; exact HABD].
  apply (same_region (e_rule E) (kernel_view p) (-1) x2 (-1) 1 (-1) y2 (-1) 1); unfold interval; (destruct (Req_EM_T (-1) (-1)) as [_|n]; [reflexivity|exfalso; apply n; reflexivity]).
Qed.
