(* A panel pulled at points takes the state of least energy. *)
From Coq Require Import Reals List Arith Bool Lia Lra Permutation.
From Verif Require Import Proof_Rigid Base_Sum Model_Types Model_Coo Model_Result Model_Num Model_DB Model_Bardell Model_Shell Model_Field Model_Fext Model_Multi Model_Pull
  Spec_Algebra Spec_Kinematics Spec_Quadrature Spec_Panel Spec_Shell Spec_Bardell Spec_Integral Spec_Field Spec_Fext Spec_Modes Spec_Rigid Spec_Pull
  Proof_Shell Proof_AnaApi Proof_Modes Proof_Pd Proof_MultiConn Proof_Ana Prop_Stiffness.
From Coq Require Import List.
Import ListNotations.
Open Scope R_scope.

Lemma row_plus N K G c i : row N (fun r t => K r t + G r t) c i = row N K c i + row N G c i.
Proof. unfold row. rewrite <- sumn_plus. apply sumn_ext; intros; ring. Qed.
Lemma bilinear_suml N (Ms : list coo) x z : bilinear N (fun r t => suml Ms (fun M => finalize_symmetric (dense M) r t)) x z = suml Ms (fun M => bilinear N (finalize_symmetric (dense M)) x z).
Proof.
  induction Ms as [|M Ms IH]; cbn [suml]; [unfold bilinear; apply sumn_0; intros; apply sumn_0; intros; ring|]. rewrite bilinear_plus, IH. reflexivity.
Qed.
Lemma suml_sub {X} (l : list X) f g : suml l (fun x => f x - g x) = suml l f - suml l g.
Proof. induction l as [|x l IH]; cbn [suml]; [ring|rewrite IH; ring]. Qed.
Lemma suml_le {X} (l : list X) f g : List.Forall (fun x => f x <= g x) l -> suml l f <= suml l g.
Proof. induction 1 as [|x l H _ IH]; cbn [suml]; lra. Qed.
Lemma suml_scal {X} (l : list X) f k : suml l (fun x => k * f x) = k * suml l f.
Proof. induction l as [|x l IH]; cbn [suml]; [ring|rewrite IH; ring]. Qed.
(* the work of the residual forces in a displacement *)
Lemma solved_work N K Ms c f d : symmetric K -> solves N (attached K Ms) c f ->
  bilinear N K c d + suml Ms (fun M => bilinear N (finalize_symmetric (dense M)) c d) - dot N f d = 0.
Proof.
  intros HS H. rewrite <- bilinear_suml, <- bilinear_plus. change (fun r t => K r t + _) with (attached K Ms).
  assert (HA : symmetric (attached K Ms)).
  { intros r t. unfold attached. rewrite (HS r t). f_equal. clear. induction Ms as [|M Ms IH]; cbn [suml]; [reflexivity|]. rewrite IH. f_equal. apply finalize_is_sym. }
  rewrite (bilinear_swap _ _ _ _ HA), bilinear_row. unfold dot.
  rewrite (sumn_ext N _ (fun i => f i * d i)); [ring|]. intros i Hi. rewrite (H i Hi). ring.
Qed.
Lemma quad_diff N K c d : symmetric K -> quad N K (fun i => d i - c i) = quad N K d + quad N K c - 2 * bilinear N K c d.
Proof.
  intro HS. assert (L : forall x y z, bilinear N K (fun i => x i - y i) z = bilinear N K x z - bilinear N K y z).
  { intros x y z. unfold bilinear. rewrite <- sumn_minus. apply sumn_ext; intros. rewrite <- sumn_minus. apply sumn_ext; intros. ring. }
  unfold quad. rewrite L. rewrite (bilinear_swap _ _ d _ HS), (bilinear_swap _ _ c _ HS), !L. rewrite (bilinear_swap _ _ d c HS). ring.
Qed.
Lemma spring_square k u v p : 0 <= k -> 2 * (k * (u - p) * v) - 2 * (k * (u - p) * u) <= k * (v - p) ^ 2 - k * (u - p) ^ 2.
Proof. intro Hk. assert (0 <= k * (v - u) ^ 2) by (apply Rmult_le_pos; [exact Hk|apply pow2_ge_0]). nra. Qed.
Lemma stretch_more Uc Ud inc pds : List.Forall spring_like pds ->
  2 * suml pds (pd_work Uc Ud inc) - 2 * suml pds (pd_work Uc Uc inc) <= stretch Ud inc pds - stretch Uc inc pds.
Proof.
  intro H. unfold stretch. rewrite <- !suml_scal, <- !suml_sub. apply suml_le. revert H. apply List.Forall_impl. intros q (H0 & H1 & H2). cbv zeta. unfold pd_work, spring_work.
  set (t := if pd_cte q then 1 else inc).
  pose proof (spring_square (pd_ku q) (Uc 0%nat (pd_x q) (pd_y q)) (Ud 0%nat (pd_x q) (pd_y q)) (t * pd_up q) H0).
  pose proof (spring_square (pd_kv q) (Uc 1%nat (pd_x q) (pd_y q)) (Ud 1%nat (pd_x q) (pd_y q)) (t * pd_vp q) H1).
  pose proof (spring_square (pd_kw q) (Uc 2%nat (pd_x q) (pd_y q)) (Ud 2%nat (pd_x q) (pd_y q)) (t * pd_wp q) H2). lra.
Qed.

Section Pulled.
Variables (E : env) (A : kargs) (p p1 p2 : panel) (K : nat -> nat -> R) (pds : list pdef) (inc : R) (sz : size_arg).
Variables (L : loads) (outs : list (load_call * res unit)) (f : list R) (Ms : list coo) (sched : scheduler) (nc : nat).
Hypothesis HK : stiffness E A p (length f) K.
Hypothesis HE : elastic E p.
Hypothesis H1 : calc_kC E A p = (p1, Ok K).
Hypothesis HL : run_calls (map pd_call pds) no_loads = (L, outs).
Hypothesis H2 : calc_fext E vec_basis L inc sz (ka_col0 A) p1 = (p2, Ok f).
Hypothesis HM : Forall2 (fun q M => fkCpd code_basis (pd_ku q) (pd_kv q) (pd_kw q) (kernel_view p2) (pd_x q) (pd_y q) (length f) (ka_col0 A) (ka_col0 A) = Ok M) pds Ms.
Hypothesis HP : List.Forall spring_like pds.
Hypothesis Hs : forall l, Permutation (sched l) l.
Lemma pulled_facts : symmetric K /\ psd (length f) K.
Proof using HK HE.
  destruct HK as ((p' & R0) & A1 & A2 & A3 & A4 & A5 & A6 & A7 & A8). destruct HE as (E1 & E2 & E3 & E4 & E5). split.
  - exact (C17_kC_symmetric E _ _ _ _ R0 A5).
  - intro v. pose proof (kC_energy E A p p' K (length f) R0 A1 A2 A3 A4 A5 A6 E1 E2 A7 E3 A8 v v) as HI. unfold quad.
    eapply panel_integral_ge0; [exact E5| |exact HI]. intros x y. apply E4.
Qed.
Lemma pulled_work c d Uc Ud : uvw_is sched vec_basis nc p2 (skipn (ka_col0 A) c) Uc -> uvw_is sched vec_basis nc p2 (skipn (ka_col0 A) d) Ud ->
  solves (length f) (attached K Ms) (vec c) (vec f) -> bilinear (length f) K (vec c) (vec d) + suml pds (pd_work Uc Ud inc) = 0.
Proof using All.
  intros HUc HUd HS. pose proof (solved_work _ _ _ _ _ (vec d) (proj1 pulled_facts) HS) as HW.
  assert (Hfit : (ka_col0 A + 3 * (sh_m (pn_sh p1) * sh_n (pn_sh p1)) <= length f)%nat).
  { rewrite (kp_sh E p p1 (calc_kC_kept E A p p1 K H1)). destruct HK as (_ & _ & _ & _ & _ & _ & _ & A7 & _). exact A7. }
  rewrite <- (pd_equilibrium E code_basis vec_basis pds inc sz (ka_col0 A) p1 p2 f L outs Ms c d Uc Ud sched nc code_vec_same HL H2 Hfit HM Hs HUc HUd). lra.
Qed.
Lemma pulled_least c d Uc Ud : uvw_is sched vec_basis nc p2 (skipn (ka_col0 A) c) Uc -> uvw_is sched vec_basis nc p2 (skipn (ka_col0 A) d) Ud ->
  solves (length f) (attached K Ms) (vec c) (vec f) ->
  quad (length f) K (vec c) + stretch Uc inc pds <= quad (length f) K (vec d) + stretch Ud inc pds.
Proof using All.
  intros HUc HUd HS. destruct pulled_facts as [S P]. pose proof (pulled_work c d Uc Ud HUc HUd HS) as W1. pose proof (pulled_work c c Uc Uc HUc HUc HS) as W2.
  pose proof (stretch_more Uc Ud inc pds HP) as W3. pose proof (P (fun i => vec d i - vec c i)) as W4. rewrite (quad_diff _ _ _ _ S) in W4. unfold quad in *. lra.
Qed.
End Pulled.

(* ------------------------------------------------- a single spring *)
Lemma pull_work j x y k v cte inc U V : (j < 3)%nat ->
  pd_work U V inc (pull j x y k v cte) = k * (U j x y - (if cte then 1 else inc) * v) * V j x y.
Proof. intro Hj. destruct j as [|[|[|j]]]; [| | |lia]; unfold pd_work, spring_work; cbn [pull pd_cte pd_x pd_y pd_ku pd_up pd_kv pd_vp pd_kw pd_wp]; ring. Qed.
Lemma pull_stretch j x y k v cte inc U : (j < 3)%nat -> stretch U inc [pull j x y k v cte] = k * (U j x y - (if cte then 1 else inc) * v) ^ 2.
Proof. intro Hj. unfold stretch. cbn [suml]. destruct j as [|[|[|j]]]; [| | |lia]; cbn [pull pd_cte pd_x pd_y pd_ku pd_up pd_kv pd_vp pd_kw pd_wp]; ring. Qed.
Lemma pull_like j x y k v cte : 0 < k -> spring_like (pull j x y k v cte).
Proof. intro Hk. destruct j as [|[|j]]; unfold spring_like; cbn; lra. Qed.
Lemma lam_after E A p p1 K : calc_kC E A p = (p1, Ok K) -> pn_lam p1 = Some (rebuilt_lam E p) /\ pn_sh p1 = pn_sh p.
Proof.
  intro H. split; [|exact (kp_sh _ _ _ (calc_kC_kept _ _ _ _ _ H))].
  apply calc_kC_inv in H. destruct H as (mdl & kC & kGc & [(q & Hq & HS) _ _ _ _ _ _ _]). rewrite (sr_lam _ _ HS). apply rebuild_inv in Hq. apply Hq.
Qed.
