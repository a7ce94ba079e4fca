(* A panel with one term per direction, pulled at a corner: an example. *)
From Coq Require Import Reals List Arith Bool Lia Lra Permutation.
From Verif Require Import Proof_Rigid Base_Sum Model_Types Model_Coo Model_Result Model_Num Model_DB Model_Bardell Model_Shell Model_Field Model_Fext Model_Multi Model_Pull
  Spec_Algebra Spec_Kinematics Spec_Quadrature Spec_Panel Spec_Shell Spec_Bardell Spec_Integral Spec_Field Spec_Fext Spec_Modes Spec_Multi Spec_Rigid Spec_Pull
  Proof_Shell Proof_AnaApi Proof_Modes Proof_Pd Proof_MultiConn Proof_Ana Proof_FieldApi Proof_FieldEdge Proof_Fext Proof_FextApi Proof_Total Proof_Pull Prop_Stiffness Ex_Panel Ex_Exact Ex_Fint.
From Coq Require Import List.
Import ListNotations.
Open Scope R_scope.

Definition corner : pdef := pull 2 0 0 5 (1 / 10) true.
Lemma one_elastic : elastic exact_env one_panel.
Proof. split; [reflexivity|]. split; [exact one_geometry|]. split; [exact ex_ABD_is|]. split; [exact ex_ABD_psd|cbn; lra]. Qed.
(* no bending stiffness couples w with u and v *)
Lemma one_uncoupled K p' : calc_kC exact_env (alone true None) one_panel = (p', Ok K) -> forall (d : nat -> R) (z : R), d 2%nat = 0 -> bilinear 3 K (vec [0; 0; z]) d = 0.
Proof.
  intros HR d0 z U. destruct one_elastic as (E1 & E2 & E3 & _).
  assert (HI := kC_energy exact_env (alone true None) one_panel p' K 3 HR eq_refl eq_refl eq_refl eq_refl eq_refl eq_refl E1 E2 (le_n 3) E3 (exact_tables_integrate 1 ltac:(lia)) (vec [0; 0; z]) d0).
  revert HI. apply integral_zero. intros x y. change (lam_matrix (pn_ortho one_panel) (rebuilt_lam exact_env one_panel)) with ex_ABD.
  change (curvature (chosen_model one_panel) (kernel_view one_panel)) with 0.
  unfold form. apply sumn_0; intros a Ha. apply sumn_0; intros b Hb. unfold ex_ABD. destruct (a =? b)%nat eqn:E; [apply Nat.eqb_eq in E; subst b|ring].
  assert (F : forall d (c : nat -> R) p q, c d = 0 -> fld exact_basis (kernel_view one_panel) (own 0 c) d p q x y = 0).
  { intros d c p q Hc. unfold fld, ritz, own. cbn [sh_m sh_n kernel_view one_panel pn_sh one_shell sumn Nat.mul Nat.add DOF]. cbn. rewrite Hc. ring. }
  change (ka_col0 (alone true None)) with 0%nat. set (s := kernel_view one_panel) in *.
  destruct a as [|[|[|a]]]; cbn [lin_strain]; unfold d_ux, d_uy, d_vx, d_vy, d_wxx, d_wyy, d_wxy, d_w.
  - rewrite (F 0%nat) by reflexivity. ring.
  - rewrite (F 1%nat) by reflexivity. ring.
  - rewrite (F 0%nat), (F 1%nat) by reflexivity. ring.
  - destruct a as [|[|[|a]]]; [| | |lia]; unfold d_wxx, d_wyy, d_wxy; rewrite (F 2%nat d0) by exact U; ring.
Qed.

Definition el (i : nat) : list R := match i with 0%nat => [1; 0; 0] | 1%nat => [0; 1; 0] | _ => [0; 0; 1] end.
Lemma row_el A c i : (i < 3)%nat -> row 3 A c i = bilinear 3 A (vec (el i)) c.
Proof. intro Hi. unfold row, bilinear. cbn [sumn]. destruct i as [|[|[|i]]]; [| | |lia]; unfold vec; cbn [el nth]; ring. Qed.
Lemma dot_el f i : (i < 3)%nat -> dot 3 f (vec (el i)) = f i.
Proof. intro Hi. unfold dot. cbn [sumn]. destruct i as [|[|[|i]]]; [| | |lia]; unfold vec; cbn [el nth]; ring. Qed.
(* the deflection of the corner is the third constant *)
Lemma corner_w s c : s = one_shell -> uvw_at vec_basis s c 2 0 0 = c 2%nat.
Proof.
  intros ->. unfold uvw_at, d_w, fld, ritz. cbn [sh_m sh_n one_shell sumn xedge yedge sh_xw sh_yw sh_a sh_b].
  destruct (code_vec_same 0%nat (natural 0 2) free ltac:(lia)) as (E1 & _). destruct (code_vec_same 0%nat (natural 0 3) free ltac:(lia)) as (E2 & _).
  cbn [shape]. rewrite <- E1, <- E2. pose proof (shape0 (natural 0 2)) as S1. pose proof (shape0 (natural 0 3)) as S2. cbn [shape] in S1, S2. rewrite S1, S2.
  unfold F0, natural. change (3 * (0 * 1 + 0) + 2)%nat with 2%nat. field.
Qed.
Lemma pulled_case : exists p1 K L outs p2 f M z U,
  stiffness exact_env (alone true None) one_panel (length f) K /\ calc_kC exact_env (alone true None) one_panel = (p1, Ok K) /\
  run_calls (map pd_call [corner]) no_loads = (L, outs) /\ calc_fext exact_env vec_basis L 1 SNone 0 p1 = (p2, Ok f) /\
  Forall2 (fun q M => fkCpd code_basis (pd_ku q) (pd_kv q) (pd_kw q) (kernel_view p2) (pd_x q) (pd_y q) (length f) 0 0 = Ok M) [corner] [M] /\
  List.Forall spring_like [corner] /\ uvw_is (fun l => l) vec_basis 1 p2 (skipn 0 [0; 0; z]) U /\
  solves (length f) (attached K [M]) (vec [0; 0; z]) (vec f) /\ U 2%nat 0 0 <> 0.
Proof.
  assert (HR : exists p' K, calc_kC exact_env (alone true None) one_panel = (p', Ok K)).
  { apply calc_kC_ok; try reflexivity; try (cbn; lia); try discriminate. exact one_complete. }
  destruct HR as (p1 & K & HR).
  destruct (run_calls (map pd_call [corner]) no_loads) as [L outs] eqn:HL.
  pose proof (calc_kC_kept _ _ _ _ _ HR) as HK. pose proof (kp_sh _ _ _ HK) as Hsh. pose proof (kp_complete _ _ _ HK one_complete) as HC.
  destruct (calc_fext_ok exact_env vec_basis L 1 SNone 0 p1 HC) as (p2 & f & HF).
  { apply (run_calls_work _ _ _ _ HL). constructor. }
  { rewrite Hsh; cbn; lia. } { rewrite Hsh; cbn; lia. } { rewrite Hsh; cbn; lia. }
  pose proof (calc_fext_spec _ _ _ _ _ _ _ _ _ HF) as (HB & _). destruct (rebuild_kept _ _ _ HB) as (HK2 & _).
  assert (HN : length f = 3%nat) by (rewrite (proj1 (proj2 (calc_fext_spec _ _ _ _ _ _ _ _ _ HF))), Hsh; reflexivity).
  assert (Hv : kernel_view p2 = one_shell) by (rewrite (kp_view _ _ _ HK2), (kp_view _ _ _ HK); reflexivity).
  assert (Hs2 : pn_sh p2 = one_shell) by (rewrite (kp_sh _ _ _ HK2), Hsh; reflexivity).
  pose proof HB as HB'. apply rebuild_inv in HB'. destruct HB' as (_ & _ & Hm & _).
  destruct (fkCpd_ok code_basis 0 0 5 (kernel_view p2) 0 0 3 0) as (M & HM); [rewrite Hv; cbn; lia|].
  assert (HU : forall l, length l = 3%nat -> uvw_is (fun l => l) vec_basis 1 p2 (skipn 0 l) (uvw_at vec_basis one_shell (vec l))).
  { intros l Hl. rewrite <- Hv. apply (uvw_is_ok _ _ _ _ _ _ (fun l => Permutation_refl l) Hm); [discriminate| | |]; rewrite Hs2; cbn; lia. }
  assert (HW : forall l, length l = 3%nat -> uvw_at vec_basis one_shell (vec l) 2 0 0 = vec l 2%nat) by (intros; apply corner_w; reflexivity).
  assert (HS : symmetric K) by exact (C17_kC_symmetric _ _ _ _ _ HR eq_refl).
  assert (HT : stiffness exact_env (alone true None) one_panel (length f) K).
  { split; [exists p1; exact HR|]. repeat (split; [reflexivity|]). split; [rewrite HN; cbn; lia|]. apply exact_tables_integrate. cbn. lia. }
  assert (HM2 : Forall2 (fun q M => fkCpd code_basis (pd_ku q) (pd_kv q) (pd_kw q) (kernel_view p2) (pd_x q) (pd_y q) (length f) 0 0 = Ok M) [corner] [M]).
  { constructor; [|constructor]. rewrite HN. exact HM. }
  set (k22 := bilinear 3 K (vec [0; 0; 1]) (vec [0; 0; 1])).
  assert (K0 : 0 <= k22).
  { destruct (pulled_facts exact_env (alone true None) one_panel K f HT one_elastic) as [_ P]. rewrite HN in P. apply P. }
  set (z := 5 * (1 / 10) / (k22 + 5)).
  exists p1, K, L, outs, p2, f, M, z, (uvw_at vec_basis one_shell (vec [0; 0; z])).
  split; [exact HT|]. split; [exact HR|]. split; [reflexivity|]. split; [exact HF|]. split; [exact HM2|].
  split; [constructor; [|constructor]; unfold spring_like; cbn; lra|]. split; [apply HU; reflexivity|]. split.
  - rewrite HN. intros i Hi.
    assert (Hl : length (el i) = 3%nat) by (destruct i as [|[|i]]; reflexivity).
    assert (Hfit : (0 + 3 * (sh_m (pn_sh p1) * sh_n (pn_sh p1)) <= length f)%nat) by (rewrite Hsh, HN; cbn; lia).
    pose proof (pd_equilibrium exact_env code_basis vec_basis [corner] 1 SNone 0 p1 p2 f L outs [M] [0; 0; z] (el i) _ _ (fun l => l) 1 code_vec_same HL HF Hfit HM2 (fun l => Permutation_refl l) (HU [0; 0; z] eq_refl) (HU (el i) Hl)) as HE.
    rewrite HN, dot_el in HE by exact Hi. cbn [suml corner pull pd_work pd_cte pd_x pd_y pd_ku pd_up pd_kv pd_vp pd_kw pd_wp] in HE. unfold pd_work, spring_work, corner, pull in HE. cbn [pd_cte pd_x pd_y pd_ku pd_up pd_kv pd_vp pd_kw pd_wp] in HE. rewrite !HW in HE by (reflexivity || exact Hl).
    rewrite row_el by exact Hi. unfold attached. rewrite bilinear_plus, bilinear_suml. cbn [suml].
    rewrite (bilinear_swap _ _ _ _ HS), (bilinear_swap _ _ _ _ (finalize_is_sym (dense M))).
    assert (HKi : bilinear 3 K (vec [0; 0; z]) (vec (el i)) = z * k22 * vec (el i) 2%nat).
    { destruct i as [|[|[|i]]]; [| | |lia].
      - rewrite (one_uncoupled K p1 HR) by reflexivity. unfold vec; cbn [el nth]. ring.
      - rewrite (one_uncoupled K p1 HR) by reflexivity. unfold vec; cbn [el nth]. ring.
      - unfold k22, bilinear. cbn [sumn]. unfold vec; cbn [el nth]. ring. }
    rewrite HKi. change (vec [0; 0; z] 2%nat) with z in HE. 
    assert (Hz : z * k22 = 5 * (1 / 10) - 5 * z) by (unfold z; field; lra).
    rewrite Hz. set (e := vec (el i) 2%nat) in *. clearbody e. nra.
  - rewrite HW by reflexivity. change (vec [0; 0; z] 2%nat) with z. unfold z. apply Rgt_not_eq. apply Rdiv_lt_0_compat; lra.
Qed.
