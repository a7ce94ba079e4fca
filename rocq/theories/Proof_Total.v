(* When the calculations succeed. *)
From Coq Require Import Reals List Arith Bool Lia Lra.
From Verif Require Import Base_Sum Model_Types Model_Coo Model_Result
  Model_PlateAna Model_CylAna Model_PlateNumKer Model_CylNumKer Model_Num Model_DB Model_Shell
  Spec_Algebra Spec_Panel Spec_Shell Proof_Coo Proof_Num Proof_Shell.
Import ListNotations.
Open Scope R_scope.

Definition fits (N : nat) (M : coo) : Prop :=
  forall r s v, In (r, s, v) M -> (r < N)%nat /\ (s < N)%nat.

Lemma in_shape_fits N M : in_shape N M = true <-> fits N M.
Proof.
  unfold in_shape, fits. rewrite forallb_forall. split; intro H.
  - intros r s v Hin. specialize (H _ Hin). cbn in H. apply andb_true_iff in H. destruct H as [H1 H2].
    apply Nat.ltb_lt in H1, H2. auto.
  - intros [[r s] v] Hin. cbn [fst snd]. destruct (H _ _ _ Hin) as [H1 H2]. apply andb_true_iff. split; apply Nat.ltb_lt; assumption.
Qed.

(* every triplet lies in rows [r0, r1) and columns [c0, c1) *)
Definition within (r0 r1 c0 c1 : nat) (M : coo) : Prop :=
  forall r s v, In (r, s, v) M -> (r0 <= r < r1)%nat /\ (c0 <= s < c1)%nat.

Lemma within_fits r0 r1 c0 c1 N M : within r0 r1 c0 c1 M -> (r1 <= N)%nat -> (c1 <= N)%nat -> fits N M.
Proof. intros H H1 H2 r s v Hin. destruct (H _ _ _ Hin). lia. Qed.

Lemma within_emit skip row col b r0 r1 c0 c1 : wf_block b ->
  (r0 <= row)%nat -> (row + DOF <= r1)%nat -> (c0 <= col)%nat -> (col + DOF <= c1)%nat ->
  within r0 r1 c0 c1 (emit skip row col b).
Proof.
  intros Hb Hr0 Hr Hc0 Hc r s v Hin. unfold emit in Hin. destruct (skip && _)%bool; [destruct Hin|].
  apply in_map_iff in Hin. destruct Hin as [[[d e] w] [E Hin]]. inversion E; subst.
  destruct (Hb _ _ _ Hin). lia.
Qed.

Lemma dofpos_fits o m n i j : (i < m)%nat -> (j < n)%nat -> (dofpos o m i j + DOF <= o + DOF * (n * m))%nat.
Proof. unfold dofpos, DOF. intros. nia. Qed.
Lemma dofpos_ge o m i j : (o <= dofpos o m i j)%nat.
Proof. unfold dofpos. lia. Qed.

Lemma within_ikjl skip r0 c0 mA nA mB nB ker : (forall i k j l, wf_block (ker i k j l)) ->
  within r0 (r0 + DOF * (nA * mA)) c0 (c0 + DOF * (nB * mB)) (loop_ikjl skip r0 c0 mA nA mB nB ker).
Proof.
  intros Hk r s v Hin. unfold loop_ikjl in Hin.
  apply in_flat_map in Hin. destruct Hin as [i [Hi Hin]]. apply in_flat_map in Hin. destruct Hin as [k [Hk' Hin]].
  apply in_flat_map in Hin. destruct Hin as [j [Hj Hin]]. apply in_flat_map in Hin. destruct Hin as [l [Hl Hin]].
  apply in_seq in Hi, Hk', Hj, Hl.
  refine (within_emit _ _ _ _ _ _ _ _ (Hk i k j l) _ _ _ _ r s v Hin); try apply dofpos_ge; apply dofpos_fits; lia.
Qed.
Lemma within_jlik skip r0 c0 mA nA mB nB ker : (forall i k j l, wf_block (ker i k j l)) ->
  within r0 (r0 + DOF * (nA * mA)) c0 (c0 + DOF * (nB * mB)) (loop_jlik skip r0 c0 mA nA mB nB ker).
Proof.
  intros Hk r s v Hin. unfold loop_jlik in Hin.
  apply in_flat_map in Hin. destruct Hin as [j [Hj Hin]]. apply in_flat_map in Hin. destruct Hin as [l [Hl Hin]].
  apply in_flat_map in Hin. destruct Hin as [i [Hi Hin]]. apply in_flat_map in Hin. destruct Hin as [k [Hk' Hin]].
  apply in_seq in Hi, Hk', Hj, Hl.
  refine (within_emit _ _ _ _ _ _ _ _ (Hk i k j l) _ _ _ _ r s v Hin); try apply dofpos_ge; apply dofpos_fits; lia.
Qed.

Lemma within_accumulate {P} (pts : list P) entries r0 r1 c0 c1 :
  (forall p, within r0 r1 c0 c1 (entries p)) -> within r0 r1 c0 c1 (accumulate pts entries).
Proof.
  intros H r s v Hin. unfold accumulate in Hin. destruct pts as [|p0 pts]; [destruct Hin|].
  apply in_combine_l in Hin. apply in_map_iff in Hin. destruct Hin as [[[r' s'] v'] [E Hin]].
  cbn in E. inversion E; subst. exact (H _ _ _ _ Hin).
Qed.

Lemma within_app r0 r1 c0 c1 A B : within r0 r1 c0 c1 A -> within r0 r1 c0 c1 B -> within r0 r1 c0 c1 (A ++ B).
Proof. intros HA HB r s v Hin. apply in_app_or in Hin. destruct Hin; eauto. Qed.

Lemma within_dense r0 r1 c0 c1 M r s : within r0 r1 c0 c1 M ->
  ~ ((r0 <= r < r1)%nat /\ (c0 <= s < c1)%nat) -> dense M r s = 0.
Proof.
  intros H Hn. unfold dense. apply suml_0. intros [[i j] v] Hin. specialize (H _ _ _ Hin).
  destruct (Nat.eqb_spec i r); [|reflexivity]. destruct (Nat.eqb_spec j s); [|reflexivity]. subst. contradiction.
Qed.

Definition own_block (row0 col0 : nat) (s : shell) (M : coo) : Prop :=
  within row0 (row0 + ndof s) col0 (col0 + ndof s) M.

Ltac wf := intros; clear; unfold wf_block; let H := fresh "Hin" in intros ? ? ? H; cbn in H;
  repeat match goal with H : _ \/ _ |- _ => destruct H as [H|H] end;
  try contradiction; match goal with H : (_, _, _) = (_, _, _) |- _ => injection H as <- <- _; unfold DOF; lia end.

Section Fit.
Variables (mdl : model) (s : shell) (row0 col0 : nat).

Lemma ndof_eq : ndof s = (DOF * (sh_n s * sh_m s))%nat.
Proof. unfold ndof, DOF. nia. Qed.

Ltac loopfit := lazymatch goal with |- within _ _ _ _ (loop_ikjl _ _ _ _ _ _ _ _) => apply within_ikjl | _ => apply within_jlik end.

Lemma own_fkC_num Q Bs cs Fi nx ny NL kC :
  fkC_num mdl Q Bs cs Fi s row0 col0 nx ny NL = Ok kC -> own_block row0 col0 s kC.
Proof.
  unfold own_block; rewrite ndof_eq. intro H. destruct mdl; cbn [fkC_num fkG_num fkM_num] in H; unfold plate_fkC_num, cyl_fkC_num in H; (destruct (sel_F nx ny Fi); [|discriminate H]);
  cbn [rmap] in H; injection H as <-; apply within_accumulate; intro p; loopfit; wf.
Qed.

Lemma own_fkG_num Q Bs cs Fi nx ny NL Nxx Nyy Nxy kG :
  fkG_num mdl Q Bs cs Fi s row0 col0 nx ny NL Nxx Nyy Nxy = Ok kG -> own_block row0 col0 s kG.
Proof.
  unfold own_block; rewrite ndof_eq. intro H. destruct mdl; cbn [fkC_num fkG_num fkM_num] in H; unfold plate_fkG_num, cyl_fkG_num in H; (destruct (sel_F nx ny Fi); [|discriminate H]);
  cbn [rmap] in H; injection H as <-; apply within_accumulate; intro p;
  loopfit; wf.
Qed.

Lemma own_fkM_num Q Bs off Hh nx ny kM :
  fkM_num mdl Q Bs s off Hh row0 col0 nx ny = Ok kM -> own_block row0 col0 s kM.
Proof.
  unfold own_block; rewrite ndof_eq. intro H. destruct mdl; cbn [fkC_num fkG_num fkM_num] in H; unfold cyl_fkM_num, plate_fkM_num in H; (destruct (sel_hrho nx ny Hh); [|discriminate H]);
  cbn [rmap] in H; injection H as <-; apply within_accumulate; intro p;
  loopfit; wf.
Qed.

Lemma own_fkAx_num Q Bs nx ny : own_block row0 col0 s (fkAx_num mdl Q Bs s row0 col0 nx ny).
Proof.
  unfold own_block; rewrite ndof_eq. destruct mdl; cbv beta delta [fkAx_num fkAy_num plate_fkAx_num plate_fkAy_num cyl_fkAx_num cyl_fkAy_num] iota zeta; apply within_accumulate; intro p; loopfit; wf.
Qed.
Lemma own_fkAy_num Q Bs nx ny : own_block row0 col0 s (fkAy_num mdl Q Bs s row0 col0 nx ny).
Proof.
  unfold own_block; rewrite ndof_eq. destruct mdl; cbv beta delta [fkAx_num fkAy_num plate_fkAx_num plate_fkAy_num cyl_fkAx_num cyl_fkAy_num] iota zeta; apply within_accumulate; intro p; loopfit; wf.
Qed.

Lemma own_fk0 T F : own_block row0 col0 s (fk0 mdl T s F row0 col0).
Proof. unfold own_block; rewrite ndof_eq. destruct mdl; cbv beta delta [fk0 fkG0 fkM plate_fk0 cyl_fk0 plate_fkG0 cyl_fkG0 plate_fkM cyl_fkM] iota; loopfit; wf. Qed.
Lemma own_fkG0 T Nxx Nyy Nxy : own_block row0 col0 s (fkG0 mdl T s Nxx Nyy Nxy row0 col0).
Proof. unfold own_block; rewrite ndof_eq. destruct mdl; cbv beta delta [fk0 fkG0 fkM plate_fk0 cyl_fk0 plate_fkG0 cyl_fkG0 plate_fkM cyl_fkM] iota; loopfit; wf. Qed.
Lemma own_fkM T rho h d : own_block row0 col0 s (fkM mdl T s rho h d row0 col0).
Proof. unfold own_block; rewrite ndof_eq. destruct mdl; cbv beta delta [fk0 fkG0 fkM plate_fk0 cyl_fk0 plate_fkG0 cyl_fkG0 plate_fkM cyl_fkM] iota; loopfit; wf. Qed.
End Fit.

Lemma own_fits row0 col0 s M N : own_block row0 col0 s M ->
  (row0 + ndof s <= N)%nat -> (col0 + ndof s <= N)%nat -> fits N M.
Proof. intros H H1 H2. eapply within_fits; eassumption. Qed.

(* ------------------------------------------------------------ success of the methods *)
Lemma rebuild_ok E p : complete p -> exists p1, rebuild E p = (p1, Ok tt).
Proof.
  intros (Hm & Hs & Hl & Ht).
  destruct p as [sh r mo nx ny st pt pts lp lps rho rhos off ort lam ABD sz N Nc fl be ga ra ma v kC kG kT kM kA].
  cbv [rebuild mbind mmod mget mret mraise mlift get_lam_ABD get_size the_model
       pn_sh pn_r pn_model pn_nx pn_ny pn_stack pn_plyt pn_plyts pn_laminaprop pn_laminaprops pn_rho pn_rhos
       pn_offset pn_ortho pn_lam pn_ABD pn_size pn_N pn_N_cte pn_flow_x pn_beta pn_gamma pn_rho_air pn_Mach pn_V
       pn_kC pn_kG pn_kT pn_kM pn_kA set_nxny set_model set_material set_lam set_size default] in *.
  destruct mo as [[mdl|]|]; [|congruence|];
  (destruct st as [|st0 st]; [congruence|]);
  (destruct lps as [|lp0 lps]; [destruct lp as [|l0 l1]; [destruct Hl; congruence|]|]);
  (destruct rhos as [|r0 rs]);
  (destruct pts as [|t0 ts]; [destruct pt as [t|]; [|destruct Ht; congruence]|]);
  eexists; reflexivity.
Qed.

Lemma check_ok size c : vector_ok size (Some c) -> exists l, check_c c size = Ok l.
Proof. destruct c; cbn; try contradiction. intros ->. rewrite Nat.eqb_refl. eauto. Qed.

Lemma to_shape_ok N M : fits N M -> to_shape N M = Ok M.
Proof. intro H. unfold to_shape. apply in_shape_fits in H. rewrite H. reflexivity. Qed.

Lemma sel_F_ok nx ny Fo F : laminate_shape nx ny Fo ->
  exists G, sel_F nx ny (match Fo with Some F => F | None => FMat F end) = Ok G.
Proof.
  destruct Fo as [[| |]|]; cbn; intro H; try contradiction; eauto.
  destruct H as [-> ->]. rewrite !Nat.eqb_refl. cbn. eauto.
Qed.

Theorem calc_kC_ok E A p :
  complete p ->
  let size := size_value (ka_size A) (pn_sh p) in
  (ka_row0 A + ndof (pn_sh p) <= size)%nat -> (ka_col0 A + ndof (pn_sh p) <= size)%nat ->
  vector_ok size (ka_c A) -> ka_c_cte A = None -> pn_N_cte p = (0, 0, 0) ->
  laminate_shape (points_x A p) (points_y A p) (ka_F A) ->
  (ka_NL A = true -> ka_c A <> None) ->
  exists p' K, calc_kC E A p = (p', Ok K).
Proof.
  cbv zeta. intros Hcomp Hr Hc Hv Hcte HN HF HNL.
  destruct (rebuild_ok E p Hcomp) as [p1 ER]. unfold calc_kC.
  unfold mbind at 1. rewrite ER.
  assert (HR := rebuild_inv _ _ _ _ ER).
  destruct HR as (Hin & Hr1 & Hm & _ & Hnx & Hny & Hl & HABD & _).
  assert (Hsh : pn_sh p1 = pn_sh p) by apply Hin.
  set (size := size_value (ka_size A) (pn_sh p)) in *.
  assert (HS : exists k, eval_size (ka_size A) p1 = (set_size p1 k, Ok size)).
  { unfold size, size_value, eval_size, get_size, the_model, mbind, mget, mmod, mret.
    destruct (ka_size A); rewrite ?Hm; cbn [db_dofs]; rewrite ?Hsh.
    - eexists; reflexivity.
    - exists (pn_size p1). destruct p1; reflexivity.
    - eexists. reflexivity. }
  destruct HS as [k HS]. unfold mbind at 1. rewrite HS.
  unfold mbind at 1.
  assert (HC : exists cl, match ka_c A with None => mret None | Some c => do l <- mlift (check_c c size); mret (Some l) end (set_size p1 k)
     = (set_size p1 k, Ok cl) /\ (cl = None -> ka_c A = None)).
  { destruct (ka_c A) as [c|].
    - destruct (check_ok _ _ Hv) as [l Hl']. exists (Some l). unfold mbind, mlift, mret. rewrite Hl'. split; [reflexivity|discriminate].
    - exists None. split; reflexivity. }
  destruct HC as [cl [HC Hcl]]. rewrite HC. clear HC.
  unfold mbind at 1. unfold the_model at 1.
  replace (pn_model (set_size p1 k)) with (Some (Known (chosen_model p))) by (symmetry; exact Hm).
  unfold mbind at 1, mget at 1. unfold mbind at 1, fix_r at 1, mmod at 1. unfold mbind at 1, mget at 1.
  set (pf := set_r (set_size p1 k) _).
  change (pn_ABD pf) with (pn_ABD p1). rewrite HABD.
  assert (Hnx' : default (pn_nx (set_size p1 k)) (ka_nx A) = points_x A p).
  { unfold points_x. rewrite <- Hnx. reflexivity. }
  assert (Hny' : default (pn_ny (set_size p1 k)) (ka_ny A) = points_y A p).
  { unfold points_y. rewrite <- Hny. reflexivity. }
  rewrite Hnx', Hny'.
  assert (Hnd : ndof (kernel_view pf) = ndof (pn_sh p)).
  { unfold ndof, kernel_view. cbn. rewrite Hsh. reflexivity. }
  assert (Hr' : (ka_row0 A + ndof (kernel_view pf) <= size)%nat) by (rewrite Hnd; exact Hr).
  assert (Hc' : (ka_col0 A + ndof (kernel_view pf) <= size)%nat) by (rewrite Hnd; exact Hc).
  destruct (sel_F_ok _ _ _ (lam_matrix (pn_ortho p) (rebuilt_lam E p)) HF) as [G HG].
  assert (Hnum : exists M, rbind (fkC_num (chosen_model p) (e_rule E) (e_basis E) (vec (default [] cl))
       match ka_F A with Some F => F | None => FMat (lam_matrix (pn_ortho p) (rebuilt_lam E p)) end
       (kernel_view pf) (ka_row0 A) (ka_col0 A) (points_x A p) (points_y A p) (ka_NL A)) (to_shape size) = Ok M).
  { assert (HX : exists M, fkC_num (chosen_model p) (e_rule E) (e_basis E) (vec (default [] cl))
       match ka_F A with Some F => F | None => FMat (lam_matrix (pn_ortho p) (rebuilt_lam E p)) end
       (kernel_view pf) (ka_row0 A) (ka_col0 A) (points_x A p) (points_y A p) (ka_NL A) = Ok M).
    { destruct (chosen_model p); cbn [fkC_num]; unfold plate_fkC_num, cyl_fkC_num; rewrite HG; cbn [rmap]; eexists; reflexivity. }
    destruct HX as [M HX]. exists M. rewrite HX. cbn [rbind]. apply to_shape_ok.
    eapply own_fits; [eapply own_fkC_num; exact HX|exact Hr'|exact Hc']. }
  destruct Hnum as [M HM].
  cbv zeta. unfold mbind at 1.
  match goal with |- context [if negb ?b then mlift ?x else ?y] => 
    assert (HK : exists M, (if negb b then mlift x else y) pf = (pf, Ok M)) end.
  { destruct (negb _).
    - rewrite (to_shape_ok size) by (eapply own_fits; [apply own_fk0|assumption|assumption]). unfold mlift. eexists; reflexivity.
    - destruct cl as [cl|].
      + unfold mlift. exists M. rewrite HM. reflexivity.
      + specialize (Hcl eq_refl). destruct (ka_NL A); [exfalso; apply HNL; auto|].
        destruct (ka_F A); unfold mlift; exists M; rewrite HM; reflexivity. }
  destruct HK as [M' HK]. rewrite HK. clear HK.
  change (pn_N_cte pf) with (pn_N_cte p1). rewrite (si_N_cte _ _ Hin), HN, Hcte.
  replace (any3 (0, 0, 0)) with false.
  2:{ unfold any3. destruct (Req_EM_T 0 0); [reflexivity|congruence]. }
  cbn [is_some orb]. unfold mbind, mmod, mret. eexists. eexists. reflexivity.
Qed.

Theorem calc_kG_ok E A p :
  complete p ->
  let size := size_value (ka_size A) (pn_sh p) in
  (ka_row0 A + ndof (pn_sh p) <= size)%nat -> (ka_col0 A + ndof (pn_sh p) <= size)%nat ->
  vector_ok size (ka_c A) ->
  laminate_shape (points_x A p) (points_y A p) (ka_F A) ->
  exists p' K, calc_kG E A p = (p', Ok K).
Proof.
  cbv zeta. intros Hcomp Hr Hc Hv HF.
  destruct (rebuild_ok E p Hcomp) as [p1 ER]. unfold calc_kG.
  unfold mbind at 1. rewrite ER.
  assert (HR := rebuild_inv _ _ _ _ ER).
  destruct HR as (Hin & Hr1 & Hm & _ & Hnx & Hny & Hl & HABD & _).
  assert (Hsh : pn_sh p1 = pn_sh p) by apply Hin.
  set (size := size_value (ka_size A) (pn_sh p)) in *.
  assert (HS : exists k, eval_size (ka_size A) p1 = (set_size p1 k, Ok size)).
  { unfold size, size_value, eval_size, get_size, the_model, mbind, mget, mmod, mret.
    destruct (ka_size A); rewrite ?Hm; cbn [db_dofs]; rewrite ?Hsh.
    - eexists; reflexivity.
    - exists (pn_size p1). destruct p1; reflexivity.
    - eexists. reflexivity. }
  destruct HS as [k HS]. unfold mbind at 1. rewrite HS.
  unfold mbind at 1.
  assert (HC : exists cl, match ka_c A with None => mret (repeat 0 size) | Some c => mlift (check_c c size) end (set_size p1 k)
     = (set_size p1 k, Ok cl)).
  { destruct (ka_c A) as [c|].
    - destruct (check_ok _ _ Hv) as [l Hl']. exists l. unfold mlift. rewrite Hl'. reflexivity.
    - eexists. reflexivity. }
  destruct HC as [cl HC]. rewrite HC. clear HC.
  unfold mbind at 1. unfold the_model at 1.
  replace (pn_model (set_size p1 k)) with (Some (Known (chosen_model p))) by (symmetry; exact Hm).
  unfold mbind at 1, fix_r at 1, mmod at 1. unfold mbind at 1, mget at 1.
  set (pf := set_r (set_size p1 k) _).
  assert (Hnx' : default (pn_nx pf) (ka_nx A) = points_x A p).
  { unfold points_x. rewrite <- Hnx. reflexivity. }
  assert (Hny' : default (pn_ny pf) (ka_ny A) = points_y A p).
  { unfold points_y. rewrite <- Hny. reflexivity. }
  rewrite Hnx', Hny'. cbv zeta.
  assert (Hnd : ndof (kernel_view pf) = ndof (pn_sh p)).
  { unfold ndof, kernel_view. cbn. rewrite Hsh. reflexivity. }
  assert (Hr' : (ka_row0 A + ndof (kernel_view pf) <= size)%nat) by (rewrite Hnd; exact Hr).
  assert (Hc' : (ka_col0 A + ndof (kernel_view pf) <= size)%nat) by (rewrite Hnd; exact Hc).
  destruct (sel_F_ok _ _ _ (lam_matrix (pn_ortho p) (rebuilt_lam E p)) HF) as [G HG].
  destruct (pn_N pf) as [[Nxx Nyy] Nxy].
  assert (Hnum : exists M, rbind (fkG_num (chosen_model p) (e_rule E) (e_basis E) (vec cl)
       match ka_F A with Some F => F | None => FMat (lam_matrix (pn_ortho p) (rebuilt_lam E p)) end
       (kernel_view pf) (ka_row0 A) (ka_col0 A) (points_x A p) (points_y A p) (ka_NL A) Nxx Nyy Nxy) (to_shape size) = Ok M).
  { assert (HX : exists M, fkG_num (chosen_model p) (e_rule E) (e_basis E) (vec cl)
       match ka_F A with Some F => F | None => FMat (lam_matrix (pn_ortho p) (rebuilt_lam E p)) end
       (kernel_view pf) (ka_row0 A) (ka_col0 A) (points_x A p) (points_y A p) (ka_NL A) Nxx Nyy Nxy = Ok M).
    { destruct (chosen_model p); cbn [fkG_num]; unfold plate_fkG_num, cyl_fkG_num; rewrite HG; cbn [rmap]; eexists; reflexivity. }
    destruct HX as [M HX]. exists M. rewrite HX. cbn [rbind]. apply to_shape_ok.
    eapply own_fits; [eapply own_fkG_num; exact HX|exact Hr'|exact Hc']. }
  destruct Hnum as [M HM].
  unfold mbind at 1.
  match goal with |- context [if negb ?b then mlift ?x else ?y] => 
    assert (HK : exists M, (if negb b then mlift x else y) pf = (pf, Ok M)) end.
  { destruct (negb _).
    - rewrite (to_shape_ok size) by (eapply own_fits; [apply own_fkG0|assumption|assumption]). unfold mlift. eexists; reflexivity.
    - exists M. destruct (ka_F A).
      + unfold mbind, mlift, mret. rewrite HM. reflexivity.
      + unfold mbind, mlift, mret, get_lam_ABD.
        replace (pn_lam pf) with (Some (rebuilt_lam E p)) by (symmetry; exact Hl).
        replace (pn_ortho pf) with (pn_ortho p) by (symmetry; cbn; apply Hin). rewrite HM. reflexivity. }
  destruct HK as [M' HK]. rewrite HK. clear HK.
  unfold mbind, mmod, mret. eexists. eexists. reflexivity.
Qed.

Theorem calc_kM_ok E sz row0 col0 ho ro nxo nyo fin p mdl lam :
  pn_model p = Some (Known mdl) -> pn_lam p = Some lam ->
  let size := size_value sz (pn_sh p) in
  let nx := default (pn_nx p) nxo in let ny := default (pn_ny p) nyo in
  (row0 + ndof (pn_sh p) <= size)%nat -> (col0 + ndof (pn_sh p) <= size)%nat ->
  match ho with None => True | Some (x, y, _) => (x, y) = (nx, ny) end ->
  match ro with None => True | Some (x, y, _) => (x, y) = (nx, ny) end ->
  exists p' K, calc_kM E sz row0 col0 ho ro nxo nyo fin p = (p', Ok K).
Proof.
  cbv zeta. intros Hm Hl Hr Hc Hh Hrho. unfold calc_kM.
  unfold mbind at 1, mget at 1. cbv zeta. unfold mbind at 1, the_model at 1. rewrite Hm.
  unfold mbind at 1, fix_r at 1, mmod at 1. set (pr := set_r p _).
  assert (HS : exists k, eval_size sz pr = (set_size pr k, Ok (size_value sz (pn_sh p)))).
  { unfold size_value, eval_size, get_size, the_model, mbind, mget, mmod, mret.
    destruct sz; cbn [pr set_r pn_model]; rewrite ?Hm; cbn [db_dofs].
    - eexists; reflexivity.
    - exists (pn_size p). reflexivity.
    - eexists. reflexivity. }
  destruct HS as [k HS]. unfold mbind at 1. rewrite HS. unfold mbind at 1, mget at 1.
  set (pf := set_size pr k).
  change (pn_lam pf) with (pn_lam p). rewrite Hl. cbn [default].
  set (size := size_value sz (pn_sh p)) in *.
  set (nx := default (pn_nx p) nxo) in *. set (ny := default (pn_ny p) nyo) in *.
  assert (Hr' : (row0 + ndof (kernel_view pf) <= size)%nat) by exact Hr.
  assert (Hc' : (col0 + ndof (kernel_view pf) <= size)%nat) by exact Hc.
  assert (Hany : forall h rho, exists M, rbind (fkM_num mdl (e_rule E) (e_basis E) (kernel_view pf) (pn_offset pf) (HPts nx ny h rho)
     row0 col0 nx ny) (to_shape size) = Ok M).
  { intros h rho. 
    assert (HX : exists M, fkM_num mdl (e_rule E) (e_basis E) (kernel_view pf) (pn_offset pf) (HPts nx ny h rho) row0 col0 nx ny = Ok M).
    { destruct mdl; cbn [fkM_num]; unfold cyl_fkM_num, plate_fkM_num, sel_hrho; rewrite !Nat.eqb_refl; cbn [andb rmap]; eexists; reflexivity. }
    destruct HX as [M HX]. exists M. rewrite HX. cbn [rbind]. apply to_shape_ok.
    eapply own_fits; [eapply own_fkM_num; exact HX|exact Hr'|exact Hc']. }
  destruct ho as [[[hx hy] h]|]; [injection Hh as Eh1 Eh2; rewrite Eh1, Eh2; clear Eh1 Eh2|];
  (destruct ro as [[[rx ry] rho]|]; [injection Hrho as Er1 Er2; rewrite Er1, Er2; clear Er1 Er2|]); cbn [is_some orb negb default];
  rewrite ?Nat.eqb_refl; cbn [andb].
  1-3: match goal with |- context [HPts _ _ ?h ?rho] => destruct (Hany h rho) as [M HM] end; 
     unfold mbind, mlift, mmod, mret; rewrite HM; eexists; eexists; reflexivity.
  rewrite (to_shape_ok size) by (eapply own_fits; [apply own_fkM|assumption|assumption]).
  unfold mbind, mlift, mmod, mret. eexists; eexists; reflexivity.
Qed.
