(* Closed-form matrices: symmetry, exact energy, rounding of the tables, agreement with quadrature. *)
From Coq Require Import Reals List Arith Bool Lia Lra.
From Coquelicot Require Import Coquelicot.
From Verif Require Import Base_Sum Model_Types Model_Coo Model_PlateAna Model_CylAna
  Model_Num Model_DB Spec_Algebra Spec_Kinematics Spec_Quadrature Spec_Panel Spec_Integral Proof_Coo Proof_Num Proof_Energy Proof_Total Proof_AnaKer.
Import ListNotations.
Open Scope R_scope.

(* ------------------------------------------------- symmetry needed only inside the block *)
Lemma finalize_full' K o m n V :
  (forall i k j l d e, (i < m)%nat -> (k < m)%nat -> (j < n)%nat -> (l < n)%nat ->
     (d < DOF)%nat -> (e < DOF)%nat -> V i k j l d e = V k i l j e d) ->
  (forall r s, K r s = if (inblk o m n r && inblk o m n s)%bool then
     if skipped true o o m m (ix o m r) (ix o m s) (jx o m r) (jx o m s) then 0
     else V (ix o m r) (ix o m s) (jx o m r) (jx o m s) (cx o r) (cx o s) else 0) ->
  forall r s, finalize_symmetric K r s = fullmat o m n V r s.
Proof.
  intros HV HK.
  set (V' := fun i k j l d e => if ((i <? m) && (k <? m) && ((j <? n) && (l <? n)))%nat%bool then V i k j l d e else 0).
  assert (Hin : forall r s, (inblk o m n r && inblk o m n s)%bool = true ->
     V' (ix o m r) (ix o m s) (jx o m r) (jx o m s) (cx o r) (cx o s) =
     V (ix o m r) (ix o m s) (jx o m r) (jx o m s) (cx o r) (cx o s)).
  { intros r s E. apply andb_true_iff in E. destruct E as [Er Es].
    destruct (inblk_bounds _ _ _ _ Er) as (A & B & _). destruct (inblk_bounds _ _ _ _ Es) as (A' & B' & _).
    unfold V'. apply Nat.ltb_lt in A, B, A', B'. rewrite A, B, A', B'. reflexivity. }
  intros r s. rewrite (finalize_full K o m n V').
  - unfold fullmat. destruct (inblk o m n r && inblk o m n s)%bool eqn:E; [apply Hin; exact E|reflexivity].
  - intros i k j l d e Hd He. unfold V'.
    destruct (Nat.ltb_spec i m), (Nat.ltb_spec k m), (Nat.ltb_spec j n), (Nat.ltb_spec l n); cbn [andb]; try reflexivity.
    apply HV; assumption.
  - intros r' s'. rewrite HK. destruct (inblk o m n r' && inblk o m n s')%bool eqn:E; [|reflexivity].
    rewrite Hin by exact E. reflexivity.
Qed.

Definition one_d_sym (t : one_d) (n : nat) : Prop :=
  forall p q i k e e', (i < n)%nat -> (k < n)%nat -> t p q i k e e' = t q p k i e' e.

Lemma tab_sym T n : tables_symmetric T n -> one_d_sym (tab T) n.
Proof.
  intros H p q i k e e' Hi Hk. destruct (H i k e e' Hi Hk) as (A & B & C).
  destruct p as [|[|p]]; destruct q as [|[|q]]; cbn [tab]; auto.
Qed.

Lemma V_gen_sym tx ty s J q M op i k j l d e m n :
  one_d_sym tx m -> one_d_sym ty n -> (forall a b, M a b = M b a) ->
  (i < m)%nat -> (k < m)%nat -> (j < n)%nat -> (l < n)%nat ->
  V_gen tx ty s J q M op i k j l d e = V_gen tx ty s J q M op k i l j e d.
Proof.
  intros Hx Hy HM Hi Hk Hj Hl. unfold V_gen. f_equal. rewrite sumn_swap.
  apply sumn_ext; intros a _. apply sumn_ext; intros b _.
  destruct (op b d) as [bb [pb qb]]. destruct (op a e) as [ba [pa qa]].
  rewrite (HM b a), (Hx pb pa i k), (Hy qb qa j l) by assumption. ring.
Qed.

(* ------------------------------------------------- dense value of a closed-form matrix *)
Lemma ana_dense ker V o m n :
  (forall i k j l, wf_block (ker i k j l)) ->
  (forall i k j l d e, (d < DOF)%nat -> (e < DOF)%nat -> loc (ker i k j l) d e = V i k j l d e) ->
  forall r s,
  dense (loop_ikjl true o o m n m n ker) r s =
  if (inblk o m n r && inblk o m n s)%bool then
     if skipped true o o m m (ix o m r) (ix o m s) (jx o m r) (jx o m s) then 0
     else V (ix o m r) (ix o m s) (jx o m r) (jx o m s) (cx o r) (cx o s) else 0.
Proof.
  intros Hwf Hloc r s. rewrite dense_ikjl by exact Hwf. unfold loop_value.
  destruct (inblk o m n r && inblk o m n s)%bool eqn:E; [|reflexivity].
  apply andb_true_iff in E. destruct E as [Er Es].
  destruct (inblk_bounds _ _ _ _ Er) as (_ & _ & Hc & _). destruct (inblk_bounds _ _ _ _ Es) as (_ & _ & Hc' & _).
  destruct (skipped _ _ _ _ _ _ _ _ _); [reflexivity|]. apply Hloc; assumption.
Qed.

Definition block_form (o m n : nat) (V : nat -> nat -> nat -> nat -> nat -> nat -> R) (K : nat -> nat -> R) : Prop :=
  forall r s, K r s = if (inblk o m n r && inblk o m n s)%bool then
     if skipped true o o m m (ix o m r) (ix o m s) (jx o m r) (jx o m s) then 0
     else V (ix o m r) (ix o m s) (jx o m r) (jx o m s) (cx o r) (cx o s) else 0.

Lemma fk0_dense mdl T s F o : geometry_ok mdl s ->
  block_form o (sh_m s) (sh_n s) (V_ana T s (sh_a s * sh_b s / 4) 6 (Fsym F) (opB (curvature mdl s) s))
    (dense (fk0 mdl T s F o o)).
Proof.
  intros (Ha & Hb & Hr). destruct mdl; cbn [fk0 curvature].
  - unfold block_form, plate_fk0. apply ana_dense; [wf|]. intros; apply plate_fk0_loc; assumption.
  - unfold block_form, cyl_fk0. apply ana_dense; [wf|]. intros; apply cyl_fk0_loc; auto.
Qed.
Lemma fkG0_dense mdl T s Nxx Nyy Nxy o : geometry_ok mdl s ->
  block_form o (sh_m s) (sh_n s) (V_ana T s (sh_a s * sh_b s / 4) 2 (Nmat Nxx Nyy Nxy) (opG s))
    (dense (fkG0 mdl T s Nxx Nyy Nxy o o)).
Proof.
  intros (Ha & Hb & Hr). destruct mdl; cbn [fkG0].
  - unfold block_form, plate_fkG0. apply ana_dense; [wf|]. intros; apply plate_fkG0_loc; assumption.
  - unfold block_form, cyl_fkG0. apply ana_dense; [wf|]. intros; apply cyl_fkG0_loc; auto.
Qed.
Lemma fkM_dense mdl T s rho h off o : geometry_ok mdl s ->
  block_form o (sh_m s) (sh_n s) (V_ana T s (sh_a s * sh_b s / 4) 5 (Mmat h rho) (opM off s))
    (dense (fkM mdl T s rho h off o o)).
Proof.
  intros (Ha & Hb & Hr). destruct mdl; cbn [fkM].
  - unfold block_form, plate_fkM. apply ana_dense; [wf|]. intros; apply plate_fkM_loc'; assumption.
  - unfold block_form, cyl_fkM. apply ana_dense; [wf|]. intros; apply cyl_fkM_loc'; auto.
Qed.

Lemma block_full o m n V K : 
  (forall i k j l d e, (i < m)%nat -> (k < m)%nat -> (j < n)%nat -> (l < n)%nat ->
     (d < DOF)%nat -> (e < DOF)%nat -> V i k j l d e = V k i l j e d) ->
  block_form o m n V K -> forall r s, finalize_symmetric K r s = fullmat o m n V r s.
Proof. intros H1 H2. apply finalize_full'; assumption. Qed.

Lemma block_computed o m n V K : 
  (forall i k j l d e, (i < m)%nat -> (k < m)%nat -> (j < n)%nat -> (l < n)%nat ->
     (d < DOF)%nat -> (e < DOF)%nat -> V i k j l d e = V k i l j e d) ->
  block_form o m n V K -> forall r s, K r s = 0 \/ K r s = finalize_symmetric K r s.
Proof.
  intros H1 H2 r s. rewrite (block_full _ _ _ _ _ H1 H2). rewrite (H2 r s). unfold fullmat.
  destruct (inblk o m n r && inblk o m n s)%bool; [|left; reflexivity].
  destruct (skipped _ _ _ _ _ _ _ _ _); [left|right]; reflexivity.
Qed.

(* ------------------------------------------------- square integrals *)
Lemma sqi_ext g h I : (forall x y, g x y = h x y) -> square_integral g I -> square_integral h I.
Proof.
  intros E [H1 H2]. split.
  - intro x. eapply ex_RInt_ext; [|apply (H1 x)]. intros; apply E.
  - eapply is_RInt_ext; [|exact H2]. intros x _. cbv beta. apply RInt_ext. intros; apply E.
Qed.
Lemma sqi_plus g h I J : square_integral g I -> square_integral h J ->
  square_integral (fun x y => g x y + h x y) (I + J).
Proof.
  intros [A1 A2] [B1 B2]. split.
  - intro x. apply @ex_RInt_plus; auto.
  - eapply is_RInt_ext; [|apply @is_RInt_plus; [exact A2|exact B2]].
    intros x _. cbv beta. symmetry. apply (@RInt_plus R_CompleteNormedModule); auto.
Qed.
Lemma sqi_scal k g I : square_integral g I -> square_integral (fun x y => k * g x y) (k * I).
Proof.
  intros [A1 A2]. split.
  - intro x. apply @ex_RInt_scal. auto.
  - eapply is_RInt_ext; [|apply @is_RInt_scal; exact A2].
    intros x _. cbv beta. symmetry. apply (@RInt_scal R_CompleteNormedModule). auto.
Qed.
Lemma sqi_0 : square_integral (fun _ _ => 0) 0.
Proof.
  split; [intro; apply @ex_RInt_const|].
  eapply is_RInt_ext; [|evar_last; [apply (@is_RInt_const R_NormedModule)|]].
  - intros x _. cbv beta. symmetry. rewrite RInt_const. unfold scal; cbn; unfold mult; cbn. instantiate (1 := 0). lra.
  - unfold scal; cbn; unfold mult; cbn. ring.
Qed.
Lemma sqi_prod (f g : R -> R) (I J : R) : is_RInt f (-1) 1 I -> is_RInt g (-1) 1 J ->
  square_integral (fun x y => f x * g y) (I * J).
Proof.
  intros A B. split.
  - intro x. apply @ex_RInt_scal. eexists; exact B.
  - eapply is_RInt_ext; [|evar_last; [apply (@is_RInt_scal R_NormedModule f (-1) 1 J); exact A|]].
    + intros x _. cbv beta. symmetry. apply is_RInt_unique. 
      evar_last; [apply (@is_RInt_scal R_NormedModule g (-1) 1 (f x)); exact B|]. unfold scal; cbn; unfold mult; cbn. ring.
    + unfold scal; cbn; unfold mult; cbn. ring.
Qed.
Lemma sqi_sumn n (g : nat -> R -> R -> R) I : (forall k, (k < n)%nat -> square_integral (g k) (I k)) ->
  square_integral (fun x y => sumn n (fun k => g k x y)) (sumn n I).
Proof.
  induction n as [|n IH]; intro H; cbn [sumn]; [apply sqi_0|].
  apply sqi_plus; [apply IH; intros; apply H; lia|apply H; lia].
Qed.
Lemma sqi_dofsum m n (g : nat -> nat -> nat -> R -> R -> R) I :
  (forall i j d, (i < m)%nat -> (j < n)%nat -> (d < DOF)%nat -> square_integral (g i j d) (I i j d)) ->
  square_integral (fun x y => dofsum m n (fun i j d => g i j d x y)) (dofsum m n I).
Proof.
  intro H. unfold dofsum. apply sqi_sumn; intros j Hj. apply sqi_sumn; intros i Hi. apply sqi_sumn; intros d Hd.
  apply H; assumption.
Qed.

(* ------------------------------------------------- exact energy *)
Definition one_d_integrates (t : one_d) (Bs : basis) (n : nat) : Prop :=
  forall p q i k e e', (i < n)%nat -> (k < n)%nat ->
  is_RInt (fun x => shape Bs p i x e * shape Bs q k x e') (-1) 1 (t p q i k e e').

Lemma tab_integrates T Bs n : tables_integrate T Bs n -> one_d_integrates (tab T) Bs n.
Proof.
  intros H p q i k e e' Hi Hk. destruct (H i k e e' Hi Hk) as (A & B & C & D & E & G).
  destruct (H k i e' e Hk Hi) as (A' & B' & C' & D' & E' & G'). cbv zeta in *.
  destruct p as [|[|p]]; destruct q as [|[|q]]; cbn [tab shape]; try assumption;
  (eapply is_RInt_ext; [|eassumption]; intros; cbv beta; apply Rmult_comm).
Qed.

Lemma tables_integrate_symmetric T Bs n : tables_integrate T Bs n -> tables_symmetric T n.
Proof.
  intros H i k e e' Hi Hk. destruct (H i k e e' Hi Hk) as (A & _ & _ & D & _ & G).
  destruct (H k i e' e Hk Hi) as (A' & _ & _ & D' & _ & G'). cbv zeta in *.
  assert (E : forall (f g : R -> R) (v w : R), is_RInt (fun x => f x * g x) (-1) 1 v -> is_RInt (fun x => g x * f x) (-1) 1 w -> v = w).
  { intros f g v w Hv Hw. rewrite <- (is_RInt_unique (V := R_CompleteNormedModule) _ _ _ _ Hv), <- (is_RInt_unique (V := R_CompleteNormedModule) _ _ _ _ Hw).
    apply RInt_ext. intros; apply Rmult_comm. }
  split; [|split].
  - exact (E (fun x => bf Bs i x e) (fun x => bf Bs k x e') _ _ A A').
  - exact (E (fun x => bfp Bs i x e) (fun x => bfp Bs k x e') _ _ D D').
  - exact (E (fun x => bfpp Bs i x e) (fun x => bfpp Bs k x e') _ _ G G').
Qed.

Lemma tables_integrate_le T Bs n n' : (n' <= n)%nat -> tables_integrate T Bs n -> tables_integrate T Bs n'.
Proof. intros L H i k e e' Hi Hk. apply H; lia. Qed.
Lemma tables_symmetric_le T n n' : (n' <= n)%nat -> tables_symmetric T n -> tables_symmetric T n'.
Proof. intros L H i k e e' Hi Hk. apply H; lia. Qed.

Lemma V_gen_integral tx ty Bs s J q M op i k j l d e m n :
  one_d_integrates tx Bs m -> one_d_integrates ty Bs n ->
  (i < m)%nat -> (k < m)%nat -> (j < n)%nat -> (l < n)%nat ->
  square_integral (fun xi eta => J * sumn q (fun a => sumn q (fun b =>
       M a b * S_of op Bs s xi eta a i j d * S_of op Bs s xi eta b k l e)))
    (V_gen tx ty s J q M op i k j l d e).
Proof.
  intros Hx Hy Hi Hk Hj Hl. unfold V_gen. apply sqi_scal.
  apply sqi_sumn; intros a _. apply sqi_sumn; intros b _. unfold S_of.
  destruct (op a d) as [ba [pa qa]]. destruct (op b e) as [bb [pb qb]].
  eapply sqi_ext; [|apply sqi_scal, sqi_prod; [apply (Hx pa pb i k)|apply (Hy qa qb j l)]; assumption].
  intros x y. cbv beta. ring.
Qed.

Theorem gram_energy tx ty Bs s J q M op o N c d :
  one_d_integrates tx Bs (sh_m s) -> one_d_integrates ty Bs (sh_n s) ->
  (o + DOF * (sh_n s * sh_m s) <= N)%nat ->
  square_integral (fun xi eta => J * form q M
      (fun a => cfield o (sh_m s) (sh_n s) c (S_of op Bs s xi eta a))
      (fun b => cfield o (sh_m s) (sh_n s) d (S_of op Bs s xi eta b)))
    (bilinear N (fullmat o (sh_m s) (sh_n s) (V_gen tx ty s J q M op)) c d).
Proof.
  intros Hx Hy HN. rewrite bilinear_full by exact HN.
  assert (E : forall i j p k l e, c (dofpos o (sh_m s) i j + p)%nat * V_gen tx ty s J q M op i k j l p e * d (dofpos o (sh_m s) k l + e)%nat =
     c (dofpos o (sh_m s) i j + p)%nat * d (dofpos o (sh_m s) k l + e)%nat * V_gen tx ty s J q M op i k j l p e) by (intros; ring).
  eapply sqi_ext; [|apply sqi_dofsum; intros i j p Hi Hj Hp; apply sqi_dofsum; intros k l e Hk Hl He; rewrite E;
    apply sqi_scal; apply (V_gen_integral tx ty Bs s J q M op i k j l p e _ _ Hx Hy Hi Hk Hj Hl)].
  intros xi eta. cbv beta.
  pose proof (gram_bilinear_dofsum [tt] (fun _ => J) q (fun _ => M) (fun _ => S_of op Bs s xi eta) o (sh_m s) (sh_n s) o (sh_m s) (sh_n s) c d) as G.
  cbn [suml] in G. rewrite Rplus_0_r in G. rewrite <- G.
  apply dofsum_ext; intros i j p _ _ _. apply dofsum_ext; intros k l e _ _ _. ring.
Qed.

Lemma ritz_zero m n d X Y : ritz m n (fun _ => 0) d X Y = 0.
Proof. unfold ritz. apply sumn_0; intros. apply sumn_0; intros. ring. Qed.
Lemma dstrain_zero kappa Bs s v xi eta k : dstrain kappa Bs s (fun _ => 0) v xi eta k = lin_strain kappa Bs s v xi eta k.
Proof.
  unfold dstrain, d_wx, d_wy, fld. rewrite !ritz_zero. destruct k as [|[|[|k]]]; ring.
Qed.
Lemma cfield_ext o m n c S S' : (forall i j d, (i < m)%nat -> (j < n)%nat -> (d < DOF)%nat -> S i j d = S' i j d) ->
  cfield o m n c S = cfield o m n c S'.
Proof. intro H. apply dofsum_ext; intros. rewrite H by assumption. reflexivity. Qed.

Lemma cfield_opB kappa Bs s o v xi eta k : (k < 6)%nat ->
  cfield o (sh_m s) (sh_n s) v (S_of (opB kappa s) Bs s xi eta k) = lin_strain kappa Bs s (own o v) xi eta k.
Proof.
  intro Hk. rewrite <- dstrain_zero. change (fun _ : nat => 0) with (shift o (fun _ => 0)). change own with shift.
  rewrite <- cfield_Bop. apply cfield_ext. intros i j d _ _ Hd. rewrite S_opB by assumption.
  unfold d_wx, d_wy, fld. change (shift o (fun _ => 0)) with (fun _ : nat => 0). rewrite !ritz_zero.
  f_equal; ring.
Qed.
Lemma cfield_opG Bs s o v xi eta k : (k < 2)%nat ->
  cfield o (sh_m s) (sh_n s) v (S_of (opG s) Bs s xi eta k) =
  match k with 0%nat => d_wx Bs s (own o v) xi eta | 1%nat => d_wy Bs s (own o v) xi eta | _ => 0 end.
Proof.
  intro Hk. change own with shift. rewrite <- cfield_Gop. apply cfield_ext. intros. apply S_opG; assumption.
Qed.
Lemma cfield_opM Bs s o off v xi eta k : (k < 5)%nat ->
  cfield o (sh_m s) (sh_n s) v (S_of (opM off s) Bs s xi eta k) = cfield o (sh_m s) (sh_n s) v (Mop Bs s off xi eta k).
Proof. intro Hk. apply cfield_ext. intros. apply S_opM; assumption. Qed.

Lemma ana_full T s J q M op o K :
  tables_symmetric T (Nat.max (sh_m s) (sh_n s)) -> (forall a b, M a b = M b a) ->
  block_form o (sh_m s) (sh_n s) (V_ana T s J q M op) K ->
  forall r t, finalize_symmetric K r t = fullmat o (sh_m s) (sh_n s) (V_ana T s J q M op) r t.
Proof.
  intros HT HM HK. apply block_full; [|exact HK].
  intros i k j l d e Hi Hk Hj Hl _ _. apply (V_gen_sym _ _ _ _ _ _ _ _ _ _ _ _ _ (sh_m s) (sh_n s)); auto;
    apply tab_sym; (eapply tables_symmetric_le; [|exact HT]); lia.
Qed.
Lemma ana_computed T s J q M op o K :
  tables_symmetric T (Nat.max (sh_m s) (sh_n s)) -> (forall a b, M a b = M b a) ->
  block_form o (sh_m s) (sh_n s) (V_ana T s J q M op) K ->
  forall r t, K r t = 0 \/ K r t = finalize_symmetric K r t.
Proof.
  intros HT HM HK. eapply block_computed; [|exact HK].
  intros i k j l d e Hi Hk Hj Hl _ _. apply (V_gen_sym _ _ _ _ _ _ _ _ _ _ _ _ _ (sh_m s) (sh_n s)); auto;
    apply tab_sym; (eapply tables_symmetric_le; [|exact HT]); lia.
Qed.

Lemma ana_energy T Bs s q M op o K N c d :
  tables_integrate T Bs (Nat.max (sh_m s) (sh_n s)) -> (forall a b, M a b = M b a) -> (o + ndof s <= N)%nat ->
  block_form o (sh_m s) (sh_n s) (V_ana T s (sh_a s * sh_b s / 4) q M op) K ->
  panel_integral s (fun xi eta => form q M (fun a => cfield o (sh_m s) (sh_n s) c (S_of op Bs s xi eta a))
      (fun b => cfield o (sh_m s) (sh_n s) d (S_of op Bs s xi eta b))) (bilinear N (finalize_symmetric K) c d).
Proof.
  intros HT HM HN HK.
  rewrite (bilinear_ext N _ _ c d (ana_full _ _ _ _ _ _ _ _ (tables_integrate_symmetric _ _ _ HT) HM HK)).
  unfold panel_integral. eapply sqi_ext; [|apply (gram_energy (tab T) (tab T) Bs)].
  - intros xi eta. cbv beta. f_equal. field.
  - apply tab_integrates. eapply tables_integrate_le; [|exact HT]; lia.
  - apply tab_integrates. eapply tables_integrate_le; [|exact HT]; lia.
  - unfold ndof in HN. unfold DOF. nia.
Qed.

Lemma panel_integral_ext s g h I : (forall x y, g x y = h x y) -> panel_integral s g I -> panel_integral s h I.
Proof. intros E. apply sqi_ext. intros. rewrite E. reflexivity. Qed.

Theorem fk0_energy mdl T Bs s F o N c d : geometry_ok mdl s -> is_ABD F ->
  tables_integrate T Bs (Nat.max (sh_m s) (sh_n s)) -> (o + ndof s <= N)%nat ->
  panel_integral s (fun xi eta =>
     form 6 F (lin_strain (curvature mdl s) Bs s (own o c) xi eta) (lin_strain (curvature mdl s) Bs s (own o d) xi eta))
   (bilinear N (finalize_symmetric (dense (fk0 mdl T s F o o))) c d).
Proof.
  intros Hg HF HT HN. eapply panel_integral_ext; [|apply (ana_energy T Bs s 6 (Fsym F) (opB (curvature mdl s) s) o)].
  - intros xi eta. cbv beta. rewrite <- (form_Fsym F) by exact HF. apply form_ext; intros; auto; apply cfield_opB; assumption.
  - exact HT.
  - intros; apply Fsym_sym.
  - exact HN.
  - apply fk0_dense. exact Hg.
Qed.
Theorem fkG0_energy mdl T Bs s Nxx Nyy Nxy o N c d : geometry_ok mdl s ->
  tables_integrate T Bs (Nat.max (sh_m s) (sh_n s)) -> (o + ndof s <= N)%nat ->
  panel_integral s (fun xi eta => membrane_work Bs s Nxx Nyy Nxy (own o c) (own o d) xi eta)
   (bilinear N (finalize_symmetric (dense (fkG0 mdl T s Nxx Nyy Nxy o o))) c d).
Proof.
  intros Hg HT HN. eapply panel_integral_ext; [|apply (ana_energy T Bs s 2 (Nmat Nxx Nyy Nxy) (opG s) o)].
  - intros xi eta. cbv beta. rewrite form_Nmat, !cfield_opG by lia. reflexivity.
  - exact HT.
  - intros; apply Nmat_sym.
  - exact HN.
  - apply fkG0_dense. exact Hg.
Qed.
Theorem fkM_energy mdl T Bs s rho h off o N c d : geometry_ok mdl s ->
  tables_integrate T Bs (Nat.max (sh_m s) (sh_n s)) -> (o + ndof s <= N)%nat ->
  panel_integral s (fun xi eta => kinetic Bs s twelfth h rho off (own o c) (own o d) xi eta)
   (bilinear N (finalize_symmetric (dense (fkM mdl T s rho h off o o))) c d).
Proof.
  intros Hg HT HN. eapply panel_integral_ext; [|apply (ana_energy T Bs s 5 (Mmat h rho) (opM off s) o)].
  - intros xi eta. cbv beta. unfold form. cbn [sumn Mmat]. rewrite !cfield_opM, !cfield_Mop by lia.
    unfold kinetic. change (shift o) with (own o). ring.
  - exact HT.
  - intros; apply Mmat_sym.
  - exact HN.
  - apply fkM_dense. exact Hg.
Qed.

(* sums of matrices *)
Lemma dense_app A B r s : dense (coo_add A B) r s = dense A r s + dense B r s.
Proof. unfold coo_add, dense. rewrite suml_app. reflexivity. Qed.
Lemma bilinear_plus N K K' c d : bilinear N (fun r s => K r s + K' r s) c d = bilinear N K c d + bilinear N K' c d.
Proof.
  unfold bilinear. rewrite <- sumn_plus. apply sumn_ext; intros. rewrite <- sumn_plus. apply sumn_ext; intros. ring.
Qed.
Lemma finalize_plus A B r s : finalize_symmetric (dense (coo_add A B)) r s =
  finalize_symmetric (dense A) r s + finalize_symmetric (dense B) r s.
Proof. unfold finalize_symmetric. destruct (r <=? s)%nat; apply dense_app. Qed.
