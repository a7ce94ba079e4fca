(* Penalty stiffness of prescribed displacements and point constraints. *)
From Coq Require Import Reals List Arith Bool Lia Lra Permutation.
From Coquelicot Require Import Coquelicot.
From Verif Require Import Base_Sum Model_Types Model_Coo Model_Result Model_Num Model_DB Data_Bardell Model_Bardell Model_Shell Model_Field Model_Fext
  Spec_Algebra Spec_Kinematics Spec_Quadrature Spec_Panel Spec_Shell Spec_Bardell Spec_Integral Spec_Field Spec_Fext
  Proof_Poly Proof_Gauss Proof_Bardell Proof_Coo Proof_Shell Proof_Total Proof_Ana Proof_Terms Proof_FieldApi Proof_FieldEdge Proof_Fext Proof_FextApi.
Import ListNotations.
Open Scope R_scope.

(* scalar and vector shape functions agree for the indices used *)
Definition same_basis (Bs Bv : basis) (n : nat) : Prop :=
  forall i x e, (i < n)%nat -> bf Bs i x e = bf Bv i x e /\ bfp Bs i x e = bfp Bv i x e /\ bfpp Bs i x e = bfpp Bv i x e.
Lemma code_vec_same : same_basis code_basis vec_basis 30.
Proof.
  intros i x e Hi. destruct (vector_scalar x e) as ((_ & A & _) & (_ & B & _) & (_ & C & _)).
  cbn [bf bfp bfpp vec_basis code_basis]. rewrite A, B, C by exact Hi. repeat split.
Qed.
Lemma uvw_at_basis Bs Bv s c k x y : same_basis Bs Bv 30 -> (sh_m s <= 30)%nat -> (sh_n s <= 30)%nat ->
  uvw_at Bs s c k x y = uvw_at Bv s c k x y.
Proof.
  intros HB Hm Hn.
  assert (HS : forall q i X e, (i < 30)%nat -> shape Bs q i X e = shape Bv q i X e).
  { intros q i X e Hi. destruct (HB i X e Hi) as (A & B & C). destruct q as [|[|q]]; assumption. }
  assert (HF : forall e a b X Y, fld Bs s c e a b X Y = fld Bv s c e a b X Y).
  { intros. unfold fld, ritz. apply sumn_ext; intros j Hj. apply sumn_ext; intros i Hi. rewrite !HS by lia. reflexivity. }
  unfold uvw_at, d_u, d_v, d_w, d_wx, d_wy. destruct k as [|[|[|[|k]]]]; rewrite HF; reflexivity.
Qed.

(* ------------------------------------------------- fkCpd *)
Definition Vpd (Bs : basis) (ku kv kw : R) (s : shell) (xp yp : R) : val4 :=
  let xi := natural xp (sh_a s) in let eta := natural yp (sh_b s) in
  let t k d := term d d (fun i k' j l => k * (bf Bs i xi (xedge s d) * bf Bs k' xi (xedge s d)) * (bf Bs j eta (yedge s d) * bf Bs l eta (yedge s d))) in
  fun i k j l p q => t ku 0%nat i k j l p q + (t kv 1%nat i k j l p q + t kw 2%nat i k j l p q).

Ltac wf3 := let H := fresh "Hin" in intros ? ? ? ? ? ? ? H; cbn [In] in H; repeat (destruct H as [H|H]; [inversion H; subst; unfold DOF; lia|]); destruct H.

Lemma pd_loc Bs ku kv kw s xp yp i k j l p q : (p < DOF)%nat -> (q < DOF)%nat ->
  loc (fkCpd_ker Bs ku kv kw s xp yp i k j l) p q = Vpd Bs ku kv kw s xp yp i k j l p q.
Proof.
  unfold DOF. intros Hp Hq. unfold loc, fkCpd_ker, Vpd, term, natural. cbn [suml xedge yedge].
  destruct p as [|[|[|p]]]; try lia; destruct q as [|[|[|q]]]; try lia; cbn [Nat.eqb andb]; ring.
Qed.
Lemma pd_sym Bs ku kv kw s xp yp i k j l p q : Vpd Bs ku kv kw s xp yp i k j l p q = Vpd Bs ku kv kw s xp yp k i l j q p.
Proof.
  unfold Vpd, term. cbv zeta.
  destruct p as [|[|[|p]]]; destruct q as [|[|[|q]]]; cbn [Nat.eqb andb]; try ring; destruct (p =? q)%nat, (q =? p)%nat; ring.
Qed.

Theorem pd_bilinear Bs ku kv kw s xp yp size o M c d : fkCpd Bs ku kv kw s xp yp size o o = Ok M ->
  (o + 3 * (sh_m s * sh_n s) <= size)%nat ->
  bilinear size (finalize_symmetric (dense M)) c d =
  spring_work (Uof Bs s o c) (Uof Bs s o d) xp yp ku 0 kv 0 kw 0.
Proof.
  intros H Hf. apply to_shape_inv in H. destruct H as [-> _].
  rewrite (bilinear_ext _ _ (fullmat o (sh_m s) (sh_n s) (Vpd Bs ku kv kw s xp yp))).
  2:{ apply block_full; [intros; apply pd_sym|]. apply diag_form_jlik; [wf3|intros; apply pd_loc; assumption]. }
  rewrite bilinear_diag by (unfold DOF; lia). unfold Vpd. cbv zeta. rewrite !tsum_plus.
  rewrite !tsum_product by lia. unfold spring_work, Uof, uvw_at, d_u, d_v, d_w, fld. cbn [shape]. unfold slice_of, own. ring.
Qed.

(* C36 *)
Lemma pd_bilinear_fields Bs Bv ku kv kw p x y size o M c d Uc Ud sched nc : same_basis Bs Bv 30 ->
  fkCpd Bs ku kv kw (kernel_view p) x y size o o = Ok M -> (o + 3 * (sh_m (pn_sh p) * sh_n (pn_sh p)) <= size)%nat ->
  (forall l, Permutation (sched l) l) ->
  uvw_is sched Bv nc p (skipn o c) Uc -> uvw_is sched Bv nc p (skipn o d) Ud ->
  bilinear size (finalize_symmetric (dense M)) (vec c) (vec d) = spring_work Uc Ud x y ku 0 kv 0 kw 0.
Proof.
  intros HB HM Hf Hs HUc HUd. rewrite (pd_bilinear _ _ _ _ _ _ _ _ _ _ (vec c) (vec d) HM Hf).
  destruct (uvw_is_at _ _ _ _ _ _ Hs HUc) as (Hm & Hn & _ & _).
  assert (HE : forall e U, uvw_is sched Bv nc p (skipn o e) U -> same_disp (Uof Bs (kernel_view p) o (vec e)) U).
  { intros e U HU k X Y Hk. rewrite <- (uvw_slice _ _ _ _ _ _ _ Hs HU k X Y Hk). unfold Uof. apply uvw_at_basis; assumption. }
  unfold spring_work. rewrite !(HE c Uc HUc), !(HE d Ud HUd) by lia. reflexivity.
Qed.
Theorem pd_equilibrium E Bs Bv pds inc sz col0 p p' f L outs Ms c d Uc Ud sched nc :
  same_basis Bs Bv 30 ->
  run_calls (map pd_call pds) no_loads = (L, outs) ->
  calc_fext E Bv L inc sz col0 p = (p', Ok f) ->
  (col0 + 3 * (sh_m (pn_sh p) * sh_n (pn_sh p)) <= length f)%nat ->
  Forall2 (fun q M => fkCpd Bs (pd_ku q) (pd_kv q) (pd_kw q) (kernel_view p') (pd_x q) (pd_y q) (length f) col0 col0 = Ok M) pds Ms ->
  (forall l, Permutation (sched l) l) ->
  uvw_is sched Bv nc p' (skipn col0 c) Uc -> uvw_is sched Bv nc p' (skipn col0 d) Ud ->
  suml Ms (fun M => bilinear (length f) (finalize_symmetric (dense M)) (vec c) (vec d)) - dot (length f) (vec f) (vec d) =
  suml pds (pd_work Uc Ud inc).
Proof.
  intros HB HL H Hf HM Hs HUc HUd.
  pose proof (calc_fext_spec _ _ _ _ _ _ _ _ _ H) as (HR & _). apply rebuild_inv in HR. destruct HR as (Hin & _). pose proof (si_sh _ _ Hin) as Hsh.
  destruct (history_work _ _ _ _ _ _ _ _ _ _ _ _ _ _ _ HL H Hs HUd) as [Ho ->].
  assert (HA : outs = map (fun q => (pd_call q, Ok tt)) pds).
  { clear -HL. revert L outs HL. generalize no_loads. induction pds as [|q pds IH]; intros L0 L outs HL; cbn [map run_calls] in *.
    - injection HL as _ <-. reflexivity.
    - pose proof (proj1 (call_outcome (pd_call q) L0) I) as HC. destruct (call_method (pd_call q) L0) as [L1 r]. cbn [snd] in HC. subst r.
      destruct (run_calls (map pd_call pds) L1) as [L2 o2] eqn:E2. injection HL as _ <-. rewrite (IH _ _ _ E2). reflexivity. }
  rewrite HA. clear HA Ho HL.
  unfold accepted_work. revert Ms HM. induction pds as [|q pds IH]; intros Ms HM; inversion HM; subst; cbn [suml map]; [ring|].
  rewrite <- (IH _ ltac:(eassumption)). clear IH. cbn [snd fst].
  rewrite (pd_bilinear_fields Bs Bv _ _ _ p' _ _ _ _ _ c d Uc Ud sched nc HB ltac:(eassumption)); [|rewrite Hsh; exact Hf|assumption..].
  unfold pd_work, pd_call, call_work, spring_work, work_at. cbv zeta. destruct (pd_cte q); ring.
Qed.
Theorem pd_psd Bs ku kv kw s xp yp size o M : fkCpd Bs ku kv kw s xp yp size o o = Ok M ->
  (o + 3 * (sh_m s * sh_n s) <= size)%nat -> 0 <= ku -> 0 <= kv -> 0 <= kw ->
  symmetric (finalize_symmetric (dense M)) /\ psd size (finalize_symmetric (dense M)).
Proof.
  intros H Hf Hu Hv Hw. split.
  - intros r t. unfold finalize_symmetric. destruct (Nat.leb_spec r t); destruct (Nat.leb_spec t r); try reflexivity; try lia.
    replace t with r by lia. reflexivity.
  - intro c. unfold quad. rewrite (pd_bilinear _ _ _ _ _ _ _ _ _ _ c c H Hf). unfold spring_work.
    assert (A : forall k u, 0 <= k -> 0 <= k * (u - 0) * u) by (intros k u Hk; replace (k * (u - 0) * u) with (k * (u * u)) by ring; apply Rmult_le_pos; [exact Hk|apply Rle_0_sqr]).
    pose proof (A ku (Uof Bs s o c 0%nat xp yp) Hu). pose proof (A kv (Uof Bs s o c 1%nat xp yp) Hv). pose proof (A kw (Uof Bs s o c 2%nat xp yp) Hw). lra.
Qed.

(* ------------------------------------------------- calc_stiffness_point_constraint *)
Lemma outer_bilinear N k on g r c d : bilinear N (outer k on g r) c d =
  if on then k * sumn N (fun q => g r q * c q) * sumn N (fun q => g r q * d q) else 0.
Proof.
  unfold bilinear, outer. destruct on.
  - rewrite Rmult_assoc, <- sumn_scal_r, <- sumn_scal. apply sumn_ext; intros a _. rewrite <- sumn_scal, <- sumn_scal. apply sumn_ext; intros b _. ring.
  - apply sumn_0; intros. apply sumn_0; intros. ring.
Qed.
Theorem constraint_form Bs x y u v w phix phiy kuvw kphi p p' K c d Uc Ud sched nc :
  calc_stiffness_point_constraint Bs x y u v w phix phiy kuvw kphi p = (p', Ok K) ->
  (forall l, Permutation (sched l) l) -> uvw_is sched Bs nc p' c Uc -> uvw_is sched Bs nc p' d Ud ->
  bilinear (3 * (sh_m (pn_sh p) * sh_n (pn_sh p))) K (vec c) (vec d) =
  spring kuvw u (Uc 0%nat x y) (Ud 0%nat x y) + spring kuvw v (Uc 1%nat x y) (Ud 1%nat x y) + spring kuvw w (Uc 2%nat x y) (Ud 2%nat x y)
  + spring kphi phix (Uc 3%nat x y) (Ud 3%nat x y) + spring kphi phiy (Uc 4%nat x y) (Ud 4%nat x y).
Proof.
  intros H Hs HUc HUd. unfold calc_stiffness_point_constraint, mbind, the_model in H.
  destruct (pn_model p) as [[mdl|]|] eqn:Em; try discriminate. rewrite (get_size_run _ _ Em) in H. unfold mget, mlift, call_fg in H.
  destruct (_ && _)%bool; [|discriminate]. unfold mret in H. apply pair_equal_spec in H. destruct H as [<- H]. apply Ok_inj in H. subst K.
  set (q := set_size p _) in *. change (pn_sh p) with (pn_sh q).
  destruct (uvw_is_at _ _ _ _ _ _ Hs HUc) as (_ & _ & _ & HVc). destruct (uvw_is_at _ _ _ _ _ _ Hs HUd) as (_ & _ & _ & HVd).
  rewrite !bilinear_plus, !outer_bilinear. unfold spring.
  change (sh_m (pn_sh q)) with (sh_m (kernel_view q)). change (sh_n (pn_sh q)) with (sh_n (kernel_view q)).
  rewrite !(row_field Bs (kernel_view q) x y zeros_g) by (apply zeros_clean || lia).
  rewrite !HVc, !HVd by lia. reflexivity.
Qed.

(* ------------------------------------------------- fkCld *)
Lemma side_of_line len g I : len <> 0 -> is_line g I -> is_RInt (fun t => g (natural t len)) 0 len (len / 2 * I).
Proof.
  intros Hl H.
  assert (A : is_RInt (fun y => scal (2 / len) (g (2 / len * y + - 1))) 0 len I).
  { apply (@is_RInt_comp_lin R_NormedModule). replace (2 / len * 0 + -1) with (-1) by ring. replace (2 / len * len + -1) with 1 by (field; exact Hl). exact H. }
  apply (@is_RInt_scal R_NormedModule _ _ _ (len / 2)) in A. eapply is_RInt_ext; [|exact A].
  intros t _. cbn beta. unfold scal; cbn; unfold mult; cbn. unfold natural. replace (2 / len * t + -1) with (2 * t / len - 1) by (field; exact Hl). field. exact Hl.
Qed.

Definition Vldx (T : tables) (Bs : basis) (ku kv kw : R) (s : shell) (xp : R) : val4 :=
  let xi := natural xp (sh_a s) in
  let t k d := term 2 2 (fun i k' j l => (sh_b s / 2 * k) * (bf Bs i xi (xedge s d) * bf Bs k' xi (xedge s d)) * t_ff T j l (yedge s d) (yedge s d)) in
  fun i k j l p q => t ku 0%nat i k j l p q + (t kv 1%nat i k j l p q + t kw 2%nat i k j l p q).
Lemma ldx_loc T Bs ku kv kw s xp i k j l p q : (p < DOF)%nat -> (q < DOF)%nat ->
  loc (fkCld_xcte_ker T Bs ku kv kw s xp i k j l) p q = Vldx T Bs ku kv kw s xp i k j l p q.
Proof.
  unfold DOF. intros Hp Hq. unfold loc, fkCld_xcte_ker, Vldx, term, natural. cbn [suml xedge yedge].
  destruct p as [|[|[|p]]]; try lia; destruct q as [|[|[|q]]]; try lia; cbn [Nat.eqb andb]; field.
Qed.
Definition Vldy (T : tables) (Bs : basis) (ku kv kw : R) (s : shell) (yp : R) : val4 :=
  let eta := natural yp (sh_b s) in
  let t k d := term 2 2 (fun i k' j l => (sh_a s / 2 * k) * t_ff T i k' (xedge s d) (xedge s d) * (bf Bs j eta (yedge s d) * bf Bs l eta (yedge s d))) in
  fun i k j l p q => t ku 0%nat i k j l p q + (t kv 1%nat i k j l p q + t kw 2%nat i k j l p q).
Lemma ldy_loc T Bs ku kv kw s yp i k j l p q : (p < DOF)%nat -> (q < DOF)%nat ->
  loc (fkCld_ycte_ker T Bs ku kv kw s yp i k j l) p q = Vldy T Bs ku kv kw s yp i k j l p q.
Proof.
  unfold DOF. intros Hp Hq. unfold loc, fkCld_ycte_ker, Vldy, term, natural. cbn [suml xedge yedge].
  destruct p as [|[|[|p]]]; try lia; destruct q as [|[|[|q]]]; try lia; cbn [Nat.eqb andb]; field.
Qed.

Lemma tab_ff_sym T Bs n i k e e' : tables_integrate T Bs n -> (i < n)%nat -> (k < n)%nat -> t_ff T i k e e' = t_ff T k i e' e.
Proof. intros H Hi Hk. exact (proj1 (tables_integrate_symmetric T Bs n H i k e e' Hi Hk)).
Qed.

(* exact value of the matrices of a prescribed line, whatever the constants *)
Theorem ldx_bilinear T Bs ku kv kw s xp size o M c d : fkCld_xcte T Bs ku kv kw s xp size o o = Ok M ->
  tables_integrate T Bs (Nat.max (sh_m s) (sh_n s)) -> sh_b s <> 0 -> (o + 3 * (sh_m s * sh_n s) <= size)%nat ->
  let F := third_field Bs s o in
  is_RInt (fun y => ku * (F c 0%nat xp y * F d 0%nat xp y) + kv * (F c 1%nat xp y * F d 1%nat xp y) + kw * (F c 2%nat xp y * F d 2%nat xp y))
    0 (sh_b s) (bilinear size (finalize_symmetric (dense M)) c d).
Proof.
  intros H HT Hb Hf. cbv zeta. apply to_shape_inv in H. destruct H as [-> _].
  rewrite (bilinear_ext _ _ (fullmat o (sh_m s) (sh_n s) (Vldx T Bs ku kv kw s xp))).
  2:{ apply block_full.
      - intros i k j l p q _ _ Hj Hl _ _. unfold Vldx, term. cbv zeta. rewrite !(tab_ff_sym T Bs _ j l) with (1 := HT) by lia.
        rewrite (andb_comm (p =? 2)%nat). destruct (_ && _)%bool; ring.
      - apply diag_form_jlik; [wf3|intros; apply ldx_loc; assumption]. }
  rewrite bilinear_diag by (unfold DOF; lia).
  pose proof (fun q k0 => line_term_y o (sh_m s) (sh_n s) o (sh_m s) (sh_n s) c d 2 2 (sh_b s / 2 * k0)
    (fun j y => bf Bs j y (yedge s q)) (fun l y => bf Bs l y (yedge s q))
    (fun i => bf Bs i (natural xp (sh_a s)) (xedge s q)) (fun k => bf Bs k (natural xp (sh_a s)) (xedge s q))
    (fun j l => t_ff T j l (yedge s q) (yedge s q)) ltac:(lia) ltac:(lia)
    ltac:(intros j l Hj Hl; exact (proj1 (HT j l (yedge s q) (yedge s q) ltac:(lia) ltac:(lia))))) as L.
  pose proof (line_plus _ _ _ _ (L 0%nat ku) (line_plus _ _ _ _ (L 1%nat kv) (L 2%nat kw))) as LL.
  apply (side_of_line (sh_b s)) in LL; [|exact Hb]. unfold Vldx. cbv zeta. rewrite !tsum_plus.
  apply (@is_RInt_scal R_NormedModule _ _ _ (2 / sh_b s)) in LL. evar_last.
  - eapply is_RInt_ext; [|exact LL]. intros y _. cbn beta. unfold third_field, scal; cbn; unfold mult; cbn. field. exact Hb.
  - unfold scal; cbn; unfold mult; cbn. field. exact Hb.
Qed.
Theorem ldy_bilinear T Bs ku kv kw s yp size o M c d : fkCld_ycte T Bs ku kv kw s yp size o o = Ok M ->
  tables_integrate T Bs (Nat.max (sh_m s) (sh_n s)) -> sh_a s <> 0 -> (o + 3 * (sh_m s * sh_n s) <= size)%nat ->
  let F := third_field Bs s o in
  is_RInt (fun x => ku * (F c 0%nat x yp * F d 0%nat x yp) + kv * (F c 1%nat x yp * F d 1%nat x yp) + kw * (F c 2%nat x yp * F d 2%nat x yp))
    0 (sh_a s) (bilinear size (finalize_symmetric (dense M)) c d).
Proof.
  intros H HT Hb Hf. cbv zeta. apply to_shape_inv in H. destruct H as [-> _].
  rewrite (bilinear_ext _ _ (fullmat o (sh_m s) (sh_n s) (Vldy T Bs ku kv kw s yp))).
  2:{ apply block_full.
      - intros i k j l p q Hi Hk _ _ _ _. unfold Vldy, term. cbv zeta. rewrite !(tab_ff_sym T Bs _ i k) with (1 := HT) by lia.
        rewrite (andb_comm (p =? 2)%nat). destruct (_ && _)%bool; ring.
      - apply diag_form_ikjl; [wf3|intros; apply ldy_loc; assumption]. }
  rewrite bilinear_diag by (unfold DOF; lia).
  pose proof (fun q k0 => line_term_x o (sh_m s) (sh_n s) o (sh_m s) (sh_n s) c d 2 2 (sh_a s / 2 * k0)
    (fun j y => bf Bs j y (xedge s q)) (fun l y => bf Bs l y (xedge s q))
    (fun i => bf Bs i (natural yp (sh_b s)) (yedge s q)) (fun k => bf Bs k (natural yp (sh_b s)) (yedge s q))
    (fun j l => t_ff T j l (xedge s q) (xedge s q)) ltac:(lia) ltac:(lia)
    ltac:(intros j l Hj Hl; exact (proj1 (HT j l (xedge s q) (xedge s q) ltac:(lia) ltac:(lia))))) as L.
  pose proof (line_plus _ _ _ _ (L 0%nat ku) (line_plus _ _ _ _ (L 1%nat kv) (L 2%nat kw))) as LL.
  apply (side_of_line (sh_a s)) in LL; [|exact Hb]. unfold Vldy. cbv zeta. rewrite !tsum_plus.
  apply (@is_RInt_scal R_NormedModule _ _ _ (2 / sh_a s)) in LL. evar_last.
  - eapply is_RInt_ext; [|exact LL]. intros y _. cbn beta. unfold third_field, scal; cbn; unfold mult; cbn. field. exact Hb.
  - unfold scal; cbn; unfold mult; cbn. field. exact Hb.
Qed.
(* with constants in w only: the penalty of the deflection along the line *)
Theorem ldx_w T Bs kw s xp size o M c d : fkCld_xcte T Bs 0 0 kw s xp size o o = Ok M ->
  tables_integrate T Bs (Nat.max (sh_m s) (sh_n s)) -> sh_b s <> 0 -> (o + 3 * (sh_m s * sh_n s) <= size)%nat ->
  is_RInt (fun y => spring_work (uvw_at Bs s (own o c)) (uvw_at Bs s (own o d)) xp y 0 0 0 0 kw 0) 0 (sh_b s) (bilinear size (finalize_symmetric (dense M)) c d).
Proof.
  intros H HT Hb Hf. eapply is_RInt_ext; [|exact (ldx_bilinear _ _ _ _ _ _ _ _ _ _ c d H HT Hb Hf)].
  intros y _. unfold spring_work, uvw_at, d_w, fld, third_field. cbn [shape]. match goal with |- ?a = ?b => change (@eq R a b) end. ring.
Qed.
Theorem ldy_w T Bs kw s yp size o M c d : fkCld_ycte T Bs 0 0 kw s yp size o o = Ok M ->
  tables_integrate T Bs (Nat.max (sh_m s) (sh_n s)) -> sh_a s <> 0 -> (o + 3 * (sh_m s * sh_n s) <= size)%nat ->
  is_RInt (fun x => spring_work (uvw_at Bs s (own o c)) (uvw_at Bs s (own o d)) x yp 0 0 0 0 kw 0) 0 (sh_a s) (bilinear size (finalize_symmetric (dense M)) c d).
Proof.
  intros H HT Hb Hf. eapply is_RInt_ext; [|exact (ldy_bilinear _ _ _ _ _ _ _ _ _ _ c d H HT Hb Hf)].
  intros y _. unfold spring_work, uvw_at, d_w, fld, third_field. cbn [shape]. match goal with |- ?a = ?b => change (@eq R a b) end. ring.
Qed.
(* the coefficients of u and v never enter *)
Lemma term22_blind o m n c d W : (forall t, own o c (3 * t + 2)%nat = 0) -> tsum o m n o m n c d (term 2 2 W) = 0.
Proof. intro Hc. rewrite tsum_term by lia. repeat (apply sumn_0; intros). rewrite Hc. ring. Qed.
Theorem ldx_blind T Bs ku kv kw s xp size o M c d : fkCld_xcte T Bs ku kv kw s xp size o o = Ok M ->
  tables_symmetric T (Nat.max (sh_m s) (sh_n s)) -> (o + 3 * (sh_m s * sh_n s) <= size)%nat ->
  (forall t, own o c (3 * t + 2)%nat = 0) -> bilinear size (finalize_symmetric (dense M)) c d = 0.
Proof.
  intros H HT Hf Hc. apply to_shape_inv in H. destruct H as [-> _].
  rewrite (bilinear_ext _ _ (fullmat o (sh_m s) (sh_n s) (Vldx T Bs ku kv kw s xp))).
  2:{ apply block_full.
      - intros i k j l p q _ _ Hj Hl _ _. unfold Vldx, term. cbv zeta.
        rewrite !(fun e => proj1 (HT j l e e ltac:(lia) ltac:(lia))).
        rewrite (andb_comm (p =? 2)%nat). destruct (_ && _)%bool; ring.
      - apply diag_form_jlik; [wf3|intros; apply ldx_loc; assumption]. }
  rewrite bilinear_diag by (unfold DOF; lia). unfold Vldx. cbv zeta. rewrite !tsum_plus, !term22_blind by exact Hc. ring.
Qed.

(* ------------------------------------------------- integrals along a side *)
Lemma side_rule len q p g : 0 <= len -> (2 <= q <= 64)%nat -> (length p <= 2 * q)%nat -> len <> 0 ->
  (forall t, g ((t + 1) * len / 2) = poly p t) ->
  Rabs (along_side code_rule q len g - RInt g 0 len) <= len / 2 * (1 / 10 ^ 16 * suml p Rabs).
Proof.
  intros Hl Hq Hp Hz Hg.
  assert (A : along_side code_rule q len g = len / 2 * suml (code_rule q) (fun t => snd t * poly p (fst t))).
  { unfold along_side. rewrite <- suml_scal. apply suml_ext; intros t _. rewrite Hg. ring. }
  assert (B : RInt g 0 len = len / 2 * RInt (poly p) (-1) 1).
  { apply is_RInt_unique. eapply is_RInt_ext; [|apply (side_of_line len (poly p)); [exact Hz|apply (@RInt_correct R_CompleteNormedModule); eexists; apply poly_RInt_from]].
    intros x _. cbn beta. rewrite <- (Hg (natural x len)). f_equal. unfold natural. match goal with |- ?a = ?b => change (@eq R a b) end. field. exact Hz. }
  rewrite A, B, <- Rmult_minus_distr_l, Rabs_mult, (Rabs_pos_eq (len / 2)) by lra.
  apply Rmult_le_compat_l; [lra|]. apply gauss_poly; assumption.
Qed.
Lemma side_rule_none len q g : (1 <= q)%nat -> ~ (2 <= q <= 64)%nat -> along_side code_rule q len g = 0.
Proof.
  intros H1 H. pose proof (proj2 (rule_or_zero q H1) H (fun t => len / 2 * g ((t + 1) * len / 2))) as A.
  rewrite <- A. unfold along_side. apply suml_ext; intros; ring.
Qed.

(* ------------------------------------------------- success *)
Lemma fkCpd_ok Bs ku kv kw s xp yp size o : (o + 3 * (sh_m s * sh_n s) <= size)%nat -> exists M, fkCpd Bs ku kv kw s xp yp size o o = Ok M.
Proof.
  intro H. eexists. apply to_shape_ok. eapply within_fits; [apply within_jlik; wf3| |]; unfold DOF; lia.
Qed.
Lemma fkCld_xcte_ok T Bs ku kv kw s xp size o : (o + 3 * (sh_m s * sh_n s) <= size)%nat -> exists M, fkCld_xcte T Bs ku kv kw s xp size o o = Ok M.
Proof.
  intro H. eexists. apply to_shape_ok. eapply within_fits; [apply within_jlik; wf3| |]; unfold DOF; lia.
Qed.
Lemma fkCld_ycte_ok T Bs ku kv kw s xp size o : (o + 3 * (sh_m s * sh_n s) <= size)%nat -> exists M, fkCld_ycte T Bs ku kv kw s xp size o o = Ok M.
Proof.
  intro H. eexists. apply to_shape_ok. eapply within_fits; [apply within_ikjl; wf3| |]; unfold DOF; lia.
Qed.
