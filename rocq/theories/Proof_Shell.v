(* What a successful call of a Shell method did. *)
From Coq Require Import Reals List Arith Bool Lia Lra.
From Verif Require Import Base_Sum Model_Types Model_Coo Model_Result Model_Num Model_DB Model_Shell Spec_Shell.
Import ListNotations.
Open Scope R_scope.

Ltac minv :=
  repeat match goal with
  | H : mbind ?x ?f ?p = (?p', Ok ?a) |- _ =>
      unfold mbind at 1 in H; let E := fresh "E" in
      destruct (x p) as [? [?|?]] eqn:E; [|discriminate H]; cbv beta in H
  | H : mmod ?f ?p = (?p', Ok ?a) |- _ => unfold mmod in H; inversion H; clear H; subst
  | H : mget ?p = (?p', Ok ?a) |- _ => unfold mget in H; inversion H; clear H; subst
  | H : mret ?x ?p = (?p', Ok ?a) |- _ => unfold mret in H; inversion H; clear H; subst
  | H : mraise ?x ?p = (?p', Ok ?a) |- _ => discriminate H
  | H : mlift ?x ?p = (?p', Ok ?a) |- _ => unfold mlift in H; inversion H; clear H; subst
  end.

Lemma the_model_inv p p' m : the_model p = (p', Ok m) -> p' = p /\ pn_model p = Some (Known m).
Proof.
  unfold the_model. destruct (pn_model p) as [[k|]|]; intro H; inversion H; subst; auto.
Qed.

Lemma get_size_inv p p' n : get_size p = (p', Ok n) ->
  exists mdl, pn_model p = Some (Known mdl) /\ n = (3 * sh_m (pn_sh p) * sh_n (pn_sh p))%nat /\ p' = set_size p (Some n).
Proof.
  intro H. unfold get_size in H. minv. apply the_model_inv in E. destruct E as [-> Em].
  eexists. split; [exact Em|]. split; reflexivity.
Qed.

Lemma eval_size_inv a p p' n : eval_size a p = (p', Ok n) ->
  (p' = p \/ exists k, p' = set_size p (Some k)) /\
  n = match a with SNone => (3 * sh_m (pn_sh p) * sh_n (pn_sh p))%nat
      | SInt n => n | SStr k => (k + 3 * sh_m (pn_sh p) * sh_n (pn_sh p))%nat end.
Proof.
  destruct a; cbn [eval_size]; intro H.
  - apply get_size_inv in H. destruct H as (mdl & _ & -> & ->). split; [right; eexists; reflexivity|reflexivity].
  - minv. auto.
  - minv. apply get_size_inv in E. destruct E as (mdl & _ & -> & ->).
    split; [right; eexists; reflexivity|reflexivity].
Qed.

(* attributes that no calculation changes *)
Record same_inputs (p q : panel) : Prop := {
  si_sh : pn_sh q = pn_sh p;
  si_stack : pn_stack q = pn_stack p;
  si_plyt : pn_plyt q = pn_plyt p;
  si_rho : pn_rho q = pn_rho p;
  si_offset : pn_offset q = pn_offset p;
  si_ortho : pn_ortho q = pn_ortho p;
  si_N : pn_N q = pn_N p;
  si_N_cte : pn_N_cte q = pn_N_cte p;
  si_flow : pn_flow_x q = pn_flow_x p;
  si_air : pn_rho_air q = pn_rho_air p;
  si_V : pn_V q = pn_V p }.

Lemma same_inputs_refl p : same_inputs p p.
Proof. constructor; reflexivity. Qed.
Lemma same_inputs_trans p q r : same_inputs p q -> same_inputs q r -> same_inputs p r.
Proof. intros H1 H2. destruct H1, H2. constructor; congruence. Qed.

Lemma rebuild_inv E p p' u : rebuild E p = (p', Ok u) ->
  same_inputs p p' /\
  pn_r p' = pn_r p /\
  pn_model p' = Some (Known (chosen_model p)) /\ pn_model p <> Some Unknown /\
  pn_nx p' = Nat.max (pn_nx p) (sh_m (pn_sh p)) /\ pn_ny p' = Nat.max (pn_ny p) (sh_n (pn_sh p)) /\
  pn_lam p' = Some (rebuilt_lam E p) /\
  pn_ABD p' = Some (lam_matrix (pn_ortho p) (rebuilt_lam E p)) /\
  pn_plyts p' = rebuilt_plyts p /\ pn_laminaprops p' = rebuilt_props p /\ pn_rhos p' = rebuilt_rhos p /\
  pn_size p' = Some (3 * sh_m (pn_sh p) * sh_n (pn_sh p))%nat /\
  pn_beta p' = pn_beta p /\ pn_gamma p' = pn_gamma p /\ pn_Mach p' = pn_Mach p /\
  pn_stack p <> [] /\ pn_laminaprop p' = pn_laminaprop p /\ 
  (pn_kC p', pn_kG p', pn_kT p', pn_kM p', pn_kA p') = (pn_kC p, pn_kG p, pn_kT p, pn_kM p, pn_kA p).
Proof.
  intro H.
  destruct p as [sh r mo nx ny st pt pts lp lps rho rhos off ort lam ABD sz N Nc fl be ga ra ma v kC kG kT kM kA].
  unfold rebuilt_lam, rebuilt_plyts, rebuilt_props, rebuilt_rhos, chosen_model.
  cbv [rebuild mbind mmod mget mret mraise mlift get_lam_ABD get_size the_model
       pn_sh pn_r pn_model pn_nx pn_ny pn_stack pn_plyt pn_plyts pn_laminaprop pn_laminaprops pn_rho pn_rhos
       pn_offset pn_ortho pn_lam pn_ABD pn_size pn_N pn_N_cte pn_flow_x pn_beta pn_gamma pn_rho_air pn_Mach pn_V
       pn_kC pn_kG pn_kT pn_kM pn_kA set_nxny set_model set_material set_lam set_size default] in *.
  destruct mo as [[mdl|]|]; [|discriminate|];
  (destruct st as [|st0 st]; [discriminate|]);
  (destruct lps as [|lp0 lps]; [destruct lp as [|l0 l1]; [discriminate|]|]);
  (destruct rhos as [|r0 rs]);
  (destruct pts as [|t0 ts]; [destruct pt as [t|]; [|discriminate]|]);
  inversion H; subst; clear H; cbn;
  (split; [constructor; reflexivity|]); repeat split; congruence.
Qed.

Lemma check_c_inv c n l : check_c c n = Ok l -> c = CVec l /\ length l = n.
Proof.
  destruct c as [l'| |]; cbn; try discriminate. destruct (length l' =? n)%nat eqn:E; [|discriminate].
  intro H; inversion H; subst. apply Nat.eqb_eq in E. auto.
Qed.

Lemma to_shape_inv n M M' : to_shape n M = Ok M' -> M' = M /\ in_shape n M = true.
Proof. unfold to_shape. destruct (in_shape n M); intro H; inversion H; auto. Qed.

(* attributes left alone by a calculation after _rebuild *)
Record same_rebuilt (p q : panel) : Prop := {
  sr_in : same_inputs p q;
  sr_model : pn_model q = pn_model p;
  sr_nx : pn_nx q = pn_nx p; sr_ny : pn_ny q = pn_ny p;
  sr_lam : pn_lam q = pn_lam p; sr_ABD : pn_ABD q = pn_ABD p;
  sr_plyts : pn_plyts q = pn_plyts p; sr_props : pn_laminaprops q = pn_laminaprops p; sr_rhos : pn_rhos q = pn_rhos p;
  sr_prop : pn_laminaprop q = pn_laminaprop p;
  sr_beta : pn_beta q = pn_beta p; sr_gamma : pn_gamma q = pn_gamma p; sr_Mach : pn_Mach q = pn_Mach p }.

(* the numeric kC kernel was run on vector cl *)
Definition kC_vector (A : kargs) (size : nat) (cl : list R) : Prop :=
  (ka_c A = Some (CVec cl) /\ length cl = size) \/
  (ka_c A = None /\ cl = [] /\ (ka_F A = None \/ ka_NL A = false)).

Definition the_F (A : kargs) (p : panel) : finput :=
  match ka_F A with Some F => F | None => match pn_ABD p with Some F => FMat F | None => FOther end end.

Record kC_run (E : env) (A : kargs) (p p' : panel) (K : matrix) (mdl : model) (kC kGc : coo) : Prop := {
  kr_rebuild : exists p1, rebuild E p = (p1, Ok tt) /\ same_rebuilt p1 p';
  kr_model : pn_model p' = Some (Known mdl);
  kr_r : pn_r p' = Some (default 0 (pn_r p));
  kr_K : K = finalized (ka_fin A) (coo_add kC kGc);
  kr_shape : in_shape (size_value (ka_size A) (pn_sh p)) kC = true /\
             in_shape (size_value (ka_size A) (pn_sh p)) kGc = true;
  kr_stored : pn_kC p' = Some K;
  kr_kC :
    let nx := default (pn_nx p') (ka_nx A) in
    let ny := default (pn_ny p') (ka_ny A) in
    (ka_c A = None /\ ka_F A = None /\ ka_NL A = false /\
     exists F, pn_ABD p' = Some F /\ kC = fk0 mdl (e_tables E) (kernel_view p') F (ka_row0 A) (ka_col0 A)) \/
    ((ka_c A <> None \/ ka_F A <> None \/ ka_NL A = true) /\
     exists cl, kC_vector A (size_value (ka_size A) (pn_sh p)) cl /\
     fkC_num mdl (e_rule E) (e_basis E) (vec cl) (the_F A p') (kernel_view p') (ka_row0 A) (ka_col0 A) nx ny (ka_NL A) = Ok kC);
  kr_kG :
    let nx := default (pn_nx p') (ka_nx A) in
    let ny := default (pn_ny p') (ka_ny A) in
    let '(Nxx, Nyy, Nxy) := pn_N_cte p in
    (ka_c_cte A = None /\ any3 (pn_N_cte p) = false /\ kGc = []) \/
    (ka_c_cte A = None /\ any3 (pn_N_cte p) = true /\ ka_NL A = false /\
     kGc = fkG0 mdl (e_tables E) (kernel_view p') Nxx Nyy Nxy (ka_row0 A) (ka_col0 A)) \/
    (exists l, ka_c_cte A = Some (CVec l) /\ length l = size_value (ka_size A) (pn_sh p) /\
     fkG_num mdl (e_rule E) (e_basis E) (vec l) (the_F A p') (kernel_view p') (ka_row0 A) (ka_col0 A) nx ny (ka_NL A)
       Nxx Nyy Nxy = Ok kGc) }.

Lemma eval_size_same a p p' n : eval_size a p = (p', Ok n) ->
  n = size_value a (pn_sh p) /\ (exists k, p' = set_size p k).
Proof.
  intro H. apply eval_size_inv in H. destruct H as [Hp ->]. split.
  - destruct a; reflexivity.
  - destruct Hp as [->|[k ->]]; [exists (pn_size p); destruct p; reflexivity|eexists; reflexivity].
Qed.

Lemma rbind_inv {A B} (x : res A) (f : A -> res B) b : rbind x f = Ok b -> exists a, x = Ok a /\ f a = Ok b.
Proof. destruct x; cbn; [eauto|discriminate]. Qed.

Lemma in_shape_nil n : in_shape n [] = true. Proof. reflexivity. Qed.

Ltac panel_eq := constructor; [constructor|..]; reflexivity.

Lemma calc_kC_inv E A p p' K : calc_kC E A p = (p', Ok K) -> exists mdl kC kGc, kC_run E A p p' K mdl kC kGc.
Proof.
  intro H. unfold calc_kC in H.
  unfold mbind at 1 in H. destruct (rebuild E p) as [p1 [[]|]] eqn:ER; [|discriminate].
  unfold mbind at 1 in H. destruct (eval_size (ka_size A) p1) as [p2 [size|]] eqn:ES; [|discriminate].
  apply eval_size_same in ES. destruct ES as [-> [k ->]].
  assert (HR := rebuild_inv _ _ _ _ ER).
  destruct HR as (Hin & Hr & Hm & _ & Hnx & Hny & Hl & HABD & _).
  assert (Hsh : pn_sh p1 = pn_sh p) by apply Hin. rewrite Hsh in H.
  set (size := size_value (ka_size A) (pn_sh p)) in *.
  unfold mbind at 1 in H.
  match type of H with (let (_, _) := ?x in _) = _ => destruct x as [p3 [cl|]] eqn:EC; [|discriminate] end.
  assert (Hcl : p3 = set_size p1 k /\ ((ka_c A = None /\ cl = None) \/ exists l, ka_c A = Some (CVec l) /\ length l = size /\ cl = Some l)).
  { destruct (ka_c A) as [c|].
    - unfold mbind, mlift, mret in EC. destruct (check_c c size) as [l|] eqn:Ecc; inversion EC; subst.
      apply check_c_inv in Ecc. destruct Ecc as [-> Hlen]. split; [reflexivity|]. right. eauto.
    - inversion EC; subst. auto. }
  destruct Hcl as [-> Hcl]. clear EC.
  unfold mbind at 1 in H.
  destruct (the_model (set_size p1 k)) as [p4 [mdl|]] eqn:EM; [|discriminate].
  apply the_model_inv in EM. destruct EM as [-> Hm'].
  unfold mbind at 1, mget at 1 in H. unfold mbind at 1, fix_r at 1, mmod at 1 in H. unfold mbind at 1, mget at 1 in H.
  set (pf := set_r (set_size p1 k) _) in H.
  set (nx := default (pn_nx (set_size p1 k)) (ka_nx A)) in H.
  set (ny := default (pn_ny (set_size p1 k)) (ka_ny A)) in H.
  change (match ka_F A with Some F => F | None => match pn_ABD pf with Some F => FMat F | None => FOther end end)
    with (the_F A pf) in H.
  cbv zeta in H. unfold mbind at 1 in H.
  match type of H with (let (_, _) := ?x in _) = _ => destruct x as [p5 [kC|]] eqn:EK; [|discriminate] end.
  assert (HkC : p5 = pf /\ in_shape size kC = true /\
    ((ka_c A = None /\ ka_F A = None /\ ka_NL A = false /\
      exists F, pn_ABD pf = Some F /\ kC = fk0 mdl (e_tables E) (kernel_view pf) F (ka_row0 A) (ka_col0 A)) \/
     ((ka_c A <> None \/ ka_F A <> None \/ ka_NL A = true) /\
      exists cl, kC_vector A size cl /\
      fkC_num mdl (e_rule E) (e_basis E) (vec cl) (the_F A pf) (kernel_view pf) (ka_row0 A) (ka_col0 A) nx ny (ka_NL A) = Ok kC))).
  { destruct (negb (is_some (ka_c A) || is_some (ka_F A) || ka_NL A)) eqn:EA.
    - unfold mlift in EK. inversion EK as [[Hp Hs]]. apply to_shape_inv in Hs. destruct Hs as [-> Hs].
      split; [reflexivity|]. split; [exact Hs|]. left.
      apply negb_true_iff in EA. apply orb_false_iff in EA. destruct EA as [EA E3]. apply orb_false_iff in EA.
      destruct EA as [E1 E2]. destruct (ka_c A); [discriminate|]. destruct (ka_F A); [discriminate|].
      repeat split; auto. exists (lam_matrix (pn_ortho p) (rebuilt_lam E p)). cbn. rewrite HABD. auto.
    - apply negb_false_iff in EA.
      assert (Hcond : ka_c A <> None \/ ka_F A <> None \/ ka_NL A = true).
      { apply orb_true_iff in EA. destruct EA as [EA|EA]; [|auto]. apply orb_true_iff in EA.
        destruct EA as [EA|EA]; [left|right; left]; destruct (ka_c A), (ka_F A); discriminate || congruence. }
      assert (HkC2 : p5 = pf /\ kC_vector A size (default [] cl) /\
         rbind (fkC_num mdl (e_rule E) (e_basis E) (vec (default [] cl)) (the_F A pf) (kernel_view pf)
            (ka_row0 A) (ka_col0 A) nx ny (ka_NL A)) (to_shape size) = Ok kC).
      { destruct Hcl as [[Hc ->]|[l [Hc [Hlen ->]]]].
        - destruct (ka_F A) eqn:EF; [destruct (ka_NL A) eqn:EN; [discriminate EK|]|];
          unfold mlift in EK; injection EK as <- Hs; (split; [reflexivity|split; [right; auto|exact Hs]]).
        - unfold mlift in EK; injection EK as <- Hs; split; [reflexivity|split; [left; auto|exact Hs]]. }
      destruct HkC2 as [-> [Hv Hk]]. apply rbind_inv in Hk. destruct Hk as [M [HM Hs]].
      apply to_shape_inv in Hs. destruct Hs as [-> Hs]. split; [reflexivity|]. split; [exact Hs|].
      right. split; [exact Hcond|]. exists (default [] cl). auto. }
  destruct HkC as [-> [HsC HkC]]. clear EK.
  unfold mbind at 1 in H.
  match type of H with (let (_, _) := ?x in _) = _ => destruct x as [p6 [kC'|]] eqn:EG; [|discriminate] end.
  assert (HN : pn_N_cte pf = pn_N_cte p) by (cbn; apply Hin).
  rewrite HN in EG.
  assert (HkG : p6 = pf /\ exists kGc, kC' = coo_add kC kGc /\ in_shape size kGc = true /\
    let '(Nxx, Nyy, Nxy) := pn_N_cte p in
    (ka_c_cte A = None /\ any3 (pn_N_cte p) = false /\ kGc = []) \/
    (ka_c_cte A = None /\ any3 (pn_N_cte p) = true /\ ka_NL A = false /\
     kGc = fkG0 mdl (e_tables E) (kernel_view pf) Nxx Nyy Nxy (ka_row0 A) (ka_col0 A)) \/
    (exists l, ka_c_cte A = Some (CVec l) /\ length l = size /\
     fkG_num mdl (e_rule E) (e_basis E) (vec l) (the_F A pf) (kernel_view pf) (ka_row0 A) (ka_col0 A) nx ny (ka_NL A)
       Nxx Nyy Nxy = Ok kGc)).
  { destruct (is_some (ka_c_cte A) || any3 (pn_N_cte p))%bool eqn:EB.
    - unfold mbind at 1 in EG.
      match type of EG with (let (_, _) := ?x in _) = _ => destruct x as [p7 [lo|]] eqn:EL; [|discriminate] end.
      destruct (pn_N_cte p) as [[Nxx Nyy] Nxy] eqn:EN.
      destruct (ka_c_cte A) as [c|].
      + unfold mbind, mlift, mret in EL. destruct (check_c c size) as [l|] eqn:Ecc; inversion EL; subst.
        apply check_c_inv in Ecc. destruct Ecc as [-> Hlen].
        cbn [is_some negb] in EG. rewrite andb_false_r in EG.
        unfold mbind, mlift, mret in EG.
        destruct (rbind _ _) as [M|] eqn:EM; [|discriminate]. inversion EG; subst.
        apply rbind_inv in EM. destruct EM as [M' [HM Hs]]. apply to_shape_inv in Hs. destruct Hs as [-> Hs].
        split; [reflexivity|]. exists M'. split; [reflexivity|]. split; [exact Hs|].
        right; right. exists l. auto.
      + unfold mret in EL. inversion EL; subst. cbn [is_some negb] in EG. rewrite andb_true_r in EG.
        destruct (ka_NL A); cbn [negb] in EG; [discriminate|].
        unfold mbind, mlift, mret in EG.
        destruct (to_shape size _) as [M|] eqn:EM; [|discriminate]. inversion EG; subst.
        apply to_shape_inv in EM. destruct EM as [-> Hs].
        split; [reflexivity|]. eexists. split; [reflexivity|]. split; [exact Hs|]. right; left.
        cbn [is_some orb] in EB. auto.
    - apply orb_false_iff in EB. destruct EB as [EB1 EB2]. unfold mret in EG. inversion EG; subst.
      split; [reflexivity|]. exists []. unfold coo_add. rewrite app_nil_r. split; [reflexivity|].
      split; [reflexivity|]. destruct (pn_N_cte p) as [[? ?] ?]. left. destruct (ka_c_cte A); [discriminate|auto]. }
  destruct HkG as [-> [kGc [-> [HsG HkG]]]]. clear EG.
  unfold mbind, mmod, mret in H. inversion H. subst p' K.
  exists mdl, kC, kGc.
  assert (Hpn : forall M, kernel_view (set_matrices pf M (pn_kG pf) (pn_kT pf) (pn_kM pf) (pn_kA pf)) = kernel_view pf) by reflexivity.
  constructor; try rewrite !Hpn; try reflexivity.
  - exists p1. split; [exact ER|]. constructor; [constructor|..]; reflexivity.
  - exact Hm'.
  - cbn. rewrite Hr. reflexivity.
  - split; assumption.
  - exact HkC.
  - exact HkG.
Qed.

Record kG_run (E : env) (A : kargs) (p p' : panel) (K : matrix) (mdl : model) (kG : coo) : Prop := {
  gr_rebuild : exists p1, rebuild E p = (p1, Ok tt) /\ same_rebuilt p1 p';
  gr_model : pn_model p' = Some (Known mdl);
  gr_r : pn_r p' = Some (default 0 (pn_r p));
  gr_K : K = finalized (ka_fin A) kG;
  gr_shape : in_shape (size_value (ka_size A) (pn_sh p)) kG = true;
  gr_stored : pn_kG p' = Some K;
  gr_kG :
    let nx := default (pn_nx p') (ka_nx A) in
    let ny := default (pn_ny p') (ka_ny A) in
    let '(Nxx, Nyy, Nxy) := pn_N p in
    (ka_c A = None /\ ka_NL A = false /\
     kG = fkG0 mdl (e_tables E) (kernel_view p') Nxx Nyy Nxy (ka_row0 A) (ka_col0 A)) \/
    ((ka_c A <> None \/ ka_NL A = true) /\
     exists l, ((ka_c A = Some (CVec l) /\ length l = size_value (ka_size A) (pn_sh p)) \/
                (ka_c A = None /\ l = repeat 0 (size_value (ka_size A) (pn_sh p)))) /\
     fkG_num mdl (e_rule E) (e_basis E) (vec l) (the_F A p') (kernel_view p') (ka_row0 A) (ka_col0 A) nx ny (ka_NL A)
       Nxx Nyy Nxy = Ok kG) }.

Lemma calc_kG_inv E A p p' K : calc_kG E A p = (p', Ok K) -> exists mdl kG, kG_run E A p p' K mdl kG.
Proof.
  intro H. unfold calc_kG in H.
  unfold mbind at 1 in H. destruct (rebuild E p) as [p1 [[]|]] eqn:ER; [|discriminate].
  unfold mbind at 1 in H. destruct (eval_size (ka_size A) p1) as [p2 [size|]] eqn:ES; [|discriminate].
  apply eval_size_same in ES. destruct ES as [-> [k ->]].
  assert (HR := rebuild_inv _ _ _ _ ER).
  destruct HR as (Hin & Hr & Hm & _ & Hnx & Hny & Hl & HABD & _).
  assert (Hsh : pn_sh p1 = pn_sh p) by apply Hin. rewrite Hsh in H.
  set (size := size_value (ka_size A) (pn_sh p)) in *.
  unfold mbind at 1 in H.
  match type of H with (let (_, _) := ?x in _) = _ => destruct x as [p3 [l|]] eqn:EC; [|discriminate] end.
  assert (Hcl : p3 = set_size p1 k /\ ((ka_c A = Some (CVec l) /\ length l = size) \/ (ka_c A = None /\ l = repeat 0 size))).
  { destruct (ka_c A) as [c|].
    - unfold mlift in EC. injection EC as <- Ecc. apply check_c_inv in Ecc. destruct Ecc as [-> Hlen]. auto.
    - injection EC as <- <-. auto. }
  destruct Hcl as [-> Hcl]. clear EC.
  unfold mbind at 1 in H.
  destruct (the_model (set_size p1 k)) as [p4 [mdl|]] eqn:EM; [|discriminate].
  apply the_model_inv in EM. destruct EM as [-> Hm'].
  unfold mbind at 1, fix_r at 1, mmod at 1 in H. unfold mbind at 1, mget at 1 in H.
  set (pf := set_r (set_size p1 k) _) in H.
  set (nx := default (pn_nx pf) (ka_nx A)) in H.
  set (ny := default (pn_ny pf) (ka_ny A)) in H.
  assert (HN : pn_N pf = pn_N p) by (cbn; apply Hin).
  rewrite HN in H. cbv zeta in H.
  destruct (pn_N p) as [[Nxx Nyy] Nxy] eqn:EN.
  unfold mbind at 1 in H.
  match type of H with (let (_, _) := ?x in _) = _ => destruct x as [p5 [kG|]] eqn:EK; [|discriminate] end.
  assert (HkG : p5 = pf /\ in_shape size kG = true /\
    ((ka_c A = None /\ ka_NL A = false /\
      kG = fkG0 mdl (e_tables E) (kernel_view pf) Nxx Nyy Nxy (ka_row0 A) (ka_col0 A)) \/
     ((ka_c A <> None \/ ka_NL A = true) /\
      exists l, ((ka_c A = Some (CVec l) /\ length l = size) \/ (ka_c A = None /\ l = repeat 0 size)) /\
      fkG_num mdl (e_rule E) (e_basis E) (vec l) (the_F A pf) (kernel_view pf) (ka_row0 A) (ka_col0 A) nx ny (ka_NL A)
       Nxx Nyy Nxy = Ok kG))).
  { destruct (negb (is_some (ka_c A) || ka_NL A)) eqn:EA.
    - unfold mlift in EK. injection EK as <- Hs. apply to_shape_inv in Hs. destruct Hs as [-> Hs].
      split; [reflexivity|]. split; [exact Hs|]. left.
      apply negb_true_iff in EA. apply orb_false_iff in EA. destruct EA as [E1 E2].
      destruct (ka_c A); [discriminate|]. auto.
    - apply negb_false_iff in EA.
      assert (HF : the_F A pf = match ka_F A with Some F => F | None => FMat (lam_matrix (pn_ortho p) (rebuilt_lam E p)) end).
      { unfold the_F. destruct (ka_F A); [reflexivity|]. cbn. rewrite HABD. reflexivity. }
      assert (EK' : mlift (rbind (fkG_num mdl (e_rule E) (e_basis E) (vec l) (the_F A pf) (kernel_view pf)
        (ka_row0 A) (ka_col0 A) nx ny (ka_NL A) Nxx Nyy Nxy) (to_shape size)) pf = (p5, Ok kG)).
      { rewrite HF. destruct (ka_F A).
        - exact EK.
        - rewrite <- EK. unfold mbind, get_lam_ABD.
          replace (pn_lam pf) with (Some (rebuilt_lam E p)) by (symmetry; exact Hl).
          replace (pn_ortho pf) with (pn_ortho p) by (symmetry; cbn; apply Hin). reflexivity. }
      clear EK. unfold mlift in EK'. injection EK' as <- Hs. apply rbind_inv in Hs. destruct Hs as [M [HM Hs]].
      apply to_shape_inv in Hs. destruct Hs as [-> Hs]. split; [reflexivity|]. split; [exact Hs|].
      right. split; [|exists l; auto].
      apply orb_true_iff in EA. destruct EA as [EA|EA]; [left; destruct (ka_c A); [congruence|discriminate]|auto]. }
  destruct HkG as [-> [HsG HkG]]. clear EK.
  unfold mbind, mmod, mret in H. injection H as <- <-.
  exists mdl, kG.
  constructor; try reflexivity.
  - exists p1. split; [exact ER|]. constructor; [constructor|..]; reflexivity.
  - exact Hm'.
  - cbn. rewrite Hr. reflexivity.
  - assumption.
  - rewrite EN. exact HkG.
Qed.

Lemma calc_kT_inv E A p p' K : calc_kT E A p = (p', Ok K) ->
  let A' := mkKargs (ka_size A) (ka_row0 A) (ka_col0 A) (ka_fin A) (ka_c A) None (ka_nx A) (ka_ny A) (ka_F A) true in
  exists p1 p2 kC kG, calc_kC E A' p = (p1, Ok kC) /\ calc_kG E A' p1 = (p2, Ok kG) /\
    K = (fun r s => kC r s + kG r s) /\ same_rebuilt p2 p' /\ pn_r p' = pn_r p2.
Proof.
  intro H. unfold calc_kT in H. cbv zeta in *.
  unfold mbind at 1 in H. destruct (calc_kC _ _ p) as [p1 [kC|]] eqn:EC; [|discriminate].
  unfold mbind at 1 in H. destruct (calc_kG _ _ p1) as [p2 [kG|]] eqn:EG; [|discriminate].
  unfold mbind, mmod, mret in H. injection H as <- <-.
  exists p1, p2, kC, kG. repeat split; reflexivity || assumption.
Qed.

Record kM_run (E : env) (sz : size_arg) (row0 col0 : nat) (h_nxny rho_nxny : option arr2) (nxo nyo : option nat)
    (fin : bool) (p p' : panel) (K : matrix) (mdl : model) (kM : coo) : Prop := {
  mr_same : same_rebuilt p p';
  mr_model : pn_model p' = Some (Known mdl);
  mr_r : pn_r p' = Some (default 0 (pn_r p));
  mr_K : K = finalized fin kM;
  mr_shape : in_shape (size_value sz (pn_sh p)) kM = true;
  mr_stored : pn_kM p' = Some K;
  mr_kM :
    let nx := default (pn_nx p) nxo in
    let ny := default (pn_ny p) nyo in
    (h_nxny = None /\ rho_nxny = None /\ pn_lam p <> None /\
     kM = fkM mdl (e_tables E) (kernel_view p') (pn_rho p) (fold_left Rplus (pn_plyts p) 0) (pn_offset p) row0 col0) \/
    ((h_nxny <> None \/ rho_nxny <> None) /\
     exists h rho hx hy,
       match h_nxny with Some t => t = (hx, hy, h)
       | None => exists lam, pn_lam p = Some lam /\ (hx, hy) = (nx, ny) /\ h = fun _ _ => lam_h lam end /\
       match rho_nxny with Some t => t = (hx, hy, rho)
       | None => exists lam, pn_lam p = Some lam /\ (hx, hy) = (nx, ny) /\ rho = fun _ _ => lam_intrho lam / lam_h lam end /\
       fkM_num mdl (e_rule E) (e_basis E) (kernel_view p') (pn_offset p) (HPts hx hy h rho) row0 col0 nx ny = Ok kM) }.

Lemma calc_kM_inv E sz row0 col0 ho ro nxo nyo fin p p' K :
  calc_kM E sz row0 col0 ho ro nxo nyo fin p = (p', Ok K) ->
  exists mdl kM, kM_run E sz row0 col0 ho ro nxo nyo fin p p' K mdl kM.
Proof.
  intro H. unfold calc_kM in H.
  unfold mbind at 1, mget at 1 in H. cbv zeta in H.
  unfold mbind at 1 in H. destruct (the_model p) as [p1 [mdl|]] eqn:EM; [|discriminate].
  apply the_model_inv in EM. destruct EM as [-> Hm].
  unfold mbind at 1, fix_r at 1, mmod at 1 in H.
  set (pr := set_r p _) in H.
  unfold mbind at 1 in H. destruct (eval_size sz pr) as [p2 [size|]] eqn:ES; [|discriminate].
  apply eval_size_same in ES. destruct ES as [-> [k ->]].
  unfold mbind at 1, mget at 1 in H.
  set (pf := set_size pr k) in *.
  change (pn_sh pr) with (pn_sh p) in H. set (size := size_value sz (pn_sh p)) in *.
  change (pn_lam pf) with (pn_lam p) in H. change (pn_plyts pf) with (pn_plyts p) in H.
  change (pn_rho pf) with (pn_rho p) in H. change (pn_offset pf) with (pn_offset p) in H.
  set (nx := default (pn_nx p) nxo) in *. set (ny := default (pn_ny p) nyo) in *.
  assert (HA : exists lamo kM, (lamo = pn_lam p) /\ (pn_lam p <> None \/ (ho <> None /\ ro <> None)) /\
     p' = set_matrices pf (pn_kC pf) (pn_kG pf) (pn_kT pf) (Some K) (pn_kA pf) /\ K = finalized fin kM /\
     (let lam := default (mkLam (fun _ _ => 0) 0 0) lamo in
    let '(hx, hy, h) := default (nx, ny, fun _ _ => lam_h lam) ho in
    let '(rx, ry, rho) := default (nx, ny, fun _ _ => lam_intrho lam / lam_h lam) ro in
      (if negb (is_some ho || is_some ro)
       then (to_shape size (fkM mdl (e_tables E) (kernel_view pf) (pn_rho p) (fold_left Rplus (pn_plyts p) 0) (pn_offset p) row0 col0))
       else if ((hx =? rx) && (hy =? ry))%nat%bool
         then (rbind (fkM_num mdl (e_rule E) (e_basis E) (kernel_view pf) (pn_offset p) (HPts hx hy h rho) row0 col0 nx ny) (to_shape size))
         else Err ValueError) = Ok kM)).
  { destruct (pn_lam p) as [lam|]; [|destruct ho as [[[? ?] ?]|]; [destruct ro as [[[? ?] ?]|]|]];
    try discriminate H; cbv zeta in *;
    [exists (Some lam)|exists None];
    repeat match goal with
    | |- context [default ?d ?o] => destruct (default d o) as [[? ?] ?] eqn:?
    end; cbn [default is_some orb negb] in *;
    repeat match goal with H : (_, _, _) = (_, _, _) |- _ => injection H as <- <- <- end;
    unfold mbind at 1 in H;
    (match type of H with (let (_, _) := ?x in _) = _ => destruct x as [p5 [kM|]] eqn:EK; [|discriminate H] end);
    unfold mbind, mmod, mret in H; exists kM;
    repeat (destruct (negb _) || destruct (_ && _)%bool); unfold mlift, mraise in EK; try discriminate;
    injection EK as <- Hs; injection H as <- <-;
    (split; [reflexivity|split; [(left; congruence) || (right; split; congruence)|split; [reflexivity|split; [reflexivity|exact Hs]]]]). }
  destruct HA as (lamo & kM & -> & Hlam & -> & -> & HK). cbv zeta in HK.
  exists mdl, kM.
  match type of HK with context [default ?d ho] => destruct (default d ho) as [[hx hy] h] eqn:Eh end.
  match type of HK with context [default ?d ro] => destruct (default d ro) as [[rx ry] rho] eqn:Er end.
  assert (Hboth : in_shape size kM = true /\
    ((ho = None /\ ro = None /\ pn_lam p <> None /\
     kM = fkM mdl (e_tables E) (kernel_view pf) (pn_rho p) (fold_left Rplus (pn_plyts p) 0) (pn_offset p) row0 col0) \/
    ((ho <> None \/ ro <> None) /\ rx = hx /\ ry = hy /\
       fkM_num mdl (e_rule E) (e_basis E) (kernel_view pf) (pn_offset p) (HPts hx hy h rho) row0 col0 nx ny = Ok kM))).
  { destruct (negb (is_some ho || is_some ro)) eqn:EA.
    - apply to_shape_inv in HK. destruct HK as [-> Hs]. split; [exact Hs|]. left.
      apply negb_true_iff in EA. apply orb_false_iff in EA.
      destruct ho; [destruct EA; discriminate|]. destruct ro; [destruct EA; discriminate|].
      repeat split; auto. destruct Hlam as [|[? ?]]; auto.
    - destruct ((hx =? rx) && (hy =? ry))%nat%bool eqn:EQ; [|discriminate].
      apply andb_true_iff in EQ. destruct EQ as [E1 E2]. apply Nat.eqb_eq in E1, E2. subst.
      apply rbind_inv in HK. destruct HK as [M [HM Hs]]. apply to_shape_inv in Hs. destruct Hs as [-> Hs].
      split; [exact Hs|]. right. split; [|auto].
      apply negb_false_iff in EA. apply orb_true_iff in EA.
      destruct EA as [EA|EA]; [left|right]; [destruct ho|destruct ro]; discriminate || congruence. }
  destruct Hboth as [Hs Hb].
  constructor; try reflexivity.
  - constructor; [constructor|..]; reflexivity.
  - exact Hm.
  - exact Hs.
  - cbv zeta. destruct Hb as [Hb|[Hne [-> [-> Hb]]]]; [left; exact Hb|right].
    split; [exact Hne|]. exists h, rho, hx, hy. split; [|split; [|exact Hb]].
    + destruct ho as [t|]; cbn in Eh; [exact Eh|].
      destruct Hlam as [Hlam|[? ?]]; [|congruence]. destruct (pn_lam p) as [lam|]; [|congruence].
      injection Eh as <- <- <-. exists lam. auto.
    + destruct ro as [t|]; cbn in Er; [exact Er|].
      destruct Hlam as [Hlam|[? ?]]; [|congruence]. destruct (pn_lam p) as [lam|]; [|congruence].
      injection Er as <- <- <-. exists lam. auto.
Qed.
