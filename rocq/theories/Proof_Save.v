(* Proofs about save and load. *)
From Coq Require Import Reals List Arith Bool Lia String.
From Verif Require Import Base_Sum Model_Types Model_Coo Model_Result Model_Num Model_DB Model_Shell Model_Fext Model_Field Model_Bay Model_Save
  Spec_Panel Spec_Shell Spec_Rebuild Spec_Save Proof_Shell Proof_Total Proof_Hist.
Import ListNotations.

(* ------------------------------------------------- names *)
Lemma substring_parts : forall s m t, substring m (String.length t) s = t -> exists a b, s = (a ++ t ++ b)%string.
Proof.
  induction s as [|x s IH]; intros m t H.
  - exists EmptyString, EmptyString. cbn [append]. destruct m; destruct t; cbn in *; congruence.
  - destruct m as [|m].
    + clear IH. exists EmptyString. cbn [append].
      assert (G : forall t s, substring 0 (String.length t) s = t -> exists b, s = (t ++ b)%string).
      { clear. induction t as [|z t IH]; intros s H; [exists s; reflexivity|].
        destruct s as [|y s]; cbn in H; [discriminate|]. injection H as -> H. destruct (IH s H) as [b ->]. exists b. reflexivity. }
      apply G. exact H.
    + destruct (IH m t H) as (a & b & ->). exists (String x a), b. reflexivity.
Qed.
Lemma substring_app : forall a t b, substring (String.length a) (String.length t) (a ++ t ++ b)%string = t.
Proof.
  induction a as [|x a IH]; intros t b; [|apply IH].
  cbn [append String.length]. induction t as [|z t IHt]; [destruct b; reflexivity|]. cbn. f_equal. exact IHt.
Qed.
Lemma index_none ext name : ~ mentions ext name -> String.index 0 ext name = None.
Proof.
  intro H. destruct (String.index 0 ext name) as [m|] eqn:E; [|reflexivity]. exfalso. apply H.
  apply index_correct1 in E. destruct (substring_parts _ _ _ E) as (a & b & G). exists a, b. exact G.
Qed.
Lemma index_some ext name : ext <> EmptyString -> mentions ext name -> String.index 0 ext name <> None.
Proof.
  intros Hn (a & b & ->) E. apply (index_correct3 _ (String.length a) _ _ E Hn (Nat.le_0_l _)). apply substring_app.
Qed.
Lemma append_nil s : (s ++ "")%string = s.
Proof. induction s as [|x s IH]; [reflexivity|]. cbn. rewrite IH. reflexivity. Qed.
Lemma mentions_file ext name : mentions ext (name ++ ext)%string.
Proof. exists name, EmptyString. rewrite append_nil. reflexivity. Qed.

(* ------------------------------------------------- files *)
Section Files.
Context {A : Type}.
Lemma put_same (D : disk A) n c : d_file (put D n c) n = Some c.
Proof. cbn. rewrite String.eqb_refl. reflexivity. Qed.
Lemma put_other (D : disk A) n c n' : n' <> n -> d_file (put D n c) n' = d_file D n'.
Proof. intro H. cbn. rewrite (proj2 (String.eqb_neq n' n) H). reflexivity. Qed.
Lemma load_full ext name (D : disk A) : ext <> EmptyString -> mentions ext name ->
  load_file ext name D = match d_file D name with None => Fails NoFile | Some Cut => Fails NotComplete | Some (Whole a) => Done a end.
Proof. intros Hn H. unfold load_file. destruct (String.index 0 ext name) eqn:E; [reflexivity|]. destruct (index_some _ _ Hn H E). Qed.
Lemma load_short ext name (D : disk A) : ext <> EmptyString -> ~ mentions ext name ->
  load_file ext name D = load_file ext (name ++ ext)%string D.
Proof. intros Hn H. rewrite (load_full _ _ _ Hn (mentions_file ext name)). unfold load_file. rewrite index_none by exact H. reflexivity. Qed.
(* one file at most is read *)
Lemma load_reads ext name : exists n, forall D : disk A,
  load_file ext name D = match d_file D n with None => Fails NoFile | Some Cut => Fails NotComplete | Some (Whole a) => Done a end.
Proof. unfold load_file. destruct (String.index 0 ext name); eexists; intro; reflexivity. Qed.

Lemma dump_points_cases n ok (a : A) D D' : In D' (dump_points n ok a D) ->
  D' = D \/ D' = put D n Cut \/ (ok = true /\ d_open D n = true /\ D' = put (put D n Cut) n (Whole a)).
Proof.
  unfold dump_points. destruct (d_open D n) eqn:Ho; cbn [negb]; [|intros [<-|[]]; auto].
  intros [<-|[<-|H]]; auto. destruct ok; [|destruct H]. destruct H as [<-|[]]. auto.
Qed.
Lemma dump_last n ok (a : A) D : In (fst (dump n ok a D)) (dump_points n ok a D).
Proof. unfold dump, dump_points. destruct (d_open D n); cbn [negb]; [|left; reflexivity]. destruct ok; cbn; auto. Qed.
Lemma points_other n ok (a : A) D D' n' : In D' (dump_points n ok a D) -> n' <> n -> d_file D' n' = d_file D n'.
Proof. intros H Hn. destruct (dump_points_cases _ _ _ _ _ H) as [->|[->|(_ & _ & ->)]]; rewrite ?put_other by exact Hn; reflexivity. Qed.
Lemma points_load ext name n ok (a : A) D D' : In D' (dump_points n ok a D) ->
  load_file ext name D' = load_file ext name D \/ load_file ext name D' = Done a \/ load_file ext name D' = Fails NotComplete.
Proof.
  intro H. destruct (load_reads ext name) as [k Hk]. rewrite !Hk. destruct (String.eqb_spec k n) as [->|Hn].
  - destruct (dump_points_cases _ _ _ _ _ H) as [->|[->|(_ & _ & ->)]]; rewrite ?put_same; auto.
  - rewrite (points_other _ _ _ _ _ k H Hn). auto.
Qed.
End Files.

(* ------------------------------------------------- panels *)
Lemma clear_attributes p : attributes (clear_panel p) = attributes p.
Proof. reflexivity. Qed.
Lemma clear_same o : same_object o (clear_matrices o).
Proof. repeat split. Qed.
Lemma clear_alike p : alike p (clear_panel p).
Proof. constructor; try reflexivity. constructor; reflexivity. Qed.

Lemma ext_shell : ".Shell"%string <> EmptyString. Proof. discriminate. Qed.
Lemma save_load o D o1 D1 r : so_local o = false -> d_open D (so_name o ++ ".Shell")%string = true -> shell_save o D = (o1, D1, r) ->
  r = Done tt /\ shell_load (so_name o ++ ".Shell")%string D1 = Done o1 /\ o1 = clear_matrices o /\
  (~ mentions ".Shell" (so_name o) -> shell_load (so_name o) D1 = Done o1).
Proof.
  intros Hl Ho. unfold shell_save, dump, shell_file. rewrite Ho, Hl. cbn [negb fst snd]. intro H. injection H as <- <- <-.
  assert (G : shell_load (so_name o ++ ".Shell")%string (put (put D (so_name o ++ ".Shell")%string Cut) (so_name o ++ ".Shell")%string (Whole (clear_matrices o))) = Done (clear_matrices o)).
  { unfold shell_load. rewrite (load_full _ _ _ ext_shell (mentions_file _ _)). rewrite put_same. reflexivity. }
  split; [reflexivity|]. split; [exact G|]. split; [reflexivity|]. intro Hm. unfold shell_load. rewrite (load_short _ _ _ ext_shell Hm). exact G.
Qed.
Lemma save_local o D : so_local o = true -> d_open D (so_name o ++ ".Shell")%string = true ->
  snd (shell_save o D) = Fails NotPickled /\ shell_load (so_name o ++ ".Shell")%string (snd (fst (shell_save o D))) = Fails NotComplete.
Proof.
  intros Hl Ho. unfold shell_save, dump, shell_file. rewrite Ho, Hl. cbn [negb fst snd]. split; [reflexivity|].
  unfold shell_load. rewrite (load_full _ _ _ ext_shell (mentions_file _ _)). rewrite put_same. reflexivity.
Qed.

Lemma with_loads_local o e l o1 u : with_loads o e l = (o1, Ok u) -> so_local o1 = (so_local o || l)%bool /\ so_name o1 = so_name o.
Proof. unfold with_loads. destruct (e (so_loads o)) as [L [v|x]]; intro H; [|congruence]. injection H as <- _. split; reflexivity. Qed.

(* calculations that do not rebuild the panel *)
Definition cl (p q : panel) : Prop := clear_panel p = clear_panel q.
Definition blind {A} (m m' : method A) : Prop := forall p q, cl p q -> cl (fst (m p)) (fst (m' q)) /\ snd (m p) = snd (m' q).
Lemma blind_bind {A B} (x x' : method A) (f f' : A -> method B) : blind x x' -> (forall a, blind (f a) (f' a)) -> blind (mbind x f) (mbind x' f').
Proof.
  intros Hx Hf p q H. unfold mbind. destruct (Hx p q H) as [H1 H2]. destruct (x p) as [p1 r1]. destruct (x' q) as [q1 r2]. cbn [fst snd] in H1, H2.
  subst r2. destruct r1 as [a|e]; [apply Hf; exact H1|split; [exact H1|reflexivity]].
Qed.
Lemma blind_get {A} (f f' : panel -> method A) : (forall p q, cl p q -> blind (f p) (f' q)) -> blind (mbind mget f) (mbind mget f').
Proof. intros Hf p q H. exact (Hf p q H p q H). Qed.
Lemma blind_same {A} (r : res A) : blind (fun p => (p, r)) (fun p => (p, r)).
Proof. intros p q H. split; [exact H|reflexivity]. Qed.
Lemma blind_ret {A} (a : A) : blind (mret a) (mret a). Proof. apply blind_same. Qed.
Lemma blind_raise {A} (e : exn) : @blind A (mraise e) (mraise e). Proof. apply blind_same. Qed.
Lemma blind_lift {A} (r : res A) : blind (mlift r) (mlift r). Proof. apply blind_same. Qed.
Lemma blind_mod f f' : (forall p q, cl p q -> cl (f p) (f' q)) -> blind (mmod f) (mmod f').
Proof. intros Hf p q H. split; [apply Hf; exact H|reflexivity]. Qed.
Lemma cl_fields p q : cl p q -> attributes p = attributes q.
Proof. intro H. exact (f_equal attributes H). Qed.
Ltac cl_open H := let G := fresh in pose proof (cl_fields _ _ H) as G; unfold attributes in G; injection G; clear G; intros.
Ltac cl_close p q H := unfold cl in *; destruct p, q; cbv [clear_panel set_matrices set_lam set_r set_aero set_size pn_sh pn_r pn_model pn_nx pn_ny
   pn_stack pn_plyt pn_plyts pn_laminaprop pn_laminaprops pn_rho pn_rhos pn_offset pn_ortho pn_lam pn_ABD pn_size pn_N pn_N_cte pn_flow_x pn_beta pn_gamma pn_rho_air pn_Mach pn_V] in *; injection H; intros; subst; reflexivity.

Lemma blind_model : blind the_model the_model.
Proof. intros p q H. cl_open H. unfold the_model. destruct (pn_model p) as [[]|], (pn_model q) as [[]|]; try congruence; split; try exact H; try reflexivity. cbn. congruence. Qed.
Lemma blind_size sz : blind (eval_size sz) (eval_size sz).
Proof.
  assert (G : blind get_size get_size).
  { unfold get_size. apply blind_bind; [apply blind_model|]. intro mdl. apply blind_get. intros p q H. cl_open H. replace (pn_sh q) with (pn_sh p) by congruence.
    apply blind_bind; [|intros _; apply blind_ret]. apply blind_mod. intros p' q' H'. cl_close p' q' H'. }
  destruct sz; cbn [eval_size]; [exact G|apply blind_ret|]. apply blind_bind; [exact G|intro; apply blind_ret].
Qed.
Lemma blind_r : blind fix_r fix_r.
Proof. apply blind_mod. intros p q H. cl_open H. replace (pn_r q) with (pn_r p) by congruence. cl_close p q H. Qed.
Lemma blind_aero : blind aero_coeffs aero_coeffs.
Proof.
  apply blind_get. intros p q H. cl_open H. replace (pn_beta q) with (pn_beta p) by congruence. replace (pn_gamma q) with (pn_gamma p) by congruence.
  replace (pn_Mach q) with (pn_Mach p) by congruence. destruct (pn_beta p); [apply blind_ret|]. destruct (pn_Mach p) as [M|]; [|apply blind_raise].
  destruct (Rlt_dec M 1); [apply blind_raise|]. apply blind_bind; [destruct (Req_EM_T M 1); [|apply blind_ret]|].
  - apply blind_mod. intros p' q' H'. cl_open H'. replace (pn_beta q') with (pn_beta p') by congruence. replace (pn_gamma q') with (pn_gamma p') by congruence. cl_close p' q' H'.
  - intros _. apply blind_get. intros p' q' H'. cl_open H'. replace (pn_Mach q') with (pn_Mach p') by congruence. replace (pn_rho_air q') with (pn_rho_air p') by congruence.
    replace (pn_V q') with (pn_V p') by congruence. replace (pn_r q') with (pn_r p') by congruence. destruct (pn_Mach p'), (pn_rho_air p'), (pn_V p'); try apply blind_raise. apply blind_ret.
Qed.
Lemma blind_kA E sz row0 col0 fin : blind (calc_kA E sz row0 col0 fin) (calc_kA E sz row0 col0 fin).
Proof.
  unfold calc_kA. apply blind_bind; [apply blind_model|]. intro mdl. apply blind_bind; [apply blind_size|]. intro size. apply blind_bind; [apply blind_r|]. intros _.
  apply blind_bind; [apply blind_aero|]. intro bg. apply blind_bind.
  { apply blind_mod. intros p q H. cl_open H. replace (pn_Mach q) with (pn_Mach p) by congruence. cl_close p q H. }
  intros _. apply blind_get. intros p q H. cl_open H. assert (HK : kernel_view q = kernel_view p) by (unfold kernel_view; replace (pn_sh q) with (pn_sh p) by congruence; replace (pn_r q) with (pn_r p) by congruence;
    replace (pn_beta q) with (pn_beta p) by congruence; replace (pn_gamma q) with (pn_gamma p) by congruence; reflexivity).
  rewrite HK. replace (pn_flow_x q) with (pn_flow_x p) by congruence. replace (pn_nx q) with (pn_nx p) by congruence. replace (pn_ny q) with (pn_ny p) by congruence.
  apply blind_bind; [destruct (pn_flow_x p) as [[]|]; [apply blind_lift|apply blind_lift|apply blind_raise]|].
  intro kA. apply blind_bind; [|intros _; apply blind_ret]. apply blind_mod. intros p' q' H'. cl_close p' q' H'.
Qed.
Lemma clear_cl p : cl (clear_panel p) p. Proof. reflexivity. Qed.
Lemma kA_clear E sz row0 col0 fin p : snd (calc_kA E sz row0 col0 fin (clear_panel p)) = snd (calc_kA E sz row0 col0 fin p).
Proof. apply blind_kA. apply clear_cl. Qed.
Lemma view_cl p q : cl p q -> kernel_view q = kernel_view p.
Proof.
  intro H. cl_open H. unfold kernel_view. replace (pn_sh q) with (pn_sh p) by congruence. replace (pn_r q) with (pn_r p) by congruence.
  replace (pn_beta q) with (pn_beta p) by congruence. replace (pn_gamma q) with (pn_gamma p) by congruence. reflexivity.
Qed.
Lemma blind_fint E c sz col0 nx ny F : blind (calc_fint E c sz col0 nx ny F) (calc_fint E c sz col0 nx ny F).
Proof.
  unfold calc_fint. apply blind_get. intros p q H. cl_open H. replace (pn_model q) with (pn_model p) by congruence.
  destruct (pn_model p) as [[mdl|]|]; [|apply blind_raise|apply blind_raise].
  apply blind_bind; [apply blind_size|]. intro size. apply blind_bind; [apply blind_r|]. intros _. apply blind_get. intros p' q' H'. rewrite (view_cl _ _ H'). cl_open H'.
  replace (pn_nx q') with (pn_nx p') by congruence. replace (pn_ny q') with (pn_ny p') by congruence. replace (pn_ABD q') with (pn_ABD p') by congruence.
  replace (pn_sh q') with (pn_sh p') by congruence. apply blind_bind; [apply blind_lift|]. intro u. destruct (_ || _)%bool; [apply blind_raise|apply blind_ret].
Qed.
Lemma fint_clear E c sz col0 nx ny F p : snd (calc_fint E c sz col0 nx ny F (clear_panel p)) = snd (calc_fint E c sz col0 nx ny F p).
Proof. apply blind_fint. apply clear_cl. Qed.
Lemma kM_clear E sz row0 col0 h rho nx ny fin p : h = None \/ rho = None -> exists e, snd (calc_kM E sz row0 col0 h rho nx ny fin (clear_panel p)) = Err e.
Proof.
  destruct p as [sh r mo px py st pt pts lp lps rh rhos off ort lam ABD sz0 N Nc fl be ga ra ma v kC kG kT kM kA].
  destruct mo as [[mdl|]|]; [|eexists; reflexivity|eexists; reflexivity]. intros [-> | ->]; destruct sz; try (destruct h); try (destruct rho); eexists; reflexivity.
Qed.
