(* C79-C82: saving and loading. *)
From Coq Require Import Reals List Arith Bool Lia Lra String.
From Verif Require Import Base_Sum Model_Types Model_Coo Model_Result Model_Num Model_DB Model_Shell Model_Fext Model_Field Model_Bay Model_Save
  Spec_Panel Spec_Shell Spec_Rebuild Spec_Save Proof_Shell Proof_FieldEdge Proof_Total Proof_Hist Proof_Save Ex_Panel Ex_Rebuild Ex_Bay.
Import ListNotations.
Open Scope R_scope.
Open Scope string_scope.

(* a disk without files on which every file can be written *)
Definition blank {A} : disk A := mkDisk (fun _ => None) (fun _ => true).
Definition named (n : string) (p : panel) : shell_object := mkObject n p no_loads false None None.

(* ------------------------------------------------- C79 *)
(* The panel comes back with its definition and loads. Missing for the full claim: panels that hold a function pickle
   refuses, names in which '.Shell' occurs. *)
Theorem C79_saved_panel_is_loaded_partial o D o1 D1 r :
  so_local o = false -> ~ mentions ".Shell" (so_name o) -> d_open D (so_name o ++ ".Shell") = true -> shell_save o D = (o1, D1, r) ->
  r = Done tt /\ exists o', shell_load (so_name o) D1 = Done o' /\ shell_load (so_name o ++ ".Shell") D1 = Done o' /\ same_object o o'.
Proof.
  intros Hl Hm Ho H. destruct (save_load o D o1 D1 r Hl Ho H) as (-> & G1 & -> & G2). split; [reflexivity|].
  exists (clear_matrices o). split; [apply G2; exact Hm|]. split; [exact G1|apply clear_same].
Qed.
Print Assumptions C79_saved_panel_is_loaded_partial.
(* only numbers and functions defined in modules are saved: these edits keep a panel savable *)
Theorem C79_point_loads_can_be_saved o o1 u : so_local o = false ->
  (exists x y fx fy fz cte, object_add_point_load o x y fx fy fz cte = (o1, Ok u)) \/
  (exists x y ku up kv vp kw wp cte, object_add_point_pd o x y ku up kv vp kw wp cte = (o1, Ok u)) -> so_local o1 = false /\ so_name o1 = so_name o.
Proof.
  intros Hl [(x & y & fx & fy & fz & cte & H)|(x & y & ku & up & kv & vp & kw & wp & cte & H)];
  destruct (with_loads_local _ _ _ _ _ H) as [-> ->]; rewrite Hl; split; reflexivity.
Qed.
Print Assumptions C79_point_loads_can_be_saved.
(* after a distributed prescribed displacement is added, or a distributed load given by a lambda, the panel cannot
   be saved, and the attempt leaves a file that cannot be loaded *)
Theorem C79_line_constraints_prevent_saving o o1 u D : d_open D (so_name o ++ ".Shell") = true ->
  (exists x ku kv kw fu fv fw cte, object_add_distr_pd_fixed_x o x ku kv kw fu fv fw cte = (o1, Ok u)) \/
  (exists y ku kv kw fu fv fw cte, object_add_distr_pd_fixed_y o y ku kv kw fu fv fw cte = (o1, Ok u)) \/
  (exists x f fy fz cte, pf_named f = false /\ object_add_distr_load_fixed_x o x (Some f) fy fz cte = (o1, Ok u)) ->
  snd (shell_save o1 D) = Fails NotPickled /\ shell_load (so_name o ++ ".Shell") (snd (fst (shell_save o1 D))) = Fails NotComplete.
Proof.
  intros Ho H. assert (G : so_local o1 = true /\ so_name o1 = so_name o).
  { destruct H as [(x & ku & kv & kw & fu & fv & fw & cte & H)|[(y & ku & kv & kw & fu & fv & fw & cte & H)|(x & f & fy & fz & cte & Hf & H)]];
    destruct (with_loads_local _ _ _ _ _ H) as [-> ->]; split; try reflexivity; try apply orb_true_r. cbn [is_local]. rewrite Hf. apply orb_true_r. }
  destruct G as [G1 G2]. rewrite <- G2 in *. apply save_local; assumption.
Qed.
Print Assumptions C79_line_constraints_prevent_saving.
Theorem C79_refuted :
  (exists o D o1 D1, so_local o = false /\ shell_save o D = (o1, D1, Done tt) /\ shell_load (so_name o) D1 = Fails NoFile) /\
  (exists o o1 D, so_local o = false /\ object_add_distr_pd_fixed_x o (Some 0) (Some 1) None None (Some (mkPyfun (fun _ => 1) true)) None None true = (o1, Ok tt) /\
     snd (shell_save o1 D) = Fails NotPickled).
Proof.
  split.
  - exists (named "wing.Shell" (thin_panel 1 1)), blank. eexists. eexists. repeat split.
  - exists (named "wing" (thin_panel 1 1)). eexists. exists blank. split; [reflexivity|]. split.
    + unfold object_add_distr_pd_fixed_x, with_loads, add_distr_pd_fixed_x, pd_entry, any_const, truthy. destruct (Req_EM_T 1 0) as [E|E]; [lra|]. cbn. reflexivity.
    + reflexivity.
Qed.
Print Assumptions C79_refuted.
Example C79_case : so_local (named "wing" (thin_panel 1 1)) = false /\ ~ mentions ".Shell" "wing" /\ d_open (@blank shell_object) ("wing" ++ ".Shell") = true /\
  (exists o1, object_add_distr_pd_fixed_x (named "wing" (thin_panel 1 1)) (Some 0) (Some 1) None None (Some (mkPyfun (fun _ => 1) true)) None None true = (o1, Ok tt)).
Proof.
  split; [reflexivity|]. split; [|split; [reflexivity|]].
  - intros H. apply index_some in H; [apply H; reflexivity|discriminate].
  - eexists. unfold object_add_distr_pd_fixed_x, with_loads, add_distr_pd_fixed_x, pd_entry, any_const, truthy. destruct (Req_EM_T 1 0) as [E|E]; [lra|]. cbn. reflexivity.
Qed.

(* ------------------------------------------------- C80 *)
(* the panel just saved and the one read from the file calculate what the panel calculated before. Missing for the full
   claim: calc_kM *)
Theorem C80_same_results_after_save_partial o D o1 D1 r : shell_save o D = (o1, D1, r) ->
  forall o', (o' = o1 \/ r = Done tt /\ shell_load (so_name o ++ ".Shell") D1 = Done o') ->
  let p := so_panel o in let p' := so_panel o' in
  (forall E A, snd (calc_kC E A p') = snd (calc_kC E A p)) /\
  (forall E A, snd (calc_kG E A p') = snd (calc_kG E A p)) /\
  (forall E A, snd (calc_kT E A p') = snd (calc_kT E A p)) /\
  (forall E sz row0 col0 fin, snd (calc_kA E sz row0 col0 fin p') = snd (calc_kA E sz row0 col0 fin p)) /\
  (forall E c sz col0 nx ny F, snd (calc_fint E c sz col0 nx ny F p') = snd (calc_fint E c sz col0 nx ny F p)) /\
  (forall E Bs inc sz col0, snd (calc_fext E Bs (so_loads o') inc sz col0 p') = snd (calc_fext E Bs (so_loads o) inc sz col0 p)).
Proof.
  intros H o' Ho'. assert (G : o' = clear_matrices o).
  { assert (H1 : o1 = clear_matrices o) by (injection H; congruence). destruct Ho' as [->|[Hr HL]]; [exact H1|].
    assert (Hl : so_local o = false /\ d_open D (so_name o ++ ".Shell") = true).
    { unfold shell_save, dump, shell_file in H. destruct (so_local o), (d_open D (so_name o ++ ".Shell")); cbn [negb fst snd] in H; try (split; reflexivity); injection H as _ _ H; congruence. }
    destruct (save_load o D o1 D1 r (proj1 Hl) (proj2 Hl) H) as (_ & G1 & _). rewrite G1 in HL. injection HL as <-. exact H1. }
  subst o'. cbv zeta. cbn [clear_matrices so_panel so_loads]. pose proof (clear_alike (so_panel o)) as HA.
  split; [intros; apply kC_alike; exact HA|]. split; [intros; apply kG_alike; exact HA|]. split; [intros; apply kT_alike; exact HA|].
  split; [intros; apply kA_clear|]. split; [intros; apply fint_clear|]. intros. apply fext_alike. exact HA.
Qed.
Print Assumptions C80_same_results_after_save_partial.
(* the mass matrix cannot be calculated until the panel is rebuilt *)
Theorem C80_no_mass_after_save o D E sz row0 col0 h rho nx ny fin : h = None \/ rho = None ->
  exists e, snd (calc_kM E sz row0 col0 h rho nx ny fin (so_panel (fst (fst (shell_save o D))))) = Err e.
Proof. intro H. apply kM_clear. exact H. Qed.
Print Assumptions C80_no_mass_after_save.
Theorem C80_refuted : exists E o D K, snd (calc_kM E SNone 0 0 None None None None true (so_panel o)) = Ok K /\
  snd (shell_save o D) = Done tt /\ snd (calc_kM E SNone 0 0 None None None None true (so_panel (fst (fst (shell_save o D))))) = Err AttributeError.
Proof.
  destruct (rebuild_ok thin_env (thin_panel 1 1) (thin_complete 1 1)) as [p1 H].
  destruct (rebuild_inv _ _ _ _ H) as (A1 & _ & A3 & _ & _ & _ & A7 & A8 & _).
  destruct (calc_kM_ok thin_env SNone 0 0 None None None None true p1 _ _ A3 A7) as (q & K & F).
  all: try (rewrite ?(si_sh _ _ A1); cbn; lia).
  all: try exact I.
  exists thin_env, (named "wing" p1), blank, K. split; [exact (f_equal snd F)|]. split; [reflexivity|].
  clear - A3. destruct p1 as [sh r mo nx ny st pt pts lp lps rho rhos off ort lam ABD sz N Nc fl be ga ra ma v kC kG kT kM kA]. cbn [pn_model] in A3. subst. reflexivity.
Qed.
Print Assumptions C80_refuted.

(* ------------------------------------------------- C81 *)
(* wherever the program is stopped while it saves, the other files are as before and what load returns for any name is what it
   returned before, the panel being saved, or an error *)
Theorem C81_stopped_save_partial o D D' : In D' (shell_save_points o D) ->
  (forall n, n <> so_name o ++ ".Shell" -> d_file D' n = d_file D n) /\
  (forall n, shell_load n D' = shell_load n D \/ shell_load n D' = Fails NotComplete \/ exists o', shell_load n D' = Done o' /\ same_object o o').
Proof.
  intro H. split; [intros n Hn; exact (points_other _ _ _ _ _ n H Hn)|].
  intro n. destruct (points_load ".Shell" n _ _ _ _ _ H) as [G|[G|G]]; [left; exact G|right; right|right; left; exact G].
  exists (clear_matrices o). split; [exact G|apply clear_same].
Qed.
Print Assumptions C81_stopped_save_partial.
(* the disk save leaves is one of these *)
Theorem C81_finished_save o D : In (snd (fst (shell_save o D))) (shell_save_points o D).
Proof. apply dump_last. Qed.
Print Assumptions C81_finished_save.
(* the file saved before is lost when the program is stopped, and whenever the panel cannot be pickled *)
Theorem C81_refuted : exists o D D' o0, shell_load "wing" D = Done o0 /\ In D' (shell_save_points o D) /\ so_local o = false /\ shell_load "wing" D' = Fails NotComplete.
Proof.
  pose (o := named "wing" (thin_panel 1 1)). exists o, (put blank "wing.Shell" (Whole o)), (put (put blank "wing.Shell" (Whole o)) "wing.Shell" Cut), o.
  split; [reflexivity|]. split; [right; left; reflexivity|]. split; reflexivity.
Qed.
Print Assumptions C81_refuted.
Theorem C81_failed_save_loses_the_file o D : so_local o = true -> d_open D (so_name o ++ ".Shell") = true ->
  snd (shell_save o D) = Fails NotPickled /\ shell_load (so_name o ++ ".Shell") (snd (fst (shell_save o D))) = Fails NotComplete.
Proof. apply save_local. Qed.
Print Assumptions C81_failed_save_loses_the_file.

(* ------------------------------------------------- C82 *)
(* no bay that has a panel can be saved: Shell has no attribute kC *)
Theorem C82_bay_with_a_panel_is_never_saved o D : by_panels (bo_bay o) <> [] -> bay_save o D = (D, Fails NoAttribute).
Proof. intro H. unfold bay_save. destruct (by_panels (bo_bay o)) as [|p ps]; [destruct (H eq_refl)|reflexivity]. Qed.
Print Assumptions C82_bay_with_a_panel_is_never_saved.
Theorem C82_empty_bay_is_loaded_partial o D : by_panels (bo_bay o) = [] -> ~ mentions ".StiffPanelBay" (bo_name o) -> d_open D (bo_name o ++ ".StiffPanelBay") = true ->
  snd (bay_save o D) = Done tt /\ bay_load (bo_name o) (fst (bay_save o D)) = Done o.
Proof.
  intros Hp Hm Ho. unfold bay_save. rewrite Hp. cbn [clear_panels]. unfold dump. rewrite Ho. cbn [negb fst snd]. split; [reflexivity|].
  unfold bay_load. rewrite load_short by (discriminate || exact Hm). rewrite load_full by (discriminate || apply mentions_file). rewrite put_same. reflexivity.
Qed.
Print Assumptions C82_empty_bay_is_loaded_partial.
(* C82 is false: the bay of the examples, with two panels of skin *)
Theorem C82_refuted : exists o D, d_open D (bo_name o ++ ".StiffPanelBay") = true /\ List.length (by_panels (bo_bay o)) = 2%nat /\ bay_save o D = (D, Fails NoAttribute).
Proof. exists (mkBayObject "bay" two_bay), blank. repeat split. Qed.
Print Assumptions C82_refuted.
Example C82_case : by_panels (bo_bay (mkBayObject "bay" empty_bay)) = [] /\ ~ mentions ".StiffPanelBay" "bay".
Proof. split; [reflexivity|]. intros H. apply index_some in H; [apply H; reflexivity|discriminate]. Qed.
