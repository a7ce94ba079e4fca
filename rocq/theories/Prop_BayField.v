(* C75 - C77: displacement fields and load vector of a stiffened bay. *)
From Coq Require Import Reals List Arith Bool Lra Lia Permutation.
From Coquelicot Require Import Coquelicot.
From Verif Require Import Base_Sum Model_Types Model_Coo Model_Result Model_Num Model_DB Model_Shell Model_Field Model_Fext Model_Bardell Model_Bay Model_BayField
  Spec_Algebra Spec_Kinematics Spec_Bay Spec_BayField Spec_Bardell Proof_BayField Ex_Exact Ex_Bay Ex_BayField.
From Coq Require Import List.
Import ListNotations.
Open Scope R_scope.

(* ------------------------------------------------- C75 *)
Theorem C75_skin_displacements_partial : forall sched Bs nc c xs ys gridx gridy B, (forall l, Permutation (sched l) l) ->
  sized B -> length c = bay_dim B -> nc <> 0%nat -> (sh_m (by_sh B) <= 30)%nat -> (sh_n (by_sh B) <= 30)%nat -> points_ok xs ys ->
  exists B', let XY := points_of (sh_a (by_sh B)) (sh_b (by_sh B)) xs ys gridx gridy in
    bay_uvw_skin sched Bs nc c xs ys gridx gridy B =
      (B', Ok (XY, disps Bs (by_sh B) (vec (firstn (skin_dim B) c)) (snd (fst XY)) (snd (snd XY)))) /\
    by_sh B' = by_sh B /\ by_panels B' = by_panels B /\ bay_dim B' = bay_dim B.
Proof.
  intros sched Bs nc c xs ys gridx gridy B Hs HS Hc Hnc Hm Hn HA. destruct (skin_go xs ys gridx gridy sched Bs nc c B Hs HS Hc Hnc Hm Hn HA) as (B' & H & K).
  exists B'. split; [exact H|]. split; [exact (k_sh _ _ K)|]. split; [exact (k_panels _ _ K)|exact (kept_dim _ _ K)].
Qed.
Print Assumptions C75_skin_displacements_partial.
Theorem C75_wrong_vector_is_refused : forall sched Bs nc c xs ys gridx gridy B, sized B -> length c <> bay_dim B ->
  exists B', bay_uvw_skin sched Bs nc c xs ys gridx gridy B = (B', Err ValueError).
Proof. intros sched Bs nc c xs ys gridx gridy B. apply skin_wrong. Qed.
Print Assumptions C75_wrong_vector_is_refused.

Example C75_case : built bay_env field_bay /\ sized field_bay /\ length [1; 2; 3; 4; 5; 6] = bay_dim field_bay /\
  (sh_m (by_sh field_bay) <= 30)%nat /\ (sh_n (by_sh field_bay) <= 30)%nat /\ points_ok None None /\ points_ok (Some ([2%nat], [0; 1])) (Some ([2%nat], [1; 3])).
Proof.
  split; [exact field_bay_built|]. split; [exact field_bay_sized|]. rewrite field_bay_eq. split; [reflexivity|]. cbn. repeat split; auto with arith.
Qed.
(* the mesh that uvw_skin returns is not accepted when it is given back, while the uvw of a Shell takes it *)
Theorem C75_given_mesh_refuted : exists V B c X Y F B' p F', built V B /\ sized B /\ length c = bay_dim B /\
  bay_uvw_skin (fun l => l) exact_basis 1 c None None 2 2 B = (B', Ok ((X, Y), F)) /\ fst X = [2; 2]%nat /\
  snd (bay_uvw_skin (fun l => l) exact_basis 1 c (Some X) (Some Y) 2 2 B') = Err ValueError /\
  In p (by_panels B) /\ shell_uvw (fun l => l) exact_basis 1 (firstn (skin_dim B) c) (Some X) (Some Y) 2 2 p = (p, Ok ((X, Y), F')).
Proof.
  destruct (C75_skin_displacements_partial (fun l => l) exact_basis 1 [1; 2; 3; 4; 5; 6] None None 2 2 field_bay) as (B' & H & H1 & H2 & H3);
    [intro; apply Permutation_refl|exact field_bay_sized|rewrite field_bay_eq; reflexivity|discriminate|rewrite field_bay_eq; cbn; lia..|exact I|].
  cbv zeta in H. assert (HS : sized B').
  { assert (K : exists B1, bay_uvw_skin (fun l => l) exact_basis 1 [1; 2; 3; 4; 5; 6] None None 2 2 field_bay = (B1, Ok (points_of (sh_a (by_sh field_bay)) (sh_b (by_sh field_bay)) None None 2 2, disps exact_basis (by_sh field_bay) (vec (firstn (skin_dim field_bay) [1; 2; 3; 4; 5; 6])) (snd (fst (points_of (sh_a (by_sh field_bay)) (sh_b (by_sh field_bay)) None None 2 2))) (snd (snd (points_of (sh_a (by_sh field_bay)) (sh_b (by_sh field_bay)) None None 2 2))))) /\ kept field_bay B1).
    { apply (skin_go None None 2 2); [intro; apply Permutation_refl|exact field_bay_sized|rewrite field_bay_eq; reflexivity|discriminate|rewrite field_bay_eq; cbn; lia..|exact I]. }
    destruct K as (B1 & K1 & K2). rewrite K1 in H. injection H as <-. exact (kept_sized _ _ K2 field_bay_sized). }
  exists bay_env, field_bay, [1; 2; 3; 4; 5; 6]. eexists. eexists. eexists. exists B'. eexists. eexists.
  split; [exact field_bay_built|]. split; [exact field_bay_sized|]. split; [rewrite field_bay_eq; reflexivity|]. split.
  { rewrite H. unfold points_of, meshgrid. reflexivity. }
  split; [unfold linspace; rewrite !map_length, !seq_length; reflexivity|].
  split.
  { destruct (size_go B' HS) as (B2 & E2 & K2). unfold bay_uvw_skin. rewrite (bind_ok bget _ _ B' B' eq_refl). cbv zeta.
    assert (HC : exists a, skin_constants [1; 2; 3; 4; 5; 6] B' = (B2, Ok a)).
    { unfold skin_constants. rewrite (bind_ok _ _ _ _ _ E2). rewrite (bind_ok bget _ _ B2 B2 eq_refl). rewrite H3. rewrite field_bay_eq. cbn [length bay_dim].
      replace (6 =? bay_dim field_bay_value)%nat with true by reflexivity. destruct HS as [[mdl Hm] _]. unfold bbind, blift, skin_size. rewrite (k_model _ _ K2), Hm. eexists. reflexivity. }
    destruct HC as [a HC]. rewrite (bind_ok _ _ _ _ _ HC). reflexivity. }
  split; [rewrite field_bay_eq; left; reflexivity|].
  unfold shell_uvw, mbind, mget, mlift, default_field. rewrite field_bay_eq. cbn [fst shape_eqb]. reflexivity.
Qed.
Print Assumptions C75_given_mesh_refuted.

(* ------------------------------------------------- C76 *)
Theorem C76_first_stiffener_partial : forall sched Bs nc c xs ys gridx gridy B s q, (forall l, Permutation (sched l) l) ->
  sized B -> length c = bay_dim B -> nc <> 0%nat -> nth_error (by_order B) 0 = Some false -> nth_error (by_s2 B) 0 = Some s -> s2_flange s = Some q ->
  (sh_m (pn_sh q) <= 30)%nat -> (sh_n (pn_sh q) <= 30)%nat -> points_ok xs ys ->
  exists B', let XY := points_of (sh_a (by_sh B)) (sh_b (pn_sh q)) xs ys gridx gridy in
    bay_uvw_stiffener sched Bs nc c 0 Flange xs ys gridx gridy B =
      (B', Ok (XY, disps Bs (pn_sh q) (vec (firstn (flange_dim s) (skipn (slice_of B 0) c))) (snd (fst XY)) (snd (snd XY)))).
Proof.
  intros sched Bs nc c xs ys gridx gridy B s q Hs HS Hc Hnc Ho H0 Hq Hm Hn HA.
  destruct (flange_go xs ys gridx gridy sched Bs nc c B s q Hs HS Hc Hnc Ho H0 Hq Hm Hn HA) as (B' & H & _). exists B'. exact H.
Qed.
Print Assumptions C76_first_stiffener_partial.
Example C76_case : sized field_bay /\ nth_error (by_order field_bay) 0 = Some false /\
  exists s q, nth_error (by_s2 field_bay) 0 = Some s /\ s2_flange s = Some q /\ (sh_m (pn_sh q) <= 30)%nat /\ (sh_n (pn_sh q) <= 30)%nat /\
    flange_dim s = 3%nat /\ slice_of field_bay 0 = 3%nat.
Proof.
  split; [exact field_bay_sized|]. rewrite field_bay_eq. split; [reflexivity|]. eexists. eexists. repeat split; cbn; auto with arith.
Qed.
(* every other stiffener: no vector, points or region gives a result *)
Theorem C76_later_stiffeners_refuted :
  (forall sched Bs nc c si rg xs ys gridx gridy B B' r, (0 < si)%nat -> bay_uvw_stiffener sched Bs nc c si rg xs ys gridx gridy B <> (B', Ok r)) /\
  exists V B s q, built V B /\ sized B /\ nth_error (by_order B) 1 = Some false /\ nth_error (by_s2 B) 1 = Some s /\ s2_flange s = Some q /\
    forall c, bay_uvw_stiffener (fun l => l) exact_basis 1 c 1 Flange None None 2 2 B = (B, Err AttributeError).
Proof.
  split; [intros sched Bs nc c si rg xs ys gridx gridy B B' r Hsi E; exact (later_fail xs ys gridx gridy sched Bs nc c B si rg B' r Hsi E)|].
  exists bay_env, field_bay2. rewrite field_bay2_eq. eexists. eexists. split; [rewrite <- field_bay2_eq; exact field_bay2_built|]. split; [rewrite <- field_bay2_eq; exact field_bay2_sized|].
  split; [reflexivity|]. split; [reflexivity|]. split; [reflexivity|]. intro c. reflexivity.
Qed.
Print Assumptions C76_later_stiffeners_refuted.

(* ------------------------------------------------- C77 *)
(* without forces: the zero vector of the size of the bay *)
Theorem C77_no_forces_partial : forall ff B, sized B -> by_forces B = [] -> (forall j, (j < length (by_s2 B))%nat -> ff j = Some []) ->
  exists B', bay_fext ff B = (B', Ok (repeat 0 (bay_dim B))) /\ by_sh B' = by_sh B /\ by_panels B' = by_panels B.
Proof. intros ff B HS HF Hff. destruct (fext_go ff B HS HF Hff) as (B' & H & K). exists B'. split; [exact H|]. split; [exact (k_sh _ _ K)|exact (k_panels _ _ K)]. Qed.
Print Assumptions C77_no_forces_partial.
Example C77_case : sized field_bay /\ by_forces field_bay = [] /\ bay_dim field_bay = 6%nat.
Proof. split; [exact field_bay_sized|]. rewrite field_bay_eq. split; reflexivity. Qed.
(* a result is never anything else: forces on the skin, forces on a flange and flanges without the attribute forces stop the call *)
Theorem C77_forces_refuted :
  (forall ff B B' f, bay_fext ff B = (B', Ok f) -> by_forces B = [] /\ (forall j, (j < length (by_s2 B))%nat -> ff j = Some []) /\ List.Forall (fun x => x = 0) f) /\
  (exists V B F, built V B /\ sized B /\ by_forces B = [F] /\ pl_fz F <> 0 /\ forall ff, bay_fext ff B = (B, Err ValueError)) /\
  (exists V B, built V B /\ sized B /\ by_forces B = [] /\ snd (bay_fext (fun _ => None) B) = Err AttributeError).
Proof.
  split; [intros ff B B' f; apply fext_ok|]. split.
  - exists bay_env, loaded_bay, (mkPload 1 1 0 0 1). split; [apply built_new; reflexivity|]. split; [split; [eexists; reflexivity|intros s []]|]. split; [reflexivity|]. split; [cbn; lra|reflexivity].
  - exists bay_env, field_bay. split; [exact field_bay_built|]. split; [exact field_bay_sized|]. rewrite field_bay_eq. split; reflexivity.
Qed.
Print Assumptions C77_forces_refuted.
