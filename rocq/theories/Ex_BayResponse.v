(* A bay held along the edge x = 0 with a 1D and a padded 2D blade stiffener on the line between its two panels. *)
From Coq Require Import Reals List Arith Bool Lia Lra.
From Verif Require Import Base_Sum Model_Types Model_Coo Model_Result Model_Num Model_DB Model_Shell Model_Multi Model_Bay
  Spec_Algebra Spec_Kinematics Spec_Panel Spec_Shell Spec_Bardell Spec_Integral Spec_Modes Spec_Rigid Spec_Tied Spec_Bay Spec_BayWork Spec_Blade Spec_BayResponse
  Proof_Shell Proof_AnaApi Proof_Rigid Proof_BardellInt Proof_BayMade Proof_BayTotal Proof_BayResponse Ex_Panel Ex_Exact Ex_Bay.
From Coq Require Import List.
Import ListNotations.
Open Scope R_scope.

Definition held : edge := mkEdge 0 0 1 1.
Definition held_shell : shell := mkShell 2 3 0 4 4 (-1) 1 (-1) 1 0 0 held held held free free free.
Definition held_empty : bay := mkBay held_shell None None [0] (Some (1/8)) [] [1; 2; 3] [] 1300 [] [] [] [] [] None None None None None None None.
Definition held_two : bay := add_panel 1 3 [] [] None [] [] None None (add_panel 0 1 [] [] None [] [] None None held_empty).
Definition held_1d : bay := fst (add_bladestiff1d bay_env 1 None (1/2) (1/2) (Ok ex_def) (Ok ex_def) held_two).
Definition held_2d : bay := fst (add_bladestiff2d bay_env 1 None (1/2) (1/2) (Ok ex_def) (Ok ex_def) 4 4 held_1d).
Definition held_1d_value : bay.
Proof.
  let t := constr:(let s := s1_rebuild bay_env held_two (mkS1 0 1 1300 1 (1/2) (1/2) ex_def ex_def None None None 0 0 0 0 0 0) in
    match s with Ok s => set_order (set_s1 held_two [s]) [true] | Err _ => held_two end) in
  let t' := eval cbv -[Rplus Rminus Rmult Rdiv Ropp Rinv IZR pow req] in t in exact t'.
Defined.
Lemma held_1d_run : add_bladestiff1d bay_env 1 None (1/2) (1/2) (Ok ex_def) (Ok ex_def) held_two = (held_1d_value, Ok tt).
Proof.
  unfold add_bladestiff1d, ex_def. unfold bbind at 1 2, blift at 1 2. cbv iota beta. unfold bbind at 1, bget. unfold bbind, blift.
  erewrite pick; [|reflexivity..]. reflexivity.
Qed.
Lemma held_1d_eq : held_1d = held_1d_value. Proof. unfold held_1d. rewrite held_1d_run. reflexivity. Qed.
Definition held_2d_value : bay.
Proof.
  let t := constr:(let s := new_stiff2 bay_env held_1d_value 0 1 1300 1 (1/2) (1/2) ex_def ex_def 4 4 in
    match s with Ok s => set_order (set_s2 held_1d_value [s]) [true; false] | Err _ => held_two end) in
  let t' := eval cbv -[Rplus Rminus Rmult Rdiv Ropp Rinv IZR pow req] in t in exact t'.
Defined.
Lemma held_2d_run : add_bladestiff2d bay_env 1 None (1/2) (1/2) (Ok ex_def) (Ok ex_def) 4 4 held_1d = (held_2d_value, Ok tt).
Proof.
  rewrite held_1d_eq. unfold add_bladestiff2d, ex_def. unfold bbind at 1 2, blift at 1 2. cbv iota beta. unfold bbind at 1, bget. unfold bbind, blift.
  erewrite pick; [|reflexivity..]. reflexivity.
Qed.
Lemma held_2d_eq : held_2d = held_2d_value. Proof. unfold held_2d. rewrite held_2d_run. reflexivity. Qed.
Lemma held_1d_built : built bay_env held_1d.
Proof. apply built_1d, built_panel, built_panel, built_new; reflexivity. Qed.
Lemma held_2d_built : built bay_env held_2d.
Proof. apply built_2d, held_1d_built. Qed.
Lemma held_1d_ready : bay_ready held_1d.
Proof.
  rewrite held_1d_eq. unfold held_1d_value. constructor; cbn [by_panels by_s1 by_s2 by_model by_sh].
  - discriminate.
  - each_in; ready_skin.
  - intros p q Hp Hq. cbn in Hp, Hq. destruct Hp as [<-|[<-|[]]], Hq as [<-|[<-|[]]]; split; reflexivity.
  - each_in; left; reflexivity.
  - each_in. cbn. split; [lia|split; [lia|]]. intros D HD. injection HD as <-. split; [discriminate|split; discriminate].
  - each_in.
Qed.
Lemma held_2d_ready : bay_ready held_2d.
Proof.
  rewrite held_2d_eq. unfold held_2d_value. constructor; cbn [by_panels by_s1 by_s2 by_model by_sh].
  - discriminate.
  - each_in; ready_skin.
  - intros p q Hp Hq. cbn in Hp, Hq. destruct Hp as [<-|[<-|[]]], Hq as [<-|[<-|[]]]; split; reflexivity.
  - each_in; left; reflexivity.
  - each_in. cbn. split; [lia|split; [lia|]]. intros D HD. injection HD as <-. split; [discriminate|split; discriminate].
  - each_in. cbn. split; [lia|split; [lia|]]. split; [intros b Hb; injection Hb as <-; ready_part|]. do 2 eexists. split; [reflexivity|]. split; [ready_part|reflexivity].
Qed.
Definition held_p0 : panel := match by_panels held_two with p :: _ => p | [] => thin_skin end.
Lemma ABD_definite : definite 6 ex_ABD.
Proof.
  intros x (k & Hk & Hx). unfold form, ex_ABD. cbn. assert (0 < x k * x k) by nra. do 6 (destruct k as [|k]; [nra|]). lia.
Qed.
Lemma held_elastic p : pn_N_cte p = (0, 0, 0) -> pn_r p = None -> 0 < sh_a (pn_sh p) -> 0 < sh_b (pn_sh p) -> lam_matrix (pn_ortho p) (rebuilt_lam exact_env p) = ex_ABD -> chosen_model p = PlateModel -> elastic exact_env p.
Proof.
  intros H1 H2 H3 H4 H5 H6. split; [exact H1|]. split; [|rewrite H5; split; [exact ex_ABD_is|split; [exact ex_ABD_psd|apply Rmult_le_pos; lra]]].
  rewrite H6. unfold geometry_ok, kernel_view; cbn. split; [lra|split; [lra|discriminate]].
Qed.
Lemma held_ply : List.Forall ply_sound [mkPly (1/8) 1 0 1 0].
Proof.
  apply List.Forall_cons; [|apply List.Forall_nil]. split; [cbn; lra|]. exists 0, 1. cbn. intros e1 e2 g H.
  replace (1 * (e1 * (e1 * 1)) + 1 * (e2 * (e2 * 1)) + 1 * (g * (g * 1)) + 2 * 0 * e1 * e2 + 2 * 0 * e1 * g + 2 * 0 * e2 * g) with (e1 * e1 + e2 * e2 + g * g) by ring.
  pose proof (Rle_0_sqr e1). pose proof (Rle_0_sqr e2). pose proof (Rle_0_sqr g). unfold Rsqr in *.
  destruct H as [H|[H|H]]; apply Rsqr_pos_lt in H; unfold Rsqr in H; lra.
Qed.
Lemma held_sturdy h rho : 0 < h -> sturdy (mkLam ex_ABD h rho).
Proof. intro. split; [assumption|]. split; [exact ex_ABD_is|exact ABD_definite]. Qed.
Ltac part := apply held_elastic; [reflexivity|reflexivity|cbn; lra|cbn; lra|reflexivity|reflexivity].
Lemma held_blade s : s1_fdef s = ex_def -> s1_bf s = 1 / 2 -> sound_blade bay_env s.
Proof.
  intros H1 H2 D HD. assert (D = mkLamdef [0] [1/8] [[1; 2; 3]]) by (unfold ex_def in H1; congruence). subst D. cbv zeta. unfold flange_torsion. rewrite H1, H2. split; [lra|].
  unfold ex_def, lam_height, suml. cbn [ld_plyts map fold_right]. split; [lra|]. cbn [bay_env b_plies ld_stack ld_props map]. split; [exact held_ply|].
  unfold flange_S1, flange_E1, suml. cbn. lra.
Qed.
Lemma held_stiff_1d : stiff_bay bay_env held_1d held_p0 4.
Proof.
  split; try exact held_1d_built; try exact held_1d_ready; try reflexivity; try (refine (exact_tables_integrate 4 _); lia); try lia; rewrite held_1d_eq; unfold held_1d_value.
  - unfold bay_terms; cbn. split; [lia|split; [lia|]]. intros s q [].
  - cbn; lra.
  - cbn; lra.
  - intros p Hp. cbn in Hp. destruct Hp as [<-|[<-|[]]]; (split; [part|repeat split]).
  - split; [left; reflexivity|exact ABD_definite].
  - intros s D h Hs HD _. cbn in Hs. destruct Hs as [<-|[]]. cbn in HD. injection HD as <-. part.
  - intros s Hs. cbn in Hs. destruct Hs as [<-|[]]. apply held_blade; reflexivity.
  - intros s b [].
  - intros s b [].
  - intros s [].
Qed.
Lemma held_stiff_2d : stiff_bay bay_env held_2d held_p0 4.
Proof.
  split; try exact held_2d_built; try exact held_2d_ready; try reflexivity; try (refine (exact_tables_integrate 4 _); lia); try lia; rewrite held_2d_eq; unfold held_2d_value.
  - unfold bay_terms; cbn. split; [lia|split; [lia|]]. intros s q [<-|[]] Hq. cbn in Hq. injection Hq as <-. cbn. lia.
  - cbn; lra.
  - cbn; lra.
  - intros p Hp. cbn in Hp. destruct Hp as [<-|[<-|[]]]; (split; [part|repeat split]).
  - split; [left; reflexivity|exact ABD_definite].
  - intros s D h Hs HD _. cbn in Hs. destruct Hs as [<-|[]]. cbn in HD. injection HD as <-. part.
  - intros s Hs. cbn in Hs. destruct Hs as [<-|[]]. apply held_blade; reflexivity.
  - intros s b Hs Hb. cbn in Hs. destruct Hs as [<-|[]]. cbn in Hb. injection Hb as <-. part.
  - intros s q Hs Hq. cbn in Hs. destruct Hs as [<-|[]]. cbn in Hq. injection Hq as <-. split; [part|]. split; [exact ABD_definite|]. split; [cbn; lra|]. apply held_sturdy. cbn; lra.
  - intros s Hs. cbn in Hs. destruct Hs as [<-|[]]. cbn. split; [lra|]. intros l Hl. cbn in Hl. subst l. apply held_sturdy. cbn; lra.
Qed.
Lemma held_anchored : anchored (skin_curve held_p0) (by_sh held_2d).
Proof. rewrite held_2d_eq. apply edge_anchored; cbn; lra. Qed.
Lemma held_extended : extended held_1d held_2d.
Proof. apply (add2_extends bay_env 1 None (1/2) (1/2) (Ok ex_def) (Ok ex_def) 4 4). rewrite held_2d_eq. exact held_2d_run. Qed.
