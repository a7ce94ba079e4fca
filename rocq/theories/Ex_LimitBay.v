(* The held bay with five terms in each direction, compressed along x, without and with a 2D blade stiffener. *)
From Coq Require Import Reals List Arith Bool Lia Lra.
From Verif Require Import Base_Sum Model_Types Model_Coo Model_Result Model_Num Model_DB Model_Shell Model_Multi Model_Bay Model_New
  Spec_Algebra Spec_Kinematics Spec_Panel Spec_Shell Spec_Bardell Spec_Integral Spec_Modes Spec_Rigid Spec_Tied Spec_Bay Spec_BayWork Spec_Blade Spec_BayResponse Spec_BayModes Spec_LimitBay
  Proof_Shell Proof_AnaApi Proof_Rigid Proof_BardellInt Proof_BayMade Proof_BayTotal Proof_BayResponse Ex_Panel Ex_Exact Ex_Bay Ex_BayResponse.
From Coq Require Import List.
Import ListNotations.
Open Scope R_scope.

Definition press_shell : shell := mkShell 2 3 0 5 5 (-1) 1 (-1) 1 0 0 held held held free free free.
Definition press_empty : bay := mkBay press_shell None None [0] (Some (1/8)) [] [1; 2; 3] [] 1300 [] [] [] [] [] None None None None None None None.
Definition press_start : bay := add_panel 1 3 [] [] None [] [] None None (add_panel 0 1 [] [] None [] [] None None press_empty).
Definition press_bay : bay := set_panels press_start (map (fun p => with_Nxx p (-1)) (by_panels press_start)).
Definition press_p0 : panel := match by_panels press_bay with p :: _ => p | [] => thin_skin end.
Lemma press_built : built bay_env press_bay.
Proof. apply built_skin; [|reflexivity]. apply built_panel, built_panel, built_new; reflexivity. Qed.
Lemma press_ready : bay_ready press_bay.
Proof.
  constructor.
  - discriminate.
  - each_in; ready_skin.
  - intros p q Hp Hq. cbn in Hp, Hq. destruct Hp as [<-|[<-|[]]], Hq as [<-|[<-|[]]]; split; reflexivity.
  - each_in; left; reflexivity.
  - each_in.
  - each_in.
Qed.
Lemma press_stiff : stiff_bay bay_env press_bay press_p0 5.
Proof.
  split; try exact press_built; try exact press_ready; try reflexivity; try (refine (exact_tables_integrate 5 _); lia); try lia.
  - unfold bay_terms; cbn. split; [lia|split; [lia|]]. intros s q [].
  - cbn; lra.
  - cbn; lra.
  - intros p Hp. cbn in Hp. destruct Hp as [<-|[<-|[]]]; (split; [part|repeat split]).
  - split; [left; reflexivity|exact ABD_definite].
  - intros s D h [].
  - intros s [].
  - intros s b [].
  - intros s b [].
  - intros s [].
Qed.
Lemma press_held : held_bay bay_env press_bay press_p0 5.
Proof. split; [exact press_stiff|apply edge_anchored; cbn; lra|intros s b []]. Qed.
Definition press_T : bay := fst (add_bladestiff2d bay_env 1 None (1/2) (1/2) (Ok None) (Ok ex_def) 5 5 press_bay).
Definition press_T_value : bay.
Proof.
  let t := constr:(let s := new_stiff2 bay_env press_bay 0 1 1300 1 (1/2) (1/2) None ex_def 5 5 in
    match s with Ok s => set_order (set_s2 press_bay [s]) [false] | Err _ => press_bay end) in
  let t' := eval cbv -[Rplus Rminus Rmult Rdiv Ropp Rinv IZR pow req] in t in exact t'.
Defined.
Lemma press_T_run : add_bladestiff2d bay_env 1 None (1/2) (1/2) (Ok None) (Ok ex_def) 5 5 press_bay = (press_T_value, Ok tt).
Proof.
  unfold add_bladestiff2d, ex_def. unfold bbind at 1 2, blift at 1 2. cbv iota beta. unfold bbind at 1, bget. unfold bbind, blift.
  erewrite pick; [|reflexivity..]. reflexivity.
Qed.
Lemma press_T_eq : press_T = press_T_value. Proof. unfold press_T. rewrite press_T_run. reflexivity. Qed.
Lemma press_T_built : built bay_env press_T.
Proof. apply built_2d, press_built. Qed.
Lemma press_T_ready : bay_ready press_T.
Proof.
  rewrite press_T_eq. unfold press_T_value. constructor; cbn [by_panels by_s1 by_s2 by_model by_sh].
  - discriminate.
  - each_in; ready_skin.
  - intros p q Hp Hq. cbn in Hp, Hq. destruct Hp as [<-|[<-|[]]], Hq as [<-|[<-|[]]]; split; reflexivity.
  - each_in; left; reflexivity.
  - each_in.
  - each_in. cbn. split; [lia|split; [lia|]]. split; [intros b Hb; discriminate|]. do 2 eexists. split; [reflexivity|]. split; [ready_part|reflexivity].
Qed.
Lemma press_T_stiff : stiff_bay bay_env press_T press_p0 5.
Proof.
  split; try exact press_T_built; try exact press_T_ready; try reflexivity; try (refine (exact_tables_integrate 5 _); lia); try lia; rewrite press_T_eq; unfold press_T_value.
  - unfold bay_terms; cbn. split; [lia|split; [lia|]]. intros s q [<-|[]] Hq. cbn in Hq. injection Hq as <-. cbn. lia.
  - cbn; lra.
  - cbn; lra.
  - intros p Hp. cbn in Hp. destruct Hp as [<-|[<-|[]]]; (split; [part|repeat split]).
  - split; [left; reflexivity|exact ABD_definite].
  - intros s D h [].
  - intros s [].
  - intros s b Hs Hb. cbn in Hs. destruct Hs as [<-|[]]. discriminate Hb.
  - intros s q Hs Hq. cbn in Hs. destruct Hs as [<-|[]]. cbn in Hq. injection Hq as <-. split; [part|]. split; [exact ABD_definite|]. split; [cbn; lra|]. apply held_sturdy. cbn; lra.
  - intros s Hs. cbn in Hs. destruct Hs as [<-|[]]. cbn. split; [lra|]. intros l (p & Hp & ->). cbn in Hp. injection Hp as <-. apply held_sturdy. cbn; lra.
Qed.
Lemma press_T_anchored : anchored (skin_curve press_p0) (by_sh press_T).
Proof. rewrite press_T_eq. apply edge_anchored; cbn; lra. Qed.
Lemma press_T_heavy : heavy press_T.
Proof.
  rewrite press_T_eq. unfold press_T_value. split; [|reflexivity|].
  - intros p Hp. cbn in Hp. destruct Hp as [<-|[<-|[]]]; unfold suml; cbn; lra.
  - intros s p Hs Hp. cbn in Hs. destruct Hs as [<-|[]]. cbn in Hp. destruct Hp as [Hp|Hp]; [discriminate Hp|]. injection Hp as <-. unfold suml. cbn. lra.
Qed.
Lemma press_T_mass : exists B' M, bay_kM bay_env press_T = (B', Ok M).
Proof.
  apply (bay_kM_total bay_env press_T press_T_ready (built_good _ _ press_T_built)); rewrite press_T_eq; unfold press_T_value; cbn [by_s1 by_s2].
  - intros s [].
  - intros s [<-|[]]. reflexivity.
Qed.
Lemma press_T_geo : exists B' G, bay_kG bay_env None press_T = (B', Ok G).
Proof. exact (bay_kG_total bay_env press_T press_T_ready (built_good _ _ press_T_built)). Qed.
Lemma press_T_held : held_bay bay_env press_T press_p0 5.
Proof. split; [exact press_T_stiff|exact press_T_anchored|]. rewrite press_T_eq. intros s b Hs Hb. cbn in Hs. destruct Hs as [<-|[]]. discriminate Hb. Qed.
Lemma press_geo : exists B' G, bay_kG bay_env None press_bay = (B', Ok G).
Proof. exact (bay_kG_total bay_env press_bay press_ready (built_good _ _ press_built)). Qed.
Lemma press_pushed : pushed press_bay.
Proof.
  split.
  - intros p Hp. cbn in Hp. exists (-1), 0. destruct Hp as [<-|[<-|[]]]; (split; [reflexivity|lra]).
  - intros s [].
  - intros s q [].
  - eexists _, (-1), 0. split; [left; reflexivity|]. split; [reflexivity|lra].
Qed.
Lemma press_T_pushed : pushed press_T.
Proof.
  rewrite press_T_eq. unfold press_T_value. split.
  - intros p Hp. cbn in Hp. exists (-1), 0. destruct Hp as [<-|[<-|[]]]; (split; [reflexivity|lra]).
  - intros s [].
  - intros s q Hs Hq. cbn in Hs. destruct Hs as [<-|[]]. cbn in Hq. injection Hq as <-. exists 0, 0. split; [reflexivity|lra].
  - eexists _, (-1), 0. split; [left; reflexivity|]. split; [reflexivity|lra].
Qed.
Lemma press_more : unpushed_more press_bay press_T.
Proof.
  rewrite press_T_eq. split; [reflexivity|]. split; [reflexivity|]. split; [reflexivity|]. split.
  - exists []. split; [reflexivity|]. intros s [].
  - eexists. split; [reflexivity|]. intros s q Hs Hq. cbn in Hs. destruct Hs as [<-|[]]. cbn in Hq. injection Hq as <-. exists 0, 0. split; [reflexivity|lra].
Qed.
Lemma press_T_weighs : exists p, In p (by_panels press_T) /\ 0 < pn_rho p * suml (rebuilt_plyts p) (fun t => t).
Proof. rewrite press_T_eq. eexists. split; [left; reflexivity|]. unfold suml. cbn. lra. Qed.
