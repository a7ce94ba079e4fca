(* The held bay with a 2D blade stiffener without pad. *)
From Coq Require Import Reals List Arith Bool Lia Lra.
From Verif Require Import Base_Sum Model_Types Model_Coo Model_Result Model_Num Model_DB Model_Shell Model_Multi Model_Bay
  Spec_Algebra Spec_Kinematics Spec_Panel Spec_Shell Spec_Bardell Spec_Integral Spec_Modes Spec_Rigid Spec_Tied Spec_Bay Spec_BayWork Spec_Blade Spec_BayResponse Spec_BayModes
  Proof_Shell Proof_AnaApi Proof_Rigid Proof_BardellInt Proof_BayMade Proof_BayTotal Proof_BayResponse Ex_Panel Ex_Exact Ex_Bay Ex_BayResponse.
From Coq Require Import List.
Import ListNotations.
Open Scope R_scope.

Definition held_T : bay := fst (add_bladestiff2d bay_env 1 None (1/2) (1/2) (Ok None) (Ok ex_def) 4 4 held_two).
Definition held_T_value : bay.
Proof.
  let t := constr:(let s := new_stiff2 bay_env held_two 0 1 1300 1 (1/2) (1/2) None ex_def 4 4 in
    match s with Ok s => set_order (set_s2 held_two [s]) [false] | Err _ => held_two end) in
  let t' := eval cbv -[Rplus Rminus Rmult Rdiv Ropp Rinv IZR pow req] in t in exact t'.
Defined.
Lemma held_T_run : add_bladestiff2d bay_env 1 None (1/2) (1/2) (Ok None) (Ok ex_def) 4 4 held_two = (held_T_value, Ok tt).
Proof.
  unfold add_bladestiff2d, ex_def. unfold bbind at 1 2, blift at 1 2. cbv iota beta. unfold bbind at 1, bget. unfold bbind, blift.
  erewrite pick; [|reflexivity..]. reflexivity.
Qed.
Lemma held_T_eq : held_T = held_T_value. Proof. unfold held_T. rewrite held_T_run. reflexivity. Qed.
Lemma held_T_built : built bay_env held_T.
Proof. apply built_2d, built_panel, built_panel, built_new; reflexivity. Qed.
Lemma held_T_ready : bay_ready held_T.
Proof.
  rewrite held_T_eq. unfold held_T_value. constructor; cbn [by_panels by_s1 by_s2 by_model by_sh].
  - discriminate.
  - each_in; ready_skin.
  - intros p q Hp Hq. cbn in Hp, Hq. destruct Hp as [<-|[<-|[]]], Hq as [<-|[<-|[]]]; split; reflexivity.
  - each_in; left; reflexivity.
  - each_in.
  - each_in. cbn. split; [lia|split; [lia|]]. split; [intros b Hb; discriminate|]. do 2 eexists. split; [reflexivity|]. split; [ready_part|reflexivity].
Qed.
Lemma held_T_stiff : stiff_bay bay_env held_T held_p0 4.
Proof.
  split; try exact held_T_built; try exact held_T_ready; try reflexivity; try (refine (exact_tables_integrate 4 _); lia); try lia; rewrite held_T_eq; unfold held_T_value.
  - unfold bay_terms; cbn. split; [lia|split; [lia|]]. intros s q [<-|[]] Hq. cbn in Hq. injection Hq as <-. cbn. lia.
  - cbn; lra.
  - cbn; lra.
  - intros p Hp. cbn in Hp. destruct Hp as [<-|[<-|[]]]; (split; [part|repeat split]).
  - split; [left; reflexivity|exact ABD_definite].
  - intros s D h [].
  - intros s [].
  - intros s b Hs Hb. cbn in Hs. destruct Hs as [<-|[]]. discriminate Hb.
  - intros s q Hs Hq. cbn in Hs. destruct Hs as [<-|[]]. cbn in Hq. injection Hq as <-. split; [part|]. split; [exact ABD_definite|]. split; [cbn; lra|]. apply held_sturdy. cbn; lra.
  - intros s Hs. cbn in Hs. destruct Hs as [<-|[]]. cbn. split; [lra|]. intros l (p & Hp & ->). cbn in Hp. injection Hp as <-. apply held_sturdy. cbn; lra.
Qed.
Lemma held_T_anchored : anchored (skin_curve held_p0) (by_sh held_T).
Proof. rewrite held_T_eq. apply edge_anchored; cbn; lra. Qed.
Lemma held_T_heavy : heavy held_T.
Proof.
  rewrite held_T_eq. unfold held_T_value. split; [|reflexivity|].
  - intros p Hp. cbn in Hp. destruct Hp as [<-|[<-|[]]]; unfold suml; cbn; lra.
  - intros s p Hs Hp. cbn in Hs. destruct Hs as [<-|[]]. cbn in Hp. destruct Hp as [Hp|Hp]; [discriminate Hp|]. injection Hp as <-. unfold suml. cbn. lra.
Qed.
Lemma held_T_mass : exists B' M, bay_kM bay_env held_T = (B', Ok M).
Proof.
  apply (bay_kM_total bay_env held_T held_T_ready (built_good _ _ held_T_built)); rewrite held_T_eq; unfold held_T_value; cbn [by_s1 by_s2].
  - intros s [].
  - intros s [<-|[]]. reflexivity.
Qed.
Lemma held_T_geo : exists B' G, bay_kG bay_env None held_T = (B', Ok G).
Proof. exact (bay_kG_total bay_env held_T held_T_ready (built_good _ _ held_T_built)). Qed.
