(* A bay with two panels and a 1D and a 2D blade stiffener on the line between them. *)
From Coq Require Import Reals List Arith Bool Lia Lra.
From Coquelicot Require Import Coquelicot.
From Verif Require Import Base_Sum Model_Types Model_Coo Model_Result Model_Num Model_DB Model_Shell Model_Fext Model_Multi Model_New Model_StiffKer Model_Bay
  Model_Bardell Model_PlateAna Spec_Algebra Spec_Panel Spec_Shell Spec_Rebuild Spec_Bardell Spec_Integral Proof_Gauss Proof_Bardell Spec_Bay Spec_BayWork Proof_Shell Proof_FieldEdge Proof_Total Proof_Hist Ex_Panel Ex_Exact Ex_Multi Ex_Rebuild.
Import ListNotations.
Open Scope R_scope.

Definition bay_env : benv := mkBenv exact_env (fun _ ts _ => map (fun t => mkPly t 1 0 1 0) ts).
Definition bay_shell : shell := mkShell 2 3 0 1 1 (-1) 1 (-1) 1 0 0 free free ss free free ss.
Definition empty_bay : bay := mkBay bay_shell None None [0] (Some (1/8)) [] [1; 2; 3] [] 1300 [] [] [] [] [] None None None None None None None.
Definition two_bay : bay := add_panel 1 3 [] [] None [] [] None None (add_panel 0 1 [] [] None [] [] None None empty_bay).
Definition ex_def : option lamdef := Some (mkLamdef [0] [1/8] [[1; 2; 3]]).
Definition bay_1d : bay := fst (add_bladestiff1d bay_env 1 None (1/2) (1/2) (Ok None) (Ok ex_def) two_bay).
Definition bay_2d : bay := fst (add_bladestiff2d bay_env 1 None (1/2) (1/2) (Ok ex_def) (Ok ex_def) 1 1 bay_1d).

Lemma req_refl x : req x x = true. Proof. unfold req. destruct (Req_EM_T x x); [reflexivity|congruence]. Qed.
Lemma req_neq x y : x <> y -> req x y = false. Proof. intro. unfold req. destruct (Req_EM_T x y); [congruence|reflexivity]. Qed.
Lemma far x y : 1 / 100000000 + 1 / 100000 * Rabs y < Rabs (x - y) -> isclose x y = false.
Proof. intro. unfold isclose. destruct (Rle_dec _ _); [lra|reflexivity]. Qed.
Lemma far10 : isclose 1 0 = false. Proof. apply far. rewrite Rabs_R0. rewrite Rabs_pos_eq by lra. lra. Qed.
Lemma far13 : isclose 1 3 = false. Proof. apply far. rewrite (Rabs_pos_eq 3) by lra. rewrite Rabs_left1 by lra. lra. Qed.
Lemma pick B p q : by_panels B = [p; q] -> sh_b (by_sh B) = 3 -> sh_y1 (pn_sh p) = 0 -> sh_y2 (pn_sh p) = 1 -> sh_y1 (pn_sh q) = 1 -> sh_y2 (pn_sh q) = 3 -> find_panels B 1 = Ok (0%nat, 1%nat).
Proof.
  intros HP Hb H1 H2 H3 H4. unfold find_panels, pick_panels. rewrite HP. cbn [length seq combine fold_left]. rewrite Hb, H1, H2, H3, H4, !far10, !far13, !req_refl, (req_neq 0 1), (req_neq 3 1) by lra. reflexivity.
Qed.

Definition bay_1d_value : bay.
Proof.
  let t := constr:(let s := s1_rebuild bay_env two_bay (mkS1 0 1 1300 1 (1/2) (1/2) None ex_def None None None 0 0 0 0 0 0) in
    match s with Ok s => set_order (set_s1 two_bay [s]) [true] | Err _ => two_bay end) in
  let t' := eval cbv -[Rplus Rminus Rmult Rdiv Ropp Rinv IZR pow req] in t in exact t'.
Defined.
Lemma bay_1d_eq : bay_1d = bay_1d_value.
Proof.
  unfold bay_1d, add_bladestiff1d, ex_def. unfold bbind at 1 2, blift at 1 2. cbv iota beta. unfold bbind at 1, bget. unfold bbind, blift.
  erewrite pick; [|reflexivity..]. reflexivity.
Qed.
Definition bay_2d_value : bay.
Proof.
  let t := constr:(let s := new_stiff2 bay_env bay_1d_value 0 1 1300 1 (1/2) (1/2) ex_def ex_def 1 1 in
    match s with Ok s => set_order (set_s2 bay_1d_value [s]) [true; false] | Err _ => two_bay end) in
  let t' := eval cbv -[Rplus Rminus Rmult Rdiv Ropp Rinv IZR pow req] in t in exact t'.
Defined.
Lemma bay_2d_eq : bay_2d = bay_2d_value.
Proof.
  unfold bay_2d. rewrite bay_1d_eq. unfold add_bladestiff2d, ex_def. unfold bbind at 1 2, blift at 1 2. cbv iota beta. unfold bbind at 1, bget. unfold bbind, blift.
  erewrite pick; [|reflexivity..]. reflexivity.
Qed.
Lemma two_bay_built : built bay_env two_bay.
Proof. unfold two_bay. apply built_panel, built_panel. apply built_new; reflexivity. Qed.
Lemma bay_1d_built : built bay_env bay_1d.
Proof. apply built_1d, two_bay_built. Qed.
Lemma bay_2d_built : built bay_env bay_2d.
Proof. apply built_2d, bay_1d_built. Qed.
Definition bay_mass : bay := fst (add_bladestiff2d bay_env 1 None (1/2) (1/2) (Ok None) (Ok ex_def) 1 1 bay_1d).
Definition bay_mass_value : bay.
Proof.
  let t := constr:(let s := new_stiff2 bay_env bay_1d_value 0 1 1300 1 (1/2) (1/2) None ex_def 1 1 in
    match s with Ok s => set_order (set_s2 bay_1d_value [s]) [true; false] | Err _ => two_bay end) in
  let t' := eval cbv -[Rplus Rminus Rmult Rdiv Ropp Rinv IZR pow req] in t in exact t'.
Defined.
Lemma bay_mass_eq : bay_mass = bay_mass_value.
Proof.
  unfold bay_mass. rewrite bay_1d_eq. unfold add_bladestiff2d, ex_def. unfold bbind at 1 2, blift at 1 2. cbv iota beta. unfold bbind at 1, bget. unfold bbind, blift.
  erewrite pick; [|reflexivity..]. reflexivity.
Qed.
Lemma bay_mass_built : built bay_env bay_mass.
Proof. apply built_2d, bay_1d_built. Qed.

Ltac each_in := let H := fresh in intros ? H; cbn in H; repeat (destruct H as [<-|H]); try contradiction.
Ltac ready_part := split; [split; [discriminate|split; [discriminate|split; [left; discriminate|left; discriminate]]]|reflexivity].
Ltac ready_skin := split; [split; [split; [discriminate|split; [discriminate|split; [right; discriminate|right; discriminate]]]|reflexivity]|split; reflexivity].
Lemma bay_2d_ready : bay_ready bay_2d.
Proof.
  rewrite bay_2d_eq. unfold bay_2d_value. constructor; cbn [by_panels by_s1 by_s2 by_model by_sh].
  - discriminate.
  - each_in; ready_skin.
  - intros p q Hp Hq. cbn in Hp, Hq. destruct Hp as [<-|[<-|[]]], Hq as [<-|[<-|[]]]; split; reflexivity.
  - each_in; left; reflexivity.
  - each_in. cbn. split; [lia|split; [lia|]]. discriminate.
  - each_in. cbn. split; [lia|split; [lia|]]. split; [intros b Hb; injection Hb as <-; ready_part|]. do 2 eexists. split; [reflexivity|]. split; [ready_part|reflexivity].
Qed.
Lemma bay_mass_ready : bay_ready bay_mass.
Proof.
  rewrite bay_mass_eq. unfold bay_mass_value. constructor; cbn [by_panels by_s1 by_s2 by_model by_sh].
  - discriminate.
  - each_in; ready_skin.
  - intros p q Hp Hq. cbn in Hp, Hq. destruct Hp as [<-|[<-|[]]], Hq as [<-|[<-|[]]]; split; reflexivity.
  - each_in; left; reflexivity.
  - each_in. cbn. split; [lia|split; [lia|]]. discriminate.
  - each_in. cbn. split; [lia|split; [lia|]]. split; [discriminate|]. do 2 eexists. split; [reflexivity|]. split; [ready_part|reflexivity].
Qed.
Lemma bay_2d_terms : bay_terms bay_2d 1 /\ bay_lengths bay_2d.
Proof.
  rewrite bay_2d_eq. unfold bay_2d_value, bay_terms, bay_lengths; cbn. split; [split; [lia|split; [lia|]]|split; [lra|split; [lra|]]]; intros s q [<-|[]] Hq; cbn in Hq; injection Hq as <-; cbn; [split; lia|lra].
Qed.
Lemma bay_mass_terms : bay_terms bay_mass 1 /\ bay_lengths bay_mass.
Proof.
  rewrite bay_mass_eq. unfold bay_mass_value, bay_terms, bay_lengths; cbn. split; [split; [lia|split; [lia|]]|split; [lra|split; [lra|]]]; intros s q [<-|[]] Hq; cbn in Hq; injection Hq as <-; cbn; [split; lia|lra].
Qed.

(* a bay of one term whose stiffness is known, with one panel or the same skin cut in two *)
Definition thin_V : benv := mkBenv thin_env (fun _ _ _ => []).
Definition thin_empty : bay := mkBay thin_shell None None [0] (Some 1) [] [1] [] 1300 [] [] [] [] [] None None None None None None None.
Definition thin_one : bay := add_panel 0 2 [] [] None [] [] None None thin_empty.
Definition thin_two : bay := add_panel 1 2 [] [] None [] [] None None (add_panel 0 1 [] [] None [] [] None None thin_empty).
Definition thin_skin : panel := match by_panels thin_one with p :: _ => p | [] => thin_panel 1 1 end.
Lemma thin_one_built : built thin_V thin_one. Proof. apply built_panel, built_new; reflexivity. Qed.
Lemma thin_two_built : built thin_V thin_two. Proof. apply built_panel, built_panel, built_new; reflexivity. Qed.
Lemma thin_one_ready : bay_ready thin_one.
Proof.
  constructor; cbn [thin_one thin_empty add_panel by_panels by_s1 by_s2 by_model by_sh].
  - discriminate.
  - each_in; ready_skin.
  - intros p q Hp Hq. cbn in Hp, Hq. destruct Hp as [<-|[]], Hq as [<-|[]]; split; reflexivity.
  - each_in; left; reflexivity.
  - each_in.
  - each_in.
Qed.
Lemma thin_two_ready : bay_ready thin_two.
Proof.
  constructor; cbn [thin_two thin_empty add_panel by_panels by_s1 by_s2 by_model by_sh].
  - discriminate.
  - each_in; ready_skin.
  - intros p q Hp Hq. cbn in Hp, Hq. destruct Hp as [<-|[<-|[]]], Hq as [<-|[<-|[]]]; split; reflexivity.
  - each_in; left; reflexivity.
  - each_in.
  - each_in.
Qed.
Lemma thin_skin_runs : exists K, alone_kC thin_env 3 0 thin_skin K /\ K 0%nat 0%nat = thin_k.
Proof.
  set (A := mkKargs (SInt 3) 0 0 true None None None None None false).
  destruct (calc_kC_ok thin_env A thin_skin) as (p' & K & H); try exact I; try reflexivity; try discriminate; try (cbn; lia).
  - split; [discriminate|split; [discriminate|split; [right; discriminate|right; discriminate]]].
  - exists K. split; [exists p'; exact H|].
    destruct (calc_kC_inv _ _ _ _ _ H) as (mdl & kC & kG & R0).
    destruct (kr_rebuild _ _ _ _ _ _ _ _ R0) as (p1 & ER & S).
    destruct (rebuild_inv _ _ _ _ ER) as (A1 & A2 & A3 & A4 & A5 & A6 & A7 & A8 & _).
    pose proof (kr_kC _ _ _ _ _ _ _ _ R0) as C. cbv zeta in C.
    destruct C as [(_ & _ & _ & F & HF & HC)|([C|[C|C]] & _)]; try (exfalso; apply C; reflexivity); try discriminate C.
    pose proof (kr_kG _ _ _ _ _ _ _ _ R0) as G. cbn [thin_skin thin_one pn_N_cte A ka_c_cte] in G.
    assert (HG : kG = []).
    { destruct G as [(_ & _ & G)|[(_ & G & _)|(l & G & _)]]; [exact G| |discriminate G].
      exfalso. cbn in G. destruct (Req_EM_T 0 0); [discriminate G|lra]. }
    pose proof (kr_model _ _ _ _ _ _ _ _ R0) as HM. rewrite (sr_model _ _ S), A3 in HM. cbn in HM.
    assert (Hm : mdl = PlateModel) by congruence. subst mdl kG.
    rewrite (sr_ABD _ _ S), A8 in HF. inversion HF; subst F.
    assert (Hv : kernel_view p' = mkShell 2 2 0 1 1 (sh_x1 (pn_sh thin_skin)) (sh_x2 (pn_sh thin_skin)) 0 2 (default 0 (pn_beta p')) (default 0 (pn_gamma p')) free free free free free free).
    { unfold kernel_view. rewrite (kr_r _ _ _ _ _ _ _ _ R0), (si_sh _ _ (sr_in _ _ S)), (si_sh _ _ A1). reflexivity. }
    rewrite (kr_K _ _ _ _ _ _ _ _ R0), HC, Hv. unfold fk0, plate_fk0. unfold finalized, A, ka_fin.
    cbn -[Rmult Rplus Rdiv IZR t_ff t_fpfp t_ffp]. unfold thin_k. lra.
Qed.
(* a panel between y = 1 and y = 1 *)
Definition thin_none : bay := add_panel 1 1 [] [] None [] [] None None thin_empty.
Lemma thin_none_built : built thin_V thin_none. Proof. apply built_panel, built_new; reflexivity. Qed.
Lemma thin_none_ready : bay_ready thin_none.
Proof.
  constructor; cbn [thin_none thin_empty add_panel by_panels by_s1 by_s2 by_model by_sh].
  - discriminate.
  - each_in; ready_skin.
  - intros p q Hp Hq. cbn in Hp, Hq. destruct Hp as [<-|[]], Hq as [<-|[]]; split; reflexivity.
  - each_in; left; reflexivity.
  - each_in.
  - each_in.
Qed.
(* a 1D stiffener with a pad *)
Definition bay_padded : bay := fst (add_bladestiff1d bay_env 1 None (1/2) (1/2) (Ok ex_def) (Ok ex_def) two_bay).
Definition bay_padded_value : bay.
Proof.
  let t := constr:(let s := s1_rebuild bay_env two_bay (mkS1 0 1 1300 1 (1/2) (1/2) ex_def ex_def None None None 0 0 0 0 0 0) in
    match s with Ok s => set_order (set_s1 two_bay [s]) [true] | Err _ => two_bay end) in
  let t' := eval cbv -[Rplus Rminus Rmult Rdiv Ropp Rinv IZR pow req] in t in exact t'.
Defined.
Lemma bay_padded_eq : bay_padded = bay_padded_value.
Proof.
  unfold bay_padded, add_bladestiff1d, ex_def. unfold bbind at 1 2, blift at 1 2. cbv iota beta. unfold bbind at 1, bget. unfold bbind, blift.
  erewrite pick; [|reflexivity..]. reflexivity.
Qed.
Lemma bay_padded_built : built bay_env bay_padded.
Proof. apply built_1d, two_bay_built. Qed.
Lemma bay_padded_ready : bay_ready bay_padded.
Proof.
  rewrite bay_padded_eq. unfold bay_padded_value. constructor; cbn [by_panels by_s1 by_s2 by_model by_sh].
  - discriminate.
  - each_in; ready_skin.
  - intros p q Hp Hq. cbn in Hp, Hq. destruct Hp as [<-|[<-|[]]], Hq as [<-|[<-|[]]]; split; reflexivity.
  - each_in; left; reflexivity.
  - each_in. cbn. split; [lia|split; [lia|]]. intros D HD. injection HD as <-. split; [discriminate|split; discriminate].
  - each_in.
Qed.
