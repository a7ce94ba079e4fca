(* C92, C93: where the assemblies built by the package are supported. *)
From Coq Require Import Reals List Arith Bool Lia Lra.
From Verif Require Import Base_Sum Model_Types Model_Coo Model_Result Model_Num Model_DB Model_Shell Model_Bardell Model_Fext Model_Multi Model_New Model_Cylinder Model_TStiff
  Spec_Integral Spec_Bardell Spec_Panel Spec_Shell Spec_Fext Spec_Field Spec_Conn Spec_Multi Spec_MultiConn Spec_TStiff Spec_Support
  Proof_SupportTop Proof_SupportCyl Ex_Panel.
From Coq Require Import List.
Import ListNotations.
Open Scope R_scope.

(* C92. Panel number i of the T-stiffened panel (1 to 9 the skin, 10 and 14 the bases, 11 and 15 the flanges,
   12 and 13 the base and the flange over the defect) is at the place np_x0, np_y0 and has the sizes len, wid; ts_a
   and ts_b are the sizes of the whole. The statement speaks of the panels after the assembly was created. *)
Theorem C92_outer_edges : forall D k q w Bs t, well_sized D -> terms_between 0 30 D -> shape_data Bs t ->
  let h := w_panel (fst (create_tstiff D k q w)) in
  forall i, (1 <= i <= 15)%nat -> i <> 10%nat -> i <> 14%nat ->
    let p := panel_no D i in let o := (k + (i - 1))%nat in
    (np_x0 p = 0 -> rests_x Bs t h o 1 0 /\ rests_x Bs t h o 2 0 /\ (ts_e D = false -> rests_x Bs t h o 0 0)) /\
    (np_x0 p + len p = ts_a D -> forall c, (c < 3)%nat -> rests_x Bs t h o c (len p)) /\
    ((i <= 9)%nat -> np_y0 p = 0 -> rests_y Bs t h o 1 0 /\ rests_y Bs t h o 2 0) /\
    ((i <= 9)%nat -> np_y0 p + wid p = ts_b D -> rests_y Bs t h o 1 (wid p) /\ rests_y Bs t h o 2 (wid p)).
Proof.
  intros D k q w Bs t HD HT HS h i Hi N10 N14 p o. pose proof (fun j Hj => let H := terms_no 0 30 D HT j Hj in conj (proj2 (proj1 H)) (proj2 (proj2 H))) as HT'.
  split; [|split; [|split]].
  - intro H0. split; [|split].
    + exact (outer_x0 D k q w HD HT' Bs t i 1 HS Hi ltac:(lia) N14 H0 (or_introl (Nat.neq_succ_0 _))).
    + exact (outer_x0 D k q w HD HT' Bs t i 2 HS Hi ltac:(lia) N14 H0 (or_introl (Nat.neq_succ_0 _))).
    + intro He. exact (outer_x0 D k q w HD HT' Bs t i 0 HS Hi ltac:(lia) N14 H0 (or_intror He)).
  - intros H1 c Hc. exact (outer_x1 D k q w HD HT' Bs t i c HS Hi Hc N10 H1).
  - intros H9 H0. assert (Hi9 : (1 <= i <= 9)%nat) by lia. split; [exact (outer_y0 D k q w HD HT' Bs t i 1 HS Hi9 (or_introl eq_refl) H0)|exact (outer_y0 D k q w HD HT' Bs t i 2 HS Hi9 (or_intror eq_refl) H0)].
  - intros H9 H0. assert (Hi9 : (1 <= i <= 9)%nat) by lia. split; [exact (outer_y1 D k q w HD HT' Bs t i 1 HS Hi9 (or_introl eq_refl) H0)|exact (outer_y1 D k q w HD HT' Bs t i 2 HS Hi9 (or_intror eq_refl) H0)].
Qed.
Print Assumptions C92_outer_edges.

(* and nowhere else: every other line at the edge of a panel moves for some displacements, so that the pieces
   of the skin hold each other only through their connections, and the bases only through their bonds *)
Theorem C92_no_other_support : forall D k q w, well_sized D -> terms_between 3 30 D ->
  let h := w_panel (fst (create_tstiff D k q w)) in
  forall i c, (1 <= i <= 15)%nat -> (c < 3)%nat ->
    let p := panel_no D i in let o := (k + (i - 1))%nat in
    (np_x0 p <> 0 \/ i = 14%nat \/ c = 0%nat /\ ts_e D = true -> moves_x h o c 0) /\
    (np_x0 p + len p <> ts_a D \/ i = 10%nat -> moves_x h o c (len p)) /\
    (np_y0 p <> 0 \/ c = 0%nat \/ (10 <= i)%nat -> moves_y h o c 0) /\
    (np_y0 p + wid p <> ts_b D \/ c = 0%nat \/ (10 <= i)%nat -> moves_y h o c (wid p)).
Proof.
  intros D k q w HD HT h i c Hi Hc p o. pose proof (fun j Hj => let H := terms_no 3 30 D HT j Hj in conj (proj2 (proj1 H)) (proj2 (proj2 H))) as HT'.
  pose proof (fun j Hj => let H := terms_no 3 30 D HT j Hj in conj (proj1 (proj1 H)) (proj1 (proj2 H))) as HT3.
  split; [|split; [|split]].
  - exact (inner_x0 D k q w HD HT' HT3 i c Hi Hc).
  - exact (inner_x1 D k q w HD HT' HT3 i c Hi Hc).
  - intro H. destruct (le_lt_dec i 9) as [H9|H9]; [apply (inner_y0 D k q w HD HT' HT3 i c ltac:(lia) Hc); destruct H as [H|[H|H]]; [left; exact H|right; exact H|lia]|].
    exact (proj1 (stiff_y D k q w HD HT' HT3 i c ltac:(lia) Hc)).
  - intro H. destruct (le_lt_dec i 9) as [H9|H9]; [apply (inner_y1 D k q w HD HT' HT3 i c ltac:(lia) Hc); destruct H as [H|[H|H]]; [left; exact H|right; exact H|lia]|].
    exact (proj2 (stiff_y D k q w HD HT' HT3 i c ltac:(lia) Hc)).
Qed.
Print Assumptions C92_no_other_support.

(* a panel of 4 x 3 with a stiffener at y = 1: the corner piece of the skin rests at x = a and at y = b, and
   moves along its two inner lines *)
Definition su_D : tstiff := mkTs 4 3 1 1 (1/2) (2/5) 1 (1/8) [1; 2; 3] [0] [0] [0] None 4 4 3 3 3 3 None (-5) (-4) (-3) true.
Example C92_case : let h := w_panel (fst (create_tstiff su_D 0 15 (mkWorld (fun _ => mkXp (ex_panel None) 0 no_loads None None) (fun _ => [])))) in
  well_sized su_D /\ terms_between 3 30 su_D /\ np_x0 (panel_no su_D 1) + len (panel_no su_D 1) = 4 /\ np_y0 (panel_no su_D 1) + wid (panel_no su_D 1) = 3 /\
  rests_x code_basis (4 / 10 ^ 9) h 0 0 (len (panel_no su_D 1)) /\ rests_y code_basis (4 / 10 ^ 9) h 0 2 (wid (panel_no su_D 1)) /\
  moves_x h 0 2 0 /\ moves_y h 0 2 0.
Proof.
  set (w0 := mkWorld _ _). intro h.
  assert (HD : well_sized su_D) by (unfold well_sized; cbn; lra). assert (HT : terms_between 3 30 su_D) by (unfold terms_between; cbn; lia). assert (HT0 : terms_between 0 30 su_D) by (unfold terms_between; cbn; lia).
  assert (E1 : np_x0 (panel_no su_D 1) + len (panel_no su_D 1) = ts_a su_D).
  { unfold panel_no, len. cbn -[Rlt_dec Req_EM_T]. unfold alow, aup, defect; cbn -[Rlt_dec Req_EM_T]. destruct (Req_EM_T _ _); cbn -[Rlt_dec Req_EM_T]; lra. }
  assert (E2 : np_y0 (panel_no su_D 1) + wid (panel_no su_D 1) = ts_b su_D).
  { unfold panel_no, wid. cbn -[Rlt_dec Req_EM_T]. unfold bleft, bright; cbn -[Rlt_dec Req_EM_T]. lra. }
  assert (E3 : np_x0 (panel_no su_D 1) <> 0).
  { unfold panel_no, len. cbn -[Rlt_dec Req_EM_T]. unfold alow, aup, defect; cbn -[Rlt_dec Req_EM_T]. destruct (Req_EM_T _ _); cbn -[Rlt_dec Req_EM_T]; lra. }
  assert (E4 : np_y0 (panel_no su_D 1) <> 0).
  { unfold panel_no, wid. cbn -[Rlt_dec Req_EM_T]. unfold bleft, bright; cbn -[Rlt_dec Req_EM_T]. lra. }
  pose proof (C92_outer_edges su_D 0 15 w0 code_basis (4 / 10 ^ 9) HD HT0 (or_intror (conj eq_refl eq_refl)) 1 ltac:(lia) ltac:(lia) ltac:(lia)) as (_ & A & _ & B).
  pose proof (C92_no_other_support su_D 0 15 w0 HD HT 1 2 ltac:(lia) ltac:(lia)) as (C & _ & C' & _).
  split; [exact HD|]. split; [exact HT|]. split; [exact E1|]. split; [exact E2|]. split; [exact (A E1 0%nat ltac:(lia))|]. split; [exact (proj2 (B ltac:(lia) E2))|].
  split; [exact (C (or_introl E3))|exact (C' (or_introl E4))].
Qed.

(* C93. The panels of a cylinder, made alone or with blades: the ends rest and the sides move *)
Theorem C93_cylinder : forall height r stack plyt laminaprop n m n' k q w w' s, 0 < height -> 0 < r -> (3 <= m <= 30)%nat -> (3 <= n' <= 30)%nat ->
  create_cylinder_assy height r stack plyt laminaprop n m n' k q w = (w', Ok s) ->
  forall i, (i < n)%nat ->
    (forall Bs t, shape_data Bs t -> supported_ends Bs t (w_panel w') (k + i) height false) /\
    free_sides (w_panel w') (k + i) height (2 * PI * r / INR n) false.
Proof. intros height r stack plyt laminaprop n m n' k q w w' s Hh Hr Hm Hn' H i Hi. exact (cyl_supports height r stack plyt laminaprop n m n' k q w Hh Hr Hm Hn' w' s i H Hi). Qed.
Print Assumptions C93_cylinder.

(* for the three analyses of a cylinder the end x = height is free to shorten: u moves there, v and w rest *)
Theorem C93_compressed_cylinder : forall height r stack plyt laminaprop n m n' k q w, 0 < height -> 0 < r -> (3 <= m <= 30)%nat -> (3 <= n' <= 30)%nat ->
  forall w', ((exists w1 s Nxxs, create_cylinder_assy height r stack plyt laminaprop n m n' k q w = (w1, Ok s) /\ w' = set_constant_loads n k Nxxs w1) \/
              (exists s Nxxs, cylinder_static_world height r stack plyt laminaprop n m n' k q Nxxs w = Ok (w', s)) \/
              (exists s Nxx SPLA, cylinder_spla_world height r stack plyt laminaprop n m n' k q Nxx SPLA w = Ok (w', s))) ->
  forall i, (i < n)%nat ->
    (forall Bs t, shape_data Bs t -> supported_ends Bs t (w_panel w') (k + i) height true) /\
    free_sides (w_panel w') (k + i) height (2 * PI * r / INR n) true.
Proof.
  intros height r stack plyt laminaprop n m n' k q w Hh Hr Hm Hn' w' [(w1 & s & Nxxs & H & ->)|[(s & Nxxs & H)|(s & Nxx & SPLA & H)]] i Hi.
  - exact (cyl_constant_supports height r stack plyt laminaprop n m n' k q w Hh Hr Hm Hn' Nxxs w1 s i H Hi).
  - exact (cyl_static_supports height r stack plyt laminaprop n m n' k q w Hh Hr Hm Hn' Nxxs w' s i H Hi).
  - exact (cyl_spla_supports height r stack plyt laminaprop n m n' k q w Hh Hr Hm Hn' Nxx SPLA w' s i H Hi).
Qed.
Print Assumptions C93_compressed_cylinder.

(* with blades: n pieces of skin of the width 2 pi r / n, then n blades of the widths given. In the analysis
   u of blade and skin moves at x = height *)
Theorem C93_blades : forall height r stack stack_blades width_blades plyt laminaprop n m n' k q w, 0 < height -> 0 < r -> (3 <= m <= 30)%nat -> (3 <= n' <= 30)%nat ->
  (forall i, (i < n)%nat -> 0 < nth i width_blades 0) ->
  forall w' free, ((exists s, free = false /\ create_cylinder_blade_stiffened height r stack plyt laminaprop n m n' stack_blades width_blades k q w = (w', Ok s)) \/
                (exists s Nskin Nblade, free = true /\ cylinder_blade_static_world height r stack stack_blades width_blades plyt laminaprop n m n' k q Nskin Nblade w = Ok (w', s))) ->
  forall i, (i < n + n)%nat ->
    (forall Bs t, shape_data Bs t -> supported_ends Bs t (w_panel w') (k + i) height free) /\
    free_sides (w_panel w') (k + i) height (if (i <? n)%nat then 2 * PI * r / INR n else nth (i - n) width_blades 0) free.
Proof.
  intros height r stack stack_blades width_blades plyt laminaprop n m n' k q w Hh Hr Hm Hn' Hw w' free [(s & -> & H)|(s & Nskin & Nblade & -> & H)] i Hi.
  - exact (blade_supports height r stack stack_blades width_blades plyt laminaprop n m n' k q w Hh Hr Hm Hn' Hw w' s i H Hi).
  - exact (blade_static_supports height r stack stack_blades width_blades plyt laminaprop n m n' k q w Hh Hr Hm Hn' Hw Nskin Nblade w' s i H Hi).
Qed.
Print Assumptions C93_blades.

(* a cylinder of three panels with three blades, alone and in its analysis *)
Example C93_case : let w0 := mkWorld (fun _ => mkXp (ex_panel None) 0 no_loads None None) (fun _ => []) in
  (exists w' s, cylinder_static_world 2 1 [0] (1/8) [1; 2; 3] 3 4 4 0 0 [1; 2; 3] w0 = Ok (w', s)) /\
  (exists w' s, cylinder_blade_static_world 2 1 [0] [[0]; [0]; [0]] [1/4; 1/4; 1/3] (1/8) [1; 2; 3] 3 4 4 0 0 [1; 2; 3] [4; 5; 6] w0 = Ok (w', s)) /\
  (forall i, (i < 3)%nat -> 0 < nth i [1/4; 1/4; 1/3] 0).
Proof.
  intro w0. split; [eexists _, _; reflexivity|]. split; [eexists _, _; reflexivity|].
  intros i Hi. do 3 (destruct i as [|i]; [cbn; lra|]). lia.
Qed.
