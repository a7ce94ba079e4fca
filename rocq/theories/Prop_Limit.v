(* C108: the lowest buckling load and the lowest frequency of a held panel. *)
From Coq Require Import Reals List Arith Bool Lia Lra.
From Verif Require Import Base_Sum Model_Types Model_Coo Model_Result Model_Num Model_DB Model_Bardell Model_Shell Model_Field
  Spec_Algebra Spec_Kinematics Spec_Panel Spec_Shell Spec_Bardell Spec_Integral Spec_Modes Spec_Rigid Spec_Refine Spec_BayResponse Spec_BayModes Spec_Limit
  Proof_Indep Proof_LimitPanel Prop_Refine Ex_Panel Ex_Exact Ex_Response Ex_Limit.
From Coq Require Import List.
Import ListNotations.
Open Scope R_scope.

(* K comes from calc_kC and G from calc_kG for uniform membrane forces: unless no displacement releases work of the load, there is a
   lowest load at which the panel buckles. Below it the panel is stable, above it is not *)
Theorem C108_lowest_buckling_load : forall E A p N K A' q G, stiffness E A p N K -> fixed_panel E p ->
  geometric E A' p (ka_col0 A) q G -> uniform_loads A' -> (exists x, quad N G x < 0) ->
  exists l z, first_load (displaced p (ka_col0 A)) N K G l z.
Proof.
  intros E A p N K A' q G HS HH HG HU HX. apply (panel_first_load E A p N K HS HH A' q G HG); [|exact HX].
  intros z d. exact (uniform_still E A p N K HS HH A' q G z d HG HU).
Qed.
Print Assumptions C108_lowest_buckling_load.
(* with the membrane forces of a state, integrated numerically *)
Theorem C108_lowest_buckling_load_of_state : forall E A p N K A' q G, stiffness E A p N K -> fixed_panel E p ->
  geometric E A' p (ka_col0 A) q G -> ka_c A' <> None \/ ka_NL A' = true -> laminate_ok (points_x A' q) (points_y A' q) (laminate_used E A' q) ->
  e_basis E = exact_basis \/ e_basis E = vec_basis -> (exists x, quad N G x < 0) ->
  exists l z, first_load (displaced p (ka_col0 A)) N K G l z.
Proof.
  intros E A p N K A' q G HS HH HG HU HL HB HX. apply (panel_first_load E A p N K HS HH A' q G HG); [|exact HX].
  intros z d. apply (state_still E A p N K HS HH A' q G z d HG HU HL). destruct HB as [-> | ->]; [exact exact_flagged|exact vec_flagged].
Qed.
Print Assumptions C108_lowest_buckling_load_of_state.
(* five terms or more in each direction and compression along x: it buckles *)
Theorem C108_compressed_panels_buckle : forall E A p N K A' q G Nxx Nyy, stiffness E A p N K -> fixed_panel E p ->
  geometric E A' p (ka_col0 A) q G -> uniform_loads A' -> pn_N q = (Nxx, Nyy, 0) -> Nxx < 0 -> Nyy <= 0 ->
  (5 <= sh_m (pn_sh p))%nat -> (5 <= sh_n (pn_sh p))%nat -> exists l z, first_load (displaced p (ka_col0 A)) N K G l z.
Proof. intros E A p N K A' q G Nxx Nyy HS HH. exact (compressed_first_load E A p N K HS HH A' q G Nxx Nyy). Qed.
Print Assumptions C108_compressed_panels_buckle.

(* M comes from calc_kM: the panel has a lowest frequency, the least quotient of the energies, and it is not zero *)
Theorem C108_lowest_frequency : forall E A p N K q M, stiffness E A p N K -> fixed_panel E p -> inertia E p (ka_col0 A) q M ->
  0 < pn_rho q * fold_left Rplus (pn_plyts q) 0 -> (exists x, displaced p (ka_col0 A) x) ->
  exists l z, first_frequency (displaced p (ka_col0 A)) N K M l z.
Proof. intros E A p N K q M HS HH. exact (panel_first_frequency E A p N K HS HH q M). Qed.
Print Assumptions C108_lowest_frequency.
(* with five terms or more in each direction some point moves whatever the supports *)
Theorem C108_panels_vibrate : forall E A p N K q M, stiffness E A p N K -> fixed_panel E p -> inertia E p (ka_col0 A) q M ->
  0 < pn_rho q * fold_left Rplus (pn_plyts q) 0 -> (5 <= sh_m (pn_sh p))%nat -> (5 <= sh_n (pn_sh p))%nat ->
  exists l z, first_frequency (displaced p (ka_col0 A)) N K M l z.
Proof.
  intros E A p N K q M HS HH HM Hr Hm Hn. apply (panel_first_frequency E A p N K HS HH q M HM Hr).
  eexists. exact (bubble_moves A p Hm Hn).
Qed.
Print Assumptions C108_panels_vibrate.

(* more terms or fewer supports never raise the lowest buckling load and the lowest frequency *)
Theorem C108_more_terms : forall E p q o o' N N' K G M K' G' M', matrices E p o N K G M -> matrices E q o' N' K' G' M' ->
  same_material p q -> same_laminate E p q -> freer (kernel_view p) (kernel_view q) ->
  (forall l z l' z', first_load (displaced p o) N K G l z -> first_load (displaced q o') N' K' G' l' z' -> l' <= l) /\
  (forall l z l' z', first_frequency (displaced p o) N K M l z -> first_frequency (displaced q o') N' K' M' l' z' -> l' <= l).
Proof.
  intros E p q o o' N N' K G M K' G' M' H H' HM HL HF. split; intros l z l' z' F F'; destruct (C96_frequencies E p q o o' N N' K G M K' G' M' H H' HM HL HF l') as [A1 A2].
  - refine (stable_below _ _ _ _ _ _ _ F (A2 _)). intro c. apply (fl_limit _ _ _ _ _ _ F').
  - refine (frequencies_below _ _ _ _ _ _ _ F (A1 _)). intro c. apply (ff_quotient _ _ _ _ _ _ F').
Qed.
Print Assumptions C108_more_terms.
(* a stiffer laminate never lowers them *)
Theorem C108_stiffer_laminate : forall E p q o o' N N' K G M K' G' M', matrices E p o N K G M -> matrices E q o' N' K' G' M' ->
  same_material p q -> stiffer_laminate E p q -> kernel_view q = kernel_view p -> 0 <= sh_a (pn_sh p) * sh_b (pn_sh p) ->
  (forall l z l' z', first_load (displaced p o) N K G l z -> first_load (displaced q o') N' K' G' l' z' -> l <= l') /\
  (forall l z l' z', first_frequency (displaced p o) N K M l z -> first_frequency (displaced q o') N' K' M' l' z' -> l <= l').
Proof.
  intros E p q o o' N N' K G M K' G' M' H H' HM HL HV Hab. split; intros l z l' z' F F'; destruct (C96_stiffer_laminate E p q o o' N N' K G M K' G' M' H H' HM HL HV Hab l) as [A1 A2].
  - refine (stable_below _ _ _ _ _ _ _ F' (A2 _)). intro c. apply (fl_limit _ _ _ _ _ _ F).
  - refine (frequencies_below _ _ _ _ _ _ _ F' (A1 _)). intro c. apply (ff_quotient _ _ _ _ _ _ F).
Qed.
Print Assumptions C108_stiffer_laminate.

(* a plate of 2 x 3 held along x = 0 under the compressions 1 along x and 1/2 along y, with 6 x 5 terms: it buckles, and it vibrates *)
Example C108_case : let p := plate 6 5 cantilever 1 in exists K G M l z w y, let N := (2 + ndof (pn_sh p))%nat in
  stiffness plate_env plate_args p N K /\ fixed_panel plate_env p /\ geometric plate_env plate_args p 2 (squeezed 6 5 cantilever 1) G /\
  inertia plate_env p 2 (squeezed 6 5 cantilever 1) M /\ first_load (displaced p 2) N K G l z /\ first_frequency (displaced p 2) N K M w y.
Proof.
  intro p. destruct (squeezed_ready 6 5 cantilever 1 ltac:(lia) ltac:(lia) ltac:(lra) ltac:(right; reflexivity)) as (K & G & M & H1 & H2 & H3 & H4 & H5 & H6).
  destruct (C108_compressed_panels_buckle _ _ _ _ _ _ _ _ (-1) (-1/2) H1 H2 H3 H4 ltac:(reflexivity) ltac:(lra) ltac:(lra) ltac:(cbn; lia) ltac:(cbn; lia)) as (l & z & HL).
  destruct (C108_panels_vibrate _ _ _ _ _ _ _ H1 H2 H5 H6 ltac:(cbn; lia) ltac:(cbn; lia)) as (w & y & HW).
  exists K, G, M, l, z, w, y. repeat (split; [assumption|]). assumption.
Qed.
