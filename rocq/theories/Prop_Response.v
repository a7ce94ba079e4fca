(* C102: the response of a supported panel to loads. *)
From Coq Require Import Reals List Arith Bool Lia Lra Permutation.
From Verif Require Import Base_Sum Model_Types Model_Coo Model_Result Model_Num Model_DB Model_Bardell Model_Shell Model_Field Model_Fext
  Spec_Algebra Spec_Kinematics Spec_Panel Spec_Shell Spec_Field Spec_Fext Spec_Modes Spec_Rigid Spec_Refine Spec_Pull Spec_Response
  Proof_Response Ex_Panel Ex_Exact Ex_Response.
From Coq Require Import List.
Import ListNotations.
Open Scope R_scope.

(* K comes from calc_kC and f from calc_fext: K c = f has a solution, and it displaces the panel *)
Theorem C102_exists : forall E A p N K L inc f, stiffness E A p N K -> elastic E p ->
  definite 6 (lam_matrix (pn_ortho p) (rebuilt_lam E p)) -> 0 < sh_a (pn_sh p) * sh_b (pn_sh p) ->
  (sh_m (pn_sh p) <= 30)%nat -> (sh_n (pn_sh p) <= 30)%nat -> anchored (curvature (chosen_model p) (kernel_view p)) (kernel_view p) ->
  load_vector E A p N K L inc f -> exists c U, length c = N /\ response E A p N K L inc c U.
Proof. intros E A p N K L inc f HS HE. exact (responds_exist E A p N K HS HE L inc f). Qed.
Print Assumptions C102_exists.

(* all solutions displace it by the same amount, everywhere *)
Theorem C102_unique : forall E A p N K L inc c U c' U', stiffness E A p N K -> elastic E p ->
  definite 6 (lam_matrix (pn_ortho p) (rebuilt_lam E p)) -> 0 < sh_a (pn_sh p) * sh_b (pn_sh p) ->
  (sh_m (pn_sh p) <= 30)%nat -> (sh_n (pn_sh p) <= 30)%nat -> anchored (curvature (chosen_model p) (kernel_view p)) (kernel_view p) ->
  response E A p N K L inc c U -> response E A p N K L inc c' U' -> forall k x y, (k < 3)%nat -> U k x y = U' k x y.
Proof. intros E A p N K L inc c U c' U' HS HE HD Hab Hm Hn HA HR HR'. exact (responds_once E A p N K HS HE L inc c U c' U' HD Hab Hm Hn HA HR HR'). Qed.
Print Assumptions C102_unique.

(* Betti: the first loads do the same work in the response to the second as the second in the response to the first *)
Theorem C102_reciprocity : forall E A p N K L1 L2 inc1 inc2 c1 c2 U1 U2, stiffness E A p N K ->
  response E A p N K L1 inc1 c1 U1 -> response E A p N K L2 inc2 c2 U2 -> load_work E p L1 inc1 U2 = load_work E p L2 inc2 U1.
Proof.
  intros E A p N K L1 L2 inc1 inc2 c1 c2 U1 U2 HS H1 H2.
  rewrite <- (respond _ _ _ _ _ _ _ _ _ _ _ (stiff_sym E A p N K HS) H1 (respond_shows _ _ _ _ _ _ _ _ _ H2)).
  rewrite <- (respond _ _ _ _ _ _ _ _ _ _ _ (stiff_sym E A p N K HS) H2 (respond_shows _ _ _ _ _ _ _ _ _ H1)).
  apply Proof_Modes.bilinear_swap. exact (stiff_sym E A p N K HS).
Qed.
Print Assumptions C102_reciprocity.
(* Maxwell: unit forces in the direction j at (x, y) and in the direction j' at (x', y') *)
Theorem C102_point_reciprocity : forall E A p N K j x y j' x' y' P inc1 inc2 c1 c2 U1 U2, stiffness E A p N K ->
  (j < 3)%nat -> (j' < 3)%nat -> P <> 0 ->
  response E A p N K (one_force j x y P) inc1 c1 U1 -> response E A p N K (one_force j' x' y' P) inc2 c2 U2 -> U1 j' x' y' = U2 j x y.
Proof.
  intros E A p N K j x y j' x' y' P inc1 inc2 c1 c2 U1 U2 HS Hj Hj' HP H1 H2.
  pose proof (C102_reciprocity E A p N K _ _ inc1 inc2 c1 c2 U1 U2 HS H1 H2) as H. rewrite !force_work in H by assumption.
  apply (Rmult_eq_reg_l P); [symmetry; exact H|exact HP].
Qed.
Print Assumptions C102_point_reciprocity.

(* the response has the least potential energy; the work of the loads is twice its strain energy and is not negative *)
Theorem C102_least_energy : forall E A p N K L inc c U, stiffness E A p N K -> elastic E p -> response E A p N K L inc c U ->
  (forall d V, displaces E p (ka_col0 A) d V ->
    / 2 * quad N K (vec c) - load_work E p L inc U <= / 2 * quad N K (vec d) - load_work E p L inc V) /\
  load_work E p L inc U = quad N K (vec c) /\ 0 <= load_work E p L inc U.
Proof.
  intros E A p N K L inc c U HS HE HR. split; [|split].
  - intros d V HV. pose proof (least E A p N K HS HE L inc c U d V HR HV). lra.
  - exact (own_work E A p N K HS L inc c U HR).
  - rewrite (own_work E A p N K HS L inc c U HR). exact (stiff_psd E A p N K HS HE (vec c)).
Qed.
Print Assumptions C102_least_energy.

(* more terms or fewer supports never reduce the work of forces at points *)
Theorem C102_more_terms : forall E A B p q N N' K K' L inc c U c' U', stiffness E A p N K -> stiffness E B q N' K' -> elastic E p -> elastic E q ->
  chosen_model q = chosen_model p -> same_laminate E p q -> freer (kernel_view p) (kernel_view q) ->
  (sh_m (pn_sh q) <= 30)%nat -> (sh_n (pn_sh q) <= 30)%nat -> at_points L ->
  response E A p N K L inc c U -> response E B q N' K' L inc c' U' -> load_work E p L inc U <= load_work E q L inc U'.
Proof.
  intros E A B p q N N' K K' L inc c U c' U' HK HK' HE HE' HM HL HF Hm Hn HP HR HR'.
  exact (freer_compliance E A B p q N N' K K' HK HK' HE HE' HM HF HL L inc c U c' U' Hm Hn HP HR HR').
Qed.
Print Assumptions C102_more_terms.
(* a stiffer laminate never increases the work of any loads *)
Theorem C102_stiffer_laminate : forall E A B p q N N' K K' L inc c U c' U', stiffness E A p N K -> stiffness E B q N' K' -> elastic E p -> elastic E q ->
  chosen_model q = chosen_model p -> stiffer_laminate E p q -> kernel_view q = kernel_view p ->
  response E A p N K L inc c U -> response E B q N' K' L inc c' U' -> load_work E q L inc U' <= load_work E p L inc U.
Proof.
  intros E A B p q N N' K K' L inc c U c' U' HK HK' HE HE' HM HL HV HR HR'.
  exact (stiffer_compliance E A B p q N N' K K' HK HK' HE HE' HM HV HL L inc c U c' U' HR HR').
Qed.
Print Assumptions C102_stiffer_laminate.
(* one force: the deflection under it, in its direction, is not against it, grows with terms and freedom and falls with stiffness *)
Theorem C102_under_a_force : forall E A B p q N N' K K' j x y inc c U c' U', stiffness E A p N K -> stiffness E B q N' K' -> elastic E p -> elastic E q ->
  chosen_model q = chosen_model p -> (j < 3)%nat -> (sh_m (pn_sh q) <= 30)%nat -> (sh_n (pn_sh q) <= 30)%nat ->
  response E A p N K (one_force j x y 1) inc c U -> response E B q N' K' (one_force j x y 1) inc c' U' ->
  0 <= U j x y /\ (same_laminate E p q -> freer (kernel_view p) (kernel_view q) -> U j x y <= U' j x y) /\
  (stiffer_laminate E p q -> kernel_view q = kernel_view p -> U' j x y <= U j x y).
Proof.
  intros E A B p q N N' K K' j x y inc c U c' U' HK HK' HE HE' HM Hj Hm Hn HR HR'.
  destruct (C102_least_energy E A p N K _ inc c U HK HE HR) as (_ & _ & H0). rewrite force_work, Rmult_1_l in H0 by exact Hj. split; [exact H0|]. split.
  - intros HL HF. pose proof (C102_more_terms E A B p q N N' K K' _ inc c U c' U' HK HK' HE HE' HM HL HF Hm Hn (force_points j x y 1) HR HR') as H.
    rewrite !force_work, !Rmult_1_l in H by exact Hj. exact H.
  - intros HL HV. pose proof (C102_stiffer_laminate E A B p q N N' K K' _ inc c U c' U' HK HK' HE HE' HM HL HV HR HR') as H.
    rewrite !force_work, !Rmult_1_l in H by exact Hj. exact H.
Qed.
Print Assumptions C102_under_a_force.

(* plates of 2 x 3: p clamped at x = 0 and held at x = a, q with more terms and clamped at x = 0 only, r as p and twice as stiff.
   Any force at a point has a response in each of them, and the theorems above apply to all three *)
Example C102_case : let p := plate 4 4 propped 1 in let q := plate 6 5 cantilever 1 in let r := plate 4 4 propped 2 in
  (forall z, In z [p; q; r] -> exists K, let N := (2 + ndof (pn_sh z))%nat in stiffness plate_env plate_args z N K /\ elastic plate_env z /\
     definite 6 (lam_matrix (pn_ortho z) (rebuilt_lam plate_env z)) /\ 0 < sh_a (pn_sh z) * sh_b (pn_sh z) /\
     anchored (curvature (chosen_model z) (kernel_view z)) (kernel_view z) /\
     forall j x y P inc, exists f c U, load_vector plate_env plate_args z N K (one_force j x y P) inc f /\ response plate_env plate_args z N K (one_force j x y P) inc c U) /\
  chosen_model q = chosen_model p /\ same_laminate plate_env p q /\ freer (kernel_view p) (kernel_view q) /\
  chosen_model r = chosen_model p /\ stiffer_laminate plate_env p r /\ kernel_view r = kernel_view p.
Proof.
  cbv zeta. split; [|exact plates_compare].
  assert (G : forall m n e k, (0 < m <= 30)%nat -> (0 < n <= 30)%nat -> 0 < k -> e = propped \/ e = cantilever -> let z := plate m n e k in exists K, let N := (2 + ndof (pn_sh z))%nat in stiffness plate_env plate_args z N K /\ elastic plate_env z /\
     definite 6 (lam_matrix (pn_ortho z) (rebuilt_lam plate_env z)) /\ 0 < sh_a (pn_sh z) * sh_b (pn_sh z) /\
     anchored (curvature (chosen_model z) (kernel_view z)) (kernel_view z) /\
     forall j x y P inc, exists f c U, load_vector plate_env plate_args z N K (one_force j x y P) inc f /\ response plate_env plate_args z N K (one_force j x y P) inc c U).
  { intros m n e k Hm Hn Hk He z. destruct (plate_ready m n e k Hm Hn Hk He) as (K & H1 & H2 & H3 & H4 & H5 & H6). exists K. intro N.
    repeat (split; [assumption|]). intros j x y P inc. destruct (H6 j x y P inc) as (f & HF).
    destruct (C102_exists plate_env plate_args z N K _ inc f H1 H2 H3 H4 ltac:(cbn; lia) ltac:(cbn; lia) H5 HF) as (c & U & _ & HR). exists f, c, U. split; assumption. }
  intros z [<-|[<-|[<-|[]]]]; apply G; auto; try lia; lra.
Qed.
