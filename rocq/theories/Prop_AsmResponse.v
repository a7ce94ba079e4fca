(* C103: the response of an assembly of connected panels to loads. *)
From Coq Require Import Reals List Arith Bool Lia Lra.
From Verif Require Import Base_Sum Model_Types Model_Coo Model_Result Model_Num Model_DB Model_Shell Model_Fext Model_Multi Model_New Model_TStiff Model_Cylinder
  Spec_Algebra Spec_Kinematics Spec_Panel Spec_Shell Spec_Bardell Spec_Integral Spec_Field Spec_Fext Spec_Multi Spec_MultiConn Spec_Modes Spec_Rigid Spec_Tied Spec_TStiff Spec_TStiffTied Spec_Response Spec_AsmResponse
  Proof_Response Proof_AsmResponse Proof_TStiffTied Proof_CylTied Ex_Exact Ex_Tied Ex_AsmResponse.
From Coq Require Import List.
Import ListNotations.
Open Scope R_scope.

(* every panel is held or connected to one that is: K c = f has a solution for any loads *)
Theorem C103_exists : forall E k arg w s L inc, stiff_assembly E k arg w s -> all_tied k w s -> (forall i, In i (as_panels s) -> added (L i)) ->
  exists K c U, length c = total_width (w_panel w) (as_panels s) /\ asm_response E arg w s K L inc c U.
Proof. intros E k arg w s L inc HG. exact (asm_exists E k arg w s HG L inc). Qed.
Print Assumptions C103_exists.
(* all solutions displace every panel by the same amount, everywhere *)
Theorem C103_unique : forall E k arg w s K L inc c U c' U', stiff_assembly E k arg w s -> all_tied k w s ->
  asm_response E arg w s K L inc c U -> asm_response E arg w s K L inc c' U' ->
  forall i j x y, In i (as_panels s) -> (j < 3)%nat -> U i j x y = U' i j x y.
Proof. intros E k arg w s K L inc c U c' U' HG HT HR HR' i j x y Hi Hj. exact (asm_once E k arg w s HG K L inc c U c' U' HT HR HR' i Hi j x y Hj). Qed.
Print Assumptions C103_unique.

(* loads on any panels do the same work in the response to each other *)
Theorem C103_reciprocity : forall E k arg w s K L1 L2 inc1 inc2 c1 c2 U1 U2, stiff_assembly E k arg w s ->
  asm_response E arg w s K L1 inc1 c1 U1 -> asm_response E arg w s K L2 inc2 c2 U2 -> asm_work E w s L1 inc1 U2 = asm_work E w s L2 inc2 U1.
Proof. intros E k arg w s K L1 L2 inc1 inc2 c1 c2 U1 U2 HG. exact (asm_betti E k arg w s HG K L1 L2 inc1 inc2 c1 c2 U1 U2). Qed.
Print Assumptions C103_reciprocity.
(* a force on panel i and the same force on panel i' *)
Theorem C103_point_reciprocity : forall E k arg w s K i j x y i' j' x' y' P inc1 inc2 c1 c2 U1 U2, stiff_assembly E k arg w s ->
  In i (as_panels s) -> In i' (as_panels s) -> (j < 3)%nat -> (j' < 3)%nat -> P <> 0 ->
  asm_response E arg w s K (force_on i j x y P) inc1 c1 U1 -> asm_response E arg w s K (force_on i' j' x' y' P) inc2 c2 U2 -> U1 i' j' x' y' = U2 i j x y.
Proof.
  intros E k arg w s K i j x y i' j' x' y' P inc1 inc2 c1 c2 U1 U2 HG Hi Hi' Hj Hj' HP H1 H2. pose proof HG as ((_ & ND & _) & _).
  pose proof (C103_reciprocity E k arg w s K _ _ inc1 inc2 c1 c2 U1 U2 HG H1 H2) as H. rewrite !asm_force_work in H by assumption.
  apply (Rmult_eq_reg_l P); [symmetry; exact H|exact HP].
Qed.
Print Assumptions C103_point_reciprocity.

(* the response has the least potential energy, and the work of the loads is not negative *)
Theorem C103_least_energy : forall E k arg w s K L inc c U, stiff_assembly E k arg w s -> asm_response E arg w s K L inc c U ->
  let size := total_width (w_panel w) (as_panels s) in
  (forall d V, asm_shows E w s d V ->
    / 2 * quad size K (vec c) - asm_work E w s L inc U <= / 2 * quad size K (vec d) - asm_work E w s L inc V) /\
  asm_work E w s L inc U = quad size K (vec c) /\ 0 <= asm_work E w s L inc U.
Proof.
  intros E k arg w s K L inc c U HG HR size. split; [|split].
  - intros d V HV. pose proof (asm_least E k arg w s HG K L inc c U (vec d) V HR (shows_disp E w s d V HV)). unfold size. lra.
  - exact (asm_own_work E k arg w s HG K L inc c U HR).
  - rewrite (asm_own_work E k arg w s HG K L inc c U HR). destruct (resp_inv E k arg w s HG K L inc c U HR) as (_ & PK & _). exact (PK (vec c)).
Qed.
Print Assumptions C103_least_energy.

(* the same panels with more connections: the work of the loads does not increase *)
Theorem C103_more_connections : forall E k k' arg arg' w w' s s' extra K K' L inc c U c' U', stiff_assembly E k arg w s -> stiff_assembly E k' arg' w' s' ->
  w_panel w' = w_panel w -> as_panels s' = as_panels s -> w_conn w' k' = w_conn w k ++ extra ->
  asm_response E arg w s K L inc c U -> asm_response E arg' w' s' K' L inc c' U' ->
  asm_work E w' s' L inc U' <= asm_work E w s L inc U.
Proof.
  intros E k k' arg arg' w w' s s' extra K K' L inc c U c' U' HG HG' Hp Hi Hc HR HR'.
  exact (more_connections E k k' arg arg' w w' s s' extra HG HG' Hp Hi Hc K K' L inc c U c' U' HR HR').
Qed.
Print Assumptions C103_more_connections.
(* under a single force: its point does not move against it, and moves no more with more connections *)
Theorem C103_under_a_force : forall E k k' arg arg' w w' s s' extra K K' i j x y inc c U c' U', stiff_assembly E k arg w s -> stiff_assembly E k' arg' w' s' ->
  w_panel w' = w_panel w -> as_panels s' = as_panels s -> w_conn w' k' = w_conn w k ++ extra -> In i (as_panels s) -> (j < 3)%nat ->
  asm_response E arg w s K (force_on i j x y 1) inc c U -> asm_response E arg' w' s' K' (force_on i j x y 1) inc c' U' ->
  0 <= U' i j x y <= U i j x y.
Proof.
  intros E k k' arg arg' w w' s s' extra K K' i j x y inc c U c' U' HG HG' Hp Hs Hc Hi Hj HR HR'. pose proof HG as ((_ & ND & _) & _). pose proof HG' as ((_ & ND' & _) & _).
  pose proof (C103_more_connections E k k' arg arg' w w' s s' extra K K' _ inc c U c' U' HG HG' Hp Hs Hc HR HR') as H1.
  destruct (C103_least_energy E k' arg' w' s' K' _ inc c' U' HG' HR') as (_ & _ & H0).
  assert (Hi' : In i (as_panels s')) by (rewrite Hs; exact Hi). rewrite !asm_force_work in H1 by assumption. rewrite asm_force_work in H0 by assumption. lra.
Qed.
Print Assumptions C103_under_a_force.

(* the ready-made assemblies satisfy these conditions: the cylinders, also as the drivers release and load them *)
Theorem C103_cylinder : forall height r stack plyt laminaprop n m n' k q w E M, 0 < height -> 0 < r -> stack <> [] -> laminaprop <> [] ->
  (0 < m <= M)%nat -> (0 < n' <= M)%nat -> (M <= 30)%nat ->
  sturdy (e_lib E stack (map (fun _ => plyt) stack) (map (fun _ => laminaprop) stack) (map (fun _ => 0) stack) 0) ->
  tables_integrate (e_tables E) exact_basis M ->
  let create := create_cylinder_assy height r stack plyt laminaprop n m n' k q w in
  forall W s, create = (W, Ok s) \/
    (exists W0 Nxxs, create = (W0, Ok s) /\ W = set_constant_loads n k Nxxs W0) \/
    (exists Nxxs, cylinder_static_world height r stack plyt laminaprop n m n' k q Nxxs w = Ok (W, s)) \/
    (exists Nxx SPLA, cylinder_spla_world height r stack plyt laminaprop n m n' k q Nxx SPLA w = Ok (W, s)) ->
  stiff_assembly E q (Some q) W s /\ all_tied q W s.
Proof.
  intros height r stack plyt laminaprop n m n' k q w E M Hh Hr Hst Hlp Hm Hn HM HL HT create W s H.
  exact (proj2 (cyl_response height r stack plyt laminaprop n m n' k q w E M Hh Hr Hst Hlp Hm Hn HL HM HT W s H)).
Qed.
Print Assumptions C103_cylinder.
Theorem C103_blades : forall height r stack stack_blades width_blades plyt laminaprop n m n' k q w E M, 0 < height -> 0 < r -> stack <> [] -> laminaprop <> [] ->
  (0 < m <= M)%nat -> (0 < n' <= M)%nat -> (M <= 30)%nat ->
  (forall i, (i < n)%nat -> nth i stack_blades [] <> [] /\ 0 < nth i width_blades 0) ->
  (forall st, st = stack \/ In st stack_blades -> sturdy (e_lib E st (map (fun _ => plyt) st) (map (fun _ => laminaprop) st) (map (fun _ => 0) st) 0)) ->
  tables_integrate (e_tables E) exact_basis M ->
  forall W s, create_cylinder_blade_stiffened height r stack plyt laminaprop n m n' stack_blades width_blades k q w = (W, Ok s) \/
    (exists Nskin Nblade, cylinder_blade_static_world height r stack stack_blades width_blades plyt laminaprop n m n' k q Nskin Nblade w = Ok (W, s)) ->
  stiff_assembly E q (Some q) W s /\ all_tied q W s.
Proof.
  intros height r stack stack_blades width_blades plyt laminaprop n m n' k q w E M Hh Hr Hst Hlp Hm Hn HM HB HL HT W s H.
  exact (proj2 (blade_response height r stack stack_blades width_blades plyt laminaprop n m n' k q w E M Hh Hr Hst Hlp Hm Hn HB HL HM HT W s H)).
Qed.
Print Assumptions C103_blades.
(* and the T-stiffened panel *)
Theorem C103_tstiffened : forall D k q w E M, well_sized D -> material_given E D M -> resistant E D -> ts_r D <> Some 0 -> (M <= 30)%nat ->
  tables_integrate (e_tables E) exact_basis M ->
  let W := fst (create_tstiff D k q w) in let s := snd (create_tstiff D k q w) in
  stiff_assembly E q (Some q) W s /\ all_tied q W s.
Proof. intros D k q w E M HD HM HS HR H30 HT W s. exact (ts_built D k q w E M HD HM HS HR H30 HT). Qed.
Print Assumptions C103_tstiffened.

(* the three panels of C98: any force on any panel has a response, also if a connection is made twice *)
Example C103_case : stiff_assembly exact_env 0 None three_world three_asm /\ all_tied 0 three_world three_asm /\
  stiff_assembly exact_env 0 None doubled_world three_asm /\ all_tied 0 doubled_world three_asm /\
  (exists extra, extra <> [] /\ w_conn doubled_world 0 = w_conn three_world 0 ++ extra) /\
  forall i j x y P inc, (exists K c U, asm_response exact_env None three_world three_asm K (force_on i j x y P) inc c U) /\
    exists K c U, asm_response exact_env None doubled_world three_asm K (force_on i j x y P) inc c U.
Proof.
  destruct three_stiff as [A1 A2]. destruct doubled_stiff as [B1 B2]. repeat (split; [assumption|]). split.
  - eexists. split; [|cbn [w_conn doubled_world]; rewrite three_conn; reflexivity]. discriminate.
  - intros i j x y P inc. split.
    + destruct (C103_exists _ _ _ _ _ (force_on i j x y P) inc A1 A2 (fun i' _ => force_added i j x y P i')) as (K & c & U & _ & H). exists K, c, U. exact H.
    + destruct (C103_exists _ _ _ _ _ (force_on i j x y P) inc B1 B2 (fun i' _ => force_added i j x y P i')) as (K & c & U & _ & H). exists K, c, U. exact H.
Qed.
