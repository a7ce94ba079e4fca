(* C111: the lowest buckling load and the lowest frequency of an assembly of connected panels. *)
From Coq Require Import Reals List Arith Bool Lia Lra.
From Verif Require Import Base_Sum Model_Types Model_Coo Model_Result Model_Num Model_DB Model_Shell Model_Multi Model_New Model_Cylinder
  Spec_Algebra Spec_Kinematics Spec_Panel Spec_Shell Spec_Bardell Spec_Integral Spec_Modes Spec_Rigid Spec_Multi Spec_MultiConn Spec_Tied Spec_AsmResponse Spec_Limit Spec_LimitAsm
  Proof_AsmResponse Proof_Limit Proof_LimitPanel Proof_CylTied Proof_LimitAsm Proof_LimitCyl Prop_AsmResponse Ex_Panel Ex_Exact Ex_LimitAsm.
From Coq Require Import List.
Import ListNotations.
Open Scope R_scope.

(* K comes from the calc_kC of an assembly whose panels are held or connected to held ones, and G from the calc_kG of the same panels in
   any later state: unless no displacement releases work of the loads, there is a lowest load factor at which the assembly buckles *)
Theorem C111_lowest_buckling_load : forall E k arg w s w' s' K wg sg wg' sg' G, stiff_assembly E k arg w s -> all_tied k w s -> same_layout w s wg sg ->
  let size := total_width (w_panel w) (as_panels s) in
  asm_kC E exact_basis arg None true w s = (w', s', Ok (Some K)) -> asm_kG E None true wg sg = (wg', sg', Ok (Some G)) ->
  (exists x, quad size G x < 0) -> exists l z, first_load (asm_displaced w s) size K G l z.
Proof. intros E k arg w s w' s' K wg sg wg' sg' G HG HT HL size. exact (asm_first_load E k arg w s HG HT wg sg HL w' s' K wg' sg' G). Qed.
Print Assumptions C111_lowest_buckling_load.
(* calc_kC and then calc_kG on the same object succeed, and a compressed assembly buckles at some load *)
Theorem C111_compressed_assemblies_buckle : forall E k arg w s, stiff_assembly E k arg w s -> all_tied k w s -> compressed_assembly w s ->
  exists w1 s1 K w2 s2 G l z, asm_kC E exact_basis arg None true w s = (w1, s1, Ok (Some K)) /\ asm_kG E None true w1 s1 = (w2, s2, Ok (Some G)) /\
    first_load (asm_displaced w s) (total_width (w_panel w) (as_panels s)) K G l z.
Proof. intros E k arg w s HG HT. exact (in_turn E k arg w s HG HT). Qed.
Print Assumptions C111_compressed_assemblies_buckle.
(* no panel has a negative mass, and one of them weighs: the assembly has a lowest frequency *)
Theorem C111_lowest_frequency : forall E k arg w s w' s' K wg sg wg' sg' M, stiff_assembly E k arg w s -> all_tied k w s -> same_layout w s wg sg ->
  let size := total_width (w_panel w) (as_panels s) in let mass i := pn_rho (xp (w_panel wg i)) * fold_left Rplus (pn_plyts (xp (w_panel wg i))) 0 in
  asm_kC E exact_basis arg None true w s = (w', s', Ok (Some K)) -> asm_kM E true wg sg = (wg', sg', Ok (Some M)) ->
  (forall i, In i (as_panels s) -> 0 <= mass i) ->
  (exists i, In i (as_panels s) /\ 0 < mass i /\ (5 <= sh_m (geometry (w_panel w) i))%nat /\ (5 <= sh_n (geometry (w_panel w) i))%nat) ->
  exists l z, first_frequency (asm_displaced w s) size K M l z.
Proof. intros E k arg w s w' s' K wg sg wg' sg' M HG HT HL size mass. exact (asm_first_frequency E k arg w s HG HT wg sg HL w' s' K wg' sg' M). Qed.
Print Assumptions C111_lowest_frequency.
(* the same panels with more connections neither buckle earlier nor vibrate more slowly *)
Theorem C111_connections_raise_both : forall E k k' arg arg' w w2 s s2 extra w' s' K w2' s2' K2, stiff_assembly E k arg w s -> stiff_assembly E k' arg' w2 s2 ->
  w_panel w2 = w_panel w -> as_panels s2 = as_panels s -> w_conn w2 k' = w_conn w k ++ extra ->
  let size := total_width (w_panel w) (as_panels s) in
  asm_kC E exact_basis arg None true w s = (w', s', Ok (Some K)) -> asm_kC E exact_basis arg' None true w2 s2 = (w2', s2', Ok (Some K2)) ->
  (forall G l z l2 z2, first_load (asm_displaced w s) size K G l z -> first_load (asm_displaced w2 s2) size K2 G l2 z2 -> l <= l2) /\
  (forall M l z l2 z2, first_frequency (asm_displaced w s) size K M l z -> first_frequency (asm_displaced w2 s2) size K2 M l2 z2 -> l <= l2).
Proof.
  intros E k k' arg arg' w w2 s s2 extra w' s' K w2' s2' K2 HG HG2 Hp Hi Hc size HK HK2.
  pose proof (fun d => quad_more E k k' arg arg' w w2 s s2 extra HG HG2 Hp Hi Hc w' s' K w2' s2' K2 d HK HK2) as HQ. split.
  - intros G l z l2 z2 F F2. refine (stable_below _ _ _ _ _ _ _ F2 _). intro c. pose proof (fl_limit _ _ _ _ _ _ F c). pose proof (HQ c). unfold size in *. lra.
  - intros M l z l2 z2 F F2. refine (frequencies_below _ _ _ _ _ _ _ F2 _). intro c. pose proof (ff_quotient _ _ _ _ _ _ F c). pose proof (HQ c). unfold size in *. lra.
Qed.
Print Assumptions C111_connections_raise_both.
(* the driver that compresses a cylinder with constant loads hands the solver matrices with a lowest buckling load *)
Theorem C111_cylinder : forall height r stack plyt laminaprop n m n' k q w E M Nxxs, 0 < height -> 0 < r -> stack <> [] -> laminaprop <> [] ->
  (2 <= n)%nat -> (5 <= m <= M)%nat -> (5 <= n' <= M)%nat -> (M <= 30)%nat ->
  sturdy (e_lib E stack (map (fun _ => plyt) stack) (map (fun _ => laminaprop) stack) (map (fun _ => 0) stack) 0) ->
  tables_integrate (e_tables E) exact_basis M ->
  length Nxxs = n -> (forall i, (i < n)%nat -> nth i Nxxs 0 <= 0) -> (exists i, (i < n)%nat /\ nth i Nxxs 0 < 0) ->
  exists W s K G l z, create_cylinder_assy height r stack plyt laminaprop n m n' k q w = (W, Ok s) /\
    cylinder_lb_Nxx_cte height r stack plyt laminaprop n m n' E exact_basis k q Nxxs w = Ok (mkLb (Some K) (Some G)) /\
    let W1 := set_constant_loads n k Nxxs W in first_load (asm_displaced W1 s) (total_width (w_panel W1) (as_panels s)) K G l z.
Proof.
  intros height r stack plyt laminaprop n m n' k q w E M Nxxs Hh Hr Hst Hlp H2 Hm Hn HM HL HT HN HX HX0.
  destruct (create_cylinder_assy height r stack plyt laminaprop n m n' k q w) as [W [s|e]] eqn:EC; [|unfold create_cylinder_assy in EC; destruct (Nat.ltb_spec n 2); [lia|discriminate]].
  destruct (C103_cylinder height r stack plyt laminaprop n m n' k q w E M Hh Hr Hst Hlp ltac:(lia) ltac:(lia) HM HL HT (set_constant_loads n k Nxxs W) s) as [HG HA].
  { right. left. exists W, Nxxs. split; [exact EC|reflexivity]. }
  destruct (in_turn E q (Some q) _ s HG HA) as (w1 & s1 & K & w2 & s2 & G & l & z & R1 & R2 & F).
  { apply (cte_compressed height r stack plyt laminaprop n m n' k q w); [exact EC|exact HX|exact HX0|lia|lia]. }
  exists W, s, K, G, l, z. split; [reflexivity|]. split; [|exact F]. unfold cylinder_lb_Nxx_cte. rewrite EC, HN, Nat.eqb_refl. cbn [negb]. rewrite R1, R2. reflexivity.
Qed.
Print Assumptions C111_cylinder.

(* a cylinder of three panels, two of them compressed: it buckles, not earlier if every connection is made twice, and it vibrates once its
   panels have a mass *)
Example C111_case : exists w1 s1 K w2 s2 G w3 s3 K2 w4 s4 M l z l2 z2 f y, let size := total_width (w_panel ex_world) (as_panels ex_asm) in
  asm_kC exact_env exact_basis (Some 0%nat) None true ex_world ex_asm = (w1, s1, Ok (Some K)) /\ asm_kG exact_env None true w1 s1 = (w2, s2, Ok (Some G)) /\
  asm_kC exact_env exact_basis (Some 0%nat) None true (twice 0 ex_world) ex_asm = (w3, s3, Ok (Some K2)) /\ asm_kM exact_env true (weighed ex_world) ex_asm = (w4, s4, Ok (Some M)) /\
  first_load (asm_displaced ex_world ex_asm) size K G l z /\ first_load (asm_displaced (twice 0 ex_world) ex_asm) size K2 G l2 z2 /\ l <= l2 /\
  first_frequency (asm_displaced ex_world ex_asm) size K M f y /\ size = 225%nat.
Proof.
  destruct ex_stiff as [HG HT]. destruct (twice_stiff _ _ _ _ _ HG HT) as [HG2 HT2].
  destruct (C111_compressed_assemblies_buckle _ _ _ _ _ HG HT ex_compressed) as (w1 & s1 & K & w2 & s2 & G & l & z & R1 & R2 & F).
  destruct (asm_facts _ _ _ _ _ HG2) as (w3 & s3 & K2 & R3 & _). pose proof (weighed_layout _ _ _ _ _ HG) as HL. destruct (weighed_runs exact_env ex_world ex_asm (proj1 (proj2 HL))) as (w4 & s4 & M & R4).
  destruct (kC_layout _ _ _ _ _ HG _ _ _ R1) as (HL1 & HN).
  destruct (C111_lowest_buckling_load exact_env 0%nat (Some 0%nat) (twice 0 ex_world) ex_asm w3 s3 K2 w1 s1 w2 s2 G HG2 HT2 HL1 R3 R2) as (l2 & z2 & F2).
  { exact (geo_pushed _ _ _ _ _ HG w1 s1 HL1 _ _ _ (compressed_kept _ _ w1 s1 (proj1 HL1) HN ex_compressed) R2). }
  destruct (C111_lowest_frequency exact_env 0%nat (Some 0%nat) ex_world ex_asm w1 s1 K (weighed ex_world) ex_asm w4 s4 M HG HT HL R1 R4) as (f & y & F3).
  { intros i _. cbn [w_panel weighed with_panel xp weigh pn_rho pn_plyts fold_left]. lra. }
  { destruct ex_compressed as (_ & i & Nxx & Nyy & Hi & _ & _ & Hm & Hn). exists i. split; [exact Hi|]. split; [cbn [w_panel weighed with_panel xp weigh pn_rho pn_plyts fold_left]; lra|]. auto. }
  exists w1, s1, K, w2, s2, G, w3, s3, K2, w4, s4, M, l, z, l2, z2, f, y. cbv zeta. repeat (split; [assumption|]). split.
  { exact (proj1 (C111_connections_raise_both _ _ _ _ _ _ _ _ _ _ _ _ _ _ _ _ HG HG2 eq_refl eq_refl (twice_conn 0 ex_world) R1 R3) G l z l2 z2 F F2). }
  split; [exact F3|reflexivity].
Qed.
