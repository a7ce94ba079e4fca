(* C52, C58, C59, C60: ready-made cylinders. *)
From Coq Require Import Reals List Arith Bool Lra Lia Relations.
From Coquelicot Require Import Coquelicot.
From Verif Require Import Base_Sum Model_Types Model_Coo Model_Result Model_Num Model_DB Model_Shell Model_Fext Model_Multi Model_New Model_Cylinder
  Spec_Algebra Spec_Integral Spec_Panel Spec_Shell Spec_Fext Spec_Conn Spec_Multi Spec_MultiConn Spec_Cylinder Proof_Cylinder Proof_CylBlade Ex_Panel Ex_Exact Ex_Multi Spec_Bardell.
Import ListNotations.
Open Scope R_scope.

(* ------------------------------------------------- C52 *)
(* n panels of the width 2 pi r / n; the panel i ends where the next one begins, and the last where the first begins *)
Theorem C52_panels_form_a_ring : forall height r stack plyt laminaprop n m n' k q w, (2 <= n)%nat ->
  exists w' s, create_cylinder_assy height r stack plyt laminaprop n m n' k q w = (w', Ok s) /\
    assembled w' s /\ as_panels s = seq k n /\
    (forall i, (i < n)%nat -> let p := xp (w_panel w' (k + i)) in
      sh_a (pn_sh p) = height /\ sh_b (pn_sh p) = 2 * PI * r / INR n /\ pn_r p = Some r /\ pn_stack p = stack) /\
    suml (as_panels s) (fun i => sh_b (pn_sh (xp (w_panel w' i)))) = 2 * PI * r /\
    length (w_conn w' q) = n /\
    (forall i d, (i < n)%nat -> joins (nth i (w_conn w' q) d) (k + i) (2 * PI * r / INR n) (k + next n i) 0) /\
    (forall i, (i < n)%nat -> length (filter (touches (k + i)) (w_conn w' q)) = 2%nat) /\
    (forall i j, (i < n)%nat -> (j < n)%nat -> linked (w_conn w' q) (k + i) (k + j)).
Proof.
  intros height r stack plyt laminaprop n m n' k q w Hn.
  exists (cyl_world height r stack plyt laminaprop n m n' k q w), (cyl_asm n k).
  split; [apply cyl_create; exact Hn|]. split; [apply cyl_assembled; exact Hn|]. split; [reflexivity|]. split.
  { intros i Hi. cbv zeta. destruct (cyl_panel height r stack plyt laminaprop n m n' k q w i Hi) as (E & _). rewrite E. split; [|split; [|split]]; reflexivity. }
  split; [apply cyl_circumference; exact Hn|]. rewrite cyl_conn by exact Hn. split; [rewrite map_length, seq_length; reflexivity|]. split.
  { intros i d Hi. rewrite ring_nth by exact Hi. apply ring_joins; assumption. }
  split; [intros i Hi; apply ring_degree; assumption|]. intros i j Hi Hj. apply ring_linked; assumption.
Qed.
Print Assumptions C52_panels_form_a_ring.
Example C52_case : exists w' s, create_cylinder_assy 1 2 [0] (1/8) [1; 2; 3] 5 1 1 0 0 (mkWorld (fun _ => mkXp (ex_panel None) 0 no_loads None None) (fun _ => [])) = (w', Ok s) /\
  map (fun cn => (cn_p1 cn, cn_p2 cn)) (w_conn w' 0) = [(0, 1); (1, 2); (2, 3); (3, 4); (0, 4)]%nat.
Proof. eexists. eexists. split; reflexivity. Qed.

(* the springs of the seams: no energy for displacements that go on smoothly around the cylinder, the closing seam included *)
Theorem C52_seams_of_the_ring : forall height r stack plyt laminaprop n m n' k q w E Bs M, (2 <= n)%nat -> (0 < m <= M)%nat -> (0 < n' <= M)%nat ->
  0 < height -> 0 < r -> stack <> [] -> laminaprop <> [] ->
  stiff (e_lib E stack (map (fun _ => plyt) stack) (map (fun _ => laminaprop) stack) (map (fun _ => 0) stack) 0) ->
  tables_integrate (e_tables E) Bs M ->
  exists w' s w2 s2 K, create_cylinder_assy height r stack plyt laminaprop n m n' k q w = (w', Ok s) /\
    get_kC_conn E Bs (Some q) true w' s = (w2, s2, Ok (CMat (n * (3 * m * n')) K)) /\
    (forall i j, K i j = K j i) /\
    (forall c d, exists Ws, Forall2 (fun cn => conn_work E Bs (w_panel w') cn c d) (w_conn w' q) Ws /\ bilinear (n * (3 * m * n')) K c d = suml Ws (fun W => W)) /\
    (forall c, 0 <= quad (n * (3 * m * n')) K c) /\
    (forall c, (forall i, (i < n)%nat -> agree Bs (w_panel w') c (k + i) (2 * PI * r / INR n) (k + next n i) 0 height) -> forall d, bilinear (n * (3 * m * n')) K c d = 0).
Proof.
  intros height r stack plyt laminaprop n m n' k q w E Bs M Hn Hm Hn' Hh Hr Hst Hlp Hlam HT.
  destruct (cyl_seams height r stack plyt laminaprop n m n' k q w E Bs M Hn Hm Hn' Hh Hr Hst Hlp Hlam HT) as (w2 & s2 & K & G).
  exists (cyl_world height r stack plyt laminaprop n m n' k q w), (cyl_asm n k), w2, s2, K. split; [apply cyl_create; exact Hn|]. exact G.
Qed.
Print Assumptions C52_seams_of_the_ring.
Example C52_seams_case : stiff (e_lib exact_env [0] [1/8] [[1; 2; 3]] [0] 0) /\ tables_integrate (e_tables exact_env) exact_basis 1.
Proof. split; [unfold stiff, A11, A22, D11, D22; cbn; unfold ex_ABD; cbn; repeat split; lra|exact two_tables]. Qed.

(* ------------------------------------------------- C60 *)
Theorem C60_each_blade_on_its_panel : forall height r stack stack_blades width_blades plyt laminaprop n m n' k q w, (2 <= n)%nat ->
  length stack_blades = n -> length width_blades = n ->
  exists w' s, create_cylinder_blade_stiffened height r stack plyt laminaprop n m n' stack_blades width_blades k q w = (w', Ok s) /\
    assembled w' s /\ as_panels s = seq k (n + n) /\
    (forall i, (i < n)%nat -> let p := xp (w_panel w' (k + i)) in let bl := xp (w_panel w' (k + n + i)) in
      sh_a (pn_sh p) = height /\ sh_b (pn_sh p) = 2 * PI * r / INR n /\ pn_r p = Some r /\ pn_stack p = stack /\
      sh_a (pn_sh bl) = height /\ sh_b (pn_sh bl) = nth i width_blades 0 /\ pn_r bl = None /\ pn_stack bl = nth i stack_blades []) /\
    length (w_conn w' q) = (n + n)%nat /\
    (forall i d, (i < n)%nat -> joins (nth i (w_conn w' q) d) (k + i) (2 * PI * r / INR n) (k + next n i) 0) /\
    (forall i d, (i < n)%nat -> attaches (nth (n + i) (w_conn w' q) d) (k + i) 0 (k + n + i) 0) /\
    (forall i, (i < n)%nat -> length (filter (touches (k + n + i)) (w_conn w' q)) = 1%nat).
Proof.
  intros height r stack stack_blades width_blades plyt laminaprop n m n' k q w Hn Hs Hw.
  exists (cb_world height r stack stack_blades width_blades plyt laminaprop n m n' k q w), (cb_asm n k).
  split; [apply cb_create; assumption|]. split; [apply cb_assembled; exact Hn|]. split; [apply seq_two|]. split.
  { intros i Hi. cbv zeta. destruct (cb_panel height r stack stack_blades width_blades plyt laminaprop n m n' k q w Hn i ltac:(lia)) as (E & _).
    destruct (cb_panel height r stack stack_blades width_blades plyt laminaprop n m n' k q w Hn (n + i) ltac:(lia)) as (E' & _).
    rewrite Nat.add_assoc in E'. rewrite E, E'. unfold cb_placed. destruct (Nat.ltb_spec i n); [|lia]. destruct (Nat.ltb_spec (n + i) n); [lia|].
    replace (n + i - n)%nat with i by lia. repeat split; reflexivity. }
  rewrite cb_conn by exact Hn. split; [rewrite app_length, !map_length, seq_length; reflexivity|]. split.
  { intros i d Hi. rewrite app_nth1 by (rewrite map_length, seq_length; lia). rewrite ring_nth by exact Hi. apply ring_joins; assumption. }
  split.
  { intros i d Hi. rewrite app_nth2 by (rewrite map_length, seq_length; lia). rewrite map_length, seq_length. replace (n + i - n)%nat with i by lia.
    rewrite (nth_indep _ d (blade_conn k n 0)) by (rewrite map_length, seq_length; lia). rewrite map_nth, seq_nth by lia.
    unfold attaches, blade_conn. cbn. auto. }
  intros i Hi. assert (D := cb_blade_degree height r stack stack_blades width_blades plyt laminaprop n m n' k q w Hn i Hi). rewrite cb_conn in D by exact Hn. exact D.
Qed.
Print Assumptions C60_each_blade_on_its_panel.
Theorem C60_seams_and_blades : forall height r stack stack_blades width_blades plyt laminaprop n m n' k q w E Bs M, (2 <= n)%nat ->
  length stack_blades = n -> length width_blades = n -> (0 < m <= M)%nat -> (0 < n' <= M)%nat ->
  0 < height -> 0 < r -> stack <> [] -> laminaprop <> [] -> (forall i, (i < n)%nat -> nth i stack_blades [] <> [] /\ 0 < nth i width_blades 0) ->
  let lam st := e_lib E st (map (fun _ => plyt) st) (map (fun _ => laminaprop) st) (map (fun _ => 0) st) 0 in
  stiff (lam stack) -> (forall i, (i < n)%nat -> stiff (lam (nth i stack_blades []))) -> tables_integrate (e_tables E) Bs M ->
  let size := ((n + n) * (3 * m * n'))%nat in
  exists w' s w2 s2 K, create_cylinder_blade_stiffened height r stack plyt laminaprop n m n' stack_blades width_blades k q w = (w', Ok s) /\
    get_kC_conn E Bs (Some q) true w' s = (w2, s2, Ok (CMat size K)) /\
    (forall i j, K i j = K j i) /\
    (forall c d, exists Ws, Forall2 (fun cn => conn_work E Bs (w_panel w') cn c d) (w_conn w' q) Ws /\ bilinear size K c d = suml Ws (fun W => W)) /\
    (forall c, 0 <= quad size K c) /\
    (forall c, (forall i, (i < n)%nat -> agree Bs (w_panel w') c (k + i) (2 * PI * r / INR n) (k + next n i) 0 height /\
        agree_flange Bs (w_panel w') c (k + i) 0 (k + n + i) 0 height) -> forall d, bilinear size K c d = 0).
Proof.
  intros height r stack stack_blades width_blades plyt laminaprop n m n' k q w E Bs M Hn Hsb Hwb Hm Hn' Hh Hr Hst Hlp Hbl lam Hlam Hlams HT size.
  destruct (cb_seams height r stack stack_blades width_blades plyt laminaprop n m n' k q w E Bs M Hn Hsb Hwb Hm Hn' Hh Hr Hst Hlp Hbl (conj Hlam Hlams) HT) as (w2 & s2 & K & G).
  exists (cb_world height r stack stack_blades width_blades plyt laminaprop n m n' k q w), (cb_asm n k), w2, s2, K. split; [apply cb_create; assumption|]. exact G.
Qed.
Print Assumptions C60_seams_and_blades.
Example C60_case : exists w' s, create_cylinder_blade_stiffened 1 2 [0] (1/8) [1; 2; 3] 2 1 1 [[0]; [0]] [1/4; 1/3] 0 0 (mkWorld (fun _ => mkXp (ex_panel None) 0 no_loads None None) (fun _ => [])) = (w', Ok s) /\
  map (fun cn => (cn_p1 cn, cn_p2 cn)) (w_conn w' 0) = [(0, 1); (0, 1); (0, 2); (1, 3)]%nat.
Proof. eexists. eexists. split; reflexivity. Qed.

(* ------------------------------------------------- C58 *)
Section C58.
Variables (height r : R) (stack : list R) (plyt : R) (laminaprop : list R) (n m n' k q : nat) (w : world).
(* the driver with constant Nxx gives every panel its own *)
Theorem C58_constant_loads_partial : forall Nxxs w' s, create_cylinder_assy height r stack plyt laminaprop n m n' k q w = (w', Ok s) ->
  forall i, (i < n)%nat -> Nxx_of (xp (w_panel (set_constant_loads n k Nxxs w') (k + i))) = nth i Nxxs 0.
Proof. intros Nxxs w' s _ i Hi. unfold set_constant_loads. rewrite (loop_object (fun i o => with_panel o (with_x2u (with_Nxx (xp o) (nth i Nxxs 0)) 1))) by exact Hi. reflexivity. Qed.
(* the driver with a static case gives every panel the load of the last one *)
Theorem C58_all_panels_get_the_last_load : forall Nxxs w' s, cylinder_static_world height r stack plyt laminaprop n m n' k q Nxxs w = Ok (w', s) ->
  forall i, (i < n)%nat -> axial_force (w_panel w' (k + i)) = nth (n - 1) Nxxs 0 * (2 * PI * r / INR n).
Proof.
  intros Nxxs w' s H i Hi. unfold cylinder_static_world in H. destruct (Nat.ltb_spec n 2) as [Hlt|Hge].
  { unfold create_cylinder_assy in H. destruct (Nat.ltb_spec n 2); [discriminate|lia]. }
  rewrite cyl_create in H by exact Hge. destruct (negb _); [discriminate|]. injection H as <- <-.
  unfold set_static_loads. rewrite (loop_object (fun i o => with_panel (edge_load (sh_a (pn_sh (xp o))) (literal_Nxxs Nxxs (n - 1)) o) (with_x2u (xp o) 1))) by exact Hi.
  destruct (cyl_panel height r stack plyt laminaprop n m n' k q w i Hi) as (E1 & _ & E3). unfold literal_Nxxs. rewrite axial_one; [|exact E3|reflexivity]. rewrite E1. reflexivity.
Qed.
(* so the force vector depends on nothing but the last entry of Nxxs *)
Theorem C58_other_loads_ignored : forall E Bv Nxxs Nxxs', length Nxxs = length Nxxs' -> nth (n - 1) Nxxs 0 = nth (n - 1) Nxxs' 0 ->
  cylinder_static_fext height r stack plyt laminaprop n m n' E Bv k q Nxxs w = cylinder_static_fext height r stack plyt laminaprop n m n' E Bv k q Nxxs' w.
Proof.
  intros E Bv Nxxs Nxxs' HL HN. unfold cylinder_static_fext, cylinder_static_world, set_static_loads, literal_Nxxs. rewrite HL, HN. reflexivity.
Qed.
Theorem C58_equal_loads_partial : forall N Nxxs w' s, (forall i, (i < n)%nat -> nth i Nxxs 0 = N) -> cylinder_static_world height r stack plyt laminaprop n m n' k q Nxxs w = Ok (w', s) ->
  forall i, (i < n)%nat -> axial_force (w_panel w' (k + i)) = nth i Nxxs 0 * (2 * PI * r / INR n).
Proof. intros N Nxxs w' s HN H i Hi. rewrite (C58_all_panels_get_the_last_load Nxxs w' s H i Hi). rewrite !HN by lia. reflexivity. Qed.
End C58.
Print Assumptions C58_constant_loads_partial.
Print Assumptions C58_all_panels_get_the_last_load.
Print Assumptions C58_other_loads_ignored.
Print Assumptions C58_equal_loads_partial.
Theorem C58_refuted : exists height r stack plyt laminaprop n m n' k q w Nxxs w' s, 0 < r /\
  cylinder_static_world height r stack plyt laminaprop n m n' k q Nxxs w = Ok (w', s) /\
  exists i, (i < n)%nat /\ axial_force (w_panel w' (k + i)) <> nth i Nxxs 0 * (2 * PI * r / INR n).
Proof.
  set (w := mkWorld (fun _ => mkXp (ex_panel None) 0 no_loads None None) (fun _ => [])).
  exists 1, 2, [0], (1/8), [1; 2; 3], 2%nat, 1%nat, 1%nat, 0%nat, 0%nat, w, [-100; 0].
  destruct (cylinder_static_world 1 2 [0] (1/8) [1; 2; 3] 2 1 1 0 0 [-100; 0] w) as [[w' s]|e] eqn:E; [|discriminate E].
  exists w', s. split; [lra|]. split; [reflexivity|]. exists 0%nat. split; [lia|].
  rewrite (C58_all_panels_get_the_last_load _ _ _ _ _ _ _ _ _ _ _ _ _ _ E) by lia. cbn [nth Nat.sub]. intro H.
  assert (0 < PI) by apply PI_RGT_0. assert (0 < 2 * PI * 2 / INR 2) by (apply Rdiv_lt_0_compat; [lra|apply lt_0_INR; lia]). lra.
Qed.
Print Assumptions C58_refuted.
(* the cylinder with blades: the load of the last blade everywhere, skin panels included *)
Theorem C58_skin_gets_the_load_of_the_last_blade : forall height r stack stack_blades width_blades plyt laminaprop n m n' k q w Nskin Nblade w' s,
  cylinder_blade_static_world height r stack stack_blades width_blades plyt laminaprop n m n' k q Nskin Nblade w = Ok (w', s) ->
  forall i, (i < n)%nat -> axial_force (w_panel w' (k + i)) = nth (n - 1) Nblade 0 * (2 * PI * r / INR n).
Proof.
  intros height r stack stack_blades width_blades plyt laminaprop n m n' k q w Nskin Nblade w' s H i Hi. unfold cylinder_blade_static_world in H.
  destruct (create_cylinder_blade_stiffened height r stack plyt laminaprop n m n' stack_blades width_blades k q w) as [w1 [s1|e]] eqn:EC; [|discriminate].
  assert (Hn : (2 <= n)%nat /\ length stack_blades = n /\ length width_blades = n).
  { unfold create_cylinder_blade_stiffened in EC. destruct (Nat.ltb_spec n 2); [discriminate|].
    destruct (Nat.eqb_spec (length stack_blades) n); [|discriminate]. destruct (Nat.eqb_spec (length width_blades) n); [|discriminate]. auto. }
  destruct Hn as (Hn & Hs & Hw). rewrite cb_create in EC by assumption. injection EC as <- <-.
  destruct (negb _); [discriminate|]. destruct (negb _); [discriminate|]. injection H as <- <-.
  unfold set_blade_static_loads. rewrite (loop_object (fun i o => edge_load (sh_a (pn_sh (xp o))) (fun y => blade_Nxx n Nskin Nblade (n + n - 1)) (with_panel o (with_x2u (xp o) 1)))) by lia.
  destruct (cb_panel height r stack stack_blades width_blades plyt laminaprop n m n' k q w Hn i ltac:(lia)) as (E1 & _ & E3).
  set (x := w_panel _ (k + i)) in *.
  replace (edge_load _ _ _) with (with_panel (edge_load (sh_a (pn_sh (xp x))) (fun _ => blade_Nxx n Nskin Nblade (n + n - 1)) x) (with_x2u (xp x) 1)) by reflexivity.
  rewrite axial_one; [|exact E3|reflexivity]. rewrite E1. unfold cb_placed. destruct (Nat.ltb_spec i n); [|lia].
  unfold blade_Nxx. destruct (Nat.ltb_spec (n + n - 1) n); [lia|]. replace (n + n - 1 - n)%nat with (n - 1)%nat by lia. reflexivity.
Qed.
Print Assumptions C58_skin_gets_the_load_of_the_last_blade.
Example C58_blade_case : exists w' s, cylinder_blade_static_world 1 2 [0] [[0]; [0]] [1/4; 1/3] (1/8) [1; 2; 3] 2 1 1 0 0 [-100; -100] [-50; -70]
  (mkWorld (fun _ => mkXp (ex_panel None) 0 no_loads None None) (fun _ => [])) = Ok (w', s).
Proof. eexists. eexists. reflexivity. Qed.

(* ------------------------------------------------- C59 *)
(* the axial load of the perturbation-load driver is zero on every panel, whatever Nxx is given *)
Theorem C59_refuted : forall height r stack plyt laminaprop n m n' k q w Nxx SPLA, (2 <= n)%nat -> 0 < r -> Nxx <> 0 ->
  exists w' s, cylinder_spla_world height r stack plyt laminaprop n m n' k q Nxx SPLA w = Ok (w', s) /\
  forall i, (i < n)%nat -> axial_force (w_panel w' (k + i)) = 0 /\ axial_force (w_panel w' (k + i)) <> Nxx * (2 * PI * r / INR n).
Proof.
  intros height r stack plyt laminaprop n m n' k q w Nxx SPLA Hn Hr HN. unfold cylinder_spla_world. rewrite cyl_create by exact Hn.
  eexists. eexists. split; [reflexivity|]. intros i Hi.
  assert (H0 : axial_force (w_panel (set_spla_loads n k SPLA (cyl_world height r stack plyt laminaprop n m n' k q w)) (k + i)) = 0).
  { unfold set_spla_loads. cbv zeta. set (cw := cyl_world height r stack plyt laminaprop n m n' k q w).
    destruct (cyl_panel height r stack plyt laminaprop n m n' k q w (n - 1) ltac:(lia)) as (L1 & _). fold cw in L1. rewrite L1.
    change (Nxx_of (cyl_shell height r stack plyt laminaprop n m n')) with 0.
    set (w1 := fold_left _ _ _).
    assert (H1 : axial_force (w_panel w1 (k + i)) = 0 /\ sh_b (pn_sh (xp (w_panel w1 (k + i)))) = b_skin r n).
    { unfold w1. rewrite (loop_object (fun i o => edge_load (sh_a (pn_sh (xp o))) (fun _ => 0) (with_panel o (with_x2u (xp o) 1)))) by exact Hi.
      destruct (cyl_panel height r stack plyt laminaprop n m n' k q w i Hi) as (E1 & _ & E3). fold cw in E1, E3. set (x := w_panel cw (k + i)) in *.
      replace (edge_load _ _ _) with (with_panel (edge_load (sh_a (pn_sh (xp x))) (fun _ => 0) x) (with_x2u (xp x) 1)) by reflexivity.
      rewrite axial_one; [|exact E3|reflexivity]. split; [ring|]. change (sh_b (pn_sh (xp x)) = b_skin r n). rewrite E1. reflexivity. }
    unfold on_object. cbn [w_panel put_panel]. unfold put. destruct (Nat.eqb_spec (k + i) k) as [E|]; [|apply H1]. rewrite E in H1. exact (proj1 H1). }
  split; [exact H0|]. rewrite H0. intro HH. assert (0 < PI) by apply PI_RGT_0.
  assert (HP : 0 < 2 * PI * r / INR n) by (apply Rdiv_lt_0_compat; [apply Rmult_lt_0_compat; lra|apply lt_0_INR; lia]).
  symmetry in HH. apply Rmult_integral in HH. destruct HH as [HH|HH]; [exact (HN HH)|lra].
Qed.
Print Assumptions C59_refuted.
(* the perturbation load itself is applied, once, at the middle of the first panel *)
Theorem C59_perturbation_partial : forall height r stack plyt laminaprop n m n' k q w Nxx SPLA, (2 <= n)%nat ->
  exists w' s, cylinder_spla_world height r stack plyt laminaprop n m n' k q Nxx SPLA w = Ok (w', s) /\
  ld_point (xp_loads (w_panel w' k)) = [mkPload (height / 2) (2 * PI * r / INR n / 2) 0 0 (- SPLA)] /\
  forall i, (0 < i < n)%nat -> ld_point (xp_loads (w_panel w' (k + i))) = [].
Proof.
  intros height r stack plyt laminaprop n m n' k q w Nxx SPLA Hn. unfold cylinder_spla_world. rewrite cyl_create by exact Hn.
  eexists. eexists. split; [reflexivity|]. unfold set_spla_loads. cbv zeta. set (cw := cyl_world height r stack plyt laminaprop n m n' k q w).
  set (lit := fun _ : R => _). set (w1 := fold_left _ _ _).
  assert (H1 : forall i, (i < n)%nat -> ld_point (xp_loads (w_panel w1 (k + i))) = [] /\ pn_sh (xp (w_panel w1 (k + i))) = pn_sh (with_x2u (cyl_shell height r stack plyt laminaprop n m n') 1)).
  { intros i Hi. unfold w1. rewrite (loop_object (fun i o => edge_load (sh_a (pn_sh (xp o))) lit (with_panel o (with_x2u (xp o) 1)))) by exact Hi.
    destruct (cyl_panel height r stack plyt laminaprop n m n' k q w i Hi) as (E1 & _ & E3). fold cw in E1, E3. cbn [edge_load with_loads with_panel xp_loads xp]. rewrite E1, E3. split; reflexivity. }
  unfold on_object. cbn [w_panel put_panel]. unfold put. rewrite Nat.eqb_refl. split.
  - destruct (H1 0%nat ltac:(lia)) as (A & B). rewrite Nat.add_0_r in A, B. cbn [with_loads xp_loads add_point ld_point]. rewrite A, B. reflexivity.
  - intros i Hi. destruct (Nat.eqb_spec (k + i) k); [lia|]. apply H1. lia.
Qed.
Print Assumptions C59_perturbation_partial.
