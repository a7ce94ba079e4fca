(* Properties of the aerodynamic matrix of the flutter analysis of a T-stiffened panel. *)
From Coq Require Import Reals List Arith Bool Lia Lra.
From Coquelicot Require Import Coquelicot.
From Verif Require Import Base_Sum Model_Types Model_Coo Model_Result Model_Num Model_DB Model_Shell Model_Fext Model_Multi Model_New Model_Cylinder Model_TStiff Model_Flutter
  Spec_Algebra Spec_Kinematics Spec_Quadrature Spec_Panel Spec_Shell Spec_Bardell Spec_Integral Spec_Aero Spec_Flow Spec_Conn Spec_Multi Spec_MultiConn Spec_Cylinder Spec_TStiff Spec_Flutter
  Proof_Aero Proof_Flutter Proof_FlutterTop Ex_Panel Ex_Aero Ex_Exact Ex_Flutter Prop_Aero.
From Coq Require Import List.
Import ListNotations.
Open Scope R_scope.

(* C91: the aerodynamic matrix of the driver is the sum of what calc_kA of the nine skin panels gives,
   each in the slice of its panel *)
(* the nine panels of the skin, and no other panel, lie in the flow given by the caller; the panels are otherwise those of the compression driver *)
Theorem C91_skin_lies_in_the_flow_partial : forall D rho M V fx k q w i, (1 <= i <= 15)%nat ->
  let p := xp (w_panel (fst (create_flutter D rho M V fx k q w)) (k + (i - 1))) in let p0 := np_panel (panel_no D i) in
  ((i <= 9)%nat -> pn_rho_air p = rho /\ pn_Mach p = M /\ pn_V p = V /\ pn_flow_x p = fx /\
     pn_sh p = pn_sh p0 /\ pn_model p = pn_model p0 /\ pn_stack p = pn_stack p0 /\ pn_plyt p = pn_plyt p0 /\ pn_laminaprop p = pn_laminaprop p0 /\
     pn_rho p = pn_rho p0 /\ pn_offset p = pn_offset p0 /\ pn_N p = pn_N p0 /\ pn_N_cte p = pn_N_cte p0 /\ pn_beta p = pn_beta p0 /\ pn_gamma p = pn_gamma p0 /\ pn_r p = pn_r p0) /\
  ((9 < i)%nat -> p = p0).
Proof.
  intros D rho M V fx k q w i Hi. cbv zeta. rewrite (flow_world D rho M V fx k q w i Hi). split; intro H9.
  - rewrite (proj2 (Nat.leb_le i 9) H9). repeat split.
  - rewrite (proj2 (Nat.leb_gt i 9) H9). reflexivity.
Qed.
Print Assumptions C91_skin_lies_in_the_flow_partial.
Theorem C91_sum_of_panels_partial : forall E size k w w' K, flutter_kA E size k w = (w', Ok K) ->
  exists Ks, Forall2 (fun i Ki => exists p', calc_kA E (SInt size) (start (w_panel w) i) (start (w_panel w) i) true (xp (w_panel w i)) = (p', Ok Ki)) (seq k 9) Ks /\
    forall r t, K r t = suml Ks (fun Ki => Ki r t).
Proof. intros E size k w w' K H. exact (flutter_sum E size k w w' K H). Qed.
Print Assumptions C91_sum_of_panels_partial.

(* for a flat skin every entry is known: below the diagonal it is the work of the pressure of the displacement
   number t in the displacement number r; on and above the diagonal it is minus the work of the pressure of
   the displacement number r in the displacement number t.
   Missing: there it is not the work of the pressure of t in r, next theorem. *)
Theorem C91_every_entry_partial : forall E D k along_x rho V M size w w' K,
  skin_in_flow E D k along_x rho V M w -> 1 < M ->
  (forall i, (1 <= i <= 9)%nat -> default 0 (pn_r (xp (w_panel w (k + (i - 1))))) = 0) ->
  flutter_kA E size k w = (w', Ok K) ->
  forall r t, ((t < r)%nat -> skin_work along_x rho V M (w_panel w) (seq k 9) (unitv r) (unitv t) (K r t)) /\
              ((r <= t)%nat -> skin_work along_x rho V M (w_panel w) (seq k 9) (unitv t) (unitv r) (- K r t)).
Proof. exact flutter_entries. Qed.
Print Assumptions C91_every_entry_partial.

(* C91 is false of every such panel: some displacements have another work than c'.kA.c. The inner edges of the
   skin panels are free, and the kernel has integrated the slope by parts. *)
Theorem C91_refuted : forall E D k along_x rho V M size w w' K,
  well_sized D -> (0 < ts_m D)%nat -> (0 < ts_n D)%nat -> skin_in_flow E D k along_x rho V M w ->
  1 < M -> rho <> 0 -> V <> 0 ->
  along_x = true \/ (forall i, (1 <= i <= 9)%nat -> default 0 (pn_r (xp (w_panel w (k + (i - 1))))) = 0) ->
  flutter_kA E size k w = (w', Ok K) ->
  exists c W, skin_work along_x rho V M (w_panel w) (seq k 9) c c W /\ quad (total_width (w_panel w) (seq k 15)) K c <> W.
Proof. exact flutter_differs. Qed.
Print Assumptions C91_refuted.

(* a panel as the driver creates it (flutter.py:136-146), after the stiffness matrix: the hypotheses hold and
   the matrix is computed *)
Example C91_case : well_sized fl_D /\ (0 < ts_m fl_D)%nat /\ (0 < ts_n fl_D)%nat /\ skin_in_flow fl_env fl_D 0 true 1 3 2 fl_w /\
  (forall i, (1 <= i <= 9)%nat -> default 0 (pn_r (xp (w_panel fl_w (0 + (i - 1))))) = 0) /\
  exists w' K, flutter_kA fl_env (total_width (w_panel fl_w) (seq 0 15)) 0 fl_w = (w', Ok K) /\
    exists c W, skin_work true 1 3 2 (w_panel fl_w) (seq 0 9) c c W /\ quad (total_width (w_panel fl_w) (seq 0 15)) K c <> W.
Proof.
  split; [exact fl_sized|]. split; [cbn; lia|]. split; [cbn; lia|]. split; [exact fl_in_flow|]. split.
  { intros i Hi. change (0 + (i - 1))%nat with (i - 1)%nat. destruct (fl_facts i ltac:(lia)) as (_ & _ & _ & _ & _ & -> & _). destruct (fl_skin i Hi) as (_ & -> & _). reflexivity. }
  destruct fl_runs as (w' & K & H). exists w', K. split; [exact H|].
  apply (C91_refuted fl_env fl_D 0 true 1 3 2 _ fl_w w' K fl_sized ltac:(cbn; lia) ltac:(cbn; lia) fl_in_flow ltac:(lra) ltac:(lra) ltac:(lra) (or_introl eq_refl) H).
Qed.

(* C26 without any condition on the edges: the entries on and above the diagonal are minus the work of the
   pressure of the displacement number r, with the curvature term of the other sign, in the displacement t *)
Theorem C26_any_edges_partial : forall E p along_x sz o fin p' K be ga, flown E p along_x ->
  calc_kA E sz o o fin p = (p', Ok K) -> pn_beta p' = Some be -> pn_gamma p' = Some ga -> along_x = true \/ ga = 0 ->
  forall r t, (r <= t)%nat ->
  panel_integral (pn_sh p) (pressure_work exact_basis (pn_sh p) along_x be (- ga) (own o (unitv t)) (own o (unitv r))) (- K r t).
Proof. intros E p fx sz o fin p' K be ga HF. exact (kA_any_ends E p fx HF sz o fin p' K be ga). Qed.
Print Assumptions C26_any_edges_partial.

(* a panel with free edges along the flow, where the other theorems about C26 say nothing *)
Example C26_free_edges : forall fx, exists p' K,
  calc_kA exact_env (SStr 5) 2 2 true (wing fx free None None None (Some 1) (Some 2) (Some 3)) = (p', Ok K) /\
  flown exact_env (wing fx free None None None (Some 1) (Some 2) (Some 3)) fx /\
  pn_beta p' = Some (piston_beta 1 3 2) /\ pn_gamma p' = Some 0.
Proof.
  intro fx. destruct (wing_runs fx free None None None (Some 1) (Some 2) (Some 3) true) as (p' & K & H).
  { right. exists 2, 1, 3. repeat split; lra. }
  exists p', K. destruct (wing_flow _ _ _ _ _ _ _ _ _ (ltac:(lra) : 1 < 2) H) as [Hb Hg].
  split; [exact H|]. split; [apply wing_flown|]. split; [exact Hb|].
  rewrite Hg. unfold piston_gamma, radius_of. cbn [wing pn_r]. destruct (Req_EM_T 0 0) as [_|F]; [reflexivity|exfalso; apply F; reflexivity].
Qed.
