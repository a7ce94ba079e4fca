(* C70 - C73: the panel with one T-stiffener and a debonding defect. *)
From Coq Require Import Reals List Arith Bool Lra Lia.
From Coquelicot Require Import Coquelicot.
From Verif Require Import Base_Sum Model_Types Model_Coo Model_Result Model_Num Model_DB Model_Shell Model_Fext Model_Multi Model_New Model_Cylinder Model_TStiff
  Spec_Algebra Spec_Integral Spec_Panel Spec_Shell Spec_Fext Spec_Conn Spec_Multi Spec_MultiConn Spec_Cylinder Spec_TStiff Proof_TStiff Proof_TStiffWork Proof_TStiffLoad Ex_Panel Ex_Exact Ex_Multi Spec_Bardell.
Import ListNotations.
Open Scope R_scope.

(* ------------------------------------------------- C70 *)
Theorem C70_skin_covers_the_panel : forall D x y, well_sized D ->
  (0 <= x <= ts_a D /\ 0 <= y <= ts_b D <-> exists i, (1 <= i <= 9)%nat /\ covers (panel_no D i) x y).
Proof. intros D x y H. split; [intros [H1 H2]; apply grid_covers; assumption|intros (i & Hi & HC); exact (grid_within D H i x y Hi HC)]. Qed.
Print Assumptions C70_skin_covers_the_panel.
Theorem C70_skin_panels_do_not_overlap : forall D i j x y, well_sized D -> (1 <= i <= 9)%nat -> (1 <= j <= 9)%nat ->
  inside (panel_no D i) x y -> inside (panel_no D j) x y -> i = j.
Proof. intros D i j x y H. exact (grid_apart D H i j x y). Qed.
Print Assumptions C70_skin_panels_do_not_overlap.
(* the base lies over the strip of width bb about ys and the flange goes along the whole length *)
Theorem C70_stiffener_in_place : forall D, well_sized D ->
  (forall i, (1 <= i <= 15)%nat -> 0 < len (panel_no D i) /\ 0 < wid (panel_no D i)) /\
  (forall x y, 0 <= x <= ts_a D /\ ts_ys D - ts_bb D / 2 <= y <= ts_ys D + ts_bb D / 2 <-> exists i, In i [10; 12; 14]%nat /\ covers (panel_no D i) x y) /\
  (forall x z, 0 <= x <= ts_a D /\ 0 <= z <= ts_bf D <-> exists i, In i [11; 13; 15]%nat /\ covers (panel_no D i) x z) /\
  (forall i j x y, In i [10; 12; 14]%nat /\ In j [10; 12; 14]%nat \/ In i [11; 13; 15]%nat /\ In j [11; 13; 15]%nat -> inside (panel_no D i) x y -> inside (panel_no D j) x y -> i = j) /\
  (forall i, (1 <= i <= 15)%nat -> np_group (panel_no D i) = if (i <=? 9)%nat then 0%nat else if Nat.even i then 1%nat else 2%nat).
Proof. exact stiffener_places. Qed.
Print Assumptions C70_stiffener_in_place.
(* the outer edges of the skin are supported and the edges where panels of a group meet are free *)
Theorem C70_edges : forall D, well_sized D ->
  (forall i, (1 <= i <= 9)%nat -> let q := panel_no D i in
     (np_x0 q = 0 -> supported e1t (np_panel q) true) /\ (np_x0 q + len q = ts_a D -> supported e2t (np_panel q) true) /\
     (np_y0 q = 0 -> supported e1t (np_panel q) false) /\ (np_y0 q + wid q = ts_b D -> supported e2t (np_panel q) false)) /\
  (forall i j, (1 <= i <= 15)%nat -> (1 <= j <= 15)%nat -> let p := panel_no D i in let q := panel_no D j in np_group p = np_group q ->
     (left_of p q -> free_y1 p /\ free_y2 q) /\ (above p q -> free_x1 p /\ free_x2 q)).
Proof. exact edge_flags. Qed.
Print Assumptions C70_edges.
(* skin (0), base (1) and flange (2) are built from their own laminate, numbers of terms, loads and
   integration points; ply thickness, material and density are common; the flange is flat *)
Theorem C70_parts_have_their_data : forall D i, (1 <= i <= 15)%nat ->
  let p := np_panel (panel_no D i) in let part := np_group (panel_no D i) in
  pn_stack p = nth part [ts_stack_skin D; ts_stack_base D; ts_stack_flange D] [] /\
  (sh_m (pn_sh p), sh_n (pn_sh p)) = nth part [(ts_m D, ts_n D); (ts_mb D, ts_nb D); (ts_mf D, ts_nf D)] (0, 0)%nat /\
  pn_N p = (nth part [ts_Nskin D; ts_Nbase D; ts_Nflange D] 0, 0, 0) /\
  pn_r p = (if (part =? 2)%nat then None else ts_r D) /\
  pn_plyt p = Some (ts_plyt D) /\ pn_laminaprop p = ts_prop D /\ pn_rho p = ts_rho D /\ pn_offset p = 0 /\
  (pn_nx p, pn_ny p) =
    match ts_points D with
    | Some (skin, base, flange) => nth part [skin; base; flange] (0, 0)%nat
    | None => (2 * sh_m (pn_sh p), 2 * sh_n (pn_sh p))%nat
    end.
Proof.
  intros D i Hi. destruct D as [? ? ? ? ? ? ? ? ? ? ? ? ? ? ? ? ? ? ? pts ? ? ? ?].
  destruct i as [|i]; [lia|]. do 15 (destruct i as [|i]; [destruct pts as [[[[? ?] [? ?]] [? ?]]|]; repeat split|]). lia.
Qed.
Print Assumptions C70_parts_have_their_data.
(* the assembly has these panels, in this order, at consecutive places of the unknowns *)
Theorem C70_assembly : forall D k q w, let '(w', s) := create_tstiff D k q w in
  as_panels s = seq k 15 /\ assembled w' s /\ forall i, (1 <= i <= 15)%nat -> xp (w_panel w' (k + (i - 1))) = np_panel (panel_no D i) /\ xp_group (w_panel w' (k + (i - 1))) = np_group (panel_no D i).
Proof.
  intros D k q w. rewrite (surjective_pairing (create_tstiff D k q w)). split; [rewrite create_asm; reflexivity|]. split; [apply ts_assembled|].
  intros i Hi. destruct (ts_world D k q w i Hi) as (H1 & H2 & _). split; assumption.
Qed.
Print Assumptions C70_assembly.

(* a panel of 4 x 3, a stiffener at 1 with a base of 1 and a flange of 1/2, debonded over 40 % of the length *)
Definition ex_ts (d : R) : tstiff := mkTs 4 3 1 1 (1/2) d 1 (1/8) [1; 2; 3] [0] [0] [0] None 1 1 1 1 1 1 None (-5) (-4) (-3) true.
Lemma ex_ts_sized d : 0 <= d < 1 -> well_sized (ex_ts d).
Proof. intro H. unfold well_sized. cbn. repeat split; lra. Qed.
Example C70_case : well_sized (ex_ts (2/5)) /\ covers (panel_no (ex_ts (2/5)) 5) 2 1 /\ left_of (panel_no (ex_ts (2/5)) 1) (panel_no (ex_ts (2/5)) 2) /\ above (panel_no (ex_ts (2/5)) 1) (panel_no (ex_ts (2/5)) 4).
Proof.
  split; [apply ex_ts_sized; lra|]. assert (Hd : defect (ex_ts (2/5)) = 8/5) by (unfold defect; cbn; destruct (Req_EM_T _ _); lra).
  unfold covers, left_of, above, len, wid. cbn. unfold aup, alow, bleft, bright. rewrite Hd. cbn. repeat split; lra.
Qed.

(* ------------------------------------------------- C71 *)
Theorem C71_panels_are_joined_where_they_meet : forall D k q w cn, well_sized D ->
  (In cn (w_conn (fst (create_tstiff D k q w)) q) <-> meets D k cn) /\ NoDup (w_conn (fst (create_tstiff D k q w)) q).
Proof.
  intros D k q w cn H. rewrite ts_conn. split; [split; [apply conns_meet; exact H|apply meet_conns; exact H]|apply conns_once].
Qed.
Print Assumptions C71_panels_are_joined_where_they_meet.
(* the skin and the base are joined over the whole length if and only if there is no defect *)
Theorem C71_defect : forall D k q w, well_sized D ->
  (In (mkConn (k + 4) (k + 11) SB None None None None None) (w_conn (fst (create_tstiff D k q w)) q) <-> ts_defect_a D = 0).
Proof. exact defect_conn. Qed.
Print Assumptions C71_defect.

Example C71_case : forall w, In (mkConn 4 11 SB None None None None None) (w_conn (fst (create_tstiff (ex_ts 0) 0 0 w)) 0) /\
  ~ In (mkConn 4 11 SB None None None None None) (w_conn (fst (create_tstiff (ex_ts (2/5)) 0 0 w)) 0).
Proof.
  intro w. split.
  - apply (proj2 (C71_defect (ex_ts 0) 0 0 w (ex_ts_sized 0 ltac:(lra)))). reflexivity.
  - intro H. apply (proj1 (C71_defect (ex_ts (2/5)) 0 0 w (ex_ts_sized (2/5) ltac:(lra)))) in H. cbn in H. lra.
Qed.

(* ------------------------------------------------- C72 *)
Theorem C72_stiffness_of_the_seams : forall D k q w E Bs M, well_sized D -> material_given E D M -> tables_integrate (e_tables E) Bs M ->
  let W := fst (create_tstiff D k q w) in let h := w_panel W in let size := total_width h (seq k 15) in
  exists w2 s2 K, get_kC_conn E Bs (Some q) true W (snd (create_tstiff D k q w)) = (w2, s2, Ok (CMat size K)) /\
    (forall i j, K i j = K j i) /\
    (forall c d, exists Ws, Forall2 (fun cn => conn_work E Bs h cn c d) (w_conn W q) Ws /\ bilinear size K c d = suml Ws (fun W => W)) /\
    (forall c, 0 <= quad size K c) /\
    (forall c Fs Fb Ff, (forall i, (1 <= i <= 9)%nat -> shows D Bs h k c Fs i) -> (forall i, In i [10; 12; 14]%nat -> shows D Bs h k c Fb i) ->
       (forall i, In i [11; 13; 15]%nat -> shows D Bs h k c Ff i) -> stuck D Fs Fb -> stands_on D Fb Ff -> forall d, bilinear size K c d = 0).
Proof. exact ts_seams. Qed.
Print Assumptions C72_stiffness_of_the_seams.

Lemma ex_ts_material d : material_given exact_env (ex_ts d) 1.
Proof.
  split; [discriminate|]. split.
  - repeat (apply List.Forall_cons; [split; [discriminate|unfold stiff, A11, A22, D11, D22; cbn; unfold ex_ABD; cbn; repeat split; lra]|]). apply List.Forall_nil.
  - repeat (apply List.Forall_cons; [cbn; lia|]). apply List.Forall_nil.
Qed.
Example C72_case : forall d, 0 <= d < 1 -> well_sized (ex_ts d) /\ material_given exact_env (ex_ts d) 1 /\ tables_integrate (e_tables exact_env) exact_basis 1.
Proof. intros d H. split; [apply ex_ts_sized; exact H|]. split; [apply ex_ts_material|exact two_tables]. Qed.
(* a translation w = 1 of the skin and the base goes with v = -1 of the flange; along x the skin, the base and the flange go together *)
Example C72_field_case : forall D, stuck D (fun d _ _ => match d with 0%nat => 2 | 2%nat => 1 | _ => 0 end) (fun d _ _ => match d with 0%nat => 2 | 2%nat => 1 | _ => 0 end) /\
  stands_on D (fun d _ _ => match d with 0%nat => 2 | 2%nat => 1 | _ => 0 end) (fun d _ _ => match d with 0%nat => 2 | 1%nat => -1 | _ => 0 end).
Proof. intro D. unfold stuck, stands_on. cbv zeta. split; [intros x y _ _ _|intros x _]; repeat split; cbv beta iota; ring. Qed.

(* ------------------------------------------------- C73 *)
Theorem C73_compression_load : forall D k q w E Bv w2 w3 f, well_sized D ->
  let W := fst (create_tstiff D k q w) in let h := w_panel W in let size := total_width h (seq k 15) in
  as_created D k W w2 -> load_edges E Bv (loaded k) w2 (fun _ => 0) = (w3, Ok f) ->
  (forall d, dot size f d = suml (loaded k) (fun i => edge_work E Bv h i d)) /\
  suml (seq k 15) (fun i => axial_force (w_panel w3 i)) = ts_Nskin D * ts_b D + ts_Nbase D * ts_bb D + ts_Nflange D * ts_bf D.
Proof. exact ts_loads. Qed.
Print Assumptions C73_compression_load.
(* the loaded panels are those of the edge x = 0 *)
Theorem C73_loaded_panels : forall D k i, well_sized D -> (1 <= i <= 15)%nat ->
  (In (k + (i - 1))%nat (loaded k) <-> np_x0 (panel_no D i) = 0).
Proof. exact loaded_edge. Qed.
Print Assumptions C73_loaded_panels.
(* the vector is found for every panel with its material given and at most 30 terms *)
Theorem C73_load_is_found : forall D k q w E Bv M, well_sized D -> material_given E D M -> (M <= 30)%nat ->
  as_created D k (fst (create_tstiff D k q w)) (fst (create_tstiff D k q w)) /\
  exists w3 f, load_edges E Bv (loaded k) (fst (create_tstiff D k q w)) (fun _ => 0) = (w3, Ok f).
Proof. intros. split; [apply created_itself|]. eapply ts_loads_run; eassumption. Qed.
Print Assumptions C73_load_is_found.
(* the driver gives to static the opposite of this load; the stiffness found before it leaves the panels as they were *)
Theorem C73_load_given_to_static : forall D k q w E Bs Bv M, well_sized D -> material_given E D M -> tables_integrate (e_tables E) Bs M -> (M <= 30)%nat ->
  let h := w_panel (fst (create_tstiff D k q w)) in
  exists f, tstiff_load D E Bs Bv k q w = Ok f /\ forall d, dot (total_width h (seq k 15)) f d = - suml (loaded k) (fun i => edge_work E Bv h i d).
Proof. intros D k q w E Bs Bv M HD HM HT H30. exact (ts_load_given D k q w E Bs M HD HM HT Bv H30). Qed.
Print Assumptions C73_load_given_to_static.
Example C73_case : well_sized (ex_ts (2/5)) /\ material_given exact_env (ex_ts (2/5)) 1 /\ tables_integrate (e_tables exact_env) exact_basis 1 /\
  ts_Nskin (ex_ts (2/5)) * ts_b (ex_ts (2/5)) + ts_Nbase (ex_ts (2/5)) * ts_bb (ex_ts (2/5)) + ts_Nflange (ex_ts (2/5)) * ts_bf (ex_ts (2/5)) = - (41/2).
Proof. split; [apply ex_ts_sized; lra|]. split; [apply ex_ts_material|]. split; [exact two_tables|]. cbn. lra. Qed.
