(* C83-C88: the fields kept on a Shell object and the data of the contour plots. *)
From Coq Require Import Reals List Arith Bool String Lia Lra Permutation.
From Verif Require Import Base_Sum Model_Types Model_Result Model_DB Model_Bardell Model_Shell Model_Field Model_Fext Model_Conn Model_Multi Model_Plot Spec_Panel Spec_Bardell Spec_Field Spec_Multi Spec_Plot
  Proof_Plot Proof_PlotData Ex_Fint Ex_Field Ex_Multi Ex_Plot.
From Coq Require Import List.
Import ListNotations.
Open Scope R_scope.

(* ------------------------------------------------- C83 *)
(* right after a call the two dictionaries returned hold the mesh and the components the call computed; missing: what they
   hold after a later call on the same object *)
Theorem C83_returned_uvw_partial : forall sched Bs o c xs ys gx gy H H' m f, obj_uvw sched Bs o c xs ys gx gy H = (H', Ok (m, f)) ->
  exists X Y, hp_mesh H' m = (Some X, Some Y) /\ forall vec, In vec uvw_components ->
  exists v, hp_fields H' f vec = Some v /\ component_of sched Bs o c None vec xs ys gx gy true X Y v.
Proof. exact after_uvw. Qed.
Print Assumptions C83_returned_uvw_partial.
Theorem C83_returned_strain_partial : forall sched Bs o c xs ys gx gy NL H H' m f, obj_strain sched Bs o c xs ys gx gy NL H = (H', Ok (m, f)) ->
  exists X Y, hp_mesh H' m = (Some X, Some Y) /\ forall vec, In vec strain_components ->
  exists v, hp_fields H' f vec = Some v /\ component_of sched Bs o c None vec xs ys gx gy NL X Y v.
Proof. exact after_strain. Qed.
Print Assumptions C83_returned_strain_partial.
Theorem C83_returned_stress_partial : forall sched Bs o c ABD xs ys gx gy NL H H' m f, obj_stress sched Bs o c ABD xs ys gx gy NL H = (H', Ok (m, f)) ->
  exists X Y, hp_mesh H' m = (Some X, Some Y) /\ forall vec, In vec strain_components \/ In vec stress_components ->
  exists v, hp_fields H' f vec = Some v /\ component_of sched Bs o c ABD vec xs ys gx gy NL X Y v.
Proof. exact after_stress. Qed.
Print Assumptions C83_returned_stress_partial.
(* no sequence of calls on other objects changes them *)
Theorem C83_other_objects : forall sched Bs ks H m f, (forall k, In k ks -> m <> fo_mesh (callee k) /\ f <> fo_fields (callee k)) ->
  seen (fold_left (run_call sched Bs) ks H) (m, f) = seen H (m, f).
Proof. exact others_kept. Qed.
Print Assumptions C83_other_objects.
(* nor calls on the same object after it got new dictionaries, as when it is saved *)
Theorem C83_after_clear : forall sched Bs o H o' H' ks m f, obj_clear o H = (o', H') -> (m < hp_next H)%nat -> (f < hp_next H)%nat ->
  (forall k, In k ks -> callee k = o') -> seen (fold_left (run_call sched Bs) ks H') (m, f) = seen H (m, f).
Proof. exact clear_keeps. Qed.
Print Assumptions C83_after_clear.
(* a later call on the same object replaces the values the caller got from the earlier one *)
Theorem C83_refuted : exists o H c c' xs ys gx gy H1 H2 r r2 v w,
  obj_uvw (fun l => l) vec_basis o c xs ys gx gy H = (H1, Ok r) /\ obj_uvw (fun l => l) vec_basis o c' xs ys gx gy H1 = (H2, Ok r2) /\
  hp_fields H1 (snd r) "w"%string = Some v /\ hp_fields H2 (snd r) "w"%string = Some w /\ snd v <> snd w.
Proof. exact overwritten. Qed.
Print Assumptions C83_refuted.
Example C83_case : exists H' r, obj_uvw (fun l => l) vec_basis one_object [0; 0; 1] (one_point 1) (one_point (3/2)) 1 1 new_heap = (H', Ok r).
Proof. do 2 eexists. apply one_kept. reflexivity. Qed.

(* ------------------------------------------------- C84 *)
(* the components of the call itself have the shape and size of the mesh; missing: those of earlier calls *)
Theorem C84_own_components_partial : forall sched Bs o c ABD vec xs ys gx gy NL X Y v,
  (forall l, Permutation (sched l) l) -> sh_a (pn_sh (fo_panel o)) <> 0 -> sh_b (pn_sh (fo_panel o)) <> 0 ->
  component_of sched Bs o c ABD vec xs ys gx gy NL X Y v ->
  fst v = fst X /\ fst Y = fst X /\ List.length (snd v) = List.length (snd X) /\ List.length (snd Y) = List.length (snd X).
Proof. exact own_mesh. Qed.
Print Assumptions C84_own_components_partial.
Theorem C84_refuted : exists o H c xs ys xs' ys' gx gy H1 H2 r r2 X Y w,
  obj_uvw (fun l => l) vec_basis o c xs ys gx gy H = (H1, Ok r) /\ obj_strain (fun l => l) vec_basis o c xs' ys' gx gy true H1 = (H2, Ok r2) /\
  hp_mesh H2 (fst r2) = (Some X, Some Y) /\ hp_fields H2 (snd r2) "w"%string = Some w /\ List.length (snd w) <> List.length (snd X).
Proof. exact mixed_meshes. Qed.
Print Assumptions C84_refuted.
(* a call that fails keeps the fields but may already have replaced the mesh *)
Theorem C84_failed_call_keeps_fields : forall sched Bs o c xs ys gx gy NL H H' e,
  obj_uvw sched Bs o c xs ys gx gy H = (H', Err e) \/ obj_strain sched Bs o c xs ys gx gy NL H = (H', Err e) -> forall l, hp_fields H' l = hp_fields H l.
Proof. intros sched Bs o c xs ys gx gy NL H H' e [E|E]; [apply (uvw_failed _ _ _ _ _ _ _ _ _ _ _ E)|apply (strain_failed _ _ _ _ _ _ _ _ _ _ _ _ E)]. Qed.
Print Assumptions C84_failed_call_keeps_fields.
Theorem C84_failed_call_replaces_mesh : exists o H c xs ys xs' ys' gx gy H1 H2 r e X Y X' Y',
  obj_uvw (fun l => l) vec_basis o c xs ys gx gy H = (H1, Ok r) /\ obj_strain (fun l => l) vec_basis o c xs' ys' gx gy true H1 = (H2, Err e) /\
  hp_fields H2 (snd r) = hp_fields H1 (snd r) /\ hp_mesh H1 (fst r) = (Some X, Some Y) /\ hp_mesh H2 (fst r) = (Some X', Some Y') /\
  List.length (snd X) <> List.length (snd X').
Proof. exact failed_call. Qed.
Print Assumptions C84_failed_call_replaces_mesh.
Example C84_case : component_of (fun l => l) vec_basis one_object [0; 0; 1] None "w" (one_point 1) (one_point (3/2)) 1 1 true ([1%nat], [1]) ([1%nat], [3/2])
   ([1%nat], nth 2 (snd (one_result [0; 0; 1] 1 (3/2))) []).
Proof. apply one_comp_uvw; reflexivity. Qed.

(* ------------------------------------------------- C85 *)
(* a plot that succeeds leaves the components that were there; missing: the mesh, and plots that fail *)
Theorem C85_fields_restored_partial : forall sched Bs o c vec d xs ys gx gy lo hi ox oy NL H H' v,
  plot_shell sched Bs o c vec d xs ys gx gy lo hi ox oy NL H = (H', Ok v) ->
  forall n w, hp_fields H (fo_fields o) n = Some w -> hp_fields H' (fo_fields o) n = Some w.
Proof. exact plot_restores. Qed.
Print Assumptions C85_fields_restored_partial.
Theorem C85_refuted : exists o H c xs ys xs' ys' gx gy H1 H2 r d X Y X' Y',
  obj_uvw (fun l => l) vec_basis o c xs ys gx gy H = (H1, Ok r) /\ plot_shell (fun l => l) vec_basis o c "w" None xs' ys' gx gy None None 0 0 true H1 = (H2, Ok d) /\
  hp_mesh H1 (fst r) = (Some X, Some Y) /\ hp_mesh H2 (fst r) = (Some X', Some Y') /\ snd X <> snd X' /\ seen H2 r <> seen H1 r.
Proof. exact mesh_replaced. Qed.
Print Assumptions C85_refuted.
Theorem C85_failed_plot : exists o H c xs ys xs' ys' gx gy H1 H2 r e v w,
  obj_strain (fun l => l) vec_basis o c xs ys gx gy true H = (H1, Ok r) /\ plot_shell (fun l => l) vec_basis o c "gyz" None xs' ys' gx gy None None 0 0 true H1 = (H2, Err e) /\
  hp_fields H1 (snd r) "exx"%string = Some v /\ hp_fields H2 (snd r) "exx"%string = Some w /\ fst v <> fst w.
Proof. exact failed_plot. Qed.
Print Assumptions C85_failed_plot.

(* ------------------------------------------------- C86 *)
(* missing: strains with NLgeom=False, and the transverse components *)
Theorem C86_plot_shows_component_partial : forall sched Bs o c vec xs ys gx gy lo hi ox oy NL X Y v H,
  component_of sched Bs o c None vec xs ys gx gy NL X Y v -> (In vec strain_components -> NL = true) -> snd v <> [] ->
  exists H' d, plot_shell sched Bs o c vec None xs ys gx gy lo hi ox oy NL H = (H', Ok d) /\ pl_field d = v /\
    pl_x d = map (fun y => y + oy) (snd Y) /\ pl_y d = map (fun x => x + ox) (snd X) /\
    limit lo (least (snd v)) (pl_min d) /\ limit hi (greatest (snd v)) (pl_max d).
Proof. exact plot_shows. Qed.
Print Assumptions C86_plot_shows_component_partial.
Theorem C86_refuted : exists o c xs ys gx gy H X Y v H' d,
  component_of (fun l => l) vec_basis o c None "exx" xs ys gx gy false X Y v /\
  plot_shell (fun l => l) vec_basis o c "exx" None xs ys gx gy None None 0 0 false H = (H', Ok d) /\ snd (pl_field d) <> snd v.
Proof. exact nonlinear_shown. Qed.
Print Assumptions C86_refuted.
(* the documented components gyz, gxz, Qy and Qx can never be plotted, whatever was called before *)
Theorem C86_transverse_components_never_plotted : forall sched Bs vec, In vec ["gyz"; "gxz"; "Qy"; "Qx"]%string ->
  forall ks H, (forall l, hp_fields H l vec = None) -> forall o c d xs ys gx gy lo hi ox oy NL H' v,
  plot_shell sched Bs o c vec d xs ys gx gy lo hi ox oy NL (fold_left (run_call sched Bs) ks H) <> (H', Ok v).
Proof. exact transverse_never. Qed.
Print Assumptions C86_transverse_components_never_plotted.
Example C86_case : forall l, hp_fields new_heap l "gyz"%string = None.
Proof. reflexivity. Qed.

(* ------------------------------------------------- C87 *)
(* the points are moved by +sf*v along y; along x they are moved by -sf*u, the wrong way *)
Theorem C87_deformed_positions_partial : forall sched Bs o c vec xs ys gx gy lo hi sf ox oy NL X Y v us H,
  component_of sched Bs o c None vec xs ys gx gy NL X Y v -> (In vec strain_components -> NL = true) -> snd v <> [] ->
  List.length (snd Y) = List.length (snd X) ->
  snd (shell_uvw sched Bs (fo_cores o) c xs ys gx gy (fo_panel o)) = Ok ((X, Y), us) ->
  exists H' d, plot_shell sched Bs o c vec (Some sf) xs ys gx gy lo hi ox oy NL H = (H', Ok d) /\ pl_field d = v /\
    List.length (pl_x d) = List.length (snd X) /\ List.length (pl_y d) = List.length (snd X) /\
    forall q, (q < List.length (snd X))%nat ->
      nth q (pl_x d) 0 = nth q (snd Y) 0 + oy + sf * nth q (nth 1 us []) 0 /\
      nth q (pl_y d) 0 = nth q (snd X) 0 + ox - sf * nth q (nth 0 us []) 0.
Proof. exact plot_deforms. Qed.
Print Assumptions C87_deformed_positions_partial.
Theorem C87_refuted : exists o c xs ys gx gy H X Y us H' d sf,
  0 < sf /\ snd (shell_uvw (fun l => l) vec_basis (fo_cores o) c xs ys gx gy (fo_panel o)) = Ok ((X, Y), us) /\
  plot_shell (fun l => l) vec_basis o c "w" (Some sf) xs ys gx gy None None 0 0 true H = (H', Ok d) /\
  exists q, (q < List.length (snd X))%nat /\ nth q (pl_y d) 0 <> nth q (snd X) 0 + sf * nth q (nth 0 us []) 0.
Proof. exact moved_backwards. Qed.
Print Assumptions C87_refuted.

(* ------------------------------------------------- C88 *)
(* the limits are the extremes over all panels of the group at the points of the default grid, or at the Gauss points;
   missing: the positions given as xs and ys, and the transverse components *)
Theorem C88_group_limits_partial : forall sched Bv c group vec xs ys gx gy gauss xg yg lo hi k m w s w1 s1 fs,
  group_call sched Bv c group vec gx gy gauss xg yg k m -> m w s = (w1, s1, Ok fs) -> (exists f, In f fs /\ nth k (snd f) [] <> []) ->
  exists a b, asm_plot_data sched Bv c group vec xs ys gx gy gauss xg yg lo hi w s = (w1, s1, Ok (a, b)) /\
    limit lo (least (flat_map (fun f => nth k (snd f) []) fs)) a /\ limit hi (greatest (flat_map (fun f => nth k (snd f) []) fs)) b.
Proof. exact asm_plot_limits. Qed.
Print Assumptions C88_group_limits_partial.
Example C88_case : let w := plates (fun _ => 2) in exists fs, asm_uvw (fun l => l) exact_basis [0; 0; 1; 0; 0; 0] 0 1 1 w plates_asm = (w, plates_asm, Ok fs) /\
  flat_map (fun f => nth 2 (snd f) []) fs = [1; 0].
Proof. exact plates_grid. Qed.
(* with xs and ys given, the limits are not those at these positions *)
Theorem C88_refuted : exists w s c x y lo hi,
  assembled w s /\ asm_plot_data (fun l => l) exact_basis c 0 "w" (one_point x) (one_point y) 1 1 false None None None None w s = (w, s, Ok (lo, hi)) /\
  forall i, In i (as_panels s) -> exists XY vs,
    one_uvw (fun l => l) exact_basis (as_cores s) (w_panel w i) c (([1%nat], [x]), ([1%nat], [y])) = Ok (XY, vs) /\ forall v, In v (nth 2 vs []) -> v < hi.
Proof. exact positions_ignored. Qed.
Print Assumptions C88_refuted.
Theorem C88_transverse_components_never_plotted : forall sched Bv c group vec xs ys gx gy gauss xg yg lo hi w s, In vec ["gyz"; "gxz"; "Qy"; "Qx"]%string ->
  forall r, snd (asm_plot_data sched Bv c group vec xs ys gx gy gauss xg yg lo hi w s) <> Ok r.
Proof. exact asm_plot_transverse. Qed.
Print Assumptions C88_transverse_components_never_plotted.
