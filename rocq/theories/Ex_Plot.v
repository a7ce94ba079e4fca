(* Examples and counterexamples for the fields kept on an object and for the plots. *)
From Coq Require Import Reals List Arith Bool String Lia Lra Permutation.
From Verif Require Import Base_Sum Model_Types Model_Coo Model_Result Model_DB Model_Bardell Model_Shell Model_Field Model_Fext Model_Conn Model_Multi Model_Plot Spec_Panel Spec_Field Spec_Plot Spec_Kinematics Spec_Quadrature Spec_Bardell Spec_Multi
  Proof_Shell Proof_Field Proof_FieldApi Proof_FieldDeriv Proof_FieldEdge Proof_Multi Proof_MultiTop Proof_Plot Proof_PlotData Ex_Panel Ex_Exact Ex_Fint Ex_Field Ex_Multi.
From Coq Require Import List.
Import ListNotations.
Open Scope R_scope.

(* one object, with new dictionaries *)
Definition one_object : field_object := mkFobject one_field 1 0 0.
Definition new_heap : heap := mkHeap (fun _ => no_fields) (fun _ => (None, None)) 1.
Notation straight := (fun l : list store => l).
Lemma straight_perm : forall l : list store, Permutation (straight l) l.
Proof. intro. apply Permutation_refl. Qed.

Lemma one_moves c x y k : (k < 3)%nat -> uvw_at vec_basis (kernel_view one_field) (vec c) k x y = nth k c 0 * F0 (natural x 2) * F0 (natural y 3).
Proof.
  intro Hk. unfold uvw_at. set (s := kernel_view one_field).
  destruct k as [|[|[|k]]]; try lia; unfold d_u, d_v, d_w, fld, ritz;
  change (xedge s 0) with free; change (yedge s 0) with free; change (xedge s 1) with free; change (yedge s 1) with free; change (xedge s 2) with free; change (yedge s 2) with free;
  change (sh_m s) with 1%nat; change (sh_n s) with 1%nat; change (sh_a s) with 2; change (sh_b s) with 3; cbn [sumn];
  rewrite !(vec_shape _ 0) by lia; rewrite !shape0; unfold vec; cbn [Nat.mul Nat.add]; ring.
Qed.
Lemma middle : F0 (natural 1 2) = 1 / 2 /\ F0 (natural (3/2) 3) = 1 / 2.
Proof.
  assert (N1 : natural 1 2 = 0) by (unfold natural; field). assert (N2 : natural (3/2) 3 = 0) by (unfold natural; field).
  rewrite N1, N2. unfold F0. split; field.
Qed.
Definition one_result (c : list R) (x y : R) : (ndarray * ndarray) * list (list R) :=
  ((([1%nat], [x]), ([1%nat], [y])), map (fun k => [uvw_at vec_basis (kernel_view one_field) (vec c) k x y]) (seq 0 5)).
Lemma one_uvw_ok c x y gx gy : List.length c = 3%nat -> snd (shell_uvw straight vec_basis 1 c (one_point x) (one_point y) gx gy one_field) = Ok (one_result c x y).
Proof.
  intro Hc. rewrite (shell_uvw_runs straight vec_basis 1 c (one_point x) (one_point y) gx gy one_field PlateModel _ straight_perm eq_refl (default_one _ _ _ _ _)); [reflexivity|].
  unfold guard_ok. cbn [fst snd List.length]. rewrite Hc. cbn. repeat split; lia.
Qed.
Definition one_strains (NL : bool) (c : list R) (x y : R) : (ndarray * ndarray) * list (list R) :=
  ((([1%nat], [x]), ([1%nat], [y])), map (fun k => [strain_at NL vec_basis (kernel_view one_field) (vec c) k x y]) (seq 0 6)).
Lemma one_strain_ok NL c x y gx gy : List.length c = 3%nat -> snd (shell_strain straight vec_basis 1 c (one_point x) (one_point y) gx gy NL one_field) = Ok (one_strains NL c x y).
Proof.
  intro Hc. rewrite (shell_strain_runs straight vec_basis 1 c (one_point x) (one_point y) gx gy NL one_field PlateModel _ straight_perm ltac:(cbn; lra) ltac:(cbn; lra) eq_refl ltac:(discriminate) (default_one _ _ _ _ _)); [reflexivity|].
  unfold guard_ok. cbn [fst snd List.length]. rewrite Hc. cbn. repeat split; lia.
Qed.
Definition points2 : option ndarray := Some ([2%nat], [1; 1]).
Lemma two_strains_ok NL c gx gy : List.length c = 3%nat -> exists vs, snd (shell_strain straight vec_basis 1 c points2 points2 gx gy NL one_field) = Ok ((([2%nat], [1; 1]), ([2%nat], [1; 1])), vs).
Proof.
  intro Hc. rewrite (shell_strain_runs straight vec_basis 1 c points2 points2 gx gy NL one_field PlateModel (([2%nat], [1; 1]), ([2%nat], [1; 1])) straight_perm ltac:(cbn; lra) ltac:(cbn; lra) eq_refl ltac:(discriminate) eq_refl); [eexists; reflexivity|].
  unfold guard_ok. cbn [fst snd List.length]. rewrite Hc. cbn. repeat split; lia.
Qed.
Lemma one_comp_uvw c x y gx gy k vec : List.length c = 3%nat -> nth_error uvw_components k = Some vec ->
  component_of straight vec_basis one_object c None vec (one_point x) (one_point y) gx gy true ([1%nat], [x]) ([1%nat], [y]) ([1%nat], nth k (snd (one_result c x y)) []).
Proof. intros Hc Hk. exists k, (snd (one_result c x y)). split; [reflexivity|]. left. split; [exact Hk|]. apply one_uvw_ok. exact Hc. Qed.

Lemma one_kept c x y gx gy H : List.length c = 3%nat ->
  obj_uvw straight vec_basis one_object c (one_point x) (one_point y) gx gy H = (keep one_object H displ_names (one_result c x y), Ok (0%nat, 0%nat)).
Proof. intro Hc. unfold obj_uvw. change (fo_panel one_object) with one_field. change (fo_cores one_object) with 1%nat. rewrite one_uvw_ok by exact Hc. reflexivity. Qed.
Lemma one_field_of c x y H k vec : nth_error uvw_components k = Some vec -> (k < 3)%nat ->
  hp_fields (keep one_object H displ_names (one_result c x y)) 0 vec = Some ([1%nat], [nth k c 0 * F0 (natural x 2) * F0 (natural y 3)]).
Proof.
  intros Hk Hl. unfold one_result. change 0%nat with (fo_fields one_object) at 1. rewrite keep_fields. rewrite (put_at _ _ _ _ _ _ (pos_displ _ _ Hk)).
  cbn [fst]. rewrite <- (one_moves c x y k Hl). f_equal. f_equal. destruct k as [|[|[|k]]]; try lia; reflexivity.
Qed.

(* C83 *)
Theorem overwritten : exists o H c c' xs ys gx gy H1 H2 r r2 v w,
  obj_uvw straight vec_basis o c xs ys gx gy H = (H1, Ok r) /\ obj_uvw straight vec_basis o c' xs ys gx gy H1 = (H2, Ok r2) /\
  hp_fields H1 (snd r) "w"%string = Some v /\ hp_fields H2 (snd r) "w"%string = Some w /\ snd v <> snd w.
Proof.
  exists one_object, new_heap, [0; 0; 1], [0; 0; 2], (one_point 1), (one_point (3/2)), 1%nat, 1%nat. do 6 eexists.
  split; [apply one_kept; reflexivity|]. split; [apply one_kept; reflexivity|].
  split; [apply (one_field_of _ _ _ _ 2); [reflexivity|lia]|]. split; [apply (one_field_of _ _ _ _ 2); [reflexivity|lia]|].
  cbn [snd nth]. destruct middle as [-> ->]. intro E. injection E. lra.
Qed.

(* C84 *)
Theorem mixed_meshes : exists o H c xs ys xs' ys' gx gy H1 H2 r r2 X Y w,
  obj_uvw straight vec_basis o c xs ys gx gy H = (H1, Ok r) /\ obj_strain straight vec_basis o c xs' ys' gx gy true H1 = (H2, Ok r2) /\
  hp_mesh H2 (fst r2) = (Some X, Some Y) /\ hp_fields H2 (snd r2) "w"%string = Some w /\ List.length (snd w) <> List.length (snd X).
Proof.
  destruct (two_strains_ok true [0; 0; 1] 1 1 eq_refl) as [vs Hvs].
  exists one_object, new_heap, [0; 0; 1], (one_point 1), (one_point (3/2)), points2, points2, 1%nat, 1%nat. do 7 eexists.
  split; [apply one_kept; reflexivity|].
  split. { unfold obj_strain. change (fo_panel one_object) with one_field. change (fo_cores one_object) with 1%nat. rewrite Hvs. reflexivity. }
  split. { change (fst (fo_mesh one_object, fo_fields one_object)) with (fo_mesh one_object). apply keep_mesh. }
  split. { change (snd (fo_mesh one_object, fo_fields one_object)) with (fo_fields one_object). rewrite keep_fields. unfold put_fields. change (pos "w" strain_names) with (@None nat).
    apply (one_field_of _ _ _ _ 2); [reflexivity|lia]. }
  cbn. lia.
Qed.

(* a call that fails: strain of a plate without radius *)
Definition flat_field : panel := set_model one_panel (Some (Known PlateModel)).
Definition flat_object : field_object := mkFobject flat_field 1 0 0.
Theorem failed_call : exists o H c xs ys xs' ys' gx gy H1 H2 r e X Y X' Y',
  obj_uvw straight vec_basis o c xs ys gx gy H = (H1, Ok r) /\ obj_strain straight vec_basis o c xs' ys' gx gy true H1 = (H2, Err e) /\
  hp_fields H2 (snd r) = hp_fields H1 (snd r) /\ hp_mesh H1 (fst r) = (Some X, Some Y) /\ hp_mesh H2 (fst r) = (Some X', Some Y') /\
  List.length (snd X) <> List.length (snd X').
Proof.
  assert (E : exists vs, snd (shell_uvw straight vec_basis 1 [0; 0; 1] (one_point 1) (one_point 1) 1 1 flat_field) = Ok ((([1%nat], [1]), ([1%nat], [1])), vs)).
  { rewrite (shell_uvw_runs straight vec_basis 1 [0; 0; 1] (one_point 1) (one_point 1) 1 1 flat_field PlateModel _ straight_perm eq_refl (default_one _ _ _ _ _)); [eexists; reflexivity|].
    unfold guard_ok. cbn. repeat split; lia. }
  destruct E as [vs E].
  exists flat_object, new_heap, [0; 0; 1], (one_point 1), (one_point 1), points2, points2, 1%nat, 1%nat. do 8 eexists.
  split. { unfold obj_uvw. change (fo_panel flat_object) with flat_field. change (fo_cores flat_object) with 1%nat. rewrite E. reflexivity. }
  split. { unfold obj_strain. change (fo_panel flat_object) with flat_field. reflexivity. }
  split; [apply begin_fields|]. split. { change (fst (fo_mesh flat_object, fo_fields flat_object)) with (fo_mesh flat_object). apply keep_mesh. }
  split. { change (fst (fo_mesh flat_object, fo_fields flat_object)) with (fo_mesh flat_object). apply begin_mesh. reflexivity. }
  cbn. lia.
Qed.

(* C85 *)
Theorem mesh_replaced : exists o H c xs ys xs' ys' gx gy H1 H2 r d X Y X' Y',
  obj_uvw straight vec_basis o c xs ys gx gy H = (H1, Ok r) /\ plot_shell straight vec_basis o c "w" None xs' ys' gx gy None None 0 0 true H1 = (H2, Ok d) /\
  hp_mesh H1 (fst r) = (Some X, Some Y) /\ hp_mesh H2 (fst r) = (Some X', Some Y') /\ snd X <> snd X' /\ seen H2 r <> seen H1 r.
Proof.
  set (H1 := keep one_object new_heap displ_names (one_result [0; 0; 1] 1 (3/2))).
  assert (P : exists d, plot_shell straight vec_basis one_object [0; 0; 1] "w" None (one_point 0) (one_point 0) 1 1 None None 0 0 true H1 =
     (set_fields (keep one_object H1 displ_names (one_result [0; 0; 1] 0 0)) 0 (restore (hp_fields H1 0) (hp_fields (keep one_object H1 displ_names (one_result [0; 0; 1] 0 0)) 0)), Ok d)).
  { unfold plot_shell, plot_calc. change (in_names "w" plot_displs) with true. cbv iota. rewrite one_kept by reflexivity. cbn [fst snd].
    change (fo_fields one_object) with 0%nat. rewrite (one_field_of _ _ _ _ 2) by (reflexivity || lia).
    unfold one_result at 1. change (fo_mesh one_object) with (fo_mesh one_object). rewrite keep_mesh. cbn [bound arr_min arr_max snd fold_left]. eexists. reflexivity. }
  destruct P as [d P].
  exists one_object, new_heap, [0; 0; 1], (one_point 1), (one_point (3/2)), (one_point 0), (one_point 0), 1%nat, 1%nat, H1. do 7 eexists.
  split; [apply one_kept; reflexivity|]. split; [exact P|].
  assert (M1 : hp_mesh H1 0 = (Some ([1%nat], [1]), Some ([1%nat], [3/2]))) by reflexivity.
  split; [exact M1|]. split; [reflexivity|].
  assert (N : 1 <> 0) by lra. split; [cbn; intro E; injection E; exact N|].
  intro E. apply (f_equal fst) in E. change (fst (seen H1 (0%nat, 0%nat))) with (hp_mesh H1 0) in E. rewrite M1 in E. cbn in E. injection E. intros _ E1. symmetry in E1. exact (N E1).
Qed.
(* a plot that fails *)
Theorem failed_plot : exists o H c xs ys xs' ys' gx gy H1 H2 r e v w,
  obj_strain straight vec_basis o c xs ys gx gy true H = (H1, Ok r) /\ plot_shell straight vec_basis o c "gyz" None xs' ys' gx gy None None 0 0 true H1 = (H2, Err e) /\
  hp_fields H1 (snd r) "exx"%string = Some v /\ hp_fields H2 (snd r) "exx"%string = Some w /\ fst v <> fst w.
Proof.
  destruct (two_strains_ok true [0; 0; 1] 1 1 eq_refl) as [vs Hvs].
  set (H1 := keep one_object new_heap strain_names (one_strains true [0; 0; 1] 1 1)).
  exists one_object, new_heap, [0; 0; 1], (one_point 1), (one_point 1), points2, points2, 1%nat, 1%nat, H1. do 5 eexists.
  split. { unfold obj_strain. change (fo_panel one_object) with one_field. change (fo_cores one_object) with 1%nat. rewrite one_strain_ok by reflexivity. reflexivity. }
  split. { unfold plot_shell, plot_calc. change (in_names "gyz" plot_displs) with false. change (in_names "gyz" plot_strains) with true. cbv iota.
    unfold obj_strain. change (fo_panel one_object) with one_field. change (fo_cores one_object) with 1%nat. rewrite Hvs. cbn [fst snd]. rewrite keep_fields. reflexivity. }
  split. { reflexivity. } split. { reflexivity. } discriminate.
Qed.

(* C86 *)
Theorem nonlinear_shown : exists o c xs ys gx gy H X Y v H' d,
  component_of straight vec_basis o c None "exx" xs ys gx gy false X Y v /\
  plot_shell straight vec_basis o c "exx" None xs ys gx gy None None 0 0 false H = (H', Ok d) /\ snd (pl_field d) <> snd v.
Proof.
  assert (Q : component_of straight vec_basis one_object one_vec None "exx" (one_point 1) (one_point (3/2)) 1 1 true ([1%nat], [1]) ([1%nat], [3/2])
     ([1%nat], [strain_at true vec_basis (kernel_view one_field) (vec one_vec) 0 1 (3/2)])).
  { exists 0%nat, (snd (one_strains true one_vec 1 (3/2))). split; [reflexivity|]. right. left. split; [reflexivity|]. apply one_strain_ok. reflexivity. }
  destruct (plot_shows straight vec_basis one_object one_vec "exx" (one_point 1) (one_point (3/2)) 1 1 None None 0 0 true _ _ _ new_heap Q (fun _ => eq_refl) ltac:(discriminate)) as (H' & d & P & PF & _).
  exists one_object, one_vec, (one_point 1), (one_point (3/2)), 1%nat, 1%nat, new_heap, ([1%nat], [1]), ([1%nat], [3/2]), ([1%nat], [strain_at false vec_basis (kernel_view one_field) (vec one_vec) 0 1 (3/2)]), H', d.
  split. { exists 0%nat, (snd (one_strains false one_vec 1 (3/2))). split; [reflexivity|]. right. left. split; [reflexivity|]. apply one_strain_ok. reflexivity. }
  split; [exact P|]. rewrite PF. cbn [snd].
  assert (HU : uvw_is straight vec_basis 1 one_field one_vec (uvw_at vec_basis (kernel_view one_field) (vec one_vec))).
  { apply (uvw_is_ok _ _ _ _ _ PlateModel); try reflexivity; try exact straight_perm; try discriminate; cbn; lia. }
  assert (HE : forall NL, strain_is straight vec_basis 1 one_field one_vec NL (strain_at NL vec_basis (kernel_view one_field) (vec one_vec))).
  { intro NL. apply (strain_is_ok _ _ _ _ _ _ PlateModel); try reflexivity; try exact straight_perm; try discriminate; try (cbn; lra); cbn; lia. }
  destruct (strain_nonlinear vec_basis straight 1 one_field one_vec _ _ straight_perm ltac:(cbn; lra) ltac:(cbn; lra) HU _ 1 (3/2) (HE false) (HE true)) as (-> & _).
  destruct (one_slopes 1 (3/2)) as [-> _].
  assert (N1 : natural 1 2 = 0) by (unfold natural; field). assert (N2 : natural (3/2) 3 = 0) by (unfold natural; field).
  rewrite N1, N2. unfold F0, F0'. cbn [pow]. intro E. injection E. lra.
Qed.

(* C87 *)
Theorem moved_backwards : exists o c xs ys gx gy H X Y us H' d sf,
  0 < sf /\ snd (shell_uvw straight vec_basis (fo_cores o) c xs ys gx gy (fo_panel o)) = Ok ((X, Y), us) /\
  plot_shell straight vec_basis o c "w" (Some sf) xs ys gx gy None None 0 0 true H = (H', Ok d) /\
  exists q, (q < List.length (snd X))%nat /\ nth q (pl_y d) 0 <> nth q (snd X) 0 + sf * nth q (nth 0 us []) 0.
Proof.
  destruct (plot_deforms straight vec_basis one_object [1; 0; 0] "w" (one_point 1) (one_point (3/2)) 1 1 None None 1 0 0 true _ _ _ (snd (one_result [1; 0; 0] 1 (3/2))) new_heap
    (one_comp_uvw [1; 0; 0] 1 (3/2) 1 1 2 "w" eq_refl eq_refl) (fun _ => eq_refl) ltac:(discriminate) eq_refl (one_uvw_ok [1; 0; 0] 1 (3/2) 1 1 eq_refl)) as (H' & d & P & _ & _ & _ & PQ).
  exists one_object, [1; 0; 0], (one_point 1), (one_point (3/2)), 1%nat, 1%nat, new_heap. do 3 eexists. exists H', d, 1. split; [lra|]. split; [|split; [exact P|]]. { apply (one_uvw_ok [1; 0; 0] 1 (3/2) 1 1 eq_refl). }
  exists 0%nat. split; [cbn; lia|]. destruct (PQ 0%nat ltac:(cbn; lia)) as [_ E]. cbn [snd] in *. rewrite E.
  change (nth 0 (nth 0 (snd (one_result [1; 0; 0] 1 (3/2))) []) 0) with (uvw_at vec_basis (kernel_view one_field) (vec [1; 0; 0]) 0 1 (3/2)).
  cbn [snd one_result map seq nth]. rewrite one_moves by lia. destruct middle as [-> ->]. cbn [nth]. lra.
Qed.

(* C88 *)
Lemma plate_corner z : uvw_at exact_basis (kernel_view (plate 2)) (vec [0; 0; z]) 2 2 3 = 0.
Proof.
  unfold uvw_at, d_w, fld, ritz. cbn [sh_m sh_n sumn kernel_view plate pn_sh sh_a sh_b xedge yedge shape exact_basis bf vec nth Nat.mul Nat.add].
  unfold flag, free, bardell, natural, vec. cbn [e1t nth Rdiv]. cbn [nth Nat.mul Nat.add]. change (e1t (sh_xw (kernel_view (plate 2)))) with 1. change (e1t (sh_yw (kernel_view (plate 2)))) with 1. field.
Qed.
Lemma plate_corner_field c o : (o + 3 <= List.length c)%nat ->
  one_uvw straight exact_basis 4 (mkXp (plate 2) 0 no_loads (Some o) (Some (o + 3)%nat)) c (([1%nat], [2]), ([1%nat], [3])) =
  Ok ((([1%nat], [2]), ([1%nat], [3])), map (fun k => [uvw_at exact_basis (kernel_view (plate 2)) (vec (firstn 3 (skipn o c))) k 2 3]) (seq 0 5)).
Proof.
  intro Hc. unfold one_uvw. cbn [pn_model plate xp xp_start xp_end]. unfold pslice. cbn [default].
  replace (o + 3 - o)%nat with 3%nat by lia.
  rewrite fuvw_values; [reflexivity|intro; apply Permutation_refl|].
  unfold guard_ok. split; [discriminate|]. split; [cbn; lia|]. split; [cbn; lia|]. split; [|reflexivity].
  rewrite firstn_length, skipn_length. change (3 * (sh_m (kernel_view (plate 2)) * sh_n (kernel_view (plate 2))))%nat with 3%nat. lia.
Qed.
Lemma plates_grid : let w := plates (fun _ => 2) in exists fs, asm_uvw straight exact_basis [0; 0; 1; 0; 0; 0] 0 1 1 w plates_asm = (w, plates_asm, Ok fs) /\
  flat_map (fun f => nth 2 (snd f) []) fs = [1; 0].
Proof.
  intro w.
  assert (H0 : w_panel w 0%nat = mkXp (plate 2) 0 no_loads (Some 0%nat) (Some 3%nat)) by reflexivity.
  assert (H1 : w_panel w 1%nat = mkXp (plate 2) 0 no_loads (Some 3%nat) (Some 6%nat)) by reflexivity.
  eexists. split.
  - unfold asm_uvw. f_equal. cbn [as_panels plates_asm group_grid as_cores]. rewrite H0, H1. cbn [xp_group xp Nat.eqb].
    rewrite !linspace_one. rewrite (plate_field 2 _ 0) by (cbn; lia). rewrite (plate_field 2 _ 3) by (cbn; lia). cbn [rbind]. reflexivity.
  - cbn [nth snd map seq meshgrid flat_map fst app point_values combine skipn firstn]. rewrite !plate_w. reflexivity.
Qed.
Theorem positions_ignored : exists w s c x y lo hi,
  assembled w s /\ asm_plot_data straight exact_basis c 0 "w" (one_point x) (one_point y) 1 1 false None None None None w s = (w, s, Ok (lo, hi)) /\
  forall i, In i (as_panels s) -> exists XY vs,
    one_uvw straight exact_basis (as_cores s) (w_panel w i) c (([1%nat], [x]), ([1%nat], [y])) = Ok (XY, vs) /\ forall v, In v (nth 2 vs []) -> v < hi.
Proof.
  set (w := plates (fun _ => 2)). destruct plates_grid as (fs & E & F). fold w in E.
  assert (C : group_call straight exact_basis [0; 0; 1; 0; 0; 0] 0 "w" 1 1 false None None 2 (asm_uvw straight exact_basis [0; 0; 1; 0; 0; 0] 0 1 1)) by (left; split; reflexivity).
  assert (N : exists f, In f fs /\ nth 2 (snd f) [] <> []).
  { assert (In 1 (flat_map (fun f => nth 2 (snd f) []) fs)) as I by (rewrite F; left; reflexivity).
    apply in_flat_map in I. destruct I as (f & Hf & I). exists f. split; [exact Hf|]. intro Z. rewrite Z in I. destruct I. }
  destruct (asm_plot_limits straight exact_basis [0; 0; 1; 0; 0; 0] 0 "w" (one_point 2) (one_point 3) 1 1 false None None None None 2 _ w plates_asm w plates_asm fs C E N) as (a & b & P & La & Lb).
  exists w, plates_asm, [0; 0; 1; 0; 0; 0], 2, 3, a, b.
  split. { apply (new_assembly_ok [0; 1]%nat None); [discriminate|]. repeat constructor; cbn; intuition lia. }
  split; [exact P|]. rewrite F in Lb. destruct Lb as [_ Lb]. pose proof (Lb 1 (or_introl eq_refl)) as L1.
  assert (H0 : w_panel w 0%nat = mkXp (plate 2) 0 no_loads (Some 0%nat) (Some 3%nat)) by reflexivity.
  assert (H1 : w_panel w 1%nat = mkXp (plate 2) 0 no_loads (Some 3%nat) (Some 6%nat)) by reflexivity.
  intros i [<-|[<-|[]]]; [rewrite H0|rewrite H1]; do 2 eexists.
  - split; [apply (plate_corner_field _ 0); cbn; lia|]. cbn [nth map seq skipn firstn]. rewrite plate_corner. intros v [<-|[]]. lra.
  - split; [apply (plate_corner_field _ 3); cbn; lia|]. cbn [nth map seq skipn firstn]. rewrite plate_corner. intros v [<-|[]]. lra.
Qed.
