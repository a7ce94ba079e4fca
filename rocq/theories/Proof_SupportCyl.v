(* Supports of cylinders. *)
From Coq Require Import Reals List Arith Bool Lia Lra.
From Coquelicot Require Import Coquelicot.
From Verif Require Import Base_Sum Model_Types Model_Coo Model_Result Model_Num Model_DB Model_Shell Model_Bardell Model_Field Model_Fext Model_Multi Model_New Model_Cylinder
  Spec_Quadrature Spec_Algebra Spec_Kinematics Spec_Integral Spec_Bardell Spec_Panel Spec_Shell Spec_Fext Spec_Field Spec_Conn Spec_Multi Spec_MultiConn Spec_Cylinder Spec_Support
  Proof_Cylinder Proof_CylBlade Proof_Support Proof_SupportTop.
From Coq Require Import List.
Import ListNotations.
Open Scope R_scope.

(* a panel whose ends x = 0 and x = a are held, u at x = a unless f = 1, the other edges free *)
Definition held_ends (p : panel) (f : R) : Prop := 0 < sh_a (pn_sh p) /\ 0 < sh_b (pn_sh p) /\ (sh_m (pn_sh p) <= 30)%nat /\ (sh_n (pn_sh p) <= 30)%nat /\
  forall c, (c < 3)%nat -> xedge (pn_sh p) c = mkEdge 0 1 (match c with 0%nat => f | _ => 0 end) 1 /\ yedge (pn_sh p) c = free_edge.
Section Ends.
Variables (h : nat -> xpanel) (i : nat) (f : R).
Hypothesis HE : held_ends (xp (h i)) f.
Notation a := (sh_a (pn_sh (xp (h i)))).
Notation b := (sh_b (pn_sh (xp (h i)))).
Lemma ends_rest Bs t c : shape_data Bs t -> (c < 3)%nat -> rests_x Bs t h i c 0 /\ (c <> 0%nat \/ f = 0 -> rests_x Bs t h i c a).
Proof using HE.
  destruct HE as (H1 & H2 & H3 & H4 & H5). intros HS Hc. destruct (H5 c Hc) as [E1 E2]. destruct (view_edges (xp (h i)) c Hc) as [V1 V2]. split.
  - apply rest_x0; try assumption. unfold geometry. rewrite V1, E1. reflexivity.
  - intro Hf. change a with (sh_a (geometry h i)). apply rest_x1; try assumption. unfold geometry. rewrite V1, E1. cbn [e2t]. destruct c; [destruct Hf as [Hf|Hf]; [congruence|exact Hf]|reflexivity].
Qed.
Lemma ends_move c : (3 <= sh_m (pn_sh (xp (h i))))%nat -> (3 <= sh_n (pn_sh (xp (h i))))%nat -> (c < 3)%nat -> moves_y h i c 0 /\ moves_y h i c b /\ (c = 0%nat -> f = 1 -> moves_x h i c a).
Proof using HE.
  destruct HE as (H1 & H2 & H3 & H4 & H5). intros M3 N3 Hc. destruct (H5 c Hc) as [E1 E2]. destruct (view_edges (xp (h i)) c Hc) as [V1 V2]. split; [|split].
  - apply move_y0; try assumption; unfold geometry; [rewrite V2, E2|rewrite V1, E1]; reflexivity.
  - change b with (sh_b (geometry h i)). apply move_y1; try assumption; unfold geometry; [rewrite V2, E2|rewrite V1, E1]; reflexivity.
  - intros C0 F1. change a with (sh_a (geometry h i)). apply move_x1; try assumption; unfold geometry; [rewrite V1, E1, C0; exact F1|rewrite V2, E2; reflexivity].
Qed.
End Ends.
Lemma held_x2u p f v : held_ends p f -> held_ends (with_x2u p v) v.
Proof.
  intros (H1 & H2 & H3 & H4 & H5). unfold held_ends, with_x2u, with_edges. cbn [pn_sh sh_a sh_b sh_m sh_n]. split; [exact H1|]. split; [exact H2|]. split; [exact H3|]. split; [exact H4|].
  intros c Hc. destruct (H5 0%nat ltac:(lia)) as [E1 _]. cbn [xedge] in E1. destruct (H5 c Hc) as [E3 E4].
  destruct c as [|c]; [|do 2 (destruct c as [|c]; [split; [exact E3|exact E4]|]); lia].
  split; [cbn [xedge sh_xu]; rewrite E1; reflexivity|exact E4].
Qed.
Lemma held_Nxx p f N : held_ends p f -> held_ends (with_Nxx p N) f.
Proof. exact (fun H => H). Qed.
Lemma held_supported h i (u : bool) Bs t : held_ends (xp (h i)) (if u then 1 else 0) -> shape_data Bs t -> supported_ends Bs t h i (sh_a (pn_sh (xp (h i)))) u.
Proof.
  intros H HS. split; [intros k Hk; apply (ends_rest h i _ H Bs t k HS Hk)|]. split; [apply (ends_rest h i _ H Bs t 1 HS); lia|]. split; [apply (ends_rest h i _ H Bs t 2 HS); lia|].
  intros ->. apply (ends_rest h i _ H Bs t 0 HS); [lia|right; reflexivity].
Qed.
Lemma held_free h i (u : bool) : held_ends (xp (h i)) (if u then 1 else 0) -> (3 <= sh_m (pn_sh (xp (h i))))%nat -> (3 <= sh_n (pn_sh (xp (h i))))%nat ->
  free_sides h i (sh_a (pn_sh (xp (h i)))) (sh_b (pn_sh (xp (h i)))) u.
Proof.
  intros H M3 N3. split; [intros k Hk; destruct (ends_move h i _ H k M3 N3 Hk) as (A & B & _); auto|]. intros ->. apply (ends_move h i _ H 0 M3 N3); [lia|reflexivity|reflexivity].
Qed.
Lemma width_pos r n : 0 < r -> (2 <= n)%nat -> 0 < 2 * PI * r / INR n.
Proof. intros Hr Hn. apply Rdiv_lt_0_compat; [pose proof PI_RGT_0; nra|apply (lt_INR 0); lia]. Qed.
Section Cyl.
Variables (height r : R) (stack : list R) (plyt : R) (laminaprop : list R) (n m n' k q : nat) (w : world).
Hypotheses (Hh : 0 < height) (Hr : 0 < r) (Hm : (3 <= m <= 30)%nat) (Hn' : (3 <= n' <= 30)%nat).
Notation b := (2 * PI * r / INR n).
Lemma held_cyl_shell : (2 <= n)%nat -> held_ends (cyl_shell height r stack plyt laminaprop n m n') 0.
Proof using Hh Hr Hm Hn'.
  intro Hn. split; [exact Hh|]. split; [exact (width_pos r n Hr Hn)|]. split; [cbn; lia|]. split; [cbn; lia|].
  intros c Hc. do 3 (destruct c as [|c]; [split; reflexivity|]). lia.
Qed.
Definition all_supported (h : nat -> xpanel) (i : nat) (wd : R) (u : bool) : Prop :=
  (forall Bs t, shape_data Bs t -> supported_ends Bs t h i height u) /\ free_sides h i height wd u.
Lemma by_held (h : nat -> xpanel) (i : nat) (wd : R) (u : bool) : held_ends (xp (h i)) (if u then 1 else 0) -> sh_a (pn_sh (xp (h i))) = height -> sh_b (pn_sh (xp (h i))) = wd -> sh_m (pn_sh (xp (h i))) = m -> sh_n (pn_sh (xp (h i))) = n' -> all_supported h i wd u.
Proof using Hm Hn'.
  intros H Ea Eb Em En. split.
  - intros Bs t HS. rewrite <- Ea. apply held_supported; assumption.
  - rewrite <- Ea, <- Eb. apply held_free; [exact H|lia|lia].
Qed.
Lemma created : forall w' s, create_cylinder_assy height r stack plyt laminaprop n m n' k q w = (w', Ok s) -> (2 <= n)%nat /\ w' = cyl_world height r stack plyt laminaprop n m n' k q w.
Proof using All.
  intros w' s H. destruct (Nat.ltb_spec n 2) as [Hlt|Hge]; [unfold create_cylinder_assy in H; destruct (Nat.ltb_spec n 2); [discriminate|lia]|].
  rewrite cyl_create in H by exact Hge. injection H as <- _. auto.
Qed.
Theorem cyl_supports : forall w' s i, create_cylinder_assy height r stack plyt laminaprop n m n' k q w = (w', Ok s) -> (i < n)%nat -> all_supported (w_panel w') (k + i) b false.
Proof using All.
  intros w' s i H Hi. destruct (created w' s H) as [Hn ->]. destruct (cyl_panel height r stack plyt laminaprop n m n' k q w i Hi) as (E & _).
  apply by_held; rewrite ?E; [exact (held_cyl_shell Hn)|reflexivity..].
Qed.
Theorem cyl_constant_supports : forall Nxxs w' s i, create_cylinder_assy height r stack plyt laminaprop n m n' k q w = (w', Ok s) -> (i < n)%nat -> all_supported (w_panel (set_constant_loads n k Nxxs w')) (k + i) b true.
Proof using All.
  intros Nxxs w' s i H Hi. destruct (created w' s H) as [Hn ->]. destruct (cyl_panel height r stack plyt laminaprop n m n' k q w i Hi) as (E & _).
  assert (EW : xp (w_panel (set_constant_loads n k Nxxs (cyl_world height r stack plyt laminaprop n m n' k q w)) (k + i)) = with_x2u (with_Nxx (cyl_shell height r stack plyt laminaprop n m n') (nth i Nxxs 0)) 1).
  { unfold set_constant_loads. rewrite (loop_object (fun i o => with_panel o (with_x2u (with_Nxx (xp o) (nth i Nxxs 0)) 1))) by exact Hi. cbn [with_panel xp]. rewrite E. reflexivity. }
  apply by_held; rewrite ?EW; [|reflexivity..]. apply (held_x2u _ 0). apply held_Nxx. exact (held_cyl_shell Hn).
Qed.
Theorem cyl_static_supports : forall Nxxs w' s i, cylinder_static_world height r stack plyt laminaprop n m n' k q Nxxs w = Ok (w', s) -> (i < n)%nat -> all_supported (w_panel w') (k + i) b true.
Proof using All.
  intros Nxxs w' s i H Hi. unfold cylinder_static_world in H. destruct (create_cylinder_assy height r stack plyt laminaprop n m n' k q w) as [w1 [s1|e]] eqn:EC; [|discriminate].
  destruct (created w1 s1 EC) as [Hn ->]. destruct (negb _); [discriminate|]. injection H as <- <-. destruct (cyl_panel height r stack plyt laminaprop n m n' k q w i Hi) as (E & _).
  match goal with |- all_supported (w_panel ?W) _ _ _ => assert (EW : xp (w_panel W (k + i)) = with_x2u (cyl_shell height r stack plyt laminaprop n m n') 1) end.
  { unfold set_static_loads. rewrite (loop_object (fun i o => with_panel (edge_load (sh_a (pn_sh (xp o))) (literal_Nxxs Nxxs (n - 1)) o) (with_x2u (xp o) 1))) by exact Hi. cbn [with_panel xp]. rewrite E. reflexivity. }
  apply by_held; rewrite ?EW; [|reflexivity..]. apply (held_x2u _ 0). exact (held_cyl_shell Hn).
Qed.
Theorem cyl_spla_supports : forall Nxx SPLA w' s i, cylinder_spla_world height r stack plyt laminaprop n m n' k q Nxx SPLA w = Ok (w', s) -> (i < n)%nat -> all_supported (w_panel w') (k + i) b true.
Proof using All.
  intros Nxx SPLA w' s i H Hi. unfold cylinder_spla_world in H. destruct (create_cylinder_assy height r stack plyt laminaprop n m n' k q w) as [w1 [s1|e]] eqn:EC; [|discriminate].
  destruct (created w1 s1 EC) as [Hn ->]. injection H as <- <-. destruct (cyl_panel height r stack plyt laminaprop n m n' k q w i Hi) as (E & _).
  match goal with |- all_supported (w_panel ?W) _ _ _ => assert (EW : xp (w_panel W (k + i)) = with_x2u (cyl_shell height r stack plyt laminaprop n m n') 1) end.
  { unfold set_spla_loads. cbv zeta. unfold on_object at 1. unfold put_panel at 1, put at 1; cbn [w_panel].
    pose proof (loop_object (fun _ o => edge_load (sh_a (pn_sh (xp o))) (fun y : R => Nxx_of (xp (w_panel (cyl_world height r stack plyt laminaprop n m n' k q w) (k + (n - 1))))) (with_panel o (with_x2u (xp o) 1))) k n (cyl_world height r stack plyt laminaprop n m n' k q w) i) as EL.
    specialize (EL Hi). apply (f_equal xp) in EL. cbn [edge_load with_loads with_panel xp] in EL. rewrite E in EL.
    destruct (Nat.eqb_spec (k + i) k) as [H0|H0]; [|exact EL]. cbn [with_loads xp]. rewrite H0 in EL. exact EL. }
  apply by_held; rewrite ?EW; [|reflexivity..]. apply (held_x2u _ 0). exact (held_cyl_shell Hn).
Qed.
End Cyl.
Section Blades.
Variables (height r : R) (stack : list R) (stack_blades : list (list R)) (width_blades : list R) (plyt : R) (laminaprop : list R) (n m n' k q : nat) (w : world).
Hypotheses (Hh : 0 < height) (Hr : 0 < r) (Hm : (3 <= m <= 30)%nat) (Hn' : (3 <= n' <= 30)%nat) (Hwb : forall i, (i < n)%nat -> 0 < nth i width_blades 0).
Definition cb_width (i : nat) : R := if (i <? n)%nat then 2 * PI * r / INR n else nth (i - n) width_blades 0.
Lemma held_placed i : (2 <= n)%nat -> (i < n + n)%nat -> held_ends (np_panel (cb_placed height r stack stack_blades width_blades plyt laminaprop n m n' i)) 0 /\
  sh_a (pn_sh (np_panel (cb_placed height r stack stack_blades width_blades plyt laminaprop n m n' i))) = height /\ sh_b (pn_sh (np_panel (cb_placed height r stack stack_blades width_blades plyt laminaprop n m n' i))) = cb_width i /\
  sh_m (pn_sh (np_panel (cb_placed height r stack stack_blades width_blades plyt laminaprop n m n' i))) = m /\ sh_n (pn_sh (np_panel (cb_placed height r stack stack_blades width_blades plyt laminaprop n m n' i))) = n'.
Proof using All.
  intros Hn Hi. unfold cb_placed, cb_width. destruct (Nat.ltb_spec i n) as [H|H].
  - split; [|repeat split]. split; [exact Hh|]. split; [exact (width_pos r n Hr Hn)|]. split; [cbn; lia|]. split; [cbn; lia|]. intros c Hc. do 3 (destruct c as [|c]; [split; reflexivity|]). lia.
  - split; [|repeat split]. split; [exact Hh|]. split; [exact (Hwb (i - n)%nat ltac:(lia))|]. split; [cbn; lia|]. split; [cbn; lia|]. intros c Hc. do 3 (destruct c as [|c]; [split; reflexivity|]). lia.
Qed.
Lemma blade_created : forall w' s, create_cylinder_blade_stiffened height r stack plyt laminaprop n m n' stack_blades width_blades k q w = (w', Ok s) -> (2 <= n)%nat /\ w' = cb_world height r stack stack_blades width_blades plyt laminaprop n m n' k q w.
Proof using All.
  intros w' s EC. assert (Hn : (2 <= n)%nat /\ length stack_blades = n /\ length width_blades = n).
  { unfold create_cylinder_blade_stiffened in EC. destruct (Nat.ltb_spec n 2); [discriminate|].
    destruct (Nat.eqb_spec (length stack_blades) n); [|discriminate]. destruct (Nat.eqb_spec (length width_blades) n); [|discriminate]. auto. }
  destruct Hn as (Hn & Hs & Hw). rewrite cb_create in EC by assumption. injection EC as <- _. auto.
Qed.
Theorem blade_supports : forall w' s i, create_cylinder_blade_stiffened height r stack plyt laminaprop n m n' stack_blades width_blades k q w = (w', Ok s) -> (i < n + n)%nat -> all_supported height (w_panel w') (k + i) (cb_width i) false.
Proof using All.
  intros w' s i H Hi. destruct (blade_created w' s H) as [Hn ->]. destruct (cb_panel height r stack stack_blades width_blades plyt laminaprop n m n' k q w Hn i Hi) as (E & _).
  destruct (held_placed i Hn Hi) as (A & B & C & M & N). apply (by_held height m n' Hm Hn'); rewrite ?E; assumption.
Qed.
Theorem blade_static_supports : forall Nskin Nblade w' s i, cylinder_blade_static_world height r stack stack_blades width_blades plyt laminaprop n m n' k q Nskin Nblade w = Ok (w', s) -> (i < n + n)%nat -> all_supported height (w_panel w') (k + i) (cb_width i) true.
Proof using All.
  intros Nskin Nblade w' s i H Hi. unfold cylinder_blade_static_world in H.
  destruct (create_cylinder_blade_stiffened height r stack plyt laminaprop n m n' stack_blades width_blades k q w) as [w1 [s1|e]] eqn:EC; [|discriminate].
  destruct (blade_created w1 s1 EC) as [Hn ->]. destruct (negb _); [discriminate|]. destruct (negb _); [discriminate|]. injection H as <- <-.
  destruct (cb_panel height r stack stack_blades width_blades plyt laminaprop n m n' k q w Hn i Hi) as (E & _). destruct (held_placed i Hn Hi) as (A & B & C & M & N).
  match goal with |- all_supported _ (w_panel ?W) _ _ _ => assert (EW : xp (w_panel W (k + i)) = with_x2u (np_panel (cb_placed height r stack stack_blades width_blades plyt laminaprop n m n' i)) 1) end.
  { unfold set_blade_static_loads. rewrite (loop_object (fun i o => edge_load (sh_a (pn_sh (xp o))) (fun y => blade_Nxx n Nskin Nblade (n + n - 1)) (with_panel o (with_x2u (xp o) 1)))) by lia. cbn [edge_load with_loads with_panel xp]. rewrite E. reflexivity. }
  apply (by_held height m n' Hm Hn'); rewrite ?EW; try assumption. exact (held_x2u _ 0 1 A).
Qed.
End Blades.
