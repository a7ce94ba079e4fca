(* Ready-made cylinders have a unique response. *)
From Coq Require Import Reals List Arith Bool Lia Lra.
From Verif Require Import Base_Sum Model_Types Model_Coo Model_Result Model_Num Model_DB Model_Shell Model_Fext Model_Multi Model_New Model_Cylinder
  Spec_Algebra Spec_Kinematics Spec_Integral Spec_Panel Spec_Shell Spec_Bardell Spec_Multi Spec_MultiConn Spec_ConnScale Spec_Modes Spec_Rigid Spec_Tied Spec_AsmResponse Spec_Cylinder
  Proof_Rigid Proof_Tied Proof_TStiffTied Proof_Cylinder Proof_CylBlade Proof_SupportCyl.
From Coq Require Import List.
Import ListNotations.
Open Scope R_scope.

Definition good (E : env) (M : nat) (p : panel) : Prop :=
  complete p /\ 0 < sh_a (pn_sh p) /\ 0 < sh_b (pn_sh p) /\ stiff (rebuilt_lam E p) /\ elastic E p /\ definite 6 (lam_matrix (pn_ortho p) (rebuilt_lam E p)) /\
  (e1t (sh_xu (pn_sh p)) = 0 /\ e1t (sh_xv (pn_sh p)) = 0 /\ e1t (sh_xw (pn_sh p)) = 0 /\ e2t (sh_xw (pn_sh p)) = 0) /\ (sh_m (pn_sh p) <= M)%nat /\ (sh_n (pn_sh p) <= M)%nat.
Lemma good_x2u E M p v : good E M p -> good E M (with_x2u p v).
Proof. intro H. exact H. Qed.
Lemma good_Nxx E M p v : good E M p -> good E M (with_Nxx p v).
Proof. intro H. exact H. Qed.
Lemma sturdy_stiff l : sturdy l -> stiff l.
Proof.
  intros (H & _ & D). assert (P : forall k, (k < 6)%nat -> 0 < lam_matrix false l k k).
  { intros k Hk. specialize (D (fun i => if (i =? k)%nat then 1 else 0)).
    assert (Q : 0 < form 6 (lam_matrix false l) (fun i => if (i =? k)%nat then 1 else 0) (fun i => if (i =? k)%nat then 1 else 0)).
    { apply D. exists k. split; [exact Hk|]. rewrite Nat.eqb_refl. lra. }
    unfold form in Q. do 6 (destruct k as [|k]; [cbn in Q; cbn; lra|]). lia. }
  split; [exact H|]. pose proof (P 0%nat ltac:(lia)) as P0. pose proof (P 1%nat ltac:(lia)) as P1. pose proof (P 3%nat ltac:(lia)) as P3. pose proof (P 4%nat ltac:(lia)) as P4.
  unfold A11, A22, D11, D22. cbn in P0, P1, P3, P4. repeat split; assumption.
Qed.
Definition responsive (E : env) (q : nat) (W : world) (s : assembly) : Prop := one_response E q W s /\ stiff_assembly E q (Some q) W s /\ all_tied q W s.
Section Held.
Variables (E : env) (M q : nat) (W : world) (s : assembly).
Hypothesis HA : assembled W s.
Hypothesis HC : as_kC_conn s = None.
Hypothesis Hl : w_conn W q <> [].
Hypothesis HU : List.Forall (usable (w_panel W) (as_panels s)) (w_conn W q).
Hypothesis HG : forall i, In i (as_panels s) -> good E M (xp (w_panel W i)).
Hypothesis HM : (M <= 30)%nat.
Hypothesis HT : tables_integrate (e_tables E) exact_basis M.
Lemma held_response : responsive E q W s.
Proof using All.
  assert (HS : forall i, In i (as_panels s) -> stiff_panel E (w_panel W) i /\ (sh_m (geometry (w_panel W) i) <= M)%nat /\ (sh_n (geometry (w_panel W) i) <= M)%nat).
  { intros i Hi. destruct (HG i Hi) as (G1 & G2 & G3 & G4 & G5 & G6 & _ & G7 & G8). split; [|split; [exact G7|exact G8]]. split; [|split; [exact G5|exact G6]].
    split; [exact G1|]. split; [exact G2|]. split; [exact G3|exact G4]. }
  assert (HD : forall i, In i (as_panels s) -> tied (w_panel W) (w_conn W q) i).
  { intros i Hi. apply tied_held. destruct (HG i Hi) as (_ & G2 & G3 & _ & _ & _ & (F1 & F2 & F3 & F4) & _).
    apply edge_anchored; [apply Rgt_not_eq; exact G2|apply Rgt_not_eq; exact G3|exact F1|exact F2|exact F3|right; exact F4]. }
  split; [|split; [split; [exact HA|]; split; [exact HC|]; split; [reflexivity|]; split; [exact Hl|]; split; [exact HU|]; exists M; split; [exact HS|]; split; [exact HM|exact HT]|exact HD]].
  destruct (assembly_null E M q (Some q) W s HA HC eq_refl Hl HU HS HM HT) as (w' & s' & K & HR & HK).
  exists w', s', K. split; [exact HR|]. split.
  - intros c HQ i Hi. apply HK in HQ. destruct HQ as [Q1 Q2]. exact (tied_rest E M q (Some q) W s HA HC eq_refl Hl HU HS HM HT c Q1 Q2 i (HD i Hi) Hi).
  - intros c d f. exact (tied_unique E M q (Some q) W s HA HC eq_refl Hl HU HS HM HT K c d f HK HD).
Qed.
End Held.

(* ------------------------------------------------- a loop that changes attributes of the panels *)
Definition kept (h h' : nat -> xpanel) (i : nat) : Prop :=
  xp_start (h' i) = xp_start (h i) /\ xp_end (h' i) = xp_end (h i) /\ width (h' i) = width (h i) /\
  sh_a (geometry h' i) = sh_a (geometry h i) /\ sh_b (geometry h' i) = sh_b (geometry h i) /\ pn_plyts (xp (h' i)) = pn_plyts (xp (h i)).
Lemma laid_kept h h' ids : forall o, (forall i, In i ids -> kept h h' i) -> laid_out h ids o -> laid_out h' ids o.
Proof.
  induction ids as [|i ids IH]; intros o HK HL; [exact I|]. cbn [laid_out] in *. destruct (HK i (or_introl eq_refl)) as (K1 & K2 & K3 & _).
  rewrite K1, K2, K3. destruct HL as (L1 & L2 & L3). split; [exact L1|]. split; [exact L2|]. apply IH; [|exact L3]. intros j Hj. apply HK. right. exact Hj.
Qed.
Lemma assembled_kept W W' s : (forall i, In i (as_panels s) -> kept (w_panel W) (w_panel W') i) -> assembled W s -> assembled W' s.
Proof. intros HK (H1 & H2 & H3). split; [exact H1|]. split; [exact H2|]. exact (laid_kept _ _ _ 0 HK H3). Qed.
Lemma usable_kept h h' ids cn : (forall i, In i ids -> kept h h' i) -> usable h ids cn -> usable h' ids cn.
Proof.
  intros HK (U1 & U2 & U3 & U4). destruct (HK _ U1) as (A1 & _ & _ & A4 & A5 & A6). destruct (HK _ U2) as (B1 & _ & _ & B4 & B5 & B6).
  split; [exact U1|]. split; [exact U2|]. split; [unfold has_keys, pair_keys in *; rewrite A4, A5, A6, B4, B5, B6; exact U3|]. unfold in_order, reversible, start in *. rewrite A1, B1, A4, A5, B4, B5. exact U4.
Qed.
Lemma loop_conn (f : nat -> xpanel -> xpanel) k l : forall w, w_conn (fold_left (fun w i => on_object (f i) (k + i) w) l w) = w_conn w.
Proof. induction l as [|i l IH]; intro w; [reflexivity|]. cbn [fold_left]. rewrite IH. reflexivity. Qed.
Definition touched (o o' : xpanel) : Prop := xp_start o' = xp_start o /\ xp_end o' = xp_end o /\ (xp o' = xp o \/ xp o' = with_x2u (xp o) 1 \/ exists N, xp o' = with_x2u (with_Nxx (xp o) N) 1).
Lemma touched_kept h h' i : touched (h i) (h' i) -> kept h h' i.
Proof. intros (T1 & T2 & T3). unfold kept, width, geometry. rewrite T1, T2. destruct T3 as [->|[->|(N & ->)]]; repeat split; reflexivity. Qed.
Lemma touched_good E M o o' : touched o o' -> good E M (xp o) -> good E M (xp o').
Proof. intros (_ & _ & T3) H. destruct T3 as [->|[->|(N & ->)]]; [exact H|apply good_x2u; exact H|apply good_x2u, good_Nxx; exact H]. Qed.
Section Touch.
Variables (E : env) (M q : nat) (W W' : world) (s : assembly).
Hypothesis HA : assembled W s.
Hypothesis HC : as_kC_conn s = None.
Hypothesis Hl : w_conn W q <> [].
Hypothesis HU : List.Forall (usable (w_panel W) (as_panels s)) (w_conn W q).
Hypothesis HG : forall i, In i (as_panels s) -> good E M (xp (w_panel W i)).
Hypothesis HM : (M <= 30)%nat.
Hypothesis HT : tables_integrate (e_tables E) exact_basis M.
Hypothesis HW : w_conn W' = w_conn W.
Hypothesis HP : forall i, In i (as_panels s) -> touched (w_panel W i) (w_panel W' i).
Lemma touched_response : responsive E q W' s.
Proof using All.
  assert (HK : forall i, In i (as_panels s) -> kept (w_panel W) (w_panel W') i) by (intros i Hi; apply touched_kept; apply HP; exact Hi).
  apply (held_response E M); try assumption.
  - exact (assembled_kept _ _ _ HK HA).
  - rewrite HW. exact Hl.
  - rewrite HW. rewrite List.Forall_forall in *. intros cn Hc. apply (usable_kept _ _ _ _ HK). apply HU. exact Hc.
  - intros i Hi. apply (touched_good E M _ _ (HP i Hi)). apply HG. exact Hi.
Qed.
End Touch.

(* ------------------------------------------------- the cylinders *)
Lemma made_good E M height wd r st plyt lp m n' : 0 < height -> 0 < wd -> r <> Some 0 -> st <> [] -> lp <> [] -> (m <= M)%nat -> (n' <= M)%nat ->
  sturdy (e_lib E st (map (fun _ => plyt) st) (map (fun _ => lp) st) (map (fun _ => 0) st) 0) ->
  good E M (with_edges (new_shell height wd r st (Some plyt) lp 0 m n' 0) (mkEdge 0 1 0 1) (mkEdge 0 1 0 1) (mkEdge 0 1 0 1) free_edge free_edge free_edge).
Proof.
  intros Hh Hw Hr Hst Hlp Hm Hn HS. pose proof (sturdy_stiff _ HS) as HF. destruct HS as (S1 & S2 & S3).
  split; [split; [discriminate|]; split; [exact Hst|]; split; [right; exact Hlp|right; discriminate]|].
  split; [exact Hh|]. split; [exact Hw|]. split; [exact HF|]. split.
  - split; [reflexivity|]. split; [|split; [exact S2|split; [apply definite_psd; exact S3|cbn; nra]]].
    unfold geometry_ok. split; [cbn; lra|]. split; [cbn; lra|]. unfold chosen_model, kernel_view. cbn. destruct r as [r|]; [intros _; congruence|discriminate].
  - split; [exact S3|]. split; [cbn; auto|]. split; [exact Hm|exact Hn].
Qed.
Section Cyl.
Variables (height r : R) (stack : list R) (plyt : R) (laminaprop : list R) (n m n' k q : nat) (w : world) (E : env) (M : nat).
Hypothesis Hh : 0 < height. Hypothesis Hr : 0 < r.
Hypothesis Hst : stack <> []. Hypothesis Hlp : laminaprop <> [].
Hypothesis Hm : (0 < m <= M)%nat. Hypothesis Hn' : (0 < n' <= M)%nat.
Hypothesis HL : sturdy (e_lib E stack (map (fun _ => plyt) stack) (map (fun _ => laminaprop) stack) (map (fun _ => 0) stack) 0).
Hypothesis HM : (M <= 30)%nat.
Hypothesis HT : tables_integrate (e_tables E) exact_basis M.
Notation create := (create_cylinder_assy height r stack plyt laminaprop n m n' k q w).
Lemma cyl_touched : forall W0 W s, create = (W0, Ok s) -> w_conn W = w_conn W0 -> (forall i, (i < n)%nat -> touched (w_panel W0 (k + i)) (w_panel W (k + i))) -> responsive E q W s.
Proof using All.
  intros W0 W s HC HW HP. assert (H2 : (2 <= n)%nat) by (unfold create_cylinder_assy in HC; destruct (Nat.ltb_spec n 2); [discriminate|lia]).
  rewrite cyl_create in HC by exact H2. injection HC as <- <-.
  assert (IN : forall i, In i (seq k n) -> exists j, (j < n)%nat /\ i = (k + j)%nat) by (intros i Hi; apply in_seq in Hi; exists (i - k)%nat; lia).
  apply (touched_response E M q (cyl_world height r stack plyt laminaprop n m n' k q w) W).
  - apply cyl_assembled. exact H2.
  - reflexivity.
  - rewrite cyl_conn by exact H2. destruct n; [lia|discriminate].
  - apply cyl_usable; [exact H2|lia|lia].
  - intros i Hi. destruct (IN i Hi) as (j & Hj & ->). destruct (cyl_panel height r stack plyt laminaprop n m n' k q w j Hj) as (-> & _).
    apply made_good; try assumption; try lia; [apply width_pos; assumption|congruence || (intro Z; injection Z; lra)].
  - exact HM.
  - exact HT.
  - exact HW.
  - intros i Hi. destruct (IN i Hi) as (j & Hj & ->). apply HP. exact Hj.
Qed.
Theorem cyl_response : forall W s, create = (W, Ok s) \/
  (exists W0 Nxxs, create = (W0, Ok s) /\ W = set_constant_loads n k Nxxs W0) \/
  (exists Nxxs, cylinder_static_world height r stack plyt laminaprop n m n' k q Nxxs w = Ok (W, s)) \/
  (exists Nxx SPLA, cylinder_spla_world height r stack plyt laminaprop n m n' k q Nxx SPLA w = Ok (W, s)) -> responsive E q W s.
Proof using All.
  intros W s [HC|[(W0 & Nxxs & HC & ->)|[(Nxxs & HC)|(Nxx & SPLA & HC)]]].
  - apply (cyl_touched W W s HC eq_refl). intros i Hi. split; [reflexivity|]. split; [reflexivity|left; reflexivity].
  - apply (cyl_touched W0 _ s HC); [unfold set_constant_loads; apply (loop_conn (fun i o => with_panel o (with_x2u (with_Nxx (xp o) (nth i Nxxs 0)) 1)))|].
    intros i Hi. unfold set_constant_loads. rewrite (loop_object (fun i o => with_panel o (with_x2u (with_Nxx (xp o) (nth i Nxxs 0)) 1))) by exact Hi.
    split; [reflexivity|]. split; [reflexivity|right; right; eexists; reflexivity].
  - unfold cylinder_static_world in HC. destruct create as [W0 [s1|e]] eqn:EC; [|discriminate]. destruct (negb _); [discriminate|]. injection HC as <- <-.
    apply (cyl_touched W0 _ s1 EC); [unfold set_static_loads; apply (loop_conn (fun i o => with_panel (edge_load (sh_a (pn_sh (xp o))) (literal_Nxxs Nxxs (n - 1)) o) (with_x2u (xp o) 1)))|].
    intros i Hi. unfold set_static_loads. rewrite (loop_object (fun i o => with_panel (edge_load (sh_a (pn_sh (xp o))) (literal_Nxxs Nxxs (n - 1)) o) (with_x2u (xp o) 1))) by exact Hi.
    split; [reflexivity|]. split; [reflexivity|right; left; reflexivity].
  - unfold cylinder_spla_world in HC. destruct create as [W0 [s1|e]] eqn:EC; [|discriminate]. injection HC as <- <-.
    set (g := fun (_ : nat) (o : xpanel) => edge_load (sh_a (pn_sh (xp o))) (fun y : R => Nxx_of (xp (w_panel W0 (k + (n - 1))%nat))) (with_panel o (with_x2u (xp o) 1))).
    apply (cyl_touched W0 _ s1 EC).
    + unfold set_spla_loads. cbv zeta. unfold on_object at 1. unfold put_panel at 1; cbn [w_conn]. apply (loop_conn g).
    + intros i Hi. unfold set_spla_loads. cbv zeta. unfold on_object at 1. unfold put_panel at 1, put at 1; cbn [w_panel].
      pose proof (loop_object g k n W0 i Hi) as EL. unfold g at 1 in EL.
      destruct (Nat.eqb_spec (k + i) k) as [H0|H0].
      * unfold with_loads. rewrite H0 in *. rewrite EL. split; [reflexivity|]. split; [reflexivity|right; left; reflexivity].
      * rewrite EL. split; [reflexivity|]. split; [reflexivity|right; left; reflexivity].
Qed.
End Cyl.
Section Blades.
Variables (height r : R) (stack : list R) (stack_blades : list (list R)) (width_blades : list R) (plyt : R) (laminaprop : list R) (n m n' k q : nat) (w : world) (E : env) (M : nat).
Hypothesis Hh : 0 < height. Hypothesis Hr : 0 < r.
Hypothesis Hst : stack <> []. Hypothesis Hlp : laminaprop <> [].
Hypothesis Hm : (0 < m <= M)%nat. Hypothesis Hn' : (0 < n' <= M)%nat.
Hypothesis Hblades : forall i, (i < n)%nat -> nth i stack_blades [] <> [] /\ 0 < nth i width_blades 0.
Hypothesis HL : forall st, st = stack \/ In st stack_blades -> sturdy (e_lib E st (map (fun _ => plyt) st) (map (fun _ => laminaprop) st) (map (fun _ => 0) st) 0).
Hypothesis HM : (M <= 30)%nat.
Hypothesis HT : tables_integrate (e_tables E) exact_basis M.
Notation create := (create_cylinder_blade_stiffened height r stack plyt laminaprop n m n' stack_blades width_blades k q w).
Lemma blade_touched : forall W0 W s, create = (W0, Ok s) -> w_conn W = w_conn W0 -> (forall i, (i < n + n)%nat -> touched (w_panel W0 (k + i)) (w_panel W (k + i))) -> responsive E q W s.
Proof using All.
  intros W0 W s HC HW HP. assert (LB : (2 <= n)%nat /\ length stack_blades = n /\ length width_blades = n).
  { unfold create_cylinder_blade_stiffened in HC. destruct (Nat.ltb_spec n 2); [discriminate|]. destruct (Nat.eqb_spec (length stack_blades) n); [|discriminate]. destruct (Nat.eqb_spec (length width_blades) n); [|discriminate].
    split; [assumption|]. split; assumption. }
  destruct LB as (H2 & L1 & L2). rewrite cb_create in HC by assumption. injection HC as <- <-.
  assert (IN : forall i, In i (as_panels (cb_asm n k)) -> exists j, (j < n + n)%nat /\ i = (k + j)%nat).
  { intros i Hi. cbn [as_panels cb_asm] in Hi. rewrite seq_two in Hi. apply in_seq in Hi; exists (i - k)%nat; lia. }
  apply (touched_response E M q (cb_world height r stack stack_blades width_blades plyt laminaprop n m n' k q w) W).
  - apply cb_assembled. exact H2.
  - reflexivity.
  - rewrite cb_conn by exact H2. destruct n; [lia|discriminate].
  - apply cb_usable; [exact H2|lia|lia].
  - intros i Hi. destruct (IN i Hi) as (j & Hj & ->). destruct (cb_panel height r stack stack_blades width_blades plyt laminaprop n m n' k q w H2 j Hj) as (-> & _).
    unfold cb_placed. destruct (Nat.ltb_spec j n) as [Hs|Hs].
    + apply made_good; try assumption; try lia; [apply width_pos; assumption|intro Z; injection Z; lra|apply HL; left; reflexivity].
    + destruct (Hblades (j - n)%nat ltac:(lia)) as [B1 B2]. apply made_good; try assumption; try lia; [discriminate|]. apply HL. right. apply nth_In. lia.
  - exact HM.
  - exact HT.
  - exact HW.
  - intros i Hi. destruct (IN i Hi) as (j & Hj & ->). apply HP. exact Hj.
Qed.
Theorem blade_response : forall W s, create = (W, Ok s) \/
  (exists Nskin Nblade, cylinder_blade_static_world height r stack stack_blades width_blades plyt laminaprop n m n' k q Nskin Nblade w = Ok (W, s)) -> responsive E q W s.
Proof using All.
  intros W s [HC|(Nskin & Nblade & HC)].
  - apply (blade_touched W W s HC eq_refl). intros i Hi. split; [reflexivity|]. split; [reflexivity|left; reflexivity].
  - unfold cylinder_blade_static_world in HC. destruct create as [W0 [s1|e]] eqn:EC; [|discriminate]. destruct (negb _); [discriminate|]. destruct (negb _); [discriminate|]. injection HC as <- <-.
    set (g := fun (_ : nat) (o : xpanel) => edge_load (sh_a (pn_sh (xp o))) (fun y : R => blade_Nxx n Nskin Nblade (n + n - 1)) (with_panel o (with_x2u (xp o) 1))).
    apply (blade_touched W0 _ s1 EC); [unfold set_blade_static_loads; apply (loop_conn g)|].
    intros i Hi. unfold set_blade_static_loads. rewrite (loop_object g) by lia.
    split; [reflexivity|]. split; [reflexivity|right; left; reflexivity].
Qed.
End Blades.
