From Coq Require Import Reals List Arith Bool Lra Lia Relations.
From Coquelicot Require Import Coquelicot.
From Verif Require Import Base_Sum Model_Types Model_Coo Model_Result Model_Num Model_DB Model_Shell Model_Fext Model_Multi Model_New Model_Cylinder
  Spec_Algebra Spec_Integral Spec_Panel Spec_Shell Spec_Fext Spec_Conn Spec_Multi Spec_MultiConn Spec_Cylinder Proof_MultiTop Proof_MultiApi Proof_Cylinder.
Import ListNotations.
Open Scope R_scope.

Lemma combine_seq a c : forall n, combine (seq a n) (seq c n) = map (fun i => (a + i, c + i)%nat) (seq 0 n).
Proof.
  intro n. revert a c. induction n as [|n IH]; intros; [reflexivity|]. cbn [seq combine map]. rewrite !Nat.add_0_r, IH. f_equal.
  rewrite <- (seq_shift n 0), map_map. apply map_ext. intro i. f_equal; lia.
Qed.
Definition blade_conn (k n i : nat) : conn := mkConn (k + i) (k + n + i) BFycte None None (Some 0) (Some 0) None.
Lemma blade_conns_eq n k : blade_conns n k = map (blade_conn k n) (seq 0 n).
Proof. unfold blade_conns. rewrite combine_seq, map_map. reflexivity. Qed.
Lemma seq_two k n : seq k n ++ seq (k + n) n = seq k (n + n).
Proof. symmetry. apply seq_app. Qed.

Section Blade.
Variables (height r : R) (stack : list R) (stack_blades : list (list R)) (width_blades : list R) (plyt : R) (laminaprop : list R) (n m n' k q : nat) (w : world).
Hypothesis Hn : (2 <= n)%nat.
Notation b := (b_skin r n).
Notation create := (create_cylinder_blade_stiffened height r stack plyt laminaprop n m n' stack_blades width_blades k q w).
Notation all_panels := (skin_panels height r stack plyt laminaprop n m n' ++ blade_panels height r plyt laminaprop n m n' stack_blades width_blades).
Definition cb_world : world := put_conn (set_spans (seq k n ++ seq (k + n) n) 0 (store k all_panels w)) q (ring_conns r n k ++ blade_conns n k).
Definition cb_asm : assembly := mkAsm (seq k n ++ seq (k + n) n) None None 4.
Lemma cb_create : length stack_blades = n -> length width_blades = n -> create = (cb_world, Ok cb_asm).
Proof using Hn.
  intros Hsb Hwb. unfold create_cylinder_blade_stiffened. destruct (Nat.ltb_spec n 2); [lia|]. rewrite Hsb, Hwb, Nat.eqb_refl. reflexivity.
Qed.
Lemma cb_conn : w_conn cb_world q = map (ring_conn b k n) (seq 0 n) ++ map (blade_conn k n) (seq 0 n).
Proof using Hn. unfold cb_world. cbn [w_conn put_conn]. unfold put. rewrite Nat.eqb_refl, ring_conns_eq, blade_conns_eq by exact Hn. reflexivity. Qed.
Definition cb_placed (i : nat) : placed := if (i <? n)%nat then skin_panel height r stack plyt laminaprop n m n' i else blade_panel height r plyt laminaprop n m n' stack_blades width_blades (i - n).
Lemma all_nth i d : (i < n + n)%nat -> nth i all_panels d = cb_placed i.
Proof using Hn.
  intro Hi. unfold cb_placed. destruct (Nat.ltb_spec i n).
  - rewrite app_nth1 by (unfold skin_panels; rewrite map_length, seq_length; lia). unfold skin_panels.
    rewrite (nth_indep _ d (skin_panel height r stack plyt laminaprop n m n' 0)) by (rewrite map_length, seq_length; lia). rewrite map_nth, seq_nth by lia. reflexivity.
  - rewrite app_nth2 by (unfold skin_panels; rewrite map_length, seq_length; lia). unfold skin_panels at 1. rewrite map_length, seq_length. unfold blade_panels.
    rewrite (nth_indep _ d (blade_panel height r plyt laminaprop n m n' stack_blades width_blades 0)) by (rewrite map_length, seq_length; lia). rewrite map_nth, seq_nth by lia. reflexivity.
Qed.
Lemma all_length : length all_panels = (n + n)%nat.
Proof using Type. rewrite app_length. unfold skin_panels, blade_panels. rewrite !map_length, !seq_length. reflexivity. Qed.
Lemma cb_panel i : (i < n + n)%nat -> let x := w_panel cb_world (k + i) in xp x = np_panel (cb_placed i) /\ xp_group x = np_group (cb_placed i) /\ xp_loads x = no_loads.
Proof using Hn.
  intros Hi x. unfold x, cb_world. cbn [w_panel put_conn].
  destruct (spans_panel (seq k n ++ seq (k + n) n) 0 (store k all_panels w) (k + i)) as (H1 & H2 & H3). rewrite H1, H2, H3.
  rewrite (store_at _ (cb_placed 0)) by (rewrite all_length; exact Hi). rewrite all_nth by exact Hi. split; [reflexivity|split; reflexivity].
Qed.
Lemma cb_assembled : assembled cb_world cb_asm.
Proof using Hn.
  assert (HA := new_assembly_ok (seq k n ++ seq (k + n) n) None (store k all_panels w)).
  destruct HA as (H1 & H2 & H3).
  { rewrite seq_two. intro E. apply (f_equal (@length nat)) in E. rewrite seq_length in E. cbn in E. lia. }
  { rewrite seq_two. apply seq_NoDup. }
  split; [exact H1|]. split; [exact H2|]. exact H3.
Qed.
Lemma cb_view i : (i < n + n)%nat -> geometry (w_panel cb_world) (k + i) = kernel_view (np_panel (cb_placed i)).
Proof using Hn. intro Hi. unfold geometry. destruct (cb_panel i Hi) as (H & _). rewrite H. reflexivity. Qed.
Lemma placed_terms i : sh_m (pn_sh (np_panel (cb_placed i))) = m /\ sh_n (pn_sh (np_panel (cb_placed i))) = n' /\ sh_a (pn_sh (np_panel (cb_placed i))) = height.
Proof using Type. unfold cb_placed. destruct (i <? n)%nat; split; [|split| |split]; reflexivity. Qed.
Lemma cb_width i : (i < n + n)%nat -> width (w_panel cb_world (k + i)) = (3 * m * n')%nat.
Proof using Hn. intro Hi. destruct (cb_panel i Hi) as (H & _). unfold width. rewrite H. destruct (placed_terms i) as (-> & -> & _). reflexivity. Qed.
Lemma cb_start i : (i < n + n)%nat -> start (w_panel cb_world) (k + i) = (i * (3 * m * n'))%nat.
Proof using Hn.
  intro Hi. unfold start. destruct cb_assembled as (_ & _ & L). cbn [as_panels cb_asm] in L. rewrite seq_two in L.
  rewrite (laid_start _ (3 * m * n') (n + n) k 0 L cb_width i Hi). reflexivity.
Qed.
Lemma cb_usable : (0 < m)%nat -> (0 < n')%nat -> List.Forall (usable (w_panel cb_world) (seq k n ++ seq (k + n) n)) (w_conn cb_world q).
Proof using Hn.
  intros Hm Hn'. rewrite cb_conn, seq_two. assert (0 < 3 * m * n')%nat by (apply Nat.mul_pos_pos; lia).
  apply Forall_forall. intros cn H0. apply in_app_or in H0 as [H0|H0]; apply in_map_iff in H0 as (i & <- & Hi); apply in_seq in Hi.
  - unfold usable, ring_conn. destruct (Nat.ltb_spec i (n - 1)); cbn [cn_p1 cn_p2].
    + split; [apply in_seq; lia|]. split; [apply in_seq; lia|]. split; [split; discriminate|]. left. unfold in_order. cbn [cn_p1 cn_p2].
      rewrite !cb_start by lia. apply Nat.mul_lt_mono_pos_r; lia.
    + split; [apply in_seq; lia|]. split; [apply in_seq; lia|]. split; [split; discriminate|]. left. unfold in_order. cbn [cn_p1 cn_p2].
      assert (E0 := cb_start 0 ltac:(lia)). rewrite Nat.add_0_r in E0. rewrite E0, cb_start by lia. apply Nat.mul_lt_mono_pos_r; lia.
  - unfold usable, blade_conn. cbn [cn_p1 cn_p2]. split; [apply in_seq; lia|]. split; [apply in_seq; lia|]. split; [split; discriminate|]. left. unfold in_order. cbn [cn_p1 cn_p2].
    rewrite <- Nat.add_assoc. rewrite !cb_start by lia. apply Nat.mul_lt_mono_pos_r; lia.
Qed.
Lemma cb_blade_degree j : (j < n)%nat -> length (filter (touches (k + n + j)) (w_conn cb_world q)) = 1%nat.
Proof using Hn.
  intro Hj. rewrite cb_conn, filter_app, app_length.
  replace (filter _ (map (ring_conn b k n) (seq 0 n))) with (@nil conn).
  2:{ symmetry. rewrite filter_map. rewrite (filter_ext_in' _ (fun _ => false)).
      - induction (seq 0 n); [reflexivity|assumption].
      - intros i Hi. apply in_seq in Hi. unfold touches, ring_conn. destruct (Nat.ltb_spec i (n - 1)); cbn [cn_p1 cn_p2];
        destruct (Nat.eqb_spec (k + i) (k + n + j)); try lia; cbn; try destruct (Nat.eqb_spec (k + (i + 1)) (k + n + j)); try destruct (Nat.eqb_spec k (k + n + j)); try lia; reflexivity. }
  rewrite filter_map, map_length. cbn [length]. rewrite Nat.add_0_l.
  rewrite (filter_ext_in' _ (fun i => (i =? j)%nat)).
  2:{ intros i Hi. apply in_seq in Hi. unfold touches, blade_conn. cbn [cn_p1 cn_p2].
      destruct (Nat.eqb_spec (k + i) (k + n + j)); [lia|]. destruct (Nat.eqb_spec (k + n + i) (k + n + j)), (Nat.eqb_spec i j); try lia; reflexivity. }
  assert (Hperm : Permutation.Permutation (filter (fun i => (i =? j)%nat) (seq 0 n)) [j]).
  { apply Permutation.NoDup_Permutation; [apply NoDup_filter, seq_NoDup|constructor; [intros []|constructor]|].
    intro z. rewrite filter_In, in_seq, Nat.eqb_eq. cbn. intuition lia. }
  exact (Permutation.Permutation_length Hperm).
Qed.
End Blade.

Section Energy.
Variables (height r : R) (stack : list R) (stack_blades : list (list R)) (width_blades : list R) (plyt : R) (laminaprop : list R) (n m n' k q : nat) (w : world).
Variables (E : env) (Bs : basis) (M : nat).
Hypothesis Hn : (2 <= n)%nat.
Hypothesis Hsb : length stack_blades = n. Hypothesis Hwb : length width_blades = n.
Hypothesis Hm : (0 < m <= M)%nat. Hypothesis Hn' : (0 < n' <= M)%nat.
Hypothesis Hh : 0 < height. Hypothesis Hr : 0 < r.
Hypothesis Hst : stack <> []. Hypothesis Hlp : laminaprop <> [].
Hypothesis Hblades : forall i, (i < n)%nat -> nth i stack_blades [] <> [] /\ 0 < nth i width_blades 0.
Definition lam_of_stack (st : list R) : laminate := e_lib E st (map (fun _ => plyt) st) (map (fun _ => laminaprop) st) (map (fun _ => 0) st) 0.
Hypothesis Hlam : stiff (lam_of_stack stack) /\ forall i, (i < n)%nat -> stiff (lam_of_stack (nth i stack_blades [])).
Hypothesis HT : tables_integrate (e_tables E) Bs M.
Notation cw := (cb_world height r stack stack_blades width_blades plyt laminaprop n m n' k q w).
Notation cs := (cb_asm n k).
Notation b := (b_skin r n).
Notation size := ((n + n) * (3 * m * n'))%nat.
Notation placed_at := (cb_placed height r stack stack_blades width_blades plyt laminaprop n m n').
Lemma cb_sound i : (i < n + n)%nat -> sound E (w_panel cw) (k + i).
Proof using All.
  intro Hi. destruct (cb_panel height r stack stack_blades width_blades plyt laminaprop n m n' k q w Hn i Hi) as (H & _).
  unfold sound. rewrite (cb_view height r stack stack_blades width_blades plyt laminaprop n m n' k q w Hn i Hi). unfold lam_of. rewrite H. clear H.
  unfold cb_placed. destruct (Nat.ltb_spec i n).
  - split; [split; [discriminate|]; split; [exact Hst|]; split; [right; exact Hlp|right; discriminate]|]. split; [exact Hh|]. split; [|exact (proj1 Hlam)].
    unfold b_skin. apply Rdiv_lt_0_compat; [|apply lt_0_INR; lia]. assert (0 < PI) by apply PI_RGT_0. apply Rmult_lt_0_compat; lra.
  - destruct (Hblades (i - n)) as [B1 B2]; [lia|].
    split; [split; [discriminate|]; split; [exact B1|]; split; [right; exact Hlp|right; discriminate]|]. split; [exact Hh|]. split; [exact B2|].
    exact (proj2 Hlam (i - n)%nat ltac:(lia)).
Qed.
Lemma cb_size : total_width (w_panel cw) (seq k n ++ seq (k + n) n) = size.
Proof using All.
  rewrite seq_two. unfold total_width. assert (G : forall len k0, (forall i, (i < len)%nat -> width (w_panel cw (k0 + i)) = (3 * m * n')%nat) ->
    list_sum (map (fun i => width (w_panel cw i)) (seq k0 len)) = (len * (3 * m * n'))%nat).
  { induction len as [|len IH]; intros k0 H; [reflexivity|]. cbn [seq map list_sum fold_right]; fold (list_sum (map (fun i => width (w_panel cw i)) (seq (S k0) len))). rewrite IH.
    - specialize (H 0%nat). rewrite Nat.add_0_r in H. rewrite H by lia. lia.
    - intros i Hi. replace (S k0 + i)%nat with (k0 + S i)%nat by lia. apply H. lia. }
  apply G. intros i Hi. apply cb_width; [exact Hn|exact Hi].
Qed.
Lemma cb_length i : (i < n + n)%nat -> sh_a (geometry (w_panel cw) (k + i)) = height.
Proof using All. intro Hi. rewrite cb_view by (exact Hn || exact Hi). apply placed_terms. Qed.
Theorem cb_seams : exists w2 s2 K, get_kC_conn E Bs (Some q) true cw cs = (w2, s2, Ok (CMat size K)) /\
  (forall i j, K i j = K j i) /\
  (forall c d, exists Ws, Forall2 (fun cn => conn_work E Bs (w_panel cw) cn c d) (w_conn cw q) Ws /\ bilinear size K c d = suml Ws (fun W => W)) /\
  (forall c, 0 <= quad size K c) /\
  (forall c, (forall i, (i < n)%nat -> agree Bs (w_panel cw) c (k + i) b (k + next n i) 0 height /\
                                 agree_flange Bs (w_panel cw) c (k + i) 0 (k + n + i) 0 height) -> forall d, bilinear size K c d = 0).
Proof using All.
  destruct (conn_stiffness E Bs M q (Some q) cw cs) as (w2 & s2 & K & G1 & G2 & G3 & G4 & G5).
  - apply cb_assembled. exact Hn.
  - reflexivity.
  - reflexivity.
  - rewrite cb_conn by exact Hn. intro H. apply (f_equal (@length conn)) in H. rewrite app_length, !map_length, seq_length in H. cbn in H. lia.
  - apply cb_usable; [exact Hn|lia|lia].
  - cbn [as_panels cb_asm]. rewrite seq_two. intros i Hi. apply in_seq in Hi. replace i with (k + (i - k))%nat by lia. split; [apply cb_sound; lia|].
    rewrite cb_view by lia. unfold kernel_view. cbn [sh_m sh_n]. destruct (placed_terms height r stack stack_blades width_blades plyt laminaprop n m n' (i - k)) as (-> & -> & _). lia.
  - exact HT.
  - cbn [as_panels cb_asm] in *. rewrite cb_size in *. exists w2, s2, K. split; [exact G1|]. split; [exact G2|]. split; [exact G3|]. split; [exact G4|].
    intros c Hc d. apply G5. rewrite cb_conn by exact Hn. assert (Hone : height / height = 1) by (field; lra).
    apply Forall_forall. intros cn Hin. apply in_app_or in Hin as [Hin|Hin]; apply in_map_iff in Hin as (i & <- & Hi); apply in_seq in Hi.
    + destruct (Hc i ltac:(lia)) as [Ha _]. unfold no_jump, ring_conn. destruct (Nat.ltb_spec i (n - 1)); cbn [cn_func cn_p1 cn_p2 cn_y1 cn_y2].
      * rewrite next_small in Ha by lia. intros y1 y2 x E1 E2 Hx. injection E1 as <-. injection E2 as <-. rewrite !cb_length in * by lia. rewrite Hone, Rmult_1_r.
        unfold jumps_SSycte. repeat (apply List.Forall_cons; [cbn [snd]; rewrite Ha by (auto; exact Hx); ring|]). apply List.Forall_nil.
      * replace i with (n - 1)%nat in * by lia. rewrite next_last in Ha by lia. rewrite Nat.add_0_r in Ha. intros y1 y2 x E1 E2 Hx. injection E1 as <-. injection E2 as <-.
        assert (G0 := cb_length 0 ltac:(lia)). rewrite Nat.add_0_r in G0. rewrite G0 in *. rewrite cb_length in * by lia. rewrite Hone, Rmult_1_r.
        unfold jumps_SSycte. repeat (apply List.Forall_cons; [cbn [snd]; rewrite <- Ha by (auto; exact Hx); ring|]). apply List.Forall_nil.
    + destruct (Hc i ltac:(lia)) as [_ Ha]. unfold no_jump, blade_conn. cbn [cn_func cn_p1 cn_p2 cn_y1 cn_y2].
      intros y1 y2 x E1 E2 Hx. injection E1 as <-. injection E2 as <-. rewrite <- (Nat.add_assoc k n i) in *. rewrite !cb_length in * by lia. rewrite Hone, Rmult_1_r.
      destruct (Ha x Hx) as (A1 & A2 & A3 & A4). unfold jumps_BFycte.
      repeat (apply List.Forall_cons; [cbn [snd]; rewrite ?A1, ?A2, ?A3, ?A4; ring|]). apply List.Forall_nil.
Qed.
End Energy.

(* ------------------------------------------------- loads *)
Lemma loop_objects f k n : forall i0 w j,
  w_panel (fold_left (fun w i => on_object (f i) (k + i) w) (seq i0 n) w) (k + j) = (if (i0 <=? j) && (j <? i0 + n) then f j (w_panel w (k + j)) else w_panel w (k + j))%nat%bool.
Proof.
  induction n as [|n IH]; intros i0 w j.
  - cbn [seq fold_left]. destruct (Nat.leb_spec i0 j), (Nat.ltb_spec j (i0 + 0)); try lia; reflexivity.
  - cbn [seq fold_left]. rewrite IH. cbn [on_object put_panel w_panel]. unfold put.
    destruct (Nat.leb_spec (S i0) j), (Nat.ltb_spec j (S i0 + n)), (Nat.leb_spec i0 j), (Nat.ltb_spec j (i0 + S n)), (Nat.eqb_spec (k + j) (k + i0)); try lia; cbn [andb]; try reflexivity.
    replace j with i0 by lia. reflexivity.
Qed.
Lemma loop_object f k n w j : (j < n)%nat -> w_panel (fold_left (fun w i => on_object (f i) (k + i) w) (seq 0 n) w) (k + j) = f j (w_panel w (k + j)).
Proof. intro H. rewrite loop_objects. destruct (Nat.leb_spec 0 j), (Nat.ltb_spec j (0 + n)); try lia. reflexivity. Qed.
Lemma axial_one (x : xpanel) (y N : R) (p : panel) : xp_loads x = no_loads -> sh_b (pn_sh p) = sh_b (pn_sh (xp x)) ->
  axial_force (with_panel (edge_load y (fun _ => N) x) p) = N * sh_b (pn_sh (xp x)).
Proof.
  intros HL Hb. unfold axial_force, edge_load, with_panel, with_loads. cbn [xp_loads xp]. rewrite HL. cbn -[RInt]. rewrite Hb, RInt_const.
  unfold scal. cbn. unfold mult. cbn. ring.
Qed.
