(* Connections: order of the panels in the dictionaries, cached matrix, tangent stiffness, penalties. *)
From Coq Require Import Reals List Arith Bool Lia Lra.
From Verif Require Import Base_Sum Model_Types Model_Coo Model_Result Model_Num Model_DB Model_Shell Model_Conn Model_Multi Spec_Multi Spec_MultiConn Proof_Multi Proof_MultiConn.
Import ListNotations.
Open Scope R_scope.

(* the result depends on the panels only and the slices do not change *)
Definition panelwise {A} (f f' : amethod A) : Prop := forall w w' s, w_panel w = w_panel w' ->
  w_panel (fst (fst (f w s))) = w_panel (fst (fst (f' w' s))) /\ snd (fst (f w s)) = snd (fst (f' w' s)) /\ snd (f w s) = snd (f' w' s) /\
  forall i, xp_start (w_panel (fst (fst (f w s))) i) = xp_start (w_panel w i).
Lemma pw_bind {A B} (x x' : amethod A) (f f' : A -> amethod B) : panelwise x x' -> (forall a, panelwise (f a) (f' a)) -> panelwise (abind x f) (abind x' f').
Proof.
  intros Hx Hf w w' s Hw. specialize (Hx w w' s Hw). unfold abind. destruct (x w s) as [[w1 s1] r1], (x' w' s) as [[w1' s1'] r1']. cbn [fst snd] in Hx.
  destruct Hx as (X1 & <- & <- & X2). destruct r1 as [a|e]; [|cbn; auto]. destruct (Hf a w1 w1' s1 X1) as (F1 & F2 & F3 & F4). repeat split; try assumption.
  intro i. rewrite F4. apply X2.
Qed.
Lemma pw_ret {A} (a : A) : panelwise (aret a) (aret a).
Proof. intros w w' s H. cbn. auto. Qed.
Lemma pw_raise {A} e : panelwise (@araise A e) (araise e).
Proof. intros w w' s H. cbn. auto. Qed.
Lemma pw_lift {A} (x : res A) : panelwise (alift x) (alift x).
Proof. intros w w' s H. cbn. auto. Qed.
Lemma pw_on {A} i (f : method A) : panelwise (on_panel i f) (on_panel i f).
Proof.
  intros w w' s H. unfold on_panel. rewrite H. destruct (f (xp (w_panel w' i))) as [p r]. unfold put_panel. cbn [fst snd w_panel]. rewrite H. repeat split.
  intro k. unfold put. destruct (k =? i)%nat eqn:Ek; [|reflexivity]. apply Nat.eqb_eq in Ek. subst k. reflexivity.
Qed.
Lemma pw_world {A} (f f' : world -> amethod A) : (forall w w', w_panel w = w_panel w' -> panelwise (f w) (f' w')) -> panelwise (abind aworld f) (abind aworld f').
Proof. intros Hf w w' s H. unfold abind, aworld. cbn. apply (Hf w w' H w w' s H). Qed.
Lemma pw_kt E i j t : panelwise (calc_kt_kr E i j t) (calc_kt_kr E i j t).
Proof.
  unfold calc_kt_kr. apply pw_bind; [apply pw_on|intros _]. apply pw_bind; [apply pw_on|intros _]. apply pw_world. intros w w' H. rewrite H.
  destruct (pn_lam _); [destruct (pn_lam _); [apply pw_ret|apply pw_raise]|apply pw_raise].
Qed.
(* dictionaries that the calculation does not tell apart *)
Definition alike (c c' : conn) : Prop := cn_func c = cn_func c' /\ cn_tsl c = cn_tsl c' /\
  (cn_func c = SB \/ (cn_x1 c = cn_x1 c' /\ cn_x2 c = cn_x2 c' /\ cn_y1 c = cn_y1 c' /\ cn_y2 c = cn_y2 c')).
Lemma pw_add E Bs size c c' i j acc : alike c c' -> panelwise (add_conn E Bs size c i j acc) (add_conn E Bs size c' i j acc).
Proof.
  intros (Hf & Ht & HP). unfold add_conn. rewrite <- Hf, <- Ht.
  destruct (cn_func c) eqn:Ef; try (destruct HP as [HP|(P1 & P2 & P3 & P4)]; [discriminate|rewrite ?P1, ?P2, ?P3, ?P4]).
  - apply pw_bind; [apply pw_kt|intros k]. apply pw_world. intros w w' H. rewrite H. do 2 (apply pw_bind; [apply pw_lift|intros]). apply pw_lift.
  - apply pw_bind; [apply pw_kt|intros k]. apply pw_world. intros w w' H. rewrite H. do 2 (apply pw_bind; [apply pw_lift|intros]). apply pw_lift.
  - clear HP. apply pw_bind; [apply pw_kt|intros k]. apply pw_world. intros w w' H. rewrite H. do 2 (apply pw_bind; [apply pw_lift|intros]). apply pw_lift.
  - apply pw_bind; [apply pw_kt|intros k]. apply pw_world. intros w w' H. rewrite H. do 2 (apply pw_bind; [apply pw_lift|intros]). apply pw_lift.
  - apply pw_bind; [apply pw_kt|intros k]. apply pw_world. intros w w' H. rewrite H. do 2 (apply pw_bind; [apply pw_lift|intros]). apply pw_lift.
  - apply pw_bind; [apply pw_kt|intros k]. apply pw_raise.
  - apply pw_bind; [apply pw_lift|intros b]. apply pw_world. intros w w' H. rewrite H. do 3 (apply pw_bind; [apply pw_lift|intros]). apply pw_lift.
  - apply pw_raise.
Qed.
Lemma order_mirror w w' cn prev prev' : w_panel w = w_panel w' -> two_sided (w_panel w) cn ->
  exists c1 c2 ij, order_pair w cn prev = Ok (c1, Some ij) /\ order_pair w' (mirror cn) prev' = Ok (c2, Some ij) /\ alike c1 c2.
Proof.
  intros H ((a & b & Ha & Hb & Hab) & Hx & Hy). unfold order_pair. rewrite <- H. cbn [mirror cn_p1 cn_p2]. rewrite Ha, Hb.
  destruct (a <? b)%nat eqn:L1.
  - apply Nat.ltb_lt in L1. replace (b <? a)%nat with false by (symmetry; apply Nat.ltb_ge; lia).
    eexists. eexists. eexists. split; [reflexivity|]. split; [reflexivity|]. unfold alike, swap_keys. cbn [mirror cn_func cn_x1 cn_x2 cn_y1 cn_y2 cn_tsl cn_p1 cn_p2].
    destruct (cn_func cn) eqn:Ef; cbn [mirror cn_func cn_x1 cn_x2 cn_y1 cn_y2 cn_tsl]; rewrite ?Ef; try (split; [reflexivity|split; [reflexivity|left; reflexivity]]);
      destruct (cn_x1 cn), (cn_x2 cn), (cn_y1 cn), (cn_y2 cn); cbn [mirror cn_func cn_x1 cn_x2 cn_y1 cn_y2 cn_tsl]; try (exfalso; intuition congruence);
      (split; [reflexivity|split; [reflexivity|right; repeat split]]).
  - apply Nat.ltb_ge in L1. assert (Lt : (b < a)%nat) by lia. apply Nat.ltb_lt in Lt. rewrite Lt.
    eexists. eexists. eexists. split; [reflexivity|]. split; [reflexivity|]. unfold alike, swap_keys. cbn [mirror cn_func cn_x1 cn_x2 cn_y1 cn_y2 cn_tsl cn_p1 cn_p2].
    destruct (cn_func cn) eqn:Ef; cbn [mirror cn_func cn_x1 cn_x2 cn_y1 cn_y2 cn_tsl]; rewrite ?Ef; try (split; [reflexivity|split; [reflexivity|left; reflexivity]]);
      destruct (cn_x1 cn), (cn_x2 cn), (cn_y1 cn), (cn_y2 cn); cbn [mirror cn_func cn_x1 cn_x2 cn_y1 cn_y2 cn_tsl]; try (exfalso; intuition congruence);
      rewrite ?Ef; (split; [reflexivity|split; [reflexivity|right; repeat split]]).
Qed.
Lemma two_sided_start h h' cn : (forall i, xp_start (h' i) = xp_start (h i)) -> two_sided h cn -> two_sided h' cn.
Proof. intros H. unfold two_sided. rewrite !H. auto. Qed.
Lemma loop_mirror E Bs size k l : forall pos pos' prev prev' acc w w' s, w_panel w = w_panel w' -> List.Forall (two_sided (w_panel w)) l ->
  snd (conn_loop E Bs size k pos l prev acc w s) = snd (conn_loop E Bs size k pos' (map mirror l) prev' acc w' s) /\
  snd (fst (conn_loop E Bs size k pos l prev acc w s)) = snd (fst (conn_loop E Bs size k pos' (map mirror l) prev' acc w' s)).
Proof.
  induction l as [|cn l IH]; intros pos pos' prev prev' acc w w' s H HF; [split; reflexivity|].
  pose proof (List.Forall_inv HF) as H1. pose proof (List.Forall_inv_tail HF) as H2.
  destruct (order_mirror w w' cn prev prev' H H1) as (c1 & c2 & ij & O1 & O2 & HA).
  cbn [map conn_loop]. unfold abind, aworld, alift. rewrite O1, O2. unfold write_conn. cbn [fst snd].
  pose proof (pw_add E Bs size c1 c2 (fst ij) (snd ij) acc HA (put_conn w k (put_nth pos c1 (w_conn w k))) (put_conn w' k (put_nth pos' c2 (w_conn w' k))) s H) as HP.
  destruct (add_conn E Bs size c1 (fst ij) (snd ij) acc (put_conn w k (put_nth pos c1 (w_conn w k))) s) as [[wa sa] ra],
           (add_conn E Bs size c2 (fst ij) (snd ij) acc (put_conn w' k (put_nth pos' c2 (w_conn w' k))) s) as [[wb sb] rb].
  cbn [fst snd] in HP. destruct HP as (P1 & <- & <- & P2). destruct ra as [m|e]; [|split; reflexivity].
  apply IH; [exact P1|]. revert H2. apply List.Forall_impl. intros q. apply two_sided_start. exact P2.
Qed.
Theorem mirror_same E Bs w s k fin : List.Forall (two_sided (w_panel w)) (w_conn w k) ->
  snd (get_kC_conn E Bs (Some k) fin (put_conn w k (map mirror (w_conn w k))) s) = snd (get_kC_conn E Bs (Some k) fin w s).
Proof.
  intro HF. unfold get_kC_conn. unfold abind at 1, aself at 1. symmetry. unfold abind at 1, aself at 1. destruct (as_kC_conn s) as [m|]; [reflexivity|].
  unfold abind at 1. rewrite asm_size_total. unfold abind at 1, aworld at 1. symmetry.
  unfold abind at 1. rewrite asm_size_total. unfold abind at 1, aworld at 1.
  change (w_panel (put_conn w k (map mirror (w_conn w k)))) with (w_panel w).
  replace (w_conn (put_conn w k (map mirror (w_conn w k))) k) with (map mirror (w_conn w k)) by (unfold put_conn; cbn; rewrite put_same; reflexivity).
  pose proof (loop_mirror E Bs (total_width (w_panel w) (as_panels s)) k (w_conn w k) 0 0 None None CZero w (put_conn w k (map mirror (w_conn w k))) s eq_refl HF) as [H1 H2].
  unfold abind at 1. destruct (conn_loop _ _ _ k 0 (map mirror _) None CZero _ s) as [[wa sa] ra]. symmetry. unfold abind at 1.
  destruct (conn_loop _ _ _ k 0 (w_conn w k) None CZero w s) as [[wb sb] rb]. cbn [fst snd] in H1, H2. subst ra sa.
  destruct rb as [m|e]; [|reflexivity]. unfold abind, alift. destruct (cfinal fin m); reflexivity.
Qed.

(* ------------------------------------------------- cached matrix *)
Theorem conn_cached E Bs arg fin w s m : as_kC_conn s = Some m -> (arg <> None \/ as_conn s <> None) -> get_kC_conn E Bs arg fin w s = (w, s, Ok m).
Proof.
  intros Hm Ha. unfold get_kC_conn. unfold abind, aself. destruct arg as [k|]; [rewrite Hm; reflexivity|].
  destruct (as_conn s) as [k|]; [rewrite Hm; reflexivity|]. destruct Ha; congruence.
Qed.

(* ------------------------------------------------- tangent stiffness *)
Theorem kT_fails E Bs c fin w s : assembled w s -> snd (asm_kT E Bs c fin w s) = Err TypeError.
Proof.
  intros (Hne & _ & L). unfold asm_kT. unfold abind at 1. rewrite asm_size_total. unfold abind at 1, aself at 1.
  destruct (as_panels s) as [|i ids] eqn:Ei; [congruence|]. cbn [laid_out] in L. destruct L as (L1 & _).
  unfold abind at 1. cbn [sum_panels calc_kC_accepts_inc]. unfold abind at 1, aworld at 1. rewrite L1. reflexivity.
Qed.

(* ------------------------------------------------- penalties *)
Lemma penalty_bound x y g h : 0 < x -> 0 < y -> 0 < g -> 0 < h -> penalty x y g h <= 4 * Rmin x y / (g + h).
Proof.
  intros Hx Hy Hg Hh. unfold penalty. 
  replace (4 * x * y / ((x + y) * (g + h))) with (4 * (x * y / (x + y)) / (g + h)) by (field; lra).
  apply Rmult_le_compat_r; [apply Rlt_le, Rinv_0_lt_compat; lra|]. apply Rmult_le_compat_l; [lra|].
  apply Rmin_glb; apply (Rmult_le_reg_r (x + y)); try lra; replace (x * y / (x + y) * (x + y)) with (x * y) by (field; lra); nra.
Qed.
Lemma penalty_half x g h : 0 < x -> 0 < g -> 0 < h -> penalty x x g h = 2 * x / (g + h).
Proof. intros. unfold penalty. field. lra. Qed.
