From Coq Require Import Reals List Arith Bool Lra Lia Relations.
From Coquelicot Require Import Coquelicot.
From Verif Require Import Base_Sum Model_Types Model_Coo Model_Result Model_Num Model_DB Model_Shell Model_Fext Model_Multi Model_New Model_Cylinder
  Spec_Algebra Spec_Integral Spec_Panel Spec_Shell Spec_Fext Spec_Conn Spec_Multi Spec_MultiConn Spec_Cylinder Proof_MultiTop Proof_MultiApi.
Import ListNotations.
Open Scope R_scope.

(* the store *)
Lemma store_other l : forall k w i, (i < k \/ k + length l <= i)%nat -> w_panel (store k l w) i = w_panel w i.
Proof.
  induction l as [|x l IH]; intros k w i H; cbn [store]; [reflexivity|]. cbn [length] in H. rewrite IH by lia.
  cbn. unfold put. destruct (Nat.eqb_spec i k); [lia|reflexivity].
Qed.
Lemma store_at l d : forall k w i, (i < length l)%nat -> w_panel (store k l w) (k + i) = new_object (nth i l d).
Proof.
  induction l as [|x l IH]; intros k w i H; cbn [length] in H; [lia|]. cbn [store]. destruct i.
  - rewrite Nat.add_0_r. rewrite store_other by lia. cbn. unfold put. rewrite Nat.eqb_refl. reflexivity.
  - replace (k + S i)%nat with (S k + i)%nat by lia. rewrite IH by lia. reflexivity.
Qed.
Lemma store_conn l : forall k w, w_conn (store k l w) = w_conn w.
Proof. induction l as [|x l IH]; intros; cbn [store]; [reflexivity|]. rewrite IH. reflexivity. Qed.
(* the places of the panels do not change what they are *)
Lemma spans_panel ids : forall o w i,
  xp (w_panel (set_spans ids o w) i) = xp (w_panel w i) /\ xp_group (w_panel (set_spans ids o w) i) = xp_group (w_panel w i) /\
  xp_loads (w_panel (set_spans ids o w) i) = xp_loads (w_panel w i).
Proof.
  induction ids as [|j ids IH]; intros o w i; cbn [set_spans]; [auto|]. cbv zeta.
  match goal with |- context [set_spans ids ?o' ?w'] => destruct (IH o' w' i) as (H1 & H2 & H3) end. rewrite H1, H2, H3.
  cbn [w_panel put_panel]. unfold put. destruct (Nat.eqb_spec i j) as [E|]; [rewrite E|]; cbn; auto.
Qed.
Lemma spans_conn ids : forall o w, w_conn (set_spans ids o w) = w_conn w.
Proof. induction ids as [|j ids IH]; intros; cbn [set_spans]; [reflexivity|]. rewrite IH. reflexivity. Qed.

Lemma loop_nth k n i : (0 < n)%nat -> (i <= n)%nat -> nth i (seq k n ++ [nth 0 (seq k n) 0%nat]) 0%nat = (k + (if (i <? n)%nat then i else 0))%nat.
Proof.
  intros Hn Hi. destruct (Nat.ltb_spec i n).
  - rewrite app_nth1 by (rewrite seq_length; lia). apply seq_nth. exact H.
  - replace i with n by lia. rewrite app_nth2 by (rewrite seq_length; lia). rewrite seq_length, Nat.sub_diag. cbn [nth]. rewrite seq_nth by lia. lia.
Qed.

Definition ring_conn (b : R) (k n i : nat) : conn :=
  if (i <? n - 1)%nat then mkConn (k + i) (k + (i + 1)) SSycte None None (Some b) (Some 0) None
  else mkConn k (k + i) SSycte None None (Some 0) (Some b) None.
Lemma ring_conns_eq r n k : (2 <= n)%nat -> ring_conns r n k = map (ring_conn (b_skin r n) k n) (seq 0 n).
Proof.
  intro Hn. unfold ring_conns. cbv zeta. rewrite seq_length. apply map_ext_in. intros i Hi. apply in_seq in Hi. unfold ring_conn.
  rewrite !loop_nth by lia.
  destruct (Nat.eqb_spec i (n - 1)); destruct (Nat.ltb_spec i (n - 1)); try lia; cbn [negb]; destruct (Nat.ltb_spec i n); try lia; destruct (Nat.ltb_spec (i + 1) n); try lia.
  - rewrite Nat.add_0_r. reflexivity.
  - reflexivity.
Qed.
Lemma ring_nth b k n i d : (i < n)%nat -> nth i (map (ring_conn b k n) (seq 0 n)) d = ring_conn b k n i.
Proof. intro H. rewrite (nth_indep _ d (ring_conn b k n 0)) by (rewrite map_length, seq_length; lia). rewrite map_nth, seq_nth by lia. f_equal. Qed.
Lemma next_small n i : (i < n - 1)%nat -> next n i = (i + 1)%nat.
Proof. intro H. unfold next. apply Nat.mod_small. lia. Qed.
Lemma next_last n : (2 <= n)%nat -> next n (n - 1) = 0%nat.
Proof. intro H. unfold next. replace (n - 1 + 1)%nat with n by lia. apply Nat.mod_same. lia. Qed.
Lemma ring_joins b k n i : (2 <= n)%nat -> (i < n)%nat -> joins (ring_conn b k n i) (k + i) b (k + next n i) 0.
Proof.
  intros Hn Hi. unfold ring_conn, joins. destruct (Nat.ltb_spec i (n - 1)).
  - rewrite next_small by lia. cbn. auto 10.
  - replace i with (n - 1)%nat by lia. rewrite next_last by lia. rewrite Nat.add_0_r. cbn. auto 10.
Qed.

Lemma filter_ext_in' {A} (f g : A -> bool) l : (forall x, In x l -> f x = g x) -> filter f l = filter g l.
Proof.
  induction l as [|x l IH]; intro H; cbn; [reflexivity|]. rewrite (H x) by (left; reflexivity). rewrite IH; [reflexivity|].
  intros y Hy. apply H. right. exact Hy.
Qed.
Lemma filter_map {A B} (f : A -> B) (p : B -> bool) l : filter p (map f l) = map f (filter (fun x => p (f x)) l).
Proof. induction l as [|x l IH]; cbn; [reflexivity|]. destruct (p (f x)); cbn; rewrite IH; reflexivity. Qed.
Lemma count_two n x y : x <> y -> (x < n)%nat -> (y < n)%nat -> forall p, (forall i, (i < n)%nat -> p i = ((i =? x) || (i =? y))%nat%bool) ->
  length (filter p (seq 0 n)) = 2%nat.
Proof.
  intros Hxy Hx Hy p Hp.
  assert (Hperm : Permutation.Permutation (filter p (seq 0 n)) [x; y]).
  { apply Permutation.NoDup_Permutation; [apply NoDup_filter, seq_NoDup| |].
    - repeat constructor; cbn; intuition congruence.
    - intro z. rewrite filter_In, in_seq. cbn [In]. split.
      + intros [H1 H2]. rewrite Hp in H2 by lia. apply orb_prop in H2 as [H2|H2]; apply Nat.eqb_eq in H2; auto.
      + intros [H|[H|[]]]; subst z; (split; [lia|]); rewrite Hp by lia; rewrite Nat.eqb_refl, ?orb_true_r; reflexivity. }
  apply Permutation.Permutation_length in Hperm. exact Hperm.
Qed.
Lemma ring_touch b k n j i : (2 <= n)%nat -> (i < n)%nat -> (j < n)%nat ->
  touches (k + j) (ring_conn b k n i) = ((i =? j) || (i =? (if (j =? 0) then n - 1 else j - 1)))%nat%bool.
Proof.
  intros Hn Hi Hj. unfold touches, ring_conn. destruct (Nat.ltb_spec i (n - 1)); cbn [cn_p1 cn_p2].
  - destruct (Nat.eqb_spec (k + i) (k + j)), (Nat.eqb_spec (k + (i + 1)) (k + j)), (Nat.eqb_spec i j); try lia; cbn; try reflexivity;
      destruct (Nat.eqb_spec j 0); destruct (Nat.eqb_spec i (n - 1)); destruct (Nat.eqb_spec i (j - 1)); try lia; reflexivity.
  - destruct (Nat.eqb_spec k (k + j)), (Nat.eqb_spec (k + i) (k + j)), (Nat.eqb_spec i j); try lia; cbn; try reflexivity;
      destruct (Nat.eqb_spec j 0); destruct (Nat.eqb_spec i (n - 1)); destruct (Nat.eqb_spec i (j - 1)); try lia; reflexivity.
Qed.
Lemma ring_degree b k n j : (2 <= n)%nat -> (j < n)%nat -> length (filter (touches (k + j)) (map (ring_conn b k n) (seq 0 n))) = 2%nat.
Proof.
  intros Hn Hj. rewrite filter_map, map_length.
  apply (count_two n j (if (j =? 0)%nat then n - 1 else j - 1)%nat); try (destruct (Nat.eqb_spec j 0); lia).
  intros i Hi. apply ring_touch; assumption.
Qed.
Lemma ring_step b k n i : (2 <= n)%nat -> (i < n)%nat ->
  exists cn, In cn (map (ring_conn b k n) (seq 0 n)) /\ ((cn_p1 cn = (k + i)%nat /\ cn_p2 cn = (k + next n i)%nat) \/ (cn_p1 cn = (k + next n i)%nat /\ cn_p2 cn = (k + i)%nat)).
Proof.
  intros Hn Hi. exists (ring_conn b k n i). split; [apply in_map, in_seq; lia|].
  destruct (ring_joins b k n i Hn Hi) as [_ [H|H]]; [left|right]; tauto.
Qed.
Lemma ring_linked b k n i j : (2 <= n)%nat -> (i < n)%nat -> (j < n)%nat -> linked (map (ring_conn b k n) (seq 0 n)) (k + i) (k + j).
Proof.
  intros Hn. unfold linked. set (l := map (ring_conn b k n) (seq 0 n)).
  assert (Hup : forall i, (i < n)%nat -> linked l (k + 0) (k + i)).
  { induction i0 as [|i0 IH]; intro H; [apply rt_refl|]. eapply rt_trans; [apply IH; lia|]. apply rt_step.
    destruct (ring_step b k n i0 Hn) as (cn & H1 & H2); [lia|]. exists cn. split; [exact H1|].
    rewrite next_small in H2 by lia. replace (i0 + 1)%nat with (S i0) in H2 by lia. exact H2. }
  assert (Hdown : forall i, (i < n)%nat -> linked l (k + i) (k + 0)).
  { induction i0 as [|i0 IH]; intro H; [apply rt_refl|]. eapply rt_trans; [|apply IH; lia]. apply rt_step.
    destruct (ring_step b k n i0 Hn) as (cn & H1 & H2); [lia|]. exists cn. split; [exact H1|].
    rewrite next_small in H2 by lia. replace (i0 + 1)%nat with (S i0) in H2 by lia. tauto. }
  intros H1 H2. eapply rt_trans; [apply Hdown; exact H1|apply Hup; exact H2].
Qed.

(* ------------------------------------------------- the cylinder *)
Lemma laid_start h W len : forall k0 o, laid_out h (seq k0 len) o -> (forall i, (i < len)%nat -> width (h (k0 + i)%nat) = W) ->
  forall i, (i < len)%nat -> xp_start (h (k0 + i)%nat) = Some (o + i * W)%nat.
Proof.
  induction len as [|len IH]; intros k0 o L HW i Hi; [lia|]. cbn [laid_out seq] in L. destruct L as (L1 & L2 & L3). destruct i as [|i].
  - rewrite Nat.add_0_r, Nat.mul_0_l, Nat.add_0_r. exact L1.
  - assert (Ew : width (h k0) = W) by (specialize (HW 0%nat); rewrite Nat.add_0_r in HW; apply HW; lia). rewrite Ew in L3.
    replace (k0 + S i)%nat with (S k0 + i)%nat by lia. rewrite (IH (S k0) (o + W)%nat L3) by (try lia; intros j Hj; replace (S k0 + j)%nat with (k0 + S j)%nat by lia; apply HW; lia).
    f_equal. lia.
Qed.
Section Made.
Variables (height r : R) (stack : list R) (plyt : R) (laminaprop : list R) (n m n' k q : nat) (w : world).
Hypothesis Hn : (2 <= n)%nat.
Notation b := (b_skin r n).
Notation create := (create_cylinder_assy height r stack plyt laminaprop n m n' k q w).
Definition cyl_shell : panel := np_panel (skin_panel height r stack plyt laminaprop n m n' 0).
Definition cyl_world : world :=
  put_conn (set_spans (seq k n) 0 (store k (skin_panels height r stack plyt laminaprop n m n') w)) q (ring_conns r n k).
Definition cyl_asm : assembly := mkAsm (seq k n) None None 4.
Lemma cyl_create : create = (cyl_world, Ok cyl_asm).
Proof using Hn. unfold create_cylinder_assy. destruct (Nat.ltb_spec n 2); [lia|]. reflexivity. Qed.
Lemma cyl_conn : w_conn cyl_world q = map (ring_conn b k n) (seq 0 n).
Proof using Hn. unfold cyl_world. cbn [w_conn put_conn]. unfold put. rewrite Nat.eqb_refl. apply ring_conns_eq. exact Hn. Qed.
Lemma cyl_panel i : (i < n)%nat -> let x := w_panel cyl_world (k + i) in xp x = cyl_shell /\ xp_group x = 0%nat /\ xp_loads x = no_loads.
Proof using Type.
  intros Hi x. unfold x, cyl_world. cbn [w_panel put_conn].
  destruct (spans_panel (seq k n) 0 (store k (skin_panels height r stack plyt laminaprop n m n') w) (k + i)) as (H1 & H2 & H3). rewrite H1, H2, H3.
  set (d := skin_panel height r stack plyt laminaprop n m n' 0). unfold skin_panels.
  rewrite (store_at _ d) by (rewrite map_length, seq_length; exact Hi). unfold d. rewrite map_nth. split; [reflexivity|split; reflexivity].
Qed.
Lemma cyl_assembled : assembled cyl_world cyl_asm.
Proof using Hn.
  assert (HA := new_assembly_ok (seq k n) None (store k (skin_panels height r stack plyt laminaprop n m n') w)).
  destruct HA as (H1 & H2 & H3).
  { intro E. apply (f_equal (@length nat)) in E. rewrite seq_length in E. cbn in E. lia. }
  { apply seq_NoDup. }
  split; [exact H1|]. split; [exact H2|]. cbn [as_panels cyl_asm]. exact H3.
Qed.
Lemma cyl_width i : (i < n)%nat -> width (w_panel cyl_world (k + i)) = (3 * m * n')%nat.
Proof using Type. intro Hi. destruct (cyl_panel i Hi) as (H & _). unfold width. rewrite H. reflexivity. Qed.
Lemma cyl_start i : (i < n)%nat -> start (w_panel cyl_world) (k + i) = (i * (3 * m * n'))%nat.
Proof using Hn.
  intro Hi. unfold start. destruct cyl_assembled as (_ & _ & L). cbn [as_panels cyl_asm] in L.
  rewrite (laid_start _ (3 * m * n') n k 0 L cyl_width i Hi). reflexivity.
Qed.
Lemma cyl_geometry i : (i < n)%nat -> geometry (w_panel cyl_world) (k + i) = kernel_view cyl_shell.
Proof using Type. intro Hi. unfold geometry. destruct (cyl_panel i Hi) as (H & _). rewrite H. reflexivity. Qed.
Lemma cyl_usable : (0 < m)%nat -> (0 < n')%nat -> List.Forall (usable (w_panel cyl_world) (seq k n)) (w_conn cyl_world q).
Proof using Hn.
  intros Hm Hn'. rewrite cyl_conn. apply Forall_forall. intros cn H. apply in_map_iff in H as (i & <- & Hi). apply in_seq in Hi.
  unfold usable. assert (0 < 3 * m * n')%nat by (apply Nat.mul_pos_pos; lia).
  unfold ring_conn. destruct (Nat.ltb_spec i (n - 1)); cbn [cn_p1 cn_p2].
  - split; [apply in_seq; lia|]. split; [apply in_seq; lia|]. split; [split; discriminate|]. left. unfold in_order. cbn [cn_p1 cn_p2].
    rewrite !cyl_start by lia. apply Nat.mul_lt_mono_pos_r; lia.
  - split; [apply in_seq; lia|]. split; [apply in_seq; lia|]. split; [split; discriminate|]. left. unfold in_order. cbn [cn_p1 cn_p2].
    assert (E0 := cyl_start 0 ltac:(lia)). rewrite Nat.add_0_r in E0. rewrite E0, cyl_start by lia. apply Nat.mul_lt_mono_pos_r; lia.
Qed.
Lemma cyl_circumference : suml (seq k n) (fun i => sh_b (pn_sh (xp (w_panel cyl_world i)))) = 2 * PI * r.
Proof using Hn.
  rewrite (suml_ext _ _ (fun _ => b)).
  { assert (H : forall (x : R) l, suml l (fun _ : nat => x) = INR (length l) * x).
    { intros x l. induction l as [|y l IH]; [cbn; ring|]. change (suml (y :: l) (fun _ => x)) with (x + suml l (fun _ => x)). rewrite IH.
      change (length (y :: l)) with (S (length l)). rewrite S_INR. ring. }
    rewrite H, seq_length. unfold b_skin. field. apply not_0_INR. lia. }
  intros i Hi. apply in_seq in Hi. replace i with (k + (i - k))%nat by lia. destruct (cyl_panel (i - k)) as (E & _); [lia|]. rewrite E. reflexivity.
Qed.
End Made.

Section Seams.
Variables (height r : R) (stack : list R) (plyt : R) (laminaprop : list R) (n m n' k q : nat) (w : world).
Variables (E : env) (Bs : basis) (M : nat).
Hypothesis Hn : (2 <= n)%nat.
Hypothesis Hm : (0 < m <= M)%nat. Hypothesis Hn' : (0 < n' <= M)%nat.
Hypothesis Hh : 0 < height. Hypothesis Hr : 0 < r.
Hypothesis Hst : stack <> []. Hypothesis Hlp : laminaprop <> [].
Notation lam := (e_lib E stack (map (fun _ => plyt) stack) (map (fun _ => laminaprop) stack) (map (fun _ => 0) stack) 0).
Hypothesis Hlam : 0 < lam_h lam /\ 0 < A11 lam /\ 0 < A22 lam /\ 0 < D11 lam /\ 0 < D22 lam.
Hypothesis HT : tables_integrate (e_tables E) Bs M.
Notation cw := (cyl_world height r stack plyt laminaprop n m n' k q w).
Notation cs := (cyl_asm n k).
Notation b := (b_skin r n).
Lemma b_pos : 0 < b.
Proof using All. unfold b_skin. apply Rdiv_lt_0_compat; [|apply lt_0_INR; lia]. assert (0 < PI) by apply PI_RGT_0. apply Rmult_lt_0_compat; lra. Qed.
Lemma cyl_sound i : (i < n)%nat -> sound E (w_panel cw) (k + i).
Proof using All.
  intro Hi. destruct (cyl_panel height r stack plyt laminaprop n m n' k q w i Hi) as (H & _). unfold sound. rewrite (cyl_geometry height r stack plyt laminaprop n m n' k q w i Hi).
  unfold lam_of. rewrite H. split.
  - split; [discriminate|]. split; [exact Hst|]. split; [right; exact Hlp|]. right. discriminate.
  - split; [exact Hh|]. split; [exact b_pos|]. exact Hlam.
Qed.
Lemma cyl_size : total_width (w_panel cw) (seq k n) = (n * (3 * m * n'))%nat.
Proof using All.
  unfold total_width. assert (G : forall len k0, (forall i, (i < len)%nat -> width (w_panel cw (k0 + i)) = (3 * m * n')%nat) ->
    list_sum (map (fun i => width (w_panel cw i)) (seq k0 len)) = (len * (3 * m * n'))%nat).
  { induction len as [|len IH]; intros k0 H; [reflexivity|]. cbn [seq map list_sum fold_right]; fold (list_sum (map (fun i => width (w_panel cw i)) (seq (S k0) len))). rewrite IH.
    - specialize (H 0%nat). rewrite Nat.add_0_r in H. rewrite H by lia. lia.
    - intros i Hi. replace (S k0 + i)%nat with (k0 + S i)%nat by lia. apply H. lia. }
  apply G. intros i Hi. apply cyl_width. exact Hi.
Qed.
Theorem cyl_seams : exists w2 s2 K, get_kC_conn E Bs (Some q) true cw cs = (w2, s2, Ok (CMat (n * (3 * m * n')) K)) /\
  (forall i j, K i j = K j i) /\
  (forall c d, exists Ws, Forall2 (fun cn => conn_work E Bs (w_panel cw) cn c d) (w_conn cw q) Ws /\ bilinear (n * (3 * m * n')) K c d = suml Ws (fun W => W)) /\
  (forall c, 0 <= quad (n * (3 * m * n')) K c) /\
  (forall c, (forall i, (i < n)%nat -> agree Bs (w_panel cw) c (k + i) b (k + next n i) 0 height) -> forall d, bilinear (n * (3 * m * n')) K c d = 0).
Proof using All.
  destruct (conn_stiffness E Bs M q (Some q) cw cs) as (w2 & s2 & K & G1 & G2 & G3 & G4 & G5).
  - apply cyl_assembled. exact Hn.
  - reflexivity.
  - reflexivity.
  - rewrite cyl_conn by exact Hn. intro H. apply (f_equal (@length conn)) in H. rewrite map_length, seq_length in H. cbn in H. lia.
  - apply cyl_usable; [exact Hn|lia|lia].
  - intros i Hi. apply in_seq in Hi. replace i with (k + (i - k))%nat by lia. split; [apply cyl_sound; lia|].
    rewrite cyl_geometry by lia. split; apply Hm || apply Hn'.
  - exact HT.
  - cbn [as_panels cyl_asm] in *. rewrite cyl_size in *. exists w2, s2, K. split; [exact G1|]. split; [exact G2|]. split; [exact G3|]. split; [exact G4|].
    intros c Hc d. apply G5. rewrite cyl_conn by exact Hn. apply Forall_forall. intros cn Hin. apply in_map_iff in Hin as (i & <- & Hi). apply in_seq in Hi.
    assert (Hone : height / height = 1) by (field; lra).
    specialize (Hc i ltac:(lia)). unfold no_jump, ring_conn. destruct (Nat.ltb_spec i (n - 1)); cbn [cn_func cn_p1 cn_p2 cn_y1 cn_y2].
    + rewrite next_small in Hc by lia. intros y1 y2 x E1 E2 Hx. injection E1 as <-. injection E2 as <-.
      rewrite !cyl_geometry in * by lia. cbn [sh_a kernel_view] in *. change (sh_a (pn_sh (cyl_shell height r stack plyt laminaprop n m n'))) with height in *. rewrite Hone, Rmult_1_r.
      unfold jumps_SSycte. repeat (apply List.Forall_cons; [cbn [snd]; rewrite Hc by (auto; exact Hx); ring|]). apply List.Forall_nil.
    + replace i with (n - 1)%nat in * by lia. rewrite next_last in Hc by lia. rewrite Nat.add_0_r in Hc. intros y1 y2 x E1 E2 Hx. injection E1 as <-. injection E2 as <-.
      assert (G0 : geometry (w_panel cw) k = kernel_view (cyl_shell height r stack plyt laminaprop n m n')).
      { assert (G0 := cyl_geometry height r stack plyt laminaprop n m n' k q w 0 ltac:(lia)). rewrite Nat.add_0_r in G0. exact G0. }
      rewrite G0 in *. rewrite cyl_geometry in * by lia. cbn [sh_a kernel_view] in *. change (sh_a (pn_sh (cyl_shell height r stack plyt laminaprop n m n'))) with height in *. rewrite Hone, Rmult_1_r.
      unfold jumps_SSycte. repeat (apply List.Forall_cons; [cbn [snd]; rewrite <- Hc by (auto; exact Hx); ring|]). apply List.Forall_nil.
Qed.
End Seams.
