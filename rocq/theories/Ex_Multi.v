(* Two panels with one term per direction, connected: examples and counterexamples for assemblies. *)
From Coq Require Import Reals List Arith Bool ZArith Lia Lra FunctionalExtensionality Permutation.
From Coquelicot Require Import Coquelicot.
From Verif Require Import Base_Sum Model_Types Model_Coo Model_Result Model_Num Model_DB Model_Bardell Model_Shell Model_Field Model_Fext Model_Conn Model_Multi
  Spec_Algebra Spec_Quadrature Spec_Kinematics Spec_Panel Spec_Shell Spec_Bardell Spec_Integral Spec_Fext Proof_Field Spec_Conn Spec_Multi Spec_MultiConn
  Proof_Ana Proof_AnaApi Proof_Terms Proof_Pd Proof_Multi Proof_MultiConn Proof_MultiSign Proof_MultiTop Proof_MultiHist Proof_FieldApi Proof_Shell Proof_Total Proof_FintApi Proof_Fext Ex_Panel Ex_Exact Ex_Fint Ex_Fext.
Import ListNotations.
Open Scope R_scope.

Definition loose : xpanel := mkXp one_panel 0 no_loads None None.
Definition two_world (l : nat -> list conn) : world := fst (new_assembly [0; 1]%nat (Some 0%nat) (mkWorld (fun _ => loose) l)).
Definition two_asm : assembly := mkAsm [0; 1]%nat (Some 0%nat) None 4.
Notation th l := (w_panel (two_world l)).
Lemma two_assembled l : assembled (two_world l) two_asm.
Proof. apply (new_assembly_ok [0; 1]%nat (Some 0%nat)); [discriminate|]. repeat constructor; cbn; intuition lia. Qed.
Lemma two_panel l i : xp (th l i) = one_panel.
Proof. destruct (set_spans_frame [0; 1]%nat 0 (mkWorld (fun _ => loose) l)) as (_ & H & _). destruct (H i) as (E & _). exact E. Qed.
Lemma two_conn l : w_conn (two_world l) = l.
Proof. destruct (set_spans_frame [0; 1]%nat 0 (mkWorld (fun _ => loose) l)) as (E & _). exact E. Qed.
Lemma two_geometry l i : geometry (th l) i = one_shell.
Proof. unfold geometry. rewrite two_panel. reflexivity. Qed.
Lemma two_lam l i : lam_of exact_env (th l) i = ex_lib [0] [1/8] [[1; 2; 3]] [1300] 0.
Proof. unfold lam_of. rewrite two_panel. reflexivity. Qed.
Lemma two_sound l i : sound exact_env (th l) i.
Proof.
  unfold sound. rewrite two_panel, two_geometry, two_lam. split; [exact one_complete|]. cbn. unfold A11, A22, D11, D22, ex_ABD. cbn. repeat split; lra.
Qed.
Lemma two_start l i : (i < 2)%nat -> start (th l) i = (3 * i)%nat.
Proof. intro H. destruct i as [|[|i]]; try lia; reflexivity. Qed.
Lemma two_start_some l i : (i < 2)%nat -> xp_start (th l i) = Some (3 * i)%nat.
Proof. intro H. destruct i as [|[|i]]; try lia; reflexivity. Qed.
Lemma two_soundly l i : In i (as_panels two_asm) -> sound exact_env (th l) i /\ (sh_m (geometry (th l) i) <= 1)%nat /\ (sh_n (geometry (th l) i) <= 1)%nat.
Proof. intros _. rewrite two_geometry. split; [apply two_sound|]. cbn. lia. Qed.
Lemma two_tables : tables_integrate (e_tables exact_env) exact_basis 1.
Proof. apply exact_tables_integrate. lia. Qed.

(* the fields *)
Lemma two_moves l i q c x y : (i < 2)%nat -> (q < 3)%nat -> moves exact_basis (th l) i c q x y = c (3 * i + q)%nat * F0 (natural x 2) * F0 (natural y 3).
Proof.
  intros Hi Hq. unfold moves. rewrite two_geometry, two_start by exact Hi.
  assert (HS : forall t, shape exact_basis 0 0 t free = F0 t) by (intro t; cbn [shape exact_basis bf]; unfold F0, bardell, flag, free; cbn [e1t]; field).
  destruct q as [|[|[|q]]]; try lia; unfold ritz_field, d_u, d_v, d_w, fld, ritz; cbn [sh_m sh_n one_shell sumn xedge yedge sh_xu sh_xv sh_xw sh_yu sh_yv sh_yw sh_a sh_b];
    rewrite !HS; unfold own; cbn [Nat.mul Nat.add]; rewrite ?Nat.add_0_r; ring.
Qed.
Lemma two_turn l i c x y : (i < 2)%nat -> moves exact_basis (th l) i c 4%nat x y = c (3 * i + 2)%nat * - (2 / 3 * (F0 (natural x 2) * shape exact_basis 1 0 (natural y 3) free)).
Proof.
  intros Hi. unfold moves. rewrite two_geometry, two_start by exact Hi.
  assert (HS : forall t, shape exact_basis 0 0 t free = F0 t) by (intro t; cbn [shape exact_basis bf]; unfold F0, bardell, flag, free; cbn [e1t]; field).
  unfold ritz_field, d_wy, fld, ritz. cbn [sh_m sh_n one_shell sumn xedge yedge sh_xw sh_yw sh_a sh_b].
  rewrite !HS. unfold own. cbn [Nat.mul Nat.add]. ring.
Qed.
Definition unit (k : nat) : nat -> R := fun r => if (r =? k)%nat then 1 else 0.
Lemma side_square : is_RInt (fun x => F0 (natural x 2) * F0 (natural x 2)) 0 2 (26 / 35).
Proof.
  evar_last. { apply (side_of_line 2 (fun t => F0 t * F0 t)); [lra|exact F0_square]. } lra.
Qed.
Lemma F0_ends : F0 (natural 0 3) = 1 /\ F0 (natural 3 3) = 0.
Proof. unfold F0, natural. split; field. Qed.

(* skin-skin connection of the sides y = y1 and y = y2 *)
Definition ssy (i j : nat) (y1 y2 : R) : conn := mkConn i j SSycte None None (Some y1) (Some y2) None.
Lemma two_penalty l i j : penalty_of exact_env (th l) A22 A22 i j = 16.
Proof. unfold penalty_of. rewrite !two_lam. unfold penalty, A22, ex_lib. cbn [lam_ABD lam_h]. unfold ex_ABD. cbn -[INR]. rewrite !INR_IZR_INZ. cbn. field. Qed.
Lemma ssy_work l y1 y2 W : conn_work exact_env exact_basis (th l) (ssy 0 1 y1 y2) (unit 0) (unit 0) W -> W = 16 * F0 (natural y1 3) ^ 2 * (26 / 35).
Proof.
  unfold conn_work, pair_work, ssy. cbn [cn_func cn_p1 cn_p2 cn_y1 cn_y2]. intros (z1 & z2 & E1 & E2 & HW). injection E1 as <-. injection E2 as <-.
  unfold work_along_x in HW. rewrite !two_geometry in HW. change (sh_a one_shell) with 2 in HW.
  apply (@is_RInt_unique R_CompleteNormedModule) in HW. rewrite <- HW. apply (@is_RInt_unique R_CompleteNormedModule).
  apply (is_RInt_ext (fun x => scal (16 * F0 (natural y1 3) ^ 2) (F0 (natural x 2) * F0 (natural x 2)))).
  - intros x _. unfold jump_work, jumps_SSycte. cbn [suml fst snd]. rewrite !two_moves, !two_turn by lia. rewrite two_penalty. cbn [unit Nat.mul Nat.add Nat.eqb].
    unfold scal. cbn. unfold mult. cbn. match goal with |- ?a = ?b => change (@eq R a b) end. unfold unit. cbn [Nat.eqb]. ring.
  - apply (is_RInt_scal (V := R_NormedModule) (fun x => F0 (natural x 2) * F0 (natural x 2))). exact side_square.
Qed.
Lemma ssy_work' l y1 y2 W : conn_work exact_env exact_basis (th l) (ssy 1 0 y1 y2) (unit 0) (unit 0) W -> W = 16 * F0 (natural y2 3) ^ 2 * (26 / 35).
Proof.
  unfold conn_work, pair_work, ssy. cbn [cn_func cn_p1 cn_p2 cn_y1 cn_y2]. intros (z1 & z2 & E1 & E2 & HW). injection E1 as <-. injection E2 as <-.
  unfold work_along_x in HW. rewrite !two_geometry in HW. change (sh_a one_shell) with 2 in HW.
  apply (@is_RInt_unique R_CompleteNormedModule) in HW. rewrite <- HW. apply (@is_RInt_unique R_CompleteNormedModule).
  apply (is_RInt_ext (fun x => scal (16 * F0 (natural y2 3) ^ 2) (F0 (natural x 2) * F0 (natural x 2)))).
  - intros x _. unfold jump_work, jumps_SSycte. cbn [suml fst snd]. rewrite !two_moves, !two_turn by lia. rewrite two_penalty. cbn [unit Nat.mul Nat.add Nat.eqb].
    replace (x * (2 / 2)) with x by field.
    unfold scal. cbn. unfold mult. cbn. match goal with |- ?a = ?b => change (@eq R a b) end. unfold unit. cbn [Nat.eqb]. ring.
  - apply (is_RInt_scal (V := R_NormedModule) (fun x => F0 (natural x 2) * F0 (natural x 2))). exact side_square.
Qed.
Lemma ssy_usable l y1 y2 : usable (th l) [0; 1]%nat (ssy 0 1 y1 y2).
Proof.
  unfold usable, has_keys, pair_keys, in_order, ssy. cbn [cn_p1 cn_p2 cn_func cn_y1 cn_y2]. rewrite !two_start by lia.
  repeat split; try discriminate; try (cbn; tauto). left. lia.
Qed.
Lemma ssy_reversed l y1 y2 : usable (th l) [0; 1]%nat (ssy 1 0 y1 y2).
Proof.
  unfold usable, has_keys, pair_keys, in_order, reversible, ssy. cbn [cn_p1 cn_p2 cn_func cn_y1 cn_y2]. rewrite !two_start, !two_geometry by lia.
  repeat split; try discriminate; try (cbn; tauto). right. split; [lia|reflexivity].
Qed.

(* the connection matrix of the two panels, in any world where the panels are as in two_world *)
Lemma kept_usable E w w' ids cn : wkept E w w' -> usable (w_panel w) ids cn -> usable (w_panel w') ids cn.
Proof.
  intros HK (A1 & A2 & A3 & A4). repeat split; auto; [apply (kept_keys E w w' HK); exact A3|].
  destruct A4 as [A|A]; [left; apply (kept_in_order E w w' HK); exact A|right; apply (kept_reversible E w w' HK); exact A].
Qed.
Lemma two_run l w k : wkept exact_env (two_world l) w -> w_conn w k <> [] -> List.Forall (usable (th l) [0; 1]%nat) (w_conn w k) ->
  exists w' K, get_kC_conn exact_env exact_basis (Some k) true w two_asm = (w', mkAsm [0; 1]%nat (Some 0%nat) (Some (CMat 6 K)) 4, Ok (CMat 6 K)) /\
    wkept exact_env (two_world l) w' /\ w_conn w' k = map (left_as (th l)) (w_conn w k) /\
    forall c d, exists Ws, Forall2 (fun cn => conn_work exact_env exact_basis (th l) cn c d) (w_conn w k) Ws /\ bilinear 6 K c d = suml Ws (fun W => W).
Proof.
  intros HK Hl HU.
  destruct (get_conn_run exact_env exact_basis (Some k) w two_asm k 1) as (w' & K & R1 & R2 & _ & R4 & _ & R6); auto.
  - destruct (two_assembled l) as (B1 & B2 & B3). split; [exact B1|]. split; [exact B2|]. apply (kept_laid _ _ _ HK). exact B3.
  - eapply List.Forall_impl; [|exact HU]. intros cn. apply (kept_usable exact_env _ _ _ _ HK).
  - intros i Hi. rewrite (kept_geometry _ _ _ HK). destruct (two_soundly l i Hi) as (S1 & S2). split; [apply (kept_sound _ _ _ HK); exact S1|exact S2].
  - exact two_tables.
  - assert (ES : total_width (w_panel w) (as_panels two_asm) = 6%nat).
    { rewrite (kept_total _ _ _ HK). unfold total_width, width. cbn [as_panels two_asm map]. rewrite !two_panel. reflexivity. }
    rewrite ES in R1, R6. exists w', K. split; [exact R1|]. split; [eapply wkept_trans; eassumption|]. split.
    { rewrite R4. apply map_ext. intro cn. unfold left_as. rewrite !(kept_start _ _ _ HK). reflexivity. }
    intros c d. destruct (R6 c d) as (Ws & F & B). exists Ws. split; [|exact B].
    revert F. clear - HK. generalize (w_conn w k). intros cns F. induction F; constructor; auto. apply (kept_work _ _ _ HK). assumption.
Qed.
Lemma unit_form n K i j : (i < n)%nat -> (j < n)%nat -> bilinear n K (unit i) (unit j) = K i j.
Proof.
  intros Hi Hj. unfold bilinear.
  transitivity (sumn n (fun r => if (r =? i)%nat then (fun r => sumn n (fun t => if (t =? j)%nat then K r t else 0)) r else 0)).
  - apply sumn_ext. intros r _. unfold unit at 1. destruct (r =? i)%nat eqn:E.
    + apply sumn_ext. intros t _. unfold unit. rewrite ?E. destruct (t =? j)%nat; ring.
    + apply sumn_0. intros t _. unfold unit. rewrite ?E. ring.
  - rewrite sumn_single. apply Nat.ltb_lt in Hi. rewrite Hi. rewrite (sumn_single n j (fun t => K i t)). apply Nat.ltb_lt in Hj. rewrite Hj. reflexivity.
Qed.

(* C41: two lists of connections *)
Definition lists (k : nat) : list conn := match k with 0%nat => [ssy 0 1 0 0] | _ => [ssy 0 1 0 0; ssy 0 1 0 0] end.
Lemma stale : exists w1 s1 K1 w2 s2 w3 s3 K2 K3, assembled (two_world lists) two_asm /\ as_kC_conn two_asm = None /\
  get_kC_conn exact_env exact_basis (Some 0%nat) true (two_world lists) two_asm = (w1, s1, Ok (CMat 6 K1)) /\
  get_kC_conn exact_env exact_basis (Some 1%nat) true w1 s1 = (w2, s2, Ok (CMat 6 K2)) /\
  get_kC_conn exact_env exact_basis (Some 1%nat) true (two_world lists) two_asm = (w3, s3, Ok (CMat 6 K3)) /\ K2 0%nat 0%nat <> K3 0%nat 0%nat.
Proof.
  assert (HU : forall k, List.Forall (usable (th lists) [0; 1]%nat) (lists k)).
  { intros [|k]; repeat (apply List.Forall_cons; [apply ssy_usable|]); apply List.Forall_nil. }
  destruct (two_run lists (two_world lists) 0 (wkept_refl _ _)) as (w1 & K1 & R1 & _ & _ & F1); rewrite ?two_conn; [discriminate|apply HU|].
  destruct (two_run lists (two_world lists) 1 (wkept_refl _ _)) as (w3 & K3 & R3 & _ & _ & F3); rewrite ?two_conn; [discriminate|apply HU|].
  exists w1, (mkAsm [0; 1]%nat (Some 0%nat) (Some (CMat 6 K1)) 4), K1, w1, (mkAsm [0; 1]%nat (Some 0%nat) (Some (CMat 6 K1)) 4), w3, (mkAsm [0; 1]%nat (Some 0%nat) (Some (CMat 6 K3)) 4), K1, K3.
  split; [apply two_assembled|]. split; [reflexivity|]. split; [exact R1|]. split; [apply conn_cached; [reflexivity|left; discriminate]|].
  split; [exact R3|].
  destruct (F1 (unit 0) (unit 0)) as (W1 & G1 & B1). destruct (F3 (unit 0) (unit 0)) as (W3 & G3 & B3). rewrite two_conn in G1, G3.
  rewrite unit_form in B1, B3 by lia. rewrite B1, B3. destruct F0_ends as [E0 _].
  inversion G1 as [|? u ? ? G1a G1b]; subst. inversion G1b; subst. inversion G3 as [|? u3 ? ? G3a G3b]; subst. inversion G3b as [|? u4 ? ? G4a G4b]; subst. inversion G4b; subst.
  apply ssy_work in G1a, G3a, G4a. rewrite E0 in G1a, G3a, G4a. cbn [suml]. lra.
Qed.

(* C42: a second assembly with the same panels and the same list *)
Definition backwards (k : nat) : list conn := [ssy 1 0 0 3].
Lemma two_again l w : wkept exact_env (two_world l) w -> wkept exact_env (two_world l) (fst (new_assembly [0; 1]%nat (Some 0%nat) w)).
Proof.
  intros HK i. destruct (HK i) as [A1 A2 A3 A4 A5]. destruct (set_spans_frame [0; 1]%nat 0 w) as (_ & FR & _). destruct (FR i) as (E1 & E2 & E3).
  assert (W0 : width (w_panel w 0%nat) = 3%nat) by (rewrite (kept_width _ _ _ HK); reflexivity).
  assert (W1 : width (w_panel w 1%nat) = 3%nat) by (rewrite (kept_width _ _ _ HK); reflexivity).
  constructor.
  - cbn [new_assembly fst]. rewrite E1. exact A1.
  - destruct i as [|[|i]]; cbn -[width]; rewrite ?W0; [reflexivity|reflexivity|exact A2].
  - destruct i as [|[|i]]; cbn -[width]; rewrite ?W0; [|unfold put; cbn -[width]; rewrite ?W1; reflexivity|exact A3]. rewrite ?W0. reflexivity.
  - cbn [new_assembly fst]. rewrite E2. exact A4.
  - cbn [new_assembly fst]. rewrite E3. exact A5.
Qed.
Lemma swapped_back : exists w1 s1 K1 w2 s2 K2, let again := new_assembly [0; 1]%nat (Some 0%nat) w1 in
  get_kC_conn exact_env exact_basis None true (two_world backwards) two_asm = (w1, s1, Ok (CMat 6 K1)) /\
  get_kC_conn exact_env exact_basis None true (fst again) (snd again) = (w2, s2, Ok (CMat 6 K2)) /\
  w_conn (two_world backwards) 0 = [ssy 1 0 0 3] /\ w_conn w1 0 = [ssy 1 0 3 0] /\ K1 0%nat 0%nat <> K2 0%nat 0%nat.
Proof.
  assert (HA : forall w, get_kC_conn exact_env exact_basis None true w two_asm = get_kC_conn exact_env exact_basis (Some 0%nat) true w two_asm) by (intro; reflexivity).
  destruct (two_run backwards (two_world backwards) 0 (wkept_refl _ _)) as (w1 & K1 & R1 & KP & C1 & F1); rewrite ?two_conn; [discriminate| |].
  { apply List.Forall_cons; [apply ssy_reversed|apply List.Forall_nil]. }
  assert (E1 : w_conn w1 0 = [ssy 1 0 3 0]).
  { rewrite C1, two_conn. cbn [backwards map]. unfold left_as, ssy. cbn [cn_p1 cn_p2]. rewrite !two_start by lia. reflexivity. }
  set (w1' := fst (new_assembly [0; 1]%nat (Some 0%nat) w1)).
  assert (E1' : w_conn w1' 0 = [ssy 1 0 3 0]). { unfold w1'. cbn [new_assembly fst]. destruct (set_spans_frame [0; 1]%nat 0 w1) as (-> & _). exact E1. }
  destruct (two_run backwards w1' 0 (two_again _ _ KP)) as (w2 & K2 & R2 & _ & _ & F2); rewrite ?E1'; [discriminate| |].
  { apply List.Forall_cons; [apply ssy_reversed|apply List.Forall_nil]. }
  exists w1, (mkAsm [0; 1]%nat (Some 0%nat) (Some (CMat 6 K1)) 4), K1, w2, (mkAsm [0; 1]%nat (Some 0%nat) (Some (CMat 6 K2)) 4), K2.
  cbv zeta. split; [rewrite HA; exact R1|]. split; [change (snd (new_assembly [0; 1]%nat (Some 0%nat) w1)) with two_asm; rewrite HA; exact R2|].
  split; [exact (f_equal (fun f => f 0%nat) (two_conn backwards))|]. split; [exact E1|].
  destruct (F1 (unit 0) (unit 0)) as (W1 & G1 & B1). destruct (F2 (unit 0) (unit 0)) as (W3 & G3 & B3). rewrite two_conn in G1. rewrite E1' in G3.
  rewrite unit_form in B1, B3 by lia. rewrite B1, B3. destruct F0_ends as [E0 E3].
  inversion G1 as [|? u ? ? G1a G1b]; subst. inversion G1b; subst. inversion G3 as [|? u3 ? ? G3a G3b]; subst. inversion G3b; subst.
  apply ssy_work' in G1a, G3a. rewrite E3 in G1a. rewrite E0 in G3a. cbn [suml]. lra.
Qed.

(* C54: base-flange connection with the flange before the base in the assembly *)
Definition bfy (i j : nat) : conn := mkConn i j BFycte None None (Some 0) (Some 0) None.
Lemma bfy_work l W : conn_work exact_env exact_basis (th l) (bfy 0 1) (unit 1) (unit 5) W -> W = - (16 * (26 / 35)).
Proof.
  unfold conn_work, pair_work, bfy. cbn [cn_func cn_p1 cn_p2 cn_y1 cn_y2]. intros (z1 & z2 & E1 & E2 & HW). injection E1 as <-. injection E2 as <-.
  unfold work_along_x in HW. rewrite !two_geometry in HW. change (sh_a one_shell) with 2 in HW. destruct F0_ends as [E0 _].
  apply (@is_RInt_unique R_CompleteNormedModule) in HW. rewrite <- HW. apply (@is_RInt_unique R_CompleteNormedModule).
  replace (- (16 * (26 / 35))) with (scal (- (16)) (26 / 35)) by (unfold scal; cbn; unfold mult; cbn; ring).
  apply (is_RInt_ext (fun x => scal (- (16)) (F0 (natural x 2) * F0 (natural x 2)))).
  - intros x _. unfold jump_work, jumps_BFycte. cbn [suml fst snd]. rewrite !two_moves, !two_turn by lia. rewrite two_penalty, E0.
    replace (x * (2 / 2)) with x by field.
    unfold scal. cbn. unfold mult. cbn. match goal with |- ?a = ?b => change (@eq R a b) end. unfold unit. cbn [Nat.eqb]. ring.
  - apply (is_RInt_scal (V := R_NormedModule) (fun x => F0 (natural x 2) * F0 (natural x 2))). exact side_square.
Qed.
Lemma bfy_meant l W : conn_work exact_env exact_basis (th l) (bfy 1 0) (unit 1) (unit 5) W -> W = 16 * (26 / 35).
Proof.
  unfold conn_work, pair_work, bfy. cbn [cn_func cn_p1 cn_p2 cn_y1 cn_y2]. intros (z1 & z2 & E1 & E2 & HW). injection E1 as <-. injection E2 as <-.
  unfold work_along_x in HW. rewrite !two_geometry in HW. change (sh_a one_shell) with 2 in HW. destruct F0_ends as [E0 _].
  apply (@is_RInt_unique R_CompleteNormedModule) in HW. rewrite <- HW. apply (@is_RInt_unique R_CompleteNormedModule).
  replace (16 * (26 / 35)) with (scal 16 (26 / 35)) by (unfold scal; cbn; unfold mult; cbn; ring).
  apply (is_RInt_ext (fun x => scal 16 (F0 (natural x 2) * F0 (natural x 2)))).
  - intros x _. unfold jump_work, jumps_BFycte. cbn [suml fst snd]. rewrite !two_moves, !two_turn by lia. rewrite two_penalty, E0.
    replace (x * (2 / 2)) with x by field.
    unfold scal. cbn. unfold mult. cbn. match goal with |- ?a = ?b => change (@eq R a b) end. unfold unit. cbn [Nat.eqb]. ring.
  - apply (is_RInt_scal (V := R_NormedModule) (fun x => F0 (natural x 2) * F0 (natural x 2))). exact side_square.
Qed.
Definition flange_first (k : nat) : list conn := match k with 0%nat => [bfy 1 0] | _ => [bfy 0 1] end.
Lemma two_split l : two_world l = mkWorld (w_panel (two_world (fun _ => []))) l.
Proof. unfold two_world, new_assembly. cbn [fst set_spans]. unfold put_panel. cbn [w_panel w_conn]. reflexivity. Qed.
Lemma flange_world : two_world flange_first = put_conn (two_world (fun _ => [bfy 0 1])) 0 (map mirror (w_conn (two_world (fun _ => [bfy 0 1])) 0)).
Proof.
  rewrite (two_split flange_first), (two_split (fun _ => [bfy 0 1])). unfold put_conn. cbn [w_panel w_conn]. f_equal.
  extensionality k. destruct k; reflexivity.
Qed.
Lemma roles_swapped : exists w' s' K, assembled (two_world flange_first) two_asm /\ as_kC_conn two_asm = None /\
  w_conn (two_world flange_first) 0 = [bfy 1 0] /\
  get_kC_conn exact_env exact_basis (Some 0%nat) true (two_world flange_first) two_asm = (w', s', Ok (CMat 6 K)) /\
  ~ conn_work exact_env exact_basis (th flange_first) (bfy 1 0) (unit 1) (unit 5) (bilinear 6 K (unit 1) (unit 5)).
Proof.
  destruct (two_run (fun _ => [bfy 0 1]) (two_world (fun _ => [bfy 0 1])) 0 (wkept_refl _ _)) as (w1 & K & R1 & _ & _ & F1); rewrite ?two_conn; [discriminate| |].
  { apply List.Forall_cons; [|apply List.Forall_nil]. unfold usable, has_keys, pair_keys, in_order, bfy. cbn [cn_p1 cn_p2 cn_func cn_y1 cn_y2].
    rewrite !two_start by lia. repeat split; try discriminate; try (cbn; tauto). left. lia. }
  assert (HM : snd (get_kC_conn exact_env exact_basis (Some 0%nat) true (two_world flange_first) two_asm) = Ok (CMat 6 K)).
  { replace (Ok (CMat 6 K)) with (snd (get_kC_conn exact_env exact_basis (Some 0%nat) true (two_world (fun _ => [bfy 0 1])) two_asm)) by (rewrite R1; reflexivity).
    rewrite <- (mirror_same exact_env exact_basis (two_world (fun _ => [bfy 0 1])) two_asm 0 true); [|].
    - rewrite <- flange_world. reflexivity.
    - rewrite two_conn. apply List.Forall_cons; [|apply List.Forall_nil]. split; [|split; split; auto; discriminate].
      exists 0%nat, 3%nat. repeat split; try (apply two_start_some; cbn; lia). discriminate. }
  destruct (get_kC_conn exact_env exact_basis (Some 0%nat) true (two_world flange_first) two_asm) as [[w' s'] r] eqn:EG. cbn [snd] in HM. subst r.
  exists w', s', K. split; [apply two_assembled|]. split; [reflexivity|]. split; [exact (f_equal (fun f => f 0%nat) (two_conn flange_first))|]. split; [reflexivity|].
  intro H. apply bfy_meant in H. destruct (F1 (unit 1) (unit 5)) as (W1 & G1 & B1). rewrite two_conn in G1.
  inversion G1 as [|? u ? ? G1a G1b]; subst. inversion G1b; subst. apply bfy_work in G1a. cbn [suml] in B1. lra.
Qed.

(* ------------------------------------------------- fields *)
Definition plate (a : R) : panel :=
  mkPanel (mkShell a 3 0 1 1 (-1) 1 (-1) 1 0 0 free free free free free free) None (Some (Known PlateModel)) 2 2 [0] (Some (1/8)) [] [1; 2; 3] [] (1300) [] 0 false None None None
    (0, 0, 0) (0, 0, 0) (Some true) None None (Some 1) (Some 2) (Some 3) None None None None None.
Definition plates (a : nat -> R) : world := fst (new_assembly [0; 1]%nat None (mkWorld (fun i => mkXp (plate (a i)) 0 no_loads None None) (fun _ => []))).
Definition plates_asm : assembly := mkAsm [0; 1]%nat None None 4.
Lemma plate_field a c o xs ys : (o + 3 <= length c)%nat ->
  one_uvw (fun l => l) exact_basis 4 (mkXp (plate a) 0 no_loads (Some o) (Some (o + 3)%nat)) c (meshgrid xs ys) =
  Ok (meshgrid xs ys, map (fun k => point_values (uvw_at exact_basis (kernel_view (plate a)) (vec (firstn 3 (skipn o c))) k) (snd (fst (meshgrid xs ys))) (snd (snd (meshgrid xs ys)))) (seq 0 5)).
Proof.
  intro Hc. unfold one_uvw. cbn [pn_model plate xp xp_start xp_end]. unfold pslice. cbn [default].
  replace (o + 3 - o)%nat with 3%nat by lia.
  rewrite fuvw_values; [reflexivity|intro; apply Permutation_refl|].
  unfold guard_ok. split; [discriminate|]. split; [cbn; lia|]. split; [cbn; lia|]. split.
  - rewrite firstn_length, skipn_length. change (3 * (sh_m (kernel_view (plate a)) * sh_n (kernel_view (plate a))))%nat with 3%nat. lia.
  - unfold meshgrid. cbn [fst snd]. induction ys as [|y ys IH]; [reflexivity|]. cbn [flat_map]. rewrite !app_length, map_length. lia.
Qed.
Lemma plates_0 a : w_panel (plates a) 0%nat = mkXp (plate (a 0%nat)) 0 no_loads (Some 0%nat) (Some 3%nat).
Proof. reflexivity. Qed.
Lemma plates_1 a : w_panel (plates a) 1%nat = mkXp (plate (a 1%nat)) 0 no_loads (Some 3%nat) (Some 6%nat).
Proof. reflexivity. Qed.
Lemma linspace_one len : linspace len 1 = [0].
Proof. unfold linspace. cbn [seq map]. f_equal. cbn. ring. Qed.
Lemma plate_w a z : uvw_at exact_basis (kernel_view (plate a)) (vec [0; 0; z]) 2 0 0 = z.
Proof.
  unfold uvw_at, d_w, fld, ritz. cbn [sh_m sh_n sumn kernel_view plate pn_sh sh_a sh_b xedge yedge shape exact_basis bf vec nth Nat.mul Nat.add].
  unfold flag, free, bardell, natural, vec. cbn [e1t nth Rdiv]. cbn [nth Nat.mul Nat.add]. replace (2 * 0 / a - 1) with (-1) by (unfold Rdiv; ring). change (e1t (sh_xw (kernel_view (plate a)))) with 1. change (e1t (sh_yw (kernel_view (plate a)))) with 1. field.
Qed.

(* C53: a second assembly with one of the panels of the first *)
Definition other_assembly (w : world) : world := fst (new_assembly [1]%nat None w).
Lemma shared : let w := plates (fun _ => 2) in let w' := other_assembly w in exists F F',
  assembled w plates_asm /\
  asm_uvw (fun l => l) exact_basis [0; 0; 1; 0; 0; 0] 0 1 1 w plates_asm = (w, plates_asm, Ok F) /\
  asm_uvw (fun l => l) exact_basis [0; 0; 1; 0; 0; 0] 0 1 1 w' plates_asm = (w', plates_asm, Ok F') /\
  nth 0 (nth 2 (snd (nth 1 F (meshgrid [] [], []))) []) 0 = 0 /\ nth 0 (nth 2 (snd (nth 1 F' (meshgrid [] [], []))) []) 0 = 1.
Proof.
  intros w w'.
  assert (H0 : w_panel w 0%nat = mkXp (plate 2) 0 no_loads (Some 0%nat) (Some 3%nat)) by reflexivity.
  assert (H1 : w_panel w 1%nat = mkXp (plate 2) 0 no_loads (Some 3%nat) (Some 6%nat)) by reflexivity.
  assert (H0' : w_panel w' 0%nat = mkXp (plate 2) 0 no_loads (Some 0%nat) (Some 3%nat)) by reflexivity.
  assert (H1' : w_panel w' 1%nat = mkXp (plate 2) 0 no_loads (Some 0%nat) (Some 3%nat)) by reflexivity.
  eexists. eexists. split; [|split; [|split]].
  - apply (new_assembly_ok [0; 1]%nat None); [discriminate|]. repeat constructor; cbn; intuition lia.
  - unfold asm_uvw. f_equal. cbn [as_panels plates_asm group_grid as_cores]. rewrite H0, H1. cbn [xp_group xp Nat.eqb].
    rewrite !linspace_one. rewrite (plate_field 2 _ 0) by (cbn; lia). rewrite (plate_field 2 _ 3) by (cbn; lia). cbn [rbind]. reflexivity.
  - unfold asm_uvw. f_equal. cbn [as_panels plates_asm group_grid as_cores]. rewrite H0', H1'. cbn [xp_group xp Nat.eqb].
    rewrite !linspace_one. rewrite (plate_field 2 _ 0) by (cbn; lia). cbn [rbind]. reflexivity.
  - cbn [nth snd map seq meshgrid flat_map fst app point_values combine skipn firstn]. rewrite !plate_w. split; reflexivity.
Qed.

(* C46: a missing vector of x coordinates *)
Definition lengths (i : nat) : R := match i with 0%nat => 2 | _ => 4 end.
Lemma leaked : let w := plates lengths in exists F,
  assembled w plates_asm /\
  asm_uvw_gauss (fun l => l) exact_basis [0; 0; 1; 0; 0; 0] 0 None (Some [0]) w plates_asm = (w, plates_asm, Ok F) /\
  map fst F = [meshgrid (linspace 2 50) [0]; meshgrid (linspace 2 50) [0]] /\
  ~ for_group (w_panel w) 0 (fun i f => fst f = meshgrid (linspace (sh_a (pn_sh (xp (w_panel w i)))) 50) [0]) (as_panels plates_asm) F.
Proof.
  intros w.
  assert (H0 : w_panel w 0%nat = mkXp (plate 2) 0 no_loads (Some 0%nat) (Some 3%nat)) by reflexivity.
  assert (H1 : w_panel w 1%nat = mkXp (plate 4) 0 no_loads (Some 3%nat) (Some 6%nat)) by reflexivity.
  eexists. split; [|split; [|split]].
  - apply (new_assembly_ok [0; 1]%nat None); [discriminate|]. repeat constructor; cbn; intuition lia.
  - unfold asm_uvw_gauss. f_equal. cbn [as_panels plates_asm group_gauss as_cores]. rewrite H0, H1. cbn [xp_group xp Nat.eqb pn_model plate default].
    rewrite (plate_field 2 _ 0) by (cbn; lia). rewrite (plate_field 4 _ 3) by (cbn; lia). cbn [rbind]. reflexivity.
  - reflexivity.
  - intro H. inversion H as [|? ? ? ? A1 A2 A3|? ? ? A1 A2]; subst; [|apply A1; rewrite H0; reflexivity].
    inversion A3 as [|? ? ? ? B1 B2 B3|? ? ? B1 B2]; subst; [|apply B1; rewrite H1; reflexivity]. rewrite H1 in B2. cbn [fst xp pn_sh plate sh_a] in B2.
    apply (f_equal (fun m => nth 1 (snd (fst m)) 0)) in B2. revert B2. unfold meshgrid, linspace. cbn [fst snd flat_map map seq app nth Nat.sub]. intro B2.
    assert (0 < / INR 49) by (apply Rinv_0_lt_compat, lt_0_INR; lia). unfold Rdiv in B2. change (INR 1) with 1 in B2. lra.
Qed.

(* ------------------------------------------------- matrices and vectors of the two panels *)
Lemma ready_sig : {p : panel | rebuild exact_env one_panel = (p, Ok tt)}.
Proof.
  exists (fst (rebuild exact_env one_panel)). destruct (rebuild_ok exact_env one_panel one_complete) as (p1 & H). rewrite H. reflexivity.
Qed.
Definition ready_panel : panel := proj1_sig ready_sig.
Lemma ready_is : rebuild exact_env one_panel = (ready_panel, Ok tt).
Proof. exact (proj2_sig ready_sig). Qed.
Definition ready : xpanel := mkXp ready_panel 0 no_loads None None.
Definition ready_world (l : nat -> list conn) : world := fst (new_assembly [0; 1]%nat (Some 0%nat) (mkWorld (fun _ => ready) l)).
Notation rh l := (w_panel (ready_world l)).
Lemma ready_xp l i : xp (rh l i) = ready_panel.
Proof. destruct (set_spans_frame [0; 1]%nat 0 (mkWorld (fun _ => ready) l)) as (_ & H & _). destruct (H i) as (E & _). exact E. Qed.
Lemma ready_loads l i : xp_loads (rh l i) = no_loads.
Proof. destruct (set_spans_frame [0; 1]%nat 0 (mkWorld (fun _ => ready) l)) as (_ & H & _). destruct (H i) as (_ & _ & E). exact E. Qed.
Lemma ready_conn l : w_conn (ready_world l) = l.
Proof. destruct (set_spans_frame [0; 1]%nat 0 (mkWorld (fun _ => ready) l)) as (E & _). exact E. Qed.
Lemma ready_assembled l : assembled (ready_world l) two_asm.
Proof. apply (new_assembly_ok [0; 1]%nat (Some 0%nat)); [discriminate|]. repeat constructor; cbn; intuition lia. Qed.
Lemma ready_kept l : wkept exact_env (two_world l) (ready_world l).
Proof.
  assert (HS : pn_sh ready_panel = one_shell). { pose proof ready_is as H. apply rebuild_inv in H. destruct H as (H & _). exact (si_sh _ _ H). }
  assert (HW : width ready = 3%nat) by (unfold width, ready; cbn [xp]; rewrite HS; reflexivity).
  assert (HK : kept exact_env one_panel ready_panel).
  { apply (rebuilt_kept _ _ _ _ ready_is); [constructor; try reflexivity; constructor; reflexivity|].
    pose proof ready_is as H. apply rebuild_inv in H. destruct H as (_ & H & _). rewrite H. reflexivity. }
  intro i. constructor.
  - rewrite two_panel, ready_xp. exact HK.
  - destruct i as [|[|i]]; try reflexivity. unfold ready_world, new_assembly. cbn [fst set_spans]. unfold put_panel, put. cbn [w_panel Nat.eqb with_span xp_start].
    rewrite HW. reflexivity.
  - destruct i as [|[|i]]; try reflexivity; unfold ready_world, new_assembly; cbn [fst set_spans]; unfold put_panel, put; cbn [w_panel Nat.eqb with_span xp_end];
    rewrite !HW; reflexivity.
  - destruct i as [|[|i]]; reflexivity.
  - rewrite ready_loads. destruct (set_spans_frame [0; 1]%nat 0 (mkWorld (fun _ => loose) l)) as (_ & H & _). destruct (H i) as (_ & _ & E). symmetry. exact E.
Qed.
Lemma ready_start l i : (i < 2)%nat -> xp_start (rh l i) = Some (3 * i)%nat.
Proof. intro H. rewrite (kx_start _ _ _ (ready_kept l i)). apply two_start_some. exact H. Qed.
Lemma ready_width l i : width (rh l i) = 3%nat.
Proof. rewrite (kept_width _ _ _ (ready_kept l)). unfold width. rewrite two_panel. reflexivity. Qed.
Lemma ready_complete : complete ready_panel.
Proof. pose proof (kp_complete _ _ _ (kx_panel _ _ _ (ready_kept (fun _ => []) 0%nat))) as H. rewrite two_panel, ready_xp in H. apply H. exact one_complete. Qed.
Lemma ready_sh : pn_sh ready_panel = one_shell.
Proof. pose proof ready_is as H. apply rebuild_inv in H. destruct H as (H & _). exact (si_sh _ _ H). Qed.
Definition six : list R := [1; 0; 2; 0; 3; 1].
Lemma ready_kC l fin : exists Ks, Forall2 (own_kC exact_env (rh l) fin (Some (CVec six))) [0; 1]%nat Ks.
Proof.
  assert (H : forall i, (i < 2)%nat -> exists K, own_kC exact_env (rh l) fin (Some (CVec six)) i K).
  { intros i Hi. destruct (calc_kC_ok exact_env (alone fin (part (3 * i) 3 (Some (CVec six)))) ready_panel ready_complete) as (p' & K & H); rewrite ?ready_sh; try reflexivity; try (cbn; lia); try exact I; try discriminate.
    - destruct i as [|[|i]]; [reflexivity|reflexivity|lia].
    - pose proof ready_is as HR. apply rebuild_inv in HR. destruct HR as (HR & _). rewrite (si_N_cte _ _ HR). reflexivity.
    - exists K, (3 * i)%nat, p'. rewrite ready_width, ready_xp. split; [apply ready_start; exact Hi|]. exact H. }
  destruct (H 0%nat) as (K0 & H0); [lia|]. destruct (H 1%nat) as (K1 & H1); [lia|]. exists [K0; K1]. auto.
Qed.
Lemma ready_kG l fin : exists Ks, Forall2 (own_kG exact_env (rh l) fin (Some (CVec six))) [0; 1]%nat Ks.
Proof.
  assert (H : forall i, (i < 2)%nat -> exists K, own_kG exact_env (rh l) fin (Some (CVec six)) i K).
  { intros i Hi. destruct (calc_kG_ok exact_env (alone fin (part (3 * i) 3 (Some (CVec six)))) ready_panel ready_complete) as (p' & K & H); rewrite ?ready_sh; try reflexivity; try (cbn; lia); try exact I; try discriminate.
    - destruct i as [|[|i]]; [reflexivity|reflexivity|lia].
    - exists K, (3 * i)%nat, p'. rewrite ready_width, ready_xp. split; [apply ready_start; exact Hi|]. exact H. }
  destruct (H 0%nat) as (K0 & H0); [lia|]. destruct (H 1%nat) as (K1 & H1); [lia|]. exists [K0; K1]. auto.
Qed.
Lemma ready_kM l fin : exists Ks, Forall2 (own_kM exact_env (rh l) fin) [0; 1]%nat Ks.
Proof.
  pose proof ready_is as HR. apply rebuild_inv in HR. destruct HR as (_ & _ & Hm & _ & _ & _ & Hl & _).
  destruct (calc_kM_ok exact_env SNone 0 0 None None None None fin ready_panel _ _ Hm Hl) as (p' & K & H); rewrite ?ready_sh; try (cbn; lia); try exact I.
  exists [K; K]. repeat constructor; exists p'; rewrite ready_xp; exact H.
Qed.
Lemma ready_fint l : exists vs, Forall2 (own_fint exact_env (rh l) six) [0; 1]%nat vs.
Proof.
  assert (H : forall i, (i < 2)%nat -> exists f, own_fint exact_env (rh l) six i f).
  { intros i Hi. pose proof ready_is as HR. apply rebuild_inv in HR. destruct HR as (_ & _ & Hm & _ & _ & _ & _ & HF & _).
    destruct (calc_fint_ok exact_env (firstn 3 (skipn (3 * i) six)) SNone 0 None None None ready_panel _ Hm) as (p' & u & H); rewrite ?ready_sh; try exact I; try (cbn; lia).
    - rewrite HF. discriminate.
    - destruct i as [|[|i]]; try lia; cbn; lia.
    - exists (vdense u), (3 * i)%nat, p', u. rewrite ready_width, ready_xp. split; [apply ready_start; exact Hi|]. split; [exact H|reflexivity]. }
  destruct (H 0%nat) as (K0 & H0); [lia|]. destruct (H 1%nat) as (K1 & H1); [lia|]. exists [K0; K1]. auto.
Qed.
Lemma ready_fext l inc : exists vs, Forall2 (own_fext exact_env vec_basis (rh l) inc) [0; 1]%nat vs.
Proof.
  destruct (calc_fext_ok exact_env vec_basis no_loads inc SNone 0 ready_panel ready_complete) as (p' & f & H); rewrite ?ready_sh; try (cbn; lia); [apply List.Forall_nil|].
  exists [vec f; vec f]. repeat constructor; exists p', f; rewrite ready_xp, ready_loads; (split; [exact H|reflexivity]).
Qed.
Lemma ready_usable l : List.Forall (usable (th l) [0; 1]%nat) (l 0%nat) -> List.Forall (usable (rh l) (as_panels two_asm)) (w_conn (ready_world l) 0).
Proof. intro H. rewrite ready_conn. eapply List.Forall_impl; [|exact H]. intro cn. apply (kept_usable exact_env _ _ _ _ (ready_kept l)). Qed.
Lemma ready_soundly l i : In i (as_panels two_asm) -> sound exact_env (rh l) i /\ (sh_m (geometry (rh l) i) <= 1)%nat /\ (sh_n (geometry (rh l) i) <= 1)%nat.
Proof.
  intros Hi. rewrite (kept_geometry _ _ _ (ready_kept l)). destruct (two_soundly l i Hi) as (S1 & S2). split; [apply (kept_sound _ _ _ (ready_kept l)); exact S1|exact S2].
Qed.
