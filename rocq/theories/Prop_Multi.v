(* Assemblies of panels (MultiDomain): slices, block-diagonal matrices, connections, forces, fields.
   A world (Model_Multi.v) holds the panel objects and the connection lists by number, since panels and
   dictionaries are shared and modified; laid_out, diagonal, stacked, own_forms (Spec_Multi.v) say where the
   panels are and what their own matrices and vectors give; conn_work (Spec_MultiConn.v) is the work of
   the springs of a connection in the displacement jumps. *)
From Coq Require Import Reals List Arith Bool Lia Lra.
From Coquelicot Require Import Coquelicot.
From Verif Require Import Base_Sum Model_Types Model_Coo Model_Result Model_Num Model_DB Model_Bardell Model_Shell Model_Field Model_Fext Model_Conn Model_Multi
  Spec_Algebra Spec_Quadrature Spec_Integral Spec_Kinematics Spec_Panel Spec_Shell Spec_Bardell Spec_Fext Spec_Conn Spec_Multi Spec_MultiConn
  Proof_AnaApi Proof_Bardell Proof_Multi Proof_MultiConn Proof_MultiSign Proof_MultiTop Proof_MultiHist Proof_MultiApi Ex_Panel Ex_Exact Ex_Fint Ex_Multi.
Import ListNotations.
Open Scope R_scope.

(* ------------------------------------------------- C38 *)
Theorem C38_panels_occupy_consecutive_slices : forall ids cn w, ids <> [] -> NoDup ids ->
  let w' := fst (new_assembly ids cn w) in let s := snd (new_assembly ids cn w) in
  let n i := (3 * (sh_m (pn_sh (xp (w_panel w i))) * sh_n (pn_sh (xp (w_panel w i)))))%nat in
  let size := list_sum (map n ids) in
  asm_size w' s = (w', s, Ok size) /\
  (forall pre i post, ids = pre ++ i :: post ->
     xp_start (w_panel w' i) = Some (list_sum (map n pre)) /\ xp_end (w_panel w' i) = Some (list_sum (map n pre) + n i)%nat) /\
  (forall k, (k < size)%nat -> exists i, In i ids /\ in_slice (w_panel w') i k) /\
  (forall i j k, In i ids -> In j ids -> in_slice (w_panel w') i k -> in_slice (w_panel w') j k -> i = j /\ (k < size)%nat) /\
  (* nothing else changes *)
  w_conn w' = w_conn w /\
  (forall i, xp (w_panel w' i) = xp (w_panel w i) /\ xp_group (w_panel w' i) = xp_group (w_panel w i) /\ xp_loads (w_panel w' i) = xp_loads (w_panel w i)) /\
  (forall i, ~ In i ids -> w_panel w' i = w_panel w i).
Proof. exact slices_of_new. Qed.
Print Assumptions C38_panels_occupy_consecutive_slices.
Theorem C38_slices_are_recovered : forall w s (cs : list (list R)), assembled w s ->
  Forall2 (fun i c => length c = width (w_panel w i)) (as_panels s) cs ->
  Forall2 (fun i c => pslice (xp_start (w_panel w i)) (xp_end (w_panel w i)) (concat cs) = c) (as_panels s) cs.
Proof. intros w s cs (_ & _ & L) HF. apply (pslice_concat _ _ cs [] 0 L eq_refl HF). Qed.
Print Assumptions C38_slices_are_recovered.
(* the fields of an assembly are those of the panels of the group, each on its part of the vector *)
Theorem C38_fields_of_each_panel : forall sched Bv c group gridx gridy w s w' s' fs,
  asm_uvw sched Bv c group gridx gridy w s = (w', s', Ok fs) ->
  w' = w /\ s' = s /\
  for_group (w_panel w) group (fun i f =>
    let x := w_panel w i in let XY := meshgrid (linspace (sh_a (pn_sh (xp x))) gridx) (linspace (sh_b (pn_sh (xp x))) gridy) in
    fst f = XY /\ fuvw sched Bv (pslice (xp_start x) (xp_end x) c) (kernel_view (xp x)) (snd (fst XY)) (snd (snd XY)) (as_cores s) = Ok (snd f)) (as_panels s) fs.
Proof. exact fields_each. Qed.
Print Assumptions C38_fields_of_each_panel.
Example C38_case : let w := plates (fun _ => 2) in let w' := fst (new_assembly [1; 0]%nat None w) in
  xp_start (w_panel w' 0%nat) = Some 3%nat /\ xp_start (w_panel w' 1%nat) = Some 0%nat /\
  (exists F, asm_uvw (fun l => l) exact_basis [0; 0; 1; 0; 0; 0] 0 1 1 w plates_asm = (w, plates_asm, Ok F)).
Proof. cbv zeta. split; [reflexivity|]. split; [reflexivity|]. destruct shared as (F & _ & _ & H & _). exists F. exact H. Qed.

(* ------------------------------------------------- C39 *)
Theorem C39_geometric_stiffness_is_block_diagonal : forall E w s c fin Ks, assembled w s ->
  let h := w_panel w in let ids := as_panels s in let size := total_width h ids in
  (forall l, c = Some (CVec l) -> length l = size) -> Forall2 (own_kG E h fin c) ids Ks ->
  exists w', asm_kG E c fin w s = (w', s, Ok (Some (diagonal h ids Ks))) /\
    forall u v, bilinear size (diagonal h ids Ks) u v = own_forms h ids Ks u v.
Proof.
  intros E w s c fin Ks HA h ids size Hl HF. destruct (asm_kG_diagonal E w s HA c fin Ks Hl HF) as (w' & H & _). exists w'. split; [exact H|].
  intros u v. apply diagonal_forms; [apply HA|]. symmetry. eapply forall2_len. exact HF.
Qed.
Print Assumptions C39_geometric_stiffness_is_block_diagonal.
Theorem C39_mass_is_block_diagonal : forall E w s fin Ks, assembled w s ->
  let h := w_panel w in let ids := as_panels s in let size := total_width h ids in
  Forall2 (own_kM E h fin) ids Ks ->
  exists w', asm_kM E fin w s = (w', s, Ok (Some (diagonal h ids Ks))) /\
    forall u v, bilinear size (diagonal h ids Ks) u v = own_forms h ids Ks u v.
Proof.
  intros E w s fin Ks HA h ids size HF. destruct (asm_kM_diagonal E w s HA fin Ks HF) as (w' & H & _). exists w'. split; [exact H|].
  intros u v. apply diagonal_forms; [apply HA|]. symmetry. eapply forall2_len. exact HF.
Qed.
Print Assumptions C39_mass_is_block_diagonal.
(* the stiffness: the panels' own plus the work of the connections *)
Theorem C39_stiffness_is_block_diagonal_plus_connections : forall E Bs M k w s arg c fin Ks, assembled w s -> as_kC_conn s = None ->
  let h := w_panel w in let ids := as_panels s in let size := total_width h ids in
  (match arg with Some k' => Some k' | None => as_conn s end) = Some k ->
  w_conn w k <> [] -> List.Forall (usable h ids) (w_conn w k) ->
  (forall i, In i ids -> sound E h i /\ (sh_m (geometry h i) <= M)%nat /\ (sh_n (geometry h i) <= M)%nat) ->
  tables_integrate (e_tables E) Bs M ->
  (forall l, c = Some (CVec l) -> length l = size) -> Forall2 (own_kC E h fin c) ids Ks ->
  exists w' s' K KC, asm_kC E Bs arg c fin w s = (w', s', Ok (Some K)) /\
    (forall r t, K r t = diagonal h ids Ks r t + KC r t) /\ (forall r t, KC r t = KC t r) /\
    forall u v, exists Ws, Forall2 (fun cn => conn_work E Bs h cn u v) (w_conn w k) Ws /\ bilinear size KC u v = suml Ws (fun W => W) /\
      bilinear size K u v = own_forms h ids Ks u v + suml Ws (fun W => W).
Proof.
  intros E Bs M k w s arg c fin Ks HA Hc h ids size Harg Hl HU HS HT Hlen HF.
  exact (asm_kC_energy E Bs M k w s HA Hc Hl HU HS HT arg c fin Ks Harg Hlen HF).
Qed.
Print Assumptions C39_stiffness_is_block_diagonal_plus_connections.
Example C39_case : let w := ready_world lists in
  assembled w two_asm /\ as_kC_conn two_asm = None /\ w_conn w 0 = [ssy 0 1 0 0] /\ List.Forall (usable (w_panel w) [0; 1]%nat) (w_conn w 0) /\
  (forall i, In i [0; 1]%nat -> sound exact_env (w_panel w) i /\ (sh_m (geometry (w_panel w) i) <= 1)%nat /\ (sh_n (geometry (w_panel w) i) <= 1)%nat) /\
  tables_integrate (e_tables exact_env) exact_basis 1 /\ length six = total_width (w_panel w) [0; 1]%nat /\
  (exists Ks, Forall2 (own_kC exact_env (w_panel w) true (Some (CVec six))) [0; 1]%nat Ks) /\
  (exists Ks, Forall2 (own_kG exact_env (w_panel w) true (Some (CVec six))) [0; 1]%nat Ks) /\
  (exists Ks, Forall2 (own_kM exact_env (w_panel w) true) [0; 1]%nat Ks).
Proof.
  cbv zeta. split; [apply ready_assembled|]. split; [reflexivity|]. split; [rewrite ready_conn; reflexivity|].
  split. { apply ready_usable. apply List.Forall_cons; [apply ssy_usable|apply List.Forall_nil]. }
  split; [apply (ready_soundly lists)|]. split; [apply two_tables|]. split.
  { unfold total_width. cbn [map]. rewrite !ready_width. reflexivity. }
  split; [apply ready_kC|]. split; [apply ready_kG|apply ready_kM].
Qed.

(* ------------------------------------------------- C40 *)
Section C40.
Variables (E : env) (Bs : basis) (M k : nat) (arg : option nat) (w : world) (s : assembly).
Let h := w_panel w.
Let ids := as_panels s.
Let size := total_width h ids.
Theorem C40_connection_stiffness_is_the_work_of_the_jumps :
  assembled w s -> as_kC_conn s = None -> (match arg with Some k' => Some k' | None => as_conn s end) = Some k ->
  w_conn w k <> [] -> List.Forall (usable h ids) (w_conn w k) ->
  (forall i, In i ids -> sound E h i /\ (sh_m (geometry h i) <= M)%nat /\ (sh_n (geometry h i) <= M)%nat) ->
  tables_integrate (e_tables E) Bs M ->
  exists w' s' K, get_kC_conn E Bs arg true w s = (w', s', Ok (CMat size K)) /\
    (forall r t, K r t = K t r) /\
    (forall c d, exists Ws, Forall2 (fun cn => conn_work E Bs h cn c d) (w_conn w k) Ws /\ bilinear size K c d = suml Ws (fun W => W)) /\
    (forall c, 0 <= quad size K c) /\
    (forall c, List.Forall (fun cn => no_jump Bs h cn c) (w_conn w k) -> forall d, bilinear size K c d = 0).
Proof. exact (conn_stiffness E Bs M k arg w s). Qed.
End C40.
Print Assumptions C40_connection_stiffness_is_the_work_of_the_jumps.
(* the same for one displacement jump: 4 A22 A22 / (2 A22 * 2 h) = 16 along a side of length 2 *)
Example C40_case : exists w' s' K, get_kC_conn exact_env exact_basis None true (two_world lists) two_asm = (w', s', Ok (CMat 6 K)) /\
  K 0%nat 0%nat = 16 * (26 / 35).
Proof.
  destruct (two_run lists (two_world lists) 0 (wkept_refl _ _)) as (w1 & K1 & R1 & _ & _ & F1); rewrite ?two_conn; [discriminate| |].
  { apply List.Forall_cons; [apply ssy_usable|apply List.Forall_nil]. }
  exists w1, (mkAsm [0; 1]%nat (Some 0%nat) (Some (CMat 6 K1)) 4), K1.
  assert (HA : forall w, get_kC_conn exact_env exact_basis None true w two_asm = get_kC_conn exact_env exact_basis (Some 0%nat) true w two_asm) by (intro; reflexivity).
  split; [rewrite HA; exact R1|].
  destruct (F1 (unit 0) (unit 0)) as (W1 & G1 & B1). rewrite two_conn in G1. rewrite unit_form in B1 by lia. rewrite B1.
  inversion G1 as [|? u ? ? G1a G1b]; subst. inversion G1b; subst. apply ssy_work in G1a. destruct F0_ends as [E0 _]. rewrite E0 in G1a. cbn [suml]. lra.
Qed.

(* ------------------------------------------------- C41 *)
Theorem C41_refuted : exists E Bs w s k1 k2 w1 s1 K1 w2 s2 w3 s3 K2 K3, assembled w s /\ as_kC_conn s = None /\
  get_kC_conn E Bs (Some k1) true w s = (w1, s1, Ok (CMat 6 K1)) /\
  get_kC_conn E Bs (Some k2) true w1 s1 = (w2, s2, Ok (CMat 6 K2)) /\
  get_kC_conn E Bs (Some k2) true w s = (w3, s3, Ok (CMat 6 K3)) /\ K2 0%nat 0%nat <> K3 0%nat 0%nat.
Proof. exists exact_env, exact_basis, (two_world lists), two_asm, 0%nat, 1%nat. exact stale. Qed.
Print Assumptions C41_refuted.
(* once a matrix is stored every call returns it, whatever connections are passed *)
Theorem C41_first_matrix_stays : forall E Bs arg fin w s m, as_kC_conn s = Some m -> (arg <> None \/ as_conn s <> None) ->
  get_kC_conn E Bs arg fin w s = (w, s, Ok m).
Proof. exact conn_cached. Qed.
Print Assumptions C41_first_matrix_stays.

(* ------------------------------------------------- C42 *)
Theorem C42_either_order_gives_the_same_partial : forall E Bs w s k fin, List.Forall (two_sided (w_panel w)) (w_conn w k) ->
  snd (get_kC_conn E Bs (Some k) fin (put_conn w k (map mirror (w_conn w k))) s) = snd (get_kC_conn E Bs (Some k) fin w s).
Proof. exact mirror_same. Qed.
Print Assumptions C42_either_order_gives_the_same_partial.
(* the definitions whose first panel comes first in the assembly are left alone *)
Theorem C42_definitions_in_order_are_kept_partial : forall E Bs M k arg w s, assembled w s -> as_kC_conn s = None ->
  let h := w_panel w in let ids := as_panels s in
  (match arg with Some k' => Some k' | None => as_conn s end) = Some k ->
  w_conn w k <> [] -> List.Forall (usable h ids) (w_conn w k) -> List.Forall (in_order h) (w_conn w k) ->
  (forall i, In i ids -> sound E h i /\ (sh_m (geometry h i) <= M)%nat /\ (sh_n (geometry h i) <= M)%nat) ->
  tables_integrate (e_tables E) Bs M ->
  forall k', w_conn (fst (fst (get_kC_conn E Bs arg true w s))) k' = w_conn w k'.
Proof. exact in_order_kept. Qed.
Print Assumptions C42_definitions_in_order_are_kept_partial.
(* the others are changed, and a second assembly with the same definitions gets another matrix *)
Theorem C42_refuted : exists E Bs w w1 s1 K1 w2 s2 K2, let asm := new_assembly [0; 1]%nat (Some 0%nat) w in
  let again := new_assembly [0; 1]%nat (Some 0%nat) w1 in
  get_kC_conn E Bs None true (fst asm) (snd asm) = (w1, s1, Ok (CMat 6 K1)) /\
  get_kC_conn E Bs None true (fst again) (snd again) = (w2, s2, Ok (CMat 6 K2)) /\
  w_conn (fst asm) 0 = [ssy 1 0 0 3] /\ w_conn w1 0 = [ssy 1 0 3 0] /\ K1 0%nat 0%nat <> K2 0%nat 0%nat.
Proof. exists exact_env, exact_basis, (mkWorld (fun _ => loose) backwards). exact swapped_back. Qed.
Print Assumptions C42_refuted.
Example C42_case : List.Forall (two_sided (w_panel (two_world backwards))) (w_conn (two_world backwards) 0) /\ w_conn (two_world backwards) 0 <> [] /\
  List.Forall (in_order (w_panel (two_world lists))) (w_conn (two_world lists) 0).
Proof.
  rewrite !two_conn. split; [|split; [discriminate|]].
  - apply List.Forall_cons; [|apply List.Forall_nil]. split; [|split; split; auto; discriminate].
    exists 3%nat, 0%nat. repeat split; try (apply two_start_some; cbn; lia). discriminate.
  - apply List.Forall_cons; [|apply List.Forall_nil]. unfold in_order, ssy. cbn [cn_p1 cn_p2]. rewrite !two_start by lia. lia.
Qed.

(* ------------------------------------------------- C43 *)
(* what calc_kt_kr returns, from the stiffnesses and thicknesses of the laminates of the two panels *)
Theorem C43_penalties : forall E i j t w s, i <> j -> complete (xp (w_panel w i)) -> complete (xp (w_panel w j)) ->
  let l1 := lam_of E (w_panel w) i in let l2 := lam_of E (w_panel w) j in
  let of x y := penalty x y (lam_h l1) (lam_h l2) in
  snd (calc_kt_kr E i j t w s) = Ok match t with
    | Xcte => (of (A11 l1) (A11 l2), Some (of (D11 l1) (D11 l2)))
    | Ycte => (of (A22 l1) (A22 l2), Some (of (D22 l1) (D22 l2)))
    | BotTop => (of (A11 l1) (A11 l2) / Rmin (sh_a (geometry (w_panel w) i)) (sh_b (geometry (w_panel w) i)), None)
    | XcteYcte => (of (A11 l1) (A22 l2), Some (of (D11 l1) (D22 l2)))
    | YcteXcte => (of (A22 l1) (A11 l2), Some (of (D22 l1) (D11 l2)))
    end.
Proof. intros E i j t w s Hij Ci Cj. destruct (kt_kr_run E i j t w s Hij Ci Cj) as (w' & -> & _). destruct t; reflexivity. Qed.
Print Assumptions C43_penalties.
(* exchanging the panels exchanges the roles of x and y only *)
Definition exchanged (t : ctype) : ctype := match t with XcteYcte => YcteXcte | YcteXcte => XcteYcte | t => t end.
Theorem C43_symmetric : forall E i j t w s, i <> j -> complete (xp (w_panel w i)) -> complete (xp (w_panel w j)) -> t <> BotTop ->
  snd (calc_kt_kr E i j t w s) = snd (calc_kt_kr E j i (exchanged t) w s).
Proof.
  intros E i j t w s Hij Ci Cj Ht. destruct (kt_kr_run E i j t w s Hij Ci Cj) as (w' & -> & _).
  destruct (kt_kr_run E j i (exchanged t) w s (not_eq_sym Hij) Cj Ci) as (w2 & -> & _). cbn [snd]. f_equal.
  assert (P : forall x y, 4 * x * y / ((x + y) * (lam_h (lam_of E (w_panel w) i) + lam_h (lam_of E (w_panel w) j))) =
    4 * y * x / ((y + x) * (lam_h (lam_of E (w_panel w) j) + lam_h (lam_of E (w_panel w) i)))).
  { intros x y. unfold Rdiv. f_equal; [ring|]. f_equal. ring. }
  destruct t; try congruence; cbn [exchanged kt_kr]; apply f_equal2; [apply P|apply f_equal, P|apply P|apply f_equal, P|apply P|apply f_equal, P|apply P|apply f_equal, P].
Qed.
Print Assumptions C43_symmetric.
Theorem C43_positive_and_bounded_by_the_softer : forall x y g h, 0 < x -> 0 < y -> 0 < g -> 0 < h ->
  0 < penalty x y g h <= 4 * Rmin x y / (g + h).
Proof. intros. split; [apply pen_pos; assumption|apply penalty_bound; assumption]. Qed.
Print Assumptions C43_positive_and_bounded_by_the_softer.
Example C43_case : let w := two_world lists in complete (xp (w_panel w 0%nat)) /\ complete (xp (w_panel w 1%nat)) /\
  snd (calc_kt_kr exact_env 0 1 Ycte w two_asm) = Ok (16, Some 40).
Proof.
  cbv zeta. rewrite !two_panel. split; [apply one_complete|]. split; [apply one_complete|].
  rewrite C43_penalties; rewrite ?two_panel; try apply one_complete; try discriminate. rewrite !two_lam. cbv zeta. unfold penalty, A22, D22, ex_lib. cbn [lam_ABD lam_h].
  unfold ex_ABD. cbn -[INR]. rewrite !INR_IZR_INZ. cbn. f_equal. f_equal; [field|]. f_equal. field.
Qed.

(* ------------------------------------------------- C44 *)
(* calc_kT passes inc to Shell.calc_kC, which has no such argument *)
Theorem C44_refuted : forall E Bs c fin w s, assembled w s -> snd (asm_kT E Bs c fin w s) = Err TypeError.
Proof. exact kT_fails. Qed.
Print Assumptions C44_refuted.
Example C44_case : assembled (ready_world lists) two_asm.
Proof. apply ready_assembled. Qed.

(* ------------------------------------------------- C45 *)
Theorem C45_internal_force : forall E Bs M k w s c vs, assembled w s -> as_kC_conn s = None ->
  let h := w_panel w in let ids := as_panels s in let size := total_width h ids in
  as_conn s = Some k -> w_conn w k <> [] -> List.Forall (usable h ids) (w_conn w k) ->
  (forall i, In i ids -> sound E h i /\ (sh_m (geometry h i) <= M)%nat /\ (sh_n (geometry h i) <= M)%nat) ->
  tables_integrate (e_tables E) Bs M -> length c = size -> Forall2 (own_fint E h c) ids vs ->
  exists w' s' f KC, asm_fint E Bs c w s = (w', s', Ok f) /\
    (forall i v a r, In (i, v) (combine ids vs) -> xp_start (h i) = Some a -> (r < width (h i))%nat ->
       f (a + r)%nat = v r + sumn size (fun t => KC (a + r)%nat t * nth t c 0)) /\
    (forall r t, KC r t = KC t r) /\
    (forall u v, exists Ws, Forall2 (fun cn => conn_work E Bs h cn u v) (w_conn w k) Ws /\ bilinear size KC u v = suml Ws (fun W => W)).
Proof. exact fint_in_slices. Qed.
Print Assumptions C45_internal_force.
Theorem C45_external_force : forall E Bv inc w s vs, assembled w s ->
  let h := w_panel w in let ids := as_panels s in
  Forall2 (own_fext E Bv h inc) ids vs ->
  exists w' f, asm_fext E Bv inc w s = (w', s, Ok f) /\
    (forall i v a r, In (i, v) (combine ids vs) -> xp_start (h i) = Some a -> (r < width (h i))%nat -> f (a + r)%nat = v r).
Proof. exact fext_in_slices. Qed.
Print Assumptions C45_external_force.
Example C45_case : (exists vs, Forall2 (own_fint exact_env (w_panel (ready_world lists)) six) [0; 1]%nat vs) /\
  (exists vs, Forall2 (own_fext exact_env vec_basis (w_panel (ready_world lists)) (1/2)) [0; 1]%nat vs).
Proof. split; [apply ready_fint|apply ready_fext]. Qed.

(* ------------------------------------------------- C46 *)
Theorem C46_given_points_partial : forall sched Bv c group X Y w s w' s' fs,
  asm_uvw_gauss sched Bv c group (Some X) (Some Y) w s = (w', s', Ok fs) ->
  for_group (w_panel w) group (fun i f => let x := w_panel w i in let XY := meshgrid X Y in
    fst f = XY /\ fuvw sched Bv (pslice (xp_start x) (xp_end x) c) (kernel_view (xp x)) (snd (fst XY)) (snd (snd XY)) (as_cores s) = Ok (snd f)) (as_panels s) fs.
Proof. exact gauss_each. Qed.
Print Assumptions C46_given_points_partial.
(* panels of length 2 and 4: both are sampled between 0 and 2 *)
Theorem C46_refuted : exists sched Bv c w s Y F, assembled w s /\
  asm_uvw_gauss sched Bv c 0 None (Some Y) w s = (w, s, Ok F) /\
  map fst F = [meshgrid (linspace 2 50) Y; meshgrid (linspace 2 50) Y] /\
  ~ for_group (w_panel w) 0 (fun i f => fst f = meshgrid (linspace (sh_a (pn_sh (xp (w_panel w i)))) 50) Y) (as_panels s) F.
Proof. exists (fun l => l), exact_basis, [0; 0; 1; 0; 0; 0], (plates lengths), plates_asm, [0]. exact leaked. Qed.
Print Assumptions C46_refuted.

(* ------------------------------------------------- C53 *)
(* a second assembly moves a panel of the first: its deflection at the corner, which was 0, becomes 1 *)
Theorem C53_refuted : exists sched Bv c ids ids' w F F', let asm := new_assembly ids None w in let w1 := fst asm in let s := snd asm in
  let w2 := fst (new_assembly ids' None w1) in
  assembled w1 s /\ asm_uvw sched Bv c 0 1 1 w1 s = (w1, s, Ok F) /\ asm_uvw sched Bv c 0 1 1 w2 s = (w2, s, Ok F') /\
  nth 0 (nth 2 (snd (nth 1 F (meshgrid [] [], []))) []) 0 = 0 /\ nth 0 (nth 2 (snd (nth 1 F' (meshgrid [] [], []))) []) 0 = 1.
Proof.
  exists (fun l => l), exact_basis, [0; 0; 1; 0; 0; 0], [0; 1]%nat, [1]%nat, (mkWorld (fun i => mkXp (plate 2) 0 no_loads None None) (fun _ => [])).
  exact shared.
Qed.
Print Assumptions C53_refuted.
(* panels that the later assembly does not use keep their place *)
Theorem C53_other_assemblies_partial : forall w s ids cn, assembled w s -> (forall i, In i (as_panels s) -> ~ In i ids) ->
  let w' := fst (new_assembly ids cn w) in assembled w' s /\ forall i, In i (as_panels s) -> w_panel w' i = w_panel w i.
Proof. exact others_kept. Qed.
Print Assumptions C53_other_assemblies_partial.
Example C53_case : let w := plates (fun _ => 2) in assembled w plates_asm /\ (forall i, In i (as_panels plates_asm) -> ~ In i [2; 3]%nat).
Proof. cbv zeta. split; [destruct shared as (F & F' & H & _); exact H|]. cbn. intuition lia. Qed.

(* ------------------------------------------------- C54 *)
(* base-flange connection with the flange placed before the base: the roles are exchanged *)
Theorem C54_refuted : exists E Bs w s cn w' s' K c d, assembled w s /\ as_kC_conn s = None /\ w_conn w 0 = [cn] /\ has_keys (w_panel w) cn /\
  get_kC_conn E Bs (Some 0%nat) true w s = (w', s', Ok (CMat 6 K)) /\
  ~ conn_work E Bs (w_panel w) cn c d (bilinear 6 K c d).
Proof.
  destruct roles_swapped as (w' & s' & K & H1 & H2 & H3 & H4 & H5).
  exists exact_env, exact_basis, (two_world flange_first), two_asm, (bfy 1 0), w', s', K, (unit 1), (unit 5).
  split; [exact H1|]. split; [exact H2|]. split; [exact H3|]. split; [|split; [exact H4|exact H5]].
  split; discriminate.
Qed.
Print Assumptions C54_refuted.
