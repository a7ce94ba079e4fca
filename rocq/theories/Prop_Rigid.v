(* C95: a panel resists everything but the motions without strain, which are the rigid ones for a plate, and those as well
   once it is held. *)
From Coq Require Import Reals List Arith Bool Lia Lra.
From Verif Require Import Base_Sum Model_Types Model_Coo Model_Result Model_Num Model_DB Model_Shell
  Spec_Algebra Spec_Kinematics Spec_Integral Spec_Bardell Spec_Panel Spec_Shell Spec_Modes Spec_Rigid
  Proof_Shell Proof_AnaApi Proof_Total Proof_Api Proof_BardellInt Proof_Rigid Ex_Panel Ex_Exact.
From Coq Require Import List.
Import ListNotations.
Open Scope R_scope.

(* each motion without strain that the supports allow is described by a Ritz vector that the stiffness does not resist *)
Theorem C95_rigid_motions : forall E A p K N, stiffness E A p N K -> elastic E p ->
  (4 <= sh_m (pn_sh p))%nat -> (4 <= sh_n (pn_sh p))%nat -> flags_01 (kernel_view p) ->
  let k := curvature (chosen_model p) (kernel_view p) in
  forall u0 v0 w0 th al be, allowed k (kernel_view p) u0 v0 w0 th al be ->
  exists c, rigid k (kernel_view p) (own (ka_col0 A) c) u0 v0 w0 th al be /\ forall i, (i < N)%nat -> row N K c i = 0.
Proof.
  intros E A p K N ((p' & HR) & H1 & H2 & H3 & H4 & H5 & H6 & H7 & H8) (E1 & E2 & E3 & _) Hm Hn HU k u0 v0 w0 th al be HA.
  exact (rigid_free E A p p' K N HR H1 H2 H3 H4 H5 H6 E1 E2 H7 E3 H8 u0 v0 w0 th al be Hm Hn HU HA).
Qed.
Print Assumptions C95_rigid_motions.

(* whatever its supports, a panel that displaces without strain energy moves without strain: rigidly, if it is a plate *)
Theorem C95_nothing_else : forall E A p K N, stiffness E A p N K -> elastic E p ->
  definite 6 (lam_matrix (pn_ortho p) (rebuilt_lam E p)) -> 0 < sh_a (pn_sh p) * sh_b (pn_sh p) ->
  (sh_m (pn_sh p) <= 30)%nat -> (sh_n (pn_sh p) <= 30)%nat ->
  forall c, quad N K c = 0 -> exists u0 v0 w0 th al be,
  rigid (curvature (chosen_model p) (kernel_view p)) (kernel_view p) (own (ka_col0 A) c) u0 v0 w0 th al be.
Proof.
  intros E A p K N ((p' & HR) & H1 & H2 & H3 & H4 & H5 & H6 & H7 & H8) (E1 & E2 & E3 & _) HD Hab Hm Hn c.
  exact (null_is_rigid E A p p' K N HR H1 H2 H3 H4 H5 H6 E1 E2 H7 E3 H8 HD Hab Hm Hn c).
Qed.
Print Assumptions C95_nothing_else.

(* whatever its supports, it moves in a way that they allow *)
Theorem C95_as_the_supports_allow : forall E A p K N, stiffness E A p N K -> elastic E p ->
  definite 6 (lam_matrix (pn_ortho p) (rebuilt_lam E p)) -> 0 < sh_a (pn_sh p) * sh_b (pn_sh p) ->
  (sh_m (pn_sh p) <= 30)%nat -> (sh_n (pn_sh p) <= 30)%nat ->
  forall c, quad N K c = 0 -> let k := curvature (chosen_model p) (kernel_view p) in
  exists u0 v0 w0 th al be, rigid k (kernel_view p) (own (ka_col0 A) c) u0 v0 w0 th al be /\ allowed k (kernel_view p) u0 v0 w0 th al be.
Proof.
  intros E A p K N HK HE HD Hab Hm Hn c HQ k.
  destruct (C95_nothing_else E A p K N HK HE HD Hab Hm Hn c HQ) as (u0 & v0 & w0 & th & al & be & HR). exists u0, v0, w0, th, al, be. split; [exact HR|].
  destruct HE as (_ & (G1 & G2 & _) & _). exact (rigid_allowed k (kernel_view p) _ u0 v0 w0 th al be Hm Hn G1 G2 HR).
Qed.
Print Assumptions C95_as_the_supports_allow.

(* a panel whose supports leave it no motion without strain: two solutions of K c = f displace every point by the same amount *)
Theorem C95_unique_response : forall E A p K N, stiffness E A p N K -> elastic E p ->
  definite 6 (lam_matrix (pn_ortho p) (rebuilt_lam E p)) -> 0 < sh_a (pn_sh p) * sh_b (pn_sh p) ->
  (sh_m (pn_sh p) <= 30)%nat -> (sh_n (pn_sh p) <= 30)%nat -> anchored (curvature (chosen_model p) (kernel_view p)) (kernel_view p) ->
  forall c d f, (forall i, (i < N)%nat -> row N K c i = f i) -> (forall i, (i < N)%nat -> row N K d i = f i) ->
  forall xi eta, -1 <= xi <= 1 -> -1 <= eta <= 1 ->
  let s := kernel_view p in let o := ka_col0 A in
  d_u exact_basis s (own o c) xi eta = d_u exact_basis s (own o d) xi eta /\
  d_v exact_basis s (own o c) xi eta = d_v exact_basis s (own o d) xi eta /\
  d_w exact_basis s (own o c) xi eta = d_w exact_basis s (own o d) xi eta.
Proof.
  intros E A p K N HK HE HD Hab Hm Hn HH c d f Hc Hd xi eta Hx Hy s o.
  destruct (C95_nothing_else E A p K N HK HE HD Hab Hm Hn (fun k => c k - d k)) as (u0 & v0 & w0 & th & al & be & HR).
  { apply quad_row. intros i Hi. rewrite row_minus, Hc, Hd by exact Hi. ring. }
  destruct HE as (_ & (G1 & G2 & _) & _).
  destruct (anchored_still _ (kernel_view p) _ u0 v0 w0 th al be Hm Hn G1 G2 HH HR) as (-> & -> & -> & -> & -> & ->).
  destruct (HR xi eta Hx Hy) as (A1 & A2 & A3). cbn [motion] in A1, A2, A3. unfold d_u, d_v, d_w in *.
  change (own (ka_col0 A) (fun k => c k - d k)) with (fun k => own (ka_col0 A) c k - own (ka_col0 A) d k) in *. rewrite fld_minus in A1, A2, A3.
  fold s in A1, A2, A3. fold o in A1, A2, A3. repeat split; lra.
Qed.
Print Assumptions C95_unique_response.

(* and only such a panel: with other supports, a load that has a solution has two that displace the panel differently *)
Theorem C95_only_if_anchored : forall E A p K N, stiffness E A p N K -> elastic E p ->
  (4 <= sh_m (pn_sh p))%nat -> (4 <= sh_n (pn_sh p))%nat -> flags_01 (kernel_view p) -> ~ anchored (curvature (chosen_model p) (kernel_view p)) (kernel_view p) ->
  forall d, exists c, (forall i, (i < N)%nat -> row N K c i = row N K d i) /\ exists xi eta, -1 <= xi <= 1 /\ -1 <= eta <= 1 /\
  let s := kernel_view p in let o := ka_col0 A in
  ~ (d_u exact_basis s (own o c) xi eta = d_u exact_basis s (own o d) xi eta /\
     d_v exact_basis s (own o c) xi eta = d_v exact_basis s (own o d) xi eta /\
     d_w exact_basis s (own o c) xi eta = d_w exact_basis s (own o d) xi eta).
Proof.
  intros E A p K N HK HE Hm Hn HF HA d.
  destruct (loose_motion _ _ HA) as (u0 & v0 & w0 & th & al & be & HL & HN).
  destruct (C95_rigid_motions E A p K N HK HE Hm Hn HF u0 v0 w0 th al be HL) as (r & HR & HZ).
  exists (fun k => d k - (0 - r k)). split.
  { intros i Hi. rewrite (row_minus N K d (fun k => 0 - r k)). rewrite (row_minus N K (fun _ => 0) r). rewrite HZ by exact Hi.
    assert (Z : row N K (fun _ => 0) i = 0) by (unfold row; apply sumn_0; intros; ring). rewrite Z. ring. }
  destruct HE as (_ & (G1 & G2 & _) & _).
  destruct (moved_somewhere _ _ _ u0 v0 w0 th al be G1 G2 HR HN) as (xi & eta & Hx & Hy & HM). exists xi, eta. split; [exact Hx|]. split; [exact Hy|].
  intros s o (A1 & A2 & A3). apply HM. unfold d_u, d_v, d_w in *.
  change (own o (fun k => d k - (0 - r k))) with (fun k => own o d k - (0 - own o r k)) in A1, A2, A3.
  rewrite (fld_minus s (own o d) (fun k => 0 - own o r k)) in A1, A2, A3. rewrite (fld_minus s (fun _ => 0) (own o r)) in A1, A2, A3.
  rewrite fld_zero in A1, A2, A3. unfold s, o in *. repeat split; lra.
Qed.
Print Assumptions C95_only_if_anchored.

(* a panel of 2 x 3 with 4 x 4 terms, flat or with a radius of 5, without supports or held along the edge x = 0 *)
Definition sheet (r : option R) (e : edge) : panel :=
  mkPanel (mkShell 2 3 0 4 4 (-1) 1 (-1) 1 0 0 e e e free_edge free_edge free_edge) r None 7 7 [0; 90] (Some (1/8)) [] [1; 2; 3] [] (1300) [] (1/10) false None None None
    (1, 2, 3) (0, 0, 0) (Some true) None None (Some 1) (Some 2) (Some 3) None None None None None.
Example C95_case : forall r e, r = None \/ r = Some 5 -> e = free_edge \/ e = mkEdge 0 0 1 1 -> (exists K, stiffness exact_env (ana_args true) (sheet r e) 53 K) /\
  elastic exact_env (sheet r e) /\
  definite 6 (lam_matrix (pn_ortho (sheet r e)) (rebuilt_lam exact_env (sheet r e))) /\ 0 < sh_a (pn_sh (sheet r e)) * sh_b (pn_sh (sheet r e)) /\
  flags_01 (kernel_view (sheet r e)) /\
  let k := curvature (chosen_model (sheet r e)) (kernel_view (sheet r e)) in (r = None -> k = 0) /\ (r = Some 5 -> k = 1 / 5) /\
  (e = free_edge -> (forall u0 v0 w0 th al be, allowed k (kernel_view (sheet r e)) u0 v0 w0 th al be) /\ ~ anchored k (kernel_view (sheet r e))) /\
  (e = mkEdge 0 0 1 1 -> anchored k (kernel_view (sheet r e))).
Proof.
  intros r e Hr He. split; [|split; [|split; [|split; [cbn; lra|split; [|cbv zeta; split; [|split; [|split]]]]]]].
  - assert (HR : exists p' K, calc_kC exact_env (ana_args true) (sheet r e) = (p', Ok K)).
    { apply calc_kC_ok; try reflexivity; try (cbn; lia); try discriminate. unfold complete, sheet; cbn. repeat split; try discriminate; [right|right]; discriminate. }
    destruct HR as (p' & K & HR). exists K. split; [exists p'; exact HR|]. repeat (split; [reflexivity|]). split; [cbn; lia|]. apply exact_tables_integrate. cbn. lia.
  - split; [reflexivity|]. split; [unfold geometry_ok, kernel_view, chosen_model; destruct Hr as [->| ->]; cbn; (split; [lra|split; [lra|intro; try discriminate; lra]])|].
    split; [exact ex_ABD_is|]. split; [exact ex_ABD_psd|cbn; lra].
  - intros x (k & Hk & Hx). change (0 < form 6 ex_ABD x x). unfold form, ex_ABD. cbn.
    assert (0 < x k * x k) by nra. do 6 (destruct k as [|k]; [nra|]). lia.
  - intros d Hd f Hf. cbn [In] in Hf. destruct He as [->| ->]; destruct d as [|[|[|d]]]; try lia; destruct Hf as [<-|[<-|[<-|[<-|[]]]]]; cbn; auto.
  - intros ->. reflexivity.
  - intros ->. reflexivity.
  - intros ->. set (k := curvature _ _). assert (H : forall u0 v0 w0 th al be, allowed k (kernel_view (sheet r free_edge)) u0 v0 w0 th al be).
    { intros u0 v0 w0 th al be d t Hd Ht. cbv zeta. destruct d as [|[|[|d]]]; [| | |lia]; cbn; repeat split; intros; exfalso; lra. }
    split; [exact H|]. intro HA. destruct (HA 1 0 0 0 0 0 (H _ _ _ _ _ _)) as (Z & _). lra.
  - intros ->. apply edge_anchored; cbn; lra.
Qed.
