(* C99: a panel pulled at points by penalty springs takes the state of least energy and never overshoots. *)
From Coq Require Import Reals List Arith Bool Lia Lra Permutation.
From Verif Require Import Base_Sum Model_Types Model_Coo Model_Result Model_Num Model_DB Model_Bardell Model_Shell Model_Field Model_Fext Model_Multi Model_Pull
  Spec_Algebra Spec_Kinematics Spec_Panel Spec_Shell Spec_Field Spec_Fext Spec_Modes Spec_Multi Spec_Rigid Spec_Pull
  Proof_Pull Ex_Panel Ex_Exact Ex_Fint Ex_Pull.
From Coq Require Import List.
Import ListNotations.
Open Scope R_scope.

(* the constants offered for prescribed displacements: the membrane stiffnesses of the laminate, for a line divided by its
   length so that their sum along the line is the same. They exist once a matrix was calculated *)
Theorem C99_constants : forall E A p p1 K, calc_kC E A p = (p1, Ok K) -> sh_a (pn_sh p) <> 0 -> sh_b (pn_sh p) <> 0 ->
  let A1 := A11 (rebuilt_lam E p) in let A2 := A22 (rebuilt_lam E p) in
  calc_ku_kv_kw_point_pd p1 = Ok (A1, A2, A1) /\
  (exists ku kv kw, calc_ku_kv_kw_line_pd_xcte p1 = Ok (ku, kv, kw) /\ ku * sh_b (pn_sh p) = A1 /\ kv * sh_b (pn_sh p) = A2 /\ kw * sh_b (pn_sh p) = A1) /\
  (exists ku kv kw, calc_ku_kv_kw_line_pd_ycte p1 = Ok (ku, kv, kw) /\ ku * sh_a (pn_sh p) = A1 /\ kv * sh_a (pn_sh p) = A2 /\ kw * sh_a (pn_sh p) = A1).
Proof.
  intros E A p p1 K H Ha Hb. destruct (lam_after E A p p1 K H) as [HL HS]. cbv zeta.
  unfold calc_ku_kv_kw_point_pd, calc_ku_kv_kw_line_pd_xcte, calc_ku_kv_kw_line_pd_ycte, with_lam. rewrite HL, HS. split; [reflexivity|].
  split; eexists; eexists; eexists; (split; [reflexivity|]); repeat split; field; assumption.
Qed.
Print Assumptions C99_constants.
Theorem C99_no_constants_before : forall p, pn_lam p = None -> calc_ku_kv_kw_point_pd p = Err AttributeError /\
  calc_ku_kv_kw_line_pd_xcte p = Err AttributeError /\ calc_ku_kv_kw_line_pd_ycte p = Err AttributeError.
Proof. intros p H. unfold calc_ku_kv_kw_point_pd, calc_ku_kv_kw_line_pd_xcte, calc_ku_kv_kw_line_pd_ycte, with_lam. rewrite H. auto. Qed.
Print Assumptions C99_no_constants_before.

(* K is the matrix of calc_kC, Ms are those of fkCpd for the points and f is the vector of calc_fext after the calls of
   add_point_pd. A solution of (K + Ms) c = f has the least sum of strain energy and energy of the springs *)
Theorem C99_least_energy : forall E A p p1 p2 K pds inc sz L outs f Ms sched nc c d Uc Ud,
  stiffness E A p (length f) K -> elastic E p -> calc_kC E A p = (p1, Ok K) ->
  run_calls (map pd_call pds) no_loads = (L, outs) -> calc_fext E vec_basis L inc sz (ka_col0 A) p1 = (p2, Ok f) ->
  Forall2 (fun q M => fkCpd code_basis (pd_ku q) (pd_kv q) (pd_kw q) (kernel_view p2) (pd_x q) (pd_y q) (length f) (ka_col0 A) (ka_col0 A) = Ok M) pds Ms ->
  List.Forall spring_like pds -> (forall l, Permutation (sched l) l) ->
  uvw_is sched vec_basis nc p2 (skipn (ka_col0 A) c) Uc -> uvw_is sched vec_basis nc p2 (skipn (ka_col0 A) d) Ud ->
  solves (length f) (attached K Ms) (vec c) (vec f) ->
  quad (length f) K (vec c) + stretch Uc inc pds <= quad (length f) K (vec d) + stretch Ud inc pds.
Proof.
  intros E A p p1 p2 K pds inc sz L outs f Ms sched nc c d Uc Ud H1 H2 H3 H4 H5 H6 H7 H8 H9 H10 H11.
  exact (pulled_least E A p p1 p2 K pds inc sz L outs f Ms sched nc H1 H2 H3 H4 H5 H6 H7 H8 c d Uc Ud H9 H10 H11).
Qed.
Print Assumptions C99_least_energy.

(* one component prescribed at one point, v at full load: the point moves towards the prescribed value and not beyond, and
   a state d that reaches it bounds the rest of the way by its strain energy over the spring constant *)
Theorem C99_between_zero_and_prescribed : forall E A p p1 p2 K j x y k v cte inc sz L outs f M sched nc c Uc, (j < 3)%nat -> 0 < k ->
  stiffness E A p (length f) K -> elastic E p -> calc_kC E A p = (p1, Ok K) ->
  run_calls [pd_call (pull j x y k v cte)] no_loads = (L, outs) -> calc_fext E vec_basis L inc sz (ka_col0 A) p1 = (p2, Ok f) ->
  (let q := pull j x y k v cte in
   fkCpd code_basis (pd_ku q) (pd_kv q) (pd_kw q) (kernel_view p2) x y (length f) (ka_col0 A) (ka_col0 A) = Ok M) ->
  (forall l, Permutation (sched l) l) -> uvw_is sched vec_basis nc p2 (skipn (ka_col0 A) c) Uc ->
  solves (length f) (attached K [M]) (vec c) (vec f) ->
  let goal := (if cte then 1 else inc) * v in
  (0 <= goal -> 0 <= Uc j x y <= goal) /\ (goal <= 0 -> goal <= Uc j x y <= 0) /\
  (forall d Ud, uvw_is sched vec_basis nc p2 (skipn (ka_col0 A) d) Ud -> Ud j x y = goal ->
     k * goal * (goal - Uc j x y) <= quad (length f) K (vec d)).
Proof.
  intros E A p p1 p2 K j x y k v cte inc sz L outs f M sched nc c Uc Hj Hk H1 H2 H3 H4 H5 H6 H7 H8 H9 goal.
  assert (HM : Forall2 (fun q M => fkCpd code_basis (pd_ku q) (pd_kv q) (pd_kw q) (kernel_view p2) (pd_x q) (pd_y q) (length f) (ka_col0 A) (ka_col0 A) = Ok M) [pull j x y k v cte] [M]).
  { constructor; [|constructor]. cbv zeta in H6. destruct j as [|[|j]]; exact H6. }
  assert (HP : List.Forall spring_like [pull j x y k v cte]) by (constructor; [apply pull_like; exact Hk|constructor]).
  pose proof (pulled_work E A p p1 p2 K [pull j x y k v cte] inc sz L outs f [M] sched nc H1 H2 H3 H4 H5 HM HP H7 c c Uc Uc H8 H8 H9) as W.
  cbn [suml] in W. rewrite pull_work in W by exact Hj. fold goal in W. pose proof (proj2 (pulled_facts E A p K f H1 H2) (vec c)) as P. unfold quad in P.
  assert (G : 0 <= Uc j x y * (goal - Uc j x y)).
  { apply (Rmult_le_reg_l k); [exact Hk|]. lra. }
  split; [|split].
  - intro H. split; nra.
  - intro H. split; nra.
  - intros d Ud HU HG. pose proof (pulled_least E A p p1 p2 K [pull j x y k v cte] inc sz L outs f [M] sched nc H1 H2 H3 H4 H5 HM HP H7 c d Uc Ud H8 HU H9) as Q.
    rewrite !pull_stretch in Q by exact Hj. fold goal in Q. rewrite HG in Q. unfold quad in *. nra.
Qed.
Print Assumptions C99_between_zero_and_prescribed.

(* a panel with one term per direction, a corner of which is pulled out of the plane *)
Example C99_case : exists p1 K L outs p2 f M z U, elastic exact_env one_panel /\
  stiffness exact_env (alone true None) one_panel (length f) K /\ calc_kC exact_env (alone true None) one_panel = (p1, Ok K) /\
  run_calls (map pd_call [corner]) no_loads = (L, outs) /\ calc_fext exact_env vec_basis L 1 SNone 0 p1 = (p2, Ok f) /\
  Forall2 (fun q M => fkCpd code_basis (pd_ku q) (pd_kv q) (pd_kw q) (kernel_view p2) (pd_x q) (pd_y q) (length f) 0 0 = Ok M) [corner] [M] /\
  List.Forall spring_like [corner] /\ uvw_is (fun l => l) vec_basis 1 p2 (skipn 0 [0; 0; z]) U /\
  solves (length f) (attached K [M]) (vec [0; 0; z]) (vec f) /\ U 2%nat 0 0 <> 0.
Proof.
  destruct pulled_case as (p1 & K & L & outs & p2 & f & M & z & U & H). exists p1, K, L, outs, p2, f, M, z, U. split; [exact one_elastic|exact H].
Qed.
