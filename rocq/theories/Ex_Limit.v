(* A squeezed plate: an example. *)
From Coq Require Import Reals List Arith Bool Lia Lra.
From Verif Require Import Base_Sum Model_Types Model_Coo Model_Result Model_Num Model_DB Model_Bardell Model_Shell
  Spec_Algebra Spec_Kinematics Spec_Panel Spec_Shell Spec_Integral Spec_Modes Spec_Rigid Spec_BayResponse Spec_BayModes Spec_Limit
  Proof_Total Proof_LimitPanel Ex_Panel Ex_Exact Ex_Response.
From Coq Require Import List.
Import ListNotations.
Open Scope R_scope.

(* the plate of Ex_Response, m x n terms, under the compressions Nxx = -1 and Nyy = -1/2 *)
Definition squeezed (m n : nat) (e : edge) (E11 : R) : panel :=
  mkPanel (mkShell 2 3 0 m n (-1) 1 (-1) 1 0 0 e e e free_edge free_edge free_edge) None (Some (Known PlateModel)) 7 7 [0; 90] (Some (1/8)) [1/8; 1/8] [E11; 2; 3] [[E11; 2; 3]; [E11; 2; 3]] (1300) [1300; 1300] (1/10) false
    (Some ex_lam) None None (-1, -1/2, 0) (0, 0, 0) (Some true) None None (Some 1) (Some 2) (Some 3) None None None None None.
Lemma squeezed_ready m n e k : (0 < m <= 30)%nat -> (0 < n <= 30)%nat -> 0 < k -> e = propped \/ e = cantilever -> let z := plate m n e k in let q := squeezed m n e k in
  exists K G M, let N := (2 + ndof (pn_sh z))%nat in stiffness plate_env plate_args z N K /\ fixed_panel plate_env z /\
  geometric plate_env plate_args z 2 q G /\ uniform_loads plate_args /\ inertia plate_env z 2 q M /\ 0 < pn_rho q * fold_left Rplus (pn_plyts q) 0.
Proof.
  intros Hm Hn Hk He z q. destruct (plate_ready m n e k Hm Hn Hk He) as (K & H1 & H2 & H3 & H4 & H5 & _).
  assert (HC : complete q) by (unfold complete, q, squeezed; cbn; repeat split; try discriminate; right; discriminate).
  destruct (calc_kG_ok plate_env plate_args q HC) as (q1 & G & HG); try (cbn; lia); try exact I.
  destruct (calc_kM_ok plate_env (SStr 2) 2 2 None None None None true q PlateModel ex_lam eq_refl eq_refl) as (q2 & M & HM); try (cbn; lia); try exact I.
  exists K, G, M. intro N. split; [exact H1|]. split.
  { repeat (split; [first [assumption|cbn; lia]|]). exact H5. }
  split. { split; [exists q1; exact HG|]. repeat split; reflexivity. }
  split; [split; reflexivity|]. split; [|cbn; lra]. split; [exists (SStr 2), None, None, q2; exact HM|]. repeat split; reflexivity.
Qed.
