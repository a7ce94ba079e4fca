(* A compressed cylinder, the same with more connections, and with its mass given: examples. *)
From Coq Require Import Reals List Arith Bool Lia Lra.
From Verif Require Import Base_Sum Model_Types Model_Coo Model_Result Model_Num Model_DB Model_Shell Model_Fext Model_Multi Model_New Model_Cylinder
  Spec_Algebra Spec_Kinematics Spec_Panel Spec_Shell Spec_Bardell Spec_Modes Spec_Rigid Spec_Multi Spec_MultiConn Spec_Tied Spec_AsmResponse Spec_Limit Spec_LimitAsm
  Proof_Multi Proof_Modes Proof_AnaApi Proof_Total Proof_CylTied Proof_AsmResponse Proof_LimitAsm Proof_LimitCyl Prop_CylTied Prop_AsmResponse Ex_Panel Ex_Exact Ex_AsmResponse.
From Coq Require Import List.
Import ListNotations.
Open Scope R_scope.

(* the connections of the list k, made twice *)
Definition twice (k : nat) (w : world) : world := mkWorld (w_panel w) (fun j => if (j =? k)%nat then w_conn w k ++ w_conn w k else w_conn w j).
Lemma twice_conn k w : w_conn (twice k w) k = w_conn w k ++ w_conn w k.
Proof. cbn. rewrite Nat.eqb_refl. reflexivity. Qed.
Lemma twice_stiff E k arg w s : stiff_assembly E k arg w s -> all_tied k w s -> stiff_assembly E k arg (twice k w) s /\ all_tied k (twice k w) s.
Proof.
  intros (A1 & A2 & A3 & A4 & A5 & M & A6 & A7) HT. split.
  - split; [exact A1|]. split; [exact A2|]. split; [exact A3|]. rewrite twice_conn. split; [intro H; apply app_eq_nil in H; tauto|]. split; [apply Forall_app; split; exact A5|]. exists M. split; [exact A6|exact A7].
  - intros i Hi. rewrite twice_conn. apply (more_tied _ (w_conn w k)); [apply incl_appl; apply incl_refl|exact (HT i Hi)].
Qed.

(* the panels with one ply of 1/8 and density 1, and their laminate *)
Definition weigh (p : panel) : panel :=
  mkPanel (pn_sh p) (pn_r p) (Some (Known (chosen_model p))) (pn_nx p) (pn_ny p) (pn_stack p) (pn_plyt p) [1/8]
    (pn_laminaprop p) (pn_laminaprops p) 1 (pn_rhos p) (pn_offset p) (pn_ortho p) (Some (mkLam ex_ABD (1/8) (1/8))) (pn_ABD p)
    (pn_size p) (pn_N p) (pn_N_cte p) (pn_flow_x p) (pn_beta p) (pn_gamma p) (pn_rho_air p) (pn_Mach p) (pn_V p)
    (pn_kC p) (pn_kG p) (pn_kT p) (pn_kM p) (pn_kA p).
Definition weighed (w : world) : world := mkWorld (fun i => with_panel (w_panel w i) (weigh (xp (w_panel w i)))) (w_conn w).
Lemma weighed_laid w : forall l o, laid_out (w_panel w) l o -> laid_out (w_panel (weighed w)) l o.
Proof. induction l as [|i l IH]; intros o H; [exact I|]. destruct H as (H1 & H2 & H3). split; [exact H1|]. split; [exact H2|]. apply IH. exact H3. Qed.
Lemma weighed_layout E k arg w s : stiff_assembly E k arg w s -> same_layout w s (weighed w) s.
Proof.
  intros HG. destruct (own_layout E k arg w s HG) as (_ & (A1 & A2 & A3) & HC). split; [reflexivity|]. split; [split; [exact A1|split; [exact A2|apply weighed_laid; exact A3]]|].
  intros i Hi. destruct (HC i Hi) as (_ & _ & _ & (C1 & C2 & C3 & C4) & _). split; [reflexivity|]. split; [reflexivity|]. split; [reflexivity|]. split; [|reflexivity].
  split; [discriminate|]. split; [exact C2|]. split; [exact C3|]. left. discriminate.
Qed.
Lemma weighed_runs E w s : assembled (weighed w) s -> exists w' s' M, asm_kM E true (weighed w) s = (w', s', Ok (Some M)).
Proof.
  intro HA. assert (HF : exists Ms, Forall2 (own_kM E (w_panel (weighed w)) true) (as_panels s) Ms).
  { apply exists_list. intros i Hi. destruct (calc_kM_ok E SNone 0 0 None None None None true (xp (w_panel (weighed w) i)) _ _ eq_refl eq_refl) as (p1 & K1 & HK1); try exact I; try (cbn; lia).
    exists K1, p1. exact HK1. }
  destruct HF as (Ks & HF). destruct (asm_kM_diagonal E (weighed w) s HA true Ks HF) as (w2 & HR2 & _). eexists. eexists. eexists. exact HR2.
Qed.

(* a cylinder of three panels with 5 x 5 terms; the second panel carries no load *)
Definition ex_loads : list R := [-1; 0; -2].
Definition ex_start : world := mkWorld (fun _ => mkXp (ex_panel None) 0 no_loads None None) (fun _ => []).
Definition ex_cyl : world * res assembly := create_cylinder_assy 1 2 [0] (1/8) [1; 2; 3] 3 5 5 0 0 ex_start.
Definition ex_world : world := set_constant_loads 3 0 ex_loads (fst ex_cyl).
Definition ex_asm : assembly := mkAsm [0; 1; 2]%nat None None 4.
Lemma ex_made : ex_cyl = (fst ex_cyl, Ok ex_asm).
Proof. reflexivity. Qed.
Lemma ex_sturdy : sturdy (e_lib exact_env [0] (map (fun _ => 1/8) [0]) (map (fun _ => [1; 2; 3]) [0]) (map (fun _ => 0) [0]) 0).
Proof. exact (proj1 C101_case [0] (or_introl eq_refl)). Qed.
Lemma ex_stiff : stiff_assembly exact_env 0 (Some 0%nat) ex_world ex_asm /\ all_tied 0 ex_world ex_asm.
Proof.
  apply (C103_cylinder 1 2 [0] (1/8) [1; 2; 3] 3 5 5 0 0 ex_start exact_env 5); try lra; try lia; try discriminate; [exact ex_sturdy|apply exact_tables_integrate; lia|].
  right. left. exists (fst ex_cyl), ex_loads. split; [exact ex_made|reflexivity].
Qed.
Lemma ex_compressed : compressed_assembly ex_world ex_asm.
Proof.
  apply (cte_compressed 1 2 [0] (1/8) [1; 2; 3] 3 5 5 0 0 ex_start ex_loads (fst ex_cyl) ex_asm ex_made); try lia.
  - intros i Hi. destruct i as [|[|[|i]]]; try lia; cbn; lra.
  - exists 0%nat. split; [lia|cbn; lra].
Qed.
