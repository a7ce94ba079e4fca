(* Stiffeners by themselves: springs at the root of a flange, and the stiffness and mass of the flange of a
   1D blade stiffener. Work along a line, the energy of a flange and the plies are in Spec_Stiff.v, Spec_Conn.v
   and Spec_Blade.v. *)
From Coq Require Import Reals List Arith Bool Lia Lra.
From Coquelicot Require Import Coquelicot.
From Verif Require Import Base_Sum Model_Types Model_Coo Model_Result Model_Num Model_Shell Model_Fext Model_StiffKer Model_Bay
  Spec_Algebra Spec_Panel Spec_Kinematics Spec_Quadrature Spec_Integral Spec_Bardell Spec_Fext Spec_Conn Spec_Stiff Spec_Bay Spec_BayWork Spec_Blade
  Proof_Multi Proof_StiffKer Proof_Stiff Ex_Panel Ex_Exact Ex_Multi.
Import ListNotations.
Open Scope R_scope.

(* ------------------------------------------------- C48 *)
Section C48.
Variables (T : tables) (Bs : basis) (s q : shell) (oA oB N : nat) (kt kr ys : R) (c : nat -> R).
Hypothesis HT : tables_integrate T Bs (Nat.max (Nat.max (sh_m s) (sh_n s)) (Nat.max (sh_m q) (sh_n q))).
Hypothesis HoA : (oA + 3 * (sh_m s * sh_n s) <= oB)%nat.
Hypothesis HoB : (oB + 3 * (sh_m q * sh_n q) <= N)%nat.
Hypothesis Ha : 0 < sh_a s.
Hypothesis Hb : 0 < sh_b s.
Hypothesis Hq : 0 < sh_b q.
Hypothesis Hqa : sh_a q = sh_a s.
Notation K := (root_springs T Bs kt kr s q ys oA oB).
(* displacements 0, 1, 2 and rotations 3, 4 of the skin and of the flange *)
Notation U c := (ritz_field Bs s (own oA c)).
Notation F c := (ritz_field Bs q (own oB c)).
Theorem C48_springs_are_the_work_of_the_jumps : forall d,
  is_RInt (fun x =>
    kt * ((U c 0%nat x ys - F c 0%nat x 0) * (U d 0%nat x ys - F d 0%nat x 0)
        + (U c 1%nat x ys - F c 2%nat x 0) * (U d 1%nat x ys - F d 2%nat x 0)
        + (U c 2%nat x ys + F c 1%nat x 0) * (U d 2%nat x ys + F d 1%nat x 0))
    + kr * ((U c 4%nat x ys - F c 4%nat x 0) * (U d 4%nat x ys - F d 4%nat x 0))) 0 (sh_a s) (bilinear N K c d).
Proof using HT HoA HoB Ha Hb Hq Hqa.
  intro d. assert (HW : work_along_x (jumps_BFycte kt kr) s q ys 0 (U c) (F c) (U d) (F d) (bilinear N K c d)).
  { unfold root_springs. apply skin_flange_work; auto; lra. }
  unfold work_along_x in HW. eapply is_RInt_ext; [|exact HW]. intros x _.
  unfold jump_work, jumps_BFycte. cbn [suml map fold_right fst snd]. match goal with |- ?a = ?b => change (@eq R a b) end. replace (x * (sh_a q / sh_a s)) with x by (rewrite Hqa; field; lra). ring.
Qed.
Theorem C48_springs_are_nonnegative : 0 <= kt -> 0 <= kr -> 0 <= quad N K c.
Proof using HT HoA HoB Ha Hb Hq Hqa. apply springs_nonneg; assumption. Qed.
Theorem C48_compatible_fields_are_free : (forall x, 0 <= x <= sh_a s ->
    F c 0%nat x 0 = U c 0%nat x ys /\ F c 2%nat x 0 = U c 1%nat x ys /\ F c 1%nat x 0 = - U c 2%nat x ys /\ F c 4%nat x 0 = U c 4%nat x ys) ->
  forall d, bilinear N K c d = 0.
Proof using HT HoA HoB Ha Hb Hq Hqa. intros H d. apply springs_zero; assumption. Qed.
End C48.
Print Assumptions C48_springs_are_the_work_of_the_jumps.
Print Assumptions C48_springs_are_nonnegative.
Print Assumptions C48_compatible_fields_are_free.
(* a skin and a flange of one term, with the constants of the flange after those of the skin *)
Example C48_case : exists K, K = root_springs exact_tables exact_basis 2 3 (blade_shell 2 2) (blade_shell 2 1) 1 0 3 /\ K 1%nat 5%nat <> 0 /\
  tables_integrate exact_tables exact_basis 1 /\ 0 <= quad 6 K (fun _ => 1).
Proof.
  eexists. split; [reflexivity|]. split; [|split; [exact two_tables|]].
  - unfold root_springs. cbv delta [fkCss fkCsf fkCff] beta. cbn -[Rmult Rplus Rdiv Rminus Rinv Ropp IZR t_ff t_fpfp bf bfp].
    rewrite ?tab_ff, ?shape_F0. unfold Ex_Fint.F0. lra.
  - apply C48_springs_are_nonnegative; try (cbn; lia); try (cbn; lra); try exact two_tables.
Qed.

(* ------------------------------------------------- C49 *)
(* The integrand of the mass of a flange that reaches from z to z + bf below the mid-surface: its kinetic
   energy, and once more the terms that couple in-plane velocities and rotations. The last line is the
   rounding of the literal 0.166666666666667. Missing: the matrix without the second line. *)
Theorem C49_mass_is_kinetic_energy_with_coupling_doubled_partial : forall T Bs s ys rho bf hb h hf N c d,
  tables_integrate T Bs (Nat.max (sh_m s) (sh_n s)) -> (3 * (sh_m s * sh_n s) <= N)%nat -> sh_a s <> 0 -> sh_b s <> 0 ->
  line_work s ys (fun xi eta =>
    let u c := d_u Bs s c xi eta in let v c := d_v Bs s c xi eta in let w c := d_w Bs s c xi eta in
    let wx c := d_wx Bs s c xi eta in let wy c := d_wy Bs s c xi eta in
    let z := h / 2 + hb in
    flange_kinetic Bs s rho hf z (z + bf) c d xi eta
    + rho * hf * bf * (z + bf / 2) * (u c * wx d + wx c * u d + v c * wy d + wy c * v d)
    + (6 * sixth - 1) * rho * hf * bf * (w c * w d + (z ^ 2 + z * bf + bf ^ 2 / 3) * (wx c * wx d + wy c * wy d)))
    (bilinear N (blade_mass T Bs s ys rho bf hb h hf) c d).
Proof. exact blade_mass_integrand. Qed.
Print Assumptions C49_mass_is_kinetic_energy_with_coupling_doubled_partial.
(* a steel-like blade 2 high and 1 thick on a skin 1 thick has a velocity field of negative kinetic energy *)
Theorem C49_mass_refuted : exists T Bs s ys rho bf hb h hf c,
  tables_integrate T Bs (Nat.max (sh_m s) (sh_n s)) /\ 0 < sh_a s /\ 0 < ys < sh_b s /\ 0 < rho /\ 0 < bf /\ 0 <= hb /\ 0 < h /\ 0 < hf /\
  quad (3 * (sh_m s * sh_n s)) (blade_mass T Bs s ys rho bf hb h hf) c < 0.
Proof.
  exists exact_tables, exact_basis, (blade_shell 2 2), 1, 1300, 2, 0, 1, 1, (blade_c 0 (9 / 2) 1). split; [exact two_tables|].
  split; [cbn; lra|]. split; [cbn; lra|]. do 5 (split; [lra|]). exact blade_negative_mass.
Qed.
Print Assumptions C49_mass_refuted.

(* ------------------------------------------------- C66 *)
(* Missing: the flange is not positive whenever its plies are. The condition below holds with S1 = 0. *)
Theorem C66_flange_stiffness_positive_partial : forall T Bs s ys bf hb h l N,
  tables_integrate T Bs (Nat.max (sh_m s) (sh_n s)) -> (3 * (sh_m s * sh_n s) <= N)%nat -> 0 < sh_a s -> sh_b s <> 0 -> 0 <= bf ->
  List.Forall ply_sound l -> flange_S1 l ^ 2 <= flange_E1 l * blade_torsion bf l ->
  psd N (blade_stiffness T Bs s ys bf hb h l).
Proof. exact blade_psd. Qed.
Print Assumptions C66_flange_stiffness_positive_partial.
Theorem C66_plies_along_the_flange_partial : forall T Bs s ys bf hb h l N,
  tables_integrate T Bs (Nat.max (sh_m s) (sh_n s)) -> (3 * (sh_m s * sh_n s) <= N)%nat -> 0 < sh_a s -> sh_b s <> 0 -> 0 <= bf ->
  List.Forall ply_sound l -> List.Forall (fun p => ply_q16 p = 0) l ->
  psd N (blade_stiffness T Bs s ys bf hb h l).
Proof.
  intros. apply blade_psd; auto. unfold flange_S1. rewrite blade_S1 by assumption. replace (0 ^ 2) with 0 by ring.
  apply Rmult_le_pos; [apply blade_E1|apply blade_J; [|apply blade_hf]]; assumption.
Qed.
Print Assumptions C66_plies_along_the_flange_partial.
Example C66_case : List.Forall ply_sound [mkPly 1 8 0 1 0] /\ List.Forall (fun p => ply_q16 p = 0) [mkPly 1 8 0 1 0] /\ psd 3 (blade_stiffness exact_tables exact_basis (blade_shell 2 2) 1 1 0 1 [mkPly 1 8 0 1 0]).
Proof.
  assert (HS : List.Forall ply_sound [mkPly 1 8 0 1 0]).
  { constructor; [|constructor]. split; [cbn; lra|]. exists 0, 1. intros e1 e2 g H. cbn. pose proof (pow2_ge_0 e1). pose proof (pow2_ge_0 e2). pose proof (pow2_ge_0 g).
    assert (0 < e1 ^ 2 \/ 0 < e2 ^ 2 \/ 0 < g ^ 2) by (destruct H as [H|[H|H]]; [left|right; left|right; right]; apply pow2_gt_0; exact H). lra. }
  assert (HQ : List.Forall (fun p => ply_q16 p = 0) [mkPly 1 8 0 1 0]) by (constructor; [reflexivity|constructor]).
  split; [exact HS|]. split; [exact HQ|]. apply C66_plies_along_the_flange_partial; try assumption; try (cbn; lia); try (cbn; lra). exact two_tables.
Qed.
(* one ply with a positive definite stiffness, and a displacement field of negative strain energy *)
Theorem C66_flange_stiffness_refuted : exists T Bs s ys bf hb h p c,
  tables_integrate T Bs (Nat.max (sh_m s) (sh_n s)) /\ 0 < sh_a s /\ 0 < ys < sh_b s /\ 0 < bf /\ 0 <= hb /\ 0 < h /\ ply_sound p /\
  quad (3 * (sh_m s * sh_n s)) (blade_stiffness T Bs s ys bf hb h [p]) c < 0.
Proof.
  exists exact_tables, exact_basis, (blade_shell 100 1), (1 / 2), (1 / 2), 0, (3 / 2), blade_ply, (blade_c (3 / 2) 0 1). split; [exact two_tables|].
  split; [cbn; lra|]. split; [cbn; lra|]. do 3 (split; [lra|]). split; [exact blade_ply_sound|exact blade_negative].
Qed.
Print Assumptions C66_flange_stiffness_refuted.

(* ------------------------------------------------- C67 *)
(* W is the torsion: it does not become k times as large. Missing: the same without W. *)
Theorem C67_all_but_torsion_is_proportional_partial : forall T Bs s ys bf hb h l N k c d,
  tables_integrate T Bs (Nat.max (sh_m s) (sh_n s)) -> (3 * (sh_m s * sh_n s) <= N)%nat -> sh_a s <> 0 -> sh_b s <> 0 ->
  k <> 0 -> List.Forall (fun p => ply_q22 p <> 0) l -> exists W,
  line_work s ys (fun xi eta => bf * blade_torsion bf l * (d_wxy Bs s c xi eta * d_wxy Bs s d xi eta)) W /\
  bilinear N (blade_stiffness T Bs s ys bf hb h (map (stiffer k) l)) c d = k * bilinear N (blade_stiffness T Bs s ys bf hb h l) c d - (k - 1) * W.
Proof. exact blade_scales. Qed.
Print Assumptions C67_all_but_torsion_is_proportional_partial.
Theorem C67_proportional_refuted : exists T Bs s ys bf hb h p c,
  tables_integrate T Bs (Nat.max (sh_m s) (sh_n s)) /\ 0 < sh_a s /\ 0 < ys < sh_b s /\ 0 < bf /\ 0 <= hb /\ 0 < h /\ 0 < ply_q22 p /\
  let N := (3 * (sh_m s * sh_n s))%nat in
  quad N (blade_stiffness T Bs s ys bf hb h [stiffer 2 p]) c <> 2 * quad N (blade_stiffness T Bs s ys bf hb h [p]) c.
Proof.
  exists exact_tables, exact_basis, (blade_shell 2 2), 1, 1, 0, 1, (mkPly 1 1 0 1 0), (blade_c 0 0 1). split; [exact two_tables|].
  split; [cbn; lra|]. split; [cbn; lra|]. do 3 (split; [lra|]). split; [cbn; lra|]. cbn [sh_m sh_n blade_shell Nat.mul Nat.add].
  replace (mkPly 1 1 0 1 0) with (stiffer 1 (mkPly 1 1 0 1 0)) at 2 by (unfold stiffer; cbn; f_equal; ring). rewrite !blade_torsion_same. lra.
Qed.
Print Assumptions C67_proportional_refuted.
