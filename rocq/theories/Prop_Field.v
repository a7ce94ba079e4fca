(* Displacements, strains and stress resultants computed by a Shell object.
   vec_basis are the shape functions stored in the package, exact_basis the exact ones;
   uvw_is, strain_is (Spec_Field.v) name the functions of position that uvw and strain evaluate. *)
From Coq Require Import Reals List Arith Bool Lia Lra Permutation ZArith.
From Coquelicot Require Import Coquelicot.
From Verif Require Import Base_Sum Model_Types Model_Coo Model_Result Model_Num Model_DB Model_Bardell Model_Shell Model_Field
  Spec_Algebra Spec_Kinematics Spec_Quadrature Spec_Bardell Spec_Panel Spec_Shell Spec_Field
  Proof_FieldApi Proof_FieldDeriv Proof_FieldEdge Ex_Panel Ex_Fint Ex_Field.
Import ListNotations.
Open Scope R_scope.

(* a cylindrical panel 2 x 3 of radius 10 with 4 x 5 terms, w = 0 at the edges, 2 cores, stores run backwards *)
Definition fp4 : panel := set_model (ex_panel (Some 10)) (Some (Known CylModel)).
Definition fv4 : list R := ex_vec 60.
Lemma rev_perm {A} : forall l : list A, Permutation (rev l) l.
Proof. intro l. apply Permutation_sym, Permutation_rev. Qed.
Lemma fp4_uvw Bs : uvw_is (@rev _) Bs 2 fp4 fv4 (uvw_at Bs (kernel_view fp4) (vec fv4)).
Proof. apply (uvw_is_ok _ _ _ _ _ CylModel); try reflexivity; try apply rev_perm; try discriminate; cbn; lia. Qed.
Lemma fp4_strain Bs NL : strain_is (@rev _) Bs 2 fp4 fv4 NL (strain_at NL Bs (kernel_view fp4) (vec fv4)).
Proof. apply (strain_is_ok _ _ _ _ _ _ CylModel); try reflexivity; try apply rev_perm; try discriminate; try (cbn; lra); cbn; lia. Qed.

(* ------------------------------------------------- C15 *)
Theorem C15_uvw_independent_of_cores_and_schedule : forall sched Bs nc c xs ys gx gy p p' X Y out,
  (forall l, Permutation (sched l) l) ->
  shell_uvw sched Bs nc c xs ys gx gy p = (p', Ok ((X, Y), out)) ->
  p' = p /\ length out = 5%nat /\ length (snd Y) = length (snd X) /\
  forall k, (k < 5)%nat -> length (nth k out []) = length (snd X) /\
  forall q, (q < length (snd X))%nat -> exists XY1 out1,
    shell_uvw (fun l => l) Bs 1 c (one_point (nth q (snd X) 0)) (one_point (nth q (snd Y) 0)) gx gy p = (p, Ok (XY1, out1)) /\
    nth k out1 [] = [nth q (nth k out []) 0].
Proof. exact uvw_schedule. Qed.
Print Assumptions C15_uvw_independent_of_cores_and_schedule.
Theorem C15_strain_independent_of_cores_and_schedule : forall sched Bs nc c xs ys gx gy NL p p' X Y out,
  (forall l, Permutation (sched l) l) -> sh_a (pn_sh p) <> 0 -> sh_b (pn_sh p) <> 0 ->
  shell_strain sched Bs nc c xs ys gx gy NL p = (p', Ok ((X, Y), out)) ->
  p' = p /\ length out = 6%nat /\ length (snd Y) = length (snd X) /\
  forall k, (k < 6)%nat -> length (nth k out []) = length (snd X) /\
  forall q, (q < length (snd X))%nat -> exists XY1 out1,
    shell_strain (fun l => l) Bs 1 c (one_point (nth q (snd X) 0)) (one_point (nth q (snd Y) 0)) gx gy NL p = (p, Ok (XY1, out1)) /\
    nth k out1 [] = [nth q (nth k out []) 0].
Proof. exact strain_schedule. Qed.
Print Assumptions C15_strain_independent_of_cores_and_schedule.
(* a default 3 x 2 grid on 4 cores *)
Example C15_case : exists XY out, shell_uvw (@rev _) vec_basis 4 fv4 None None 3 2 fp4 = (fp4, Ok (XY, out)) /\ length (snd (fst XY)) = 6%nat.
Proof.
  eexists; eexists. split.
  - apply (shell_uvw_runs _ _ _ _ _ _ _ _ _ CylModel); [apply rev_perm|reflexivity|reflexivity|].
    unfold guard_ok. cbn. repeat split; try discriminate; lia.
  - reflexivity.
Qed.

(* ------------------------------------------------- C09 *)
Theorem C09_layout_bijective : forall m n,
  (forall i j d i' j' d', (i < m)%nat -> (i' < m)%nat -> (d < 3)%nat -> (d' < 3)%nat ->
     (3 * (j * m + i) + d = 3 * (j' * m + i') + d')%nat -> i = i' /\ j = j' /\ d = d') /\
  (forall k, (k < 3 * (m * n))%nat -> exists i j d, (i < m)%nat /\ (j < n)%nat /\ (d < 3)%nat /\ k = (3 * (j * m + i) + d)%nat).
Proof. exact (fun m n => conj (dof_inj m) (dof_surj m n)). Qed.
Print Assumptions C09_layout_bijective.
Theorem C09_size : forall p p' n, get_size p = (p', Ok n) -> n = (3 * sh_m (pn_sh p) * sh_n (pn_sh p))%nat /\ p' = set_size p (Some n).
Proof. exact get_size_value. Qed.
Print Assumptions C09_size.
(* coefficient number 3(jm+i)+d moves component d by the product of functions i and j, and nothing else *)
Theorem C09_each_coefficient_moves_its_own_term : forall sched Bs nc p U i j d x y, (forall l, Permutation (sched l) l) ->
  (i < sh_m (pn_sh p))%nat -> (j < sh_n (pn_sh p))%nat -> (d < 3)%nat ->
  uvw_is sched Bs nc p (unit_vec (3 * (sh_m (pn_sh p) * sh_n (pn_sh p))) (3 * (j * sh_m (pn_sh p) + i) + d)) U ->
  forall d0, (d0 < 3)%nat -> U d0 x y = if (d0 =? d)%nat then
    bf Bs i (natural x (sh_a (pn_sh p))) (xedge (pn_sh p) d) * bf Bs j (natural y (sh_b (pn_sh p))) (yedge (pn_sh p) d) else 0.
Proof. exact uvw_unit. Qed.
Print Assumptions C09_each_coefficient_moves_its_own_term.
Example C09_case : exists U, uvw_is (@rev _) vec_basis 3 fp4 (unit_vec 60 (3 * (2 * 4 + 1) + 2)) U /\
  (exists p', get_size fp4 = (p', Ok 60%nat)).
Proof. eexists; split; [|exists (set_size fp4 (Some 60%nat)); reflexivity]. apply (uvw_is_ok _ _ _ _ _ CylModel); try reflexivity; try apply rev_perm; try discriminate; cbn; lia. Qed.

(* ------------------------------------------------- C10 *)
Theorem C10_displacements_linear : forall sched Bs nc c d x y xs ys gx gy p p1 p2 XY1 XY2 out1 out2,
  (forall l, Permutation (sched l) l) -> length c = length d ->
  shell_uvw sched Bs nc c xs ys gx gy p = (p1, Ok (XY1, out1)) ->
  shell_uvw sched Bs nc d xs ys gx gy p = (p2, Ok (XY2, out2)) ->
  shell_uvw sched Bs nc (lincomb x c y d) xs ys gx gy p = (p, Ok (XY1, lincomb_rows x out1 y out2)).
Proof. exact uvw_linear. Qed.
Print Assumptions C10_displacements_linear.
Theorem C10_zero_vector_zero_field : forall sched Bs nc c xs ys gx gy p p1 XY1 out,
  (forall l, Permutation (sched l) l) -> (forall v, In v c -> v = 0) ->
  shell_uvw sched Bs nc c xs ys gx gy p = (p1, Ok (XY1, out)) -> forall row v, In row out -> In v row -> v = 0.
Proof. exact uvw_zero. Qed.
Print Assumptions C10_zero_vector_zero_field.
Theorem C10_linear_strains_linear : forall sched Bs nc c d x y xs ys gx gy p p1 p2 XY1 XY2 out1 out2,
  (forall l, Permutation (sched l) l) -> length c = length d -> sh_a (pn_sh p) <> 0 -> sh_b (pn_sh p) <> 0 ->
  shell_strain sched Bs nc c xs ys gx gy false p = (p1, Ok (XY1, out1)) ->
  shell_strain sched Bs nc d xs ys gx gy false p = (p2, Ok (XY2, out2)) ->
  shell_strain sched Bs nc (lincomb x c y d) xs ys gx gy false p = (p, Ok (XY1, lincomb_rows x out1 y out2)).
Proof. exact strain_linear. Qed.
Print Assumptions C10_linear_strains_linear.

(* ------------------------------------------------- C11 *)
Theorem C11_rotations_exact_functions : forall sched nc p c U x y, (forall l, Permutation (sched l) l) ->
  0 < sh_a (pn_sh p) -> 0 < sh_b (pn_sh p) -> uvw_is sched exact_basis nc p c U ->
  is_derive (fun x => U 2%nat x y) x (- U 3%nat x y) /\ is_derive (fun y => U 2%nat x y) y (- U 4%nat x y).
Proof.
  exact (fun sched nc p c U x y Hs Ha Hb HU =>
    match uvw_rotations (fun _ => True) (fun _ => 0) exact_basis sched nc p c U exact_near Hs Ha Hb HU x y I I with
    | conj H1 H2 => conj (near_zero _ _ _ (near_ext' _ _ _ _ _ _ _ (fun _ => eq_refl) eq_refl (zero_slack _ _) H1))
                         (near_zero _ _ _ (near_ext' _ _ _ _ _ _ _ (fun _ => eq_refl) eq_refl (zero_slack _ _) H2)) end).
Qed.
Print Assumptions C11_rotations_exact_functions.
Theorem C11_rotations_stored_functions : forall sched nc p c U x y, (forall l, Permutation (sched l) l) ->
  0 < sh_a (pn_sh p) -> 0 < sh_b (pn_sh p) -> uvw_is sched vec_basis nc p c U ->
  0 <= x <= sh_a (pn_sh p) -> 0 <= y <= sh_b (pn_sh p) ->
  near_derivative (fun x => U 2%nat x y) x (- U 3%nat x y) (2 / sh_a (pn_sh p) * (3 / 10 ^ 7 * abs_x vec_basis (pn_sh p) (vec c) 2 0 y)) /\
  near_derivative (fun y => U 2%nat x y) y (- U 4%nat x y) (2 / sh_b (pn_sh p) * (3 / 10 ^ 7 * abs_y vec_basis (pn_sh p) (vec c) 2 0 x)).
Proof.
  exact (fun sched nc p c U x y Hs Ha Hb HU Hx Hy =>
    uvw_rotations unit_dom tol vec_basis sched nc p c U vec_near Hs Ha Hb HU x y (natural_unit x _ Ha Hx) (natural_unit y _ Hb Hy)).
Qed.
Print Assumptions C11_rotations_stored_functions.
Example C11_case : exists U V, uvw_is (@rev _) exact_basis 2 fp4 fv4 U /\ uvw_is (@rev _) vec_basis 2 fp4 fv4 V /\ 0 < sh_a (pn_sh fp4) /\ 0 < sh_b (pn_sh fp4).
Proof. eexists; eexists. split; [apply fp4_uvw|]. split; [apply fp4_uvw|]. cbn; lra. Qed.

(* ------------------------------------------------- C12 *)
Theorem C12_linear_strains_exact_functions : forall sched nc p c U E x y, (forall l, Permutation (sched l) l) ->
  0 < sh_a (pn_sh p) -> 0 < sh_b (pn_sh p) -> uvw_is sched exact_basis nc p c U -> strain_is sched exact_basis nc p c false E ->
  exists vy uy vx wxy,
  is_derive (fun x => U 0%nat x y) x (E 0%nat x y) /\
  is_derive (fun y => U 1%nat x y) y vy /\ E 1%nat x y = vy + panel_curvature p * U 2%nat x y /\
  is_derive (fun y => U 0%nat x y) y uy /\ is_derive (fun x => U 1%nat x y) x vx /\ E 2%nat x y = uy + vx /\
  is_derive (fun x => Derive (fun x => U 2%nat x y) x) x (- E 3%nat x y) /\
  is_derive (fun y => Derive (fun y => U 2%nat x y) y) y (- E 4%nat x y) /\
  is_derive (fun y => Derive (fun x => U 2%nat x y) x) y wxy /\ E 5%nat x y = - (2 * wxy).
Proof. exact exact_strains. Qed.
Print Assumptions C12_linear_strains_exact_functions.
Theorem C12_linear_strains_stored_functions : forall sched nc p c U E x y, (forall l, Permutation (sched l) l) ->
  0 < sh_a (pn_sh p) -> 0 < sh_b (pn_sh p) -> uvw_is sched vec_basis nc p c U -> strain_is sched vec_basis nc p c false E ->
  0 <= x <= sh_a (pn_sh p) -> 0 <= y <= sh_b (pn_sh p) ->
  let s := pn_sh p in let t := 2 / sh_a s in let r := 2 / sh_b s in
  let AX := abs_x vec_basis s (vec c) in let AY := abs_y vec_basis s (vec c) in
  near_derivative (fun x => U 0%nat x y) x (E 0%nat x y) (t * (3 / 10 ^ 7 * AX 0%nat 0%nat y)) /\
  near_derivative (fun y => U 1%nat x y) y (E 1%nat x y - panel_curvature p * U 2%nat x y) (r * (3 / 10 ^ 7 * AY 1%nat 0%nat x)) /\
  (exists uy vx, is_derive (fun y => U 0%nat x y) y uy /\ is_derive (fun x => U 1%nat x y) x vx /\
     Rabs (E 2%nat x y - (uy + vx)) <= r * (3 / 10 ^ 7 * AY 0%nat 0%nat x) + t * (3 / 10 ^ 7 * AX 1%nat 0%nat y)) /\
  near_derivative (fun x => U 3%nat x y) x (E 3%nat x y) (t * (t * (4 / 10 ^ 6 * AX 2%nat 0%nat y))) /\
  near_derivative (fun y => U 4%nat x y) y (E 4%nat x y) (r * (r * (4 / 10 ^ 6 * AY 2%nat 0%nat x))) /\
  (exists d1 d2, is_derive (fun y => U 3%nat x y) y d1 /\ is_derive (fun x => U 4%nat x y) x d2 /\
     Rabs (E 5%nat x y - (d1 + d2)) <= t * (r * (3 / 10 ^ 7 * AY 2%nat 1%nat x)) + r * (t * (3 / 10 ^ 7 * AX 2%nat 1%nat y))).
Proof.
  exact (fun sched nc p c U E x y Hs Ha Hb HU HE Hx Hy =>
    strain_derivatives unit_dom tol vec_basis sched nc p c U E vec_near Hs Ha Hb HU x y (natural_unit x _ Ha Hx) (natural_unit y _ Hb Hy) HE).
Qed.
Print Assumptions C12_linear_strains_stored_functions.
Example C12_case : exists U E, uvw_is (@rev _) vec_basis 2 fp4 fv4 U /\ strain_is (@rev _) vec_basis 2 fp4 fv4 false E /\ panel_curvature fp4 = 1 / 10.
Proof.
  eexists; eexists. split; [apply fp4_uvw|]. split; [apply fp4_strain|].
  unfold panel_curvature. cbn. destruct (Req_EM_T 10 0); lra.
Qed.

(* ------------------------------------------------- C13 *)
(* exx and eyy are the von Karman strains; the product of slopes in gxy is doubled *)
Theorem C13_nonlinear_strains_partial : forall sched Bs nc p c U E E' x y, (forall l, Permutation (sched l) l) ->
  0 < sh_a (pn_sh p) -> 0 < sh_b (pn_sh p) -> uvw_is sched Bs nc p c U ->
  strain_is sched Bs nc p c false E -> strain_is sched Bs nc p c true E' ->
  E' 0%nat x y = E 0%nat x y + 1 / 2 * (U 3%nat x y * U 3%nat x y) /\
  E' 1%nat x y = E 1%nat x y + 1 / 2 * (U 4%nat x y * U 4%nat x y) /\
  E' 2%nat x y = E 2%nat x y + 2 * (U 3%nat x y * U 4%nat x y) /\
  (forall k, (3 <= k < 6)%nat -> E' k x y = E k x y).
Proof. exact (fun sched Bs nc p c U E E' x y Hs Ha Hb HU => strain_nonlinear Bs sched nc p c U E Hs Ha Hb HU E' x y). Qed.
Print Assumptions C13_nonlinear_strains_partial.
Theorem C13_nonlinear_shear_strain_refuted : exists p c U E E' x y,
  0 < x < sh_a (pn_sh p) /\ 0 < y < sh_b (pn_sh p) /\
  uvw_is (fun l => l) vec_basis 1 p c U /\ strain_is (fun l => l) vec_basis 1 p c false E /\ strain_is (fun l => l) vec_basis 1 p c true E' /\
  E' 2%nat x y <> E 2%nat x y + U 3%nat x y * U 4%nat x y.
Proof. exact shear_refuted. Qed.
Print Assumptions C13_nonlinear_shear_strain_refuted.

(* ------------------------------------------------- C14 *)
Theorem C14_stress_is_laminate_times_strain : forall sched Bs nc c ABD xs ys gx gy NL p p' XY out, (forall l, Permutation (sched l) l) ->
  sh_a (pn_sh p) <> 0 -> sh_b (pn_sh p) <> 0 ->
  shell_stress sched Bs nc c ABD xs ys gx gy NL p = (p', Ok (XY, out)) ->
  exists F eps, (match ABD with Some G => Some G | None => pn_ABD p end) = Some F /\
  shell_strain sched Bs nc c xs ys gx gy NL p = (p', Ok (XY, eps)) /\ p' = p /\ length out = 6%nat /\ length eps = 6%nat /\
  forall k, (k < 6)%nat -> length (nth k out []) = length (nth k eps []) /\
  forall q, (q < length (nth k out []))%nat -> nth q (nth k out []) 0 = resultant F (fun l => nth q (nth l eps []) 0) k.
Proof. exact stress_law. Qed.
Print Assumptions C14_stress_is_laminate_times_strain.
Example C14_case : exists XY out, shell_stress (@rev _) vec_basis 4 fv4 (Some ex_ABD) None None 3 2 true fp4 = (fp4, Ok (XY, out)).
Proof.
  destruct (default_field (pn_sh fp4) None None 3 2) as [XY|] eqn:ED; [|discriminate].
  eexists; eexists. unfold shell_stress. unfold mbind at 1.
  rewrite (shell_strain_runs _ _ _ _ _ _ _ _ _ _ CylModel XY rev_perm); [reflexivity|cbn; lra|cbn; lra|reflexivity|discriminate|exact ED|].
  cbv in ED. injection ED as <-. unfold guard_ok. cbn. repeat split; try discriminate; lia.
Qed.

(* ------------------------------------------------- C04 *)
(* exact functions: the displacement (slope) at an edge is the flag times the coefficients of the boundary function *)
Theorem C04_edge_values_exact_functions : forall sched nc p c U, (forall l, Permutation (sched l) l) ->
  0 < sh_a (pn_sh p) -> 0 < sh_b (pn_sh p) -> uvw_is sched exact_basis nc p c U ->
  let s := pn_sh p in let a := sh_a s in let b := sh_b s in
  let CX := coef_x exact_basis s (vec c) in let CY := coef_y exact_basis s (vec c) in
  (forall k x y, (k < 3)%nat ->
    U k 0 y = e1t (xedge s k) * CX k 0%nat y /\ U k a y = e2t (xedge s k) * CX k 2%nat y /\
    U k x 0 = e1t (yedge s k) * CY k 0%nat x /\ U k x b = e2t (yedge s k) * CY k 2%nat x) /\
  (forall x y,
    U 3%nat 0 y = - (e1r (sh_xw s) / a * CX 2%nat 1%nat y) /\ U 3%nat a y = - (e2r (sh_xw s) / a * CX 2%nat 3%nat y) /\
    U 4%nat x 0 = - (e1r (sh_yw s) / b * CY 2%nat 1%nat x) /\ U 4%nat x b = - (e2r (sh_yw s) / b * CY 2%nat 3%nat x)).
Proof. exact exact_edges. Qed.
Print Assumptions C04_edge_values_exact_functions.
(* in particular a zero flag fixes the edge *)
Theorem C04_zero_flag_fixes_edge : forall sched nc p c U k x y, (forall l, Permutation (sched l) l) ->
  0 < sh_a (pn_sh p) -> 0 < sh_b (pn_sh p) -> uvw_is sched exact_basis nc p c U -> (k < 3)%nat ->
  let s := pn_sh p in
  (e1t (xedge s k) = 0 -> U k 0 y = 0) /\ (e2t (xedge s k) = 0 -> U k (sh_a s) y = 0) /\
  (e1t (yedge s k) = 0 -> U k x 0 = 0) /\ (e2t (yedge s k) = 0 -> U k x (sh_b s) = 0) /\
  (e1r (sh_xw s) = 0 -> U 3%nat 0 y = 0) /\ (e2r (sh_xw s) = 0 -> U 3%nat (sh_a s) y = 0) /\
  (e1r (sh_yw s) = 0 -> U 4%nat x 0 = 0) /\ (e2r (sh_yw s) = 0 -> U 4%nat x (sh_b s) = 0).
Proof. exact exact_fixed. Qed.
Print Assumptions C04_zero_flag_fixes_edge.
(* stored functions: same up to 4e-9 (2e-7 for slopes) times the sum of absolute coefficients *)
Theorem C04_edge_values_stored_functions : forall sched nc p c U, (forall l, Permutation (sched l) l) ->
  0 < sh_a (pn_sh p) -> 0 < sh_b (pn_sh p) -> uvw_is sched vec_basis nc p c U ->
  let s := pn_sh p in let a := sh_a s in let b := sh_b s in
  let CX := coef_x vec_basis s (vec c) in let CY := coef_y vec_basis s (vec c) in
  let AX := abs_x vec_basis s (vec c) in let AY := abs_y vec_basis s (vec c) in
  (forall k x y, (k < 3)%nat ->
    Rabs (U k 0 y - e1t (xedge s k) * CX k 0%nat y) <= 4 / 10 ^ 9 * AX k 0%nat y /\
    Rabs (U k a y - e2t (xedge s k) * CX k 2%nat y) <= 4 / 10 ^ 9 * AX k 0%nat y /\
    Rabs (U k x 0 - e1t (yedge s k) * CY k 0%nat x) <= 4 / 10 ^ 9 * AY k 0%nat x /\
    Rabs (U k x b - e2t (yedge s k) * CY k 2%nat x) <= 4 / 10 ^ 9 * AY k 0%nat x) /\
  (forall x y,
    Rabs (U 3%nat 0 y - - (e1r (sh_xw s) / a * CX 2%nat 1%nat y)) <= 2 / a * (2 / 10 ^ 7 * AX 2%nat 0%nat y) /\
    Rabs (U 3%nat a y - - (e2r (sh_xw s) / a * CX 2%nat 3%nat y)) <= 2 / a * (2 / 10 ^ 7 * AX 2%nat 0%nat y) /\
    Rabs (U 4%nat x 0 - - (e1r (sh_yw s) / b * CY 2%nat 1%nat x)) <= 2 / b * (2 / 10 ^ 7 * AY 2%nat 0%nat x) /\
    Rabs (U 4%nat x b - - (e2r (sh_yw s) / b * CY 2%nat 3%nat x)) <= 2 / b * (2 / 10 ^ 7 * AY 2%nat 0%nat x)).
Proof.
  exact (fun sched nc p c U Hs Ha Hb HU =>
    conj (fun k x y Hk => edge_displacements _ _ vec_basis sched nc p c U vec_near_ends Hs Ha Hb HU k x y Hk)
         (fun x y => edge_slopes _ _ vec_basis sched nc p c U vec_near_ends Hs Ha Hb HU x y)).
Qed.
Print Assumptions C04_edge_values_stored_functions.
Example C04_case : exists U, uvw_is (@rev _) exact_basis 2 fp4 fv4 U /\ e1t (xedge (pn_sh fp4) 2) = 0 /\ e1r (sh_xw (pn_sh fp4)) = 1.
Proof. eexists. split; [apply fp4_uvw|]. split; reflexivity. Qed.
