(* Properties of the stored tables: shape functions (bardell_functions.cpp), their integrals
   (bardell.cpp) and the Gauss-Legendre rules (legendre_gauss_quadrature.cpp).
   The exact objects are defined in Spec_Bardell.v. *)
From Coq Require Import Reals ZArith List Arith Bool Lia Lra.
From Coquelicot Require Import Coquelicot.
From Verif Require Import Base_Sum Data_Bardell Data_BardellInt Data_Gauss Model_Types Model_Bardell Spec_Bardell
  Proof_Bardell Proof_BardellInt Proof_Gauss.
Import ListNotations.
Open Scope R_scope.

(* the exact functions are what they should be: end values, end slopes, second derivative *)
Theorem C01_exact_functions_end_values : forall i, (i < 30)%nat ->
  bardell i (-1) = (if (i =? 0)%nat then 1 else 0) /\
  bardell i 1 = (if (i =? 2)%nat then 1 else 0) /\
  Derive (bardell i) (-1) = (if (i =? 1)%nat then 1/2 else 0) /\
  Derive (bardell i) 1 = (if (i =? 3)%nat then 1/2 else 0).
Proof. exact bardell_ends. Qed.
Print Assumptions C01_exact_functions_end_values.
Theorem C01_exact_functions_second_derivative_legendre : forall i x, (4 <= i < 30)%nat ->
  Derive_n (bardell i) 2 x = legendre (i - 2) x.
Proof. exact bardell_second. Qed.
Print Assumptions C01_exact_functions_second_derivative_legendre.

(* C01: values. The four boundary functions are exact, for any flags *)
Theorem C01_shape_functions : forall i x e, (i < 30)%nat -> -1 <= x <= 1 ->
  Rabs (code_f i x e - flag e i * bardell i x) <= (if (i <? 4)%nat then 0 else 4 / 10 ^ 9).
Proof. exact code_f_close. Qed.
Print Assumptions C01_shape_functions.
Example C01_case : Rabs (code_f 29 (1/3) (mkEdge 0 1 0 1) - bardell 29 (1/3)) <= 4 / 10 ^ 9.
Proof. pose proof (C01_shape_functions 29 (1/3) (mkEdge 0 1 0 1) ltac:(lia) ltac:(lra)) as H. cbn [flag Nat.ltb Nat.leb] in H. rewrite Rmult_1_l in H. exact H. Qed.

(* each stored coefficient is the exact coefficient up to a relative error of 5e-15 *)
Theorem C01_shape_function_coefficients : forall i, (i < 30)%nat ->
  exists t q, nth_error lit_f i = Some t /\ NoDup (map fst (snd t)) /\ map fst q = map fst (snd t) /\
  (forall x, bardell i x = suml q (fun u => snd u * x ^ fst u)) /\
  Forall2 (fun s u => Rabs (lit_val (snd s) - snd u) <= 5 / 10 ^ 15 * Rabs (snd u)) (snd t) q.
Proof. exact (fun i Hi => coefs_sound bz lit_f bardell i (proj1 coefs_checked) eq_refl Hi (bardell_qeval i Hi)). Qed.
Print Assumptions C01_shape_function_coefficients.

(* C02: derivatives *)
Theorem C02_first_derivative : forall i x e, (i < 30)%nat -> -1 <= x <= 1 ->
  Rabs (code_fp i x e - flag e i * Derive (bardell i) x) <= (if (i <? 4)%nat then 0 else 2 / 10 ^ 7).
Proof. exact code_fp_close. Qed.
Print Assumptions C02_first_derivative.
Theorem C02_second_derivative : forall i x e, (i < 30)%nat -> -1 <= x <= 1 ->
  Rabs (code_fpp i x e - flag e i * Derive_n (bardell i) 2 x) <= (if (i <? 4)%nat then 0 else 1 / 10 ^ 6).
Proof. exact code_fpp_close. Qed.
Print Assumptions C02_second_derivative.
Theorem C02_boundary_functions_exact : forall i x e, (i < 4)%nat ->
  is_derive (fun y => code_f i y e) x (code_fp i x e) /\ is_derive (fun y => code_fp i y e) x (code_fpp i x e).
Proof. exact boundary_derivatives. Qed.
Print Assumptions C02_boundary_functions_exact.

(* C03: the routines that fill arrays and the routines that return one value agree *)
Theorem C03_vector_equals_scalar : forall x e,
  let agrees (vec scal : list lit_entry) :=
    length (vector_fun vec x e) = 30%nat /\
    (forall i d, (i < 30)%nat -> nth i (vector_fun vec x e) d = scalar_fun scal i x e) /\
    (forall i, (30 <= i)%nat -> scalar_fun scal i x e = 0) in
  agrees vec_f lit_f /\ agrees vec_fp lit_fp /\ agrees vec_fpp lit_fpp.
Proof. exact vector_scalar. Qed.
Print Assumptions C03_vector_equals_scalar.

(* C05: integrals over [-1, 1] of products of two functions or derivatives *)
Theorem C05_integral_tables : forall i j ex ey, (i < 30)%nat -> (j < 30)%nat ->
  let ok (code exact : R) := Rabs (code - exact) <= 5 / 10 ^ 15 * Rabs exact in
  ok (t_ff code_tables i j ex ey) (t_ff exact_tables i j ex ey) /\
  ok (t_ffp code_tables i j ex ey) (t_ffp exact_tables i j ex ey) /\
  ok (t_ffpp code_tables i j ex ey) (t_ffpp exact_tables i j ex ey) /\
  ok (t_fpfp code_tables i j ex ey) (t_fpfp exact_tables i j ex ey) /\
  ok (t_fpfpp code_tables i j ex ey) (t_fpfpp exact_tables i j ex ey) /\
  ok (t_fppfpp code_tables i j ex ey) (t_fppfpp exact_tables i j ex ey).
Proof. exact code_tables_close. Qed.
Print Assumptions C05_integral_tables.
(* the integrals exist, so the RInt in exact_tables are integrals and not default values *)
Theorem C05_integrals_exist : forall i j ex ey, (i < 30)%nat -> (j < 30)%nat ->
  let f := bf exact_basis in let fp := bfp exact_basis in let fpp := bfpp exact_basis in
  let ok (g h : nat -> R -> edge -> R) := ex_RInt (fun x => g i x ex * h j x ey) (-1) 1 in
  ok f f /\ ok f fp /\ ok f fpp /\ ok fp fp /\ ok fp fpp /\ ok fpp fpp.
Proof. exact integrals_exist. Qed.
Print Assumptions C05_integrals_exist.

(* C06: symmetry of the stored tables, for every index and every flag *)
Theorem C06_integral_tables_symmetric : forall i j ex ey,
  t_ff code_tables i j ex ey = t_ff code_tables j i ey ex /\
  t_fpfp code_tables i j ex ey = t_fpfp code_tables j i ey ex /\
  t_fppfpp code_tables i j ex ey = t_fppfpp code_tables j i ey ex.
Proof. exact code_tables_sym. Qed.
Print Assumptions C06_integral_tables_symmetric.

(* C07 *)
Theorem C07_gauss_exact_for_polynomials : forall n p, (2 <= n <= 64)%nat -> (length p <= 2 * n)%nat ->
  Rabs (suml (code_rule n) (fun t => snd t * poly p (fst t)) - RInt (poly p) (-1) 1) <= 1 / 10 ^ 16 * suml p Rabs.
Proof. exact gauss_poly. Qed.
Print Assumptions C07_gauss_exact_for_polynomials.
Theorem C07_gauss_nodes_and_weights : forall n, (2 <= n <= 64)%nat ->
  length (code_rule n) = n /\
  (forall t, In t (code_rule n) -> -1 < fst t < 1 /\ 0 < snd t) /\
  (forall k x y, nth_error (code_rule n) k = Some x -> nth_error (code_rule n) (S k) = Some y -> fst x < fst y) /\
  code_rule n = map (fun t => (- fst t, snd t)) (rev (code_rule n)).
Proof. exact gauss_nodes. Qed.
Print Assumptions C07_gauss_nodes_and_weights.
Example C07_case : Rabs (suml (code_rule 2) (fun t => snd t * poly [1; 2; 3; 4] (fst t)) - RInt (poly [1; 2; 3; 4]) (-1) 1) <= 10 / 10 ^ 16.
Proof.
  eapply Rle_trans; [apply (C07_gauss_exact_for_polynomials 2); cbn; lia|]. cbn [suml].
  rewrite !Rabs_right by lra. lra.
Qed.

(* C08 does not hold: a request for one point, or for more than 64, gives zeros and no error, so
   that every integral is 0 *)
Theorem C08_refuted : exists n, (1 <= n)%nat /\
  suml (code_rule n) (fun t => snd t * 1) = 0 /\ RInt (fun _ => 1) (-1) 1 = 2.
Proof. exact one_point_integrates_nothing. Qed.
Print Assumptions C08_refuted.
Theorem C08_partial_where_it_fails : forall n, (1 <= n)%nat ->
  ((2 <= n <= 64)%nat -> Rabs (suml (code_rule n) (fun t => snd t * 1) - 2) <= 1 / 10 ^ 16) /\
  (~ (2 <= n <= 64)%nat -> forall g, suml (code_rule n) (fun t => snd t * g (fst t)) = 0).
Proof. exact rule_or_zero. Qed.
Print Assumptions C08_partial_where_it_fails.
