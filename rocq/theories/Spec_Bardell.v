(* The hierarchical shape functions of Bardell (Engineering Structures 1991), their derivatives and
   integrals, with exact rational coefficients, independently of the package's tables. *)
From Coq Require Import Reals Arith List.
From Coquelicot Require Import Coquelicot.
From Verif Require Import Base_Sum Model_Types.
Import ListNotations.
Open Scope R_scope.

(* 1 * 3 * 5 * ... * (2k - 1) *)
Fixpoint odd_fact (k : nat) : nat :=
  match k with O => 1%nat | S k' => ((2 * k' + 1) * odd_fact k')%nat end.

(* two Hermite cubics per end, then the hierarchical functions, whose second derivative is the
   Legendre polynomial of degree i - 2 (see bardell_second_derivative_legendre in Prop_Tables.v) *)
Definition bardell (i : nat) (x : R) : R :=
  match i with
  | 0%nat => 1/2 - 3/4 * x + 1/4 * x^3
  | 1%nat => 1/8 - 1/8 * x - 1/8 * x^2 + 1/8 * x^3
  | 2%nat => 1/2 + 3/4 * x - 1/4 * x^3
  | 3%nat => - 1/8 - 1/8 * x + 1/8 * x^2 + 1/8 * x^3
  | _ => sumn (S (i / 2)) (fun n =>
           (-1) ^ n * INR (odd_fact (i - n - 2)) / (2 ^ n * INR (fact n) * INR (fact (i - 2 * n))) * x ^ (i - 2 * n))
  end.

(* the flag multiplying function i: end 1 translation, end 1 rotation, end 2 translation, end 2 rotation *)
Definition flag (e : edge) (i : nat) : R :=
  match i with 0%nat => e1t e | 1%nat => e1r e | 2%nat => e2t e | 3%nat => e2r e | _ => 1 end.

(* functions, first and second derivatives with their flags *)
Definition exact_basis : basis :=
  mkBasis (fun i x e => flag e i * bardell i x)
          (fun i x e => flag e i * Derive (bardell i) x)
          (fun i x e => flag e i * Derive_n (bardell i) 2 x).

(* integrals over [-1, 1] of products of two functions *)
Definition exact_tables : tables :=
  let I (g h : nat -> R -> edge -> R) i j ex ey := RInt (fun x => g i x ex * h j x ey) (-1) 1 in
  let f := bf exact_basis in let fp := bfp exact_basis in let fpp := bfpp exact_basis in
  mkTables (I f f) (I f fp) (I f fpp) (I fp fp) (I fp fpp) (I fpp fpp).

(* Legendre polynomials by the three-term recurrence: (legendre n, legendre (n+1)) *)
Fixpoint legendre_pair (n : nat) (x : R) : R * R :=
  match n with
  | O => (1, x)
  | S k => let '(a, b) := legendre_pair k x in (b, ((2 * INR n + 1) * x * b - INR n * a) / (INR n + 1))
  end.
Definition legendre (n : nat) (x : R) : R := fst (legendre_pair n x).

(* polynomial with real coefficients p0 + p1 x + p2 x^2 + ... *)
Definition poly (p : list R) (x : R) : R := suml (combine (seq 0 (length p)) p) (fun t => snd t * x ^ fst t).
