(* The compiled tables as functions: shape functions, their integrals, quadrature rules.
   Literals are in Data_*.v. Definitions only. *)
From Coq Require Import Reals ZArith List Arith Bool.
From Verif Require Import Base_Sum Data_Bardell Data_BardellInt Data_Gauss Model_Types.
Import ListNotations.
Open Scope R_scope.

(* decimal literal: mantissa / 10^decimals *)
Definition lit_val (l : Z * nat) : R := IZR (fst l) / 10 ^ (snd l).

(* boundary flag number 0..3 = xi1t, xi1r, xi2t, xi2r; a function of index >= 4 has none *)
Definition flag_val (e : edge) (k : option nat) : R :=
  match k with
  | Some 0%nat => e1t e
  | Some 1%nat => e1r e
  | Some 2%nat => e2t e
  | Some _ => e2r e
  | None => 1
  end.

(* /repo/panels/core/src/bardell_functions.cpp: `flag*(c*pow(xi, k) + ...)`; the
   factor written `xi*(...)` in odd second derivatives is multiplied out in Data_Bardell.v *)
Definition lit_poly (terms : list (nat * (Z * nat))) (xi : R) : R :=
  suml terms (fun t => lit_val (snd t) * xi ^ fst t).
Definition lit_fun (t : lit_entry) (xi : R) (e : edge) : R := flag_val e (fst t) * lit_poly (snd t) xi.

(* bardell_functions.cpp:118-322: `switch(i) case ...: return ...; default: return 0;` *)
Definition scalar_fun (table : list lit_entry) (i : nat) (xi : R) (e : edge) : R :=
  match nth_error table i with Some t => lit_fun t xi e | None => 0 end.
Definition code_f := scalar_fun lit_f.
Definition code_fp := scalar_fun lit_fp.
Definition code_fpp := scalar_fun lit_fpp.
Definition code_basis : basis := mkBasis code_f code_fp code_fpp.

(* bardell_functions.cpp:14-116 vec_f, vec_fp, vec_fpp: the 30 values written to the array *)
Definition vector_fun (table : list lit_entry) (xi : R) (e : edge) : list R :=
  map (fun t => lit_fun t xi e) table.

(* /repo/panels/core/src/bardell.cpp: `switch(i) case .. : switch(j) case ..: return c*x1t*y1t;
   default: return 0;` *)
Fixpoint assoc {A} (k : nat) (l : list (nat * A)) : option A :=
  match l with
  | [] => None
  | (k', v) :: l' => if (k =? k')%nat then Some v else assoc k l'
  end.
Definition int_fun (table : list (nat * list (nat * int_entry))) (i j : nat) (ex ey : edge) : R :=
  match assoc i table with
  | None => 0
  | Some row =>
    match assoc j row with
    | None => 0
    | Some (c, (fx, fy)) => lit_val c * flag_val ex fx * flag_val ey fy
    end
  end.
Definition code_tables : tables :=
  mkTables (int_fun lit_int_ff) (int_fun lit_int_ffp) (int_fun lit_int_ffpp)
           (int_fun lit_int_fpfp) (int_fun lit_int_fpfpp) (int_fun lit_int_fppfpp).

(* /repo/panels/core/src/legendre_gauss_quadrature.cpp: `switch(n)` writes points and weights;
   there is no default case and the callers pass arrays of zeros
   (e.g. plate_clpt_donnell_bardell_num.pyx:48-51, /repo/panels/legendre_gauss_quadrature.pyx) *)
Definition code_rule (n : nat) : list (R * R) :=
  match assoc n lit_gauss with
  | Some l => map (fun t => (lit_val (fst t), lit_val (snd t))) l
  | None => repeat (0, 0) n
  end.
