(* Displacement, strain and stress fields: /repo/panels/models/clpt_bardell_field.pyx and
   Shell.uvw, Shell.strain, Shell.stress, Shell._default_field. Definitions only. *)
From Coq Require Import Reals List Arith Bool.
From Verif Require Import Base_Sum Model_Types Model_Coo Model_Result Model_Num Model_DB Data_Bardell Model_Bardell Model_Shell.
Import ListNotations.
Open Scope R_scope.

(* The compiled field functions call the vector routines vec_f, vec_fp, vec_fpp
   (core/src/bardell_functions.cpp), which fill arrays of NMAX = 30 entries
   (clpt_bardell_field.pyx:21). Entry i of each array: *)
Definition NMAX : nat := 30.
Definition vec_basis : basis := mkBasis
  (fun i xi e => nth i (vector_fun vec_f xi e) 0)
  (fun i xi e => nth i (vector_fun vec_fp xi e) 0)
  (fun i xi e => nth i (vector_fun vec_fpp xi e) 0).

Section Points.
Variables (Bs : basis) (s : shell) (c : nat -> R).
(* `for j in range(n): for i in range(m): col = DOF*(j*m + i); acc += ...`, in exact arithmetic *)
Definition loop_sum (body : nat -> nat -> nat -> R) : R :=
  suml (seq 0 (sh_n s)) (fun j => suml (seq 0 (sh_m s)) (fun i => body i j (DOF * (j * sh_m s + i))%nat)).
(* `xi = 2*x/a - 1.`, `eta = 2*y/b - 1.` *)
Definition pt_xi (x : R) : R := 2 * x / sh_a s - 1.
Definition pt_eta (y : R) : R := 2 * y / sh_b s - 1.

(* clpt_bardell_field.pyx:182-238 cfuvw, body of the loop over points *)
Definition cfuvw_u (x y : R) : R := loop_sum (fun i j col =>
  c (col + 0)%nat * bf Bs i (pt_xi x) (sh_xu s) * bf Bs j (pt_eta y) (sh_yu s)).
Definition cfuvw_v (x y : R) : R := loop_sum (fun i j col =>
  c (col + 1)%nat * bf Bs i (pt_xi x) (sh_xv s) * bf Bs j (pt_eta y) (sh_yv s)).
Definition cfuvw_w (x y : R) : R := loop_sum (fun i j col =>
  c (col + 2)%nat * bf Bs i (pt_xi x) (sh_xw s) * bf Bs j (pt_eta y) (sh_yw s)).
(* :241-274 cfwx *)
Definition cfwx (x y : R) : R := loop_sum (fun i j col =>
  (2 / sh_a s) * c (col + 2)%nat * bfp Bs i (pt_xi x) (sh_xw s) * bf Bs j (pt_eta y) (sh_yw s)).
(* :277-310 cfwy *)
Definition cfwy (x y : R) : R := loop_sum (fun i j col =>
  (2 / sh_b s) * c (col + 2)%nat * bf Bs i (pt_xi x) (sh_xw s) * bfp Bs j (pt_eta y) (sh_yw s)).

(* :395-535 cfstrain; NL is the integer NLgeom (0 or 1). The shell's `r` is read directly and not
   through the model: `flagcyl = 0 if r == 0 else 1` *)
Variable (NL : bool).
Definition nl : R := if NL then 1 else 0.
Definition cs_wxi (x y : R) : R := loop_sum (fun i j col =>
  c (col + 2)%nat * bfp Bs i (pt_xi x) (sh_xw s) * bf Bs j (pt_eta y) (sh_yw s)).
Definition cs_weta (x y : R) : R := loop_sum (fun i j col =>
  c (col + 2)%nat * bf Bs i (pt_xi x) (sh_xw s) * bfp Bs j (pt_eta y) (sh_yw s)).
Definition cfstrain_exx (x y : R) : R := loop_sum (fun i j col =>
  c (col + 0)%nat * bfp Bs i (pt_xi x) (sh_xu s) * bf Bs j (pt_eta y) (sh_yu s) * (2 / sh_a s)
  + nl * 2 / (sh_a s * sh_a s) * c (col + 2)%nat * bfp Bs i (pt_xi x) (sh_xw s) * bf Bs j (pt_eta y) (sh_yw s) * cs_wxi x y).
Definition cfstrain_eyy (x y : R) : R := loop_sum (fun i j col =>
  if Req_EM_T (sh_r s) 0
  then c (col + 1)%nat * bf Bs i (pt_xi x) (sh_xv s) * bfp Bs j (pt_eta y) (sh_yv s) * (2 / sh_b s)
    + nl * 2 / (sh_b s * sh_b s) * c (col + 2)%nat * bf Bs i (pt_xi x) (sh_xw s) * bfp Bs j (pt_eta y) (sh_yw s) * cs_weta x y
  else c (col + 1)%nat * bf Bs i (pt_xi x) (sh_xv s) * bfp Bs j (pt_eta y) (sh_yv s) * (2 / sh_b s)
    + 1 / sh_r s * c (col + 2)%nat * bf Bs i (pt_xi x) (sh_xw s) * bf Bs j (pt_eta y) (sh_yw s)
    + nl * 2 / (sh_b s * sh_b s) * c (col + 2)%nat * bf Bs i (pt_xi x) (sh_xw s) * bfp Bs j (pt_eta y) (sh_yw s) * cs_weta x y).
Definition cfstrain_gxy (x y : R) : R := loop_sum (fun i j col =>
  c (col + 0)%nat * bf Bs i (pt_xi x) (sh_xu s) * bfp Bs j (pt_eta y) (sh_yu s) * (2 / sh_b s)
  + c (col + 1)%nat * bfp Bs i (pt_xi x) (sh_xv s) * bf Bs j (pt_eta y) (sh_yv s) * (2 / sh_a s)
  + nl * 4 / (sh_a s * sh_b s) * (
      c (col + 2)%nat * bfp Bs i (pt_xi x) (sh_xw s) * bf Bs j (pt_eta y) (sh_yw s) * cs_weta x y
      + cs_wxi x y * c (col + 2)%nat * bf Bs i (pt_xi x) (sh_xw s) * bfp Bs j (pt_eta y) (sh_yw s))).
Definition cfstrain_kxx (x y : R) : R := loop_sum (fun i j col =>
  - c (col + 2)%nat * bfpp Bs i (pt_xi x) (sh_xw s) * bf Bs j (pt_eta y) (sh_yw s) * 4 / (sh_a s * sh_a s)).
Definition cfstrain_kyy (x y : R) : R := loop_sum (fun i j col =>
  - c (col + 2)%nat * bf Bs i (pt_xi x) (sh_xw s) * bfpp Bs j (pt_eta y) (sh_yw s) * 4 / (sh_b s * sh_b s)).
Definition cfstrain_kxy (x y : R) : R := loop_sum (fun i j col =>
  - 2 * c (col + 2)%nat * bfp Bs i (pt_xi x) (sh_xw s) * bfp Bs j (pt_eta y) (sh_yw s) * 4 / (sh_a s * sh_b s)).
End Points.

(* ------------------------------------------------- chunks and parallel loop *)
(* clpt_bardell_field.pyx:53-66 (fuvw) and :142-155 (fstrain): padding to a multiple of num_cores *)
Definition add_size (size nc : nat) : nat :=
  let a := (nc - size mod nc)%nat in if (a =? nc)%nat then 0%nat else a.
Definition cores (xs : list R) (nc : nat) : list R :=
  if (length xs mod nc =? 0)%nat then xs else xs ++ repeat 0 (add_size (length xs) nc).
(* `.reshape(num_cores, -1)`: number of columns, and entry (pti, k) *)
Definition size_core (size nc : nat) : nat := (size + add_size size nc) / nc.
Definition core_at (xs : list R) (nc pti k : nat) : R := nth (pti * size_core (length xs) nc + k) (cores xs nc) 0.

(* one store of the parallel loop: output array number, row = chunk, column, value *)
Definition store : Type := (nat * nat * nat) * R.
(* the stores made by the body of `for pti in prange(num_cores, ...)` for one chunk *)
Definition chunk_stores (fs : list (R -> R -> R)) (xs ys : list R) (nc pti : nat) : list store :=
  flat_map (fun kf => map (fun q =>
      ((fst kf, pti, q), snd kf (core_at xs nc pti q) (core_at ys nc pti q))) (seq 0 (size_core (length xs) nc)))
    (combine (seq 0 (length fs)) fs).
Definition all_stores fs xs ys nc : list store := flat_map (chunk_stores fs xs ys nc) (seq 0 nc).
(* memory: arrays start at zero (`np.zeros`); stores happen in the order chosen by the scheduler *)
Definition run_stores (l : list store) : nat -> nat -> nat -> R :=
  fold_left (fun mem st => let '(k, p, q, v) := (fst (fst (fst st)), snd (fst (fst st)), snd (fst st), snd st) in
    fun k' p' q' => if ((k' =? k) && (p' =? p) && (q' =? q))%nat%bool then v else mem k' p' q') l (fun _ _ _ => 0).
(* `np.ravel(us)[:size]` *)
Definition ravel (mem : nat -> nat -> R) (nc sc size : nat) : list R :=
  firstn size (flat_map (fun p => map (mem p) (seq 0 sc)) (seq 0 nc)).

(* a scheduler: in which order the stores of the chunks reach memory *)
Definition scheduler : Type := list store -> list store.

Definition field_arrays (sched : scheduler) (fs : list (R -> R -> R)) (xs ys : list R) (nc : nat) : list (list R) :=
  let mem := run_stores (sched (all_stores fs xs ys nc)) in
  map (fun k => ravel (mem k) nc (size_core (length xs) nc) (length xs)) (seq 0 (length fs)).

(* What the compiled code needs to stay inside its arrays: m, n <= NMAX, all Ritz constants present,
   as many ys as xs; Python's `size % num_cores` raises for num_cores = 0 (ZeroDivisionError, an
   ArithmeticError, rendered here as ValueError) *)
Definition field_guard (c : list R) (s : shell) (xs ys : list R) (nc : nat) : res unit :=
  if (nc =? 0)%nat then Err ValueError else
  if ((sh_m s <=? NMAX) && (sh_n s <=? NMAX) && (DOF * (sh_m s * sh_n s) <=? length c) && (length xs =? length ys))%nat%bool
  then Ok tt else Err OutOfBounds.

(* clpt_bardell_field.pyx:27-101 fuvw: u, v, w, phix, phiy; the last two are multiplied by -1
   after the parallel loop (:95-98) *)
Definition fuvw (sched : scheduler) (Bs : basis) (c : list R) (s : shell) (xs ys : list R) (nc : nat) : res (list (list R)) :=
  rbind (field_guard c s xs ys nc) (fun _ =>
  let out := field_arrays sched [cfuvw_u Bs s (vec c); cfuvw_v Bs s (vec c); cfuvw_w Bs s (vec c);
                                 cfwx Bs s (vec c); cfwy Bs s (vec c)] xs ys nc in
  Ok (map (fun kl => if (3 <=? fst kl)%nat then map (fun v => v * (-1)) (snd kl) else snd kl) (combine (seq 0 5) out))).

(* clpt_bardell_field.pyx:104-179 fstrain: exx, eyy, gxy, kxx, kyy, kxy *)
Definition fstrain (sched : scheduler) (Bs : basis) (c : list R) (s : shell) (xs ys : list R) (nc : nat) (NL : bool) : res (list (list R)) :=
  rbind (field_guard c s xs ys nc) (fun _ =>
  Ok (field_arrays sched [cfstrain_exx Bs s (vec c) NL; cfstrain_eyy Bs s (vec c) NL; cfstrain_gxy Bs s (vec c) NL;
                          cfstrain_kxx Bs s (vec c); cfstrain_kyy Bs s (vec c); cfstrain_kxy Bs s (vec c)] xs ys nc)).

(* ------------------------------------------------- Shell methods *)
(* an array argument: its shape and its entries in C order *)
Definition ndarray : Type := list nat * list R.
(* np.linspace(0, len, n) *)
Definition linspace (len : R) (n : nat) : list R := map (fun i => INR i * (len / INR (n - 1))) (seq 0 n).
(* np.meshgrid(xs, ys): shape (len(ys), len(xs)) *)
Definition meshgrid (xs ys : list R) : ndarray * ndarray :=
  (([length ys; length xs], flat_map (fun _ => xs) ys), ([length ys; length xs], flat_map (fun y => map (fun _ => y) xs) ys)).

Fixpoint shape_eqb (a b : list nat) : bool :=
  match a, b with [], [] => true | x :: a', y :: b' => (x =? y)%nat && shape_eqb a' b' | _, _ => false end.

(* shell.py:306-322 _default_field *)
Definition default_field (s : shell) (xs ys : option ndarray) (gridx gridy : nat) : res (ndarray * ndarray) :=
  let '(X, Y) := match xs, ys with
    | Some X, Some Y => (X, Y)
    | _, _ => meshgrid (linspace (sh_a s) gridx) (linspace (sh_b s) gridy)
    end in
  if shape_eqb (fst X) (fst Y) then Ok (X, Y) else Err ValueError.

(* shell.py:705-750 uvw. num_cores is the attribute out_num_cores. The dictionaries plot_mesh and
   fields are returned; that they are also kept on the object is not modelled. `Bs` is vec_basis in
   the package. *)
Definition shell_uvw (sched : scheduler) (Bs : basis) (num_cores : nat) (c : list R) (xs ys : option ndarray)
    (gridx gridy : nat) : method ((ndarray * ndarray) * list (list R)) :=
  do p <- mget;
  do XY <- mlift (default_field (pn_sh p) xs ys gridx gridy);
  do mdl <- the_model;
  do f <- mlift (fuvw sched Bs c (kernel_view p) (snd (fst XY)) (snd (snd XY)) num_cores);
  mret (XY, f).

(* shell.py:753-796 strain. `r = s.r` in the compiled code needs a number: TypeError for None *)
Definition shell_strain (sched : scheduler) (Bs : basis) (num_cores : nat) (c : list R) (xs ys : option ndarray)
    (gridx gridy : nat) (NL : bool) : method ((ndarray * ndarray) * list (list R)) :=
  do p <- mget;
  do XY <- mlift (default_field (pn_sh p) xs ys gridx gridy);
  do mdl <- the_model;
  match pn_r p with
  | None => mraise TypeError
  | Some _ =>
    do f <- mlift (fstrain sched Bs c (kernel_view p) (snd (fst XY)) (snd (snd XY)) num_cores NL);
    mret (XY, f)
  end.

(* shell.py:799-852 stress: Nxx, Nyy, Nxy, Mxx, Myy, Mxy, elementwise on the arrays of strains *)
Definition shell_stress (sched : scheduler) (Bs : basis) (num_cores : nat) (c : list R) (ABD : option (nat -> nat -> R))
    (xs ys : option ndarray) (gridx gridy : nat) (NL : bool) : method ((ndarray * ndarray) * list (list R)) :=
  do XYf <- shell_strain sched Bs num_cores c xs ys gridx gridy NL;
  do p <- mget;
  match (match ABD with Some F => Some F | None => pn_ABD p end) with
  | None => mraise ValueError
  | Some F =>
    let e k q := nth q (nth k (snd XYf) []) 0 in
    mret (fst XYf, map (fun r => map (fun q =>
       e 0%nat q * F r 0%nat + e 1%nat q * F r 1%nat + e 2%nat q * F r 2%nat
       + e 3%nat q * F r 3%nat + e 4%nat q * F r 4%nat + e 5%nat q * F r 5%nat)
       (seq 0 (length (nth 0 (snd XYf) [])))) (seq 0 6))
  end.

(* clpt_bardell_field.pyx:313-392 fg / cfg: the 5 x size array g, rows u, v, w, phix, phiy, at one point,
   as the list of the stores in the order they are made *)
Definition fg (Bs : basis) (s : shell) (x y : R) : list ((nat * nat) * R) :=
  flat_map (fun j => flat_map (fun i =>
    let col := (DOF * (j * sh_m s + i))%nat in
    let xi := pt_xi s x in let eta := pt_eta s y in
    [((0, col + 0)%nat, bf Bs i xi (sh_xu s) * bf Bs j eta (sh_yu s));
     ((1, col + 1)%nat, bf Bs i xi (sh_xv s) * bf Bs j eta (sh_yv s));
     ((2, col + 2)%nat, bf Bs i xi (sh_xw s) * bf Bs j eta (sh_yw s));
     ((3, col + 2)%nat, - (2 / sh_a s) * bfp Bs i xi (sh_xw s) * bf Bs j eta (sh_yw s));
     ((4, col + 2)%nat, - (2 / sh_b s) * bf Bs i xi (sh_xw s) * bfp Bs j eta (sh_yw s))])
    (seq 0 (sh_m s))) (seq 0 (sh_n s)).
