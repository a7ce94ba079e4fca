(* Sparse matrices in coordinate format and the assembly loops shared by all kernels.
   Definitions only. *)
From Coq Require Import Reals List Arith Bool.
From Verif Require Import Base_Sum.
Import ListNotations.
Open Scope R_scope.

(* A scipy.sparse.coo_matrix: the triplets (row, column, value) in writing order.
   e.g. /repo/panels/models/plate_clpt_donnell_bardell_num.pyx:283 `coo_matrix((kCv, (kCr, kCc)), shape=(size, size))`.
   The unused tail of the preallocated arrays (row 0, column 0, value 0) adds nothing and is left out. *)
Definition coo : Type := list (nat * nat * R).

(* Dense value of a coo_matrix: duplicates are summed (scipy semantics). *)
Definition dense (M : coo) (r s : nat) : R :=
  suml M (fun t => match t with (i, j, v) =>
    if ((i =? r) && (j =? s))%nat%bool then v else 0 end).

(* A small block of one kernel evaluation: (component of A, component of B, value). *)
Definition block : Type := list (nat * nat * R).

(* value stored by a block for components (d, e) *)
Definition loc (b : block) (d e : nat) : R :=
  suml b (fun t => match t with (i, j, v) =>
    if ((i =? d) && (j =? e))%nat%bool then v else 0 end).

(* cdef int DOF = 3, e.g. plate_clpt_donnell_bardell_num.pyx:23 *)
Definition DOF : nat := 3.

(* `row = row0 + DOF*(j*m + i)`, e.g. plate_clpt_donnell_bardell_num.pyx:220 *)
Definition dofpos (o m i j : nat) : nat := (o + DOF * (j * m + i))%nat.

(* One innermost iteration: `if row > col: continue` (when skip is set; the blocks "12" of the
   connections have the test commented out) and then the triplets of the block,
   e.g. plate_clpt_donnell_bardell_num.pyx:220-281. *)
Definition emit (skip : bool) (row col : nat) (b : block) : coo :=
  if (skip && (col <? row)%nat)%bool then []
  else map (fun t => match t with (d, e, v) => ((row + d)%nat, (col + e)%nat, v) end) b.

(* Loop nest  for i / for k / for j / for l  (plate_clpt_donnell_bardell.pyx:117-171,
   plate_clpt_donnell_bardell_num.pyx:191-218, kCSSycte.pyx:99-112 ...):
   i,j < mA,nA index A (rows), k,l < mB,nB index B (columns). *)
Definition loop_ikjl (skip : bool) (row0 col0 mA nA mB nB : nat)
    (ker : nat -> nat -> nat -> nat -> block) : coo :=
  flat_map (fun i => flat_map (fun k => flat_map (fun j => flat_map (fun l =>
    emit skip (dofpos row0 mA i j) (dofpos col0 mB k l) (ker i k j l))
    (seq 0 nB)) (seq 0 nA)) (seq 0 mB)) (seq 0 mA).

(* Loop nest  for j / for l / for i / for k  (plate_clpt_donnell_bardell_num.pyx:485-497,
   kCSSxcte.pyx:97-109, kCpd.pyx:106-123). *)
Definition loop_jlik (skip : bool) (row0 col0 mA nA mB nB : nat)
    (ker : nat -> nat -> nat -> nat -> block) : coo :=
  flat_map (fun j => flat_map (fun l => flat_map (fun i => flat_map (fun k =>
    emit skip (dofpos row0 mA i j) (dofpos col0 mB k l) (ker i k j l))
    (seq 0 mB)) (seq 0 mA)) (seq 0 nB)) (seq 0 nA).

(* Accumulation over integration points, e.g. plate_clpt_donnell_bardell_num.pyx:133-281:
   the counter c restarts at each point, the row/column arrays are written at the first
   point only (`if ptx == 0 and pty == 0`) and the value array is incremented at every point. *)
Fixpoint add_values (acc : list R) (vs : list R) : list R :=
  match acc, vs with
  | x :: acc', v :: vs' => (x + v) :: add_values acc' vs'
  | acc, [] => acc
  | [], _ => []
  end.

Definition accumulate {P : Type} (pts : list P) (entries : P -> coo) : coo :=
  match pts with
  | [] => []
  | p0 :: _ =>
      let pos := map fst (entries p0) in
      let vals := fold_left (fun acc p => add_values acc (map snd (entries p)))
                            pts (map (fun _ => 0) pos) in
      combine pos vals
  end.

(* structsolve.sparseutils.finalize_symmetric_matrix (external): upper triangle mirrored. *)
Definition finalize_symmetric (K : nat -> nat -> R) (r s : nat) : R :=
  if (r <=? s)%nat then K r s else K s r.

(* structsolve.sparseutils.make_skew_symmetric (external): upper triangle mirrored with a minus sign. *)
Definition make_skew (K : nat -> nat -> R) (r s : nat) : R :=
  if (r <=? s)%nat then K r s else - K s r.

(* scipy: sum of two sparse matrices = concatenation of triplets *)
Definition coo_add (A B : coo) : coo := A ++ B.

(* `K*c` for a size x size sparse matrix, e.g. /repo/panels/multidomain/multidomain.py:1040 *)
Definition matvec (size : nat) (K : nat -> nat -> R) (c : nat -> R) (r : nat) : R :=
  sumn size (fun s => K r s * c s).
