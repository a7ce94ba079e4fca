(* Numerically integrated matrices and internal force vector.
   Models /repo/panels/models/plate_clpt_donnell_bardell_num.pyx and
   /repo/panels/models/cylshell_clpt_donnell_bardell_num.pyx around the innermost expressions,
   which are in Model_PlateNumKer.v and Model_CylNumKer.v. Definitions only. *)
From Coq Require Import Reals List Arith Bool.
From Verif Require Import Base_Sum Model_Types Model_Coo Model_Result Model_PlateNumKer Model_CylNumKer.
Import ListNotations.
Open Scope R_scope.

(* The value of `Finput` after np.asarray: a (6, 6) array, or a 4-D array of shape (nx, ny, 6, 6),
   or an array of any other shape (plate_..._num.pyx:63-76). *)
Inductive finput :=
| FMat (F : nat -> nat -> R)
| FPts (px py : nat) (F : nat -> nat -> nat -> nat -> R)
| FOther.

(* plate_..._num.pyx:63-76 (fkC_num), :326-338 (fkG_num), :978-990 (calc_fint);
   cylshell_..._num.pyx:63-76, :324-336, :683-695: which matrix is used at point (ptx, pty). *)
Definition sel_F (nx ny : nat) (Fi : finput) : res (nat -> nat -> nat -> nat -> R) :=
  match Fi with
  | FPts px py F => if ((px =? nx) && (py =? ny))%nat%bool then Ok F else Err ValueError
  | FMat F => Ok (fun _ _ => F)
  | FOther => Err ValueError
  end.

(* `hrho_input` of fkM_num (plate_..._num.pyx:552-565): (h, rho) constant, or one pair per point. *)
Inductive hrho :=
| HConst (h rho : R)
| HPts (px py : nat) (h rho : nat -> nat -> R)
| HOther.

Definition sel_hrho (nx ny : nat) (H : hrho) : res (nat -> nat -> R * R) :=
  match H with
  | HPts px py h rho => if ((px =? nx) && (py =? ny))%nat%bool
                        then Ok (fun i j => (h i j, rho i j)) else Err ValueError
  | HConst h rho => Ok (fun _ _ => (h, rho))
  | HOther => Err ValueError
  end.

(* plate_..._num.pyx:109-131 in one direction: the limits in natural coordinates and the length.
   The sentinel value -1 selects the whole side. *)
Definition window (p1 p2 len : R) : R * R * R :=
  if Req_EM_T p1 (-1) then (-1, 1, len - 0)
  else if Req_EM_T p2 (-1) then (-1, 1, len - 0)
  else ((p1 - 0) / (len - 0) * 2 - 1, (p2 - 0) / (len - 0) * 2 - 1, p2 - p1).

(* plate_..._num.pyx:138-139: point of the rule mapped to the window *)
Definition to_window (lo hi t : R) : R := (t - (-1)) / 2 * (hi - lo) + lo.

(* One integration point: loop counters, natural coordinates, weight and the two lengths. *)
Record point := mkPoint { p_x : nat; p_y : nat; p_xi : R; p_eta : R; p_w : R; p_intx : R; p_inty : R }.

(* A quadrature rule: list of (point, weight) for each requested number of points, the contents of
   the arrays after leggauss_quad(n, points, weights). *)
Definition rule : Type := nat -> list (R * R).

(* plate_..._num.pyx:133-141: for ptx in range(nx): for pty in range(ny) *)
Definition points (Q : rule) (s : shell) (nx ny : nat) : list point :=
  let '(xi1, xi2, intx) := window (sh_x1 s) (sh_x2 s) (sh_a s) in
  let '(eta1, eta2, inty) := window (sh_y1 s) (sh_y2 s) (sh_b s) in
  flat_map (fun px => map (fun py =>
     mkPoint (fst px) (fst py)
             (to_window xi1 xi2 (fst (snd px))) (to_window eta1 eta2 (fst (snd py)))
             (snd (snd px) * snd (snd py)) intx inty)
     (combine (seq 0 ny) (Q ny))) (combine (seq 0 nx) (Q nx)).

(* Sums over the terms, `for j in range(n): for i in range(m): v += ...`
   (plate_..._num.pyx:174-187 and the strain loops). *)
Definition sum_terms (s : shell) (t : nat -> nat -> R) : R :=
  sumn (sh_n s) (fun j => sumn (sh_m s) (fun i => t i j)).

(* plate_..._num.pyx:172-187: `wxi = 0; weta = 0; if NLgeom == 1: ...`.
   The plate and the cylinder use the same expressions in fkC_num, fkG_num and calc_fint. *)
Definition wxi_at (Bs : basis) (s : shell) (cs : nat -> R) (col0 : nat) (NL : bool) (p : point) : R :=
  if NL then sum_terms s (plate_calc_fint_wxi_term Bs s cs col0 (p_xi p) (p_eta p)) else 0.
Definition weta_at (Bs : basis) (s : shell) (cs : nat -> R) (col0 : nat) (NL : bool) (p : point) : R :=
  if NL then sum_terms s (plate_calc_fint_weta_term Bs s cs col0 (p_xi p) (p_eta p)) else 0.

(* plate_..._num.pyx:26-285 fkC_num *)
Definition plate_fkC_num (Q : rule) (Bs : basis) (cs : nat -> R) (Fi : finput) (s : shell)
    (row0 col0 nx ny : nat) (NL : bool) : res coo :=
  rmap (fun F => accumulate (points Q s nx ny) (fun p =>
    loop_ikjl true row0 col0 (sh_m s) (sh_n s) (sh_m s) (sh_n s)
      (plate_fkC_num_ker Bs s (F (p_x p) (p_y p)) (p_xi p) (p_eta p) (p_w p) (p_intx p) (p_inty p)
         (wxi_at Bs s cs col0 NL p) (weta_at Bs s cs col0 NL p)))) (sel_F nx ny Fi).

(* cylshell_..._num.pyx:26-283 fkC_num *)
Definition cyl_fkC_num (Q : rule) (Bs : basis) (cs : nat -> R) (Fi : finput) (s : shell)
    (row0 col0 nx ny : nat) (NL : bool) : res coo :=
  rmap (fun F => accumulate (points Q s nx ny) (fun p =>
    loop_ikjl true row0 col0 (sh_m s) (sh_n s) (sh_m s) (sh_n s)
      (cyl_fkC_num_ker Bs s (F (p_x p) (p_y p)) (p_xi p) (p_eta p) (p_w p) (p_intx p) (p_inty p)
         (wxi_at Bs s cs col0 NL p) (weta_at Bs s cs col0 NL p)))) (sel_F nx ny Fi).

(* Strains at a point as accumulated by fkG_num (plate_..._num.pyx:443-481): index 0..5 is
   exx eyy gxy kxx kyy kxy. *)
Definition plate_kG_strain (Bs : basis) (s : shell) (cs : nat -> R) (col0 : nat) (NL : bool) (p : point)
    (k : nat) : R :=
  let wxi := wxi_at Bs s cs col0 NL p in
  let weta := weta_at Bs s cs col0 NL p in
  match k with
  | 0%nat => sum_terms s (plate_fkG_num_exx_term Bs s cs col0 (p_xi p) (p_eta p) wxi weta)
  | 1%nat => sum_terms s (plate_fkG_num_eyy_term Bs s cs col0 (p_xi p) (p_eta p) wxi weta)
  | 2%nat => sum_terms s (plate_fkG_num_gxy_term Bs s cs col0 (p_xi p) (p_eta p) wxi weta)
  | 3%nat => sum_terms s (plate_fkG_num_kxx_term Bs s cs col0 (p_xi p) (p_eta p) wxi weta)
  | 4%nat => sum_terms s (plate_fkG_num_kyy_term Bs s cs col0 (p_xi p) (p_eta p) wxi weta)
  | _ => sum_terms s (plate_fkG_num_kxy_term Bs s cs col0 (p_xi p) (p_eta p) wxi weta)
  end.

(* cylshell_..._num.pyx:441-475 *)
Definition cyl_kG_strain (Bs : basis) (s : shell) (cs : nat -> R) (col0 : nat) (NL : bool) (p : point)
    (k : nat) : R :=
  let wxi := wxi_at Bs s cs col0 NL p in
  let weta := weta_at Bs s cs col0 NL p in
  match k with
  | 0%nat => sum_terms s (cyl_fkG_num_exx_term Bs s cs col0 (p_xi p) (p_eta p) wxi weta)
  | 1%nat => sum_terms s (cyl_fkG_num_eyy_term Bs s cs col0 (p_xi p) (p_eta p) wxi weta)
  | 2%nat => sum_terms s (cyl_fkG_num_gxy_term Bs s cs col0 (p_xi p) (p_eta p) wxi weta)
  | 3%nat => sum_terms s (cyl_fkG_num_kxx_term Bs s cs col0 (p_xi p) (p_eta p) wxi weta)
  | 4%nat => sum_terms s (cyl_fkG_num_kyy_term Bs s cs col0 (p_xi p) (p_eta p) wxi weta)
  | _ => sum_terms s (cyl_fkG_num_kxy_term Bs s cs col0 (p_xi p) (p_eta p) wxi weta)
  end.

(* plate_..._num.pyx:288-516 fkG_num *)
Definition plate_fkG_num (Q : rule) (Bs : basis) (cs : nat -> R) (Fi : finput) (s : shell)
    (row0 col0 nx ny : nat) (NL : bool) (Nxx0 Nyy0 Nxy0 : R) : res coo :=
  rmap (fun F => accumulate (points Q s nx ny) (fun p =>
    let e := plate_kG_strain Bs s cs col0 NL p in
    let Fp := F (p_x p) (p_y p) in
    loop_jlik true row0 col0 (sh_m s) (sh_n s) (sh_m s) (sh_n s)
      (plate_fkG_num_ker Bs s (p_xi p) (p_eta p) (p_w p) (p_intx p) (p_inty p)
         (plate_fkG_num_Nxx Nxx0 Nyy0 Nxy0 Fp (e 0%nat) (e 1%nat) (e 2%nat) (e 3%nat) (e 4%nat) (e 5%nat))
         (plate_fkG_num_Nyy Nxx0 Nyy0 Nxy0 Fp (e 0%nat) (e 1%nat) (e 2%nat) (e 3%nat) (e 4%nat) (e 5%nat))
         (plate_fkG_num_Nxy Nxx0 Nyy0 Nxy0 Fp (e 0%nat) (e 1%nat) (e 2%nat) (e 3%nat) (e 4%nat) (e 5%nat)))))
    (sel_F nx ny Fi).

(* cylshell_..._num.pyx:286-518 fkG_num *)
Definition cyl_fkG_num (Q : rule) (Bs : basis) (cs : nat -> R) (Fi : finput) (s : shell)
    (row0 col0 nx ny : nat) (NL : bool) (Nxx0 Nyy0 Nxy0 : R) : res coo :=
  rmap (fun F => accumulate (points Q s nx ny) (fun p =>
    let e := cyl_kG_strain Bs s cs col0 NL p in
    let Fp := F (p_x p) (p_y p) in
    loop_jlik true row0 col0 (sh_m s) (sh_n s) (sh_m s) (sh_n s)
      (cyl_fkG_num_ker Bs s (p_xi p) (p_eta p) (p_w p) (p_intx p) (p_inty p)
         (cyl_fkG_num_Nxx Nxx0 Nyy0 Nxy0 Fp (e 0%nat) (e 1%nat) (e 2%nat) (e 3%nat) (e 4%nat) (e 5%nat))
         (cyl_fkG_num_Nyy Nxx0 Nyy0 Nxy0 Fp (e 0%nat) (e 1%nat) (e 2%nat) (e 3%nat) (e 4%nat) (e 5%nat))
         (cyl_fkG_num_Nxy Nxx0 Nyy0 Nxy0 Fp (e 0%nat) (e 1%nat) (e 2%nat) (e 3%nat) (e 4%nat) (e 5%nat)))))
    (sel_F nx ny Fi).

(* plate_..._num.pyx:519-710 fkM_num; cylshell_..._num.pyx:521-524 calls the plate version *)
Definition plate_fkM_num (Q : rule) (Bs : basis) (s : shell) (offset : R) (H : hrho)
    (row0 col0 nx ny : nat) : res coo :=
  rmap (fun hr => accumulate (points Q s nx ny) (fun p =>
    loop_ikjl true row0 col0 (sh_m s) (sh_n s) (sh_m s) (sh_n s)
      (plate_fkM_num_ker Bs s (p_xi p) (p_eta p) (p_w p) (p_intx p) (p_inty p)
         (fst (hr (p_x p) (p_y p))) (snd (hr (p_x p) (p_y p))) offset))) (sel_hrho nx ny H).
Definition cyl_fkM_num := plate_fkM_num.

(* plate_..._num.pyx:713-826 fkAx_num, :829-940 fkAy_num; cylshell_..._num.pyx:527-640 fkAx_num,
   :643-645 fkAy_num (calls the plate version) *)
Definition plate_fkAx_num (Q : rule) (Bs : basis) (s : shell) (row0 col0 nx ny : nat) : coo :=
  accumulate (points Q s nx ny) (fun p =>
    loop_ikjl true row0 col0 (sh_m s) (sh_n s) (sh_m s) (sh_n s)
      (plate_fkAx_num_ker Bs s (p_xi p) (p_eta p) (p_w p) (p_intx p) (p_inty p))).
Definition plate_fkAy_num (Q : rule) (Bs : basis) (s : shell) (row0 col0 nx ny : nat) : coo :=
  accumulate (points Q s nx ny) (fun p =>
    loop_ikjl true row0 col0 (sh_m s) (sh_n s) (sh_m s) (sh_n s)
      (plate_fkAy_num_ker Bs s (p_xi p) (p_eta p) (p_w p) (p_intx p) (p_inty p))).
Definition cyl_fkAx_num (Q : rule) (Bs : basis) (s : shell) (row0 col0 nx ny : nat) : coo :=
  accumulate (points Q s nx ny) (fun p =>
    loop_ikjl true row0 col0 (sh_m s) (sh_n s) (sh_m s) (sh_n s)
      (cyl_fkAx_num_ker Bs s (p_xi p) (p_eta p) (p_w p) (p_intx p) (p_inty p))).
Definition cyl_fkAy_num := plate_fkAy_num.

(* Strains accumulated by calc_fint (plate_..._num.pyx:1096-1133), always with the nonlinear terms *)
Definition plate_fint_strain (Bs : basis) (s : shell) (cs : nat -> R) (col0 : nat) (p : point) (k : nat) : R :=
  let wxi := wxi_at Bs s cs col0 true p in
  let weta := weta_at Bs s cs col0 true p in
  match k with
  | 0%nat => sum_terms s (plate_calc_fint_exx_term Bs s cs col0 (p_xi p) (p_eta p) wxi weta)
  | 1%nat => sum_terms s (plate_calc_fint_eyy_term Bs s cs col0 (p_xi p) (p_eta p) wxi weta)
  | 2%nat => sum_terms s (plate_calc_fint_gxy_term Bs s cs col0 (p_xi p) (p_eta p) wxi weta)
  | 3%nat => sum_terms s (plate_calc_fint_kxx_term Bs s cs col0 (p_xi p) (p_eta p) wxi weta)
  | 4%nat => sum_terms s (plate_calc_fint_kyy_term Bs s cs col0 (p_xi p) (p_eta p) wxi weta)
  | _ => sum_terms s (plate_calc_fint_kxy_term Bs s cs col0 (p_xi p) (p_eta p) wxi weta)
  end.
(* cylshell_..._num.pyx:803-838 *)
Definition cyl_fint_strain (Bs : basis) (s : shell) (cs : nat -> R) (col0 : nat) (p : point) (k : nat) : R :=
  let wxi := wxi_at Bs s cs col0 true p in
  let weta := weta_at Bs s cs col0 true p in
  match k with
  | 0%nat => sum_terms s (cyl_calc_fint_exx_term Bs s cs col0 (p_xi p) (p_eta p) wxi weta)
  | 1%nat => sum_terms s (cyl_calc_fint_eyy_term Bs s cs col0 (p_xi p) (p_eta p) wxi weta)
  | 2%nat => sum_terms s (cyl_calc_fint_gxy_term Bs s cs col0 (p_xi p) (p_eta p) wxi weta)
  | 3%nat => sum_terms s (cyl_calc_fint_kxx_term Bs s cs col0 (p_xi p) (p_eta p) wxi weta)
  | 4%nat => sum_terms s (cyl_calc_fint_kyy_term Bs s cs col0 (p_xi p) (p_eta p) wxi weta)
  | _ => sum_terms s (cyl_calc_fint_kxy_term Bs s cs col0 (p_xi p) (p_eta p) wxi weta)
  end.

(* A vector built by `v[k] += x` updates on zeros, in the order of the updates *)
Definition updates : Type := list (nat * R).
Definition vdense (u : updates) (r : nat) : R :=
  suml u (fun t => if (fst t =? r)%nat then snd t else 0).

(* plate_..._num.pyx:943-1167 calc_fint *)
Definition plate_calc_fint (Q : rule) (Bs : basis) (cs : nat -> R) (Fi : finput) (s : shell)
    (col0 nx ny : nat) : res updates :=
  rmap (fun F => flat_map (fun p =>
    let e := plate_fint_strain Bs s cs col0 p in
    let Fp := F (p_x p) (p_y p) in
    let N f := f Fp (e 0%nat) (e 1%nat) (e 2%nat) (e 3%nat) (e 4%nat) (e 5%nat) in
    flat_map (fun j => flat_map (fun i =>
      map (fun t => ((dofpos col0 (sh_m s) i j + fst t)%nat, snd t))
        (plate_calc_fint_ker Bs s (p_xi p) (p_eta p) (p_w p) (p_intx p) (p_inty p)
           (wxi_at Bs s cs col0 true p) (weta_at Bs s cs col0 true p)
           (N plate_calc_fint_Nxx) (N plate_calc_fint_Nyy) (N plate_calc_fint_Nxy)
           (N plate_calc_fint_Mxx) (N plate_calc_fint_Myy) (N plate_calc_fint_Mxy) i j))
      (seq 0 (sh_m s))) (seq 0 (sh_n s))) (points Q s nx ny)) (sel_F nx ny Fi).

(* cylshell_..._num.pyx:648-871 calc_fint *)
Definition cyl_calc_fint (Q : rule) (Bs : basis) (cs : nat -> R) (Fi : finput) (s : shell)
    (col0 nx ny : nat) : res updates :=
  rmap (fun F => flat_map (fun p =>
    let e := cyl_fint_strain Bs s cs col0 p in
    let Fp := F (p_x p) (p_y p) in
    let N f := f Fp (e 0%nat) (e 1%nat) (e 2%nat) (e 3%nat) (e 4%nat) (e 5%nat) in
    flat_map (fun j => flat_map (fun i =>
      map (fun t => ((dofpos col0 (sh_m s) i j + fst t)%nat, snd t))
        (cyl_calc_fint_ker Bs s (p_xi p) (p_eta p) (p_w p) (p_intx p) (p_inty p)
           (wxi_at Bs s cs col0 true p) (weta_at Bs s cs col0 true p)
           (N cyl_calc_fint_Nxx) (N cyl_calc_fint_Nyy) (N cyl_calc_fint_Nxy)
           (N cyl_calc_fint_Mxx) (N cyl_calc_fint_Myy) (N cyl_calc_fint_Mxy) i j))
      (seq 0 (sh_m s))) (seq 0 (sh_n s))) (points Q s nx ny)) (sel_F nx ny Fi).
