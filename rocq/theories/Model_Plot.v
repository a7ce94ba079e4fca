(* Fields kept on a Shell object, and the data of the contour plots. Models /repo/panels/shell.py uvw, strain,
   stress and _clear_matrices as far as plot_mesh and fields are concerned, /repo/panels/plot_shell.py and
   MultiDomain.plot of /repo/panels/multidomain/multidomain.py. Definitions only.
   Not modelled: what matplotlib does with the data (levels, colours, axes, files). *)
From Coq Require Import Reals List Arith Bool String.
From Verif Require Import Model_Types Model_Result Model_DB Model_Shell Model_Field Model_Multi.
Import ListNotations.
Open Scope R_scope.

(* ------------------------------------------------- dictionaries *)
Definition dict : Type := string -> option ndarray.
Definition no_fields : dict := fun _ => None.
(* plot_mesh: Xs and Ys *)
Definition mesh : Type := option ndarray * option ndarray.
(* The dictionaries of the program, by location. A Shell object holds the locations of its own two, and
   the methods return these, so that the caller and the object share them. *)
Record heap := mkHeap { hp_fields : nat -> dict; hp_mesh : nat -> mesh; hp_next : nat }.
Record field_object := mkFobject { fo_panel : panel; fo_cores : nat; fo_fields : nat; fo_mesh : nat }.
Definition set_fields (H : heap) (l : nat) (d : dict) : heap :=
  mkHeap (fun l' => if (l' =? l)%nat then d else hp_fields H l') (hp_mesh H) (hp_next H).
Definition set_mesh (H : heap) (l : nat) (m : mesh) : heap :=
  mkHeap (hp_fields H) (fun l' => if (l' =? l)%nat then m else hp_mesh H l') (hp_next H).

(* position of a name in a list *)
Fixpoint pos (n : string) (l : list string) : option nat :=
  match l with
  | [] => None
  | m :: l => if String.eqb n m then Some 0%nat else option_map S (pos n l)
  end.
(* self.fields[names[k]] = vs[k].reshape(shape) *)
Definition put_fields (d : dict) (names : list string) (shape : list nat) (vs : list (list R)) : dict := fun n =>
  match pos n names with Some k => Some (shape, nth k vs []) | None => d n end.

Definition displ_names : list string := ["u"; "v"; "w"; "phix"; "phiy"]%string.
Definition strain_names : list string := ["exx"; "eyy"; "gxy"; "kxx"; "kyy"; "kxy"]%string.
Definition stress_names : list string := ["Nxx"; "Nyy"; "Nxy"; "Mxx"; "Myy"; "Mxy"]%string.

(* shell.py:227-238 _clear_matrices: new dictionaries *)
Definition obj_clear (o : field_object) (H : heap) : field_object * heap :=
  let l := hp_next H in
  (mkFobject (fo_panel o) (fo_cores o) l l,
   mkHeap (fun l' => if (l' =? l)%nat then no_fields else hp_fields H l')
          (fun l' => if (l' =? l)%nat then (None, None) else hp_mesh H l') (S l)).

Section Calls.
Variables (sched : scheduler) (Bs : basis).
Definition keep (o : field_object) (H : heap) (names : list string) (XYf : (ndarray * ndarray) * list (list R)) : heap :=
  let '((X, Y), f) := XYf in
  set_fields (set_mesh H (fo_mesh o) (Some X, Some Y)) (fo_fields o) (put_fields (hp_fields H (fo_fields o)) names (fst X) f).
(* shell.py:306-322 _default_field: the mesh is kept before anything is calculated *)
Definition begin (o : field_object) (xs ys : option ndarray) (gx gy : nat) (H : heap) : heap :=
  match default_field (pn_sh (fo_panel o)) xs ys gx gy with
  | Err _ => H
  | Ok (X, Y) => set_mesh H (fo_mesh o) (Some X, Some Y)
  end.
(* shell.py:735-750 uvw *)
Definition obj_uvw (o : field_object) (c : list R) (xs ys : option ndarray) (gx gy : nat) (H : heap) : heap * res (nat * nat) :=
  match snd (shell_uvw sched Bs (fo_cores o) c xs ys gx gy (fo_panel o)) with
  | Err e => (begin o xs ys gx gy H, Err e)
  | Ok r => (keep o H displ_names r, Ok (fo_mesh o, fo_fields o))
  end.
(* shell.py:782-796 strain *)
Definition obj_strain (o : field_object) (c : list R) (xs ys : option ndarray) (gx gy : nat) (NL : bool) (H : heap) : heap * res (nat * nat) :=
  match snd (shell_strain sched Bs (fo_cores o) c xs ys gx gy NL (fo_panel o)) with
  | Err e => (begin o xs ys gx gy H, Err e)
  | Ok r => (keep o H strain_names r, Ok (fo_mesh o, fo_fields o))
  end.
(* shell.py:829-852 stress: the strains are kept before the matrix is looked for *)
Definition obj_stress (o : field_object) (c : list R) (ABD : option (nat -> nat -> R)) (xs ys : option ndarray) (gx gy : nat) (NL : bool) (H : heap)
    : heap * res (nat * nat) :=
  match obj_strain o c xs ys gx gy NL H with
  | (H1, Err e) => (H1, Err e)
  | (H1, Ok _) =>
    match snd (shell_stress sched Bs (fo_cores o) c ABD xs ys gx gy NL (fo_panel o)) with
    | Err e => (H1, Err e)
    | Ok r => (keep o H1 stress_names r, Ok (fo_mesh o, fo_fields o))
    end
  end.

(* ------------------------------------------------- plot_shell.py *)
(* the names accepted: plot_shell.py:104-106 and multidomain.py:220-222 *)
Definition plot_displs : list string := displ_names.
Definition plot_strains : list string := strain_names ++ ["gyz"%string; "gxz"%string].
Definition plot_stresses : list string := stress_names ++ ["Qy"%string; "Qx"%string].
Definition in_names (n : string) (l : list string) : bool := existsb (String.eqb n) l.
(* arr.min() and arr.max(): ValueError for an empty array *)
Definition arr_min (l : list R) : res R := match l with [] => Err ValueError | x :: l => Ok (fold_left Rmin l x) end.
Definition arr_max (l : list R) : res R := match l with [] => Err ValueError | x :: l => Ok (fold_left Rmax l x) end.
Definition bound (given : option R) (calc : list R -> res R) (l : list R) : res R :=
  match given with Some v => Ok v | None => calc l end.
(* what is handed to matplotlib: horizontal and vertical positions, values, and the limits of the scale *)
Record plotted := mkPlotted { pl_x : list R; pl_y : list R; pl_field : ndarray; pl_min : R; pl_max : R }.
Definition add_const (k : R) (l : list R) : list R := map (fun x => x + k) l.
Definition add_scaled (k : R) (f l : list R) : list R := map (fun q => nth q l 0 + k * nth q f 0) (seq 0 (List.length l)).

(* plot_shell.py:107-115 *)
Definition plot_calc (o : field_object) (c : list R) (vec : string) (xs ys : option ndarray) (gx gy : nat) (NL : bool) (H : heap) : heap * res unit :=
  let drop {A} (r : heap * res A) : heap * res unit := (fst r, match snd r with Ok _ => Ok tt | Err e => Err e end) in
  if in_names vec plot_displs then drop (obj_uvw o c xs ys gx gy H)
  else if in_names vec plot_strains then drop (obj_strain o c xs ys gx gy true H)   (* NLgeom is not passed on *)
  else if in_names vec plot_stresses then drop (obj_stress o c None xs ys gx gy NL H)
  else (H, Err ValueError).
(* plot_shell.py:210-212: the fields that were there before are put back *)
Definition restore (bkp d : dict) : dict := fun n => match bkp n with Some v => Some v | None => d n end.
(* plot_shell.py:99-216. off_x, off_y: plot_offset_x and plot_offset_y; deform: deform_u_sf when deform_u
   is true. A field that is None has no min(): AttributeError
   (simplified: also when both limits are given, where matplotlib fails later) *)
Definition plot_shell (o : field_object) (c : list R) (vec : string) (deform : option R) (xs ys : option ndarray) (gx gy : nat)
    (vmin vmax : option R) (off_x off_y : R) (NL : bool) (H : heap) : heap * res plotted :=
  let bkp := hp_fields H (fo_fields o) in
  match plot_calc o c vec xs ys gx gy NL H with
  | (H1, Err e) => (H1, Err e)
  | (H1, Ok _) =>
    match hp_fields H1 (fo_fields o) vec, hp_mesh H1 (fo_mesh o) with
    | Some f, (Some X, Some Y) =>
      match bound vmin arr_min (snd f), bound vmax arr_max (snd f) with
      | Ok lo, Ok hi =>
        let y0 := add_const off_x (snd X) in
        let x0 := add_const off_y (snd Y) in
        let '(H2, r2) := match deform with
          | None => (H1, Ok (x0, y0))
          | Some sf =>
            let '(H2, r) := if in_names vec plot_displs then (H1, Ok tt)
                            else let '(H2, r) := obj_uvw o c xs ys gx gy H1 in (H2, match r with Ok _ => Ok tt | Err e => Err e end) in
            match r, hp_fields H2 (fo_fields o) "u"%string, hp_fields H2 (fo_fields o) "v"%string with
            | Ok _, Some u, Some v => (H2, Ok (add_scaled sf (snd v) x0, add_scaled (- sf) (snd u) y0))
            | Err e, _, _ => (H2, Err e)
            | _, _, _ => (H2, Err TypeError)
            end
          end in
        match r2 with
        | Err e => (H2, Err e)
        | Ok xy => (set_fields H2 (fo_fields o) (restore bkp (hp_fields H2 (fo_fields o))), Ok (mkPlotted (fst xy) (snd xy) f lo hi))
        end
      | Err e, _ => (H1, Err e)
      | _, Err e => (H1, Err e)
      end
    | _, _ => (H1, Err AttributeError)
    end
  end.
End Calls.

(* ------------------------------------------------- MultiDomain.plot *)
(* multidomain.py:224-259 with calc_data_only: the limits of the scale. gauss: use_gauss_points; xs and ys are
   accepted and not used. A component that is not in the dictionary: KeyError *)
Definition component (k : nat) (fs : list mfield) : list R := flat_map (fun f => nth k (snd f) []) fs.
Definition asm_plot_data (sched : scheduler) (Bv : basis) (c : list R) (group : nat) (vec : string) (xs ys : option ndarray) (gx gy : nat)
    (gauss : bool) (xg yg : option (list R)) (vmin vmax : option R) : amethod (R * R) :=
  let limits (names : list string) (fs : list mfield) : amethod (R * R) :=
    match pos vec names with
    | None => araise KeyError
    | Some k =>
      go lo <- alift (bound vmin arr_min (component k fs));
      go hi <- alift (bound vmax arr_max (component k fs));
      aret (lo, hi)
    end in
  if in_names vec plot_displs then
    go fs <- (if gauss then asm_uvw_gauss sched Bv c group xg yg else asm_uvw sched Bv c group gx gy); limits displ_names fs
  else if in_names vec plot_strains then
    go fs <- (if gauss then asm_strain_gauss sched Bv c group xg yg true else asm_strain sched Bv c group gx gy true); limits strain_names fs
  else if in_names vec plot_stresses then
    go fs <- (if gauss then asm_stress_gauss sched Bv c group xg yg true else asm_stress sched Bv c group gx gy true); limits stress_names fs
  else araise ValueError.
