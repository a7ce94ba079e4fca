(* Vocabulary for the fields kept on an object and for the contour plots. *)
From Coq Require Import Reals List Arith Bool String.
From Verif Require Import Model_Types Model_Result Model_DB Model_Shell Model_Field Model_Multi Model_Plot.
Import ListNotations.
Open Scope R_scope.

(* the components in the order of the results of uvw, strain and stress *)
Definition uvw_components : list string := ["u"; "v"; "w"; "phix"; "phiy"]%string.
Definition strain_components : list string := ["exx"; "eyy"; "gxy"; "kxx"; "kyy"; "kxy"]%string.
Definition stress_components : list string := ["Nxx"; "Nyy"; "Nxy"; "Mxx"; "Myy"; "Mxy"]%string.

(* (X, Y) is the mesh and v are the values of the component vec that a direct call of uvw, strain or stress with
   these arguments gives *)
Definition component_of (sched : scheduler) (Bs : basis) (o : field_object) (c : list R) (ABD : option (nat -> nat -> R)) (vec : string)
    (xs ys : option ndarray) (gx gy : nat) (NL : bool) (X Y v : ndarray) : Prop :=
  exists k vs, v = (fst X, nth k vs []) /\
   ((nth_error uvw_components k = Some vec /\ snd (shell_uvw sched Bs (fo_cores o) c xs ys gx gy (fo_panel o)) = Ok ((X, Y), vs))
    \/ (nth_error strain_components k = Some vec /\ snd (shell_strain sched Bs (fo_cores o) c xs ys gx gy NL (fo_panel o)) = Ok ((X, Y), vs))
    \/ (nth_error stress_components k = Some vec /\ snd (shell_stress sched Bs (fo_cores o) c ABD xs ys gx gy NL (fo_panel o)) = Ok ((X, Y), vs))).

(* what a caller sees through the two dictionaries a call returned *)
Definition seen (H : heap) (r : nat * nat) : mesh * dict := (hp_mesh H (fst r), hp_fields H (snd r)).

(* one of the calls that use the dictionaries *)
Inductive call : Type :=
  | CUvw (o : field_object) (c : list R) (xs ys : option ndarray) (gx gy : nat)
  | CStrain (o : field_object) (c : list R) (xs ys : option ndarray) (gx gy : nat) (NL : bool)
  | CStress (o : field_object) (c : list R) (ABD : option (nat -> nat -> R)) (xs ys : option ndarray) (gx gy : nat) (NL : bool)
  | CPlot (o : field_object) (c : list R) (vec : string) (deform : option R) (xs ys : option ndarray) (gx gy : nat)
      (vmin vmax : option R) (off_x off_y : R) (NL : bool).
Definition callee (k : call) : field_object :=
  match k with CUvw o _ _ _ _ _ => o | CStrain o _ _ _ _ _ _ => o | CStress o _ _ _ _ _ _ _ => o | CPlot o _ _ _ _ _ _ _ _ _ _ _ _ => o end.
Definition run_call (sched : scheduler) (Bs : basis) (H : heap) (k : call) : heap :=
  match k with
  | CUvw o c xs ys gx gy => fst (obj_uvw sched Bs o c xs ys gx gy H)
  | CStrain o c xs ys gx gy NL => fst (obj_strain sched Bs o c xs ys gx gy NL H)
  | CStress o c ABD xs ys gx gy NL => fst (obj_stress sched Bs o c ABD xs ys gx gy NL H)
  | CPlot o c vec d xs ys gx gy lo hi ox oy NL => fst (plot_shell sched Bs o c vec d xs ys gx gy lo hi ox oy NL H)
  end.

(* smallest and largest element *)
Definition least (l : list R) (v : R) : Prop := In v l /\ forall x, In x l -> v <= x.
Definition greatest (l : list R) (v : R) : Prop := In v l /\ forall x, In x l -> x <= v.
Definition limit (given : option R) (P : R -> Prop) (v : R) : Prop := match given with Some g => v = g | None => P v end.

(* multidomain.py uvw, strain, stress and their variants at Gauss points: the call with the component vec, as number k *)
Definition group_call (sched : scheduler) (Bv : basis) (c : list R) (group : nat) (vec : string) (gx gy : nat) (gauss : bool) (xg yg : option (list R))
    (k : nat) (m : amethod (list mfield)) : Prop :=
  (nth_error uvw_components k = Some vec /\ m = if gauss then asm_uvw_gauss sched Bv c group xg yg else asm_uvw sched Bv c group gx gy)
  \/ (nth_error strain_components k = Some vec /\ m = if gauss then asm_strain_gauss sched Bv c group xg yg true else asm_strain sched Bv c group gx gy true)
  \/ (nth_error stress_components k = Some vec /\ m = if gauss then asm_stress_gauss sched Bv c group xg yg true else asm_stress sched Bv c group gx gy true).
