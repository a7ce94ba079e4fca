(* What a Shell object uses when a matrix is requested, said in terms of its attributes and of the
   arguments of the call. *)
From Coq Require Import Reals List Arith Bool.
From Verif Require Import Base_Sum Model_Types Model_Num Model_DB Model_Shell Spec_Panel.
Import ListNotations.
Open Scope R_scope.

(* the model used by a panel: the given one, otherwise chosen by the radius *)
Definition chosen_model (p : panel) : model :=
  match pn_model p with
  | Some (Known m) => m
  | _ => match pn_r p with None => PlateModel | Some _ => CylModel end
  end.

(* lamina properties, densities and ply thicknesses: the per-ply lists, or the single value repeated
   for every ply *)
Definition rebuilt_props (p : panel) := match pn_laminaprops p with [] => map (fun _ => pn_laminaprop p) (pn_stack p) | l => l end.
Definition rebuilt_rhos (p : panel) := match pn_rhos p with [] => map (fun _ => pn_rho p) (pn_stack p) | l => l end.
Definition rebuilt_plyts (p : panel) :=
  match pn_plyts p with [] => map (fun _ => default 0 (pn_plyt p)) (pn_stack p) | l => l end.
Definition rebuilt_lam (E : env) (p : panel) : laminate :=
  e_lib E (pn_stack p) (rebuilt_plyts p) (rebuilt_props p) (rebuilt_rhos p) (pn_offset p).

(* the laminate matrix: the one given, else that of the stacking sequence *)
Definition laminate_used (E : env) (A : kargs) (p : panel) : finput :=
  match ka_F A with
  | Some F => F
  | None => FMat (lam_matrix (pn_ortho p) (rebuilt_lam E p))
  end.

(* numbers of integration points: those given, else the larger of the panel's own and the number of terms *)
Definition points_x (A : kargs) (p : panel) : nat := default (Nat.max (pn_nx p) (sh_m (pn_sh p))) (ka_nx A).
Definition points_y (A : kargs) (p : panel) : nat := default (Nat.max (pn_ny p) (sh_n (pn_sh p))) (ka_ny A).

(* the Ritz vector given as an argument; 0 when there is none *)
Definition given_vector (o : option carg) : nat -> R :=
  match o with Some (CVec l) => vec l | _ => fun _ => 0 end.

(* number of rows and columns of the matrix requested *)
Definition size_value (a : size_arg) (s : shell) : nat :=
  match a with
  | SNone => (3 * sh_m s * sh_n s)%nat
  | SInt n => n
  | SStr k => (k + 3 * sh_m s * sh_n s)%nat
  end.


(* the vector c + t d *)
Definition along (c : list R) (t : R) (d : list R) : list R := map (fun x => fst x + t * snd x) (combine c d).

(* what calc_fint uses: the attributes the panel has at the time of the call *)
Definition fint_laminate (Fo : option finput) (p : panel) : finput :=
  match Fo with Some F => F | None => match pn_ABD p with Some F => FMat F | None => FOther end end.

(* a panel with everything needed to build its laminate *)
Definition complete (p : panel) : Prop :=
  pn_model p <> Some Unknown /\ pn_stack p <> [] /\
  (pn_laminaprops p <> [] \/ pn_laminaprop p <> []) /\ (pn_plyts p <> [] \/ pn_plyt p <> None).

(* the array of laminates, if any, has the shape of the integration grid *)
Definition laminate_shape (nx ny : nat) (Fo : option finput) : Prop :=
  match Fo with
  | None => True
  | Some (FMat _) => True
  | Some (FPts px py _) => px = nx /\ py = ny
  | Some FOther => False
  end.

(* the vector, if any, has the size of the matrix *)
Definition vector_ok (size : nat) (c : option carg) : Prop :=
  match c with None => True | Some (CVec l) => length l = size | Some _ => False end.
