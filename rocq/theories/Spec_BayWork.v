(* The work of the parts of a stiffened bay, for constants c and virtual constants d. *)
From Coq Require Import Reals List Arith.
From Coquelicot Require Import Coquelicot.
From Verif Require Import Base_Sum Model_Types Model_Coo Model_Result Model_Num Model_Shell Model_Fext Model_Multi Model_Bay
  Spec_Algebra Spec_Panel Spec_Shell Spec_Kinematics Spec_Quadrature Spec_Integral Spec_Fext Spec_Conn Spec_Multi Spec_Stiff Spec_Bay.
Import ListNotations.
Open Scope R_scope.

(* of a panel: what the matrix it returns alone does *)
Definition own_work (alone : nat -> nat -> panel -> matrix -> Prop) (N o : nat) (p : panel) (c d : nat -> R) (W : R) : Prop :=
  exists K, alone N o p K /\ W = bilinear N K c d.

(* of a 1D blade stiffener: the pad is a panel of its own; the flange works along the line y = ys *)
Definition stiff1_work (V : benv) (B : bay) (N : nat) (c d : nat -> R) (s : stiff1) (W : R) : Prop :=
  exists h Wb Wf, beside B (s1_p1 s) (s1_p2 s) h /\
  match s1_bdef s with
  | None => Wb = 0
  | Some D => own_work (alone_kC (b_env V)) N 0 (base_shell B D (s1_rho s) h (s1_ys s) (s1_bb s)) c d Wb
  end /\
  match s1_fdef s with
  | None => Wf = 0
  | Some D =>
    let l := b_plies V (ld_stack D) (ld_plyts D) (ld_props D) in
    line_work (by_sh B) (s1_ys s)
      (flange_work (e_basis (b_env V)) (by_sh B) (s1_bf s) (flange_axis s h) (flange_E1 l) (s1_bf s ^ 2 / 12 * flange_E1 l)
         (flange_S1 l) (flange_torsion s) c d) Wf
  end /\
  W = Wb + Wf.
(* in the geometric stiffness: only the axial force in the flange *)
Definition stiff1_geo (V : benv) (B : bay) (c d : nat -> R) (s : stiff1) (W : R) : Prop :=
  match s1_fdef s with
  | None => W = 0
  | Some _ => line_work (by_sh B) (s1_ys s) (flange_force_work (e_basis (b_env V)) (by_sh B) (default 0 (s1_Fx s)) c d) W
  end.
(* in the mass matrix: what the program integrates, with sixth for its literal 0.166666666666667. The
   kinetic energy of the flange is flange_kinetic *)
Definition sixth : R := 166666666666667 / 1000000000000000.
Definition flange_inertia (Bs : basis) (s : shell) (rho h hf bf df : R) (c d : nat -> R) (xi eta : R) : R :=
  let u c := d_u Bs s c xi eta in let v c := d_v Bs s c xi eta in let w c := d_w Bs s c xi eta in
  let wx c := d_wx Bs s c xi eta in let wy c := d_wy Bs s c xi eta in
  let I := sixth / 2 * (4 * (bf * bf) + 6 * bf * h + 3 * h ^ 2) in
  rho * hf * bf * (u c * u d + v c * v d + 6 * sixth * (w c * w d)
    + 2 * df * (u c * wx d + wx c * u d) + 2 * df * (v c * wy d + wy c * v d)
    + I * (wx c * wx d + wy c * wy d)).
Definition stiff1_inertia (V : benv) (B : bay) (c d : nat -> R) (s : stiff1) (W : R) : Prop :=
  exists h, beside B (s1_p1 s) (s1_p2 s) h /\
  match s1_fdef s with
  | None => W = 0
  | Some D => line_work (by_sh B) (s1_ys s)
      (flange_inertia (e_basis (b_env V)) (by_sh B) (s1_rho s) h (lam_height (s1_fdef s)) (s1_bf s) (flange_axis s h) c d) W
  end.

(* of a 2D blade stiffener whose flange has its constants from o on: the pad and the flange as panels,
   and the springs that keep the root of the flange on the line y = ys of the skin. The stiffness of the
   springs is that of a connection between the flange and the pad or, without a pad, the first panel *)
Definition root_laminate (V : benv) (B : bay) (s : stiff2) (l : laminate) : Prop :=
  match s2_base s with
  | Some b => l = rebuilt_lam (b_env V) b
  | None => exists p, nth_error (by_panels B) (s2_p1 s) = Some p /\ l = rebuilt_lam (b_env V) p
  end.
Definition stiff2_work (V : benv) (B : bay) (N : nat) (c d : nat -> R) (o : nat) (s : stiff2) (W : R) : Prop :=
  let E := b_env V in
  exists Wb Wq Wj,
  match s2_base s with None => Wb = 0 | Some b => own_work (alone_kC E) N 0 b c d Wb end /\
  match s2_flange s with
  | None => Wq = 0 /\ Wj = 0
  | Some q =>
    own_work (alone_kC E) N o q c d Wq /\
    exists l kt kr, root_laminate V B s l /\ kt_kr Ycte l (rebuilt_lam E q) 0 0 = (kt, Some kr) /\
    work_along_x (jumps_BFycte kt kr) (by_sh B) (pn_sh q) (s2_ys s) 0
      (ritz_field (e_basis E) (by_sh B) c) (ritz_field (e_basis E) (pn_sh q) (own o c))
      (ritz_field (e_basis E) (by_sh B) d) (ritz_field (e_basis E) (pn_sh q) (own o d)) Wj
  end /\
  W = Wb + Wq + Wj.
Definition stiff2_geo (V : benv) (N : nat) (c d : nat -> R) (o : nat) (s : stiff2) (W : R) : Prop :=
  match s2_flange s with None => W = 0 | Some q => own_work (alone_kG (b_env V) None) N o q c d W end.
(* the kinetic energy of the pad and of the flange as panels; the literal is the program's 1/12 *)
Definition panel_inertia (E : env) (o : nat) (p : panel) (c d : nat -> R) (W : R) : Prop :=
  panel_integral (kernel_view p) (kinetic (e_basis E) (kernel_view p) (833333333333333 / 10000000000000000) (suml (pn_plyts p) (fun t => t)) (pn_rho p) (pn_offset p) (own o c) (own o d)) W.
Definition stiff2_inertia (V : benv) (c d : nat -> R) (o : nat) (s : stiff2) (W : R) : Prop :=
  exists Wb Wq,
  match s2_base s with None => Wb = 0 | Some b => panel_inertia (b_env V) 0 b c d Wb end /\
  match s2_flange s with None => Wq = 0 | Some q => panel_inertia (b_env V) o q c d Wq end /\
  W = Wb + Wq.

(* the list Ws holds the work of each 2D stiffener, at its slice of the constants *)
Definition at_slices (B : bay) (P : nat -> stiff2 -> R -> Prop) (Ws : list R) : Prop :=
  length Ws = length (by_s2 B) /\
  forall j s W, nth_error (by_s2 B) j = Some s -> nth_error Ws j = Some W -> P (slice_of B j) s W.
Definition total_work (Ws : list R) : R := suml Ws (fun W => W).

(* the tables of integrals are right for every term used; lengths are not zero *)
Definition bay_terms (B : bay) (n : nat) : Prop :=
  (sh_m (by_sh B) <= n)%nat /\ (sh_n (by_sh B) <= n)%nat /\
  forall s q, In s (by_s2 B) -> s2_flange s = Some q -> (sh_m (pn_sh q) <= n)%nat /\ (sh_n (pn_sh q) <= n)%nat.
Definition bay_lengths (B : bay) : Prop :=
  sh_a (by_sh B) <> 0 /\ sh_b (by_sh B) <> 0 /\ forall s q, In s (by_s2 B) -> s2_flange s = Some q -> sh_b (pn_sh q) <> 0.

(* A bay that has everything its calls need: complete panels of one kind with the series of the bay,
   complete laminates of the pads and flanges, and stiffeners that lie between panels of the bay. *)
Definition lam_ready (D : lamdef) : Prop := ld_stack D <> [] /\ ld_props D <> [] /\ ld_plyts D <> [].
Definition part_ready (p : panel) : Prop := complete p /\ pn_N_cte p = (0, 0, 0).
Record bay_ready (B : bay) : Prop := {
  rd_some : by_panels B <> [];
  rd_parts : forall p, In p (by_panels B) -> part_ready p /\ sh_m (pn_sh p) = sh_m (by_sh B) /\ sh_n (pn_sh p) = sh_n (by_sh B);
  rd_one : forall p q, In p (by_panels B) -> In q (by_panels B) -> pn_r p = pn_r q /\ chosen_model p = chosen_model q;
  rd_model : forall p, In p (by_panels B) -> by_model B = None \/ by_model B = Some (Known (chosen_model p));
  rd_s1 : forall s, In s (by_s1 B) -> (s1_p1 s < length (by_panels B))%nat /\ (s1_p2 s < length (by_panels B))%nat /\
    forall D, s1_bdef s = Some D -> lam_ready D;
  rd_s2 : forall s, In s (by_s2 B) -> (s2_p1 s < length (by_panels B))%nat /\ (s2_p2 s < length (by_panels B))%nat /\
    (forall b, s2_base s = Some b -> part_ready b) /\
    exists q mdl, s2_flange s = Some q /\ part_ready q /\ pn_model q = Some (Known mdl) }.
