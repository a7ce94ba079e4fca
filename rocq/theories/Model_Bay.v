(* Blade stiffeners and stiffened panel bays. Models /repo/panels/stiffener/bladestiff1d.py,
   bladestiff2d.py and /repo/panels/stiffpanelbay/stiffpanelbay.py. Definitions only.
   Not modelled: plotting, saving, the lists tstiff2ds (no method adds to them), the attributes given
   through **kwargs, and a, b, rho, bb, bf left at None. *)
From Coq Require Import Reals List Arith Bool.
From Verif Require Import Base_Sum Model_Types Model_Coo Model_Result Model_Num Model_DB Model_Shell Model_Field Model_Fext Model_Multi Model_New Model_StiffKer.
Import ListNotations.
Open Scope R_scope.

(* External library `composites`: the plies of laminated_plate(stack, plyts, laminaprops), their
   thickness and stiffnesses q11L, q12L, q22L, q16L. Not modelled: an arbitrary function. *)
Record ply := mkPly { ply_h : R; ply_q11 : R; ply_q12 : R; ply_q22 : R; ply_q16 : R }.
Definition plylib : Type := list R -> list R -> list (list R) -> list ply.
(* what the compiled layer and the external library provide *)
Record benv := mkBenv { b_env : env; b_plies : plylib }.

(* stack, plyts and laminaprops of a base or flange *)
Record lamdef := mkLamdef { ld_stack : list R; ld_plyts : list R; ld_props : list (list R) }.
Definition total (l : list R) : R := fold_left Rplus l 0.   (* sum(plyts) *)

(* bladestiff1d.py:29-59: panel1 and panel2 are positions in the list bay.panels *)
Record stiff1 := mkS1 { s1_p1 : nat; s1_p2 : nat; s1_rho : R; s1_ys : R; s1_bb : R; s1_bf : R;
  s1_bdef : option lamdef; s1_fdef : option lamdef; s1_Fx : option R;
  s1_base : option panel; s1_flam : option (list ply); s1_hf : R; s1_dbf : R; s1_Jxx : R; s1_E1 : R; s1_S1 : R; s1_F1 : R }.
Definition s1_hb : R := 0.   (* bladestiff1d.py:38: set to 0. and never assigned again *)

(* bladestiff2d.py:31-78 *)
Record stiff2 := mkS2 { s2_p1 : nat; s2_p2 : nat; s2_rho : R; s2_ys : R; s2_bdef : option lamdef;
  s2_base : option panel; s2_flange : option panel }.
Definition s2_with (s : stiff2) (base flange : option panel) : stiff2 :=
  mkS2 (s2_p1 s) (s2_p2 s) (s2_rho s) (s2_ys s) (s2_bdef s) base flange.

(* stiffpanelbay.py:40-117. by_sh holds a, b, m, n and the boundary flags. by_order: the list
   `stiffeners`, true for a BladeStiff1D *)
Record bay := mkBay { by_sh : shell; by_r : option R; by_model : option model_name;
  by_stack : list R; by_plyt : option R; by_plyts : list R; by_laminaprop : list R; by_laminaprops : list (list R); by_rho : R;
  by_panels : list panel; by_s1 : list stiff1; by_s2 : list stiff2; by_order : list bool;
  by_forces : list pload; by_size : option nat;
  by_flow_x : option bool; by_beta : option R; by_rho_air : option R; by_speed_sound : option R; by_Mach : option R; by_V : option R }.
Definition by_set (B : bay) (mdl : option model_name) (ps : list panel) (l1 : list stiff1) (l2 : list stiff2) (order : list bool) (size : option nat) (Mach : option R) : bay :=
  mkBay (by_sh B) (by_r B) mdl (by_stack B) (by_plyt B) (by_plyts B) (by_laminaprop B) (by_laminaprops B) (by_rho B)
    ps l1 l2 order (by_forces B) size (by_flow_x B) (by_beta B) (by_rho_air B) (by_speed_sound B) Mach (by_V B).
Definition set_panels (B : bay) ps : bay := by_set B (by_model B) ps (by_s1 B) (by_s2 B) (by_order B) (by_size B) (by_Mach B).
Definition set_s1 (B : bay) l : bay := by_set B (by_model B) (by_panels B) l (by_s2 B) (by_order B) (by_size B) (by_Mach B).
Definition set_s2 (B : bay) l : bay := by_set B (by_model B) (by_panels B) (by_s1 B) l (by_order B) (by_size B) (by_Mach B).
Definition set_order (B : bay) l : bay := by_set B (by_model B) (by_panels B) (by_s1 B) (by_s2 B) l (by_size B) (by_Mach B).
Definition set_bmodel (B : bay) m : bay := by_set B m (by_panels B) (by_s1 B) (by_s2 B) (by_order B) (by_size B) (by_Mach B).
Definition set_bsize (B : bay) n : bay := by_set B (by_model B) (by_panels B) (by_s1 B) (by_s2 B) (by_order B) n (by_Mach B).
Definition set_bMach (B : bay) x : bay := by_set B (by_model B) (by_panels B) (by_s1 B) (by_s2 B) (by_order B) (by_size B) x.

Definition bmethod (A : Type) : Type := bay -> bay * res A.
Definition bret {A} (a : A) : bmethod A := fun B => (B, Ok a).
Definition braise {A} (e : exn) : bmethod A := fun B => (B, Err e).
Definition bbind {A C} (x : bmethod A) (f : A -> bmethod C) : bmethod C :=
  fun B => match x B with (B', Ok a) => f a B' | (B', Err e) => (B', Err e) end.
Definition bget : bmethod bay := fun B => (B, Ok B).
Definition bmod (f : bay -> bay) : bmethod unit := fun B => (f B, Ok tt).
Definition blift {A} (x : res A) : bmethod A := fun B => (B, x).
Notation "'bay_do' x <- e1 ; e2" := (bbind e1 (fun x => e2)) (at level 200, x name, e1 at level 100, e2 at level 200).

Fixpoint set_at {A} (i : nat) (x : A) (l : list A) : list A :=
  match l, i with [], _ => [] | _ :: l', 0%nat => x :: l' | y :: l', S i' => y :: set_at i' x l' end.
(* a call of a method of the panel at position i *)
Definition on_skin {A} (i : nat) (f : method A) : bmethod A := fun B =>
  match nth_error (by_panels B) i with
  | None => (B, Err IndexError)
  | Some p => match f p with (p', r) => (set_panels B (set_at i p' (by_panels B)), r) end
  end.
(* `for p in self.panels: ...` *)
Fixpoint each {A} (f : nat -> bmethod A) (i k : nat) : bmethod (list A) :=
  match k with
  | 0%nat => bret []
  | S k' => bay_do a <- f i; bay_do l <- each f (S i) k'; bret (a :: l)
  end.
Definition each_panel {A} (f : nat -> bmethod A) : bmethod (list A) := fun B => each f 0 (length (by_panels B)) B.
Definition each_s1 {A} (f : nat -> bmethod A) : bmethod (list A) := fun B => each f 0 (length (by_s1 B)) B.

(* stiffpanelbay.py:459-515 add_panel. stack, laminaprop ...: [] stands for an
   argument or an attribute that is None; an empty list given on purpose is not told apart *)
Definition bay_edges (B : bay) (p : panel) : panel :=
  let s := by_sh B in with_edges p (sh_xu s) (sh_xv s) (sh_xw s) (sh_yu s) (sh_yv s) (sh_yw s).
Definition orelse {A} (l d : list A) : list A := match l with [] => d | _ => l end.
Definition add_panel (y1 y2 : R) (stack plyts : list R) (plyt : option R) (laminaprops : list (list R)) (laminaprop : list R)
    (mdl : option model_name) (rho : option R) (B : bay) : bay :=
  let s := by_sh B in
  let p := new_shell (sh_a s) (sh_b s) (by_r B) (orelse stack (by_stack B)) (match plyt with Some t => Some t | None => by_plyt B end)
             (orelse laminaprop (by_laminaprop B)) (default (by_rho B) rho) (sh_m s) (sh_n s) 0 in
  let p := set_model (with_y_limits (bay_edges B p) y1 y2) (match mdl with Some m => Some m | None => by_model B end) in
  let p := set_material p (orelse laminaprops (by_laminaprops B)) [] (orelse plyts (by_plyts B)) in
  set_panels B (by_panels B ++ [p]).

(* comparisons *)
Definition req (x y : R) : bool := if Req_EM_T x y then true else false.
Definition isclose (x y : R) : bool := if Rle_dec (Rabs (x - y)) (1 / 100000000 + 1 / 100000 * Rabs y) then true else false.
Definition same_r (x y : option R) : bool :=
  match x, y with Some a, Some b => req a b | None, None => true | _, _ => false end.
Definition same_model (x y : option model_name) : bool :=
  match x, y with
  | None, None => true
  | Some (Known PlateModel), Some (Known PlateModel) => true
  | Some (Known CylModel), Some (Known CylModel) => true
  | Some Unknown, Some Unknown => true    (* one unknown name *)
  | _, _ => false
  end.

(* stiffpanelbay.py:309-323, 426-440: the panels on both sides of the line ys; the last match wins *)
Definition pick_panels (B : bay) (ys : R) : option nat * option nat :=
  fold_left (fun acc ip =>
    let '(i, p) := ip in
    let y1 := sh_y1 (pn_sh p) in let y2 := sh_y2 (pn_sh p) in
    let acc := if req y2 ys then (Some i, snd acc) else acc in
    let acc := if req y1 ys then (fst acc, Some i) else acc in
    let acc := if (isclose ys 0 && isclose y1 ys)%bool then (Some i, Some i) else acc in
    if (isclose ys (sh_b (by_sh B)) && isclose y2 ys)%bool then (Some i, Some i) else acc)
  (combine (seq 0 (length (by_panels B))) (by_panels B)) (None, None).
Definition find_panels (B : bay) (ys : R) : res (nat * nat) :=
  match by_panels B with
  | [] => Err RuntimeError
  | _ => match pick_panels B ys with (Some i, Some j) => Ok (i, j) | _ => Err RuntimeError end
  end.
(* stiffpanelbay.py:282-304, 399-421: the arguments of a laminate *)
Definition lam_args (stack plyts : option (list R)) (plyt : option R) (props : option (list (list R))) (prop : option (list R)) : res (option lamdef) :=
  match stack with
  | None => Ok None
  | Some st =>
    rbind (match plyts, plyt with Some l, _ => Ok l | None, Some t => Ok (map (fun _ => t) st) | None, None => Err ValueError end) (fun ts =>
    rbind (match props, prop with Some l, _ => Ok l | None, Some q => Ok (map (fun _ => q) st) | None, None => Err ValueError end) (fun ps =>
    Ok (Some (mkLamdef st ts ps))))
  end.

(* panel1 and panel2 must agree: bladestiff1d.py:63-66, bladestiff2d.py:82-85 *)
Definition agree_panels (p q : panel) : bool :=
  (same_model (pn_model p) (pn_model q) && (sh_m (pn_sh p) =? sh_m (pn_sh q))%nat && (sh_n (pn_sh p) =? sh_n (pn_sh q))%nat && same_r (pn_r p) (pn_r q))%bool.
(* h = 0.5*sum(panel1.plyts) + 0.5*sum(panel2.plyts); plyts is [] until the panel is rebuilt *)
Definition skin_h (p q : panel) : R := (1 / 2) * total (pn_plyts p) + (1 / 2) * total (pn_plyts q).
Definition two_panels {A} (B : bay) (i j : nat) (f : panel -> panel -> res A) : res A :=
  match nth_error (by_panels B) i, nth_error (by_panels B) j with
  | Some p, Some q => if agree_panels p q then f p q else Err AssertionError
  | _, _ => Err IndexError
  end.
(* Shell(a=bay.a, ..., y1=y1, y2=y2), bladestiff1d.py:78-91 and bladestiff2d.py:51-64 *)
Definition base_shell (B : bay) (D : lamdef) (rho h ys bb : R) : panel :=
  let s := by_sh B in
  let hb := total (ld_plyts D) in
  let p := new_shell (sh_a s) (sh_b s) (by_r B) (ld_stack D) None [] rho (sh_m s) (sh_n s) (- h / 2 - hb / 2) in
  set_material (with_y_limits (bay_edges B p) (ys - bb / 2) (ys + bb / 2)) (ld_props D) [] (ld_plyts D).

(* bladestiff1d.py:104-112: E1 and S1 of the plies of the flange *)
Fixpoint ply_sums (l : list ply) (prev : option R) (y E1 S1 : R) : R * R :=
  match l with
  | [] => (E1, S1)
  | p :: l' =>
    let y := match prev with None => y | Some h => y + (h / 2 + ply_h p / 2) end in
    ply_sums l' (Some (ply_h p)) y
      (E1 + ply_h p * (ply_q11 p - ply_q12 p ^ 2 / ply_q22 p))
      (S1 + - y * ply_h p * (ply_q16 p - ply_q12 p * ply_q16 p / ply_q22 p))
  end.
Definition flange_ES (l : list ply) : R * R :=
  ply_sums l None (match l with p :: _ => ply_h p / 2 | [] => 0 end) 0 0.

(* bladestiff1d.py:62-114 _rebuild. self.base stays None without bstack; E1, S1, F1 keep their values
   without fstack *)
Definition s1_rebuild (V : benv) (B : bay) (s : stiff1) : res stiff1 :=
  two_panels B (s1_p1 s) (s1_p2 s) (fun p q =>
  let hf := match s1_fdef s with Some D => total (ld_plyts D) | None => s1_hf s end in
  let flam := match s1_fdef s with Some D => Some (b_plies V (ld_stack D) (ld_plyts D) (ld_props D)) | None => s1_flam s end in
  let h := skin_h p q in
  let hb := match s1_bdef s with Some D => total (ld_plyts D) | None => 0 end in
  let base := match s1_bdef s with Some D => Some (base_shell B D (s1_rho s) h (s1_ys s) (s1_bb s)) | None => s1_base s end in
  let dbf := s1_bf s / 2 + hb + h / 2 in
  let Jxx := hf * s1_bf s ^ 3 / 12 + s1_bf s * hf ^ 3 / 12 in
  let ES := match flam with Some l => flange_ES l | None => (s1_E1 s, s1_S1 s) end in
  let F1 := match s1_fdef s with Some _ => s1_bf s ^ 2 / 12 * fst ES | None => s1_F1 s end in
  Ok (mkS1 (s1_p1 s) (s1_p2 s) (s1_rho s) (s1_ys s) (s1_bb s) (s1_bf s) (s1_bdef s) (s1_fdef s) (s1_Fx s)
        base flam hf dbf Jxx (fst ES) (snd ES) F1)).

(* stiffpanelbay.py:229-339 add_bladestiff1d *)
Definition add_bladestiff1d (V : benv) (ys : R) (rho : option R) (bb bf : R) (bdef fdef : res (option lamdef)) : bmethod unit :=
  bay_do bd <- blift bdef; bay_do fd <- blift fdef;
  match bd, fd with
  | None, None => braise ValueError
  | _, _ =>
    bay_do B <- bget;
    bay_do ij <- blift (find_panels B ys);
    bay_do s <- blift (s1_rebuild V B (mkS1 (fst ij) (snd ij) (default (by_rho B) rho) ys bb bf bd fd None None None 0 0 0 0 0 0));
    bmod (fun B => set_order (set_s1 B (by_s1 B ++ [s])) (by_order B ++ [true]))
  end.

(* bladestiff2d.py:81-98 _rebuild; laminated_plate is called without densities, and for the flange
   without an offset *)
Definition s2_rebuild (V : benv) (B : bay) (s : stiff2) : res stiff2 :=
  two_panels B (s2_p1 s) (s2_p2 s) (fun p q =>
  let lib := e_lib (b_env V) in
  let flange := option_map (fun f => set_lam f (Some (lib (pn_stack f) (pn_plyts f) (pn_laminaprops f) [] 0)) (pn_ABD f)) (s2_flange s) in
  let base := match s2_base s, s2_bdef s with
    | Some b, Some D => Some (set_lam b (Some (lib (ld_stack D) (ld_plyts D) (ld_props D) [] (- skin_h p q / 2 - total (ld_plyts D) / 2))) (pn_ABD b))
    | b, _ => b end in
  Ok (s2_with s base flange)).
(* bladestiff2d.py:66-76 *)
Definition flange_shell (B : bay) (D : lamdef) (rho bf : R) (mf nf : nat) : panel :=
  let s := by_sh B in
  let clamped := mkEdge 0 0 0 0 in
  let p := new_shell (sh_a s) bf None (ld_stack D) None [] rho mf nf 0 in
  let p := with_edges p clamped clamped (mkEdge 0 1 0 1) (mkEdge 1 0 1 0) (mkEdge 1 0 1 0) (mkEdge 1 1 1 1) in
  set_model (set_material p (ld_props D) [] (ld_plyts D)) (Some (Known PlateModel)).
(* bladestiff2d.py:31-78 __init__: the offset of the base is that of the plyts at this moment *)
Definition new_stiff2 (V : benv) (B : bay) (i j : nat) (rho ys bb bf : R) (bd fd : option lamdef) (mf nf : nat) : res stiff2 :=
  match nth_error (by_panels B) i, nth_error (by_panels B) j with
  | Some p, Some q =>
    let base := option_map (fun D => base_shell B D rho (skin_h p q) ys bb) bd in
    let flange := option_map (fun D => flange_shell B D rho bf mf nf) fd in
    s2_rebuild V B (mkS2 i j rho ys bd base flange)
  | _, _ => Err IndexError
  end.
(* stiffpanelbay.py:342-456 add_bladestiff2d; mf = 14 and nf = 11 by default *)
Definition add_bladestiff2d (V : benv) (ys : R) (rho : option R) (bb bf : R) (bdef fdef : res (option lamdef)) (mf nf : nat) : bmethod unit :=
  bay_do bd <- blift bdef; bay_do fd <- blift fdef;
  match bd, fd with
  | None, None => braise ValueError
  | _, _ =>
    bay_do B <- bget;
    bay_do ij <- blift (find_panels B ys);
    bay_do s <- blift (new_stiff2 V B (fst ij) (snd ij) (default (by_rho B) rho) ys bb bf bd fd mf nf);
    bmod (fun B => set_order (set_s2 B (by_s2 B ++ [s])) (by_order B ++ [false]))
  end.

(* the stiffener at position j *)
Definition get_s1 (j : nat) : bmethod stiff1 := fun B => match nth_error (by_s1 B) j with Some s => (B, Ok s) | None => (B, Err IndexError) end.
Definition get_s2 (j : nat) : bmethod stiff2 := fun B => match nth_error (by_s2 B) j with Some s => (B, Ok s) | None => (B, Err IndexError) end.
Definition put_s1 (j : nat) (s : stiff1) : bmethod unit := bmod (fun B => set_s1 B (set_at j s (by_s1 B))).
Definition put_s2 (j : nat) (s : stiff2) : bmethod unit := bmod (fun B => set_s2 B (set_at j s (by_s2 B))).
Definition re_s1 (V : benv) (j : nat) : bmethod unit :=
  bay_do s <- get_s1 j; bay_do B <- bget; bay_do s' <- blift (s1_rebuild V B s); put_s1 j s'.
Definition re_s2 (V : benv) (j : nat) : bmethod unit :=
  bay_do s <- get_s2 j; bay_do B <- bget; bay_do s' <- blift (s2_rebuild V B s); put_s2 j s'.
(* calls of methods of the base or the flange, when there is one *)
Definition s1_with_base (s : stiff1) (b : option panel) : stiff1 :=
  mkS1 (s1_p1 s) (s1_p2 s) (s1_rho s) (s1_ys s) (s1_bb s) (s1_bf s) (s1_bdef s) (s1_fdef s) (s1_Fx s)
    b (s1_flam s) (s1_hf s) (s1_dbf s) (s1_Jxx s) (s1_E1 s) (s1_S1 s) (s1_F1 s).
Definition on_base1 {A} (j : nat) (f : method A) : bmethod (option A) :=
  bay_do s <- get_s1 j;
  match s1_base s with
  | None => bret None
  | Some b => match f b with (b', r) => bay_do _ <- put_s1 j (s1_with_base s (Some b')); bay_do a <- blift r; bret (Some a) end
  end.
Definition on_base2 {A} (j : nat) (f : method A) : bmethod (option A) :=
  bay_do s <- get_s2 j;
  match s2_base s with
  | None => bret None
  | Some b => match f b with (b', r) => bay_do _ <- put_s2 j (s2_with s (Some b') (s2_flange s)); bay_do a <- blift r; bret (Some a) end
  end.
Definition on_flange {A} (j : nat) (f : method A) : bmethod (option A) :=
  bay_do s <- get_s2 j;
  match s2_flange s with
  | None => bret None
  | Some q => match f q with (q', r) => bay_do _ <- put_s2 j (s2_with s (s2_base s) (Some q')); bay_do a <- blift r; bret (Some a) end
  end.
Definition oplus (a b : option matrix) : option matrix := match b with None => a | Some M => oadd a M end.
Definition coo_mat (size : nat) (M : coo) : bmethod matrix := bay_do k <- blift (to_shape size M); bret (dense k).

(* bladestiff1d.py:117-147 calc_kC with finalize=False, as the bay calls it; None is the number 0. *)
Definition s1_kC (V : benv) (size row0 col0 j : nat) : bmethod (option matrix) :=
  bay_do _ <- re_s1 V j;
  bay_do k0 <- on_base1 j (calc_kC (b_env V) (mkKargs (SInt size) row0 col0 false None None None None None false));
  bay_do s <- get_s1 j; bay_do B <- bget;
  match s1_flam s with
  | None => bret k0
  | Some _ => bay_do k1 <- coo_mat size (fkCf (e_tables (b_env V)) (e_basis (b_env V)) (by_sh B) (s1_ys s) (s1_bf s) (s1_dbf s)
                 (s1_E1 s) (s1_F1 s) (s1_S1 s) (s1_Jxx s) row0 col0); bret (oadd k0 k1)
  end.
(* bladestiff1d.py:150-184 calc_kG *)
Definition s1_kG (V : benv) (c : option carg) (size row0 col0 j : nat) : bmethod (option matrix) :=
  match c with
  | Some _ => braise NotImplementedError
  | None =>
    bay_do _ <- re_s1 V j;
    bay_do s <- get_s1 j; bay_do B <- bget;
    match s1_flam s with
    | None => bret None
    | Some _ => bay_do k1 <- coo_mat size (fkGf (e_tables (b_env V)) (e_basis (b_env V)) (by_sh B) (s1_ys s) (default 0 (s1_Fx s)) row0 col0); bret (Some k1)
    end
  end.
(* bladestiff1d.py:187-220 calc_kM *)
Definition s1_kM (V : benv) (size row0 col0 j : nat) : bmethod (option matrix) :=
  bay_do _ <- re_s1 V j;
  bay_do k0 <- on_base1 j (calc_kM (b_env V) (SInt size) row0 col0 None None None None false);
  bay_do s <- get_s1 j; bay_do B <- bget;
  match s1_flam s with
  | None => bret k0
  | Some _ =>
    bay_do h <- blift (two_panels B (s1_p1 s) (s1_p2 s) (fun p q => Ok (skin_h p q)));
    bay_do k1 <- coo_mat size (fkMf (e_tables (b_env V)) (e_basis (b_env V)) (by_sh B) (s1_ys s) (s1_rho s) h s1_hb (s1_hf s) (s1_bf s) (s1_dbf s) row0 col0);
    bret (oadd k0 k1)
  end.

(* penalties.py:56-123 calc_kt_kr(p, q, 'ycte') once both are rebuilt *)
Definition bay_kt_kr (p q : option panel) : res (R * R) :=
  match p, q with
  | Some p, Some q =>
    match pn_lam p, pn_lam q with
    | Some l1, Some l2 => match kt_kr Ycte l1 l2 (sh_a (pn_sh p)) (sh_b (pn_sh p)) with (kt, Some kr) => Ok (kt, kr) | _ => Err TypeError end
    | _, _ => Err AttributeError
    end
  | _, _ => Err AttributeError
  end.
(* bladestiff2d.py:101-169 calc_kC with finalize=False *)
Definition s2_kC (V : benv) (size row0 col0 j : nat) : bmethod (option matrix) :=
  let E := b_env V in
  bay_do _ <- re_s2 V j;
  bay_do k0 <- on_base2 j (calc_kC E (mkKargs (SInt size) 0 0 false None None None None None false));
  bay_do kf <- on_flange j (calc_kC E (mkKargs (SInt size) row0 col0 false None None None None None false));
  match kf with
  | None => bret k0
  | Some kf =>
    bay_do s0 <- get_s2 j;
    bay_do _ <- (match s2_base s0 with None => on_skin (s2_p1 s0) (rebuild E) | Some _ => bay_do _ <- on_base2 j (rebuild E); bret tt end);
    bay_do _ <- on_flange j (rebuild E);
    bay_do s <- get_s2 j; bay_do B <- bget;
    bay_do kk <- blift (bay_kt_kr (match s2_base s with None => nth_error (by_panels B) (s2_p1 s) | b => b end) (s2_flange s));
    match s2_flange s with
    | None => bret k0
    | Some q =>
      let T := e_tables E in let Bs := e_basis E in let fs := pn_sh q in
      bay_do k1 <- coo_mat size (fkCss T Bs (fst kk) (snd kk) (by_sh B) (s2_ys s) 0 0);
      bay_do k2 <- coo_mat size (fkCsf T Bs (fst kk) (snd kk) (by_sh B) fs (s2_ys s) (sh_b fs) 0 col0);
      bay_do k3 <- coo_mat size (fkCff T Bs (fst kk) (snd kk) (sh_a (by_sh B)) (sh_b fs) fs row0 col0);
      bret (oadd (oadd (oadd (oadd k0 kf) k1) k2) k3)
    end
  end.
(* bladestiff2d.py:172-196 calc_kG: c is not passed on, NLgeom is False when the bay calls it *)
Definition s2_kG (V : benv) (c : option carg) (size row0 col0 j : nat) : bmethod (option matrix) :=
  bay_do _ <- re_s2 V j;
  on_flange j (calc_kG (b_env V) (mkKargs (SInt size) row0 col0 false None None None None None false)).
(* bladestiff2d.py:199-220 calc_kM *)
Definition s2_kM (V : benv) (size row0 col0 j : nat) : bmethod (option matrix) :=
  bay_do _ <- re_s2 V j;
  bay_do k0 <- on_base2 j (calc_kM (b_env V) (SInt size) 0 0 None None None None false);
  bay_do kf <- on_flange j (calc_kM (b_env V) (SInt size) row0 col0 None None None None false);
  bret (oplus k0 kf).

(* stiffpanelbay.py:157-178 _rebuild *)
Definition bay_rebuild (V : benv) : bmethod unit :=
  bay_do _ <- each_panel (fun i =>
    bay_do _ <- on_skin i (rebuild (b_env V));
    bay_do B <- bget;
    match nth_error (by_panels B) i with
    | None => braise IndexError
    | Some p => match by_model B with
                | Some _ => if same_model (by_model B) (pn_model p) then bret tt else braise AssertionError
                | None => bmod (fun B => set_bmodel B (pn_model p))
                end
    end);
  bay_do _ <- each_s1 (re_s1 V);
  bay_do B <- bget;
  bay_do _ <- each (re_s2 V) 0 (length (by_s2 B)); bret tt.

(* stiffpanelbay.py:200-226 get_size: AttributeError for a stiffener without flange *)
Definition bay_size : bmethod nat :=
  bay_do B <- bget;
  match by_model B with
  | Some (Known mdl) =>
    let n0 := (db_dofs mdl * sh_m (by_sh B) * sh_n (by_sh B))%nat in
    bay_do l <- each (fun j => bay_do o <- on_flange j get_size; match o with Some n => bret n | None => braise AttributeError end) 0 (length (by_s2 B));
    let n := fold_left Nat.add l n0 in
    bay_do _ <- bmod (fun B => set_bsize B (Some n)); bret n
  | _ => braise KeyError
  end.
(* the offset of the first flange, dofs*m*n *)
Definition skin_size (B : bay) : res nat :=
  match by_model B with Some (Known mdl) => Ok (db_dofs mdl * sh_m (by_sh B) * sh_n (by_sh B))%nat | _ => Err KeyError end.
Fixpoint sum_s2 (f : nat -> nat -> bmethod (option matrix)) (j k o : nat) (acc : option matrix) : bmethod (option matrix) :=
  match k with
  | 0%nat => bret acc
  | S k' =>
    bay_do M <- f o j;
    bay_do n <- on_flange j get_size;
    sum_s2 f (S j) k' (o + default 0%nat n)%nat (oplus acc M)
  end.
(* the common part of calc_kC, calc_kG and calc_kM, stiffpanelbay.py:518-693 *)
Definition bay_matrix (V : benv) (panel_K : nat -> method matrix) (s1_K : nat -> nat -> bmethod (option matrix)) (s2_K : nat -> nat -> nat -> bmethod (option matrix)) : bmethod matrix :=
  bay_do _ <- bay_rebuild V;
  bay_do size <- bay_size;
  bay_do l0 <- each_panel (fun i => on_skin i (panel_K size));
  bay_do l1 <- each_s1 (s1_K size);
  bay_do B <- bget;
  bay_do o <- blift (skin_size B);
  bay_do K <- sum_s2 (s2_K size) 0 (length (by_s2 B)) o (fold_left oplus l1 (fold_left oadd l0 None));
  match K with None => braise AttributeError | Some K => bret (finalize_symmetric K) end.
Definition bay_kC (V : benv) : bmethod matrix :=
  bay_matrix V (fun size => calc_kC (b_env V) (mkKargs (SInt size) 0 0 false None None None None None false))
    (fun size => s1_kC V size 0 0) (fun size o => s2_kC V size o o).
Definition bay_kG (V : benv) (c : option carg) : bmethod matrix :=
  bay_matrix V (fun size => calc_kG (b_env V) (mkKargs (SInt size) 0 0 false c None None None None false))
    (fun size => s1_kG V c size 0 0) (fun size o => s2_kG V c size o o).
Definition bay_kM (V : benv) : bmethod matrix :=
  bay_matrix V (fun size => calc_kM (b_env V) (SInt size) 0 0 None None None None false)
    (fun size => s1_kM V size 0 0) (fun size o => s2_kM V size o o).

(* stiffpanelbay.py:705-721, 768-781: beta, gamma and aeromu are computed and not used. What remains is
   the check of Mach and the attributes that must be numbers. Not modelled: division by zero. *)
Definition bay_aero (needs_r : bool) : bmethod unit :=
  bay_do B <- bget;
  match by_beta B with
  | Some _ => bret tt
  | None =>
    match by_Mach B with
    | None => braise TypeError
    | Some M =>
      if Rlt_dec M 1 then braise ValueError
      else bay_do _ <- (if Req_EM_T M 1 then bmod (fun B => set_bMach B (Some (10001 / 10000))) else bret tt);
           match by_rho_air B, by_V B, by_speed_sound B, (if needs_r then is_some (by_r B) else true) with
           | Some _, Some _, Some _, true => bret tt
           | _, _, _, _ => braise TypeError
           end
    end
  end.
(* p.flow = self.flow, ..., p.V = self.V, p.r = self.r, stiffpanelbay.py:733-739 *)
Definition give_aero (B : bay) (p : panel) : panel :=
  mkPanel (pn_sh p) (by_r B) (pn_model p) (pn_nx p) (pn_ny p) (pn_stack p) (pn_plyt p) (pn_plyts p)
    (pn_laminaprop p) (pn_laminaprops p) (pn_rho p) (pn_rhos p) (pn_offset p) (pn_ortho p) (pn_lam p) (pn_ABD p)
    (by_size B) (pn_N p) (pn_N_cte p) (by_flow_x B) (pn_beta p) (pn_gamma p) (by_rho_air B) (by_Mach B) (by_V B)
    (pn_kC p) (pn_kG p) (pn_kT p) (pn_kM p) (pn_kA p).
(* stiffpanelbay.py:696-755 calc_kA. self.size does not exist before the first get_size *)
Definition bay_kA (V : benv) : bmethod matrix :=
  bay_do _ <- bay_rebuild V;
  bay_do _ <- bay_aero false;
  bay_do B <- bget;
  match by_panels B, by_size B with
  | [], _ => braise IndexError
  | _, None => braise AttributeError
  | _, Some _ =>
    bay_do K <- on_skin 0 (fun p => calc_kA (b_env V) SNone 0 0 false (give_aero B p));
    bret (make_skew K)
  end.
(* stiffpanelbay.py:758-798 calc_cA: Shell.calc_cA has no parameters row0 and col0 and requires aeromu *)
Definition bay_cA (V : benv) : bmethod matrix :=
  bay_do _ <- bay_rebuild V;
  bay_do _ <- bay_size;
  bay_do _ <- bay_aero true;
  bay_do B <- bget;
  match by_panels B with [] => braise IndexError | _ => braise TypeError end.

(* stiffpanelbay.py:851-855 uvw_skin: the constants given to the displacement field *)
Definition skin_constants (c : list R) : bmethod (list R) :=
  bay_do n <- bay_size;
  bay_do B <- bget;
  if (length c =? n)%nat then bay_do k <- blift (skin_size B); bret (firstn k c) else braise ValueError.
(* stiffpanelbay.py:914-945 uvw_stiffener with region='flange'. A stiffener has no get_size; the
   stiffener si is the one numbered nth among the BladeStiff2D *)
Definition stiffener_constants (c : list R) (si : nat) : bmethod (list R) :=
  bay_do B <- bget;
  match nth_error (by_order B) si with
  | None => braise IndexError
  | Some true => braise RuntimeError
  | Some false =>
    bay_do k <- blift (skin_size B);
    if existsb negb (skipn 1 (firstn (S si) (by_order B))) then braise AttributeError
    else
      bay_do nf <- on_flange (length (filter negb (firstn si (by_order B)))) get_size;
      match nf with
      | None => braise AttributeError
      | Some nf => bay_do n <- bay_size; if (length c =? n)%nat then bret (firstn nf (skipn k c)) else braise ValueError
      end
  end.
