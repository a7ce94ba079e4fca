(* The Shell object: state, input checks and choice of kernels. Models /repo/panels/shell.py.
   Definitions only. *)
From Coq Require Import Reals List Arith Bool.
From Verif Require Import Base_Sum Model_Types Model_Coo Model_Result Model_Num Model_DB.
Import ListNotations.
Open Scope R_scope.

(* A dense reading of a sparse matrix. *)
Definition matrix : Type := nat -> nat -> R.

(* External library `composites` (/repo/panels/shell.py:11): what laminated_plate returns. *)
Record laminate := mkLam { lam_ABD : nat -> nat -> R; lam_h : R; lam_intrho : R }.
(* laminated_plate(stack, plyts, laminaprops, rhos, offset), shell.py:273-277. Not modelled: it is an
   arbitrary function. *)
Definition lamlib : Type := list R -> list R -> list (list R) -> list R -> R -> laminate.

(* What the compiled layer provides. *)
Record env := mkEnv { e_rule : rule; e_basis : basis; e_tables : tables; e_lib : lamlib }.

(* The `model` attribute: a key of modelDB.db or some other string *)
Inductive model_name := Known (m : model) | Unknown.

(* Attributes of a Shell object that the modelled methods read or write (shell.py:94-224).
   pn_sh holds a, b, m, n, x1, x2, y1, y2 and the boundary flags; its r, beta and gamma fields are
   not used, those attributes may be None and are kept apart. *)
Record panel := mkPanel {
  pn_sh : shell;
  pn_r : option R;
  pn_model : option model_name;
  pn_nx : nat; pn_ny : nat;
  pn_stack : list R;                    (* None and [] are both falsy *)
  pn_plyt : option R; pn_plyts : list R;
  pn_laminaprop : list R; pn_laminaprops : list (list R);
  pn_rho : R; pn_rhos : list R;
  pn_offset : R;
  pn_ortho : bool;                      (* force_orthotropic_laminate *)
  pn_lam : option laminate; pn_ABD : option (nat -> nat -> R);
  pn_size : option nat;
  pn_N : R * R * R;                     (* Nxx, Nyy, Nxy *)
  pn_N_cte : R * R * R;                 (* Nxx_cte, Nyy_cte, Nxy_cte *)
  pn_flow_x : option bool;              (* flow.lower(): 'x', 'y' or something else *)
  pn_beta : option R; pn_gamma : option R;
  pn_rho_air : option R; pn_Mach : option R; pn_V : option R;
  pn_kC : option matrix; pn_kG : option matrix; pn_kT : option matrix;
  pn_kM : option matrix; pn_kA : option matrix }.   (* the dict `matrices` *)

(* attribute assignments *)
Definition set_nxny (p : panel) (nx ny : nat) : panel :=
  mkPanel (pn_sh p) (pn_r p) (pn_model p) nx ny (pn_stack p) (pn_plyt p) (pn_plyts p)
    (pn_laminaprop p) (pn_laminaprops p) (pn_rho p) (pn_rhos p) (pn_offset p) (pn_ortho p) (pn_lam p) (pn_ABD p)
    (pn_size p) (pn_N p) (pn_N_cte p) (pn_flow_x p) (pn_beta p) (pn_gamma p) (pn_rho_air p) (pn_Mach p) (pn_V p)
    (pn_kC p) (pn_kG p) (pn_kT p) (pn_kM p) (pn_kA p).
Definition set_model (p : panel) (m : option model_name) : panel :=
  mkPanel (pn_sh p) (pn_r p) m (pn_nx p) (pn_ny p) (pn_stack p) (pn_plyt p) (pn_plyts p)
    (pn_laminaprop p) (pn_laminaprops p) (pn_rho p) (pn_rhos p) (pn_offset p) (pn_ortho p) (pn_lam p) (pn_ABD p)
    (pn_size p) (pn_N p) (pn_N_cte p) (pn_flow_x p) (pn_beta p) (pn_gamma p) (pn_rho_air p) (pn_Mach p) (pn_V p)
    (pn_kC p) (pn_kG p) (pn_kT p) (pn_kM p) (pn_kA p).
Definition set_r (p : panel) (r : option R) : panel :=
  mkPanel (pn_sh p) r (pn_model p) (pn_nx p) (pn_ny p) (pn_stack p) (pn_plyt p) (pn_plyts p)
    (pn_laminaprop p) (pn_laminaprops p) (pn_rho p) (pn_rhos p) (pn_offset p) (pn_ortho p) (pn_lam p) (pn_ABD p)
    (pn_size p) (pn_N p) (pn_N_cte p) (pn_flow_x p) (pn_beta p) (pn_gamma p) (pn_rho_air p) (pn_Mach p) (pn_V p)
    (pn_kC p) (pn_kG p) (pn_kT p) (pn_kM p) (pn_kA p).
Definition set_material (p : panel) (props : list (list R)) (rhos plyts : list R) : panel :=
  mkPanel (pn_sh p) (pn_r p) (pn_model p) (pn_nx p) (pn_ny p) (pn_stack p) (pn_plyt p) plyts
    (pn_laminaprop p) props (pn_rho p) rhos (pn_offset p) (pn_ortho p) (pn_lam p) (pn_ABD p)
    (pn_size p) (pn_N p) (pn_N_cte p) (pn_flow_x p) (pn_beta p) (pn_gamma p) (pn_rho_air p) (pn_Mach p) (pn_V p)
    (pn_kC p) (pn_kG p) (pn_kT p) (pn_kM p) (pn_kA p).
Definition set_lam (p : panel) (lam : option laminate) (ABD : option (nat -> nat -> R)) : panel :=
  mkPanel (pn_sh p) (pn_r p) (pn_model p) (pn_nx p) (pn_ny p) (pn_stack p) (pn_plyt p) (pn_plyts p)
    (pn_laminaprop p) (pn_laminaprops p) (pn_rho p) (pn_rhos p) (pn_offset p) (pn_ortho p) lam ABD
    (pn_size p) (pn_N p) (pn_N_cte p) (pn_flow_x p) (pn_beta p) (pn_gamma p) (pn_rho_air p) (pn_Mach p) (pn_V p)
    (pn_kC p) (pn_kG p) (pn_kT p) (pn_kM p) (pn_kA p).
Definition set_size (p : panel) (n : option nat) : panel :=
  mkPanel (pn_sh p) (pn_r p) (pn_model p) (pn_nx p) (pn_ny p) (pn_stack p) (pn_plyt p) (pn_plyts p)
    (pn_laminaprop p) (pn_laminaprops p) (pn_rho p) (pn_rhos p) (pn_offset p) (pn_ortho p) (pn_lam p) (pn_ABD p)
    n (pn_N p) (pn_N_cte p) (pn_flow_x p) (pn_beta p) (pn_gamma p) (pn_rho_air p) (pn_Mach p) (pn_V p)
    (pn_kC p) (pn_kG p) (pn_kT p) (pn_kM p) (pn_kA p).
Definition set_aero (p : panel) (Mach beta gamma : option R) : panel :=
  mkPanel (pn_sh p) (pn_r p) (pn_model p) (pn_nx p) (pn_ny p) (pn_stack p) (pn_plyt p) (pn_plyts p)
    (pn_laminaprop p) (pn_laminaprops p) (pn_rho p) (pn_rhos p) (pn_offset p) (pn_ortho p) (pn_lam p) (pn_ABD p)
    (pn_size p) (pn_N p) (pn_N_cte p) (pn_flow_x p) beta gamma (pn_rho_air p) Mach (pn_V p)
    (pn_kC p) (pn_kG p) (pn_kT p) (pn_kM p) (pn_kA p).
Definition set_matrices (p : panel) (kC kG kT kM kA : option matrix) : panel :=
  mkPanel (pn_sh p) (pn_r p) (pn_model p) (pn_nx p) (pn_ny p) (pn_stack p) (pn_plyt p) (pn_plyts p)
    (pn_laminaprop p) (pn_laminaprops p) (pn_rho p) (pn_rhos p) (pn_offset p) (pn_ortho p) (pn_lam p) (pn_ABD p)
    (pn_size p) (pn_N p) (pn_N_cte p) (pn_flow_x p) (pn_beta p) (pn_gamma p) (pn_rho_air p) (pn_Mach p) (pn_V p)
    kC kG kT kM kA.

(* Methods: new state of the object and outcome; mutations done before an exception stay. *)
Definition method (A : Type) : Type := panel -> panel * res A.
Definition mret {A} (a : A) : method A := fun p => (p, Ok a).
Definition mraise {A} (e : exn) : method A := fun p => (p, Err e).
Definition mbind {A B} (x : method A) (f : A -> method B) : method B :=
  fun p => match x p with (p', Ok a) => f a p' | (p', Err e) => (p', Err e) end.
Definition mget : method panel := fun p => (p, Ok p).
Definition mmod (f : panel -> panel) : method unit := fun p => (f p, Ok tt).
Definition mlift {A} (x : res A) : method A := fun p => (p, x).
Notation "'do' x <- e1 ; e2" := (mbind e1 (fun x => e2)) (at level 200, x name, e1 at level 100, e2 at level 200).
Notation "e1 ;; e2" := (mbind e1 (fun _ => e2)) (at level 100, e2 at level 200).

(* modelDB.db[self.model] : KeyError for None or an unknown name *)
Definition the_model : method model := fun p =>
  match pn_model p with Some (Known m) => (p, Ok m) | _ => (p, Err KeyError) end.

(* shell.py:282-303 get_size *)
Definition get_size : method nat :=
  do mdl <- the_model; do p <- mget;
  let n := (db_dofs mdl * sh_m (pn_sh p) * sh_n (pn_sh p))%nat in
  mmod (fun p => set_size p (Some n)) ;; mret n.

(* shell.py:325-361 _get_lam_ABD, the entries zeroed by force_orthotropic_laminate *)
Definition ortho_zero (i j : nat) : bool :=
  existsb (fun q => (fst q =? i) && (snd q =? j))%nat%bool
   [(0,2); (1,2); (2,0); (2,1); (0,5); (5,0); (1,5); (5,1); (3,2); (2,3); (4,2); (2,4); (3,5); (4,5); (5,3); (5,4)]%nat.
Definition lam_matrix (ortho : bool) (lam : laminate) (i j : nat) : R :=
  if (ortho && ortho_zero i j)%bool then 0 else lam_ABD lam i j.
Definition get_lam_ABD : method (nat -> nat -> R) := fun p =>
  match pn_lam p with
  | None => (p, Err RuntimeError)
  | Some lam => (p, Ok (lam_matrix (pn_ortho p) lam))
  end.

(* shell.py:241-279 _rebuild *)
Definition rebuild (E : env) : method unit :=
  mmod (fun p => set_nxny p (Nat.max (pn_nx p) (sh_m (pn_sh p))) (Nat.max (pn_ny p) (sh_n (pn_sh p)))) ;;
  mmod (fun p => match pn_model p with
                 | None => set_model p (Some (Known (match pn_r p with None => PlateModel | Some _ => CylModel end)))
                 | Some _ => p end) ;;
  do p <- mget;
  match pn_model p with
  | Some (Known _) =>
    match pn_stack p with
    | [] => mraise ValueError
    | _ =>
      (match pn_laminaprops p with
       | [] => match pn_laminaprop p with
               | [] => mraise ValueError
               | lp => mmod (fun p => set_material p (map (fun _ => lp) (pn_stack p)) (pn_rhos p) (pn_plyts p))
               end
       | _ => mret tt
       end) ;;
      mmod (fun p => match pn_rhos p with
                     | [] => set_material p (pn_laminaprops p) (map (fun _ => pn_rho p) (pn_stack p)) (pn_plyts p)
                     | _ => p end) ;;
      do p1 <- mget;
      (match pn_plyts p1 with
       | [] => match pn_plyt p1 with
               | None => mraise ValueError
               | Some t => mmod (fun p => set_material p (pn_laminaprops p) (pn_rhos p) (map (fun _ => t) (pn_stack p)))
               end
       | _ => mret tt
       end) ;;
      mmod (fun p => set_lam p (Some (e_lib E (pn_stack p) (pn_plyts p) (pn_laminaprops p) (pn_rhos p) (pn_offset p))) (pn_ABD p)) ;;
      do F <- get_lam_ABD;
      mmod (fun p => set_lam p (pn_lam p) (Some F)) ;;
      get_size ;; mret tt
    end
  | _ => mraise ValueError
  end.

(* size argument: None, an int or a string such as '+1' *)
Inductive size_arg := SNone | SInt (n : nat) | SStr (k : nat).
Definition eval_size (a : size_arg) : method nat :=
  match a with
  | SNone => get_size
  | SInt n => mret n
  | SStr k => do n <- get_size; mret (k + n)%nat
  end.

(* a vector argument: a one-dimensional array, an array with another number of dimensions, or
   another object *)
Inductive carg := CVec (l : list R) | CNd | CObj.
Definition vec (l : list R) : nat -> R := fun k => nth k l 0.

(* shell.py:27-34 check_c *)
Definition check_c (c : carg) (size : nat) : res (list R) :=
  match c with
  | CObj => Err TypeError
  | CNd => Err ValueError
  | CVec l => if (length l =? size)%nat then Ok l else Err ValueError
  end.

(* What the kernels see of the object: r is 0. when it was None (shell.py:435) *)
Definition kernel_view (p : panel) : shell :=
  let s := pn_sh p in
  mkShell (sh_a s) (sh_b s) (match pn_r p with Some r => r | None => 0 end) (sh_m s) (sh_n s)
    (sh_x1 s) (sh_x2 s) (sh_y1 s) (sh_y2 s)
    (match pn_beta p with Some x => x | None => 0 end) (match pn_gamma p with Some x => x | None => 0 end)
    (sh_xu s) (sh_xv s) (sh_xw s) (sh_yu s) (sh_yv s) (sh_yw s).
(* `self.r = self.r if self.r is not None else 0.` *)
Definition fix_r : method unit := mmod (fun p => set_r p (Some (match pn_r p with Some r => r | None => 0 end))).

Definition any3 (t : R * R * R) : bool :=
  let '(x, y, z) := t in
  negb ((if Req_EM_T x 0 then true else false) && (if Req_EM_T y 0 then true else false) &&
        (if Req_EM_T z 0 then true else false)).

(* coo_matrix((v, (r, c)), shape=(size, size)) raises ValueError when an index does not fit *)
Definition in_shape (size : nat) (M : coo) : bool :=
  forallb (fun t => (fst (fst t) <? size) && (snd (fst t) <? size))%nat%bool M.
Definition to_shape (size : nat) (M : coo) : res coo := if in_shape size M then Ok M else Err ValueError.

Definition finalized (fin : bool) (M : coo) : matrix :=
  if fin then finalize_symmetric (dense M) else dense M.

Definition default {A} (d : A) (o : option A) : A := match o with Some x => x | None => d end.
Definition is_some {A} (o : option A) : bool := match o with Some _ => true | None => false end.

(* optional arguments of calc_kC, calc_kG, calc_kT, in the order of the Python signatures *)
Record kargs := mkKargs {
  ka_size : size_arg; ka_row0 : nat; ka_col0 : nat; ka_fin : bool;
  ka_c : option carg; ka_c_cte : option carg;
  ka_nx : option nat; ka_ny : option nat; ka_F : option finput; ka_NL : bool }.

(* shell.py:364-492 calc_kC *)
Definition calc_kC (E : env) (A : kargs) : method matrix :=
  rebuild E ;;
  do size <- eval_size (ka_size A);
  do cl <- (match ka_c A with None => mret None | Some c => do l <- mlift (check_c c size); mret (Some l) end);
  let analytical_kC := negb (is_some (ka_c A) || is_some (ka_F A) || ka_NL A) in
  do mdl <- the_model;
  do p0 <- mget;
  let nx := default (pn_nx p0) (ka_nx A) in
  let ny := default (pn_ny p0) (ka_ny A) in
  fix_r ;;
  do p <- mget;
  let s := kernel_view p in
  let F := match ka_F A with Some F => F | None => match pn_ABD p with Some F => FMat F | None => FOther end end in
  do kC <-
    (if analytical_kC
     then mlift (to_shape size (fk0 mdl (e_tables E) s (match pn_ABD p with Some F => F | None => fun _ _ => 0 end)
                                    (ka_row0 A) (ka_col0 A)))
     else match cl, ka_F A, ka_NL A with
          | None, Some _, true => mraise OutOfBounds  (* c is the 1-element array made from None *)
          | _, _, _ =>
            mlift (rbind (fkC_num mdl (e_rule E) (e_basis E) (vec (default [] cl)) F s (ka_row0 A) (ka_col0 A) nx ny (ka_NL A))
                    (to_shape size))
          end);
  do kC' <-
    (if (is_some (ka_c_cte A) || any3 (pn_N_cte p))%bool then
       do l <- (match ka_c_cte A with None => mret None | Some c => do l <- mlift (check_c c size); mret (Some l) end);
       let '(Nxx, Nyy, Nxy) := pn_N_cte p in
       if (negb (ka_NL A) && negb (is_some (ka_c_cte A)))%bool
       then do kG <- mlift (to_shape size (fkG0 mdl (e_tables E) s Nxx Nyy Nxy (ka_row0 A) (ka_col0 A)));
            mret (coo_add kC kG)
       else match l with
            | None => mraise OutOfBounds  (* fkG_num reads the memoryview None *)
            | Some l =>
              do kG <- mlift (rbind (fkG_num mdl (e_rule E) (e_basis E) (vec l) F s (ka_row0 A) (ka_col0 A) nx ny (ka_NL A)
                                      Nxx Nyy Nxy) (to_shape size));
              mret (coo_add kC kG)
            end
     else mret kC);
  let K := finalized (ka_fin A) kC' in
  mmod (fun p => set_matrices p (Some K) (pn_kG p) (pn_kT p) (pn_kM p) (pn_kA p)) ;;
  mret K.

(* shell.py:495-548 calc_kG *)
Definition calc_kG (E : env) (A : kargs) : method matrix :=
  rebuild E ;;
  do size <- eval_size (ka_size A);
  do l <- (match ka_c A with None => mret (repeat 0 size) | Some c => mlift (check_c c size) end);
  let analytical_kG := negb (is_some (ka_c A) || ka_NL A) in
  do mdl <- the_model;
  fix_r ;;
  do p <- mget;
  let nx := default (pn_nx p) (ka_nx A) in
  let ny := default (pn_ny p) (ka_ny A) in
  let s := kernel_view p in
  let '(Nxx, Nyy, Nxy) := pn_N p in
  do kG <-
    (if analytical_kG
     then mlift (to_shape size (fkG0 mdl (e_tables E) s Nxx Nyy Nxy (ka_row0 A) (ka_col0 A)))
     else do F <- (match ka_F A with Some F => mret F | None => do F <- get_lam_ABD; mret (FMat F) end);
          mlift (rbind (fkG_num mdl (e_rule E) (e_basis E) (vec l) F s (ka_row0 A) (ka_col0 A) nx ny (ka_NL A) Nxx Nyy Nxy)
                  (to_shape size)));
  let K := finalized (ka_fin A) kG in
  mmod (fun p => set_matrices p (pn_kC p) (Some K) (pn_kT p) (pn_kM p) (pn_kA p)) ;;
  mret K.

(* shell.py:551-560 calc_kT *)
Definition calc_kT (E : env) (A : kargs) : method matrix :=
  let A' := mkKargs (ka_size A) (ka_row0 A) (ka_col0 A) (ka_fin A) (ka_c A) None (ka_nx A) (ka_ny A) (ka_F A) true in
  do kC <- calc_kC E A';
  do kG <- calc_kG E A';
  let K := fun r s => kC r s + kG r s in
  mmod (fun p => set_matrices p (pn_kC p) (pn_kG p) (Some K) (pn_kM p) (pn_kA p)) ;;
  mret K.

(* optional (nx, ny) arrays of calc_kM: shape and values *)
Definition arr2 : Type := nat * nat * (nat -> nat -> R).

(* shell.py:563-625 calc_kM *)
Definition calc_kM (E : env) (sz : size_arg) (row0 col0 : nat) (h_nxny rho_nxny : option arr2)
    (nxo nyo : option nat) (fin : bool) : method matrix :=
  do p0 <- mget;
  let nx := default (pn_nx p0) nxo in
  let ny := default (pn_ny p0) nyo in
  do mdl <- the_model;
  fix_r ;;
  do size <- eval_size sz;
  do p <- mget;
  match pn_lam p, h_nxny, rho_nxny with
  | None, None, _ => mraise AttributeError
  | None, _, None => mraise AttributeError
  | lamo, _, _ =>
    let lam := default (mkLam (fun _ _ => 0) 0 0) lamo in
    let '(hx, hy, h) := default (nx, ny, fun _ _ => lam_h lam) h_nxny in
    let '(rx, ry, rho) := default (nx, ny, fun _ _ => lam_intrho lam / lam_h lam) rho_nxny in
    let s := kernel_view p in
    do kM <-
      (if negb (is_some h_nxny || is_some rho_nxny)
       then match pn_plyts p with
            (* h = sum(shell.plyts); plyts is never empty once lam exists *)
            | ts => mlift (to_shape size (fkM mdl (e_tables E) s (pn_rho p) (fold_left Rplus ts 0) (pn_offset p) row0 col0))
            end
       else (* np.concatenate: ValueError unless both arrays have the same shape *)
         if ((hx =? rx) && (hy =? ry))%nat%bool
         then mlift (rbind (fkM_num mdl (e_rule E) (e_basis E) s (pn_offset p) (HPts hx hy h rho) row0 col0 nx ny) (to_shape size))
         else mraise ValueError);
    let K := finalized fin kM in
    mmod (fun p => set_matrices p (pn_kC p) (pn_kG p) (pn_kT p) (Some K) (pn_kA p)) ;;
    mret K
  end.

(* shell.py:641-662: beta and gamma from Mach, rho_air, V, or as given *)
Definition aero_coeffs : method (R * R) :=
  do p <- mget;
  match pn_beta p with
  | Some b => mret (b, default 0 (pn_gamma p))
  | None =>
    match pn_Mach p with
    | None => mraise ValueError
    | Some M =>
      if Rlt_dec M 1 then mraise ValueError
      else
        (if Req_EM_T M 1 then mmod (fun p => set_aero p (Some (10001 / 10000)) (pn_beta p) (pn_gamma p)) else mret tt) ;;
        do p' <- mget;
        match pn_Mach p', pn_rho_air p', pn_V p' with
        | Some Mach, Some ra, Some V =>
          let beta := ra * (V * V) / sqrt (Mach * Mach - 1) in
          let r := default 0 (pn_r p') in
          let gamma := if Req_EM_T r 0 then 0 else beta * 1 / (2 * r * sqrt (Mach * Mach - 1)) in
          mret (beta, gamma)
        | _, _, _ => mraise TypeError
        end
    end
  end.

(* shell.py:628-681 calc_kA *)
Definition calc_kA (E : env) (sz : size_arg) (row0 col0 : nat) (fin : bool) : method matrix :=
  do mdl <- the_model;
  do size <- eval_size sz;
  fix_r ;;
  do bg <- aero_coeffs;
  mmod (fun p => set_aero p (pn_Mach p) (Some (fst bg)) (Some (snd bg))) ;;
  do p <- mget;
  let s := kernel_view p in
  do kA <- (match pn_flow_x p with
            | Some true => mlift (to_shape size (fkAx_num mdl (e_rule E) (e_basis E) s row0 col0 (pn_nx p) (pn_ny p)))
            | Some false => mlift (to_shape size (fkAy_num mdl (e_rule E) (e_basis E) s row0 col0 (pn_nx p) (pn_ny p)))
            | None => mraise ValueError
            end);
  let K := if fin then make_skew (dense kA) else dense kA in
  mmod (fun p => set_matrices p (pn_kC p) (pn_kG p) (pn_kT p) (pn_kM p) (Some K)) ;;
  mret K.

(* shell.py:684-702 calc_cA: `matrices_num.fcA` does not exist in the compiled modules
   (models/plate_clpt_donnell_bardell_num.pyx and models/cylshell_clpt_donnell_bardell_num.pyx
   define fkC_num, fkG_num, fkM_num, fkAx_num, fkAy_num and calc_fint) *)
Definition matrices_num_has_fcA (mdl : model) : bool := false.
Definition calc_cA (E : env) (aeromu : R) (sz : size_arg) (fin : bool) : method matrix :=
  do size <- (match sz with SNone => get_size | SInt n => mret n | SStr _ => get_size end);
  do mdl <- the_model;
  do p <- mget;
  if matrices_num_has_fcA mdl
  then mret (finalized fin (fcA mdl (e_tables E) (kernel_view p) aeromu 0 0))
  else mraise AttributeError.

(* shell.py:1136-1200 calc_fint *)
Definition calc_fint (E : env) (c : list R) (sz : size_arg) (col0 : nat) (nxo nyo : option nat)
    (Fo : option finput) : method updates :=
  do p0 <- mget;
  match pn_model p0 with
  | Some (Known mdl) =>
    do size <- eval_size sz;
    fix_r ;;
    do p <- mget;
    let nx := default (pn_nx p) nxo in
    let ny := default (pn_ny p) nyo in
    let F := match Fo with Some F => F | None => match pn_ABD p with Some F => FMat F | None => FOther end end in
    (* neither c nor col0 is checked against size: the compiled loop reads c and writes fint at
       positions col0 .. col0 + 3*m*n - 1 with bounds checking switched off *)
    let hi := (col0 + DOF * (sh_m (pn_sh p) * sh_n (pn_sh p)))%nat in
    do u <- mlift (calc_fint_num mdl (e_rule E) (e_basis E) (vec c) F (kernel_view p) col0 nx ny);
    if ((length c <? hi) || (size <? hi))%nat%bool then mraise OutOfBounds else mret u
  | _ => mraise ValueError
  end.
