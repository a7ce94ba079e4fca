(* MultiDomain: assemblies of panels, connections, fields of groups. Models
   /repo/panels/multidomain/multidomain.py and /repo/panels/multidomain/connections/penalties.py.
   Definitions only. *)
From Coq Require Import Reals List Arith Bool.
From Verif Require Import Base_Sum Model_Types Model_Coo Model_Result Model_Num Model_DB Model_Shell Model_Field Model_Fext Model_Conn.
Import ListNotations.
Open Scope R_scope.

(* A Shell object with the attributes that only assemblies and loads use. row_start and col_start
   (row_end and col_end) always hold the same numbers (multidomain.py:90-95, the only assignments
   besides the initial None, shell.py:114-117) and are kept as one. *)
Record xpanel := mkXp { xp : panel; xp_group : nat; xp_loads : loads; xp_start : option nat; xp_end : option nat }.
Definition with_panel (x : xpanel) (p : panel) : xpanel := mkXp p (xp_group x) (xp_loads x) (xp_start x) (xp_end x).
Definition with_span (x : xpanel) (a b : nat) : xpanel := mkXp (xp x) (xp_group x) (xp_loads x) (Some a) (Some b).

(* connecti['func'] *)
Inductive cfunc := SSycte | SSxcte | SB | BFycte | BFxcte | KCLTxycte | SB_TSL | OtherFunc.
(* One connection dictionary; None: the key is missing. The keys p1, p2 and func are always present.
   Panels are referred to by their place in the store of objects. cn_tsl: tsl_type == 'linear'. *)
Record conn := mkConn { cn_p1 : nat; cn_p2 : nat; cn_func : cfunc;
  cn_x1 : option R; cn_x2 : option R; cn_y1 : option R; cn_y2 : option R; cn_tsl : option bool }.

(* The objects a program holds: panels and lists of connection dictionaries *)
Record world := mkWorld { w_panel : nat -> xpanel; w_conn : nat -> list conn }.
Definition put {A} (h : nat -> A) (i : nat) (x : A) : nat -> A := fun k => if (k =? i)%nat then x else h k.
Definition put_panel (w : world) (i : nat) (x : xpanel) : world := mkWorld (put (w_panel w) i x) (w_conn w).
Definition put_conn (w : world) (k : nat) (l : list conn) : world := mkWorld (w_panel w) (put (w_conn w) k l).

(* the attribute kC_conn when it is not None: the float 0. or a sparse matrix *)
Inductive connmat := CZero | CMat (size : nat) (K : matrix).
(* MultiDomain object *)
Record assembly := mkAsm { as_panels : list nat; as_conn : option nat; as_kC_conn : option connmat; as_cores : nat }.

(* methods of an assembly *)
Definition amethod (A : Type) : Type := world -> assembly -> world * assembly * res A.
Definition aret {A} (a : A) : amethod A := fun w s => (w, s, Ok a).
Definition araise {A} (e : exn) : amethod A := fun w s => (w, s, Err e).
Definition abind {A B} (x : amethod A) (f : A -> amethod B) : amethod B :=
  fun w s => match x w s with (w', s', Ok a) => f a w' s' | (w', s', Err e) => (w', s', Err e) end.
Definition aworld : amethod world := fun w s => (w, s, Ok w).
Definition aself : amethod assembly := fun w s => (w, s, Ok s).
Definition alift {A} (x : res A) : amethod A := fun w s => (w, s, x).
Notation "'go' x <- e1 ; e2" := (abind e1 (fun x => e2)) (at level 200, x name, e1 at level 100, e2 at level 200).
(* call a method of the panel i *)
Definition on_panel {A} (i : nat) (f : method A) : amethod A := fun w s =>
  let x := w_panel w i in
  let '(p', r) := f (xp x) in (put_panel w i (with_panel x p'), s, r).

Definition width (x : xpanel) : nat := (3 * sh_m (pn_sh (xp x)) * sh_n (pn_sh (xp x)))%nat.

(* multidomain.py:79-97 __init__ *)
Fixpoint set_spans (ids : list nat) (o : nat) (w : world) : world :=
  match ids with
  | [] => w
  | i :: ids' => let x := w_panel w i in
                 set_spans ids' (o + width x) (put_panel w i (with_span x o (o + width x)))
  end.
Definition new_assembly (ids : list nat) (cn : option nat) (w : world) : world * assembly :=
  (set_spans ids 0 w, mkAsm ids cn None 4).

(* multidomain.py:98-103 get_size *)
Definition asm_size : amethod nat := fun w s =>
  (w, s, Ok (fold_right (fun i n => (width (w_panel w i) + n)%nat) 0%nat (as_panels s))).

(* penalties.py:55-136 calc_kt_kr. build_panel_lam always finds lam after _rebuild. kr is None for
   'bot-top'. Division by zero gives inf or nan in the code, 0 here. *)
Inductive ctype := Xcte | Ycte | BotTop | XcteYcte | YcteXcte.
Definition A11 (l : laminate) : R := lam_ABD l 0%nat 0%nat.
Definition A22 (l : laminate) : R := lam_ABD l 1%nat 1%nat.
Definition D11 (l : laminate) : R := lam_ABD l 3%nat 3%nat.
Definition D22 (l : laminate) : R := lam_ABD l 4%nat 4%nat.
Definition kt_kr (t : ctype) (l1 l2 : laminate) (a b : R) : R * option R :=
  let k x y := 4 * x * y / ((x + y) * (lam_h l1 + lam_h l2)) in
  match t with
  | Xcte => (k (A11 l1) (A11 l2), Some (k (D11 l1) (D11 l2)))
  | Ycte => (k (A22 l1) (A22 l2), Some (k (D22 l1) (D22 l2)))
  | BotTop => (k (A11 l1) (A11 l2) / Rmin a b, None)
  | XcteYcte => (k (A11 l1) (A22 l2), Some (k (D11 l1) (D22 l2)))
  | YcteXcte => (k (A22 l1) (A11 l2), Some (k (D22 l1) (D11 l2)))
  end.
Definition calc_kt_kr (E : env) (i j : nat) (t : ctype) : amethod (R * option R) :=
  go _ <- on_panel i (rebuild E);
  go _ <- on_panel j (rebuild E);
  go w <- aworld;
  match pn_lam (xp (w_panel w i)), pn_lam (xp (w_panel w j)) with
  | Some l1, Some l2 => aret (kt_kr t l1 l2 (sh_a (pn_sh (xp (w_panel w i)))) (sh_b (pn_sh (xp (w_panel w i)))))
  | _, _ => araise AttributeError
  end.

(* penalties.py:34-52 calc_kw_tsl: kw_tsl is unbound for another tsl_type *)
Definition calc_kw_tsl (p1 p2 : panel) (linear : bool) : res R :=
  let s1 := pn_sh p1 in let s2 := pn_sh p2 in
  if Req_EM_T (sh_a s1) (sh_a s2)
  then if Req_EM_T (sh_b s1) (sh_b s2)
       then if linear then Ok (10000 / (sh_a s1 * sh_b s1)) else Err UnboundLocalError
       else Err ValueError
  else Err ValueError.

Definition key {A} (o : option A) : res A := match o with Some a => Ok a | None => Err KeyError end.
(* sum(panel.plyts): TypeError for None *)
Definition sum_plyts (p : panel) : res R := match pn_plyts p with [] => Err TypeError | l => Ok (fold_left Rplus l 0) end.

(* kC_conn += M, where M is a size x size matrix *)
Definition cadd (acc : connmat) (size : nat) (M : matrix) : connmat :=
  match acc with CZero => CMat size M | CMat n K => CMat n (fun r s => K r s + M r s) end.

(* the three calls `kC_conn += fkC..11; fkC..12; fkC..22` of a connection *)
Definition add3 (acc : connmat) (size : nat) (k11 k12 k22 : coo) : res connmat :=
  rbind (to_shape size k11) (fun _ => rbind (to_shape size k12) (fun _ => rbind (to_shape size k22) (fun _ =>
  Ok (cadd (cadd (cadd acc size (dense k11)) size (dense k12)) size (dense k22))))).

(* multidomain.py:800-895: contribution of one connection; i, j are pA, pB *)
Definition add_conn (E : env) (Bs : basis) (size : nat) (cn : conn) (i j : nat) (acc : connmat) : amethod connmat :=
  let sh w k := kernel_view (xp (w_panel w k)) in
  let o w k := default 0%nat (xp_start (w_panel w k)) in
  match cn_func cn with
  | SSycte =>
    go k <- calc_kt_kr E i j Ycte; go w <- aworld;
    go y1 <- alift (key (cn_y1 cn)); go y2 <- alift (key (cn_y2 cn));
    let kt := fst k in let kr := default 0 (snd k) in
    alift (add3 acc size (fkCSSycte11 (e_tables E) Bs kt kr (sh w i) y1 (o w i) (o w i))
                         (fkCSSycte12 (e_tables E) Bs kt kr (sh w i) (sh w j) y1 y2 (o w i) (o w j))
                         (fkCSSycte22 (e_tables E) Bs kt kr (sh w i) (sh w j) y2 (o w j) (o w j)))
  | SSxcte =>
    go k <- calc_kt_kr E i j Xcte; go w <- aworld;
    go x1 <- alift (key (cn_x1 cn)); go x2 <- alift (key (cn_x2 cn));
    let kt := fst k in let kr := default 0 (snd k) in
    alift (add3 acc size (fkCSSxcte11 (e_tables E) Bs kt kr (sh w i) x1 (o w i) (o w i))
                         (fkCSSxcte12 (e_tables E) Bs kt kr (sh w i) (sh w j) x1 x2 (o w i) (o w j))
                         (fkCSSxcte22 (e_tables E) Bs kt kr (sh w i) (sh w j) x2 (o w j) (o w j)))
  | SB =>
    go k <- calc_kt_kr E i j BotTop; go w <- aworld;
    go t1 <- alift (sum_plyts (xp (w_panel w i))); go t2 <- alift (sum_plyts (xp (w_panel w j)));
    let kt := fst k in let dsb := t1 / 2 + t2 / 2 in
    alift (add3 acc size (fkCSB11 (e_tables E) kt dsb (sh w i) (o w i) (o w i))
                         (fkCSB12 (e_tables E) kt dsb (sh w i) (sh w j) (o w i) (o w j))
                         (fkCSB22 (e_tables E) kt (sh w i) (sh w j) (o w j) (o w j)))
  | BFycte =>
    go k <- calc_kt_kr E i j Ycte; go w <- aworld;
    go y1 <- alift (key (cn_y1 cn)); go y2 <- alift (key (cn_y2 cn));
    let kt := fst k in let kr := default 0 (snd k) in
    alift (add3 acc size (fkCBFycte11 (e_tables E) Bs kt kr (sh w i) y1 (o w i) (o w i))
                         (fkCBFycte12 (e_tables E) Bs kt kr (sh w i) (sh w j) y1 y2 (o w i) (o w j))
                         (fkCBFycte22 (e_tables E) Bs kt kr (sh w i) (sh w j) y2 (o w j) (o w j)))
  | BFxcte =>
    go k <- calc_kt_kr E i j Xcte; go w <- aworld;
    go x1 <- alift (key (cn_x1 cn)); go x2 <- alift (key (cn_x2 cn));
    let kt := fst k in let kr := default 0 (snd k) in
    alift (add3 acc size (fkCBFxcte11 (e_tables E) Bs kt kr (sh w i) x1 (o w i) (o w i))
                         (fkCBFxcte12 (e_tables E) Bs kt kr (sh w i) (sh w j) x1 x2 (o w i) (o w j))
                         (fkCBFxcte22 (e_tables E) Bs kt kr (sh w i) (sh w j) x2 (o w j) (o w j)))
  | KCLTxycte => (* :864-874, the module connections.kCLTxycte does not exist *)
    go _ <- calc_kt_kr E i j XcteYcte; araise AttributeError
  | SB_TSL =>
    go lin <- alift (key (cn_tsl cn)); go w <- aworld;
    go kt <- alift (calc_kw_tsl (xp (w_panel w i)) (xp (w_panel w j)) lin);
    go t1 <- alift (sum_plyts (xp (w_panel w i))); go t2 <- alift (sum_plyts (xp (w_panel w j)));
    let dsb := t1 / 2 + t2 / 2 in
    alift (add3 acc size (fkCSB11 (e_tables E) kt dsb (sh w i) (o w i) (o w i))
                         (fkCSB12 (e_tables E) kt dsb (sh w i) (sh w j) (o w i) (o w j))
                         (fkCSB22 (e_tables E) kt (sh w i) (sh w j) (o w j) (o w j)))
  | OtherFunc => araise ValueError
  end.

(* multidomain.py:779-799: the panel that comes first in the assembly is pA; when p1 and p2 are
   exchanged so are the positions, in the user's dictionary *)
Definition swap_keys (cn : conn) : conn :=
  match cn_func cn with
  | SB => cn
  | _ =>
    let '(x1, x2) := match cn_x1 cn, cn_x2 cn with Some a, Some b => (Some b, Some a) | a, b => (a, b) end in
    let '(y1, y2) := match cn_y1 cn, cn_y2 cn with Some a, Some b => (Some b, Some a) | a, b => (a, b) end in
    mkConn (cn_p1 cn) (cn_p2 cn) (cn_func cn) x1 x2 y1 y2 (cn_tsl cn)
  end.

(* pA and pB of the last iteration, unbound at first *)
Definition order_pair (w : world) (cn : conn) (prev : option (nat * nat)) : res (conn * option (nat * nat)) :=
  match xp_start (w_panel w (cn_p1 cn)), xp_start (w_panel w (cn_p2 cn)) with
  | Some a, Some b =>
    if (a <? b)%nat then Ok (cn, Some (cn_p1 cn, cn_p2 cn))
    else if (b <? a)%nat then Ok (swap_keys cn, Some (cn_p2 cn, cn_p1 cn))
    else Ok (cn, prev)
  | _, _ => Err TypeError
  end.

Fixpoint put_nth (pos : nat) (cn : conn) (l : list conn) : list conn :=
  match l, pos with
  | [], _ => []
  | _ :: l', 0%nat => cn :: l'
  | x :: l', S q => x :: put_nth q cn l'
  end.
Definition write_conn (k pos : nat) (cn : conn) : amethod unit := fun w s => (put_conn w k (put_nth pos cn (w_conn w k)), s, Ok tt).

(* multidomain.py:779-895: the loop over the dictionaries l of the list k, the first one at position
   pos. The dictionaries are distinct objects, so that those not yet visited are unchanged. *)
Fixpoint conn_loop (E : env) (Bs : basis) (size k pos : nat) (l : list conn) (prev : option (nat * nat)) (acc : connmat) : amethod connmat :=
  match l with
  | [] => aret acc
  | cn :: l' =>
    go w <- aworld;
    go oc <- alift (order_pair w cn prev);
    go _ <- write_conn k pos (fst oc);
    match snd oc with
    | Some ij =>
      go acc' <- add_conn E Bs size (fst oc) (fst ij) (snd ij) acc;
      conn_loop E Bs size k (S pos) l' (snd oc) acc'
    | None => (* pA is read first, except with an unknown func or without tsl_type *)
      match cn_func cn, cn_tsl cn with
      | OtherFunc, _ => araise ValueError
      | SB_TSL, None => araise KeyError
      | _, _ => araise UnboundLocalError
      end
    end
  end.

(* finalize_symmetric_matrix (structsolve) reads attributes that a float does not have *)
Definition cfinal (fin : bool) (m : connmat) : res connmat :=
  if fin then match m with CZero => Err AttributeError | CMat n K => Ok (CMat n (finalize_symmetric K)) end else Ok m.

(* multidomain.py:757-906 get_kC_conn; conn is a reference to a list of dictionaries. `Bs` holds the scalar
   functions of the compiled code. *)
Definition get_kC_conn (E : env) (Bs : basis) (arg : option nat) (fin : bool) : amethod connmat :=
  go self <- aself;
  match (match arg with Some k => Some k | None => as_conn self end) with
  | None => araise RuntimeError
  | Some k =>
    match as_kC_conn self with
    | Some m => aret m
    | None =>
      go size <- asm_size;
      go w <- aworld;
      go m <- conn_loop E Bs size k 0 (w_conn w k) None CZero;
      go m' <- alift (cfinal fin m);
      fun w s => (w, mkAsm (as_panels s) (as_conn s) (Some m') (as_cores s), Ok m')
    end
  end.

(* the loop `for p in self.panels: K += p.calc(...)`; None is the initial number 0 *)
Definition oadd (a : option matrix) (M : matrix) : option matrix :=
  Some (match a with None => M | Some K => fun r s => K r s + M r s end).
Fixpoint sum_panels (call : nat -> method matrix) (ids : list nat) (acc : option matrix) : amethod (option matrix) :=
  match ids with
  | [] => aret acc
  | i :: ids' =>
    go w <- aworld;
    match xp_start (w_panel w i) with
    | None => araise ValueError
    | Some o => go M <- on_panel i (call o); sum_panels call ids' (oadd acc M)
    end
  end.
Definition ofinal (fin : bool) (a : option matrix) : res (option matrix) :=
  if fin then match a with None => Err AttributeError | Some K => Ok (Some (finalize_symmetric K)) end else Ok a.
Definition md_args (size o : nat) (c : option carg) (NL : bool) : kargs := mkKargs (SInt size) o o false c None None None None NL.
(* check_c(c, size) *)
Definition acheck (c : option carg) (size : nat) : amethod unit :=
  match c with None => aret tt | Some c => go _ <- alift (check_c c size); aret tt end.
(* K += kC_conn: ValueError (inconsistent shapes) if the cached matrix has another size *)
Definition add_connmat (size : nat) (a : option matrix) (m : connmat) : res (option matrix) :=
  match m with
  | CZero => Ok a
  | CMat n K => match a with None => Ok (Some K) | Some _ => if (n =? size)%nat then Ok (oadd a K) else Err ValueError end
  end.

(* multidomain.py:909-955 calc_kC *)
Definition asm_kC (E : env) (Bs : basis) (arg : option nat) (c : option carg) (fin : bool) : amethod (option matrix) :=
  go size <- asm_size;
  go _ <- acheck c size;
  go s <- aself;
  go kC <- sum_panels (fun o => calc_kC E (md_args size o c false)) (as_panels s) None;
  go kC1 <- alift (ofinal fin kC);
  go m <- get_kC_conn E Bs arg true;
  alift (add_connmat size kC1 m).

(* multidomain.py:958-989 calc_kG *)
Definition asm_kG (E : env) (c : option carg) (fin : bool) : amethod (option matrix) :=
  go size <- asm_size;
  go _ <- acheck c size;
  go s <- aself;
  go kG <- sum_panels (fun o => calc_kG E (md_args size o c false)) (as_panels s) None;
  alift (ofinal fin kG).

(* multidomain.py:992-1005 calc_kM *)
Definition asm_kM (E : env) (fin : bool) : amethod (option matrix) :=
  go size <- asm_size;
  go s <- aself;
  go kM <- sum_panels (fun o => calc_kM E (SInt size) o o None None None None false) (as_panels s) None;
  alift (ofinal fin kM).

(* multidomain.py:1008-1026 calc_kT: Shell.calc_kC (shell.py:364-367) has no argument `inc` *)
Definition calc_kC_accepts_inc : bool := false.
Definition asm_kT (E : env) (Bs : basis) (c : option carg) (fin : bool) : amethod (option matrix) :=
  go size <- asm_size;
  go s <- aself;
  go kT <- sum_panels (fun o =>
    if calc_kC_accepts_inc
    then do kC <- calc_kC E (md_args size o c true); do kG <- calc_kG E (md_args size o c true); mret (fun r s => kC r s + kG r s)
    else mraise TypeError) (as_panels s) None;
  go kT1 <- alift (ofinal fin kT);
  go m <- get_kC_conn E Bs None true;
  alift (add_connmat size kT1 m).

(* vectors; the initial number 0 behaves as a vector of zeros *)
Definition vadd (u v : nat -> R) : nat -> R := fun k => u k + v k.
Fixpoint sum_vectors (call : nat -> nat -> method (nat -> R)) (ids : list nat) (acc : nat -> R) : amethod (nat -> R) :=
  match ids with
  | [] => aret acc
  | i :: ids' =>
    go w <- aworld;
    match xp_start (w_panel w i) with
    | None => araise ValueError
    | Some o => go v <- on_panel i (call i o); sum_vectors call ids' (vadd acc v)
    end
  end.
(* kC_conn*c *)
Definition conn_times (size : nat) (m : connmat) (c : list R) : res (nat -> R) :=
  match m with
  | CZero => if (length c =? size)%nat then Ok (fun _ => 0) else Err ValueError
  | CMat n K => if ((length c =? n) && (n =? size))%nat%bool then Ok (fun r => sumn n (fun s => K r s * nth s c 0)) else Err ValueError
  end.

(* multidomain.py:1029-1041 calc_fint *)
Definition asm_fint (E : env) (Bs : basis) (c : list R) : amethod (nat -> R) :=
  go size <- asm_size;
  go s <- aself;
  go f <- sum_vectors (fun _ o => do u <- calc_fint E c (SInt size) o None None None; mret (vdense u)) (as_panels s) (fun _ => 0);
  go m <- get_kC_conn E Bs None true;
  go g <- alift (conn_times size m c);
  aret (vadd f g).

(* multidomain.py:1044-1055 calc_fext; Bv holds the vector routines of the compiled code *)
Definition asm_fext (E : env) (Bv : basis) (inc : R) : amethod (nat -> R) :=
  go size <- asm_size;
  go s <- aself;
  go w <- aworld;
  sum_vectors (fun i o => do l <- calc_fext E Bv (xp_loads (w_panel w i)) inc (SInt size) o; mret (vec l)) (as_panels s) (fun _ => 0).

(* ------------------------------------------------- fields of a group of panels *)
(* c[a:b] *)
Definition pslice {A} (a b : option nat) (l : list A) : list A :=
  let lo := default 0%nat a in let hi := default (length l) b in firstn (hi - lo) (skipn lo l).
(* the points, and the fields at the points *)
Definition mfield : Type := (ndarray * ndarray) * list (list R).

Section Fields.
Variables (sched : scheduler) (Bv : basis) (nc : nat).
(* fuvw(c_panel, panel, x, y, out_num_cores) of one panel at the points XY *)
Definition one_uvw (x : xpanel) (c : list R) (XY : ndarray * ndarray) : res mfield :=
  match pn_model (xp x) with
  | Some (Known _) => rbind (fuvw sched Bv (pslice (xp_start x) (xp_end x) c) (kernel_view (xp x)) (snd (fst XY)) (snd (snd XY)) nc)
                        (fun f => Ok (XY, f))
  | _ => Err KeyError
  end.
Definition one_strain (NL : bool) (x : xpanel) (c : list R) (XY : ndarray * ndarray) : res mfield :=
  match pn_model (xp x), pn_r (xp x) with
  | Some (Known _), Some _ =>
    rbind (fstrain sched Bv (pslice (xp_start x) (xp_end x) c) (kernel_view (xp x)) (snd (fst XY)) (snd (snd XY)) nc NL) (fun f => Ok (XY, f))
  | Some (Known _), None => Err TypeError
  | _, _ => Err KeyError
  end.
Definition one_stress (NL : bool) (x : xpanel) (c : list R) (XY : ndarray * ndarray) : res mfield :=
  rbind (one_strain NL x c XY) (fun Ef =>
  match pn_ABD (xp x) with
  | None => Err ValueError
  | Some F =>
    let e k q := nth q (nth k (snd Ef) []) 0 in
    Ok (fst Ef, map (fun r => map (fun q =>
       e 0%nat q * F r 0%nat + e 1%nat q * F r 1%nat + e 2%nat q * F r 2%nat
       + e 3%nat q * F r 3%nat + e 4%nat q * F r 4%nat + e 5%nat q * F r 5%nat)
       (seq 0 (length (nth 0 (snd Ef) [])))) (seq 0 6))
  end).

(* multidomain.py:18-29 default_field, :351-405 uvw, :408-467 strain, :470-531 stress: the loop over the
   panels of the group; `one` is the calculation for one panel *)
Fixpoint group_grid (one : xpanel -> list R -> ndarray * ndarray -> res mfield) (h : nat -> xpanel) (ids : list nat)
    (c : list R) (group gridx gridy : nat) : res (list mfield) :=
  match ids with
  | [] => Ok []
  | i :: ids' =>
    let x := h i in
    if (xp_group x =? group)%nat
    then rbind (one x c (meshgrid (linspace (sh_a (pn_sh (xp x))) gridx) (linspace (sh_b (pn_sh (xp x))) gridy))) (fun f =>
         rbind (group_grid one h ids' c group gridx gridy) (fun fs => Ok (f :: fs)))
    else group_grid one h ids' c group gridx gridy
  end.

(* multidomain.py:534-603 uvw_gauss_points, :606-676 strain_gauss_points, :679-755 stress_gauss_points:
   a missing x_gauss or y_gauss is replaced, for the rest of the loop, by 50 points of the panel *)
Fixpoint group_gauss (one : xpanel -> list R -> ndarray * ndarray -> res mfield) (h : nat -> xpanel) (ids : list nat)
    (c : list R) (group : nat) (xg yg : option (list R)) : res (list mfield) :=
  match ids with
  | [] => Ok []
  | i :: ids' =>
    let x := h i in
    if (xp_group x =? group)%nat
    then match pn_model (xp x) with
         | Some (Known _) =>
           match xg, yg with
           | None, None => Err ValueError
           | _, _ =>
             let X := default (linspace (sh_a (pn_sh (xp x))) 50) xg in
             let Y := default (linspace (sh_b (pn_sh (xp x))) 50) yg in
             rbind (one x c (meshgrid X Y)) (fun f =>
             rbind (group_gauss one h ids' c group (Some X) (Some Y)) (fun fs => Ok (f :: fs)))
           end
         | _ => Err KeyError
         end
    else group_gauss one h ids' c group xg yg
  end.
End Fields.
Definition asm_uvw (sched : scheduler) (Bv : basis) (c : list R) (group gridx gridy : nat) : amethod (list mfield) := fun w s =>
  (w, s, group_grid (one_uvw sched Bv (as_cores s)) (w_panel w) (as_panels s) c group gridx gridy).
Definition asm_strain (sched : scheduler) (Bv : basis) (c : list R) (group gridx gridy : nat) (NL : bool) : amethod (list mfield) := fun w s =>
  (w, s, group_grid (one_strain sched Bv (as_cores s) NL) (w_panel w) (as_panels s) c group gridx gridy).
Definition asm_stress (sched : scheduler) (Bv : basis) (c : list R) (group gridx gridy : nat) (NL : bool) : amethod (list mfield) := fun w s =>
  (w, s, group_grid (one_stress sched Bv (as_cores s) NL) (w_panel w) (as_panels s) c group gridx gridy).
Definition asm_uvw_gauss (sched : scheduler) (Bv : basis) (c : list R) (group : nat) (xg yg : option (list R)) : amethod (list mfield) := fun w s =>
  (w, s, group_gauss (one_uvw sched Bv (as_cores s)) (w_panel w) (as_panels s) c group xg yg).
Definition asm_strain_gauss (sched : scheduler) (Bv : basis) (c : list R) (group : nat) (xg yg : option (list R)) (NL : bool) : amethod (list mfield) := fun w s =>
  (w, s, group_gauss (one_strain sched Bv (as_cores s) NL) (w_panel w) (as_panels s) c group xg yg).
Definition asm_stress_gauss (sched : scheduler) (Bv : basis) (c : list R) (group : nat) (xg yg : option (list R)) (NL : bool) : amethod (list mfield) := fun w s =>
  (w, s, group_gauss (one_stress sched Bv (as_cores s) NL) (w_panel w) (as_panels s) c group xg yg).
