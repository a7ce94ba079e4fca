(* External forces: /repo/panels/shell_fext.py, the methods of Shell that define loads and
   prescribed displacements, and Shell.calc_stiffness_point_constraint. Definitions only. *)
From Coq Require Import Reals List Arith Bool.
From Verif Require Import Base_Sum Model_Types Model_Coo Model_Result Model_Num Model_DB Model_Bardell Model_Shell Model_Field.
Import ListNotations.
Open Scope R_scope.

(* an entry [x, y, fx, fy, fz] of point_loads, point_loads_inc, point_pds, point_pds_inc *)
Record pload := mkPload { pl_x : R; pl_y : R; pl_fx : R; pl_fy : R; pl_fz : R }.
(* an entry [x, y, funcx, funcy, funcz] of distr_loads, distr_loads_inc, distr_pds, distr_pds_inc.
   The user's functions are total functions of the coordinate here: exceptions raised by them and
   side effects in them are not modelled. *)
Record dload := mkDload { dl_x : option R; dl_y : option R;
  dl_fx : option (R -> R); dl_fy : option (R -> R); dl_fz : option (R -> R) }.

(* the eight lists kept by a Shell object, shell.py:187-197 (all empty at construction) *)
Record loads := mkLoads {
  ld_point : list pload; ld_point_inc : list pload;
  ld_distr : list dload; ld_distr_inc : list dload;
  ld_ppd : list pload; ld_ppd_inc : list pload;
  ld_dpd : list dload; ld_dpd_inc : list dload }.
Definition no_loads : loads := mkLoads [] [] [] [] [] [] [] [].

Definition add_point (L : loads) (l : pload) : loads := mkLoads (ld_point L ++ [l]) (ld_point_inc L) (ld_distr L) (ld_distr_inc L) (ld_ppd L) (ld_ppd_inc L) (ld_dpd L) (ld_dpd_inc L).
Definition add_point_inc (L : loads) (l : pload) : loads := mkLoads (ld_point L) (ld_point_inc L ++ [l]) (ld_distr L) (ld_distr_inc L) (ld_ppd L) (ld_ppd_inc L) (ld_dpd L) (ld_dpd_inc L).
Definition add_distr (L : loads) (l : dload) : loads := mkLoads (ld_point L) (ld_point_inc L) (ld_distr L ++ [l]) (ld_distr_inc L) (ld_ppd L) (ld_ppd_inc L) (ld_dpd L) (ld_dpd_inc L).
Definition add_distr_inc (L : loads) (l : dload) : loads := mkLoads (ld_point L) (ld_point_inc L) (ld_distr L) (ld_distr_inc L ++ [l]) (ld_ppd L) (ld_ppd_inc L) (ld_dpd L) (ld_dpd_inc L).
Definition add_ppd (L : loads) (l : pload) : loads := mkLoads (ld_point L) (ld_point_inc L) (ld_distr L) (ld_distr_inc L) (ld_ppd L ++ [l]) (ld_ppd_inc L) (ld_dpd L) (ld_dpd_inc L).
Definition add_ppd_inc (L : loads) (l : pload) : loads := mkLoads (ld_point L) (ld_point_inc L) (ld_distr L) (ld_distr_inc L) (ld_ppd L) (ld_ppd_inc L ++ [l]) (ld_dpd L) (ld_dpd_inc L).
Definition add_dpd (L : loads) (l : dload) : loads := mkLoads (ld_point L) (ld_point_inc L) (ld_distr L) (ld_distr_inc L) (ld_ppd L) (ld_ppd_inc L) (ld_dpd L ++ [l]) (ld_dpd_inc L).
Definition add_dpd_inc (L : loads) (l : dload) : loads := mkLoads (ld_point L) (ld_point_inc L) (ld_distr L) (ld_distr_inc L) (ld_ppd L) (ld_ppd_inc L) (ld_dpd L) (ld_dpd_inc L ++ [l]).

(* methods that edit the lists: new lists and outcome *)
Definition edit : Type := loads -> loads * res unit.

(* `if cte: self.xxx.append(l) else: self.xxx_inc.append(l)` *)
Definition append_to {A} (cte : bool) (f g : loads -> A -> loads) (l : A) : edit := fun L =>
  (if cte then f L l else g L l, Ok tt).

(* shell.py:855-878 add_point_load *)
Definition add_point_load (x y fx fy fz : R) (cte : bool) : edit :=
  append_to cte add_point add_point_inc (mkPload x y fx fy fz).

(* `any((funcx, funcy, funcz))`: a function is always true, None is false *)
Definition any_func (f g h : option (R -> R)) : bool := (is_some f || is_some g || is_some h)%bool.
(* `any((ku, kv, kw))`: a float is false when it is zero *)
Definition truthy (k : option R) : bool :=
  match k with Some k => if Req_EM_T k 0 then false else true | None => false end.
Definition any_const (k l m : option R) : bool := (truthy k || truthy l || truthy m)%bool.

(* shell.py:881-901 add_distr_load_fixed_x. A fixed position of None is possible in Python. *)
Definition add_distr_load_fixed_x (x : option R) (fx fy fz : option (R -> R)) (cte : bool) : edit := fun L =>
  if negb (any_func fx fy fz) then (L, Err ValueError)
  else append_to cte add_distr add_distr_inc (mkDload x None fx fy fz) L.
(* shell.py:904-924 add_distr_load_fixed_y *)
Definition add_distr_load_fixed_y (y : option R) (fx fy fz : option (R -> R)) (cte : bool) : edit := fun L =>
  if negb (any_func fx fy fz) then (L, Err ValueError)
  else append_to cte add_distr add_distr_inc (mkDload None y fx fy fz) L.

(* shell.py:927-951 add_point_pd *)
Definition add_point_pd (x y ku up kv vp kw wp : R) (cte : bool) : edit :=
  append_to cte add_ppd add_ppd_inc (mkPload x y (ku*up) (kv*vp) (kw*wp)).

(* shell.py:984-995: one component of a distributed prescribed displacement *)
Definition pd_component (k : option R) (f : option (R -> R)) : res (option (R -> R)) :=
  match k, f with
  | None, None => Ok None
  | Some k, Some f => Ok (Some (fun t => k * f t))
  | _, _ => Err ValueError
  end.
Definition pd_entry (x y : option R) (ku kv kw : option R) (fu fv fw : option (R -> R)) : res dload :=
  if negb (any_const ku kv kw) then Err ValueError else
  if negb (any_func fu fv fw) then Err ValueError else
  rbind (pd_component ku fu) (fun nu => rbind (pd_component kv fv) (fun nv => rbind (pd_component kw fw) (fun nw =>
  Ok (mkDload x y nu nv nw)))).
Definition add_pd (d : res dload) (cte : bool) : edit := fun L =>
  match d with Ok d => append_to cte add_dpd add_dpd_inc d L | Err e => (L, Err e) end.
(* shell.py:954-999 add_distr_pd_fixed_x *)
Definition add_distr_pd_fixed_x (x : option R) (ku kv kw : option R) (fu fv fw : option (R -> R)) (cte : bool) : edit :=
  add_pd (pd_entry x None ku kv kw fu fv fw) cte.
(* shell.py:1002-1045 add_distr_pd_fixed_y *)
Definition add_distr_pd_fixed_y (y : option R) (ku kv kw : option R) (fu fv fw : option (R -> R)) (cte : bool) : edit :=
  add_pd (pd_entry None y ku kv kw fu fv fw) cte.

(* ------------------------------------------------- shell_fext.py *)
(* the array g (5 rows) after the stores of one call of fg; g is allocated once (shell_fext.py:28)
   and handed from call to call *)
Definition garray : Type := nat -> nat -> R.
Definition store_g (g : garray) (l : list ((nat * nat) * R)) : garray :=
  fold_left (fun g st r c => if ((r =? fst (fst st)) && (c =? snd (fst st)))%nat%bool then snd st else g r c) l g.
Definition zeros_g : garray := fun _ _ => 0.
(* fg writes vec_f results of NMAX entries: outside the arrays for more terms *)
Definition call_fg (Bs : basis) (s : shell) (x y : R) (g : garray) : res garray :=
  if ((sh_m s <=? NMAX) && (sh_n s <=? NMAX))%nat%bool then Ok (store_g g (fg Bs s x y)) else Err OutOfBounds.

(* `fpt.dot(g).ravel()` with `fpt = np.array([[fx, fy, fz, 0, 0]])*inc_i` *)
Definition dot_g (fx fy fz inc_i : R) (g : garray) (k : nat) : R :=
  (fx * inc_i) * g 0%nat k + (fy * inc_i) * g 1%nat k + (fz * inc_i) * g 2%nat k
  + (0 * inc_i) * g 3%nat k + (0 * inc_i) * g 4%nat k.

(* `fext[col0:col1] += v` with col1 = col0 + n: ValueError (shapes that cannot be broadcast) when the
   slice is cut by the end of fext. n is a multiple of 3, so the special case n = 1 does not arise. *)
Definition slice_add (col0 n : nat) (v : nat -> R) (f : list R) : res (list R) :=
  if (n =? 0)%nat then Ok f else
  if (col0 + n <=? length f)%nat
  then Ok (map (fun k => nth k f 0 + (if ((col0 <=? k) && (k <? col0 + n))%nat%bool then v (k - col0)%nat else 0)) (seq 0 (length f)))
  else Err ValueError.

(* a for loop whose body may raise *)
Fixpoint rfold {S A} (body : S -> A -> res S) (l : list A) (st : S) : res S :=
  match l with [] => Ok st | x :: l' => rbind (body st x) (fun st' => rfold body l' st') end.

Section Fext.
Variables (Q : rule) (Bs : basis) (s : shell) (col0 n : nat).
(* what the loops carry: g and fext *)
Definition fstate : Type := garray * list R.

(* shell_fext.py:42-45 and :103-113: one point *)
Definition add_at (wt : R) (x y fx fy fz inc_i : R) (st : fstate) : res fstate :=
  rbind (call_fg Bs s x y (fst st)) (fun g =>
  rbind (slice_add col0 n (fun k => wt * dot_g fx fy fz inc_i g k) (snd st)) (fun f => Ok (g, f))).
Definition point_step (st : fstate) (l : pload * R) : res fstate :=
  add_at 1 (pl_x (fst l)) (pl_y (fst l)) (pl_fx (fst l)) (pl_fy (fst l)) (pl_fz (fst l)) (snd l) st.

(* `func if func is not None else lambda _: 0` *)
Definition or_zero (f : option (R -> R)) : R -> R := match f with Some f => f | None => fun _ => 0 end.

(* shell_fext.py:55-86 and :128-170: one distributed load; Q is get_points_weights *)
Definition distr_step (st : fstate) (l : dload * R) : res fstate :=
  let fx := or_zero (dl_fx (fst l)) in let fy := or_zero (dl_fy (fst l)) in let fz := or_zero (dl_fz (fst l)) in
  match dl_x (fst l), dl_y (fst l) with
  | None, None => Err ValueError
  | Some _, Some _ => Err ValueError
  | None, Some ycte =>
    rfold (fun st q => let xvar := (fst q + 1) * sh_a s / 2 in
      add_at (snd q * (sh_a s / 2)) xvar ycte (fx xvar) (fy xvar) (fz xvar) (snd l) st) (Q (sh_m s)) st
  | Some xcte, None =>
    rfold (fun st q => let yvar := (fst q + 1) * sh_b s / 2 in
      add_at (snd q * (sh_b s / 2)) xcte yvar (fx yvar) (fy yvar) (fz yvar) (snd l) st) (Q (sh_n s)) st
  end.

(* shell_fext.py:35-40 etc.: the constant entries get the factor 1., the others inc *)
Definition tagged {A} (inc : R) (cte incd : list A) : list (A * R) :=
  map (fun l => (l, 1)) cte ++ map (fun l => (l, inc)) incd.

Definition fext_loops (L : loads) (inc : R) (st : fstate) : res fstate :=
  rbind (rfold point_step (tagged inc (ld_point L) (ld_point_inc L)) st) (fun st =>
  rbind (rfold distr_step (tagged inc (ld_distr L) (ld_distr_inc L)) st) (fun st =>
  rbind (rfold point_step (tagged inc (ld_ppd L) (ld_ppd_inc L)) st) (fun st =>
  rfold distr_step (tagged inc (ld_dpd L) (ld_dpd_inc L)) st))).
End Fext.

(* shell_fext.py:6-172. Q is get_points_weights, Bs the vector routines used by fg *)
Definition shell_fext (Q : rule) (Bs : basis) (L : loads) (inc : R) (sz : size_arg) (col0 : nat) : method (list R) :=
  do p <- mget;
  match pn_model p with
  | Some (Known _) =>
    do size <- eval_size sz;
    do n <- get_size;
    do p <- mget;
    mlift (rmap snd (fext_loops Q Bs (kernel_view p) col0 n L inc (zeros_g, repeat 0 size)))
  | _ => mraise ValueError
  end.

(* shell.py:1095-1133 calc_fext *)
Definition calc_fext (E : env) (Bs : basis) (L : loads) (inc : R) (sz : size_arg) (col0 : nat) : method (list R) :=
  rebuild E ;; shell_fext (e_rule E) Bs L inc sz col0.

(* shell.py:1048-1092 calc_stiffness_point_constraint; np.outer(g_r, g_r) for the rows asked for *)
Definition outer (k : R) (on : bool) (g : garray) (row : nat) : matrix :=
  fun r c => if on then k * (g row r * g row c) else 0.
Definition calc_stiffness_point_constraint (Bs : basis) (x y : R) (u v w phix phiy : bool) (kuvw kphi : R) : method matrix :=
  the_model ;; do n <- get_size; do p <- mget;
  do g <- mlift (call_fg Bs (kernel_view p) x y zeros_g);
  mret (fun r c => outer kuvw u g 0 r c + outer kuvw v g 1 r c + outer kuvw w g 2 r c
                   + outer kphi phix g 3 r c + outer kphi phiy g 4 r c).

(* ------------------------------------------------- connections/kCpd.pyx *)
(* /repo/panels/multidomain/connections/kCpd.pyx:25-151 fkCpd, loop nest jlik, innermost block at lines 135-146 *)
Definition fkCpd_ker (Bs : basis) (ku kv kw : R) (s : shell) (xp yp : R) (i k j l : nat) : block :=
  let xip := 2*xp/sh_a s - 1 in let etap := 2*yp/sh_b s - 1 in
  let fAu := bf Bs i xip (sh_xu s) in let fAv := bf Bs i xip (sh_xv s) in let fAw := bf Bs i xip (sh_xw s) in
  let fBu := bf Bs k xip (sh_xu s) in let fBv := bf Bs k xip (sh_xv s) in let fBw := bf Bs k xip (sh_xw s) in
  let gAu := bf Bs j etap (sh_yu s) in let gAv := bf Bs j etap (sh_yv s) in let gAw := bf Bs j etap (sh_yw s) in
  let gBu := bf Bs l etap (sh_yu s) in let gBv := bf Bs l etap (sh_yv s) in let gBw := bf Bs l etap (sh_yw s) in
  [ (0%nat, 0%nat, ku*fAu*fBu*gAu*gBu);
    (1%nat, 1%nat, kv*fAv*fBv*gAv*gBv);
    (2%nat, 2%nat, kw*fAw*fBw*gAw*gBw) ].
Definition fkCpd (Bs : basis) (ku kv kw : R) (s : shell) (xp yp : R) (size row0 col0 : nat) : res coo :=
  to_shape size (loop_jlik true row0 col0 (sh_m s) (sh_n s) (sh_m s) (sh_n s) (fkCpd_ker Bs ku kv kw s xp yp)).

(* kCpd.pyx:154-273 fkCld_xcte, loop nest jlik, innermost block at lines 258-269: the three values
   are stored at the position (row+2, col+2) *)
Definition fkCld_xcte_ker (T : tables) (Bs : basis) (ku kv kw : R) (s : shell) (xp : R) (i k j l : nat) : block :=
  let b := sh_b s in let xip := 2*xp/sh_a s - 1 in
  let gAugBu := t_ff T j l (sh_yu s) (sh_yu s) in
  let gAvgBv := t_ff T j l (sh_yv s) (sh_yv s) in
  let gAwgBw := t_ff T j l (sh_yw s) (sh_yw s) in
  let fAu := bf Bs i xip (sh_xu s) in let fAv := bf Bs i xip (sh_xv s) in let fAw := bf Bs i xip (sh_xw s) in
  let fBu := bf Bs k xip (sh_xu s) in let fBv := bf Bs k xip (sh_xv s) in let fBw := bf Bs k xip (sh_xw s) in
  [ (2%nat, 2%nat, ku*b*fAu*fBu*gAugBu/2);
    (2%nat, 2%nat, kv*b*fAv*fBv*gAvgBv/2);
    (2%nat, 2%nat, kw*b*fAw*fBw*gAwgBw/2) ].
Definition fkCld_xcte (T : tables) (Bs : basis) (ku kv kw : R) (s : shell) (xp : R) (size row0 col0 : nat) : res coo :=
  to_shape size (loop_jlik true row0 col0 (sh_m s) (sh_n s) (sh_m s) (sh_n s) (fkCld_xcte_ker T Bs ku kv kw s xp)).

(* kCpd.pyx:277-397 fkCld_ycte, loop nest ikjl, innermost block at lines 382-393 *)
Definition fkCld_ycte_ker (T : tables) (Bs : basis) (ku kv kw : R) (s : shell) (yp : R) (i k j l : nat) : block :=
  let a := sh_a s in let etap := 2*yp/sh_b s - 1 in
  let fAufBu := t_ff T i k (sh_xu s) (sh_xu s) in
  let fAvfBv := t_ff T i k (sh_xv s) (sh_xv s) in
  let fAwfBw := t_ff T i k (sh_xw s) (sh_xw s) in
  let gAu := bf Bs j etap (sh_yu s) in let gAv := bf Bs j etap (sh_yv s) in let gAw := bf Bs j etap (sh_yw s) in
  let gBu := bf Bs l etap (sh_yu s) in let gBv := bf Bs l etap (sh_yv s) in let gBw := bf Bs l etap (sh_yw s) in
  [ (2%nat, 2%nat, ku*a*fAufBu*gAu*gBu/2);
    (2%nat, 2%nat, kv*a*fAvfBv*gAv*gBv/2);
    (2%nat, 2%nat, kw*a*fAwfBw*gAw*gBw/2) ].
Definition fkCld_ycte (T : tables) (Bs : basis) (ku kv kw : R) (s : shell) (yp : R) (size row0 col0 : nat) : res coo :=
  to_shape size (loop_ikjl true row0 col0 (sh_m s) (sh_n s) (sh_m s) (sh_n s) (fkCld_ycte_ker T Bs ku kv kw s yp)).
