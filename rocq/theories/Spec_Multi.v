(* What the parts of an assembly are, independently of how MultiDomain calculates them. Definitions
   only. *)
From Coq Require Import Reals List Arith Bool.
From Verif Require Import Base_Sum Model_Types Model_Coo Model_Result Model_Num Model_DB Model_Shell Model_Field Model_Fext Model_Multi Spec_Algebra Spec_Panel.
Import ListNotations.
Open Scope R_scope.

(* block-diagonal matrix: blocks (number of rows, entries) one after the other along the diagonal *)
Fixpoint block_diag (bs : list (nat * matrix)) (r t : nat) : R :=
  match bs with
  | [] => 0
  | (n, M) :: bs' =>
    if ((r <? n) && (t <? n))%nat%bool then M r t
    else if ((n <=? r) && (n <=? t))%nat%bool then block_diag bs' (r - n) (t - n)
    else 0
  end.
(* vectors one after the other *)
Fixpoint block_vector (bs : list (nat * (nat -> R))) (k : nat) : R :=
  match bs with
  | [] => 0
  | (n, v) :: bs' => if (k <? n)%nat then v k else block_vector bs' (k - n)
  end.

(* the panels ids of the store h occupy consecutive slices, the first one starting at o *)
Fixpoint laid_out (h : nat -> xpanel) (ids : list nat) (o : nat) : Prop :=
  match ids with
  | [] => True
  | i :: ids' => xp_start (h i) = Some o /\ xp_end (h i) = Some (o + width (h i))%nat /\ laid_out h ids' (o + width (h i))
  end.
Definition total_width (h : nat -> xpanel) (ids : list nat) : nat := list_sum (map (fun i => width (h i)) ids).

(* c[o:o+n] of an optional vector argument *)
Definition part (o n : nat) (c : option carg) : option carg :=
  match c with Some (CVec l) => Some (CVec (firstn n (skipn o l))) | c => c end.

(* the call of calc_kC or calc_kG for a panel on its own *)
Definition alone (fin : bool) (c : option carg) : kargs := mkKargs SNone 0 0 fin c None None None None false.
(* results for panel i on its own, with its part of the vector *)
Definition own_kC (E : env) (h : nat -> xpanel) (fin : bool) (c : option carg) (i : nat) (K : matrix) : Prop :=
  exists a p', xp_start (h i) = Some a /\ calc_kC E (alone fin (part a (width (h i)) c)) (xp (h i)) = (p', Ok K).
Definition own_kG (E : env) (h : nat -> xpanel) (fin : bool) (c : option carg) (i : nat) (K : matrix) : Prop :=
  exists a p', xp_start (h i) = Some a /\ calc_kG E (alone fin (part a (width (h i)) c)) (xp (h i)) = (p', Ok K).
Definition own_kM (E : env) (h : nat -> xpanel) (fin : bool) (i : nat) (K : matrix) : Prop :=
  exists p', calc_kM E SNone 0 0 None None None None fin (xp (h i)) = (p', Ok K).
Definition own_fint (E : env) (h : nat -> xpanel) (c : list R) (i : nat) (f : nat -> R) : Prop :=
  exists a p' u, xp_start (h i) = Some a /\
    calc_fint E (firstn (width (h i)) (skipn a c)) SNone 0 None None None (xp (h i)) = (p', Ok u) /\ f = vdense u.
Definition own_fext (E : env) (Bv : basis) (h : nat -> xpanel) (inc : R) (i : nat) (f : nat -> R) : Prop :=
  exists p' l, calc_fext E Bv (xp_loads (h i)) inc SNone 0 (xp (h i)) = (p', Ok l) /\ f = vec l.
(* the matrices of the panels along the diagonal, in the order of the list *)
Definition diagonal (h : nat -> xpanel) (ids : list nat) (Ks : list matrix) : matrix :=
  block_diag (combine (map (fun i => width (h i)) ids) Ks).
Definition stacked (h : nat -> xpanel) (ids : list nat) (vs : list (nat -> R)) : nat -> R :=
  block_vector (combine (map (fun i => width (h i)) ids) vs).
(* value of the connection matrix *)
Definition conn_entry (m : connmat) (r t : nat) : R := match m with CZero => 0 | CMat _ K => K r t end.
(* an assembly as MultiDomain(panels) leaves it: different panels, one after the other *)
Definition assembled (w : world) (s : assembly) : Prop :=
  as_panels s <> [] /\ NoDup (as_panels s) /\ laid_out (w_panel w) (as_panels s) 0.

(* the sum of the bilinear forms of the panels' own matrices, each on its part of the vectors *)
Definition own_forms (h : nat -> xpanel) (ids : list nat) (Ks : list matrix) (c d : nat -> R) : R :=
  suml (combine ids Ks) (fun iK => let o := default 0%nat (xp_start (h (fst iK))) in
    bilinear (width (h (fst iK))) (snd iK) (own o c) (own o d)).
(* position k belongs to panel i *)
Definition in_slice (h : nat -> xpanel) (i k : nat) : Prop :=
  exists a b, xp_start (h i) = Some a /\ xp_end (h i) = Some b /\ (a <= k < b)%nat.
(* each panel of the group, in the order of the assembly, with its own result *)
Inductive for_group (h : nat -> xpanel) (group : nat) (P : nat -> mfield -> Prop) : list nat -> list mfield -> Prop :=
| fg_nil : for_group h group P [] []
| fg_in i ids f fs : xp_group (h i) = group -> P i f -> for_group h group P ids fs -> for_group h group P (i :: ids) (f :: fs)
| fg_out i ids fs : xp_group (h i) <> group -> for_group h group P ids fs -> for_group h group P (i :: ids) fs.
