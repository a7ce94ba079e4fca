(* Penalty constants for prescribed displacements: /repo/panels/multidomain/connections/penalties.py. No proofs here. *)
From Coq Require Import Reals List.
From Verif Require Import Model_Types Model_Result Model_DB Model_Shell Model_Multi.
Open Scope R_scope.

(* p.lam.A[0, 0] and p.lam.A[1, 1]: AttributeError while p.lam is None *)
Definition with_lam {X} (p : panel) (f : laminate -> X) : res X :=
  match pn_lam p with Some l => Ok (f l) | None => Err AttributeError end.
(* penalties.py:5-12 *)
Definition calc_ku_kv_kw_point_pd (p : panel) : res (R * R * R) :=
  with_lam p (fun l => (A11 l, A22 l, A11 l)).
(* penalties.py:15-21. Division by zero gives inf in the code, 0 here *)
Definition calc_ku_kv_kw_line_pd_xcte (p : panel) : res (R * R * R) :=
  with_lam p (fun l => (A11 l / sh_b (pn_sh p), A22 l / sh_b (pn_sh p), A11 l / sh_b (pn_sh p))).
(* penalties.py:24-30 *)
Definition calc_ku_kv_kw_line_pd_ycte (p : panel) : res (R * R * R) :=
  with_lam p (fun l => (A11 l / sh_a (pn_sh p), A22 l / sh_a (pn_sh p), A11 l / sh_a (pn_sh p))).
