(* Panels pulled at points by springs. Definitions only. *)
From Coq Require Import Reals List Arith.
From Verif Require Import Base_Sum Model_Types Model_Coo Model_Result Spec_Algebra Spec_Fext Spec_Modes.
Open Scope R_scope.

(* the stiffness K of the panel plus the matrices of the springs, each finalized *)
Definition attached (K : nat -> nat -> R) (Ms : list coo) : nat -> nat -> R :=
  fun r t => K r t + suml Ms (fun M => finalize_symmetric (dense M) r t).
Definition solves (N : nat) (K : nat -> nat -> R) (c f : nat -> R) : Prop := forall i, (i < N)%nat -> row N K c i = f i.
(* twice the energy of the springs, stretched from the prescribed displacements to those of U *)
Definition stretch (U : displacements) (inc : R) (pds : list pdef) : R :=
  suml pds (fun q => let t := if pd_cte q then 1 else inc in let u k := U k (pd_x q) (pd_y q) in
    pd_ku q * (u 0%nat - t * pd_up q) ^ 2 + pd_kv q * (u 1%nat - t * pd_vp q) ^ 2 + pd_kw q * (u 2%nat - t * pd_wp q) ^ 2).
Definition spring_like (q : pdef) : Prop := 0 <= pd_ku q /\ 0 <= pd_kv q /\ 0 <= pd_kw q.
(* a single spring of constant k that prescribes the component j = 0, 1 or 2 (u, v or w) *)
Definition pull (j : nat) (x y k v : R) (cte : bool) : pdef :=
  match j with
  | 0%nat => mkPdef x y k v 0 0 0 0 cte
  | 1%nat => mkPdef x y 0 0 k v 0 0 cte
  | _ => mkPdef x y 0 0 0 0 k v cte
  end.
