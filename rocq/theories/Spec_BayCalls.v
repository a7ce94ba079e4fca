(* Calls of a bay that follow each other, and bays that differ only in where panels and pads end. *)
From Coq Require Import Reals List Arith.
From Verif Require Import Base_Sum Model_Types Model_Coo Model_Result Model_Num Model_Shell Model_Multi Model_Bay Spec_Algebra Spec_Shell Spec_Window Spec_Bay.
Import ListNotations.
Open Scope R_scope.

(* successful calls of the bay, in any order and number *)
Inductive bay_calls (V : benv) : bay -> bay -> Prop :=
| calls_none B : bay_calls V B B
| calls_kC B B1 B2 K : bay_calls V B B1 -> bay_kC V B1 = (B2, Ok K) -> bay_calls V B B2
| calls_kG B B1 B2 c K : bay_calls V B B1 -> bay_kG V c B1 = (B2, Ok K) -> bay_calls V B B2
| calls_kM B B1 B2 K : bay_calls V B B1 -> bay_kM V B1 = (B2, Ok K) -> bay_calls V B B2.

(* the same panels, with other limits y1 and y2 *)
Definition panels_moved (l l' : list panel) : Prop :=
  Forall2 (fun p q => exists y1 y2, q = limits p (sh_x1 (pn_sh p)) (sh_x2 (pn_sh p)) y1 y2) l l'.
(* the same 1D stiffeners, with pads of another width *)
Definition with_bb (s : stiff1) (bb : R) : stiff1 :=
  mkS1 (s1_p1 s) (s1_p2 s) (s1_rho s) (s1_ys s) bb (s1_bf s) (s1_bdef s) (s1_fdef s) (s1_Fx s)
    (s1_base s) (s1_flam s) (s1_hf s) (s1_dbf s) (s1_Jxx s) (s1_E1 s) (s1_S1 s) (s1_F1 s).
Definition pads_resized (l l' : list stiff1) : Prop := Forall2 (fun s t => exists bb, t = with_bb s bb) l l'.

(* a new bay to which panels and stiffeners were added, and of which no matrix was asked *)
Inductive assembled (V : benv) : bay -> Prop :=
| asm_new B : by_panels B = [] -> by_s1 B = [] -> by_s2 B = [] -> by_size B = None -> assembled V B
| asm_panel B y1 y2 stack plyts plyt props prop mdl rho : assembled V B -> assembled V (add_panel y1 y2 stack plyts plyt props prop mdl rho B)
| asm_1d B ys rho bb bf bd fd : assembled V B -> assembled V (fst (add_bladestiff1d V ys rho bb bf bd fd B))
| asm_2d B ys rho bb bf bd fd mf nf : assembled V B -> assembled V (fst (add_bladestiff2d V ys rho bb bf bd fd mf nf B)).
