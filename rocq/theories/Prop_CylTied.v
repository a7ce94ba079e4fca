(* C101: the supports and the seams of the ready-made cylinders leave them no motion without strain. *)
From Coq Require Import Reals List Arith Bool Lia Lra.
From Verif Require Import Base_Sum Model_Types Model_Coo Model_Result Model_Num Model_DB Model_Shell Model_Fext Model_Multi Model_New Model_Cylinder
  Spec_Algebra Spec_Kinematics Spec_Integral Spec_Panel Spec_Shell Spec_Bardell Spec_Multi Spec_MultiConn Spec_Modes Spec_Rigid Spec_Tied Spec_Cylinder
  Proof_AnaApi Proof_CylTied Ex_Panel Ex_Exact Ex_Multi.
From Coq Require Import List.
Import ListNotations.
Open Scope R_scope.

(* the cylinder as it is made, and as the drivers release its end and load it *)
Theorem C101_cylinder : forall height r stack plyt laminaprop n m n' k q w E M, 0 < height -> 0 < r -> stack <> [] -> laminaprop <> [] ->
  (0 < m <= M)%nat -> (0 < n' <= M)%nat -> (M <= 30)%nat ->
  sturdy (e_lib E stack (map (fun _ => plyt) stack) (map (fun _ => laminaprop) stack) (map (fun _ => 0) stack) 0) ->
  tables_integrate (e_tables E) exact_basis M ->
  let create := create_cylinder_assy height r stack plyt laminaprop n m n' k q w in
  forall W s, create = (W, Ok s) \/
    (exists W0 Nxxs, create = (W0, Ok s) /\ W = set_constant_loads n k Nxxs W0) \/
    (exists Nxxs, cylinder_static_world height r stack plyt laminaprop n m n' k q Nxxs w = Ok (W, s)) \/
    (exists Nxx SPLA, cylinder_spla_world height r stack plyt laminaprop n m n' k q Nxx SPLA w = Ok (W, s)) ->
  one_response E q W s.
Proof.
  intros height r stack plyt laminaprop n m n' k q w E M Hh Hr Hst Hlp Hm Hn HM HL HT create.
  intros W s H. exact (proj1 (cyl_response height r stack plyt laminaprop n m n' k q w E M Hh Hr Hst Hlp Hm Hn HL HM HT W s H)).
Qed.
Print Assumptions C101_cylinder.

(* the same for the cylinder with blades *)
Theorem C101_blades : forall height r stack stack_blades width_blades plyt laminaprop n m n' k q w E M, 0 < height -> 0 < r -> stack <> [] -> laminaprop <> [] ->
  (0 < m <= M)%nat -> (0 < n' <= M)%nat -> (M <= 30)%nat ->
  (forall i, (i < n)%nat -> nth i stack_blades [] <> [] /\ 0 < nth i width_blades 0) ->
  (forall st, st = stack \/ In st stack_blades -> sturdy (e_lib E st (map (fun _ => plyt) st) (map (fun _ => laminaprop) st) (map (fun _ => 0) st) 0)) ->
  tables_integrate (e_tables E) exact_basis M ->
  forall W s, create_cylinder_blade_stiffened height r stack plyt laminaprop n m n' stack_blades width_blades k q w = (W, Ok s) \/
    (exists Nskin Nblade, cylinder_blade_static_world height r stack stack_blades width_blades plyt laminaprop n m n' k q Nskin Nblade w = Ok (W, s)) ->
  one_response E q W s.
Proof.
  intros height r stack stack_blades width_blades plyt laminaprop n m n' k q w E M Hh Hr Hst Hlp Hm Hn HM HB HL HT.
  intros W s H. exact (proj1 (blade_response height r stack stack_blades width_blades plyt laminaprop n m n' k q w E M Hh Hr Hst Hlp Hm Hn HB HL HM HT W s H)).
Qed.
Print Assumptions C101_blades.

Example C101_case : (forall st, st = [0] \/ In st [[0]; [90]; [0]] -> sturdy (e_lib exact_env st (map (fun _ => 1/8) st) (map (fun _ => [1; 2; 3]) st) (map (fun _ => 0) st) 0)) /\
  tables_integrate (e_tables exact_env) exact_basis 4 /\
  (forall w Nxxs, length Nxxs = 5%nat -> exists W s, cylinder_static_world 1 2 [0] (1/8) [1; 2; 3] 5 4 4 0 0 Nxxs w = Ok (W, s)) /\
  (forall w, exists W s, create_cylinder_blade_stiffened 1 2 [0] (1/8) [1; 2; 3] 3 4 4 [[0]; [90]; [0]] [1; 2; 3] 0 0 w = (W, Ok s)).
Proof.
  split; [|split; [apply exact_tables_integrate; lia|split]].
  - intros st Hs. assert (Hs' : st = [0] \/ st = [90]) by (destruct Hs as [->|[<-|[<-|[<-|[]]]]]; auto).
    split; [destruct Hs' as [->| ->]; cbn; lra|]. split; [exact ex_ABD_is|]. intros x (k & Hk & Hx). change (0 < form 6 ex_ABD x x). unfold form, ex_ABD. cbn.
    assert (0 < x k * x k) by nra. do 6 (destruct k as [|k]; [nra|]). lia.
  - intros w Nxxs H. unfold cylinder_static_world. cbn [create_cylinder_assy Nat.ltb Nat.leb new_assembly]. rewrite H. eexists. eexists. reflexivity.
  - intro w. eexists. eexists. reflexivity.
Qed.
