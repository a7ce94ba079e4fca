(* A bay with two panels and one or two 2D blade stiffeners on the line between them. *)
From Coq Require Import Reals List Arith Bool Lia Lra.
From Verif Require Import Base_Sum Model_Types Model_Result Model_Num Model_DB Model_Shell Model_Fext Model_Bay Spec_Bay Spec_BayField Ex_Exact Ex_Bay.
From Coq Require Import List.
Import ListNotations.
Open Scope R_scope.

(* a bay of model plate with two panels and a 2D stiffener between them *)
Definition plate_bay : bay := set_bmodel empty_bay (Some (Known PlateModel)).
Definition field_two : bay := add_panel 1 3 [] [] None [] [] None None (add_panel 0 1 [] [] None [] [] None None plate_bay).
Definition field_bay : bay := fst (add_bladestiff2d bay_env 1 None (1/2) (1/2) (Ok None) (Ok ex_def) 1 1 field_two).
Definition field_bay2 : bay := fst (add_bladestiff2d bay_env 1 None (1/2) (1/2) (Ok None) (Ok ex_def) 1 1 field_bay).
Definition field_value (B : bay) (l : list stiff2) (o : list bool) : bay :=
  match new_stiff2 bay_env B 0 1 1300 1 (1/2) (1/2) None ex_def 1 1 with Ok s => set_order (set_s2 B (l ++ [s])) (o ++ [false]) | Err _ => B end.
Definition field_bay_value : bay.
Proof. let t' := eval cbv -[Rplus Rminus Rmult Rdiv Ropp Rinv IZR pow req] in (field_value field_two [] []) in exact t'. Defined.
Lemma field_bay_eq : field_bay = field_bay_value.
Proof.
  unfold field_bay, add_bladestiff2d, ex_def. unfold bbind at 1 2, blift at 1 2. cbv iota beta. unfold bbind at 1, bget. unfold bbind, blift.
  erewrite pick; [|reflexivity..]. reflexivity.
Qed.
Definition field_bay2_value : bay.
Proof. let t' := eval cbv -[Rplus Rminus Rmult Rdiv Ropp Rinv IZR pow req] in (field_value field_bay_value (by_s2 field_bay_value) (by_order field_bay_value)) in exact t'. Defined.
Lemma field_bay2_eq : field_bay2 = field_bay2_value.
Proof.
  unfold field_bay2. rewrite field_bay_eq. unfold add_bladestiff2d, ex_def. unfold bbind at 1 2, blift at 1 2. cbv iota beta. unfold bbind at 1, bget. unfold bbind, blift.
  erewrite pick; [|reflexivity..]. reflexivity.
Qed.
Lemma field_bay_built : built bay_env field_bay.
Proof. apply built_2d, built_panel, built_panel, built_new; reflexivity. Qed.
Lemma field_bay2_built : built bay_env field_bay2.
Proof. apply built_2d, field_bay_built. Qed.
Lemma field_bay_sized : sized field_bay.
Proof. rewrite field_bay_eq. split; [eexists; reflexivity|]. cbn. intros s [<-|[]]. eexists. eexists. split; reflexivity. Qed.
Lemma field_bay2_sized : sized field_bay2.
Proof. rewrite field_bay2_eq. split; [eexists; reflexivity|]. cbn. intros s [<-|[<-|[]]]; eexists; eexists; split; reflexivity. Qed.
(* with a force on the skin *)
Definition loaded_bay : bay := mkBay bay_shell None (Some (Known PlateModel)) [0] (Some (1/8)) [] [1; 2; 3] [] 1300 [] [] [] [] [mkPload 1 1 0 0 1] None None None None None None None.
