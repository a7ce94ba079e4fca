(* A bay in a supersonic flow along x. *)
From Coq Require Import Reals List Arith Lia Lra.
From Verif Require Import Base_Sum Model_Types Model_Result Model_Num Model_DB Model_Shell Model_Bay
  Spec_Panel Spec_Shell Spec_Aero Spec_Integral Spec_Bardell Spec_Flow Spec_Bay Spec_BayWork Spec_BayAero Ex_Panel Ex_Exact Ex_Aero.
From Coq Require Import List.
Import ListNotations.
Open Scope R_scope.

Definition wind_V : benv := mkBenv exact_env (fun _ _ _ => []).
Definition wind_skin : panel := wing true ss None None None None None None.
(* the user writes the data of the bay, adds a panel, edits it and asks for the size *)
Definition wind_bay (M : R) : bay := fst (bay_size (set_panels (add_panel 0 1 [] [] None [] [] None None
  (mkBay (wing_shell ss) None (Some (Known PlateModel)) [0] (Some 1) [] [1] [] 1300 [] [] [] [] [] None (Some true) None (Some 1) (Some 300) (Some M) (Some 600))) [wind_skin])).
Lemma wind_built M : built wind_V (wind_bay M).
Proof. apply built_size, built_skin; [|reflexivity]. apply built_panel, built_new; reflexivity. Qed.
Lemma wind_ready M : bay_ready (wind_bay M).
Proof.
  constructor; cbn.
  - discriminate.
  - intros p [<-|[]]. cbn. split; [|split; reflexivity]. split; [|reflexivity]. split; [discriminate|]. split; [discriminate|]. split; [left; discriminate|left; discriminate].
  - intros p q [<-|[]] [<-|[]]. split; reflexivity.
  - intros p [<-|[]]. right. reflexivity.
  - intros s [].
  - intros s [].
Qed.
Lemma wind_flow M : 1 <= M -> complete_flow (wind_bay M).
Proof. intro H. unfold complete_flow. cbn. do 4 (split; [discriminate|]). exists M. split; [reflexivity|exact H]. Qed.
Lemma wind_flown M : flown_bay wind_V (wind_bay M) wind_skin true.
Proof.
  unfold flown_bay. cbv zeta. destruct (wing_rule true ss None None None None None None) as (A & B & C & D).
  split; [reflexivity|]. split; [reflexivity|]. split; [cbn; lra|]. split; [cbn; lra|]. split; [cbn; lia|]. split; [cbn; lia|].
  split; [apply (wing_whole true ss None None None None None None)|]. auto.
Qed.
