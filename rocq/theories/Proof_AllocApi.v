(* Lengths and positions at the level of the calls. *)
From Coq Require Import Reals List Lia Arith Bool.
From Verif Require Import Base_Sum Model_Types Model_Result Model_Coo Model_PlateAna Model_CylAna Model_PlateNumKer
  Model_CylNumKer Model_Num Model_Conn Model_StiffKer Model_Shell Model_Fext Model_Alloc Model_DB Spec_Panel Spec_Shell Proof_FintApi Proof_Alloc.
From Coq Require Import List.
Import ListNotations.
Open Scope R_scope.

Lemma integrated_len : forall Q Bs cs Fi H s offset Nxx Nyy Nxy row0 col0 nx ny NL M,
  (plate_fkC_num Q Bs cs Fi s row0 col0 nx ny NL = Ok M -> (length M <= fdim_plate_fkC_num (sh_m s) (sh_n s))%nat) /\
  (cyl_fkC_num Q Bs cs Fi s row0 col0 nx ny NL = Ok M -> (length M <= fdim_cyl_fkC_num (sh_m s) (sh_n s))%nat) /\
  (plate_fkG_num Q Bs cs Fi s row0 col0 nx ny NL Nxx Nyy Nxy = Ok M -> (length M <= fdim_plate_fkG_num (sh_m s) (sh_n s))%nat) /\
  (cyl_fkG_num Q Bs cs Fi s row0 col0 nx ny NL Nxx Nyy Nxy = Ok M -> (length M <= fdim_cyl_fkG_num (sh_m s) (sh_n s))%nat) /\
  (plate_fkM_num Q Bs s offset H row0 col0 nx ny = Ok M -> (length M <= fdim_plate_fkM_num (sh_m s) (sh_n s))%nat) /\
  (length (plate_fkAx_num Q Bs s row0 col0 nx ny) <= fdim_plate_fkAx_num (sh_m s) (sh_n s))%nat /\
  (length (plate_fkAy_num Q Bs s row0 col0 nx ny) <= fdim_plate_fkAy_num (sh_m s) (sh_n s))%nat /\
  (length (cyl_fkAx_num Q Bs s row0 col0 nx ny) <= fdim_cyl_fkAx_num (sh_m s) (sh_n s))%nat.
Proof.
  intros. repeat split.
  1-5: intro E; apply rmap_ok_inv in E; destruct E as (f & _ & ->); apply accumulate_len; intro p.
  6-8: apply accumulate_len; intro p.
  - apply at_plate_fkC_num.
  - apply at_cyl_fkC_num.
  - apply at_plate_fkG_num.
  - apply at_cyl_fkG_num.
  - apply at_plate_fkM_num.
  - apply at_plate_fkAx_num.
  - apply at_plate_fkAy_num.
  - apply at_cyl_fkAx_num.
Qed.

Lemma fint_positions : forall E c sz col0 nx ny Fo p q u, calc_fint E c sz col0 nx ny Fo p = (q, Ok u) ->
  forall r x, In (r, x) u ->
    (col0 <= r < col0 + 3 * sh_m (pn_sh p) * sh_n (pn_sh p))%nat /\ (r < size_value sz (pn_sh p))%nat /\ (r < length c)%nat.
Proof.
  intros E c sz col0 nx ny Fo p q u H r x Hin.
  apply calc_fint_inv in H. destruct H as (_ & H & H1 & H2 & _).
  assert (HR : (col0 <= r < col0 + DOF * (sh_m (pn_sh p) * sh_n (pn_sh p)))%nat).
  { destruct (chosen_model p); cbn [calc_fint_num] in H.
    - exact (plate_fint_range _ _ _ _ _ _ _ _ _ H r x Hin).
    - exact (cyl_fint_range _ _ _ _ _ _ _ _ _ H r x Hin). }
  unfold ndof, DOF in *. nia.
Qed.
