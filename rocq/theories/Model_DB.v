(* Model dispatch: /repo/panels/modelDB.py. Definitions only. *)
From Coq Require Import Reals List Arith Bool.
From Verif Require Import Base_Sum Model_Types Model_Coo Model_Result Model_PlateAna Model_CylAna Model_Num.
Import ListNotations.
Open Scope R_scope.

(* The keys of db, /repo/panels/modelDB.py:11-32 *)
Inductive model := PlateModel | CylModel.

(* db[model]['dofs'], /repo/panels/modelDB.py:19, 29 *)
Definition db_dofs (mdl : model) : nat := 3.

(* db[model]['matrices_num'].* *)
Definition fkC_num (mdl : model) := match mdl with PlateModel => plate_fkC_num | CylModel => cyl_fkC_num end.
Definition fkG_num (mdl : model) := match mdl with PlateModel => plate_fkG_num | CylModel => cyl_fkG_num end.
Definition fkM_num (mdl : model) := match mdl with PlateModel => plate_fkM_num | CylModel => cyl_fkM_num end.
Definition fkAx_num (mdl : model) := match mdl with PlateModel => plate_fkAx_num | CylModel => cyl_fkAx_num end.
Definition fkAy_num (mdl : model) := match mdl with PlateModel => plate_fkAy_num | CylModel => cyl_fkAy_num end.
Definition calc_fint_num (mdl : model) := match mdl with PlateModel => plate_calc_fint | CylModel => cyl_calc_fint end.

(* db[model]['matrices'].* (closed-form integrals) *)
Definition fk0 (mdl : model) := match mdl with PlateModel => plate_fk0 | CylModel => cyl_fk0 end.
Definition fkG0 (mdl : model) := match mdl with PlateModel => plate_fkG0 | CylModel => cyl_fkG0 end.
Definition fkM (mdl : model) := match mdl with PlateModel => plate_fkM | CylModel => cyl_fkM end.
Definition fkAx (mdl : model) := match mdl with PlateModel => plate_fkAx | CylModel => cyl_fkAx end.
Definition fkAy (mdl : model) := match mdl with PlateModel => plate_fkAy | CylModel => cyl_fkAy end.
Definition fcA (mdl : model) := match mdl with PlateModel => plate_fcA | CylModel => cyl_fcA end.
