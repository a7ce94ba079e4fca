-Q theories Verif
theories/Base_Sum.v
theories/Data_Bardell.v
theories/Data_BardellInt.v
theories/Data_Gauss.v
theories/Model_Types.v
theories/Model_Bardell.v
theories/Model_Coo.v
theories/Model_Result.v
theories/Model_PlateAna.v
theories/Model_CylAna.v
theories/Model_PlateNumKer.v
theories/Model_CylNumKer.v
theories/Model_Conn.v
theories/Model_Num.v
theories/Model_DB.v
theories/Model_Shell.v
theories/Spec_Algebra.v
theories/Spec_Kinematics.v
theories/Spec_Quadrature.v
theories/Spec_Bardell.v
theories/Spec_Panel.v
theories/Spec_Shell.v
theories/Proof_Coo.v
theories/Proof_Num.v
theories/Proof_Energy.v
theories/Proof_Shell.v
theories/Proof_Total.v
theories/Proof_Api.v
theories/Proof_Rule.v
theories/Proof_Poly.v
theories/Proof_Bardell.v
theories/Proof_BardellInt.v
theories/Proof_GaussCheck.v
theories/Proof_Gauss.v
theories/Ex_Panel.v
theories/Ex_Fint.v
theories/Spec_Integral.v
theories/Proof_AnaKer.v
theories/Proof_Ana.v
theories/Proof_Ana2.v
theories/Proof_Ana3.v
theories/Proof_AnaApi.v
theories/Proof_Fint.v
theories/Proof_Fint2.v
theories/Proof_FintApi.v
theories/Ex_Exact.v
theories/Prop_Stiffness.v
theories/Prop_Tables.v
theories/Prop_Analytic.v
theories/Prop_Fint.v
theories/Model_Field.v
theories/Proof_Field.v
theories/Spec_Field.v
theories/Proof_FieldApi.v
theories/Proof_FieldDeriv.v
theories/Proof_FieldEdge.v
theories/Ex_Field.v
theories/Prop_Field.v
theories/Model_Fext.v
theories/Spec_Fext.v
theories/Proof_Fext.v
theories/Proof_Terms.v
theories/Proof_FextApi.v
theories/Proof_Pd.v
theories/Ex_Fext.v
theories/Prop_Fext.v
theories/Proof_Mismatch.v
theories/Spec_Conn.v
theories/Proof_Conn.v
theories/Model_Multi.v
theories/Proof_Shift.v
theories/Spec_Multi.v
theories/Proof_Place.v
theories/Proof_Multi.v
theories/Spec_MultiConn.v
theories/Proof_MultiConn.v
theories/Proof_MultiSign.v
theories/Proof_MultiTop.v
theories/Proof_MultiHist.v
theories/Proof_MultiApi.v
theories/Ex_Multi.v
theories/Prop_Multi.v
theories/Spec_Aero.v
theories/Proof_Aero.v
theories/Ex_Aero.v
theories/Prop_Aero.v
theories/Spec_Rebuild.v
theories/Proof_Hist.v
theories/Ex_Rebuild.v
theories/Prop_Rebuild.v
theories/Spec_Window.v
theories/Proof_Window.v
theories/Ex_Window.v
theories/Prop_Window.v
theories/Model_New.v
theories/Model_Cylinder.v
theories/Spec_Cylinder.v
theories/Proof_Cylinder.v
theories/Proof_CylBlade.v
theories/Prop_Cylinder.v
theories/Model_StiffKer.v
theories/Spec_Stiff.v
theories/Proof_StiffKer.v
theories/Model_Bay.v
theories/Spec_Bay.v
theories/Proof_Bay.v
theories/Proof_BayMade.v
theories/Spec_BayWork.v
theories/Proof_BayWork.v
theories/Proof_BayTotal.v
theories/Spec_BayCalls.v
theories/Proof_BayCalls.v
theories/Ex_Bay.v
theories/Proof_BayTop.v
theories/Spec_Blade.v
theories/Proof_Stiff.v
theories/Prop_Stiff.v
theories/Prop_Bay.v
theories/Model_TStiff.v
theories/Spec_TStiff.v
theories/Proof_TStiff.v
theories/Proof_TStiffWork.v
theories/Prop_TStiff.v
theories/Spec_Beside.v
theories/Proof_Beside.v
theories/Prop_Beside.v
theories/Model_BayField.v
theories/Spec_BayField.v
theories/Proof_BayField.v
theories/Ex_BayField.v
theories/Prop_BayField.v
theories/Model_Alloc.v
theories/Proof_Alloc.v
theories/Proof_AllocApi.v
theories/Prop_Alloc.v
theories/Spec_Rounded.v
theories/Proof_Rounded.v
theories/Proof_Near.v
theories/Proof_NearApi.v
theories/Prop_Rounded.v
theories/Model_Save.v
theories/Spec_Save.v
theories/Proof_Save.v
theories/Prop_Save.v
theories/Model_Plot.v
theories/Spec_Plot.v
theories/Proof_Plot.v
theories/Proof_PlotData.v
theories/Ex_Plot.v
theories/Prop_Plot.v
theories/Spec_Ortho.v
theories/Proof_Ortho.v
theories/Prop_Ortho.v
theories/Spec_Mesh.v
theories/Proof_Mesh.v
theories/Prop_Mesh.v
theories/Spec_ConnScale.v
theories/Proof_ConnNear.v
theories/Proof_ConnNearApi.v
theories/Proof_ConnZero.v
theories/Prop_ConnWork.v
theories/Spec_Flow.v
theories/Model_Flutter.v
theories/Spec_Flutter.v
theories/Proof_Flutter.v
theories/Proof_FlutterTop.v
theories/Ex_Flutter.v
theories/Model_TStiffEnd.v
theories/Proof_TStiffLoad.v
theories/Proof_TStiffEnd.v
theories/Prop_Flutter.v
theories/Spec_Support.v
theories/Proof_Support.v
theories/Proof_SupportTop.v
theories/Proof_SupportCyl.v
theories/Prop_Support.v
theories/Spec_Modes.v
theories/Proof_Modes.v
theories/Ex_Modes.v
theories/Prop_Modes.v
theories/Spec_Rigid.v
theories/Proof_Rigid.v
theories/Prop_Rigid.v
theories/Spec_Refine.v
theories/Proof_Refine.v
theories/Prop_Refine.v
theories/Prop_TStiffEnd.v
theories/Spec_Tied.v
theories/Proof_Tied.v
theories/Ex_Tied.v
theories/Prop_Tied.v
theories/Model_Pull.v
theories/Spec_Pull.v
theories/Proof_Pull.v
theories/Ex_Pull.v
theories/Prop_Pull.v
theories/Spec_TStiffTied.v
theories/Proof_TStiffTied.v
theories/Prop_TStiffTied.v
theories/Proof_CylTied.v
theories/Prop_CylTied.v
theories/Proof_Solve.v
theories/Proof_Indep.v
theories/Spec_Response.v
theories/Proof_Response.v
theories/Ex_Response.v
theories/Prop_Response.v
theories/Spec_AsmResponse.v
theories/Proof_AsmResponse.v
theories/Ex_AsmResponse.v
theories/Prop_AsmResponse.v
theories/Prop_Unconnected.v
theories/Spec_BayResponse.v
theories/Proof_BayResponse.v
theories/Ex_BayResponse.v
theories/Prop_BayResponse.v
theories/Spec_BayModes.v
theories/Proof_BayModes.v
theories/Ex_BayModes.v
theories/Prop_BayModes.v
theories/Model_Pow.v
theories/Spec_Pow.v
theories/Proof_Pow.v
theories/Prop_Pow.v
theories/Spec_Limit.v
theories/Proof_Limit.v
theories/Proof_LimitPanel.v
theories/Ex_Limit.v
theories/Prop_Limit.v
theories/Spec_BayAero.v
theories/Proof_BayAero.v
theories/Ex_BayAero.v
theories/Prop_BayAero.v
theories/Spec_LimitBay.v
theories/Proof_LimitBay.v
theories/Proof_LimitMore.v
theories/Ex_LimitBay.v
theories/Prop_LimitBay.v
theories/Spec_LimitAsm.v
theories/Proof_LimitAsm.v
theories/Proof_LimitCyl.v
theories/Ex_LimitAsm.v
theories/Prop_LimitAsm.v
theories/Model_TStiffSolve.v
theories/Spec_TStiffSolve.v
theories/Proof_TStiffSolve.v
theories/Ex_TStiffSolve.v
theories/Prop_TStiffSolve.v
