-Q theories Verif
theories/Base.v
theories/Scalar.v
theories/InitTables.v
theories/EllModel.v
theories/EllSpec.v
theories/EllInit.v
theories/EllAsm.v
theories/EllOp.v
theories/EllBc.v
theories/EllBc2.v
theories/Grid.v
theories/EllFinal.v
theories/EllProps.v
theories/Props_Ell.v
theories/CgPure.v
theories/LinDep.v
theories/CgTheory.v
theories/CgFinal.v
theories/CgProps.v
theories/JacProps.v
theories/Props_Cg.v
theories/AssemblyModel.v
theories/AsmPure.v
theories/AsmBnd.v
theories/FemGen.v
theories/FemAve.v
theories/AsmRun.v
theories/AsmMat.v
theories/FemMat.v
theories/FemMat2.v
theories/FemDef.v
theories/FemPd.v
theories/FemRhs.v
theories/FemEquil.v
theories/PlastProps.v
theories/AsmEx.v
theories/PlastRef.v
theories/AsmSpec.v
theories/AsmProps.v
theories/AsmEquil.v
theories/AsmPoint.v
theories/AsmCases.v
theories/Props_Asm.v
theories/MicroModel.v
theories/OutputModel.v
theories/NewtonBase.v
theories/ApiBase.v
theories/FieldsBase.v
theories/ApiRun.v
theories/ApiHist.v
theories/Build.v
theories/Swap.v
theories/ApiExact.v
theories/FixInst.v
theories/ApiSpec.v
theories/ApiProps.v
theories/ApiCommit.v
theories/ApiCases.v
theories/NewtonReal.v
theories/Thin.v
theories/OneCell.v
theories/ApiEx.v
theories/RespondReal.v
theories/Tangent.v
theories/Invalid.v
theories/Classify.v
theories/CellFields.v
theories/VtuProps.v
theories/VtuData.v
theories/OutProps.v
theories/LogProps.v
theories/Untouched.v
theories/TwoCell.v
theories/Linear.v
theories/OutFields.v
theories/Consts.v
theories/NewtonIts.v
theories/SolveProps.v
theories/Props_Api.v
theories/BuildEx.v
theories/Props_Solve.v
theories/Props_Build.v
theories/Props_Out.v
theories/LedgerModel.v
theories/LedgerProps.v
theories/MemEx.v
theories/Props_Mem.v
theories/IntModel.v
theories/IntProps.v
theories/Props_Int.v
theories/FloatInst.v
theories/NanBase.v
theories/NanRun.v
theories/NanProps.v
theories/NanEx.v
theories/Props_Nan.v
theories/Quad.v
theories/QuadEx.v
theories/Props_Quad.v
theories/InvProps.v
theories/Props_Inv.v
theories/MonoPoint.v
theories/MonoBody.v
theories/MonoUnif.v
theories/TanModel.v
theories/TanProps.v
theories/MonoEx.v
theories/Props_Mono.v
theories/ConvexMin.v
theories/EnergyPoint.v
theories/EnergyBody.v
theories/EnergyProps.v
theories/Props_Energy.v
theories/DriverModel.v
theories/DriverProps.v
theories/DriverMore.v
theories/Props_Driver.v
theories/VoidBase.v
theories/VoidRun.v
theories/VoidProps.v
theories/Props_Void.v
theories/HistProps.v
theories/Props_Hist.v
theories/LinProps.v
theories/Props_Lin.v
theories/XmlProps.v
theories/Props_Xml.v
theories/Korn.v
theories/Korn3.v
theories/Korn2.v
theories/KornProps.v
theories/Props_Korn.v
theories/BinInst.v
theories/FloatSum.v
theories/FloatCg.v
theories/FloatGeo.v
theories/FloatDrive.v
theories/FloatCase.v
theories/FloatFem.v
theories/FloatBody.v
theories/FloatMat.v
theories/FloatNewton.v
theories/FloatBnd.v
theories/FloatShadow.v
theories/EffBound.v
theories/FloatAnswer.v
theories/FloatFin.v
theories/FloatSize.v
theories/FloatObj.v
theories/FloatRun.v
theories/FloatFlat.v
theories/FloatTan.v
theories/FloatTanEx.v
theories/Props_Float.v
theories/Props_Double.v
theories/Props_DoubleTan.v
theories/Clite.v
theories/CliteRules.v
theories/CliteEmit.v
theories/EllAst.v
theories/EllLit.v
theories/EllLit2.v
theories/EllLit3.v
theories/EllLit4.v
theories/EllLit5.v
theories/EllLit6.v
theories/EllLit7.v
theories/EllLit8.v
theories/Props_Tree.v
theories/AsmAst.v
theories/Sym.v
theories/SymStep.v
theories/AsmLit.v
theories/AsmLit2.v
theories/AsmLit3.v
theories/AsmLit4.v
theories/AsmLit5.v
theories/AsmLit6.v
theories/AsmLit7.v
theories/AsmLit8.v
theories/AsmLit9.v
theories/Props_AsmTree.v
theories/SymFold.v
theories/AsmCalls.v
theories/AsmLit10.v
theories/AsmLit11.v
theories/AsmLit12.v
theories/AsmLit13.v
theories/AsmLit14.v
theories/AsmLit15.v
theories/AsmLit16.v
theories/AsmLit17.v
theories/Props_AsmTree2.v
theories/AsmLit18.v
theories/AsmLit19.v
theories/AsmLit20.v
theories/AsmLit21.v
theories/Props_AsmTree3.v
theories/AsmLit22.v
theories/AsmLit23.v
theories/Props_AsmTree4.v
theories/AsmLit24.v
theories/AsmLit25.v
theories/AsmLit26.v
theories/AsmLit27.v
theories/Props_AsmTree5.v
theories/AsmLit28.v
theories/AsmLit29.v
theories/Props_AsmTree6.v
theories/HomAst.v
theories/HomLit.v
theories/HomLit2.v
theories/HomLit3.v
theories/HomLit4.v
theories/Props_HomTree.v
theories/GpAst.v
theories/GpLit.v
theories/GpLit2.v
theories/GetAst.v
theories/GetLit.v
theories/Props_GetTree.v
theories/UpdLit.v
theories/HomList.v
theories/Props_GpTree.v
theories/FlagAst.v
theories/FlagLit.v
theories/Props_FlagTree.v
