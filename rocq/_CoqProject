-Q theories Verif
theories/Base.v
theories/Model_Catalog.v
theories/Model_Config.v
theories/Model_Dat.v
theories/Model_Defaults.v
theories/Model_Files.v
theories/Model_Hybrid.v
theories/Model_If97.v
theories/Model_If97Units.v
theories/Model_IgHeap.v
theories/Model_IgWarn.v
theories/Model_Igas.v
theories/Model_Igmix.v
theories/Model_IgtHeap.v
theories/Model_IgtList.v
theories/Model_Igtmix.v
theories/Model_Igtools.v
theories/Model_Igtprop.v
theories/Model_Igtview.v
theories/Model_Mp1.v
theories/Model_Mp1Calls.v
theories/Model_Mp1Heap.v
theories/Model_Mp1Inv.v
theories/Model_Mp1Warn.v
theories/Model_Num.v
theories/Model_Reg.v
theories/Model_Solve.v
theories/Model_Units.v
theories/Model_UnitsHeap.v
theories/Model_Update.v
theories/Proof_Catalog.v
theories/Proof_Config.v
theories/Proof_Curve.v
theories/Proof_Dat.v
theories/Proof_Defaults.v
theories/Proof_Files.v
theories/Proof_Hill.v
theories/Proof_Hybrid.v
theories/Proof_If97Bis.v
theories/Proof_If97Choice.v
theories/Proof_If97En.v
theories/Proof_If97Ex.v
theories/Proof_If97Inv.v
theories/Proof_If97Poly.v
theories/Proof_If97Prop.v
theories/Proof_If97Sat.v
theories/Proof_If97Ts.v
theories/Proof_If97TsAns.v
theories/Proof_If97TsArr.v
theories/Proof_If97Units.v
theories/Proof_If97UnitsB.v
theories/Proof_If97UnitsC.v
theories/Proof_If97UnitsEx.v
theories/Proof_IgHeap.v
theories/Proof_IgHeapEx.v
theories/Proof_Igas.v
theories/Proof_IgasAcc.v
theories/Proof_IgasArgs.v
theories/Proof_IgasArr.v
theories/Proof_IgasCalls.v
theories/Proof_IgasEx.v
theories/Proof_IgasInst.v
theories/Proof_IgasInv.v
theories/Proof_IgasInvEx.v
theories/Proof_IgasMore.v
theories/Proof_IgasProp.v
theories/Proof_IgasRel.v
theories/Proof_IgasState.v
theories/Proof_IgasUnits.v
theories/Proof_Igmix.v
theories/Proof_IgmixCalls.v
theories/Proof_IgmixInst.v
theories/Proof_IgmixMore.v
theories/Proof_IgmixProp.v
theories/Proof_IgtAdd.v
theories/Proof_IgtArgs.v
theories/Proof_IgtEnt.v
theories/Proof_IgtEx.v
theories/Proof_IgtGas.v
theories/Proof_IgtGiven.v
theories/Proof_IgtHeap.v
theories/Proof_IgtHeapEx.v
theories/Proof_IgtHeapMem.v
theories/Proof_IgtHeapOps.v
theories/Proof_IgtHeapRun.v
theories/Proof_IgtIdent.v
theories/Proof_IgtInst.v
theories/Proof_IgtItems.v
theories/Proof_IgtLaw.v
theories/Proof_IgtList.v
theories/Proof_IgtListEx.v
theories/Proof_IgtMore.v
theories/Proof_IgtNew.v
theories/Proof_IgtProp.v
theories/Proof_IgtStr.v
theories/Proof_IgtThm.v
theories/Proof_Igtmix.v
theories/Proof_IgtmixEx.v
theories/Proof_Igtools.v
theories/Proof_Igtshape.v
theories/Proof_Igtview.v
theories/Proof_IgtviewEx.v
theories/Proof_Iter.v
theories/Proof_Jets.v
theories/Proof_Mp1Acc.v
theories/Proof_Mp1Alone.v
theories/Proof_Mp1Args.v
theories/Proof_Mp1Calls.v
theories/Proof_Mp1CallsEx.v
theories/Proof_Mp1Crit.v
theories/Proof_Mp1Cv.v
theories/Proof_Mp1CvCrit.v
theories/Proof_Mp1CvCritEx.v
theories/Proof_Mp1CvEx.v
theories/Proof_Mp1Elem.v
theories/Proof_Mp1ElemCall.v
theories/Proof_Mp1ElemEx.v
theories/Proof_Mp1Ex.v
theories/Proof_Mp1Heap.v
theories/Proof_Mp1HeapEx.v
theories/Proof_Mp1HeapLow.v
theories/Proof_Mp1HeapSi.v
theories/Proof_Mp1HeapSt.v
theories/Proof_Mp1HeapVal.v
theories/Proof_Mp1Helm.v
theories/Proof_Mp1Hsd.v
theories/Proof_Mp1Inv.v
theories/Proof_Mp1InvEx.v
theories/Proof_Mp1InvP.v
theories/Proof_Mp1InvPD.v
theories/Proof_Mp1InvPDEx.v
theories/Proof_Mp1InvPEx.v
theories/Proof_Mp1InvS.v
theories/Proof_Mp1InvSEx.v
theories/Proof_Mp1InvT.v
theories/Proof_Mp1InvTEx.v
theories/Proof_Mp1Low.v
theories/Proof_Mp1Mix.v
theories/Proof_Mp1Neg.v
theories/Proof_Mp1Path.v
theories/Proof_Mp1PathEx.v
theories/Proof_Mp1Poly.v
theories/Proof_Mp1Props.v
theories/Proof_Mp1Res.v
theories/Proof_Mp1Sat.v
theories/Proof_Mp1SatApi.v
theories/Proof_Mp1State.v
theories/Proof_Mp1StateEx.v
theories/Proof_Mp1Thm.v
theories/Proof_Mp1Tpx.v
theories/Proof_Mp1Ts.v
theories/Proof_Mp1TsEx.v
theories/Proof_Mp1Units.v
theories/Proof_Reg.v
theories/Proof_Solve.v
theories/Proof_SolveEx.v
theories/Proof_Units.v
theories/Proof_UnitsHeap.v
theories/Proof_UnitsHeapEx.v
theories/Proof_Update.v
theories/Proof_UpdateAll.v
theories/Proof_UpdateCrash.v
theories/Proof_UpdateDisk.v
theories/Proof_UpdateEx.v
theories/Proof_UpdateOps.v
theories/Proof_UpdateRun.v
theories/Proof_UpdateThm.v
theories/Prop_Catalog.v
theories/Prop_Config.v
theories/Prop_Dat.v
theories/Prop_Defaults.v
theories/Prop_If97.v
theories/Prop_If97Choice.v
theories/Prop_If97TsAns.v
theories/Prop_If97Units.v
theories/Prop_IgHeap.v
theories/Prop_Igas.v
theories/Prop_IgasCalls.v
theories/Prop_IgasMore.v
theories/Prop_Igmix.v
theories/Prop_IgtGas.v
theories/Prop_IgtHeap.v
theories/Prop_IgtList.v
theories/Prop_Igtmix.v
theories/Prop_Igtools.v
theories/Prop_Igtview.v
theories/Prop_Mp1.v
theories/Prop_Mp1Calls.v
theories/Prop_Mp1Cv.v
theories/Prop_Mp1Elem.v
theories/Prop_Mp1Heap.v
theories/Prop_Mp1Helm.v
theories/Prop_Mp1Inv.v
theories/Prop_Mp1InvP.v
theories/Prop_Mp1InvPD.v
theories/Prop_Mp1InvT.v
theories/Prop_Mp1Path.v
theories/Prop_Mp1Solve.v
theories/Prop_Mp1State.v
theories/Prop_Mp1Tpx.v
theories/Prop_Mp1Ts.v
theories/Prop_Solve.v
theories/Prop_Units.v
theories/Prop_UnitsHeap.v
theories/Prop_Update.v
theories/Spec_Catalog.v
theories/Spec_Config.v
theories/Spec_Dat.v
theories/Spec_Hybrid.v
theories/Spec_If97.v
theories/Spec_If97Choice.v
theories/Spec_If97Units.v
theories/Spec_IgHeap.v
theories/Spec_Igas.v
theories/Spec_IgasMore.v
theories/Spec_Igmix.v
theories/Spec_IgtGas.v
theories/Spec_IgtHeap.v
theories/Spec_IgtList.v
theories/Spec_Igtmix.v
theories/Spec_Igtools.v
theories/Spec_Igtprop.v
theories/Spec_Igtview.v
theories/Spec_Mp1.v
theories/Spec_Mp1Calls.v
theories/Spec_Mp1Cv.v
theories/Spec_Mp1Elem.v
theories/Spec_Mp1Heap.v
theories/Spec_Mp1Inv.v
theories/Spec_Mp1InvP.v
theories/Spec_Mp1InvPD.v
theories/Spec_Mp1Path.v
theories/Spec_Mp1Ts.v
theories/Spec_Solve.v
theories/Spec_Units.v
theories/Spec_UnitsHeap.v
theories/Spec_Update.v
theories/Text.v
