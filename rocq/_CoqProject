-Q theories Verif
theories/Base.v
theories/Cpu.v
theories/Alu.v
theories/Ops.v
theories/Machine.v
theories/Spec.v
theories/PBase.v
theories/PMem.v
theories/PRun.v
theories/PFrame.v
theories/PAlu.v
theories/PExec.v
theories/PIAlu.v
theories/PIAlu2.v
theories/SpecOps.v
theories/PShift.v
theories/SpecOps2.v
theories/PStep.v
theories/PIUn.v
theories/PIMov.v
theories/PIStack.v
theories/PIJump.v
theories/SpecSys.v
theories/PIInt.v
theories/SpecMul.v
theories/PIMul.v
theories/PAlg.v
theories/SpecDbl.v
theories/PIDbl.v
theories/SpecBcd.v
theories/PIMisc.v
theories/PIBcd.v
theories/SpecStr.v
theories/PIStr.v
theories/PKeep.v
theories/PKeep2.v
theories/PKeep3.v
theories/SpecRun.v
theories/PTop.v
theories/PTop2.v
theories/PTop3.v
theories/PStop.v
theories/Demo.v
theories/PDebug.v
theories/PAnyCodes.v
theories/Trace.v
theories/SpecTop.v
theories/PSmall.v
theories/Properties1.v
theories/PSmall2.v
theories/Properties2.v
theories/PFlags.v
theories/PSmall3.v
theories/Properties3.v
theories/PSmall4.v
theories/Properties4.v
theories/PSmall5.v
theories/Properties5.v
theories/PSmall6.v
theories/Properties6.v
theories/PSmall7.v
theories/Properties7.v
theories/PSmall8.v
theories/Properties8.v
theories/Properties9.v
theories/SpecLen.v
theories/PLen.v
theories/PLen2.v
theories/Properties10.v
theories/Properties11.v
theories/PIso.v
theories/Properties12.v
theories/SpecStop.v
theories/PStop2.v
theories/Properties13.v
theories/TkLib.v
theories/TkMain.v
theories/SpecTk.v
theories/PTk.v
theories/Properties14.v
theories/Native.v
theories/SpecNative.v
theories/PNative.v
theories/PNative2.v
theories/PNative3.v
theories/PNative4.v
theories/PNative5.v
theories/PNative6.v
theories/PNative7.v
theories/Properties15.v
theories/Native2.v
theories/SpecNative2.v
theories/SpecCodes.v
theories/PNative8.v
theories/PNative9.v
theories/PCodes.v
theories/PNative10.v
theories/Properties16.v
theories/SpecFoot.v
theories/PFoot.v
theories/PPrecise.v
theories/Properties17.v
theories/Properties18.v
theories/SpecIndep.v
theories/PIndep.v
theories/Properties19.v
theories/SpecStr2.v
theories/PIStr2.v
theories/Properties20.v
theories/SpecIsa.v
theories/PIsa.v
theories/SpecProg.v
theories/PProg.v
theories/Properties21.v
theories/SpecEa.v
theories/PEa.v
theories/PEa2.v
theories/PEa3.v
theories/PEa4.v
theories/Properties22.v
theories/SpecUb.v
theories/PUb.v
theories/PUb2.v
theories/PUb3.v
theories/PUb4.v
theories/Properties23.v
theories/Native3.v
theories/SpecNative3.v
theories/PArgs.v
theories/PArgs2.v
theories/PBoot.v
theories/PBoot2.v
theories/PGui.v
theories/PReport.v
theories/Properties24.v
theories/Properties25.v
theories/Dump.v
theories/SpecDump.v
theories/PDump.v
theories/Properties26.v
theories/SpecTkMain.v
theories/PTkMain.v
theories/Properties27.v
theories/Validate.v
theories/TraceText.v
theories/SpecTrace.v
theories/PTrace.v
theories/PTrace2.v
theories/PTrace3.v
theories/PTrace4.v
theories/PTrace5.v
theories/Properties28.v
theories/SpecNames.v
theories/PTrace6.v
theories/PTrace7.v
theories/Properties29.v
theories/SpecOpers.v
theories/PTrace8.v
theories/PTrace9.v
theories/PTrace10.v
theories/PTrace11.v
theories/Properties30.v
theories/SpecMsgs.v
theories/PMsgs.v
theories/PMsgs2.v
theories/PMsgs3.v
theories/PMsgs4.v
theories/PMsgs5.v
theories/PMsgs6.v
theories/PMsgs7.v
theories/PWarn.v
theories/Properties31.v
theories/SpecRefuse.v
theories/PRefuse.v
theories/PRefuse2.v
theories/Properties32.v
theories/SpecOutside.v
theories/PWhole.v
theories/PWhole2.v
theories/PWhole3.v
theories/PWhole4.v
theories/PWhole5.v
theories/PTight.v
theories/PTight2.v
theories/PTight3.v
theories/PTight4.v
theories/Properties33.v
theories/SpecWhole.v
theories/PRunAll.v
theories/Properties34.v
