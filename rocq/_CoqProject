-Q theories Verif
theories/Base.v
theories/ModelFB.v
theories/ModelCounters.v
theories/ModelTimers.v
theories/SpecFB.v
theories/ProofBase.v
theories/ProofFB.v
theories/ProofTimers.v
theories/ProofTP.v
theories/PropertiesFB.v
theories/ModelFloat.v
theories/ModelScalar.v
theories/SpecScalar.v
theories/ProofScalar.v
theories/PropertiesScalar.v
theories/ModelChrono.v
theories/ModelDate.v
theories/SpecDate.v
theories/ProofDate.v
theories/ProofDate2.v
theories/PropertiesDate.v
theories/ModelTimeNum.v
theories/SpecTimeNum.v
theories/SpecTicks.v
theories/ProofTimeNum.v
theories/ProofFlocq.v
theories/SpecReal.v
theories/ProofTimeAcc.v
theories/PropertiesTimeNum.v
theories/ModelArith.v
theories/ModelST.v
theories/SpecST.v
theories/ProofReal.v
theories/ProofReal2.v
theories/ProofTimeExact.v
theories/ProofST.v
theories/ProofST2.v
theories/PropertiesST.v
theories/ModelText.v
theories/ModelString.v
theories/SpecText.v
theories/ProofText.v
theories/ProofString.v
theories/ProofString2.v
theories/ProofString3.v
theories/PropertiesString.v
theories/ModelExtra.v
theories/SpecExtra.v
theories/ProofExtra.v
theories/ProofExtra2.v
theories/ProofExtra3.v
theories/ProofExtra4.v
theories/ProofExtra5.v
theories/ProofExtra6.v
theories/PropertiesExtra.v
theories/ModelLayout.v
theories/SpecLayout.v
theories/ProofLayout.v
theories/PropertiesLayout.v
theories/ModelLink.v
theories/SpecLink.v
theories/ProofLink.v
theories/PropertiesLink.v
theories/ModelWrap.v
theories/SpecWrap.v
theories/ProofWrap.v
theories/PropertiesWrap.v
theories/ModelLib.v
theories/SpecLib.v
theories/ProofLib.v
theories/ProofLib2.v
theories/SpecExpt.v
theories/ProofExpt.v
theories/PropertiesLib.v
theories/SpecSafe.v
theories/ProofSafe.v
theories/ProofSafe2.v
theories/PropertiesSafe.v
theories/ModelMachine.v
theories/SpecMachine.v
theories/ProofMachine.v
theories/ProofMachine2.v
theories/PropertiesMachine.v
theories/ProofAgree.v
theories/ProofAgree2.v
theories/PropertiesAgree.v
theories/ProofOrder.v
theories/ProofOrder2.v
theories/ProofOrder3.v
theories/PropertiesOrder.v
theories/SpecTail.v
theories/ProofTail.v
theories/ProofTail2.v
theories/PropertiesTail.v
theories/SpecAny.v
theories/ProofAny.v
theories/PropertiesAny.v
theories/SpecPoll.v
theories/ProofPoll.v
theories/PropertiesPoll.v
theories/SpecConv.v
theories/ProofConv.v
theories/PropertiesConv.v
theories/SpecName.v
theories/ProofName.v
theories/ProofName2.v
theories/ProofName3.v
theories/PropertiesName.v
theories/SpecMath.v
theories/ProofMath.v
theories/PropertiesMath.v
theories/ModelApi.v
theories/Conformance.v
theories/ConformanceFB.v
theories/ConformanceUnit.v
theories/SpecApi.v
theories/ProofApi.v
theories/ProofApi2.v
theories/ProofApi3.v
theories/PropertiesApi.v
theories/SpecMono.v
theories/ProofMono.v
theories/ProofMono2.v
theories/PropertiesMono.v
theories/ModelOverlap.v
theories/SpecOverlap.v
theories/ProofOverlap.v
theories/PropertiesOverlap.v
theories/SpecPreset.v
theories/ProofPreset.v
theories/PropertiesPreset.v
theories/SpecCircuit.v
theories/ProofCircuit.v
theories/PropertiesCircuit.v
theories/ModelGen.v
theories/ProofGen.v
theories/PropertiesGen.v
theories/ProofNeutral.v
theories/SpecPow.v
theories/ProofPow.v
theories/PropertiesPow.v
theories/SpecCall.v
theories/ProofCall.v
theories/ProofCall2.v
theories/ProofCall3.v
theories/ProofCall4.v
theories/ProofCall5.v
theories/PropertiesCall.v
theories/ProofCall6.v
theories/ProofProg.v
theories/ProofProg2.v
theories/ProofProg3.v
theories/ProofProg4.v
theories/PropertiesProg.v
theories/SpecExpr.v
theories/ProofExpr.v
theories/ProofExpr2.v
theories/ProofExpr3.v
theories/ProofExpr4.v
theories/PropertiesExpr.v
theories/SpecNum.v
theories/ProofSqr.v
theories/ProofNum.v
theories/ProofNum2.v
theories/ProofNum3.v
theories/ProofNum4.v
theories/PropertiesNum.v
theories/SpecCascade.v
theories/ProofCascade.v
theories/PropertiesCascade.v
theories/SpecBlink.v
theories/ProofBlink.v
theories/PropertiesBlink.v
theories/SpecTerm.v
theories/ProofTerm.v
theories/ProofTerm2.v
theories/ProofTermR.v
theories/ProofTermD.v
theories/ProofTermE.v
theories/ProofTermT.v
theories/ProofTerm3.v
theories/ProofTerm4.v
theories/PropertiesTerm.v
theories/SpecType.v
theories/ProofType.v
theories/PropertiesType.v
theories/SpecProgram.v
theories/ProofSplit.v
theories/ProofProgram.v
theories/ProofProgram2.v
theories/ProofProgram3.v
theories/ProofProgram4.v
theories/PropertiesProgram.v
theories/SpecSize.v
theories/ProofSize.v
theories/PropertiesSize.v
theories/SpecWhole.v
theories/ProofWhole.v
theories/ProofWhole2.v
theories/ProofWhole3.v
theories/PropertiesWhole.v
theories/SpecRefine.v
theories/ProofRefine.v
theories/ProofRefine2.v
theories/ProofRefine3.v
theories/ProofRefine4.v
theories/ProofRefine5.v
theories/PropertiesRefine.v
theories/SpecComplete.v
theories/ProofCompleteR.v
theories/ProofComplete.v
theories/ProofComplete2.v
theories/PropertiesComplete.v
theories/SpecOnce.v
theories/ProofTicks.v
theories/PropertiesTicks.v
theories/ProofTicks2.v
theories/PropertiesTicks2.v
theories/SpecPulse.v
theories/ProofPulse.v
theories/PropertiesPulse.v
theories/ProofCall7.v
theories/PropertiesCall2.v
theories/ProofCall8.v
theories/PropertiesCall3.v
