-Q theories Verif
theories/GoBase.v
theories/MachineSyntax.v
theories/MachineTables.v
theories/Machine.v
theories/Errors.v
theories/Urn.v
theories/Json.v
theories/Conformance2.v
theories/Conformance.v
theories/Spec.v
theories/Ref.v
theories/Exec.v
theories/SimBase.v
theories/SimPrefix.v
theories/SimEsc.v
theories/Sim2141.v
theories/SimScim.v
theories/Sim8Nid.v
theories/Sim8141.v
theories/ParseThm.v
theories/RefSpec.v
theories/RefSpec8.v
theories/RefSpec8b.v
theories/Api.v
theories/PropsA.v
theories/PropsB.v
theories/SpecErr.v
theories/PropsJson.v
theories/PropsErr.v
theories/PropsErrB.v
theories/SpecErr8.v
theories/PropsErr8.v
theories/PropsErr8b.v
theories/PropsErr8c.v
theories/Conc.v
theories/ConcBase.v
theories/ConcInv.v
theories/ConcEarly.v
theories/PropsConc.v
theories/PropsConc2.v
theories/Cost.v
theories/PropsCost.v
theories/PropsCostB.v
theories/SpecCost.v
theories/PropsCostExact.v
theories/PropsCostExact2.v
theories/PropsCostExact3.v
theories/PropsCostExact4.v
theories/SpecText.v
theories/PropsText.v
theories/PropsFinal.v
theories/PropsCase.v
theories/PropsCanon.v
theories/RegLang.v
theories/Ragel.v
theories/SpecRfc.v
theories/PropsGram.v
theories/PropsGram8.v
theories/Tools.v
theories/SpecTools.v
theories/PropsTools.v
theories/ToolsIO.v
theories/PropsToolsIO.v
theories/Shared.v
theories/PropsShared.v
theories/Heap.v
theories/SpecHeap.v
theories/PropsHeap.v
theories/PropsHeap2.v
theories/SpecOdd.v
theories/PropsOdd.v
theories/SpecJson.v
theories/PropsJson2.v
theories/RagelSem.v
theories/RagelRl.v
theories/PropsRagel.v
theories/PropsRagel2.v
theories/Live.v
theories/LiveTable.v
theories/PropsLive.v
theories/PropsLive2.v
theories/OptFn.v
theories/PropsOptFn.v
theories/PropsGrow.v
theories/MachineInt.v
theories/PropsInt.v
theories/DotTables.v
theories/Dot.v
theories/PropsDot.v
theories/RuneTools.v
theories/PropsRune.v
theories/SpecReport.v
theories/PropsReport.v
theories/GoAst.v
theories/GoSrc.v
theories/GoLex.v
theories/GoParse.v
theories/GoProg.v
theories/GoSem.v
theories/GoPackage.v
theories/SrcRender.v
theories/SrcSim.v
theories/SrcSim2.v
theories/SrcSim3.v
theories/SrcFacts.v
theories/SrcSim4.v
theories/SrcSim5.v
theories/SrcApi.v
theories/SrcApi2.v
theories/SrcApi3.v
theories/SrcApi4.v
theories/SrcApi5.v
theories/SrcHeap.v
theories/SrcHeap2.v
theories/SrcHeap3.v
theories/SrcHeap4.v
theories/PropsSrc.v
theories/PropsSrc2.v
theories/RlSrc.v
theories/RlParse.v
theories/RlText.v
theories/PropsRl.v
theories/PropsRl2.v
theories/DotSrc.v
theories/DotParse.v
theories/PropsDot2.v
theories/ToolsSrc.v
theories/ReParse.v
theories/PropsRe.v
theories/PropsRename.v
theories/PropsRename2.v
theories/PropsRename3.v
theories/Properties.v
theories/Properties2.v
theories/Properties3.v
theories/Properties4.v
theories/Properties5.v
theories/Properties6.v
theories/Properties7.v
theories/Properties8.v
theories/Properties9.v
theories/Properties10.v
theories/Properties11.v
theories/Properties12.v
theories/Properties13.v
theories/Properties14.v
theories/Properties15.v
theories/Properties16.v
theories/Properties17.v
theories/Properties18.v
theories/Properties19.v
theories/Properties20.v
theories/Properties21.v
theories/Properties22.v
theories/Properties23.v
theories/Properties24.v
theories/Properties25.v
theories/Properties26.v
