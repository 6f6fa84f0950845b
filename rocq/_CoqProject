-Q theories Verif
theories/Base.v
theories/Net.v
theories/NetSpec.v
theories/NetFacts.v
theories/NetHist.v
theories/NetIter.v
theories/NetEdges.v
theories/PropsNet.v
theories/Supra.v
theories/PropsSupra.v
theories/Mpx.v
theories/MpxSpec.v
theories/MpxFacts.v
theories/MpxHist.v
theories/MpxIter.v
theories/PropsMpx.v
theories/Build.v
theories/Trans.v
theories/TransFacts.v
theories/TransFacts2.v
theories/PropsTrans.v
theories/Diag.v
theories/DiagFacts.v
theories/PropsDiag.v
theories/Models.v
theories/ModelsSpec.v
theories/ModelsFacts.v
theories/PropsModels.v
theories/Conf.v
theories/ConfFacts.v
theories/PropsConf.v
theories/Samp.v
theories/SampSpec.v
theories/SampFacts.v
theories/SampChk.v
theories/EsuFacts.v
theories/EsuRun.v
theories/SampDec.v
theories/PropsSamp.v
theories/Graphlet.v
theories/GraphletSpec.v
theories/GraphletFacts.v
theories/PartFacts.v
theories/SccFacts.v
theories/TouchFacts.v
theories/OrbitFacts.v
theories/PropsGraphlet.v
theories/Isom.v
theories/IsomSpec.v
theories/IsomFacts.v
theories/IsomIso.v
theories/IsomDec.v
theories/PropsIsom.v
theories/Cc.v
theories/CcMore.v
theories/CcSpec.v
theories/CcFacts.v
theories/MpxEdges.v
theories/PropsMpxEdges.v
theories/CcAgg.v
theories/CcBarrett.v
theories/PropsCc.v
theories/PropsAw.v
theories/CcGen.v
theories/PropsBat.v
theories/PropsBrodka.v
theories/PropsContr.v
theories/PropsZhang.v
theories/PropsSuper.v
theories/Netio.v
theories/NetioSpec.v
theories/NetioFacts.v
theories/PropsNetio.v
theories/Nx.v
theories/NxSpec.v
theories/PropsNx.v
theories/MpxTrans.v
theories/MpxBuild.v
theories/MpxRelabel.v
theories/PropsMpxEq.v
theories/PropsMpxRelabel.v
theories/MpxSub.v
theories/PropsMpxSub.v
theories/MpxThr.v
theories/PropsMpxThr.v
theories/MpxPlain.v
theories/PropsMpxPlain.v
theories/SubIter.v
theories/PropsSubIter.v
theories/DiagPrune.v
theories/PruneFacts.v
theories/PropsPrune.v
theories/ModelsOverlap.v
theories/OverlapSpec.v
theories/OverlapFacts.v
theories/PropsOverlap.v
theories/MpxConf.v
theories/MpxConfFacts.v
theories/PropsMpxConf.v
theories/CcAdj.v
theories/CcAdjSpec.v
theories/CcAdjFacts.v
theories/PropsCcAdj.v
theories/OvDegs.v
theories/OvDegsFacts.v
theories/PropsOvDegs.v
theories/OvConf.v
theories/OvConfFacts.v
theories/PropsOvConf.v
theories/Creators.v
theories/PropsCreators.v
theories/IsomView.v
theories/MpxIsom.v
theories/PropsIsomMpx.v
theories/Enum.v
theories/EnumSpec.v
theories/EnumNet.v
theories/EnumFacts.v
theories/EnumRun.v
theories/PropsEnum.v
theories/OrbitCount.v
theories/CountSpec.v
theories/CountFacts.v
theories/CountRun.v
theories/CountCat.v
theories/PropsCount.v
theories/OrbitEq.v
theories/EqSpec.v
theories/EqFacts.v
theories/EqRun.v
theories/EqMain.v
theories/PropsEq.v
theories/Indep.v
theories/IndepSpec.v
theories/IndepFacts.v
theories/RedFacts.v
theories/DepFacts.v
theories/DepMain.v
theories/PropsIndep.v
theories/NodeH.v
theories/PropsNode.v
theories/ModView.v
theories/PropsMod.v
theories/Gcd.v
theories/PropsGcd.v
theories/OrbitGen.v
theories/PropsOrbGen.v
theories/PropsComb.v
theories/PropsMerge.v
theories/PropsTerms.v
theories/MpxAssign.v
theories/PropsAssign.v
theories/CcAvg.v
theories/PropsAvg.v
theories/PropsOnnela.v
