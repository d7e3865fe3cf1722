-Q theories Verif
theories/Base.v
theories/ModelLil.v
theories/ModelVec.v
theories/ModelHelpers.v
theories/Spec.v
theories/ProofBase.v
theories/ProofRow.v
theories/ProofLil.v
theories/ProofVec.v
theories/ModelCalls.v
theories/SpecCalls.v
theories/ProofCalls.v
theories/ProofContainers.v
theories/PropContainers.v
theories/ModelViews.v
theories/SpecOps.v
theories/ProofWrite.v
theories/ModelMul.v
theories/ProofViews.v
theories/ProofMul.v
theories/ProofMask.v
theories/PropWrite.v
theories/PropMul.v
theories/ModelElem.v
theories/ProofElem.v
theories/ProofReduce.v
theories/ProofKron.v
theories/ProofAlgebra.v
theories/PropElem.v
theories/ModelIndex.v
theories/SpecIndex.v
theories/ProofIndex.v
theories/ProofAssign.v
theories/ProofAssignRC.v
theories/ProofIndexMore.v
theories/PropIndex.v
theories/ModelMachine.v
theories/SpecMachine.v
theories/ProofMachine.v
theories/ProofExec.v
theories/PropMachine.v
theories/ModelAlgebra.v
theories/SpecAlgebra.v
theories/ProofLaws.v
theories/ProofProduct.v
theories/PropAlgebra.v
theories/ModelUtils.v
theories/ProofUtils.v
theories/PropUtils.v
theories/ModelAlgoBase.v
theories/ModelBfs.v
theories/SpecGraph.v
theories/ProofGraph.v
theories/ProofBfs.v
theories/ProofParents.v
theories/PropBfs.v
theories/SpecPaths.v
theories/ModelSssp.v
theories/ProofPaths.v
theories/ProofSssp.v
theories/PropSssp.v
theories/ModelMetrics.v
theories/SpecMetrics.v
theories/ProofMetrics.v
theories/PropMetrics.v
theories/ModelTriangle.v
theories/SpecTriangle.v
theories/ProofTriangle.v
theories/PropTriangle.v
theories/ModelMis.v
theories/SpecMis.v
theories/ProofMis.v
theories/PropMis.v
theories/ModelTruss.v
theories/SpecTruss.v
theories/ProofTruss.v
theories/ProofKtruss.v
theories/PropTruss.v
theories/ModelOptMxm.v
theories/ProofOptRow.v
theories/ProofOptMxm.v
theories/ProofOptKernel.v
theories/ProofOptWrap.v
theories/SpecOpt.v
theories/ProofOptOps.v
theories/PropOptMxm.v
theories/ProofVis.v
theories/ModelMst.v
theories/SpecMst.v
theories/ProofMst.v
theories/PropMst.v
theories/ModelFlow.v
theories/SpecFlow.v
theories/ProofFlow.v
theories/ProofFordFulk.v
theories/PropFlow.v
theories/ModelDelta.v
theories/ProofDelta.v
theories/PropDelta.v
theories/ModelRank.v
theories/SpecRank.v
theories/ProofRank.v
theories/PropRank.v
theories/ModelPush.v
theories/ProofPush.v
theories/PropPush.v
theories/SpecBc.v
theories/ModelBc.v
theories/ProofBcPaths.v
theories/ProofRc.v
theories/ProofBcRow.v
theories/ProofBc.v
theories/ProofBcVert.v
theories/ProofEbc.v
theories/PropBc.v
theories/ModelAppendix.v
theories/ProofAppendix.v
theories/ProofAppBc.v
theories/PropAppendix.v
theories/ModelCluster.v
theories/SpecCluster.v
theories/ProofCluster.v
theories/ProofMarkov.v
theories/ProofClusterIds.v
theories/PropCluster.v
theories/ModelLouvain.v
theories/SpecLouvain.v
theories/ProofModularity.v
theories/ProofLouvain.v
theories/PropLouvain.v
theories/ModelOps.v
theories/SpecOps2.v
theories/ProofOps.v
theories/PropOps.v
theories/ModelFloat.v
theories/SpecFloats.v
theories/ProofRound.v
theories/ProofFloat.v
theories/PropFloat.v
theories/ModelFsssp.v
theories/SpecFpaths.v
theories/ProofGpaths.v
theories/ProofFsssp.v
theories/ProofFint.v
theories/PropFsssp.v
theories/SpecRel.v
theories/ProofRel.v
theories/ModelInts.v
theories/SpecInts.v
theories/ProofInts.v
theories/PropRel.v
theories/PropInts.v
theories/ModelBc32.v
theories/ProofBc32.v
theories/PropBc32.v
theories/SpecOpLaws.v
theories/ProofOpLaws.v
theories/ProofSplit.v
theories/PropOpLaws.v
theories/ModelPrint.v
theories/SpecPrint.v
theories/ProofPrint.v
theories/PropPrint.v
theories/ModelTriInts.v
theories/ProofTriInts.v
theories/PropTriInts.v
theories/ModelIntPaths.v
theories/SpecIntPaths.v
theories/ProofApspBound.v
theories/ProofExact.v
theories/ProofIntPaths.v
theories/PropIntPaths.v
theories/ModelLevels.v
theories/SpecLevels.v
theories/ProofLevels.v
theories/ProofLevelTypes.v
theories/PropLevels.v
theories/ModelMstTypes.v
theories/SpecMstTypes.v
theories/ProofMstTypes.v
theories/PropMstTypes.v
theories/SpecError.v
theories/ModelFloatOps.v
theories/ProofError.v
theories/ProofFloatOps.v
theories/PropError.v
theories/SpecErrorPaths.v
theories/ProofErrorPaths.v
theories/PropErrorPaths.v
theories/ModelDeltaTypes.v
theories/ProofDeltaTypes.v
theories/PropDeltaTypes.v
theories/ModelFlowTypes.v
theories/ProofFlowTypes.v
theories/PropFlowTypes.v
theories/TestRun.v
theories/TestApply.v
theories/TestApplyBinop.v
theories/TestAssign.v
theories/TestEwiseaddMatrix.v
theories/TestEwiseaddVector.v
theories/TestEwisemultMatrix.v
theories/TestEwisemultVector.v
theories/TestExtractColumn.v
theories/TestExtractStdmat.v
theories/TestExtractStdvec.v
theories/TestKroneckerAB.v
theories/TestKroneckerABT.v
theories/TestKroneckerATB.v
theories/TestKroneckerATBT.v
theories/TestMatrixMethods.v
theories/TestMxm.v
theories/TestMxmAB.v
theories/TestMxmABT.v
theories/TestMxmATB.v
theories/TestMxmATBT.v
theories/TestMxv.v
theories/TestNewMxm.v
theories/TestReduce.v
theories/TestTranspose.v
theories/TestVectorMethods.v
theories/TestViews.v
theories/TestVxm.v
theories/TestAlgorithms.v
theories/ModelConv.v
theories/ModelRecast.v
theories/SpecConv.v
theories/ProofConv.v
theories/ProofRecast.v
theories/PropConv.v
theories/TestAlgebra.v
theories/TestConv.v
theories/SpecSim.v
theories/ProofSim.v
theories/ProofSimOps.v
theories/ProofSimProg.v
theories/SpecSimInts.v
theories/ProofSimInts.v
theories/PropSim.v
theories/ProofDiv.v
theories/PropDiv.v
theories/SpecSimFloat.v
theories/ProofSimFloat.v
theories/PropSimFloat.v
theories/SpecNormalize.v
theories/ProofNormalize.v
theories/ProofNormalizeRows.v
theories/PropNormalize.v
theories/ModelRankTypes.v
theories/SpecRankTypes.v
theories/ProofApprox.v
theories/ProofRankTypes.v
theories/ProofRankApprox.v
theories/PropRankTypes.v
theories/ModelBcTypes.v
theories/ProofBcTypes.v
theories/ProofBcApprox.v
theories/ProofBcFloat.v
theories/PropBcTypes.v
theories/ProofBcBound.v
theories/ProofVbcFloat.v
theories/PropVbcTypes.v
theories/ModelEbcTypes.v
theories/ProofEbcBound.v
theories/ProofEbcTypes.v
theories/PropEbcTypes.v
theories/ModelTrussTypes.v
theories/ProofTrussTypes.v
theories/ProofKtrussTypes.v
theories/PropTrussTypes.v
theories/ProofAgree.v
theories/PropAgree.v
theories/SpecRelabel.v
theories/ProofRelabel.v
theories/PropRelabel.v
theories/SpecDemo.v
theories/ModelDemo.v
theories/ProofDemo.v
theories/PropDemo.v
theories/SpecClusterTypes.v
theories/ModelClusterTypes.v
theories/ProofClusterTypes.v
theories/ProofClusterDouble.v
theories/ProofClusterExact.v
theories/PropClusterTypes.v
theories/ModelLouvainTypes.v
theories/SpecLouvainTypes.v
theories/ProofLouvainTypes.v
theories/ProofAbsErr.v
theories/ProofLouvainDouble.v
theories/PropLouvainTypes.v
theories/ModelMarkovTypes.v
theories/SpecMarkovTypes.v
theories/ProofMarkovDouble.v
theories/PropMarkovTypes.v
theories/ModelParentTypes.v
theories/SpecParentTypes.v
theories/ProofParentTypes.v
theories/PropParentTypes.v
theories/ModelPushTypes.v
theories/SpecPushTypes.v
theories/ProofPushTypes.v
theories/PropPushTypes.v
theories/ModelPushFloat.v
theories/ProofPushFloat.v
theories/PropPushFloat.v
theories/ModelTriFloat.v
theories/ProofTriFloat.v
theories/PropTriFloat.v
theories/ModelTrussFloat.v
theories/ProofTrussFloat.v
theories/PropTrussFloat.v
theories/ProofRelabelMst.v
theories/PropRelabelMst.v
theories/SpecMonotone.v
theories/ProofMonotone.v
theories/PropMonotone.v
theories/ProofMinCut.v
theories/PropMinCut.v
theories/ProofScale.v
theories/PropScale.v
theories/ModelSearchDemo.v
theories/SpecSearchDemo.v
theories/ProofSearchDemo.v
theories/PropSearchDemo.v
theories/ProofLocal.v
theories/PropLocal.v
