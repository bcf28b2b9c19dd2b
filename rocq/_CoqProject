-Q theories Verif

theories/Num.v
theories/NumFacts.v
theories/ModelBasic.v
theories/ModelMinMax.v
theories/SpecStats.v
theories/ProofMinMax.v
theories/ProofBasic.v
theories/ProofBasic2.v
theories/ProofBasic3.v
theories/ModelRounding.v
theories/ProofKahan.v
theories/ModelRolling.v
theories/SpecRolling.v
theories/ProofRolling.v
theories/ProofRollingBuf.v
theories/ProofRollingEx.v
theories/PropsBasic.v
theories/PropsMinMax.v
theories/PropsKahan.v
theories/PropsRolling.v
theories/ModelTail.v
theories/SpecTail.v
theories/ProofTail.v
theories/ProofOrder.v
theories/ProofTailStats.v
theories/ProofTailTop.v
theories/PropsTail.v
theories/ModelDensity.v
theories/SpecDensity.v
theories/ProofDensity.v
theories/ProofDensityMed.v
theories/ProofDensityTop.v
theories/PropsDensity.v
theories/ModelPSquare.v
theories/SpecPSquare.v
theories/ProofPSquare.v
theories/ProofPSquareRun.v
theories/ProofPSquareTop.v
theories/ProofPSquareW.v
theories/ProofPSquareInst.v
theories/ProofPSquareMore.v
theories/ProofPSquareEx.v
theories/PropsPSquare.v
theories/ModelPot.v
theories/SpecPot.v
theories/ProofPot.v
theories/ProofPotMore.v
theories/ProofPotReal.v
theories/ProofPotAgain.v
theories/PropsPot.v
theories/ModelFramework.v
theories/SpecFramework.v
theories/ProofFramework.v
theories/ProofFrameworkRef.v
theories/ProofFrameworkRun.v
theories/ModelLibrary.v
theories/ModelSets.v
theories/SpecSets.v
theories/ProofLibrary.v
theories/ProofSets.v
theories/ProofSetsTop.v
theories/ModelRollingSets.v
theories/SpecRollingSets.v
theories/ProofRollingSets.v
theories/ProofFrameworkEx.v
theories/PropsFramework.v
theories/SpecMachine.v
theories/ModelArchive.v
theories/ModelMachines.v
theories/ProofMachines.v
theories/ProofMachines2.v
theories/ProofMachines3.v
theories/ModelSetArchive.v
theories/ProofSetArchive.v
theories/ModelCircular.v
theories/ProofCircular.v
theories/ProofMachinesEx.v
theories/PropsMachines.v
theories/ModelVector.v
theories/SpecVector.v
theories/ProofVector.v
theories/ProofVector2.v
theories/ProofVector3.v
theories/PropsVector.v
theories/ModelNumeric.v
theories/ProofNumeric.v
theories/PropsNumeric.v
theories/ModelExternal.v
theories/SpecExternal.v
theories/ProofExternal.v
theories/ProofExternal2.v
theories/PropsExternal.v
theories/SpecInteger.v
theories/ModelInteger.v
theories/ProofInteger.v
theories/ProofInteger2.v
theories/ProofInteger3.v
theories/ProofInteger4.v
theories/PropsInteger.v
theories/SpecFrozen.v
theories/ModelCached.v
theories/SpecCached.v
theories/ProofFrozen.v
theories/ProofCached.v
theories/ProofFrozenEx.v
theories/PropsFrozen.v
theories/ModelWhole.v
theories/SpecWhole.v
theories/ProofWhole1.v
theories/ProofWhole.v
theories/ProofWholeTop.v
theories/ProofWholeEx.v
theories/ProofWholeRolling.v
theories/ProofWholeMore.v
theories/ProofWholeMoreEx.v
theories/PropsWhole.v
theories/ModelDouble.v
theories/SpecDouble.v
theories/ProofDouble.v
theories/ProofDouble2.v
theories/ProofDouble3.v
theories/ProofDouble4.v
theories/ProofDouble5.v
theories/ProofDouble6.v
theories/ProofDoubleEx.v
theories/ProofDoublePSquare.v
theories/ProofDoublePSquare2.v
theories/ProofDoublePSquareEx.v
theories/PropsDouble.v
theories/ModelObserve.v
theories/SpecObserve.v
theories/ProofObserve.v
theories/ProofObserve2.v
theories/ProofObserve3.v
theories/ProofObserveTop.v
theories/ProofObserveEx.v
theories/PropsObserve.v
theories/ModelLibraryArchive.v
theories/SpecLibraryArchive.v
theories/ProofLibraryArchive1.v
theories/ProofLibraryArchive2.v
theories/ProofLibraryArchive3.v
theories/ProofLibraryArchive4.v
theories/ProofLibraryArchiveEx.v
theories/ProofArchiveKept.v
theories/PropsLibraryArchive.v
theories/ModelDoubleTail.v
theories/SpecDoubleTail.v
theories/ProofDoubleTail.v
theories/PropsDoubleTail.v
theories/SpecDoubleDensity.v
theories/ProofDoubleDensity.v
theories/ProofDoubleDensity2.v
theories/ProofDoubleDensity3.v
theories/ProofDoubleDensityEx.v
theories/PropsDoubleDensity.v
theories/SpecDoubleVariance.v
theories/ProofDoubleVariance.v
theories/ProofDoubleVariance2.v
theories/ProofDoubleVariance3.v
theories/ProofDoubleVariance4.v
theories/ProofDoubleCovariance.v
theories/ProofDoubleCovariance2.v
theories/ProofDoubleCovariance3.v
theories/PropsDoubleVariance.v
theories/SpecDoubleWeighted.v
theories/ProofDoubleWeighted.v
theories/ProofDoubleWeighted2.v
theories/ProofDoubleWeighted3.v
theories/PropsDoubleWeighted.v
theories/ProofDoubleWPSquare.v
theories/ProofDoubleWPSquare2.v
theories/ProofDoubleWPSquareEx.v
theories/PropsDoubleWPSquare.v
theories/SpecUnits.v
theories/ProofUnits.v
theories/ProofUnits2.v
theories/ProofUnits3.v
theories/PropsUnits.v
theories/SpecAffine.v
theories/ProofAffine.v
theories/ProofAffine2.v
theories/ProofAffine3.v
theories/ProofAffine4.v
theories/PropsAffine.v
theories/ModelViews.v
theories/ProofViews.v
theories/PropsViews.v
theories/SpecMemory.v
theories/ProofMemory.v
theories/PropsMemory.v
theories/ModelValarray.v
theories/ProofValarray.v
theories/PropsValarray.v
theories/ProofBounds.v
theories/PropsBounds.v
theories/SpecConstant.v
theories/ProofConstant.v
theories/ProofDoubleConstant.v
theories/PropsConstant.v
theories/TestSuite.v
theories/SpecProbability.v
theories/ProofProbability.v
theories/ProofProbabilityEx.v
theories/PropsProbability.v
theories/ModelComplex.v
theories/SpecComplex.v
theories/ProofComplex.v
theories/ProofComplexEx.v
theories/PropsComplex.v
theories/ModelHeap.v
theories/ProofHeap.v
theories/ProofDoubleWTail.v
theories/PropsDoubleWTail.v
theories/ProofDoubleWDensity.v
theories/ProofDoubleWDensityEx.v
theories/PropsDoubleWDensity.v
theories/ModelThrow.v
theories/ProofThrow.v
theories/ProofThrowTop.v
theories/PropsThrow.v
theories/ModelWorld.v
theories/SpecWorld.v
theories/ProofWorld.v
theories/ProofWorldEx.v
theories/PropsWorld.v
theories/SpecDoubleWVariance.v
theories/ProofDoubleWVariance.v
theories/ProofDoubleWVariance2.v
theories/ProofDoubleWVariance3.v
theories/ProofDoubleWVariance4.v
theories/PropsDoubleWVariance.v
theories/SpecUnitWeights.v
theories/ProofUnitWeights.v
theories/ProofUnitWeightsDouble.v
theories/PropsUnitWeights.v
theories/SpecRisk.v
theories/ProofRisk.v
theories/ProofRiskTop.v
theories/PropsRisk.v
theories/SpecMonotone.v
theories/ProofMonotone.v
theories/ProofMonotone2.v
theories/PropsMonotone.v
theories/SpecMeasure.v
theories/ProofMeasure.v
theories/ProofMeasureEx.v
theories/PropsMeasure.v
theories/SpecMirror.v
theories/ProofMirror.v
theories/ProofMirror2.v
theories/ProofMirror3.v
theories/ProofMirror4.v
theories/ProofMirrorEx.v
theories/PropsMirror.v
theories/SpecScale.v
theories/ProofScale.v
theories/ProofScale2.v
theories/ProofScale3.v
theories/ProofScale4.v
theories/ProofScaleEx.v
theories/PropsScale.v
theories/ModelArgs.v
theories/SpecArgs.v
theories/ProofArgs.v
theories/ProofArgs2.v
theories/ProofArgs3.v
theories/ProofArgs4.v
theories/ProofArgsEx.v
theories/PropsArgs.v
theories/SpecParts.v
theories/ProofParts.v
theories/ProofPartsEx.v
theories/PropsParts.v
theories/SpecDoubleMoment.v
theories/ProofDoubleMoment.v
theories/ProofDoubleMoment2.v
theories/PropsDoubleMoment.v
theories/SpecDoubleRolling.v
theories/ProofDoubleRolling.v
theories/ProofDoubleRolling2.v
theories/ProofDoubleRolling3.v
theories/ProofDoubleRolling4.v
theories/PropsDoubleRolling.v
theories/SpecDoubleError.v
theories/ProofDoubleError.v
theories/PropsDoubleError.v
theories/ProofDoubleTailMean.v
theories/PropsDoubleTailMean.v
theories/SpecDoubleShape.v
theories/SpecDoubleWShape.v
theories/ProofDoubleShape.v
theories/ProofDoubleShape2.v
theories/ProofDoubleShape3.v
theories/ProofDoubleShape4.v
theories/ProofDoubleShape5.v
theories/PropsDoubleShape.v
theories/ProofDoubleCoherent.v
theories/PropsDoubleCoherent.v
theories/SpecDoubleWCov.v
theories/ProofDoubleWCov.v
theories/ProofDoubleWCov2.v
theories/ProofDoubleWCov3.v
theories/PropsDoubleWCov.v
