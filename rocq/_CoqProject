-Q theories Verif
theories/Base.v
theories/ShapeModel.v
theories/TensorModel.v
theories/AxisModel.v
theories/MapModel.v
theories/ArrayModel.v
theories/Spec.v
theories/BaseFacts.v
theories/SafeFacts.v
theories/ShapeFacts.v
theories/CoordFacts.v
theories/TensorFacts.v
theories/ShapeFacts2.v
theories/NumModel.v
theories/TensorFacts2.v
theories/MapFacts.v
theories/ShapeSpec.v
theories/ShapeProofs.v
theories/PropsShape.v
theories/TensorSpec.v
theories/TensorProofs.v
theories/PropsTensor.v
theories/MapSpec.v
theories/MapProofs.v
theories/PropsMap.v
theories/ArrayFacts.v
theories/SplitFacts.v
theories/StackFacts.v
theories/ArrayProofs.v
theories/PropsArray.v
theories/FloatModel.v
theories/FloatSpec.v
theories/InitModel.v
theories/InitFacts.v
theories/RealFacts.v
theories/InitSpec.v
theories/InitProofs.v
theories/PropsInit.v
theories/LinalgModel.v
theories/LinalgFacts.v
theories/LinalgSpec.v
theories/LinalgProofs.v
theories/PropsLinalg.v
theories/MathModel.v
theories/MathFacts.v
theories/MathSpec.v
theories/MathProofs.v
theories/PropsMath.v
theories/StatsFacts.v
theories/StatsProofs.v
theories/PropsStats.v
theories/RandomModel.v
theories/RandomFacts.v
theories/RandomSpec.v
theories/RandomProofs.v
theories/PropsRandom.v
theories/IoModel.v
theories/IoSpec.v
theories/IoProofs.v
theories/PropsIo.v
theories/SignalModel.v
theories/SignalSpec.v
theories/SignalProofs.v
theories/PropsSignal.v
theories/LifeModel.v
theories/LifeSpec.v
theories/LifeProofs.v
theories/PropsLife.v
theories/OptModel.v
theories/OptSpec.v
theories/OptProofs.v
theories/PropsOpt.v
theories/FmtModel.v
theories/FmtSpec.v
theories/FmtProofs.v
theories/PropsFmt.v
theories/SafetyFacts.v
theories/SafetyFacts2.v
theories/SafetyFacts3.v
theories/SafetyFacts4.v
theories/StrictFacts.v
theories/SafetySpec.v
theories/SafetyProofs.v
theories/PropsSafety.v
theories/ExactProofs.v
theories/PropsExact.v
theories/FromModel.v
theories/UpstreamTests.v
theories/FromFacts.v
theories/ArgModel.v
theories/ArgFacts.v
theories/PropsFrom.v
theories/RoundSpec.v
theories/RoundFacts.v
theories/RoundProofs.v
theories/PropsRound.v
theories/ExactProofs2.v
theories/ProfileSpec.v
theories/ProfileFacts.v
theories/ProfileProofs.v
theories/PropsProfile.v
theories/AlgSpec.v
theories/AlgFacts.v
theories/AlgProofs.v
theories/PropsAlg.v
theories/MatProofs.v
theories/PropsMat.v
theories/WrapModel.v
theories/WrapProofs.v
theories/PropsWrap.v
theories/ExactProofs3.v
theories/PropsEmpty.v
theories/ParamSpec.v
theories/ParamFacts.v
theories/ParamProofs.v
theories/PropsParam.v
theories/UnusedModel.v
theories/UnusedSpec.v
theories/UnusedProofs.v
theories/PropsUnused.v
theories/ViewSpec.v
theories/ViewFacts.v
theories/ViewProofs.v
theories/PropsView.v
theories/HistProofs.v
theories/PropsHist.v
theories/ComposeSpec.v
theories/ComposeProofs.v
theories/PropsCompose.v
theories/RangeProofs.v
theories/PropsRange.v
theories/InvarSpec.v
theories/InvarProofs.v
theories/PropsInvar.v
theories/KernelModel.v
theories/KernelSpec.v
theories/KernelFacts.v
theories/KernelProofs.v
theories/KernelRound.v
theories/PropsKernel.v
theories/TileProofs.v
theories/PropsTile.v
theories/ArangeProofs.v
theories/PropsArange.v
theories/AxisRoundProofs.v
theories/PropsAxisRound.v
theories/KernelErrorProofs.v
theories/PropsKernelError.v
theories/WelfordProofs.v
theories/PropsWelford.v
theories/GridProofs.v
theories/PropsGrid.v
theories/IntProofs.v
theories/PropsInt.v
theories/Rand64Model.v
theories/RestProofs.v
theories/PropsRest.v
theories/NormalProofs.v
theories/NormalSpec.v
theories/LogProofs.v
theories/GeomProofs.v
theories/PropsGeom.v
