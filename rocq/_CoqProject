-Q theories Verif
theories/Base.v
theories/BaseFacts.v
theories/Tensor.v
theories/TensorFacts.v
theories/ScdModel.v
theories/ScdSpec.v
theories/ScdProofs.v
theories/ScdProofs2.v
theories/ScdProofs3.v
theories/ScdProofs4.v
theories/PropScd.v
theories/IntegratorModel.v
theories/IntegratorSpec.v
theories/IntervalProofs.v
theories/GridProofs.v
theories/IntegratorProofs.v
theories/PropIntegrator.v
theories/ParamFuncModel.v
theories/ParamFuncSpec.v
theories/ParamFuncProofs.v
theories/PropParamFunc.v
theories/BlockModel.v
theories/BlockSpec.v
theories/EnlargeProofs.v
theories/BlockProofs.v
theories/BlockProofs2.v
theories/BlockProofs3.v
theories/BlockProofs4.v
theories/BlockProofs5.v
theories/BlockProofs6.v
theories/PropBlock.v
theories/SchedulerModel.v
theories/SchedulerSpec.v
theories/SchedulerProofs.v
theories/SchedulerProofs2.v
theories/SchedulerProofs3.v
theories/PropScheduler.v
theories/StridingModel.v
theories/StridingSpec.v
theories/StridingProofs.v
theories/StridingProofs2.v
theories/PropStriding.v
theories/SweepModel.v
theories/SweepSpec.v
theories/SweepProofs.v
theories/SweepProofs2.v
theories/PropSweep.v
theories/UtilsModel.v
theories/UtilsSpec.v
theories/UtilsProofs.v
theories/PropUtils.v
theories/ResNetModel.v
theories/ResNetProofs.v
theories/PropResNet.v
theories/SpiralModel.v
theories/SpiralSpec.v
theories/SpiralProofs.v
theories/PropSpiral.v
theories/ComplexityModel.v
theories/ComplexitySpec.v
theories/ComplexityProofs.v
theories/PropComplexity.v
theories/LayersModel.v
theories/LayersProofs.v
theories/PropLayers.v
theories/IntegrandModel.v
theories/IntegrandSpec.v
theories/IntegrandProofs.v
theories/IntegrandProofs2.v
theories/IntegrandProofs3.v
theories/PropIntegrand.v
theories/ActivationModel.v
theories/ActivationSpec.v
theories/ActivationProofs.v
theories/PropActivation.v
theories/RealSum.v
theories/EnergyModel.v
theories/EnergySpec.v
theories/EnergyProofs.v
theories/EnergyProofs2.v
theories/PropEnergy.v
theories/VecNet.v
theories/VecModel.v
theories/VecInit.v
theories/VecSpec.v
theories/VecProofs.v
theories/VecProofs2.v
theories/VecProofs3.v
theories/VecProofs4.v
theories/VecProofs5.v
theories/VecProofs6.v
theories/VecProofs7.v
theories/VecProofs8.v
theories/VecProofs9.v
theories/PropVec.v
theories/VecFlow.v
theories/VecFlowProofs.v
theories/PropVecFlow.v
theories/ConvModel.v
theories/ConvSpec.v
theories/ConvProofs.v
theories/PropConv.v
theories/ScdProofs5.v
theories/PropZero.v
theories/InitModel.v
theories/InitSpec.v
theories/InitProofs.v
theories/PropInit.v
theories/HooksModel.v
theories/HooksSpec.v
theories/HooksProofs.v
theories/PropHooks.v
theories/BlockProofs7.v
theories/PropBlock2.v
theories/CommandModel.v
theories/ShellSpec.v
theories/CommandSpec.v
theories/CommandProofs.v
theories/PropCommand.v
theories/AutoencoderModel.v
theories/AutoencoderSpec.v
theories/AutoencoderProofs.v
theories/AutoencoderProofs2.v
theories/PropAutoencoder.v
theories/LoopModel.v
theories/LoopSpec.v
theories/LoopProofs.v
theories/PropLoop.v
theories/DataModel.v
theories/DataProofs.v
theories/SphereModel.v
theories/SphereSpec.v
theories/SphereProofs.v
theories/PropData.v
theories/FunctionalModel.v
theories/FunctionalSpec.v
theories/FunctionalProofs.v
theories/PropFunctional.v
theories/FunctionalDataModel.v
theories/FunctionalDataSpec.v
theories/FunctionalDataProofs.v
theories/PropFunctionalData.v
theories/DiscreteNetModel.v
theories/DiscreteNetSpec.v
theories/DiscreteNetProofs.v
theories/DiscreteFlowProofs.v
theories/DiscreteCollectProofs.v
theories/PropDiscreteNet.v
theories/IntegrandBlocksSpec.v
theories/IntegrandBlocksProofs.v
theories/IntegrandBlocksExample.v
theories/PropIntegrandBlocks.v
theories/VecEquationsSpec.v
theories/VecEquationsProofs.v
theories/VecDampeningProofs.v
theories/PropVecEquations.v
theories/FigureModel.v
theories/FigureSpec.v
theories/FigureTextProofs.v
theories/FigureFileProofs.v
theories/FigureFileProofs2.v
theories/FigureTemporalProofs.v
theories/FigureExample.v
theories/PropFigure.v
theories/VizModel.v
theories/VizSpec.v
theories/VizStackProofs.v
theories/VizNameProofs.v
theories/VizEvolutionProofs.v
theories/VizBasicProofs.v
theories/VizExample.v
theories/PropViz.v
theories/StandaloneModel.v
theories/StandaloneSpec.v
theories/StandaloneProofs.v
theories/StandaloneProofs2.v
theories/StandaloneProofs3.v
theories/StandaloneProofs4.v
theories/StandaloneProofs5.v
theories/StandaloneExample.v
theories/PropStandalone.v
theories/RawFixedModel.v
theories/RawFixedSpec.v
theories/RawFixedProofs.v
theories/PropRawFixed.v
theories/ManualGradModel.v
theories/ManualGradSpec.v
theories/ManualGradProofs.v
theories/PropManualGrad.v
theories/NetworkModel.v
theories/NetworkSpec.v
theories/NetworkProofs.v
theories/NetworkProofs2.v
theories/NetworkProofs3.v
theories/NetworkProofs4.v
theories/NetworkProofs5.v
theories/NetworkProofs6.v
theories/PropNetwork.v
theories/AnalyticFlowSpec.v
theories/AnalyticFlowProofs.v
theories/AnalyticFlowProofs2.v
theories/AnalyticFlowExample.v
theories/GradCheckModel.v
theories/GradCheckSpec.v
theories/GradCheckProofs.v
theories/GradCheckExample.v
theories/StepControl.v
theories/PropAnalyticFlow.v
theories/ArgparseModel.v
theories/ArgparseProofs.v
theories/ExperimentModel.v
theories/ExperimentSpec.v
theories/ExperimentProofs.v
theories/ExperimentProofs2.v
theories/ExperimentProofs3.v
theories/PropExperiment.v
theories/FixedGridModel.v
theories/FixedGridSpec.v
theories/FixedGridProofs.v
theories/FixedGridProofs2.v
theories/FixedGridProofs3.v
theories/PropFixedGrid.v
theories/RecordModel.v
theories/RecordSpec.v
theories/RecordProofs.v
theories/RecordProofs2.v
theories/RecordProofs3.v
theories/RecordProofs4.v
theories/RecordProofs5.v
theories/RecordExamples.v
theories/PropRecord.v
theories/LoaderModel.v
theories/LoaderSpec.v
theories/LoaderProofs.v
theories/PropLoader.v
theories/CirclesModel.v
theories/CirclesSpec.v
theories/CirclesProofs.v
theories/CirclesProofs2.v
theories/CirclesProofs3.v
theories/PropCircles.v
theories/FixedGridProofs4.v
theories/PropBackward.v
theories/RecordProofs6.v
theories/SeedModel.v
theories/SeedSpec.v
theories/SeedProofs.v
theories/SeedProofs2.v
theories/SeedProofs3.v
theories/SeedExamples.v
theories/PropSeed.v
theories/TensorboardModel.v
theories/TensorboardSpec.v
theories/TensorboardProofs.v
theories/TensorboardProofs2.v
theories/TensorboardExamples.v
theories/PropTensorboard.v
theories/ImagesSpec.v
theories/ImagesModel.v
theories/ImagesProofs.v
theories/ImagesProofs2.v
theories/ImagesProofs3.v
theories/ImagesProofs4.v
theories/ImagesExamples.v
theories/PropImages.v
theories/CirclesProofs4.v
theories/ReadmeSpec.v
theories/ReadmeModel.v
theories/ReadmeProofs.v
theories/ReadmeProofs2.v
theories/PropReadme.v
theories/ImagesProofs5.v
theories/SetupModel.v
theories/SetupSpec.v
theories/SetupProofs.v
theories/SetupProofs2.v
theories/SetupProofs3.v
theories/SetupProofs4.v
theories/PropSetup.v
theories/TrainedModel.v
theories/TrainedSpec.v
theories/TrainedProofs.v
theories/TrainedProofs2.v
theories/TrainedProofs3.v
theories/TrainedProofs4.v
theories/PropTrained.v
theories/RatesModel.v
theories/RatesSpec.v
theories/RatesProofs.v
theories/RatesProofs2.v
theories/RatesProofs3.v
theories/RatesProofs4.v
theories/RatesProofs5.v
theories/PropRates.v
theories/ComplexityProofs2.v
theories/SpiralDataModel.v
theories/SpiralDataSpec.v
theories/SpiralCurveProofs.v
theories/SpiralStepProofs.v
theories/SpiralDataProofs.v
theories/PropSpiralData.v
theories/SelectionSpec.v
theories/SelectionProofs.v
theories/PropSelection.v
theories/DeviceModel.v
theories/DeviceSpec.v
theories/DeviceProofs.v
theories/DeviceProofs2.v
theories/PropDevice.v
theories/TriesModel.v
theories/TriesSpec.v
theories/TriesProofs.v
theories/PropTries.v
theories/BlockSolverModel.v
theories/BlockSolverSpec.v
theories/BlockSolverProofs.v
theories/PropBlockSolver.v
theories/ParticlesModel.v
theories/ParticlesSpec.v
theories/ParticlesProofs.v
theories/ParticlesProofs2.v
theories/ParticlesExamples.v
theories/PropParticles.v
theories/ScalingSpec.v
theories/ScalingProofs.v
theories/ScalingProofs2.v
theories/PropScaling.v
theories/SilentSpec.v
theories/SilentProofs.v
theories/SilentProofs2.v
theories/PropSilent.v
theories/TrajectoryModel.v
theories/TrajectorySpec.v
theories/TrajectoryProofs.v
theories/PropTrajectory.v
theories/MirrorSpec.v
theories/MirrorProofs.v
theories/MirrorProofs2.v
theories/PropMirror.v
theories/RotationSpec.v
theories/RotationExamples.v
theories/RotationProofs.v
theories/RotationProofs2.v
theories/RotationProofs3.v
theories/RotationProofs4.v
theories/PropRotation.v
theories/VisualizeModel.v
theories/VisualizeSpec.v
theories/VisualizeProofs.v
theories/VisualizeExamples.v
theories/PropVisualize.v
theories/RelabelSpec.v
theories/RelabelProofs.v
theories/RelabelProofs2.v
theories/PropRelabel.v
theories/ProcessModel.v
theories/ProcessSpec.v
theories/ProcessProofs.v
theories/PropProcess.v
theories/InnerSpec.v
theories/InnerProofs.v
theories/InnerProofs2.v
theories/PropInner.v
theories/OffsetSpec.v
theories/OffsetProofs.v
theories/PropOffset.v
theories/AffineSpec.v
theories/AffineProofs.v
theories/PropAffine.v
theories/ReturnSpec.v
theories/ReturnProofs.v
theories/PropReturn.v
theories/PaceSpec.v
theories/PaceProofs.v
theories/PaceProofs2.v
theories/PropPace.v
theories/PaceProofs3.v
