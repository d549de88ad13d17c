-Q theories Verif
theories/Py.v
theories/PyFloat.v
theories/Parser.v
theories/StateGen.v
theories/Vec.v
theories/Segment.v
theories/Junction.v
theories/Planner.v
theories/RealFacts.v
theories/SpecKin.v
theories/MoveProofs.v
theories/JunctionProofs.v
theories/CorrectProofs.v
theories/SegProofs.v
theories/PlannerProofs.v
theories/TrajProofs.v
theories/PlanFacts.v
theories/PlanRefute.v
theories/PropertiesPlan.v
theories/StrFacts.v
theories/DedupeProofs.v
theories/SpecRead.v
theories/ParserProofs.v
theories/CommentProofs.v
theories/LineProofs.v
theories/Presets.v
theories/SpecSlicer.v
theories/SpecMachine.v
theories/ReadProofs.v
theories/ReadFacts.v
theories/ReadReals.v
theories/ReadText.v
theories/PropertiesRead.v
theories/SpecJunction.v
theories/CornerProofs.v
theories/PropertiesCorner.v
theories/Query.v
theories/SpecQuery.v
theories/QueryProofs.v
theories/QueryFacts.v
theories/QueryRefute.v
theories/PropertiesQuery.v
theories/Setup.v
theories/Interp.v
theories/SpecSetup.v
theories/SetupProofs.v
theories/SpecText.v
theories/InterpProofs.v
theories/PropertiesSetup.v
theories/Abaqus.v
theories/Tools.v
theories/SpecTools.v
theories/TimeProofs.v
theories/AbaqusProofs.v
theories/LayerProofs.v
theories/BoxProofs.v
theories/BoxFacts.v
theories/ToolsFacts.v
theories/PropertiesTools.v
theories/Plot.v
theories/Cli.v
theories/Examples.v
theories/SpecPlot.v
theories/OneMove.v
theories/PlotProofs.v
theories/PropertiesPlot.v
theories/VecOps.v
theories/SpecVec.v
theories/PropertiesVec.v
theories/SpecTrace.v
theories/TraceProofs.v
theories/TraceText.v
theories/PropertiesTrace.v
theories/SpecRigid.v
theories/RigidProofs.v
theories/PropertiesRigid.v
theories/SpecSearch.v
theories/SearchProofs.v
theories/PropertiesSearch.v
theories/CliArgs.v
theories/SpecArgs.v
theories/PropertiesArgs.v
theories/SpecFirmware.v
theories/FirmwareProofs.v
theories/PropertiesFirmware.v
theories/SpecCorner.v
theories/CornerFormulas.v
theories/PropertiesRules.v
theories/SpecTime.v
theories/DriveProofs.v
theories/PropertiesTime.v
theories/SlicerProofs.v
theories/SlicerText.v
theories/PropertiesSlicer.v
theories/SpecError.v
theories/ErrorProofs.v
theories/PropertiesError.v
theories/PlotVel.v
theories/SpecVelPlot.v
theories/VelPlotProofs.v
theories/PropertiesVelPlot.v
theories/Texts.v
theories/SpecTexts.v
theories/TextsProofs.v
theories/PropertiesTexts.v
theories/Rounding.v
theories/SpecRounding.v
theories/RoundingProofs.v
theories/PropertiesRounding.v
theories/Generic.v
theories/SpecGeneric.v
theories/GenericProofs.v
theories/FloatMoveProofs.v
theories/PropertiesFloat.v
theories/SpecDrift.v
theories/FloatDriftProofs.v
theories/FloatPlanProofs.v
theories/PropertiesDrift.v
theories/SpecStop.v
theories/StopTimeFacts.v
theories/FloatStopProofs.v
theories/PropertiesStop.v
theories/SpecStopText.v
theories/FloatTextProofs.v
theories/TextTimeProofs.v
theories/PropertiesStopText.v
theories/SpecFind.v
theories/PropertiesFind.v
theories/SpecIEEE.v
theories/IEEEProofs.v
theories/SineProofs.v
theories/PropertiesIEEE.v
theories/PropertiesFail.v
theories/SpecBridge.v
theories/BridgeProofs.v
theories/BridgeJunctionProofs.v
theories/BridgePlanProofs.v
theories/BridgeRunProofs.v
theories/PropertiesBridge.v
theories/SpecBridgeText.v
theories/BridgeReadProofs.v
theories/PropertiesBridgeText.v
theories/GenericQuery.v
theories/SpecGenericQuery.v
theories/QueryFloatProofs.v
theories/PropertiesGenericQuery.v
theories/SpecOutcome.v
theories/PropertiesOutcome.v
theories/Repr.v
theories/SpecRepr.v
theories/ReprProofs.v
theories/ReprTextProofs.v
theories/PropertiesRepr.v
theories/GenericTexts.v
theories/SpecGenericTexts.v
theories/PropertiesGenericTexts.v
theories/SpecShape.v
theories/PropertiesShape.v
theories/GenericMetrics.v
theories/SpecGenericMetrics.v
theories/PropertiesGenericMetrics.v
theories/GenericSummary.v
theories/SpecGenericSummary.v
theories/PropertiesGenericSummary.v
