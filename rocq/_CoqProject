-Q theories Verif
theories/Base.v
theories/Num.v
theories/Types.v
theories/Neighbor.v
theories/Physics.v
theories/Pressure.v
theories/Step.v
theories/Spec.v
theories/NumR.v
theories/NumF.v
theories/BaseFacts.v
theories/NeighborFacts.v
theories/NeighborProps.v
theories/SpecR.v
theories/NeighborR.v
theories/FloatFacts.v
theories/NeighborF.v
theories/NeighborMargin.v
theories/NeighborThms.v
theories/NeighborCases.v
theories/PropNeighbor.v
theories/StageFacts.v
theories/Schedule.v
theories/Loops.v
theories/LoopFacts.v
theories/StepFacts.v
theories/CollisionTrace.v
theories/SumR.v
theories/CollisionR.v
theories/WeightR.v
theories/MotionR.v
theories/FallR.v
theories/GradientR.v
theories/RetypeFacts.v
theories/Planar.v
theories/SpecF.v
theories/StepF.v
theories/WeightF.v
theories/DensityF.v
theories/MinPressureF.v
theories/CourantF.v
theories/PlanarR.v
theories/ExplicitFacts.v
theories/ExplicitF.v
theories/PressureR.v
theories/SafetyFacts.v
theories/ImplicitFacts.v
theories/TotalR.v
theories/GaussR.v
theories/StageCases.v
theories/SolverCases.v
theories/StepCasesF.v
theories/StepFCases.v
theories/ConsoleF.v
theories/SpecStep.v
theories/StepR.v
theories/WholeR.v
theories/WholeCases.v
theories/PropWhole.v
theories/PropWeight.v
theories/PropCollision.v
theories/PropStep.v
theories/PropPressure.v
theories/ScheduleCases.v
theories/PropSchedule.v
theories/Text.v
theories/TextFacts.v
theories/Sim.v
theories/Decimal.v
theories/Files.v
theories/SpecFiles.v
theories/DecimalFacts.v
theories/FilesFacts.v
theories/VtuFacts.v
theories/BinFacts.v
theories/SpecXml.v
theories/XmlFacts.v
theories/CsvFacts.v
theories/FilesCases.v
theories/ProfBad.v
theories/PropFiles.v
theories/Loader.v
theories/Program.v
theories/SpecLoader.v
theories/LoaderFacts.v
theories/SpecSim.v
theories/DoubleCases.v
theories/PropDouble.v
theories/SimFacts.v
theories/Console.v
theories/SpecConsole.v
theories/ConsoleFacts.v
theories/SimR.v
theories/SimF.v
theories/SimCases.v
theories/PropSim.v
theories/ProgramFacts.v
theories/LoaderR.v
theories/LoaderCases.v
theories/PropLoader.v
theories/Generator.v
theories/SpecGenerator.v
theories/GeneratorFacts.v
theories/GeneratorR.v
theories/GeneratorF.v
theories/Shipped.v
theories/GeneratorFiles.v
theories/DialogueFacts.v
theories/VtuMissing.v
theories/GeneratorCases.v
theories/PropGenerator.v
theories/SpecUnits.v
theories/UnitsR.v
theories/UnitsCases.v
theories/UnitsF.v
theories/PropUnits.v
theories/Yaml.v
theories/ReportF.v
theories/SpecEnds.v
theories/NanFacts.v
theories/ProgramEnds.v
theories/SpecShipped.v
theories/ShippedCases.v
theories/SpecLine.v
theories/LineFacts.v
theories/PropConsole.v
theories/PropShipped.v
theories/SpecSym.v
theories/SymR.v
theories/SymCollideR.v
theories/SymStepR.v
theories/SymWholeR.v
theories/SymCases.v
theories/SymF.v
theories/PropSym.v
theories/SpecResume.v
theories/ResumeFacts.v
theories/ResumeRun.v
theories/SpecRestart.v
theories/ResumeFiles.v
theories/RestartCases.v
theories/ResumeCases.v
theories/PropResume.v
theories/SpecForces.v
theories/ViscosityR.v
theories/ForcesCases.v
theories/PropForces.v
theories/Scripts.v
theories/SpecScripts.v
theories/ScriptFacts.v
theories/RunnerFacts.v
theories/ScriptCases.v
theories/PropScripts.v
theories/SpecBody.v
theories/BodyR.v
theories/BodyRun.v
theories/BodyCases.v
theories/PropBody.v
theories/SpecInventory.v
theories/InventoryFacts.v
theories/InventoryCases.v
theories/PropInventory.v
theories/SpecEndings.v
theories/AssertFacts.v
theories/EndingsFacts.v
theories/EndingsCases.v
theories/PropEndings.v
theories/Messages.v
theories/SpecMessages.v
theories/MessagesFacts.v
theories/MessagesMore.v
theories/MessagesCases.v
theories/PropMessages.v
theories/SpecTests.v
theories/TestFacts.v
theories/TestRef.v
theories/TestCases.v
theories/PropTests.v
theories/SpecApart.v
theories/ApartFacts.v
theories/ApartLoops.v
theories/ApartStep.v
theories/ApartRun.v
theories/ApartR.v
theories/SpecApartR.v
theories/ApartRunR.v
theories/ApartCases.v
theories/ApartF.v
theories/PropApart.v
theories/SpecBound.v
theories/BoundR.v
theories/BoundSharp.v
theories/BoundCases.v
theories/PropBound.v
theories/Workflow.v
theories/SpecWorkflow.v
theories/WorkflowText.v
theories/WorkflowFacts.v
theories/WorkflowCases.v
theories/PropWorkflow.v
theories/TwinFacts.v
theories/TwinLost.v
theories/TwinRun.v
theories/NanCases.v
theories/PropNan.v
theories/SpecGauge.v
theories/GaugeFacts.v
theories/GaugeCases.v
theories/PropGauge.v
