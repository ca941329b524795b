-Q theories Verif
theories/Base.v
theories/RLemmas.v
theories/RoundingFlocq.v
theories/Params.v
theories/State.v
theories/Shared.v
theories/SharedSpec.v
theories/SharedProofs.v
theories/Props_Shared.v
theories/VecLemmas.v
theories/Water.v
theories/WaterSpec.v
theories/WeightProofs.v
theories/WalkProofs.v
theories/RunProofs.v
theories/SurfaceProofs.v
theories/FlowProofs.v
theories/Examples.v
theories/WaterCor.v
theories/Props_Water.v
theories/Sed.v
theories/SedSpec.v
theories/SedProofs.v
theories/SedMass.v
theories/SedEvents.v
theories/SedCor.v
theories/Diffusion.v
theories/Props_Sed.v
theories/Iter.v
theories/IterSpec.v
theories/FrameProofs.v
theories/IterProofs.v
theories/Props_Iter.v
theories/Inputs.v
theories/Init.v
theories/InitSpec.v
theories/InitProofs.v
theories/Props_Init.v
theories/Session.v
theories/SessionSpec.v
theories/ResumeProofs.v
theories/SessionProofs.v
theories/AttrProofs.v
theories/Props_Session.v
theories/Dict.v
theories/Config.v
theories/ConfigSpec.v
theories/ConfigProofs.v
theories/Props_Config.v
theories/Text.v
theories/Switches.v
theories/SwitchSpec.v
theories/SwitchProofs.v
theories/Props_Switches.v
theories/WeightSpec.v
theories/WeightFormula.v
theories/Props_Weights.v
theories/Hooks.v
theories/HookSpec.v
theories/HookProofs.v
theories/Props_Hooks.v
theories/Expand.v
theories/ExpandSpec.v
theories/ExpandProofs.v
theories/ExpandRuns.v
theories/ExpandCor.v
theories/Props_Expand.v
theories/Jobs.v
theories/JobsSpec.v
theories/JobsProofs.v
theories/JobsInput.v
theories/Props_Jobs.v
theories/Sched.v
theories/SchedSpec.v
theories/SchedProofs.v
theories/Props_Sched.v
theories/Files.v
theories/FilesSpec.v
theories/FilesProofs.v
theories/Props_Files.v
theories/SurfaceSpec.v
theories/SurfaceFormula.v
theories/Props_Surface.v
theories/WaterRules.v
theories/ChanceSpec.v
theories/ChanceProofs.v
theories/SedRules.v
theories/SedRulesProofs.v
theories/Props_Rules.v
theories/StepSpec.v
theories/StepProofs.v
theories/Props_Step.v
theories/Records.v
theories/RecordsSpec.v
theories/RecordsProofs.v
theories/Props_Records.v
theories/Regex.v
theories/YamlText.v
theories/YamlSpec.v
theories/YamlProofs.v
theories/Props_Yaml.v
theories/Header.v
theories/HeaderSpec.v
theories/HeaderProofs.v
theories/Props_Header.v
theories/Cli.v
theories/CliSpec.v
theories/CliProofs.v
theories/Props_Cli.v
theories/MirrorSpec.v
theories/MirrorProofs.v
theories/MirrorWalk.v
theories/MirrorRun.v
theories/MirrorFlow.v
theories/MirrorSed.v
theories/MirrorIter.v
theories/Props_Mirror.v
theories/QuietSpec.v
theories/QuietProofs.v
theories/Props_Quiet.v
theories/Debug.v
theories/DebugSpec.v
theories/DebugProofs.v
theories/Props_Debug.v
theories/LocalSpec.v
theories/LocalProofs.v
theories/Props_Local.v
theories/Binary64Spec.v
theories/Binary64.v
theories/Transfer.v
theories/TransferWalk.v
theories/TransferPicks.v
theories/TransferOps.v
theories/TransferFlow.v
theories/TransferSurface.v
theories/Props_Binary64.v
theories/Binary64Init.v
theories/TransferInit.v
theories/Props_Binary64Init.v
theories/Log.v
theories/LogSpec.v
theories/LogProofs.v
theories/LogText.v
theories/Props_Log.v
theories/DatumSpec.v
theories/DatumProofs.v
theories/DatumSed.v
theories/Props_Datum.v
theories/BudgetSpec.v
theories/BudgetProofs.v
theories/Props_Budget.v
theories/RunAll.v
theories/RunAllSpec.v
theories/RunAllProofs.v
theories/Props_RunAll.v
theories/Resumed.v
theories/ResumedProofs.v
theories/Props_Resumed.v
theories/Assign.v
theories/AssignSpec.v
theories/AssignProofs.v
theories/Props_Assign.v
theories/PaceSpec.v
theories/PaceProofs.v
theories/PaceSed.v
theories/PaceInit.v
theories/PaceStart.v
theories/Props_Pace.v
theories/Branch.v
theories/BranchSpec.v
theories/BranchProofs.v
theories/Props_Branch.v
theories/ScenarioSpec.v
theories/ScenarioProofs.v
theories/Props_Scenario.v
theories/WiderSpec.v
theories/WiderProofs.v
theories/WiderInit.v
theories/Props_Wider.v
theories/Custom.v
theories/CustomSpec.v
theories/CustomProofs.v
theories/Props_Custom.v
theories/DomainSpec.v
theories/DomainProofs.v
theories/Props_Domain.v
theories/GrainSpec.v
theories/GrainProofs.v
theories/Props_Grains.v
theories/NeutralSpec.v
theories/NeutralProofs.v
theories/Props_Neutral.v
