-Q theories Verif
theories/Model_Again.v
theories/Model_Api.v
theories/Model_Archive.v
theories/Model_Args.v
theories/Model_Bootstrap.v
theories/Model_BuildExe.v
theories/Model_Chain.v
theories/Model_Clean.v
theories/Model_Command.v
theories/Model_CompileCommands.v
theories/Model_Database.v
theories/Model_Dup.v
theories/Model_FileGen.v
theories/Model_Find.v
theories/Model_Full.v
theories/Model_Gcc.v
theories/Model_Gen.v
theories/Model_GenAgain.v
theories/Model_GenDup.v
theories/Model_GenLate.v
theories/Model_Json.v
theories/Model_Late.v
theories/Model_Path.v
theories/Model_PostCopy.v
theories/Model_Project.v
theories/Model_Race.v
theories/Model_Reg.v
theories/Model_Schema.v
theories/Model_Script.v
theories/Model_Storage.v
theories/Model_Sync.v
theories/Model_Target.v
theories/Model_Targets.v
theories/Model_TaskState.v
theories/Model_Tests.v
theories/Model_ToolchainConfig.v
theories/Model_Toolchains.v
theories/Model_Torn.v
theories/Model_Two.v
theories/Model_Util.v
theories/Prelude.v
theories/Proof_Again.v
theories/Proof_Again2.v
theories/Proof_Again3.v
theories/Proof_Again4.v
theories/Proof_Again5.v
theories/Proof_Again6.v
theories/Proof_Again7.v
theories/Proof_AgainCase.v
theories/Proof_Api.v
theories/Proof_ApiCase.v
theories/Proof_Archive.v
theories/Proof_ArchiveCase.v
theories/Proof_Args.v
theories/Proof_Bootstrap.v
theories/Proof_Bootstrap2.v
theories/Proof_Bootstrap3.v
theories/Proof_Bootstrap4.v
theories/Proof_BootstrapCase.v
theories/Proof_BuildExe.v
theories/Proof_BuildExe2.v
theories/Proof_BuildExeCase.v
theories/Proof_Bytes.v
theories/Proof_BytesCase.v
theories/Proof_Chain.v
theories/Proof_Chain2.v
theories/Proof_Chain3.v
theories/Proof_ChainCase.v
theories/Proof_Clean.v
theories/Proof_Clean2.v
theories/Proof_CleanCase.v
theories/Proof_Command.v
theories/Proof_CompileCommands.v
theories/Proof_Database.v
theories/Proof_Database2.v
theories/Proof_Database3.v
theories/Proof_Database4.v
theories/Proof_DatabaseCase.v
theories/Proof_Dec.v
theories/Proof_DepCost.v
theories/Proof_Dup.v
theories/Proof_Dup2.v
theories/Proof_DupCase.v
theories/Proof_DupCount.v
theories/Proof_DupLive.v
theories/Proof_DupThen.v
theories/Proof_FileGen.v
theories/Proof_FileGen2.v
theories/Proof_Find.v
theories/Proof_Full.v
theories/Proof_Full2.v
theories/Proof_Full3.v
theories/Proof_Full4.v
theories/Proof_Full5.v
theories/Proof_FullCase.v
theories/Proof_FullLive.v
theories/Proof_FullLiveCase.v
theories/Proof_Gcc.v
theories/Proof_Gen.v
theories/Proof_GenAgain.v
theories/Proof_GenAgainCase.v
theories/Proof_GenBlob.v
theories/Proof_GenCase.v
theories/Proof_GenDup.v
theories/Proof_GenDupCase.v
theories/Proof_GenDupLive.v
theories/Proof_GenDupRow.v
theories/Proof_GenIds.v
theories/Proof_GenInv.v
theories/Proof_GenLate.v
theories/Proof_GenLate2.v
theories/Proof_GenLateCase.v
theories/Proof_GenLive.v
theories/Proof_GenMain.v
theories/Proof_GenRuns.v
theories/Proof_GenSel.v
theories/Proof_Init.v
theories/Proof_Json.v
theories/Proof_JsonCase.v
theories/Proof_JsonRead.v
theories/Proof_JsonRead2.v
theories/Proof_JsonRead3.v
theories/Proof_JsonText.v
theories/Proof_Late.v
theories/Proof_Late2.v
theories/Proof_Late3.v
theories/Proof_Late4.v
theories/Proof_LateCase.v
theories/Proof_ObjectPath.v
theories/Proof_Path.v
theories/Proof_Pattern.v
theories/Proof_Pch.v
theories/Proof_PostCopy.v
theories/Proof_PostCopyCase.v
theories/Proof_Prelude.v
theories/Proof_ProjBytes.v
theories/Proof_ProjBytesCase.v
theories/Proof_Project.v
theories/Proof_Project2.v
theories/Proof_Project3.v
theories/Proof_Project4.v
theories/Proof_Project5.v
theories/Proof_ProjectCase.v
theories/Proof_ProjectLive.v
theories/Proof_ProjectLiveCase.v
theories/Proof_Race.v
theories/Proof_RaceCase.v
theories/Proof_RaceOrder.v
theories/Proof_Reg.v
theories/Proof_RegFail.v
theories/Proof_RegRun.v
theories/Proof_RegText.v
theories/Proof_Relative.v
theories/Proof_Schema.v
theories/Proof_Script.v
theories/Proof_ScriptCase.v
theories/Proof_Shell.v
theories/Proof_Storage.v
theories/Proof_Switch.v
theories/Proof_Sync.v
theories/Proof_TargetBase.v
theories/Proof_TargetCase.v
theories/Proof_TargetClean.v
theories/Proof_TargetDup.v
theories/Proof_TargetInv.v
theories/Proof_TargetLive.v
theories/Proof_TargetMain.v
theories/Proof_TargetRun.v
theories/Proof_TargetRuns.v
theories/Proof_TargetSched.v
theories/Proof_TargetStep.v
theories/Proof_TargetStep2.v
theories/Proof_Targets.v
theories/Proof_TaskState.v
theories/Proof_Tests.v
theories/Proof_Tests2.v
theories/Proof_ToolchainConfig.v
theories/Proof_Toolchains.v
theories/Proof_Torn.v
theories/Proof_TornCase.v
theories/Proof_TornCheck.v
theories/Proof_TornRun.v
theories/Proof_Two.v
theories/Proof_TwoCase.v
theories/Proof_TwoMain.v
theories/Proof_Util.v
theories/Properties_Again.v
theories/Properties_Api.v
theories/Properties_Archive.v
theories/Properties_Args.v
theories/Properties_Bootstrap.v
theories/Properties_BuildExe.v
theories/Properties_Bytes.v
theories/Properties_Chain.v
theories/Properties_Clean.v
theories/Properties_Command.v
theories/Properties_CompileCommands.v
theories/Properties_Database.v
theories/Properties_DepCost.v
theories/Properties_Dup.v
theories/Properties_Env.v
theories/Properties_Find.v
theories/Properties_Full.v
theories/Properties_FullLive.v
theories/Properties_Gen.v
theories/Properties_GenAgain.v
theories/Properties_GenDup.v
theories/Properties_GenIds.v
theories/Properties_GenLate.v
theories/Properties_GenLive.v
theories/Properties_JsonText.v
theories/Properties_Late.v
theories/Properties_Path.v
theories/Properties_Pattern.v
theories/Properties_Pch.v
theories/Properties_PostCopy.v
theories/Properties_ProjBytes.v
theories/Properties_Project.v
theories/Properties_ProjectLive.v
theories/Properties_Race.v
theories/Properties_Reg.v
theories/Properties_Schema.v
theories/Properties_Script.v
theories/Properties_Shell.v
theories/Properties_Switch.v
theories/Properties_Sync.v
theories/Properties_Target.v
theories/Properties_Targets.v
theories/Properties_Tests.v
theories/Properties_ToolchainConfig.v
theories/Properties_Toolchains.v
theories/Properties_Torn.v
theories/Properties_Two.v
theories/Spec_Again.v
theories/Spec_Api.v
theories/Spec_Archive.v
theories/Spec_Args.v
theories/Spec_Bootstrap.v
theories/Spec_BuildExe.v
theories/Spec_Bytes.v
theories/Spec_Chain.v
theories/Spec_Clean.v
theories/Spec_Command.v
theories/Spec_CompileCommands.v
theories/Spec_Database.v
theories/Spec_DepCost.v
theories/Spec_Dup.v
theories/Spec_FileGen.v
theories/Spec_Find.v
theories/Spec_Full.v
theories/Spec_FullLive.v
theories/Spec_Gcc.v
theories/Spec_Gen.v
theories/Spec_GenAgain.v
theories/Spec_GenDup.v
theories/Spec_GenIds.v
theories/Spec_GenLate.v
theories/Spec_GenLive.v
theories/Spec_Init.v
theories/Spec_Json.v
theories/Spec_JsonText.v
theories/Spec_Late.v
theories/Spec_Path.v
theories/Spec_Pattern.v
theories/Spec_Pch.v
theories/Spec_PostCopy.v
theories/Spec_ProjBytes.v
theories/Spec_Project.v
theories/Spec_ProjectLive.v
theories/Spec_Race.v
theories/Spec_Reg.v
theories/Spec_Script.v
theories/Spec_Shell.v
theories/Spec_Storage.v
theories/Spec_Switch.v
theories/Spec_Sync.v
theories/Spec_Target.v
theories/Spec_Targets.v
theories/Spec_Tests.v
theories/Spec_ToolchainConfig.v
theories/Spec_Toolchains.v
theories/Spec_Torn.v
theories/Spec_Two.v
theories/Spec_Util.v
