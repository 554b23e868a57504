-Q theories Verif
theories/Base.v
theories/PyVal.v
theories/Model_Output.v
theories/Spec_Output.v
theories/Proof_Output.v
theories/Proof_FromInput.v
theories/Proof_Output2.v
theories/Prop_Output.v
theories/Model_Urn.v
theories/Model_Rpc.v
theories/Spec_Rpc.v
theories/Proof_Ser.v
theories/Proof_Ser2.v
theories/Proof_Ser3.v
theories/Proof_Round.v
theories/Proof_Deser.v
theories/Proof_Deser2.v
theories/Proof_Secret.v
theories/Proof_RpcTop.v
theories/Prop_Rpc.v
theories/Spec_Urn.v
theories/Prop_Urn.v
theories/Proof_Urn.v
theories/Model_Cycle.v
theories/Model_Deps.v
theories/Spec_Deps.v
theories/Proof_Deps.v
theories/Prop_Deps.v
theories/Spec_Cycle.v
theories/Proof_Cycle.v
theories/Prop_Cycle.v
theories/Model_Translate.v
theories/Spec_Translate.v
theories/Proof_Translate.v
theories/Prop_Translate.v
theories/Model_Register.v
theories/Spec_Register.v
theories/Proof_Register.v
theories/Prop_Register.v
theories/Model_Semver.v
theories/Spec_Semver.v
theories/Proof_Semver.v
theories/Model_Registry.v
theories/Spec_Registry.v
theories/Proof_Registry.v
theories/Prop_Registry.v
theories/Model_Options.v
theories/Spec_Options.v
theories/Proof_Options.v
theories/Prop_Options.v
theories/Model_Resource.v
theories/Spec_Resource.v
theories/Proof_Resource.v
theories/Prop_Resource.v
theories/Model_Unknowns.v
theories/Spec_Unknowns.v
theories/Proof_Unknowns.v
theories/Prop_Unknowns.v
theories/Model_Stack.v
theories/Spec_Stack.v
theories/Proof_Stack.v
theories/Prop_Stack.v
theories/Model_RpcManager.v
theories/Spec_RpcManager.v
theories/Proof_RpcManager.v
theories/Prop_RpcManager.v
theories/Model_Config.v
theories/Spec_Config.v
theories/Proof_Config.v
theories/Prop_Config.v
theories/Model_Features.v
theories/Spec_Features.v
theories/Proof_Features.v
theories/Prop_Features.v
theories/Model_Invoke.v
theories/Spec_Invoke.v
theories/Proof_Invoke.v
theories/Prop_Invoke.v
theories/Model_StackRef.v
theories/Spec_StackRef.v
theories/Proof_StackRef.v
theories/Prop_StackRef.v
theories/Model_Mocks.v
theories/Spec_Mocks.v
theories/Proof_Mocks.v
theories/Prop_Mocks.v
theories/Model_Settings.v
theories/Spec_Settings.v
theories/Proof_Settings.v
theories/Prop_Settings.v
theories/Model_Provider.v
theories/Spec_Provider.v
theories/Proof_Provider.v
theories/Prop_Provider.v
theories/Model_Server.v
theories/Spec_Server.v
theories/Proof_Server.v
theories/Prop_Server.v
theories/Model_Types.v
theories/Spec_Types.v
theories/Proof_Types.v
theories/Prop_Types.v
theories/Model_Cmd.v
theories/Spec_Cmd.v
theories/Proof_Cmd.v
theories/Prop_Cmd.v
theories/Model_Argv.v
theories/Spec_Argv.v
theories/Proof_Argv.v
theories/Prop_Argv.v
theories/Model_WsSettings.v
theories/Spec_WsSettings.v
theories/Proof_WsSettings.v
theories/Prop_WsSettings.v
theories/Model_StackInit.v
theories/Spec_StackInit.v
theories/Proof_StackInit.v
theories/Prop_StackInit.v
theories/Model_SyncAwait.v
theories/Spec_SyncAwait.v
theories/Proof_SyncAwait.v
theories/Prop_SyncAwait.v
theories/Model_Inline.v
theories/Spec_Inline.v
theories/Proof_Inline.v
theories/Prop_Inline.v
theories/Model_Events.v
theories/Spec_Events.v
theories/Proof_Events.v
theories/Prop_Events.v
theories/Model_Dynamic.v
theories/Spec_Dynamic.v
theories/Proof_Dynamic.v
theories/Proof_Pickle.v
theories/Prop_Dynamic.v
theories/Model_Json.v
theories/Spec_Json.v
theories/Proof_Json.v
theories/Proof_Capture.v
theories/Prop_Json.v
theories/Model_WsConfig.v
theories/Spec_WsConfig.v
theories/Proof_WsConfig.v
theories/Prop_WsConfig.v
theories/Model_WsState.v
theories/Spec_WsState.v
theories/Proof_WsState.v
theories/Prop_WsState.v
theories/Model_WsImport.v
theories/Spec_WsImport.v
theories/Proof_WsImport.v
theories/Prop_WsImport.v
theories/Model_WsOpen.v
theories/Spec_WsOpen.v
theories/Proof_WsOpen.v
theories/Prop_WsOpen.v
theories/Model_Engine.v
theories/Spec_Engine.v
theories/Proof_Engine.v
theories/Proof_Engine2.v
theories/Prop_Engine.v
theories/Model_Host.v
theories/Spec_Host.v
theories/Proof_Host.v
theories/Prop_Host.v
theories/Model_Request.v
theories/Spec_Request.v
theories/Proof_Request.v
theories/Prop_Request.v
theories/Model_Children.v
theories/Spec_Children.v
theories/Proof_Children.v
theories/Prop_Children.v
theories/Model_Operation.v
theories/Spec_Operation.v
theories/Proof_Operation.v
theories/Prop_Operation.v
theories/Model_Loop.v
theories/Spec_Loop.v
theories/Proof_Loop.v
theories/Prop_Loop.v
theories/Model_Annot.v
theories/Spec_Annot.v
theories/Proof_Annot.v
theories/Proof_Annot2.v
theories/Prop_Annot.v
theories/Model_Class.v
theories/Spec_Class.v
theories/Proof_Class.v
theories/Prop_Class.v
theories/Model_Construct.v
theories/Spec_Construct.v
theories/Proof_Construct.v
theories/Prop_Construct.v
theories/Prop_Findings.v
theories/Spec_Meaning.v
theories/Proof_Meaning.v
theories/Prop_Meaning.v
theories/Model_Sets.v
theories/Spec_Sets.v
theories/Proof_Sets.v
theories/Prop_Sets.v
theories/Spec_Calls.v
theories/Proof_Calls.v
theories/Prop_Calls.v
theories/Model_Deployment.v
theories/Spec_Deployment.v
theories/Proof_Deployment.v
theories/Prop_Deployment.v
theories/Model_Refactor.v
theories/Spec_Refactor.v
theories/Proof_Refactor.v
theories/Prop_Refactor.v
theories/Model_Reference.v
theories/Spec_Reference.v
theories/Proof_Reference.v
theories/Prop_Reference.v
theories/Model_State.v
theories/Spec_State.v
theories/Proof_State.v
theories/Prop_State.v
theories/Spec_Exports.v
theories/Proof_Exports.v
theories/Prop_Exports.v
theories/Model_ConfigFile.v
theories/Spec_ConfigFile.v
theories/Proof_ConfigFile.v
theories/Spec_ConfigRun.v
theories/Proof_ConfigRun.v
theories/Prop_ConfigFile.v
theories/Model_Outputs.v
theories/Spec_Outputs.v
theories/Proof_Outputs.v
theories/Prop_Outputs.v
theories/Model_Plugins.v
theories/Spec_Plugins.v
theories/Proof_Plugins.v
theories/Prop_Plugins.v
theories/Model_Import.v
theories/Spec_Import.v
theories/Proof_Import.v
theories/Prop_Import.v
theories/Model_Lock.v
theories/Spec_Lock.v
theories/Proof_Lock.v
theories/Prop_Lock.v
theories/Model_Save.v
theories/Spec_Save.v
theories/Proof_Save.v
theories/Prop_Save.v
theories/Model_Files.v
theories/Spec_Files.v
theories/Proof_Files.v
theories/Prop_Files.v
theories/Model_Snapshot.v
theories/Spec_Snapshot.v
theories/Proof_Snapshot.v
theories/Proof_Snapshot2.v
theories/Prop_Snapshot.v
theories/Model_Refresh.v
theories/Spec_Refresh.v
theories/Proof_Refresh.v
theories/Prop_Refresh.v
theories/Model_Deletes.v
theories/Spec_Deletes.v
theories/Proof_Deletes.v
theories/Proof_DeletesRun.v
theories/Proof_DeletesTargets.v
theories/Proof_DeletesChain.v
theories/Prop_Deletes.v
theories/Prop_Protect.v
theories/Model_Paths.v
theories/Spec_Paths.v
theories/Proof_PathsParse.v
theories/Proof_Paths.v
theories/Proof_PathsIgnore.v
theories/Proof_PathsReplace.v
theories/Prop_Paths.v
theories/Model_Targets.v
theories/Spec_Targets.v
theories/Proof_Targets.v
theories/Prop_Targets.v
theories/Model_Lost.v
theories/Proof_Lost.v
theories/Prop_Lost.v
theories/Model_Rebuild.v
theories/Spec_Rebuild.v
theories/Proof_Rebuild.v
theories/Proof_RebuildFates.v
theories/Prop_Rebuild.v
theories/Model_Adopt.v
theories/Proof_Adopt.v
theories/Prop_Adopt.v
theories/Model_Preview.v
theories/Spec_Preview.v
theories/Proof_Preview.v
theories/Prop_Preview.v
theories/Model_Retain.v
theories/Proof_Retain.v
theories/Prop_Retain.v
theories/Model_Along.v
theories/Spec_Along.v
theories/Proof_Along.v
theories/Prop_Along.v
theories/Model_Archives.v
theories/Spec_Archives.v
theories/Proof_Archives.v
theories/Prop_Archives.v
theories/Model_DefaultProv.v
theories/Spec_DefaultProv.v
theories/Proof_DefaultProv.v
theories/Prop_DefaultProv.v
theories/Model_Timeouts.v
theories/Spec_Timeouts.v
theories/Proof_Timeouts.v
theories/Prop_Timeouts.v
theories/Model_ExplicitProv.v
theories/Prop_ExplicitProv.v
theories/Model_SecretOuts.v
theories/Prop_SecretOuts.v
