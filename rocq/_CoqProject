-Q theories Verif

theories/Lib/Py.v
theories/Lib/DictLemmas.v
theories/Model/Base32.v
theories/Spec/Numerals.v
theories/Proofs/Base32P.v
theories/Properties/P_Base32.v
theories/Model/HashAddr.v
theories/Proofs/HashAddrP.v
theories/Properties/P_HashAddr.v
theories/Model/Portals.v
theories/Spec/PortalSpec.v
theories/Proofs/PortalsP.v
theories/Properties/P_Portals.v
theories/Model/FirstEntry.v
theories/Spec/FirstEntrySpec.v
theories/Proofs/FirstEntryP.v
theories/Properties/P_FirstEntry.v
theories/Model/FirstEntryConc.v
theories/Spec/FirstEntryConcSpec.v
theories/Proofs/FirstEntryConcP.v
theories/Properties/P_FirstEntryConc.v
theories/Model/CallGraph.v
theories/Spec/CallGraphSpec.v
theories/Proofs/CallGraphP.v
theories/Properties/P_CallGraph.v
theories/Model/GetTimeout.v
theories/Proofs/GetTimeoutP.v
theories/Properties/P_GetTimeout.v
theories/Model/Retry.v
theories/Proofs/RetryP.v
theories/Model/Swarming.v
theories/Spec/SwarmingSpec.v
theories/Proofs/SwarmingP.v
theories/Properties/P_Swarming.v
theories/Model/Records.v
theories/Spec/RecordsSpec.v
theories/Proofs/RecordsP.v
theories/Properties/P_Records.v
theories/Model/Misc.v
theories/Proofs/MiscP.v
theories/Properties/P_Misc.v
theories/Model/ValueAddr.v
theories/Spec/ValueAddrSpec.v
theories/Proofs/ValueAddrP.v
theories/Properties/P_ValueAddr.v
theories/Model/PureAddr.v
theories/Spec/PureAddrSpec.v
theories/Proofs/PureAddrP.v
theories/Properties/P_PureAddr.v
theories/Model/PureExec.v
theories/Spec/PureExecSpec.v
theories/Proofs/PureExecP.v
theories/Proofs/PureExecSysP.v
theories/Proofs/PureExecSeqP.v
theories/Properties/P_PureExec.v
theories/Properties/ExampleHash.v
theories/Properties/P_PureExecExamples.v
theories/Model/Logging.v
theories/Spec/LoggingSpec.v
theories/Proofs/LoggingP.v
theories/Properties/P_Logging.v
theories/Model/Output.v
theories/Spec/OutputSpec.v
theories/Proofs/OutputP.v
theories/Properties/P_Output.v
theories/Model/SourceText.v
theories/Spec/SourceTextSpec.v
theories/Proofs/SourceTextP.v
theories/Properties/P_SourceText.v
theories/Model/PyAst.v
theories/Model/Normalizer.v
theories/Spec/NormalizerSpec.v
theories/Proofs/PyAstP.v
theories/Proofs/NormalizerP.v
theories/Properties/P_Normalizer.v
theories/Model/NamesAnalyzer.v
theories/Spec/Scoping.v
theories/Proofs/NamesAnalyzerP.v
theories/Proofs/NamesEventsP.v
theories/Properties/P_NamesAnalyzer.v
theories/Model/Registry.v
theories/Proofs/RegistryP.v
theories/Spec/RegistrySpec.v
theories/Proofs/RegistryInvP.v
theories/Proofs/RegistryOpsP.v
theories/Proofs/RegistryCompleteP.v
theories/Proofs/RegistryRunP.v
theories/Proofs/RegistryUseP.v
theories/Proofs/RegistryFrameP.v
theories/Proofs/RegistryPureP.v
theories/Proofs/RegistryRestoreP.v
theories/Proofs/RegistryApartP.v
theories/Proofs/RegistryClaimsP.v
theories/Properties/P_Registry.v
theories/Proofs/NamesFunctionP.v
theories/Properties/P_RegistryExamples.v
theories/Model/Construct.v
theories/Spec/ConstructSpec.v
theories/Proofs/ConstructP.v
theories/Properties/P_Construct.v
theories/Model/Frames.v
theories/Spec/FramesSpec.v
theories/Proofs/FramesP.v
theories/Properties/P_Frames.v
theories/Model/Ordinarity.v
theories/Spec/OrdinaritySpec.v
theories/Proofs/OrdinarityP.v
theories/Properties/P_Ordinarity.v
theories/Model/ResultCache.v
theories/Spec/ResultCacheSpec.v
theories/Proofs/ResultCacheP.v
theories/Properties/P_ResultCache.v
theories/Model/Grid.v
theories/Spec/GridSpec.v
theories/Proofs/GridP.v
theories/Properties/P_Grid.v
theories/Properties/P_EndToEnd.v
theories/Model/AddrAccess.v
theories/Proofs/AddrAccessP.v
theories/Properties/P_AddrAccess.v
theories/Properties/P_Binding.v
theories/Model/PackageManager.v
theories/Properties/P_PackageManager.v
theories/Properties/P_NormalizerExact.v
theories/Properties/P_PortalsExact.v
theories/Properties/P_LoggingExact.v
theories/Model/Timeline.v
theories/Properties/P_Timeline.v
theories/Properties/P_SwarmingExact.v
theories/Model/SwarmRace.v
theories/Properties/P_SwarmRace.v
theories/Properties/P_ConstructExact.v
theories/Proofs/ValueExactP.v
theories/Properties/P_ValueExact.v
theories/Spec/RegistryExactSpec.v
theories/Proofs/RegistryExactP.v
theories/Properties/P_RegistryExact.v
theories/Model/DescribeFns.v
theories/Spec/DescribeFnsSpec.v
theories/Proofs/DescribeFnsP.v
theories/Properties/P_DescribeFns.v
theories/Properties/P_Strictness.v
theories/Model/AutonomyChecks.v
theories/Properties/P_Reports.v
theories/Properties/P_OutputExact.v
theories/Properties/P_NamesExact.v
theories/Spec/NameUses.v
theories/Proofs/NameUsesP.v
theories/Properties/P_PortalClasses.v
theories/Proofs/RegistryFaithP.v
theories/Properties/P_RestoreFaithful.v
theories/Model/AugText.v
theories/Spec/AugTextSpec.v
theories/Proofs/AugTextP.v
theories/Properties/P_AugText.v
theories/Proofs/PureAnyP.v
theories/Proofs/PureCallP.v
theories/Properties/P_CallEffects.v
theories/Model/Layout.v
theories/Spec/LayoutSpec.v
theories/Proofs/LayoutP.v
theories/Properties/P_Layout.v
theories/Model/Hooks.v
theories/Spec/HooksSpec.v
theories/Properties/P_Hooks.v
theories/Model/OnFiles.v
theories/Spec/OnFilesSpec.v
theories/Proofs/OnFilesP.v
theories/Properties/P_OnFiles.v
theories/Spec/ConcSpec.v
theories/Proofs/PureConcP.v
theories/Properties/P_Conc.v
theories/Properties/P_PowerCut.v
theories/Model/Stamps.v
theories/Spec/StampsSpec.v
theories/Properties/P_Stamps.v
theories/Spec/FairSpec.v
theories/Properties/P_Fair.v
theories/Spec/NamespaceSpec.v
theories/Properties/P_Namespace.v
theories/Spec/KeysSpec.v
theories/Properties/P_Keys.v
theories/Model/NodeId.v
theories/Spec/NodeIdSpec.v
theories/Properties/P_NodeId.v
theories/Model/Aliasing.v
theories/Spec/AliasingSpec.v
theories/Proofs/AliasingP.v
theories/Properties/P_Aliasing.v
theories/Proofs/RecordsExactP.v
theories/Properties/P_RecordsExact.v
theories/Model/Sharing.v
theories/Spec/SharingSpec.v
theories/Proofs/SharingP.v
theories/Properties/P_Sharing.v
theories/Model/Globals.v
theories/Spec/GlobalsSpec.v
theories/Proofs/GlobalsP.v
theories/Properties/P_Globals.v
theories/Model/Collisions.v
theories/Spec/CollisionsSpec.v
theories/Proofs/CollisionsP.v
theories/Properties/P_Collisions.v
theories/Properties/P_Edits.v
theories/Properties/P_Reformat.v
theories/Proofs/RegistryGuardsP.v
theories/Properties/P_RestoreExact.v
theories/Properties/P_Travel.v
