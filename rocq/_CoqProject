-Q theories Verif
theories/Base.v
theories/Domain.v
theories/CheckerModel.v
theories/ProxyModel.v
theories/MFacts.v
theories/Spec.v
theories/Witness.v
theories/CheckFacts.v
theories/CombineFacts.v
theories/CheckProps.v
theories/Properties_Check.v
theories/TableFacts.v
theories/Properties_Tables.v
theories/RegSpec.v
theories/RegistryFacts.v
theories/RegistryProps.v
theories/Properties_Registry.v
theories/SafeFacts.v
theories/ProxySpec.v
theories/ProxyFacts.v
theories/ProxyOps.v
theories/ProxyTable.v
theories/ProxyResults.v
theories/MediationSpec.v
theories/Mediation.v
theories/SessionSpec.v
theories/Session.v
theories/SlotSpec.v
theories/Slots.v
theories/FactorySpec.v
theories/Factory.v
theories/ProxyProps.v
theories/Properties_Proxy.v
theories/Management.v
theories/MgmtSpec.v
theories/Threads.v
theories/ThreadSpec.v
theories/ThreadFacts.v
theories/MgmtFacts.v
theories/PartFacts.v
theories/MgmtWitness.v
theories/BooksThreads.v
theories/Properties_Interaction.v
theories/Protect.v
theories/ProtectSpec.v
theories/ProtectFacts.v
theories/Properties_Protect.v
theories/Zcml.v
theories/ZcmlSpec.v
theories/ZcmlFacts.v
theories/ZcmlProps.v
theories/Properties_Zcml.v
theories/Permission.v
theories/PermSpec.v
theories/PermFacts.v
theories/Sandbox.v
theories/SandboxSpec.v
theories/SandboxFacts.v
theories/Properties_Permission.v
theories/Adapter.v
theories/AdapterSpec.v
theories/AdapterFacts.v
theories/DecoFacts.v
theories/AdapterProps.v
theories/Properties_Adapter.v
theories/Defaults.v
theories/DefaultsSpec.v
theories/DefaultsFacts.v
theories/DefaultsImport.v
theories/DefaultsProps.v
theories/Properties_Defaults.v
theories/EndToEndSpec.v
theories/EndToEndProps.v
theories/Properties_EndToEnd.v
theories/ReloadSpec.v
theories/ReloadProps.v
theories/Properties_Reload.v
theories/DeclThreads.v
theories/DeclThreadSpec.v
theories/DeclThreadFacts.v
theories/DeclThreadSeq.v
theories/Properties_DeclThreads.v
theories/RaceSpec.v
theories/RaceFacts.v
theories/RaceProps.v
theories/Properties_Races.v
theories/BuildSpec.v
theories/BuildFacts.v
theories/BuildProps.v
theories/Properties_Builds.v
theories/Lookup.v
theories/LookupSpec.v
theories/LookupFacts.v
theories/Properties_Lookup.v
theories/ConcealSpec.v
theories/ConcealFacts.v
theories/ConcealProps.v
theories/Properties_Conceal.v
theories/Pickle.v
theories/PickleSpec.v
theories/PickleFacts.v
theories/PickleProps.v
theories/Properties_Pickle.v
theories/Inspect.v
theories/InspectSpec.v
theories/InspectFacts.v
theories/Properties_Inspect.v
theories/SandboxApp.v
theories/SandboxAppSpec.v
theories/SandboxAppFacts.v
theories/Properties_SandboxApp.v
theories/CExt.v
theories/CExtSpec.v
theories/CExtFacts.v
theories/CExtSound.v
theories/CExtLeaks.v
theories/CExtWitness.v
theories/Properties_CExt.v
theories/CExtDecideSpec.v
theories/CExtDecide.v
theories/Properties_CExtDecide.v
theories/CExtGc.v
theories/CExtGcSpec.v
theories/CExtGcFacts.v
theories/CExtGcWitness.v
theories/Properties_CExtGc.v
theories/CExtPaths.v
theories/CExtAgreeSpec.v
theories/CExtAgreeFacts.v
theories/CExtAgreeChecker.v
theories/CExtAgreeWitness.v
theories/Properties_CExtAgree.v
theories/CInit.v
theories/CInitSpec.v
theories/CInitFacts.v
theories/CInitWitness.v
theories/Properties_CInit.v
theories/Imports.v
theories/ImportsSpec.v
theories/ImportsFacts.v
theories/ImportsLayers.v
theories/ImportsWitness.v
theories/Properties_Imports.v
theories/Includes.v
theories/IncludesSpec.v
theories/IncludesFacts.v
theories/IncludesProps.v
theories/IncludesLoad.v
theories/Properties_Includes.v
theories/Boot.v
theories/BootSpec.v
theories/BootFacts.v
theories/Properties_Boot.v
theories/EndsSpec.v
theories/EndsFacts.v
theories/EndsExamples.v
theories/Properties_Ends.v
theories/RightsSpec.v
theories/RightsFacts.v
theories/Properties_Rights.v
theories/WatchSpec.v
theories/WatchFacts.v
theories/WatchWitness.v
theories/Properties_Watch.v
theories/TypeTables.v
theories/TypeTablesSpec.v
theories/TypeTablesFacts.v
theories/Properties_TypeTables.v
theories/AnswersSpec.v
theories/AnswersFacts.v
theories/AnswersWitness.v
theories/Properties_Answers.v
theories/OpaqueSpec.v
theories/OpaqueFacts.v
theories/OpaqueWitness.v
theories/Properties_Opaque.v
theories/Numbers.v
theories/NumbersSpec.v
theories/NumbersFacts.v
theories/NumbersWitness.v
theories/Properties_Numbers.v
theories/ShownSpec.v
theories/ShownFacts.v
theories/ShownWitness.v
theories/Properties_Shown.v
theories/AuditSpec.v
theories/AuditFacts.v
theories/AuditWitness.v
theories/Properties_Audit.v
theories/Liars.v
theories/LiarsSpec.v
theories/LiarsFacts.v
theories/LiarsWitness.v
theories/Properties_Liars.v
theories/LiarsUse.v
theories/LiarsUseSpec.v
theories/LiarsUseFacts.v
theories/LiarsUseWitness.v
theories/Properties_LiarsUse.v
theories/AdapterStack.v
theories/AdapterStackSpec.v
theories/AdapterStackFacts.v
theories/AdapterStackWitness.v
theories/Properties_AdapterStack.v
theories/Compare.v
theories/CompareSpec.v
theories/CompareFacts.v
theories/CompareWitness.v
theories/Properties_Compare.v
theories/Implicit.v
theories/ImplicitSpec.v
theories/ImplicitFacts.v
theories/ImplicitWitness.v
theories/Properties_Implicit.v
