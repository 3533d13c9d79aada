-Q theories Verif
theories/Model/Base.v
theories/Model/Str.v
theories/Model/Path.v
theories/Model/BMap.v
theories/Model/Error.v
theories/Model/Value.v
theories/Model/De.v
theories/Model/Debug.v
theories/Model/SetPath.v
theories/Model/Merge.v
theories/Model/Walk.v
theories/Model/CfgExpr.v
theories/Model/CfgError.v
theories/Model/Serde.v
theories/Model/Load.v
theories/Model/Process.v
theories/Model/Triple.v
theories/Model/EasyTypes.v
theories/Model/Context.v
theories/Model/ApplyEnv.v
theories/Model/Resolve.v
theories/Model/Easy.v
theories/Model/LoadTime.v
theories/Model/Get.v
theories/Model/EasySerde.v
theories/Model/Borrow.v
theories/Model/Edit.v
theories/Model/Construct.v
theories/Model/GetArgs.v
theories/Model/ErrorText.v
theories/Spec/StrSpec.v
theories/Spec/FlagsSpec.v
theories/Spec/PathSpec.v
theories/Spec/WalkSpec.v
theories/Spec/ConfigSpec.v
theories/Spec/LoadSpec.v
theories/Spec/EnvSpec.v
theories/Spec/Utf8Spec.v
theories/Spec/CfgSpec.v
theories/Spec/CfgErrorSpec.v
theories/Spec/FinalSpec.v
theories/Spec/EasySerdeSpec.v
theories/Spec/ReloadSpec.v
theories/Spec/HandSpec.v
theories/Spec/ClashSpec.v
theories/Spec/PanicSpec.v
theories/Spec/DebugSpec.v
theories/Spec/BorrowSpec.v
theories/Spec/EditSpec.v
theories/Spec/ConstructSpec.v
theories/Spec/GetArgsSpec.v
theories/Spec/BlameSpec.v
theories/Spec/QueryBlameSpec.v
theories/Spec/LoadTimeSpec.v
theories/Spec/GetSpec.v
theories/Spec/OptionsSpec.v
theories/Spec/LocalSpec.v
theories/Spec/TripleSpec.v
theories/Spec/RootSpec.v
theories/Spec/TargetSpec.v
theories/Spec/QuerySpec.v
theories/Spec/SerdeSpec.v
theories/Spec/SerdeFormsSpec.v
theories/Spec/ErrorSpec.v
theories/Spec/SecretSpec.v
theories/Proof/StrFacts.v
theories/Proof/FlagsProof.v
theories/Proof/PathFacts.v
theories/Proof/WalkProof.v
theories/Proof/BMapFacts.v
theories/Proof/MergeProof.v
theories/Proof/LoadProof.v
theories/Proof/EnvProof.v
theories/Proof/EnvVarsProof.v
theories/Proof/EnvTextProof.v
theories/Proof/Utf8Proof.v
theories/Proof/CfgLexProof.v
theories/Proof/CfgParseProof.v
theories/Proof/CfgGrammarProof.v
theories/Proof/CfgProof.v
theories/Proof/CfgErrorProof.v
theories/Proof/CfgErrorUniqueProof.v
theories/Proof/CfgErrorTextProof.v
theories/Proof/FinalProof.v
theories/Proof/CfgEvalProof.v
theories/Proof/CfgOutputProof.v
theories/Proof/TripleProof.v
theories/Proof/RootProof.v
theories/Proof/StateProof.v
theories/Proof/TargetProof.v
theories/Proof/TargetEnvProof.v
theories/Proof/VersionProof.v
theories/Proof/QueryProof.v
theories/Proof/SerdeProof.v
theories/Proof/SerdeDocProof.v
theories/Proof/SerdeFormsProof.v
theories/Proof/RoundTripProof.v
theories/Proof/ErrorProof.v
theories/Proof/LossyProof.v
theories/Proof/SecretProof.v
theories/Proof/EasySerdeProof.v
theories/Proof/ReloadProof.v
theories/Proof/BlameProof.v
theories/Proof/QueryBlameProof.v
theories/Proof/LoadTimeProof.v
theories/Proof/GetProof.v
theories/Proof/OptionsProof.v
theories/Proof/LocalProof.v
theories/Proof/HandProof.v
theories/Proof/ClashProof.v
theories/Proof/CfgPanicProof.v
theories/Proof/PanicProof.v
theories/Proof/DebugProof.v
theories/Proof/BorrowProof.v
theories/Proof/EditProof.v
theories/Props/Flags.v
theories/Props/Walk.v
theories/Props/Load.v
theories/Props/Env.v
theories/Props/Cfg.v
theories/Props/CfgErrors.v
theories/Props/Final.v
theories/Props/Paths.v
theories/Props/Target.v
theories/Props/Query.v
theories/Props/Serde.v
theories/Props/SerdeForms.v
theories/Props/EasySerde.v
theories/Props/Reload.v
theories/Props/Blame.v
theories/Props/QueryBlame.v
theories/Props/LoadTime.v
theories/Props/Get.v
theories/Props/Options.v
theories/Props/Local.v
theories/Props/Hand.v
theories/Props/Clash.v
theories/Props/Panic.v
theories/Props/Debug.v
theories/Props/Borrow.v
theories/Props/Edit.v
theories/Proof/ConstructProof.v
theories/Props/Construct.v
theories/Props/ConstructTarget.v
theories/Proof/GetArgsProof.v
theories/Props/GetArgs.v
theories/Proof/FartherProof.v
theories/Props/Farther.v
theories/Model/StdPath.v
theories/Model/OsPaths.v
theories/Proof/StdPathProof.v
theories/Proof/StdUnixProof.v
theories/Proof/StdParentProof.v
theories/Proof/OsUnixProof.v
theories/Model/OsLoad.v
theories/Proof/OsLoadProof.v
theories/Props/StdPath.v
theories/Spec/WinSpec.v
theories/Spec/WinAnySpec.v
theories/Proof/WinPrefixProof.v
theories/Proof/WinDirProof.v
theories/Proof/WinUseProof.v
theories/Proof/WinAnyProof.v
theories/Props/Windows.v
theories/Props/WinAny.v
theories/Spec/WinLoadSpec.v
theories/Proof/WinLoadProof.v
theories/Props/WinLoad.v
theories/Spec/OsTargetSpec.v
theories/Proof/OsTargetProof.v
theories/Spec/WinTargetSpec.v
theories/Proof/WinTargetProof.v
theories/Props/WinTarget.v
theories/Spec/WinPanicSpec.v
theories/Spec/OsQuerySpec.v
theories/Proof/OsQueryProof.v
theories/Proof/OsQueryBlameProof.v
theories/Proof/WinQueryProof.v
theories/Proof/WinPanicProof.v
theories/Proof/WinQueryPanicProof.v
theories/Props/WinTools.v
theories/Props/SteadyTools.v
theories/Props/WinBlame.v
theories/Props/WinPanic.v
theories/Model/ShellEscape.v
theories/Spec/ShellSpec.v
theories/Proof/ShellProof.v
theories/Props/Shell.v
theories/Model/JsonText.v
theories/Spec/JsonSpec.v
theories/Proof/JsonProof.v
theories/Proof/JsonUseProof.v
theories/Proof/JsonShortProof.v
theories/Props/Json.v
theories/Props/Errors.v
theories/Props/Secrets.v
theories/Model/Codegen.v
theories/Model/Generated.v
theories/Model/InPlace.v
theories/Spec/CodegenSpec.v
theories/Spec/InPlaceSpec.v
theories/Proof/CodegenProof.v
theories/Proof/InPlaceProof.v
theories/Props/Generated.v
theories/Check/RepoTests.v
theories/Model/DebugText.v
theories/Spec/DebugTextSpec.v
theories/Spec/DebugLayoutSpec.v
theories/Spec/ReportTextSpec.v
theories/Proof/DebugTextProof.v
theories/Proof/DebugTreeProof.v
theories/Proof/DebugLayoutProof.v
theories/Proof/ReportTextProof.v
theories/Props/DebugText.v
theories/Model/Types.v
theories/Model/AssertImpl.v
theories/Model/CrateTypes.v
theories/Spec/AutoSpec.v
theories/Proof/AutoProof.v
theories/Props/Auto.v
theories/Spec/DeclaredSpec.v
theories/Proof/DeclaredProof.v
theories/Props/Declared.v
theories/Model/CodegenFile.v
theories/Spec/CodegenFileSpec.v
theories/Proof/CodegenFileProof.v
theories/Props/CodegenFile.v
theories/Check/GeneratedText.v
theories/Spec/PanicSourcesSpec.v
theories/Props/PanicSources.v
theories/Model/PrettyText.v
theories/Spec/PrettySpec.v
theories/Proof/PrettyProof.v
theories/Props/Pretty.v
theories/Model/Equal.v
theories/Spec/OriginSpec.v
theories/Proof/EqualProof.v
theories/Props/Origin.v
theories/Props/KeyBlame.v
theories/Props/WinKeyBlame.v
theories/Spec/WinAnyLoadSpec.v
theories/Proof/WinAnyLoadProof.v
theories/Proof/WinSpellProof.v
theories/Props/WinAnyLoad.v
theories/Spec/WinJoinSpec.v
theories/Proof/WinJoinProof.v
theories/Props/WinJoin.v
theories/Spec/WinAnyTargetSpec.v
theories/Proof/WinAnyTargetProof.v
theories/Props/WinAnyTarget.v
theories/Props/WinAnyTools.v
theories/Props/WinOrigin.v
theories/Proof/ParentTextProof.v
theories/Spec/WinParentSpec.v
theories/Proof/WinParentProof.v
theories/Props/WinParent.v
theories/Spec/WinExactSpec.v
theories/Proof/WinExactProof.v
theories/Props/WinExact.v
theories/Spec/WinAnyBlameSpec.v
theories/Props/WinAnyBlame.v
theories/Props/WinAnyBuild.v
theories/Props/WinAnySafe.v
theories/Proof/JsonLoadProof.v
theories/Props/JsonLoaded.v
theories/Proof/JsonResolvedProof.v
theories/Props/JsonResolved.v
