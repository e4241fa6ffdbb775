-Q theories Verif
theories/Base.v
theories/BaseFacts.v
theories/ApiMapModel.v
theories/ApiMapSpec.v
theories/ApiMapProofs.v
theories/ApiMapProps.v
theories/ConfigModel.v
theories/ConfigSpec.v
theories/ConfigProofs.v
theories/ConfigLoadProofs.v
theories/ConfigProps.v
theories/ProblemModel.v
theories/CheckerModel.v
theories/CheckerSpec.v
theories/CheckerProofs.v
theories/CheckerSysProofs.v
theories/CheckerProps.v
theories/StoreModel.v
theories/StoreSpec.v
theories/StoreProofs.v
theories/StoreProps.v
theories/TextModel.v
theories/TextFacts.v
theories/TextSpec.v
theories/Utf8Proofs.v
theories/BuildScriptModel.v
theories/BuildScriptSpec.v
theories/BuildScriptProofs.v
theories/BuildScriptProps.v
theories/DemangleModel.v
theories/DemangleSpec.v
theories/DemangleProofs.v
theories/DemangleProps.v
theories/NamesModel.v
theories/NamesSpec.v
theories/NamesProofs.v
theories/NamesProps.v
theories/ScannerModel.v
theories/ScannerSpec.v
theories/ScannerProofs.v
theories/ScannerProps.v
theories/DepsModel.v
theories/DepsSpec.v
theories/DepsProofs.v
theories/DepsProps.v
theories/IoModel.v
theories/IoSpec.v
theories/IoProofs.v
theories/IoProps.v
theories/IndexModel.v
theories/IndexSpec.v
theories/IndexProofs.v
theories/IndexProps.v
theories/SandboxModel.v
theories/SandboxSpec.v
theories/SandboxProofs.v
theories/SandboxProps.v
theories/SubprocessModel.v
theories/SubprocessSpec.v
theories/SubprocessProofs.v
theories/SubprocessProps.v
theories/TomlModel.v
theories/TomlProofs.v
theories/EditorModel.v
theories/ReloadProofs.v
theories/EditorSpec.v
theories/EditorProofs.v
theories/EditorMoreProofs.v
theories/EditorApiProofs.v
theories/EditorApplyProofs.v
theories/EditorFixProofs.v
theories/EditorProps.v
theories/DocumentSpec.v
theories/DocumentProofs.v
theories/DocumentProps.v
theories/UiModel.v
theories/UiSpec.v
theories/UiProofs.v
theories/UiProps.v
theories/DiffModel.v
theories/DiffSpec.v
theories/DiffProofs.v
theories/DiffProps.v
theories/SummaryModel.v
theories/SummarySpec.v
theories/SummaryProofs.v
theories/SummaryProps.v
theories/GraphModel.v
theories/GraphSpec.v
theories/GraphProofs.v
theories/GraphProps.v
theories/CollectModel.v
theories/CollectSpec.v
theories/CollectNamesProofs.v
theories/CollectProofs.v
theories/CollectProps.v
theories/BacktraceModel.v
theories/BacktraceSpec.v
theories/BacktraceProofs.v
theories/BacktraceProps.v
theories/DwarfModel.v
theories/DwarfSpec.v
theories/DwarfProofs.v
theories/DwarfCheck.v
theories/DwarfProps.v
theories/TermModel.v
theories/TermSpec.v
theories/TermProofs.v
theories/TermRunProofs.v
theories/TermKeyProofs.v
theories/TermProps.v
theories/TermShownProps.v
theories/PrefixModel.v
theories/PrefixSpec.v
theories/PrefixProofs.v
theories/PrefixProps.v
theories/LaunchModel.v
theories/LaunchSpec.v
theories/LaunchProofs.v
theories/LaunchProps.v
theories/ReportModel.v
theories/ReportSpec.v
theories/ReportProofs.v
theories/ReportHeadProofs.v
theories/ReportViewProofs.v
theories/ReportProps.v
theories/FrontModel.v
theories/FrontSpec.v
theories/FrontProofs.v
theories/FrontInitProofs.v
theories/FrontReplayProofs.v
theories/FrontProps.v
theories/VetSpec.v
theories/VetProofs.v
theories/VetProps.v
theories/TitleModel.v
theories/TitleSpec.v
theories/TitleProofs.v
theories/TitleProps.v
theories/FlowModel.v
theories/FlowSpec.v
theories/FlowProofs.v
theories/FlowProps.v
theories/ArchiveModel.v
theories/ArchiveSpec.v
theories/ArchiveProofs.v
theories/ArchiveProps.v
theories/WireModel.v
theories/WireSpec.v
theories/WireProofs.v
theories/WireProps.v
theories/WholeModel.v
theories/WholeSpec.v
theories/WholeProofs.v
theories/WholeProps.v
theories/CompileModel.v
theories/CompileSpec.v
theories/CompileProofs.v
theories/CompileProps.v
theories/ProbeModel.v
theories/ProbeSpec.v
theories/ProbeProofs.v
theories/ProbeProps.v
theories/HelpModel.v
theories/HelpSpec.v
theories/HelpProofs.v
theories/HelpProps.v
theories/ProfileSpec.v
theories/ProfileProps.v
theories/OptionsModel.v
theories/OptionsSpec.v
theories/OptionsProps.v
theories/IdentityModel.v
theories/IdentitySpec.v
theories/IdentityProofs.v
theories/IdentityProps.v
theories/ResponseSpec.v
theories/ResponseProps.v
theories/DetailsModel.v
theories/DetailsSpec.v
theories/DetailsProps.v
theories/KeysModel.v
theories/KeysSpec.v
theories/KeysProps.v
theories/ManualSpec.v
theories/ManualProofs.v
theories/ManualProps.v
theories/RecallSpec.v
theories/RecallProofs.v
theories/RecallProps.v
theories/MethodsSpec.v
theories/MethodsProofs.v
theories/MethodsProps.v
theories/WrapperSpec.v
theories/WrapperProofs.v
theories/WrapperProps.v
theories/ExplainSpec.v
theories/ExplainProps.v
theories/PreviewModel.v
theories/PreviewSpec.v
theories/PreviewProofs.v
theories/PreviewProps.v
theories/SysrootModel.v
theories/SysrootSpec.v
theories/SysrootProofs.v
theories/SysrootProps.v
theories/PackageModel.v
theories/PackageSpec.v
theories/PackageProofs.v
theories/PackageProps.v
theories/StopProps.v
theories/PopupModel.v
theories/PopupSpec.v
theories/PopupProofs.v
theories/PopupProps.v
theories/OutputModel.v
theories/OutputSpec.v
theories/OutputProofs.v
theories/OutputProps.v
theories/CrashModel.v
theories/CrashSpec.v
theories/CrashProofs.v
theories/CrashProps.v
theories/LockModel.v
theories/LockSpec.v
theories/LockProofs.v
theories/LockProps.v
theories/TempModel.v
theories/TempSpec.v
theories/TempProofs.v
theories/TempProps.v
theories/RestoreModel.v
theories/RestoreSpec.v
theories/RestoreProofs.v
theories/RestoreProps.v
theories/NamingModel.v
theories/NamingSpec.v
theories/NamingProofs.v
theories/NamingProps.v
theories/ColourModel.v
theories/ColourSpec.v
theories/ColourProofs.v
theories/ColourProps.v
theories/TimingModel.v
theories/TimingSpec.v
theories/TimingProofs.v
theories/TimingProps.v
theories/AuditModel.v
theories/AuditSpec.v
theories/AuditProofs.v
theories/AuditProps.v
