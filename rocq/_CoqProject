-Q theories Verif
theories/ArgModel.v
theories/ArgProofs.v
theories/ArgProofs2.v
theories/ArgProofs3.v
theories/ArgProps.v
theories/ArgSpec.v
theories/AttrCheck.v
theories/AttrCode.v
theories/AttrContracts.v
theories/AttrModel.v
theories/AttrNames.v
theories/AttrProofs.v
theories/AttrProofs2.v
theories/AttrProofs3.v
theories/AttrProps.v
theories/AttrSpec.v
theories/BindCode.v
theories/BindModel.v
theories/BindNames.v
theories/BindProofs.v
theories/BindProofs2.v
theories/BindProps.v
theories/BindSpec.v
theories/BreakFinal.v
theories/BreakModel.v
theories/BreakNest.v
theories/BreakProofs.v
theories/BreakProps.v
theories/BreakSpec.v
theories/CallArgProps.v
theories/CallModel.v
theories/CallProofs.v
theories/CallProps.v
theories/CallSpec.v
theories/ChildModel.v
theories/ChildProofs.v
theories/ChildProofs2.v
theories/ChildProofs3.v
theories/ChildProofs4.v
theories/ChildProps.v
theories/ChildSpec.v
theories/CmdModel.v
theories/CmdProofs.v
theories/CmdProofs2.v
theories/CmdProofs3.v
theories/CmdProps.v
theories/CmdSpec.v
theories/CodeProofs.v
theories/CodeProofs2.v
theories/CodeProps.v
theories/CodeSpec.v
theories/CtModel.v
theories/DbgFinal.v
theories/DbgFinal2.v
theories/DbgLeft.v
theories/DbgModel.v
theories/DbgProofs.v
theories/DbgProofs2.v
theories/DbgProofs3.v
theories/DbgProofs4.v
theories/DbgProofs5.v
theories/DbgProps.v
theories/DbgSpec.v
theories/DecodeModel.v
theories/DecodeProofs.v
theories/DecodeProofs2.v
theories/DecodeProps.v
theories/DecodeSpec.v
theories/DocModel.v
theories/DocProofs.v
theories/DocProofs2.v
theories/DocProofs3.v
theories/DocProofs4.v
theories/DocProps.v
theories/DocSpec.v
theories/EffectProofs.v
theories/EffectProofs2.v
theories/EffectProps.v
theories/EffectSpec.v
theories/Exact2Props.v
theories/Exact3Props.v
theories/Exact4Props.v
theories/Exact5Props.v
theories/Exact6Props.v
theories/Exact7Props.v
theories/Exact8Props.v
theories/Exact9Props.v
theories/ExactProofs.v
theories/ExactProofs2.v
theories/ExactProofs3.v
theories/ExactProofs4.v
theories/ExactProofs5.v
theories/ExactProofs6.v
theories/ExactProofs7.v
theories/ExactProofs8.v
theories/ExactProofs9.v
theories/ExactProps.v
theories/ExactSpec.v
theories/ExactSpec2.v
theories/ExactSpec3.v
theories/ExactSpec4.v
theories/ExprModel.v
theories/ExprProofs.v
theories/ExprProofs2.v
theories/ExprProofs3.v
theories/ExprProps.v
theories/ExprSpec.v
theories/FamilyProofs.v
theories/FamilyProofs2.v
theories/FamilyProofs3.v
theories/FamilyProofs4.v
theories/FamilyProofs5.v
theories/FamilyProps.v
theories/FamilySpec.v
theories/FateExamples.v
theories/FateProofs.v
theories/FateProofs2.v
theories/FateProofs3.v
theories/FateProps.v
theories/FateSpec.v
theories/FaultModel.v
theories/FaultProofs.v
theories/FaultProofs2.v
theories/FaultProofs3.v
theories/FaultProofs4.v
theories/FaultProofs5.v
theories/FaultProps.v
theories/FaultSpec.v
theories/FmtCode.v
theories/FmtModel.v
theories/FmtProofs.v
theories/FmtProps.v
theories/FmtSpec.v
theories/GSuiteModel.v
theories/GSuiteProofs.v
theories/GSuiteProofs2.v
theories/GSuiteProofs3.v
theories/GSuiteProps.v
theories/GSuiteSpec.v
theories/GdbCmdProofs.v
theories/GdbCmdProps.v
theories/GdbCmdSpec.v
theories/GdbEventProofs.v
theories/GdbEventProps.v
theories/GdbEventSpec.v
theories/GdbHelpProofs.v
theories/GdbHelpProps.v
theories/GdbModel.v
theories/GdbProofs.v
theories/GdbProofs2.v
theories/GdbProofs3.v
theories/GdbProofs4.v
theories/GdbProofs5.v
theories/GdbProps.v
theories/GdbSpec.v
theories/GdbSwitchProofs.v
theories/GdbSwitchProps.v
theories/GenModel.v
theories/GenProofs.v
theories/GenProofs2.v
theories/GenProofs3.v
theories/GenProofs4.v
theories/GenProps.v
theories/GenSpec.v
theories/HostModel.v
theories/HostProofs.v
theories/HostProps.v
theories/HostSpec.v
theories/ImpCheck.v
theories/ImpCode.v
theories/ImpModel.v
theories/ImpNames.v
theories/ImpProofs.v
theories/ImpProofs2.v
theories/ImpProofs3.v
theories/ImpProps.v
theories/ImpSpec.v
theories/IntModel.v
theories/IntProofs.v
theories/IntProps.v
theories/IntSpec.v
theories/ItraceModel.v
theories/ItraceProofs.v
theories/ItraceProps.v
theories/ItraceSpec.v
theories/KernProofs.v
theories/KernProps.v
theories/KernSpec.v
theories/LeaveModel.v
theories/LeaveProofs.v
theories/LeaveProps.v
theories/LeaveSpec.v
theories/LinkExamples.v
theories/LinkProofs.v
theories/LinkProofs2.v
theories/LinkProofs3.v
theories/LinkProps.v
theories/LinkSpec.v
theories/LiveExamples.v
theories/LiveProofs.v
theories/LiveProofs2.v
theories/LiveProofs3.v
theories/LiveProofs4.v
theories/LiveProofs5.v
theories/LiveProps.v
theories/LiveSpec.v
theories/LogModel.v
theories/LogProofs.v
theories/LogProps.v
theories/LogSpec.v
theories/MapModel.v
theories/MapProofs.v
theories/MapProofs2.v
theories/MapProps.v
theories/MapSpec.v
theories/MemExamples.v
theories/MemFinal.v
theories/MemModel.v
theories/MemProofs.v
theories/MemProofs2.v
theories/MemProofs3.v
theories/MemProps.v
theories/MemSpec.v
theories/OpenModel.v
theories/OpenProofs.v
theories/OpenProps.v
theories/OpenSpec.v
theories/OutModel.v
theories/OutProofs.v
theories/OutProofs2.v
theories/OutProps.v
theories/OutSpec.v
theories/PathProofs.v
theories/PathProofs2.v
theories/PathProofs3.v
theories/PathProps.v
theories/PathSpec.v
theories/PeerCode.v
theories/PeerModel.v
theories/PeerProofs.v
theories/PeerProps.v
theories/PeerSpec.v
theories/Platform.v
theories/PointProofs.v
theories/PointProps.v
theories/PointSpec.v
theories/ProcModel.v
theories/ProcProofs.v
theories/ProcProofs2.v
theories/ProcProps.v
theories/ProcSpec.v
theories/ProtoProofs.v
theories/ProtoProps.v
theories/ProtoSpec.v
theories/PyBase.v
theories/PyEval.v
theories/PyEvalProofs.v
theories/PyFacts.v
theories/PyInt.v
theories/PyIntFacts.v
theories/RegFinal.v
theories/RegModel.v
theories/RegProofs.v
theories/RegProps.v
theories/RegSpec.v
theories/RegexFacts.v
theories/RegexModel.v
theories/RegexProofs.v
theories/RegexProofs2.v
theories/RegexProps.v
theories/RegexSpec.v
theories/RegexSub.v
theories/ReqModel.v
theories/ReqProofs.v
theories/ReqProps.v
theories/ReqSpec.v
theories/RunMainModel.v
theories/RunMainProofs.v
theories/RunMainProps.v
theories/RunMainSpec.v
theories/RunModel.v
theories/RunProofs.v
theories/RunProps.v
theories/RunSpec.v
theories/SdistCode.v
theories/SdistModel.v
theories/SdistProofs.v
theories/SdistProps.v
theories/SdistSpec.v
theories/SessionExamples.v
theories/SessionModel.v
theories/SessionProofs.v
theories/SessionProofs2.v
theories/SessionProofs3.v
theories/SessionProofs4.v
theories/SessionProofs5.v
theories/SessionProps.v
theories/SessionSpec.v
theories/ShownProofs.v
theories/ShownProps.v
theories/ShownSpec.v
theories/SigModel.v
theories/SigProofs.v
theories/SigProps.v
theories/SigSpec.v
theories/SimpleModel.v
theories/SimpleProofs.v
theories/SimpleProps.v
theories/SimpleSpec.v
theories/StoryProofs.v
theories/StoryProofs2.v
theories/StoryProofs3.v
theories/StoryProofs4.v
theories/StoryProps.v
theories/StorySpec.v
theories/StraceModel.v
theories/StraceProofs.v
theories/StraceProofs2.v
theories/StraceProofs3.v
theories/StraceProofs4.v
theories/StraceProofs5.v
theories/StraceProps.v
theories/StraceSpec.v
theories/StructModel.v
theories/StructProofs.v
theories/SuiteModel.v
theories/SuiteProofs.v
theories/SuiteProofs2.v
theories/SuiteProofs3.v
theories/SuiteProofs4.v
theories/SuiteProofs5.v
theories/SuiteProofs6.v
theories/SuiteProofs7.v
theories/SuiteProofs8.v
theories/SuiteProps.v
theories/SuiteSpec.v
theories/SysModel.v
theories/SysProofs.v
theories/SysProofs2.v
theories/SysProofs3.v
theories/SysProofs4.v
theories/SysProps.v
theories/SysSpec.v
theories/TabModel.v
theories/TabProofs.v
theories/TabProps.v
theories/TabSpec.v
theories/ToolsModel.v
theories/ToolsProofs.v
theories/ToolsProofs2.v
theories/ToolsProps.v
theories/ToolsSpec.v
theories/TraceModel.v
theories/TraceProofs.v
theories/TraceProps.v
theories/TraceSpec.v
theories/UptimeModel.v
theories/UptimeProofs.v
theories/UptimeProps.v
theories/UptimeSpec.v
theories/UseCode.v
theories/UseModel.v
theories/UseProofs.v
theories/UseProps.v
theories/UseSpec.v
theories/XrayModel.v
theories/XrayProofs.v
theories/XrayProofs2.v
theories/XrayProps.v
theories/XraySpec.v
