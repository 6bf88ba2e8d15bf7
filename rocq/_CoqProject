-Q theories Verif
theories/Base.v
theories/BaseProof.v
theories/RingModel.v
theories/RingSpec.v
theories/RingProof.v
theories/RingProps.v
theories/EscModel.v
theories/EscSpec.v
theories/EscProof.v
theories/EscProps.v
theories/TelnetModel.v
theories/TelnetSpec.v
theories/TelnetProof.v
theories/TelnetProps.v
theories/ListModel.v
theories/ListSpec.v
theories/ListProof.v
theories/ListProps.v
theories/Chars.v
theories/LexModel.v
theories/LexSpec.v
theories/LexProof.v
theories/LexProps.v
theories/Mem.v
theories/Fmt.v
theories/StrModel.v
theories/StrSpec.v
theories/StrProof.v
theories/StrProps.v
theories/FileModel.v
theories/FileSpec.v
theories/FileProof.v
theories/FileProps.v
theories/ProtoModel.v
theories/ProtoSpec.v
theories/ProtoProof.v
theories/ProtoProps.v
theories/TpollModel.v
theories/TpollSpec.v
theories/TpollProof.v
theories/TpollInv.v
theories/TpollRun.v
theories/TpollSafe.v
theories/TpollProps.v
theories/LogModel.v
theories/LogSpec.v
theories/LogProof.v
theories/LogProps.v
theories/SessModel.v
theories/SessSpec.v
theories/SessInv.v
theories/SessLink.v
theories/SessStep.v
theories/SessWorld.v
theories/SessThread.v
theories/SessFacts.v
theories/SessMux.v
theories/SessMode.v
theories/SessProps.v
theories/MsgModel.v
theories/MsgSpec.v
theories/MsgProof.v
theories/MsgProps.v
theories/ReconnModel.v
theories/ReconnSpec.v
theories/ReconnProof.v
theories/ReconnExec.v
theories/ReconnInv.v
theories/ReconnStep.v
theories/ReconnMade.v
theories/ReconnAsked.v
theories/ReconnRace.v
theories/ReconnAlone.v
theories/ReconnProps.v
theories/ResetModel.v
theories/ResetSpec.v
theories/ResetProof.v
theories/ResetProps.v
theories/FnameModel.v
theories/FnameSpec.v
theories/FnameProof.v
theories/FnameProps.v
theories/OptModel.v
theories/OptSpec.v
theories/OptProof.v
theories/OptProof2.v
theories/OptProof3.v
theories/OptIpmi.v
theories/OptProps.v
theories/QueryModel.v
theories/QuerySpec.v
theories/QueryProof.v
theories/QueryProps.v
theories/MuxModel.v
theories/MuxSpec.v
theories/MuxProof.v
theories/MuxProps.v
theories/ConfModel.v
theories/ConfSpec.v
theories/ConfLex.v
theories/ConfLines.v
theories/ConfProof.v
theories/ConfText.v
theories/ConfDev.v
theories/ConfEffect.v
theories/ConfProps.v
theories/HostModel.v
theories/HostSpec.v
theories/HostProof.v
theories/HostProps.v
theories/EnvModel.v
theories/EnvSpec.v
theories/EnvProof.v
theories/EnvProps.v
theories/SchedModel.v
theories/SchedSpec.v
theories/SchedProof.v
theories/SchedProps.v
theories/InevModel.v
theories/InevSpec.v
theories/InevProof.v
theories/InevRun.v
theories/InevProps.v
theories/CliModel.v
theories/CliSpec.v
theories/CliProof.v
theories/CliRun.v
theories/CliProps.v
theories/TermModel.v
theories/TermSpec.v
theories/TermProof.v
theories/TermRun.v
theories/TermProps.v
theories/InstModel.v
theories/InstSpec.v
theories/InstProof.v
theories/InstProps.v
theories/ServeModel.v
theories/ServeSpec.v
theories/ServeProof.v
theories/ServeProps.v
theories/BootModel.v
theories/BootSpec.v
theories/BootProof.v
theories/BootProps.v
theories/LineModel.v
theories/LineSpec.v
theories/LineProof.v
theories/LineProps.v
theories/RotModel.v
theories/RotSpec.v
theories/RotProof.v
theories/RotProps.v
theories/DownModel.v
theories/DownSpec.v
theories/DownProof.v
theories/DownProps.v
theories/InitModel.v
theories/InitSpec.v
theories/InitProof.v
theories/InitProps.v
theories/RunModel.v
theories/RunSpec.v
theories/RunProof.v
theories/RunProps.v
theories/DiagModel.v
theories/DiagSpec.v
theories/DiagProof.v
theories/DiagProps.v
theories/FlowSpec.v
theories/FlowProof.v
theories/FlowProps.v
theories/RecSpec.v
theories/RecProof.v
theories/RecProps.v
theories/SeenSpec.v
theories/SeenProof.v
theories/SeenEvent.v
theories/SeenProps.v
theories/TimeModel.v
theories/TimeSpec.v
theories/TimeProof.v
theories/TimeProps.v
theories/SetSpec.v
theories/SetProof.v
theories/SetProps.v
theories/DescModel.v
theories/DescSpec.v
theories/DescProof.v
theories/DescInv.v
theories/DescProps.v
theories/GlobSpec.v
theories/GlobProof.v
theories/GlobProps.v
theories/KidSpec.v
theories/KidProps.v
theories/StampProps.v
theories/PoolModel.v
theories/PoolSpec.v
theories/PoolProof.v
theories/PoolProps.v
theories/BrkModel.v
theories/BrkSpec.v
theories/BrkProof.v
theories/BrkProps.v
theories/EngModel.v
theories/EngSpec.v
theories/EngProps.v
theories/WeaveModel.v
theories/WeaveSpec.v
theories/WeaveProof.v
theories/WeaveProps.v
theories/WakeModel.v
theories/WakeSpec.v
theories/WakeProof.v
theories/WakeProps.v
