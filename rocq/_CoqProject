-Q theories Verif
theories/AttachClose.v
theories/AttachEnd.v
theories/AttachFinal.v
theories/AttachHist.v
theories/AttachLive.v
theories/AttachModel.v
theories/AttachMore.v
theories/AttachProofs.v
theories/AttachProps.v
theories/AttachRank.v
theories/AttachSpec.v
theories/AttachTokens.v
theories/AttachTurns.v
theories/AuthModel.v
theories/AuthProofs.v
theories/AuthProps.v
theories/AuthSpec.v
theories/CdrModel.v
theories/CdrProps.v
theories/CdrSpec.v
theories/CliModel.v
theories/CliMore.v
theories/CliProofs.v
theories/CliProps.v
theories/CliSpec.v
theories/CliTight.v
theories/CloModel.v
theories/CloProps.v
theories/CloSpec.v
theories/CodecModel.v
theories/CodecProofs.v
theories/CodecProps.v
theories/CodecSpec.v
theories/DefModel.v
theories/DefProofs.v
theories/DefProofs2.v
theories/DefProofs3.v
theories/DefProofs4.v
theories/DefProofs5.v
theories/DefProps.v
theories/DefSpec.v
theories/DevAttach.v
theories/DevConf.v
theories/DevFreeze.v
theories/DevLife.v
theories/DevModel.v
theories/DevMore.v
theories/DevProofs.v
theories/DevProps.v
theories/DevSpec.v
theories/DnsModel.v
theories/DnsProofs.v
theories/DnsProps.v
theories/DnsSpec.v
theories/EventModel.v
theories/EventProofs.v
theories/EventProps.v
theories/EventSpec.v
theories/FutureModel.v
theories/FutureProofs.v
theories/FutureProps.v
theories/FutureSpec.v
theories/IahModel.v
theories/IahProofs.v
theories/IahProofs2.v
theories/IahProofs3.v
theories/IahProofs4.v
theories/IahProofs5.v
theories/IahProofs6.v
theories/IahProps.v
theories/IahSpec.v
theories/IamJsonModel.v
theories/IamJsonProofs.v
theories/IamJsonProps.v
theories/IamJsonSpec.v
theories/IamPolicyModel.v
theories/IamPolicyProofs.v
theories/IamPolicyProps.v
theories/IamPolicySpec.v
theories/IamStateFrame.v
theories/IamStateInv.v
theories/IamStateModel.v
theories/IamStateProofs.v
theories/IamStateProps.v
theories/IamStateReload.v
theories/IamStateSpec.v
theories/IrdModel.v
theories/IrdProofs.v
theories/IrdProps.v
theories/IrdSpec.v
theories/JsonModel.v
theories/JsonProofs.v
theories/KeepAliveModel.v
theories/KeepAliveProofs.v
theories/KeepAliveProps.v
theories/KeepAliveSpec.v
theories/LeqModel.v
theories/LeqProps.v
theories/LeqSpec.v
theories/LggModel.v
theories/LggProps.v
theories/LggSpec.v
theories/LipModel.v
theories/LipProps.v
theories/LipSpec.v
theories/ListenerModel.v
theories/ListenerProofs.v
theories/ListenerProps.v
theories/ListenerSpec.v
theories/LockCheck.v
theories/LockCode.v
theories/LockModel.v
theories/LockProps.v
theories/LockRun.v
theories/LockSpec.v
theories/LockThreads.v
theories/MdbModel.v
theories/MdbProps.v
theories/MdbSpec.v
theories/MdnsModel.v
theories/MdnsProofs.v
theories/MdnsProofs2.v
theories/MdnsProofs3.v
theories/MdnsProps.v
theories/MdnsSpec.v
theories/MgrEnd.v
theories/MgrLast.v
theories/MgrModel.v
theories/MgrMore.v
theories/MgrProofs.v
theories/MgrProps.v
theories/MgrRun.v
theories/MgrSpec.v
theories/NetClose.v
theories/NetEnd.v
theories/NetHist.v
theories/NetModel.v
theories/NetMore.v
theories/NetMove.v
theories/NetProofs.v
theories/NetProps.v
theories/NetRv.v
theories/NetSpec.v
theories/PerModel.v
theories/PerProofs.v
theories/PerProofs2.v
theories/PerProofs3.v
theories/PerProofs4.v
theories/PerProofs5.v
theories/PerProofs6.v
theories/PerProofs7.v
theories/PerProps.v
theories/PerSpec.v
theories/PprModel.v
theories/PprProofs.v
theories/PprProps.v
theories/PprSpec.v
theories/PrmModel.v
theories/PrmProofs.v
theories/PrmProps.v
theories/PrmSpec.v
theories/PwAuthModel.v
theories/PwAuthProofs.v
theories/PwAuthProps.v
theories/PwAuthSpec.v
theories/RlyEnds.v
theories/RlyModel.v
theories/RlyProofs.v
theories/RlyProps.v
theories/RlySpec.v
theories/RlyStop.v
theories/SapModel.v
theories/SapMore.v
theories/SapProofs.v
theories/SapProps.v
theories/SapSpec.v
theories/SpakeModel.v
theories/SpakeProofs.v
theories/SrvModel.v
theories/SrvMore.v
theories/SrvProofs.v
theories/SrvProps.v
theories/SrvSpec.v
theories/SrvTight.v
theories/StrData.v
theories/StrModel.v
theories/StrProofs.v
theories/StrProps.v
theories/StrSpec.v
theories/StunModel.v
theories/StunProps.v
theories/StunSpec.v
theories/SvfModel.v
theories/SvfProofs.v
theories/SvfProofs2.v
theories/SvfProofs3.v
theories/SvfProps.v
theories/SvfSpec.v
theories/TmrModel.v
theories/TmrProps.v
theories/TmrSpec.v
theories/TselModel.v
theories/TselProps.v
theories/TselSpec.v
theories/TunAsks.v
theories/TunModel.v
theories/TunProofs.v
theories/TunProps.v
theories/TunSpec.v
theories/UdpModel.v
theories/UdpProps.v
theories/UdpSpec.v
theories/VcoApi.v
theories/VcoCore.v
theories/VcoHist.v
theories/VcoInv.v
theories/VcoModel.v
theories/VcoProofs.v
theories/VcoProps.v
theories/VcoSafe.v
theories/VcoSpec.v
theories/VcoStep.v
theories/VirtData.v
theories/VirtModel.v
theories/VirtMore.v
theories/VirtProofs.v
theories/VirtProps.v
theories/VirtSpec.v
theories/VirtStop.v
