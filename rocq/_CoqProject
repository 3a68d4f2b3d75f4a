-Q theories Verif
theories/GoBase.v
theories/ParamsModel.v
theories/MessagesModel.v
theories/WireSpec.v
theories/ParamsSpec.v
theories/MsgSpec.v
theories/BaseProofs.v
theories/ParamsProofs.v
theories/AccessorProofs.v
theories/MessagesProofs.v
theories/MessagesProofs2.v
theories/PropsParams.v
theories/PropsMessages.v
theories/PcModel.v
theories/PcSpec.v
theories/PcProofs.v
theories/PropsPc.v
theories/ConfigModel.v
theories/ConfigProofs.v
theories/LoggerModel.v
theories/LoggerProofs.v
theories/PropsConfig.v
theories/ConnModel.v
theories/ConnSpec.v
theories/ConnBase.v
theories/ConnInv.v
theories/ConnTrace.v
theories/CfgSpec.v
theories/ConnUser.v
theories/ConnCodec.v
theories/ConnMacro.v
theories/ConnMore.v
theories/ConnExamples.v
theories/PropsUser.v
theories/PropsFsm.v
theories/ConnStable.v
theories/PropsClose.v
theories/ConnData.v
theories/ConnLive.v
theories/ConnCount.v
theories/PropsLive.v
theories/ConnPair.v
theories/ConnBeat.v
theories/TruncProofs.v
theories/ConnPieces.v
theories/PropsPair.v
theories/CodePoints.v
theories/PropsCodes.v
theories/ReuseModel.v
theories/ReuseSpec.v
theories/ReuseProofs.v
theories/PropsReuse.v
theories/ConfigWire.v
theories/LoggerOrder.v
theories/PropsConfig2.v
theories/ConnPace.v
theories/ConnEnd.v
theories/PropsBeat.v
theories/ConnErr.v
theories/PropsErr.v
theories/ConnE2E.v
theories/PropsE2E.v
theories/TextModel.v
theories/TextSpec.v
theories/TextProofs.v
theories/PropsText.v
theories/DialogSpec.v
theories/ConnDialog.v
theories/ConnDuo.v
theories/PropsDuo.v
theories/TalkSpec.v
theories/ConnTalk.v
theories/PropsTalk.v
theories/PeerSpec.v
theories/ConnPeer.v
theories/PropsPeer.v
theories/ConnLife.v
theories/ConnLife2.v
theories/LifeSpec.v
theories/ConnLife3.v
theories/PropsLife.v
theories/ProcModel.v
theories/ProcSpec.v
theories/ProcProofs.v
theories/PropsProc.v
theories/WorkSpec.v
theories/ConnWork.v
theories/WorkTight.v
theories/PropsWork.v
theories/ErrTextModel.v
theories/PropsErrText.v
theories/MemModel.v
theories/MemSpec.v
theories/MemProofs.v
theories/PropsMem.v
theories/RaceSpec.v
theories/ConnRace.v
theories/ConnRace2.v
theories/PropsRace.v
theories/ServeSpec.v
theories/ConnServe.v
theories/PropsServe.v
theories/ShareModel.v
theories/ShareSpec.v
theories/ShareProofs.v
theories/PropsShare.v
theories/EstModel.v
theories/EstSpec.v
theories/EstProofs.v
theories/PropsEst.v
theories/ExactSpec.v
theories/ConnExact.v
theories/PropsExact.v
theories/FullSpec.v
theories/ConnFull.v
theories/PropsFull.v
theories/TimeModel.v
theories/TimeSpec.v
theories/TimeProofs.v
theories/TimeTight.v
theories/PropsTime.v
theories/DemoModel.v
theories/DemoSpec.v
theories/DemoProofs.v
theories/DemoPair.v
theories/PropsDemo.v
theories/CliSpec.v
theories/CliProofs.v
theories/PropsCli.v
theories/ConvModel.v
theories/ConvProofs.v
theories/PropsConv.v
theories/NormSpec.v
theories/NormProofs.v
theories/ReadModel.v
theories/ReadSpec.v
theories/ReadProofs.v
theories/PropsNorm.v
theories/LastSpec.v
theories/ConnLast.v
theories/PropsLast.v
theories/MainModel.v
theories/MainSpec.v
theories/MainProofs.v
theories/PropsMain.v
theories/NilModel.v
theories/NilProofs.v
theories/PropsNil.v
theories/RejectSpec.v
theories/FuzzModel.v
theories/RejectProofs.v
theories/PropsReject.v
theories/SizeSpec.v
theories/ConnSize.v
theories/PropsSize.v
theories/ConnRole.v
theories/PropsRole.v
theories/OrderSpec.v
theories/OrderProofs.v
theories/PropsOrder.v
theories/FlowSpec.v
theories/FlowProofs.v
theories/PropsFlow.v
theories/LooseModel.v
theories/LooseSpec.v
theories/LooseProofs.v
theories/LooseSim.v
theories/PropsLoose.v
theories/HangSpec.v
theories/HangProofs.v
theories/PropsHang.v
theories/TimelySpec.v
theories/TimelyProofs.v
theories/PropsTimely.v
theories/GainSpec.v
theories/GainProofs.v
theories/GainPair.v
theories/PropsGain.v
theories/RepoTests.v
theories/StreamSpec.v
theories/StreamProofs.v
theories/PropsStream.v
theories/ErrIsModel.v
theories/PropsErrIs.v
theories/AliasModel.v
theories/AliasSpec.v
theories/AliasProofs.v
theories/PropsAlias.v
theories/JoinProofs.v
theories/PropsJoin.v
theories/ChangeSpec.v
theories/ChangeProofs.v
theories/PropsChange.v
theories/EchoSpec.v
theories/EchoProofs.v
theories/PropsEcho.v
theories/RowSpec.v
theories/RowProofs.v
theories/PropsRow.v
theories/DeadModel.v
theories/DeadSpec.v
theories/DeadProofs.v
theories/PropsDead.v
