-Q theories Verif
theories/Base.v
theories/SchedModel.v
theories/SchedLists.v
theories/SchedSpec.v
theories/SchedProofs.v
theories/SchedInv.v
theories/SchedExec.v
theories/SchedProps.v
theories/CpmModel.v
theories/CpmProps.v
theories/PpmModel.v
theories/PpmProps.v
theories/EthModel.v
theories/EthProps.v
theories/PortModel.v
theories/PortProps.v
theories/FileModel.v
theories/FileProps.v
theories/BgModel.v
theories/BgProps.v
theories/BlockModel.v
theories/BlockReadLemmas.v
theories/BlockReadProps.v
theories/BlockWriteProps.v
theories/CmModel.v
theories/CmSpec.v
theories/CmLemmas.v
theories/CmAtoms.v
theories/CmSteps.v
theories/CmTrace.v
theories/CmHist.v
theories/CmProps.v
theories/CmTableProps.v
theories/CmEndProps.v
theories/PlugModel.v
theories/PlugProps.v
theories/DiagModel.v
theories/DiagSpec.v
theories/DiagLists.v
theories/DiagInv.v
theories/DiagSteps.v
theories/DiagProps.v
theories/DiagReportProps.v
theories/AlarmModel.v
theories/AlarmSpec.v
theories/AlarmRing.v
theories/AlarmLemmas.v
theories/AlarmInv.v
theories/AlarmParse.v
theories/AlarmDeaf.v
theories/AlarmProps.v
theories/AlarmMore.v
theories/AlarmMoreProps.v
theories/AlarmEndModel.v
theories/AlarmEndProps.v
theories/CminaModel.v
theories/CminaSpec.v
theories/CminaValid.v
theories/CminaInv.v
theories/CminaProps.v
theories/ConnModel.v
theories/ConnSpec.v
theories/ConnLemmas.v
theories/ConnExp.v
theories/ConnLayout.v
theories/ConnProps.v
theories/ConnMoreProps.v
theories/ConnRangeProps.v
theories/ConnSendProps.v
theories/DcpModel.v
theories/DcpSpec.v
theories/DcpInv.v
theories/DcpLoops.v
theories/DcpStep.v
theories/DcpProps.v
theories/DcpTimeProps.v
theories/DcpMoreProps.v
theories/RpcModel.v
theories/RpcLemmas.v
theories/RpcInv.v
theories/RpcStep.v
theories/RpcProps.v
theories/RpcFrame.v
theories/RpcIdent.v
theories/RpcAnswer.v
theories/RpcReply.v
theories/RpcReplyProps.v
theories/RpcRepeatProps.v
theories/RpcAddrProps.v
theories/RpcDseqProps.v
theories/RpcTableProps.v
theories/RpcOwnProps.v
theories/RpcHold.v
theories/RpcFragProps.v
theories/LldpModel.v
theories/LldpProps.v
theories/LldpPortModel.v
theories/LldpPortProps.v
theories/FspmModel.v
theories/FspmProps.v
theories/RecordModel.v
theories/RecordReadProps.v
theories/RecordWriteProps.v
theories/IdentModel.v
theories/IdentProps.v
theories/DiffModel.v
theories/DiffProps.v
theories/DiffBlockProps.v
theories/IdentReadModel.v
theories/IdentReadProps.v
theories/DiagReadModel.v
theories/DiagReadProps.v
theories/AlarmFrameModel.v
theories/AlarmFrameProps.v
theories/EpmModel.v
theories/EpmProps.v
theories/ConnRspModel.v
theories/ConnRspProps.v
theories/DataRecModel.v
theories/DataRecProps.v
theories/ArDataModel.v
theories/ArDataProps.v
theories/PdRecModel.v
theories/PdRecProps.v
theories/Im0Model.v
theories/Im0Props.v
theories/SnmpModel.v
theories/SnmpProps.v
theories/PeerModel.v
theories/PeerProps.v
theories/HelloModel.v
theories/HelloProps.v
theories/ControlModel.v
theories/ControlProps.v
theories/ReadReqModel.v
theories/ReadReqProps.v
theories/ConnReqModel.v
theories/ConnReqProps.v
theories/StateModel.v
theories/StateProps.v
theories/HandleModel.v
theories/HandleProps.v
theories/FastModel.v
theories/FastProps.v
theories/DiagApiModel.v
theories/DiagApiProps.v
