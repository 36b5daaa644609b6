-Q theories Verif
theories/Py.v
theories/BitStream.v
theories/Schema.v
theories/Registry.v
theories/Codec.v
theories/Conformance.v
theories/SpecBits.v
theories/BitLemmas.v
theories/ReaderLemmas.v
theories/WriterLemmas.v
theories/SpecWire.v
theories/EncodeProofs.v
theories/SpecDecode.v
theories/DecodeLemmas.v
theories/DecodeProofs.v
theories/SpecRound.v
theories/RoundTrip.v
theories/SpecStream.v
theories/CodecProofs.v
theories/SpecTotal.v
theories/ParseRel.v
theories/TotalProofs.v
theories/ByteReader.v
theories/Text.v
theories/SpecFields.v
theories/HeaderProofs.v
theories/FieldProofs.v
theories/ValueProofs.v
theories/ReportProofs.v
theories/Waiter.v
theories/Conn.v
theories/SpecConn.v
theories/ConnLemmas.v
theories/ConnPacket.v
theories/ConnAck.v
theories/ConnInv.v
theories/ConnCases.v
theories/ConnProps.v
theories/ConnCalm.v
theories/ConnWait.v
theories/ConnReply.v
theories/ConnFirst.v
theories/ConnRest.v
theories/ConnWitness.v
theories/Listen.v
theories/NodeM.v
theories/SpecNode.v
theories/NodeProofs.v
theories/PropertiesNode.v
theories/CmdClass.v
theories/SpecClass.v
theories/ClassProofs.v
theories/PropertiesClass.v
theories/MailboxM.v
theories/SpecMailbox.v
theories/MailboxProofs.v
theories/MailboxMore.v
theories/MailboxCrc.v
theories/PropertiesMailbox.v
theories/StorageM.v
theories/SpecStorage.v
theories/StorageProofs.v
theories/PropertiesStorage.v
theories/GrpInfoM.v
theories/SpecGrpInfo.v
theories/GrpInfoProofs.v
theories/GrpInterview.v
theories/PropertiesGrpInfo.v
theories/NodeReq.v
theories/SpecNodeReq.v
theories/NodeReqProofs.v
theories/PropertiesNodeReq.v
theories/Gateway.v
theories/SpecGateway.v
theories/GatewayProofs.v
theories/ConnCut.v
theories/GatewayLinks.v
theories/GatewayStory.v
theories/GatewayNm.v
theories/GatewayMode.v
theories/GatewayIp.v
theories/GatewayNode.v
theories/GatewayTable.v
theories/GatewayUnsol.v
theories/PropertiesGateway.v
theories/SpecGatewayNm.v
theories/RemoveM.v
theories/GatewayAnswer.v
theories/NodeSendM.v
theories/GatewaySend.v
theories/PropertiesNm.v
theories/PropertiesSend.v
theories/AppM.v
theories/SpecApp.v
theories/AppProofs.v
theories/AppUpdate.v
theories/AppRace.v
theories/AppRoute.v
theories/AppStart.v
theories/AppAnnounce.v
theories/PropertiesApp.v
theories/PropertiesConn.v
theories/PropertiesFields.v
theories/PropertiesTotal.v
theories/PropertiesCodec.v
theories/SpecLayout.v
theories/LayoutProofs.v
theories/PropertiesLayout.v
theories/NodeFresh.v
theories/InterviewM.v
theories/SpecInterview.v
theories/InterviewProofs.v
theories/InterviewData.v
theories/InterviewVisit.v
theories/InterviewResult.v
theories/PropertiesInterview.v
theories/PropertiesResult.v
theories/UdpM.v
theories/SpecUdp.v
theories/UdpProofs.v
theories/PropertiesUdp.v
theories/DtlsM.v
theories/SpecDtls.v
theories/DtlsProofs.v
theories/PropertiesDtls.v
theories/ConfigM.v
theories/SpecConfig.v
theories/ConfigProofs.v
theories/PropertiesConfig.v
theories/SpecLoad.v
theories/AppLoad.v
theories/PropertiesLoad.v
theories/SpecLive.v
theories/ConnLive.v
theories/PropertiesLive.v
theories/SpecSettings.v
theories/StorageLoad.v
theories/PropertiesSettings.v
theories/SpecNodeLive.v
theories/NodeLive.v
theories/PropertiesNodeLive.v
theories/SpecGatewayLive.v
theories/GatewayLive.v
theories/GatewayPrompt.v
theories/PropertiesGatewayLive.v
theories/SystemM.v
theories/SpecSystem.v
theories/SystemFrom.v
theories/SystemProofs.v
theories/SystemAnswer.v
theories/SystemHear.v
theories/SystemReach.v
theories/PropertiesSystem.v
theories/SpecSystemLive.v
theories/SystemLive.v
theories/SystemBound.v
theories/PropertiesSystemLive.v
theories/DebugTab.v
theories/DebugM.v
theories/SpecDebug.v
theories/DebugProofs.v
theories/PropertiesDebug.v
theories/AssocM.v
theories/SpecAssoc.v
theories/AssocProofs.v
theories/AssocData.v
theories/AssocFresh.v
theories/AssocCourse.v
theories/AssocLife.v
theories/PropertiesAssoc.v
theories/SpecConnect.v
theories/GatewayConnect.v
theories/PropertiesConnect.v
theories/SpecAssocLive.v
theories/AssocLive.v
theories/PropertiesAssocLive.v
theories/StreamProofs.v
theories/PropertiesStream.v
theories/SpecInterviewLive.v
theories/InterviewLive.v
theories/PropertiesInterviewLive.v
theories/SpecGrpLive.v
theories/GrpLive.v
theories/PropertiesGrpLive.v
theories/SpecAppLive.v
theories/AppLive.v
theories/PropertiesAppLive.v
theories/ConfigRunM.v
theories/SpecConfigRun.v
theories/ConfigRun.v
theories/PropertiesConfigRun.v
theories/SpecAppShow.v
theories/AppShow.v
theories/PropertiesAppShow.v
theories/SpecMailboxTo.v
theories/MailboxTo.v
theories/PropertiesMailboxTo.v
theories/HistM.v
theories/SpecHist.v
theories/Hist.v
theories/PropertiesHist.v
theories/SpecMailboxEnd.v
theories/MailboxEnd.v
theories/PropertiesMailboxEnd.v
theories/SpecRepeat.v
theories/Repeat.v
theories/PropertiesRepeat.v
theories/SpecTableFrom.v
theories/TableFrom.v
theories/PropertiesTableFrom.v
theories/NewFrom.v
theories/PropertiesNewFrom.v
theories/SpecRelay.v
theories/Relay.v
theories/PropertiesRelay.v
theories/SpecProvision.v
theories/Provision.v
theories/PropertiesProvision.v
theories/SpecAddStatus.v
theories/AddStatus.v
theories/PropertiesAddStatus.v
theories/Embedded.v
theories/PropertiesEmbedded.v
