-Q theories Verif
theories/AtLine.v
theories/Base.v
theories/Blocking.v
theories/BlockingProofs.v
theories/BlockingProps.v
theories/CStr.v
theories/CStrProofs.v
theories/Cc1352.v
theories/CcAck.v
theories/CcCtl.v
theories/CcCtlIn.v
theories/CcDeaf.v
theories/CcDeafProps.v
theories/CcExtraProps.v
theories/CcFetch.v
theories/CcFetchProps.v
theories/CcHand.v
theories/CcHandProps.v
theories/CcHist.v
theories/CcLine.v
theories/CcLost.v
theories/CcLostProps.v
theories/CcMore.v
theories/CcProofs.v
theories/CcProps.v
theories/CcRecv.v
theories/CcReq.v
theories/CcRest.v
theories/CcRun.v
theories/CcSend.v
theories/CcSendProps.v
theories/CcSession.v
theories/CcSessionProps.v
theories/CcSpec.v
theories/CcStuck.v
theories/CcThms.v
theories/Countdown.v
theories/CountdownProps.v
theories/Detect.v
theories/DetectProofs.v
theories/DetectProps.v
theories/Dev.v
theories/DevProofs.v
theories/DevProps.v
theories/DrvActs.v
theories/DrvCommon.v
theories/DrvDeaf.v
theories/DrvFetch.v
theories/DrvHand.v
theories/DrvHist.v
theories/DrvRecv.v
theories/DrvRest.v
theories/DrvRun.v
theories/DrvSend.v
theories/DrvSession.v
theories/DrvStep.v
theories/DrvStuck.v
theories/DrvTalk.v
theories/EsAck.v
theories/EsCtl.v
theories/EsCtlIn.v
theories/EsDeaf.v
theories/EsDeafProps.v
theories/EsExtraProps.v
theories/EsFetch.v
theories/EsFetchProps.v
theories/EsFill.v
theories/EsGram.v
theories/EsGramProps.v
theories/EsHand.v
theories/EsHandProps.v
theories/EsHist.v
theories/EsLine.v
theories/EsLost.v
theories/EsLostProps.v
theories/EsMore.v
theories/EsProofs.v
theories/EsProps.v
theories/EsRecv.v
theories/EsReq.v
theories/EsRest.v
theories/EsRun.v
theories/EsSend.v
theories/EsSendProps.v
theories/EsSession.v
theories/EsSessionProps.v
theories/EsSpec.v
theories/EsStuck.v
theories/EsThms.v
theories/Espressif.v
theories/HandCheck.v
theories/LineRing.v
theories/LineRingProofs.v
theories/LineRingProps.v
theories/LineSpec.v
theories/QueueSpec.v
theories/Ring.v
theories/RingProofs.v
theories/RingProps.v
theories/Sched.v
theories/SchedProofs.v
theories/SerStep.v
theories/Serial.v
theories/SerialProofs.v
theories/SerialProps.v
theories/SerialSpec.v
theories/Session.v
theories/Sim7Ack.v
theories/Sim7Ctl.v
theories/Sim7CtlIn.v
theories/Sim7Deaf.v
theories/Sim7DeafProps.v
theories/Sim7ExtraProps.v
theories/Sim7Fetch.v
theories/Sim7FetchProps.v
theories/Sim7Hand.v
theories/Sim7HandProps.v
theories/Sim7Hist.v
theories/Sim7Line.v
theories/Sim7LockProps.v
theories/Sim7More.v
theories/Sim7Proofs.v
theories/Sim7Props.v
theories/Sim7Query.v
theories/Sim7QueryProps.v
theories/Sim7Recv.v
theories/Sim7Req.v
theories/Sim7Rest.v
theories/Sim7Run.v
theories/Sim7Send.v
theories/Sim7SendProps.v
theories/Sim7Session.v
theories/Sim7SessionProps.v
theories/Sim7SignalProps.v
theories/Sim7Spec.v
theories/Sim7Stuck.v
theories/Sim7Thms.v
theories/Sim7x00.v
theories/Sim800.v
theories/Sim8Ack.v
theories/Sim8Ctl.v
theories/Sim8CtlIn.v
theories/Sim8Deaf.v
theories/Sim8DeafProps.v
theories/Sim8ExtraProps.v
theories/Sim8Fetch.v
theories/Sim8FetchProps.v
theories/Sim8Hand.v
theories/Sim8HandProps.v
theories/Sim8Hist.v
theories/Sim8Line.v
theories/Sim8LockProps.v
theories/Sim8More.v
theories/Sim8Proofs.v
theories/Sim8Props.v
theories/Sim8Query.v
theories/Sim8QueryProps.v
theories/Sim8Recv.v
theories/Sim8Req.v
theories/Sim8Rest.v
theories/Sim8Run.v
theories/Sim8Send.v
theories/Sim8SendProps.v
theories/Sim8Session.v
theories/Sim8SessionProps.v
theories/Sim8SignalProps.v
theories/Sim8Spec.v
theories/Sim8Stuck.v
theories/Sim8Thms.v
theories/SimDev.v
theories/SimHand.v
theories/SimLog.v
theories/SimParse.v
theories/SimProofs.v
theories/SimQuery.v
theories/SimSpec.v
theories/Stm32.v
theories/Stm32Proofs.v
theories/Stm32Props.v
theories/Sym.v
theories/TaskMacros.v
theories/TaskProofs.v
theories/TaskProps.v
theories/TaskSpec.v
theories/Tick.v
theories/TickProps.v
theories/UnixPort.v
theories/UnixPortProps.v
theories/UnixProps.v
theories/UnixSerial.v
