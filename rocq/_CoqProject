-Q theories Verif
theories/Base.v
theories/CircBuf.v
theories/CircBufProofs.v
theories/SpecRing.v
theories/RingRefine.v
theories/PropRing.v
theories/ListHeap.v
theories/SeqList.v
theories/ListHeapProofs.v
theories/SpecList.v
theories/ListRefine.v
theories/PropList.v
theories/Pub.v
theories/SpecPub.v
theories/PubProofs.v
theories/PubTrace.v
theories/PropPub.v
theories/Sub.v
theories/SpecSub.v
theories/SubProofs.v
theories/SubTrace.v
theories/PropSub.v
theories/Wire.v
theories/Proto.v
theories/SpecProto.v
theories/ProtoProofs.v
theories/PropProto.v
theories/Conn.v
theories/SpecConn.v
theories/ConnProofs.v
theories/PropConn.v
theories/Safe.v
theories/PubCtx.v
theories/SpecPubCtx.v
theories/PubCtxProofs.v
theories/PubCtxSteps.v
theories/PubCtxOwed.v
theories/PropPubCtx.v
theories/PropPubFlow.v
theories/PropPubTime.v
theories/PropPubMem.v
theories/SubCtx.v
theories/SpecSubCtx.v
theories/SubSteps.v
theories/SubMem.v
theories/SubDecomp.v
theories/SubInv.v
theories/PropSubCtx.v
theories/PropSubConn.v
theories/PropSubMem.v
theories/PropSubDeliver.v
theories/PropSubAck.v
theories/ProtoRead.v
theories/SubRecv.v
theories/PropSubRecv.v
theories/SpecPubRecv.v
theories/PubRecv.v
theories/PropPubRecv.v
theories/SpecSys.v
theories/SysProofs.v
theories/PropSys.v
theories/PropSysRun.v
theories/PropOnce.v
theories/SpecPoll.v
theories/PollPub.v
theories/PollMcast.v
theories/PropPoll.v
theories/PollSub.v
theories/PropPollSub.v
theories/SpecDesc.v
theories/Desc.v
theories/DescSub.v
theories/PropDesc.v
theories/PropCall.v
theories/PropCount.v
theories/PropTotal.v
theories/PropTotalSub.v
theories/PropRead.v
theories/PropAckOrder.v
theories/PropGuests.v
theories/PropDrain.v
theories/PropRecover.v
theories/Log.v
theories/PropLog.v
theories/Dissect.v
theories/PropDissect.v
theories/Setup.v
theories/PropSetup.v
theories/PropActivate.v
theories/Epoll.v
theories/SpecEpoll.v
theories/EpollProofs.v
theories/EpollPub.v
theories/EpollSub.v
theories/PropEpoll.v
theories/TestPeers.v
theories/SpecPeers.v
theories/PeersProofs.v
theories/PropPeers.v
theories/PropRecords.v
theories/Loop.v
theories/SpecLoop.v
theories/LoopPub.v
theories/LoopSub.v
theories/PropLoop.v
theories/SpecCbs.v
theories/PropCbs.v
theories/SpecCtrl.v
theories/CtrlSub.v
theories/CtrlPub.v
theories/PropCtrl.v
theories/PropIso.v
theories/Program.v
theories/PropProgram.v
theories/SubProgram.v
theories/PropSubProgram.v
theories/SpecDoc.v
theories/PropDoc.v
theories/Options.v
theories/PropOptions.v
