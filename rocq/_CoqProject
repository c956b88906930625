-Q theories Verif
theories/Bytes.v
theories/BytesFacts.v
theories/Codec.v
theories/CodecProofs.v
theories/Status.v
theories/StatusProofs.v
theories/Transport.v
theories/TransportProofs.v
theories/SpecCodec.v
theories/CodecHist.v
theories/Parse.v
theories/ParseProofs.v
theories/Algo.v
theories/MsgConn.v
theories/MsgAuth.v
theories/MsgSession.v
theories/MsgOther.v
theories/Message.v
theories/Opaque.v
theories/Monad.v
theories/Crypto.v
theories/KeySchedule.v
theories/Session.v
theories/SpecMsg.v
theories/MsgProofs.v
theories/MsgRound.v
theories/MsgRound2.v
theories/SpecOpaque.v
theories/OpaqueProofs.v
theories/MsgLocal.v
theories/MsgCaps.v
theories/PropMsg.v
theories/PropCodec.v
theories/PropOpaque.v
theories/Signing.v
theories/SpecSession.v
theories/SessionProofs.v
theories/NonceProofs.v
theories/SignProofs.v
theories/ToyCrypto.v
theories/PropSession.v
theories/CertOps.v
theories/Context.v
theories/RspBase.v
theories/RspConn.v
theories/ChainVerify.v
theories/RspSess.v
theories/RspEncap.v
theories/Responder.v
theories/StRel.v
theories/RspFrame.v
theories/RspCalm.v
theories/RspOpcode.v
theories/RspSend.v
theories/SpecResponder.v
theories/RspPhase.v
theories/RspPass.v
theories/RspSize.v
theories/RspSlots.v
theories/PropPhase.v
theories/RspTable.v
theories/RspIso.v
theories/SpecFinish.v
theories/RspEst.v
theories/ExRun.v
theories/PropTable.v
theories/RspDeliver.v
theories/PropReset.v
theories/RspRefuse.v
theories/PropSess.v
theories/PropDigest.v
theories/X509.v
theories/SpecDer.v
theories/X509Proofs.v
theories/PropCert.v
theories/ReqBase.v
theories/ReqConn.v
theories/ReqSess.v
theories/SpecReq.v
theories/ReqFrame.v
theories/ReqAnswer.v
theories/Pair.v
theories/ExPair.v
theories/PropReq.v
theories/SpecAuth.v
theories/ReqTrans.v
theories/ReqSplit.v
theories/ReqHist.v
theories/ReqAuth.v
theories/ExReach.v
theories/PropAuth.v
theories/ReqTable.v
theories/ReqOpen.v
theories/PropReqTable.v
theories/ReqMeas.v
theories/SpecKeys.v
theories/KeyProofs.v
theories/PropKeys.v
theories/PropAlgs.v
theories/SpecHand.v
theories/ReqHand.v
theories/ReqHand2.v
theories/ReqHand3.v
theories/PropHand.v
theories/PropLeak.v
theories/PropVersion.v
theories/PropOffer.v
theories/SpecRetr.v
theories/ReqChain.v
theories/PropRetr.v
theories/PropStall.v
theories/PropFetch.v
theories/PropServe.v
theories/SpecPair.v
theories/RspPair.v
theories/PropStep.v
theories/Tdisp.v
theories/SpecTdisp.v
theories/PropTdisp.v
theories/Transcript.v
theories/SpecTranscript.v
theories/PropTranscript.v
theories/RspPeer.v
theories/SpecEncap.v
theories/ExEncap.v
theories/PropEncap.v
theories/PropEncap2.v
theories/SpecShare.v
theories/RspCfg.v
theories/Twin.v
theories/ReqTwin.v
theories/RspTwin.v
theories/WireTwin.v
theories/PairTwin.v
theories/SecTwin.v
theories/FinTwin.v
theories/PropShare.v
theories/ConnTwin.v
theories/PropConn.v
theories/SpecReply.v
theories/PropReply.v
theories/SpecGiven.v
theories/PropReply3.v
theories/RspTrans.v
theories/PropReply2.v
theories/PropTake.v
theories/KxTwin.v
theories/KxWire.v
theories/KxPair.v
theories/KxFin.v
theories/PropKx.v
theories/ReqEncap.v
theories/SpecMut.v
theories/PropMut.v
theories/ExMut.v
theories/PropMut2.v
theories/SpecConnect.v
theories/ConnRuns.v
theories/ConnRuns2.v
theories/ConnRuns3.v
theories/PropConnect.v
theories/PropStale.v
theories/EcdsaDer.v
theories/SpecEcdsa.v
theories/PropEcdsa.v
theories/HashCtx.v
theories/SpecHashCtx.v
theories/PropHashCtx.v
theories/GetRandom.v
theories/PropRandom.v
theories/PropArgs.v
theories/PropVendor.v
theories/PropKxReply.v
theories/PropPskReply.v
theories/PropPskFresh.v
theories/PropCrash.v
