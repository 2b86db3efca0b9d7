-Q theories Verif
theories/Base.v
theories/ParseBuffer.v
theories/Buffer.v
theories/Codes.v
theories/Extensions.v
theories/Crypto.v
theories/KeySchedule.v
theories/Config.v
theories/Handshake.v
theories/Record.v
theories/WriteBuffer.v
theories/Transport.v
theories/RecordReader.v
theories/ReadBuffer.v
theories/Connection.v
theories/Api.v
theories/Pki.v
theories/WebPki.v
theories/Split.v
theories/BaseProofs.v
theories/Toy.v
theories/ParseProofs.v
theories/SpecWire.v
theories/SpecCodes.v
theories/SpecMessages.v
theories/PropCodes.v
theories/WireProofs.v
theories/ExtProofs.v
theories/PropParse.v
theories/BufferProofs.v
theories/SpecBuffer.v
theories/PropBuffer.v
theories/SpecKeys.v
theories/KeyProofs.v
theories/PropKeys.v
theories/WriteProofs.v
theories/SpecHello.v
theories/HelloProofs.v
theories/PropHello.v
theories/SpaceProofs.v
theories/PropCert.v
theories/SpecRecord.v
theories/RecordProofs.v
theories/SpecSend.v
theories/SendProofs.v
theories/HsWrite.v
theories/HsProofs.v
theories/ToyRun.v
theories/ConnProofs.v
theories/PropSend.v
theories/FlagProofs.v
theories/SpecSession.v
theories/PropSession.v
theories/PropWrite.v
theories/SpecRead.v
theories/FrameProofs.v
theories/PropFrame.v
theories/DecryptProofs.v
theories/ReadProofs.v
theories/RecvProofs.v
theories/ServeProofs.v
theories/PropRead.v
theories/PropRecv.v
theories/SpecHandshake.v
theories/AcceptProofs.v
theories/LocalProofs.v
theories/SpecComplete.v
theories/MessageProofs.v
theories/FlightProofs.v
theories/OpenProofs.v
theories/ToyServer.v
theories/PropHandshake.v
theories/SpecOpen.v
theories/TermProofs.v
theories/AbortProofs.v
theories/PropOpen.v
theories/SpecPki.v
theories/NameProofs.v
theories/Utf8Proofs.v
theories/PkiProofs.v
theories/VerifyProofs.v
theories/ToyPki.v
theories/PropPki.v
theories/SpecSplit.v
theories/SplitProofs.v
theories/PropSplit.v
theories/SpecConfig.v
theories/PropConfig.v
theories/CompleteProofs.v
theories/PropComplete.v
theories/SpecPanic.v
theories/PanicProofs.v
theories/PropPanic.v
theories/Providers.v
theories/SpecProviders.v
theories/ProviderProofs.v
theories/PropProviders.v
theories/PropViews.v
theories/SpecFailure.v
theories/FailureProofs.v
theories/CaseProofs.v
theories/PropFailure.v
theories/SpecReceiver.v
theories/ReceiverProofs.v
theories/ListenProofs.v
theories/PropReceiver.v
theories/SpecEndpoint.v
theories/EndpointProofs.v
theories/PropEndpoint.v
theories/SpecChunk.v
theories/ChunkProofs.v
theories/PropChunk.v
theories/SpecServer.v
theories/ServerProofs.v
theories/PropServer.v
theories/Lib.v
theories/SpecFaults.v
theories/FaultProofs.v
theories/PropFaults.v
theories/SpecAgree.v
theories/AgreeProofs.v
theories/PropAgree.v
theories/SpecAuthority.v
theories/PropAuthority.v
theories/SpecVeil.v
theories/PropVeil.v
theories/Loops.v
theories/SpecLoops.v
theories/PropLoops.v
theories/SpecSizes.v
theories/PropSizes.v
theories/SpecCut.v
theories/PropCut.v
theories/SpecOffers.v
theories/PropOffers.v
theories/SpecFragments.v
theories/PropFragments.v
theories/PropFirst.v
theories/SpecAnswer.v
theories/AnswerProofs.v
theories/PropAnswer.v
theories/SpecUpdate.v
theories/PropUpdate.v
theories/SpecInterrupt.v
theories/InterruptProofs.v
theories/PropInterrupt.v
theories/SpecNumbers.v
theories/NumberProofs.v
theories/PropNumbers.v
theories/PropImpostor.v
theories/PropClear.v
theories/SpecReopen.v
theories/ReopenProofs.v
theories/PropReopen.v
theories/PropDuplex.v
theories/SpecRetry.v
theories/PropRetry.v
theories/PropStrict.v
theories/PropDeclined.v
theories/PropEnd.v
theories/PropCrash.v
theories/SpecCodec.v
theories/PropCodec.v
theories/PropExact.v
theories/Unused.v
theories/PropUnused.v
theories/SpecWait.v
theories/WaitProofs.v
theories/PropWait.v
theories/SpecStale.v
theories/StaleProofs.v
theories/PropStale.v
theories/SpecDefect.v
theories/DefectProofs.v
theories/PropDefect.v
theories/SpecUnopened.v
theories/UnopenedProofs.v
theories/PropUnopened.v
