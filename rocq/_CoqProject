-Q theories Verif
theories/Base.v
theories/BaseFacts.v
theories/WireModel.v
theories/SpecWire.v
theories/WireFacts.v
theories/SpecHeader.v
theories/UnpackFacts.v
theories/JsonModel.v
theories/JsonFacts.v
theories/Demo.v
theories/ReaderModel.v
theories/SpecReader.v
theories/ReaderFacts.v
theories/WireProofs.v
theories/PropWire.v
theories/ReaderProofs.v
theories/PropReader.v
theories/ChainModel.v
theories/SpecChain.v
theories/ChainFacts.v
theories/ChainProofs.v
theories/PropChain.v
theories/MuxModel.v
theories/SpecMux.v
theories/MuxFacts.v
theories/MuxPlan.v
theories/MuxProofs.v
theories/PropMux.v
theories/StrModel.v
theories/SpecStr.v
theories/StrProofs.v
theories/PropStr.v
theories/ClientModel.v
theories/SpecClient.v
theories/ClientProofs.v
theories/PropClient.v
theories/CtxModel.v
theories/SpecCtx.v
theories/CtxFacts.v
theories/CtxProofs.v
theories/PropCtx.v
theories/PoolModel.v
theories/SpecPool.v
theories/PoolFacts.v
theories/PoolProofs.v
theories/PropPool.v
theories/WatchModel.v
theories/SpecWatch.v
theories/WatchProofs.v
theories/PropWatch.v
theories/LifeModel.v
theories/SpecLife.v
theories/LifeProofs.v
theories/PropLife.v
theories/ServerModel.v
theories/SpecServer.v
theories/ServerProofs.v
theories/PropServer.v
theories/BindModel.v
theories/SpecEnd.v
theories/EndProofs.v
theories/PropEnd.v
theories/LoopModel.v
theories/SpecLoop.v
theories/LoopProofs.v
theories/PropLoop.v
theories/RawProofs.v
theories/PropRaw.v
theories/SpecRace.v
theories/RaceProofs.v
theories/PropRace.v
theories/StateModel.v
theories/SpecState.v
theories/StateProofs.v
theories/PropState.v
theories/ChanModel.v
theories/SpecChan.v
theories/ChanProofs.v
theories/PropChan.v
theories/DeadModel.v
theories/SpecDead.v
theories/DeadProofs.v
theories/PropDead.v
theories/RegModel.v
theories/SpecReg.v
theories/RegProofs.v
theories/PropReg.v
theories/UdpModel.v
theories/SpecUdp.v
theories/UdpProofs.v
theories/PropUdp.v
theories/GorModel.v
theories/SpecGor.v
theories/GorProofs.v
theories/PropGor.v
theories/SpecBeat.v
theories/BeatProofs.v
theories/PropBeat.v
theories/SpecTalk.v
theories/TalkProofs.v
theories/PropTalk.v
theories/AllocModel.v
theories/SpecAlloc.v
theories/AllocProofs.v
theories/PropAlloc.v
theories/OrderModel.v
theories/SpecOrder.v
theories/OrderProofs.v
theories/PropOrder.v
theories/ExitModel.v
theories/SpecExit.v
theories/ExitProofs.v
theories/PropExit.v
theories/ListenModel.v
theories/SpecListen.v
theories/ListenProofs.v
theories/PropListen.v
theories/CallModel.v
theories/SpecCall.v
theories/CallProofs.v
theories/PropCall.v
theories/SliceModel.v
theories/SpecSlice.v
theories/SliceProofs.v
theories/PropSlice.v
theories/UrlMuxModel.v
theories/SpecUrlMux.v
theories/UrlMuxProofs.v
theories/PropUrlMux.v
theories/AccessModel.v
theories/SpecAccess.v
theories/AccessFacts.v
theories/FieldModel.v
theories/SpecField.v
theories/FieldProofs.v
theories/PropField.v
theories/CtxFieldModel.v
theories/CtxFieldProofs.v
theories/PropCtxField.v
theories/ResetModel.v
theories/SpecReset.v
theories/ResetProofs.v
theories/PropReset.v
theories/PanicModel.v
theories/SpecPanic.v
theories/PanicProofs.v
theories/PropPanic.v
theories/LogModel.v
theories/SpecLog.v
theories/LogProofs.v
theories/PropLog.v
theories/ToolModel.v
theories/SpecTool.v
theories/ToolProofs.v
theories/PropTool.v
theories/GuardModel.v
theories/SpecGuard.v
theories/GuardProofs.v
theories/PropGuard.v
theories/ChatModel.v
theories/SpecChat.v
theories/ChatProofs.v
theories/PropChat.v
theories/ByteModel.v
theories/ByteProofs.v
theories/PropByte.v
theories/SignModel.v
theories/SpecSign.v
theories/SignProofs.v
theories/PropSign.v
theories/ShowModel.v
theories/SpecShow.v
theories/ShowProofs.v
theories/PropShow.v
theories/HelloModel.v
theories/SpecHello.v
theories/HelloProofs.v
theories/PropHello.v
theories/LinModel.v
theories/SpecLin.v
theories/LinProofs.v
theories/PropLin.v
theories/SendModel.v
theories/SpecSend.v
theories/SendProofs.v
theories/PropSend.v
theories/EchoModel.v
theories/SpecEcho.v
theories/EchoProofs.v
theories/PropEcho.v
theories/PresModel.v
theories/SpecPres.v
theories/PresProofs.v
theories/PropPres.v
theories/LoginModel.v
theories/SpecLogin.v
theories/LoginProofs.v
theories/PropLogin.v
theories/WorldModel.v
theories/SpecWorld.v
theories/WorldProofs.v
theories/PropWorld.v
theories/PulseModel.v
theories/SpecPulse.v
theories/PulseProofs.v
theories/PropPulse.v
theories/GraceModel.v
theories/SpecGrace.v
theories/GraceProofs.v
theories/PropGrace.v
theories/ConformTests.v
theories/WhereModel.v
theories/SpecWhere.v
theories/WhereProofs.v
theories/PropWhere.v
theories/TlsModel.v
theories/TlsProofs.v
theories/PropTls.v
theories/SpecAgree.v
theories/AgreeProofs.v
theories/PropAgree.v
theories/ShareModel.v
theories/SpecShare.v
theories/ShareProofs.v
theories/PropShare.v
theories/FineModel.v
theories/SpecFine.v
theories/FineProofs.v
theories/PropFine.v
theories/DirectModel.v
theories/SpecDirect.v
theories/DirectProofs.v
theories/PropDirect.v
theories/BareModel.v
theories/SpecBare.v
theories/BareProofs.v
theories/PropBare.v
theories/PyModel.v
theories/SpecPy.v
theories/PyProofs.v
theories/PropPy.v
theories/ProtoModel.v
theories/SpecProto.v
theories/ProtoProofs.v
theories/PropProto.v
theories/SayModel.v
theories/SpecSay.v
theories/SayProofs.v
theories/PropSay.v
theories/PostModel.v
theories/SpecPost.v
theories/PostProofs.v
theories/PropPost.v
theories/UrlSrvModel.v
theories/SpecUrlSrv.v
theories/UrlSrvProofs.v
theories/PropUrlSrv.v
theories/SpecAmp.v
theories/AmpProofs.v
theories/PropAmp.v
theories/GexModel.v
theories/SpecGex.v
theories/GexProofs.v
theories/PropGex.v
theories/AnsModel.v
theories/SpecAns.v
theories/AnsProofs.v
theories/PropAns.v
theories/SpecRelay.v
theories/RelayProofs.v
theories/PropRelay.v
