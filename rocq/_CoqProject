-Q theories Verif
theories/Prelude.v
theories/PreludeFacts.v
theories/Window.v
theories/WindowProofs.v
theories/Types.v
theories/Codec.v
theories/CodecProofs.v
theories/Codec12.v
theories/Codec13.v
theories/Monad.v
theories/MonadFacts.v
theories/SeqRecon.v
theories/Timer.v
theories/Env.v
theories/Config.v
theories/Aead.v
theories/Prf.v
theories/Context12.v
theories/Record12.v
theories/Engine12.v
theories/Client12.v
theories/Record13.v
theories/Engine13.v
theories/Client13.v
theories/Server13.v
theories/Server12.v
theories/Toy.v
theories/Sim12.v
theories/Sim13.v
theories/Engine12Frame.v
theories/Send12Proofs.v
theories/View12.v
theories/Evidence12.v
theories/History12.v
theories/History13.v
theories/Conn12.v
theories/History12Facts.v
theories/Queue12Proofs.v
theories/EndFrame12.v
theories/ClientInv12.v
theories/ClientStep12.v
theories/ServerInv12.v
theories/ServerStep12.v
theories/Rx12Proofs.v
theories/Poll12Proofs.v
theories/Timer12Proofs.v
theories/Wait12Proofs.v
theories/Tx12Proofs.v
theories/Ledger12.v
theories/Lift12.v
theories/Step12.v
theories/Keys12.v
theories/Rx12Ledger.v
theories/Rx12Facts.v
theories/Open12.v
theories/Rx12Runs.v
theories/PropRx12.v
theories/Frag12Proofs.v
theories/Events12.v
theories/Auth12.v
theories/Done12.v
theories/Runs12.v
theories/AuxProofs.v
theories/Spec.v
theories/Codec12Proofs.v
theories/Record12Proofs.v
theories/PropWindow.v
theories/PropCodec12.v
theories/PropAux.v
theories/PropPoll12.v
theories/PropHs12.v
theories/PropTimer12.v
theories/PropWire12.v
theories/Spec13.v
theories/Record13Proofs.v
theories/Codec13Proofs.v
theories/PropCodec13.v
theories/Frame13.v
theories/Lift13.v
theories/Conn13.v
theories/Send13Proofs.v
theories/Rx13Proofs.v
theories/Poll13Proofs.v
theories/PropPoll13.v
theories/PropSplit.v
theories/Trace13.v
theories/Trace13Proofs.v
theories/Index13.v
theories/PropHrr13.v
theories/PropUsage13.v
theories/PropRx13.v
theories/Auto.v
theories/AutoProofs.v
theories/Out13.v
theories/Nonce13.v
theories/NonceState13.v
theories/PropNonce13.v
theories/Reasm.v
theories/PropReasm.v
theories/PropOrder.v
theories/PropForge13.v
theories/PropAuto.v
theories/PropAutoRuns.v
theories/Open13.v
theories/Fin13.v
theories/KeyUpd13.v
theories/Est13.v
theories/Recv13.v
theories/Alert13.v
theories/PropAlert13.v
theories/Early13.v
theories/Close13.v
theories/PropClose13.v
theories/Phase12.v
theories/Mtu12.v
theories/Cookie12.v
theories/PropCookie12.v
theories/PropMtu12.v
theories/Cookie13.v
theories/PropCookie13.v
theories/Loops.v
theories/PropLoops.v
theories/Flight12.v
theories/PropFlight12.v
theories/PropGroup12.v
theories/Garbage13.v
theories/PropGarbage13.v
theories/PropKeyUpdate13.v
theories/NoTime13.v
theories/Timer13Proofs.v
theories/Wait13Proofs.v
theories/PropTimer13.v
theories/Mtu13.v
theories/Wire13.v
theories/PropWire13.v
theories/PropAck13.v
theories/PropCert13.v
theories/Evidence13.v
theories/HsEng13.v
theories/ClientInv13.v
theories/ClientStep13.v
theories/ClientDone13.v
theories/ServerStep13.v
theories/ServerDone13.v
theories/User13.v
theories/UserState13.v
theories/PropUser13.v
theories/PropSeal13.v
theories/PropHs13.v
theories/PropReneg12.v
theories/NoPanic12.v
theories/NoPanic13.v
theories/NoPanic13End.v
theories/PropPanic12.v
theories/PropPanic13.v
theories/PropTxFull.v
theories/PropPollPanic.v
