-Q theories Verif
theories/Base.v
theories/Codec.v
theories/State.v
theories/Pda.v
theories/TokenProg.v
theories/Cpi.v
theories/Ata.v
theories/Meta.v
theories/Processor.v
theories/Builders.v
theories/Cli.v
theories/Demo.v
theories/Tac.v
theories/CodecProofs.v
theories/PdaProofs.v
theories/PdaBytes.v
theories/TokProofs.v
theories/FrameProofs.v
theories/ProcProofs.v
theories/Spec.v
theories/SpecLemmas.v
theories/WrapProofs.v
theories/WrapProofs2.v
theories/CreateProofs.v
theories/CreateProofs2.v
theories/MapProofs.v
theories/SyncProofs.v
theories/SyncProofs2.v
theories/WireProofs.v
theories/DerivedProofs.v
theories/CreateSpec.v
theories/PropCodec.v
theories/PropPda.v
theories/PropCreate.v
theories/Demo2.v
theories/PropWrap.v
theories/CloseProofs.v
theories/MetaProofs.v
theories/SyncSpec.v
theories/SyncLive.v
theories/PropSync.v
theories/PointerProofs.v
theories/PropCanonical.v
theories/GlobalProofs.v
theories/PropGlobal.v
theories/PropClose.v
theories/InvTok.v
theories/InvCons.v
theories/HistorySpec.v
theories/HookSpec.v
theories/InvState.v
theories/InvTw.v
theories/InvHist.v
theories/EscProofs.v
theories/SolProofs.v
theories/HistProofs.v
theories/EscLive.v
theories/MatchProofs.v
theories/DemoHist.v
theories/PropHistory.v
theories/UnwrapLive.v
theories/PropRedeem.v
theories/WrapLive.v
theories/PropLive.v
theories/PropEscrow.v
theories/PropReach.v
theories/PropReach2.v
theories/BuildProofs.v
theories/PropBuilders.v
theories/CliSpec.v
theories/CliProofs.v
theories/CliCreate.v
theories/PropCli.v
theories/CliEscrow.v
theories/PropCliEscrow.v
theories/CliSign.v
theories/PropCliWrap.v
theories/PropCliUnwrap.v
theories/PropCliClose.v
theories/PropCliSync.v
theories/PropCliSyncSpl.v
theories/Js.v
theories/JsSpec.v
theories/PropJs.v
theories/PropJsTx.v
theories/PropJsUnwrap.v
theories/PropJsMulti.v
theories/PropCustom.v
theories/PropErrors.v
theories/PropNested.v
theories/PropFork.v
theories/JsAccounts.v
theories/PropDiscover.v
theories/PropTokenAccount.v
theories/PropLifecycle.v
theories/PropCustody.v
theories/PropWalkAway.v
theories/LocalSpec.v
theories/Local.v
theories/PropLocal.v
theories/CliRun.v
theories/CliRunSpec.v
theories/CliRunProofs.v
theories/PropCliRun.v
theories/OrdersSpec.v
theories/OrdersProofs.v
theories/OrdersStep.v
theories/PropOrders.v
theories/PropRun.v
theories/PropMultiLife.v
theories/JsSync.v
theories/PropJsSync.v
theories/TestHook.v
theories/PropHook.v
theories/TestMetadataOwner.v
theories/PropForeign.v
theories/Wire.v
theories/PropWire.v
theories/PropSurplus.v
theories/PropFreeze.v
theories/PropCirc.v
theories/PropPause.v
theories/PropFees.v
theories/PropDefault.v
