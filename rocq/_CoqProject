-Q theories Verif
theories/Base.v
theories/Nodes.v
theories/OrderTree.v
theories/BookSide.v
theories/Heap.v
theories/Market.v
theories/OpenOrders.v
theories/Order.v
theories/Book.v
theories/Instructions.v
theories/BaseFacts.v
theories/NodesFacts.v
theories/HeapFacts.v
theories/BitFacts.v
theories/TreeRep.v
theories/TreeFacts.v
theories/TreeOps.v
theories/TreeIter.v
theories/BookSideFacts.v
theories/BookSideOrder.v
theories/SpecBook.v
theories/BookSpecProofs.v
theories/SpecIter.v
theories/IterFacts.v
theories/PropsBook.v
theories/SpecHeap.v
theories/HeapSpecProofs.v
theories/PropsHeap.v
theories/SpecFees.v
theories/SpecOrder.v
theories/MatchFacts.v
theories/MatchBook.v
theories/FeeFacts.v
theories/OrderFacts.v
theories/PlaceFacts.v
theories/OrderSpecProofs.v
theories/OrderClaims.v
theories/Steps.v
theories/StepFacts.v
theories/TokenFacts.v
theories/SpecLedger.v
theories/SpecEvents.v
theories/Ledger.v
theories/LedgerOps.v
theories/LedgerMoves.v
theories/LedgerPlace.v
theories/LedgerOrder.v
theories/LedgerInv.v
theories/SpecSystem.v
theories/SystemFacts.v
theories/Solvency.v
theories/ConsumeFacts.v
theories/CancelFacts.v
theories/SpecControl.v
theories/ControlFacts.v
theories/LifeFacts.v
theories/IdFacts.v
theories/AuthFacts.v
theories/IdentFacts.v
theories/EndFacts.v
theories/SystemProofs.v
theories/Samples.v
theories/PropsSystem.v
theories/OrderRefutes.v
theories/PropsOrder.v
theories/SpecInstr.v
theories/InstrFacts.v
theories/FeeProofs.v
theories/PropsFees.v
theories/SpecMore.v
theories/FeeGap.v
theories/MoreFacts.v
theories/PropsMore.v
theories/Oracle.v
theories/SpecOracle.v
theories/FloatFacts.v
theories/OracleFacts.v
theories/PriceFacts.v
theories/OracleUse.v
theories/OracleProofs.v
theories/PropsOracle.v
theories/Client.v
theories/ClientFacts.v
theories/SpecClient.v
theories/ClientProofs.v
theories/QuoteProofs.v
theories/PropsClient.v
theories/SpecMatch.v
theories/MatchDone.v
theories/PropsMatch.v
theories/SpecPersist.v
theories/PersistFacts.v
theories/PropsPersist.v
theories/SpecWind.v
theories/LockFacts.v
theories/WindFacts.v
theories/PropsWind.v
theories/QuietFacts.v
theories/SpecMulti.v
theories/MultiFacts.v
theories/PropsMulti.v
theories/FuelFacts.v
theories/PropsFuel.v
theories/LiveFacts.v
theories/LivePlace.v
theories/LiveOrder.v
theories/SpecLive.v
theories/LiveIx.v
theories/LiveEdit.v
theories/LivePay.v
theories/PropsLive.v
theories/SpecTrade.v
theories/TradeFacts.v
theories/TradeIx.v
theories/PropsTrade.v
theories/SpecDeal.v
theories/DealFacts.v
theories/PropsDeal.v
theories/SpecFit.v
theories/FitFacts.v
theories/FitIx.v
theories/PropsFit.v
theories/SpecDefer.v
theories/DeferFacts.v
theories/DeferOrder.v
theories/DeferPlace.v
theories/DeferRuns.v
theories/DeferIx.v
theories/PropsDefer.v
theories/SpecExit.v
theories/ExitFacts.v
theories/PropsExit.v
theories/SpecWorth.v
theories/WorthFacts.v
theories/WorthSteps.v
theories/WorthRuns.v
theories/WorthIx.v
theories/PropsWorth.v
theories/Logs.v
theories/SpecLogs.v
theories/LogFacts.v
theories/LogOrder.v
theories/LogTally.v
theories/LogSteps.v
theories/LogProofs.v
theories/LogMoney.v
theories/LogSamples.v
theories/PropsLogs.v
theories/SpecOwn.v
theories/OwnFacts.v
theories/OwnRuns.v
theories/OwnIx.v
theories/PropsOwn.v
theories/Sol.v
theories/SpecSol.v
theories/SolFacts.v
theories/SolProofs.v
theories/PropsSol.v
theories/Program.v
theories/SpecProgram.v
theories/ProgFacts.v
theories/IndexFacts.v
theories/ProgramProofs.v
theories/ProgSamples.v
theories/PropsProgram.v
theories/ChainData.v
theories/SpecChain.v
theories/ChainFacts.v
theories/ChainInv.v
theories/ChainTrack.v
theories/ChainProofs.v
theories/ChainEnds.v
theories/PropsChain.v
theories/Ts.v
theories/SpecTs.v
theories/TsFacts.v
theories/TsMore.v
theories/TsSend.v
theories/PropsTs.v
theories/Fetch.v
theories/SpecFetch.v
theories/FetchFacts.v
theories/PropsFetch.v
theories/RClient.v
theories/SpecRust.v
theories/RClientFacts.v
theories/PropsRust.v
theories/Find.v
theories/Bytes.v
theories/SpecBytes.v
theories/BytesFacts.v
theories/BytesDec.v
theories/BytesOn.v
theories/PropsBytes.v
theories/FindOo.v
theories/SpecFindOo.v
theories/FindOoFacts.v
theories/FindOoSamples.v
theories/PropsFindOo.v
theories/Units.v
theories/SpecUnits.v
theories/UnitsFacts.v
theories/PropsUnits.v
theories/Stub.v
theories/SpecStub.v
theories/StubFacts.v
theories/StubSamples.v
theories/PropsStub.v
theories/TsKeep.v
theories/TsKeepFacts.v
theories/PropsTsKeep.v
theories/UnitsMkt.v
theories/UnitsMktFacts.v
theories/PropsUnitsMkt.v
theories/TsNative.v
theories/TsNativeFacts.v
theories/PropsTsNative.v
theories/TsOpen.v
theories/TsOpenFacts.v
theories/PropsTsOpen.v
theories/SpecCreate.v
theories/CreateFacts.v
theories/PropsCreate.v
theories/SpecAgain.v
theories/Again.v
theories/AgainFacts.v
theories/AgainProofs.v
theories/PropsAgain.v
