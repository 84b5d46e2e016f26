-Q theories Verif
theories/Base.v
theories/BaseFacts.v
theories/FetcherModel.v
theories/FetcherSpec.v
theories/FetcherProofs.v
theories/PropsFetcher.v
theories/PipelineBase.v
theories/AdaptiveModel.v
theories/PipelineSpec.v
theories/AdaptiveProofs.v
theories/AdaptiveInv.v
theories/AdaptiveInv2.v
theories/ConsumerModel.v
theories/ConsumerSpec.v
theories/ConsumerProofs.v
theories/AdaptiveFlight.v
theories/CatchunksModel.v
theories/CatchunksSpec.v
theories/CatchunksProofs.v
theories/AdaptiveTheorems.v
theories/AdaptiveWitness.v
theories/AdaptiveSummary.v
theories/PropsAdaptive.v
theories/PropsConsumer.v
theories/FixedModel.v
theories/FixedSpec.v
theories/FixedProofs.v
theories/FixedInv.v
theories/FixedInv2.v
theories/FixedInv3.v
theories/FixedInv4.v
theories/FixedTheorems.v
theories/PropsFixed.v
theories/TlvModel.v
theories/TlvProofs.v
theories/PutchunksModel.v
theories/DiscoverModel.v
theories/PutchunksSpec.v
theories/PutchunksProofs.v
theories/DiscoverSpec.v
theories/DiscoverProofs.v
theories/ChunksTheorems.v
theories/PropsChunks.v
theories/PingModel.v
theories/PingSpec.v
theories/PingProofs.v
theories/PropsPing.v
theories/Double.v
theories/PingStatsModel.v
theories/PingStatsSpec.v
theories/PingStatsProofs.v
theories/PingStatsProofs2.v
theories/PropsPingStats.v
theories/WindowModel.v
theories/WindowProofs.v
theories/AdaptiveWindow.v
theories/WindowTheorems.v
theories/PropsWindow.v
theories/PeekModel.v
theories/PeekProofs.v
theories/PropsPeek.v
theories/DumpModel.v
theories/DumpSpec.v
theories/DumpProofs.v
theories/DumpProofs2.v
theories/PropsDump.v
theories/DissectModel.v
theories/DissectSpec.v
theories/DissectProofs.v
theories/DissectProofs2.v
theories/PropsDissect.v
theories/OptionsModel.v
theories/OptionsSpec.v
theories/OptionsProofs.v
theories/OptionsTheorems.v
theories/ThroughputModel.v
theories/ThroughputProofs.v
theories/PropsOptions.v
theories/ProgressSpec.v
theories/AdaptiveProgress.v
theories/AdaptiveLive.v
theories/ProgressWitness.v
theories/ProgressWindow.v
theories/FixedEndSpec.v
theories/FixedEnd.v
theories/FixedEndWitness.v
theories/PropsProgress.v
theories/ExitModel.v
theories/ExitProofs.v
theories/ExitProofs2.v
theories/ExitTheorems.v
theories/PropsExit.v
theories/DumpSpec2.v
theories/DumpProofs3.v
theories/PropsDump2.v
theories/RateSpec.v
theories/RateProofs.v
theories/RateLog.v
theories/PropsRate.v
theories/WiresharkModel.v
theories/WiresharkSpec.v
theories/WiresharkProofs.v
theories/WiresharkProofs2.v
theories/WiresharkProofs3.v
theories/WiresharkProofs4.v
theories/WiresharkProofs5.v
theories/WiresharkProofs6.v
theories/WiresharkProofs7.v
theories/WiresharkProofs8.v
theories/WiresharkProofs9.v
theories/WiresharkSummaryModel.v
theories/WiresharkSummarySpec.v
theories/WiresharkSummaryShape.v
theories/WiresharkSummaryProofs.v
theories/WiresharkSummaryProofs2.v
theories/PropsWireshark.v
theories/PropsWiresharkSummary.v
theories/PeekPokeModel.v
theories/PeekPokeSpec.v
theories/PeekPokeProofs.v
theories/PropsPeekPoke.v
theories/DecimalModel.v
theories/DecimalSpec.v
theories/DecimalProofs.v
theories/PingTextModel.v
theories/PingTextSpec.v
theories/PingTextProofs.v
theories/PingTextProofs2.v
theories/PropsPingText.v
theories/ChunksTextModel.v
theories/ChunksTextSpec.v
theories/ChunksTextProofs.v
theories/ChunksTextProofs2.v
theories/ChunksTextProofs3.v
theories/ChunksTextFixed.v
theories/ChunksTextCase.v
theories/PropsChunksText.v
theories/AdaptiveEnd.v
theories/FixedEndLoss.v
theories/TransferTheorems.v
theories/TransferWitness.v
theories/PropsTransfer.v
theories/ServeModel.v
theories/ServeSpec.v
theories/ServeProofs.v
theories/ServeProofs2.v
theories/PropsServe.v
theories/PeekWireModel.v
theories/PeekWireSpec.v
theories/PeekWireProofs.v
theories/PropsPeekWire.v
theories/DumpRunModel.v
theories/DumpRunSpec.v
theories/DumpRunProofs.v
theories/DumpRunProofs2.v
theories/PropsDumpRun.v
theories/DissectRunModel.v
theories/DissectRunSpec.v
theories/DissectRunProofs.v
theories/DissectPipe.v
theories/PropsDissectRun.v
theories/PeekRunModel.v
theories/PeekRunSpec.v
theories/PeekRunProofs.v
theories/PropsPeekRun.v
theories/CatMsgModel.v
theories/CatLinesSpec.v
theories/CatLines.v
theories/CatLinesFixed.v
theories/CatFailSpec.v
theories/CatFail.v
theories/CatFailFixed.v
theories/CatFailAdaptive.v
theories/CatFailDisc.v
theories/PropsCatLines.v
theories/CatRunModel.v
theories/CatRunSpec.v
theories/CatRunProofs.v
theories/PropsCatRun.v
theories/TimesSpec.v
theories/AdaptiveTimes.v
theories/AdaptiveTold.v
theories/PropsTimes.v
theories/CatTextSpec.v
theories/CatTextProofs.v
theories/CatReadProofs.v
theories/CatSummary.v
theories/PingRunModel.v
theories/PingRunSpec.v
theories/PingRunProofs.v
theories/PingRunProofs2.v
theories/PingRunProofs3.v
theories/PropsPingRun.v
theories/ServerRunModel.v
theories/ServerRunSpec.v
theories/ServerRunProofs.v
theories/PropsServerRun.v
theories/PutRunModel.v
theories/PutRunSpec.v
theories/PutRunProofs.v
theories/PropsPutRun.v
theories/TransferRunSpec.v
theories/TransferRunProofs.v
theories/TransferRunWitness.v
theories/PropsTransferRun.v
theories/PairRunSpec.v
theories/PairRunProofs.v
theories/PropsPairRun.v
theories/ExchangeRunSpec.v
theories/ExchangeRunProofs.v
theories/PropsExchangeRun.v
theories/CubicRunSpec.v
theories/CubicProgress.v
theories/PropsCubicRun.v
theories/CubicUpperSpec.v
theories/CubicUpper.v
theories/CubicUpper2.v
theories/AdaptiveTimed.v
theories/CubicPipeline.v
theories/PropsCubicUpper.v
