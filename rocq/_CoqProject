-Q theories Verif
theories/Base.v
theories/Split.v
theories/FlatTrie.v
theories/LevelTrie.v
theories/FastTrie.v
theories/ParallelFor.v
theories/Intersection.v
theories/Tries.v
theories/Facts.v
theories/Tree.v
theories/Groups.v
theories/Reps.v
theories/Layout.v
theories/BuildFlat.v
theories/BuildLevel.v
theories/BuildFast.v
theories/WordBits.v
theories/DecodeFast.v
theories/Spec.v
theories/RoundTrip.v
theories/RoundTripFacts.v
theories/PropRoundTrip.v
theories/Compress.v
theories/WriteOnes.v
theories/CompressFast.v
theories/RunsFacts.v
theories/RunsThms.v
theories/DecodeAppend.v
theories/PropRuns.v
theories/InterSpec.v
theories/InterSeq.v
theories/ParFacts.v
theories/InterPar.v
theories/InterPlan.v
theories/SpecTries.v
theories/InterTop.v
theories/InterInst.v
theories/InterTight.v
theories/InterMain.v
theories/InterThms.v
theories/SpecThreads.v
theories/ThreadBound.v
theories/ParForThms.v
theories/InterLaws.v
theories/InterRefute.v
theories/PropIntersect.v
theories/SpecLost.v
theories/InterLost.v
theories/PropParallel.v
theories/SpecMeasures.v
theories/Measures.v
theories/NodeCount.v
theories/MeasureThms.v
theories/PropMeasures.v
theories/Reference.v
theories/ReferenceFacts.v
theories/BarbayFacts.v
theories/SpecBarbay.v
theories/BarbayThms.v
theories/BarbayExact.v
theories/BarbayEnds.v
theories/PropReference.v
theories/EdgeFacts.v
theories/PropEdges.v
theories/SpecFiles.v
theories/Serialize.v
theories/SerializeFacts.v
theories/SerializeSound.v
theories/SerializeThms.v
theories/PropSerialize.v
theories/Tools.v
theories/SpecTools.v
theories/ToolsFacts.v
theories/ToolsThms.v
theories/FastToolsThms.v
theories/PropTools.v
theories/Copies.v
theories/SpecCopies.v
theories/CopiesThms.v
theories/PropCopies.v
theories/SpecLayout.v
theories/LayoutBits.v
theories/LayoutThms.v
theories/LayoutFast.v
theories/PropLayout.v
theories/Stats.v
theories/SpecStats.v
theories/StatsThms.v
theories/StatsTools.v
theories/StatsMeasures.v
theories/PropStats.v
theories/Text.v
theories/SpecText.v
theories/TextThms.v
theories/Cli.v
theories/SpecCli.v
theories/CliThms.v
theories/CliTools.v
theories/PropCli.v
theories/SpecOrder.v
theories/KeepOrder.v
theories/KeepThms.v
theories/PropOrder.v
theories/SpecLimits.v
theories/InterLimits.v
theories/WideThms.v
theories/InterMixed.v
theories/PropLimits.v
theories/StatsCli.v
theories/SpecStatsCli.v
theories/StatsCliThms.v
theories/PropStatsCli.v
theories/Calls.v
theories/SpecCalls.v
theories/CallsThms.v
theories/CallsMain.v
theories/PropCalls.v
theories/Affinity.v
theories/AffinityThms.v
theories/PropAffinity.v
theories/Checker.v
theories/SpecChecker.v
theories/CheckerThms.v
theories/CheckerFast.v
theories/KeepSet.v
theories/EncodeCheck.v
theories/PropChecker.v
theories/InterExact.v
theories/InterLeak.v
theories/InterTiny.v
theories/InterFlag.v
theories/PropFlag.v
theories/TwiceRuns.v
theories/TwiceWrite.v
theories/TwiceDecode.v
theories/TwiceLost.v
theories/TwiceLevel.v
theories/SpecTwice.v
theories/TwiceThms.v
theories/SpecAnswers.v
theories/ToolsExact.v
theories/SpecIds.v
theories/IdsThms.v
theories/PropIds.v
theories/History.v
theories/SpecHistory.v
theories/HistoryThms.v
theories/PropHistory.v
theories/Report.v
theories/SpecReport.v
theories/ReportThms.v
theories/ReportCli.v
theories/PropReport.v
theories/Table.v
theories/SpecTable.v
theories/TableThms.v
theories/TableCli.v
theories/PropTable.v
theories/SpecLong.v
theories/LongThms.v
theories/PropLong.v
theories/HalfWord.v
theories/Strict.v
theories/SpecStrict.v
theories/StrictThms.v
theories/StrictPar.v
theories/StrictExact.v
theories/PropStrict.v
theories/EvalOrder.v
theories/EvalOrderThms.v
theories/PropEvalOrder.v
theories/Cut.v
theories/SpecCut.v
theories/CutThms.v
theories/PropCut.v
theories/CutInput.v
theories/SpecCutInput.v
theories/CutInputThms.v
theories/PropCutInput.v
theories/Steps.v
theories/SpecSteps.v
theories/StepsThms.v
theories/PropSteps.v
theories/SpecEnds.v
theories/EndsFacts.v
theories/EndsLevel.v
theories/EndsCalls.v
theories/EndsTools.v
theories/SpecOutput.v
theories/OutputThms.v
theories/EndsProgs.v
theories/EndsStats.v
theories/PropEnds.v
theories/PropOutput.v
theories/SpecSpace.v
theories/SpaceThms.v
theories/PropSpace.v
theories/SpecLists.v
theories/KeepInter.v
theories/PropLists.v
theories/Script.v
theories/SpecScript.v
theories/ScriptThms.v
theories/CliExact.v
theories/ScriptSample.v
theories/PropScript.v
theories/SpecAdaptive.v
theories/AdaptiveThms.v
theories/PropAdaptive.v
theories/ParCalls.v
theories/ParCallsThms.v
theories/PropParCalls.v
theories/DecodeCalls.v
theories/DecodeCallsThms.v
theories/PropDecodeCalls.v
theories/BuildReads.v
theories/SpecReads.v
theories/BuildReadsThms.v
theories/PropBuildReads.v
theories/EncodeCalls.v
theories/EncodeCallsThms.v
theories/PropEncodeCalls.v
theories/SpecCutStats.v
theories/CutStatsThms.v
theories/PropCutStats.v
theories/SpecOmission.v
theories/OmissionThms.v
theories/PropOmission.v
theories/LawsThms.v
theories/PropLaws.v
theories/StrictTools.v
theories/SpecStrictTools.v
theories/StrictToolsThms.v
theories/PropStrictTools.v
theories/Average.v
theories/SpecAverage.v
theories/AverageThms.v
theories/AverageText.v
theories/AverageTools.v
theories/PropAverage.v
theories/Timing.v
theories/SpecTiming.v
theories/TimingThms.v
theories/TimingCli.v
theories/PropTiming.v
theories/BuildMemory.v
theories/SpecMemory.v
theories/BuildMemoryThms.v
theories/PropMemory.v
theories/CheckerCli.v
theories/SpecCheckerCli.v
theories/CheckerCliThms.v
theories/PropCheckerCli.v
theories/StrictChecker.v
theories/StrictCheckerThms.v
theories/PropStrictChecker.v
theories/ToolsHeap.v
theories/SpecHeap.v
theories/ToolsHeapThms.v
theories/PropToolsHeap.v
theories/SpecReproduce.v
theories/ReproduceThms.v
theories/PropReproduce.v
theories/SpecDepth.v
theories/DepthThms.v
theories/PropDepth.v
theories/SpecRounds.v
theories/BarbayWork.v
theories/PropRounds.v
theories/SpecSkip.v
theories/SkipThms.v
theories/PropSkip.v
theories/EncodeHeld.v
theories/EncodeHeldThms.v
theories/PropEncodeHeld.v
theories/SpecDistinct.v
theories/DistinctThms.v
theories/EmptyThms.v
theories/EmptyInter.v
theories/PropDistinct.v
theories/PropEmpty.v
