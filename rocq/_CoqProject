-Q theories Verif
theories/Utf8.v
theories/Base.v
theories/Times.v
theories/GoTypes.v
theories/Prog.v
theories/ManagerModel.v
theories/SwapperModel.v
theories/ExecLemmas.v
theories/Graph.v
theories/Spec.v
theories/ManagerProofs.v
theories/WireProofs.v
theories/InitProofs.v
theories/PhaseProofs.v
theories/VaultProofs.v
theories/FreeProofs.v
theories/GatherProofs.v
theories/LifeProofs.v
theories/ErrorProofs.v
theories/LoadProofs.v
theories/StaticProofs.v
theories/PrivateProofs.v
theories/SwapperProofs.v
theories/OnceProofs.v
theories/HistoryProofs.v
theories/PubProofs.v
theories/RunProofs.v
theories/LifeFacts.v
theories/StageProofs.v
theories/CleanProofs.v
theories/FileProofs.v
theories/OpenProofs.v
theories/ListProofs.v
theories/Demo.v
theories/Worlds.v
theories/PropOrder.v
theories/EstProofs.v
theories/PropGraph.v
theories/PropLoad.v
theories/PropFiles.v
theories/PropOpen.v
theories/PropWire.v
theories/PropVault.v
theories/PropSwapper.v
theories/PropStatic.v
theories/PropWhen.v
theories/PropDetails.v
theories/PropApi.v
theories/Conc.v
theories/ConcBase.v
theories/ConcLin.v
theories/Tokens.v
theories/ConcTokens.v
theories/ConcFree.v
theories/ConcMore.v
theories/ConcDeps.v
theories/ConcOrder.v
theories/ConcSerial.v
theories/ConcFinish.v
theories/ConcApi.v
theories/ConcStatic.v
theories/Sched.v
theories/PropConc.v
theories/PropLeak.v
theories/PropGrace.v
theories/PropReenter.v
theories/PropSurvive.v
theories/PropCopy.v
theories/ToolDecls.v
theories/PropTool.v
theories/PropLive.v
theories/ToolPaths.v
theories/PathProofs.v
theories/PropPaths.v
theories/PropGen.v
theories/ToolCopy.v
theories/PropCollect.v
theories/PropImports.v
theories/ToolAbs.v
theories/PropLetters.v
theories/PropDir.v
theories/PropAbs.v
theories/PropPool.v
theories/Rules.v
theories/RuleProofs.v
theories/RuleExact.v
theories/PropRules.v
theories/PropExact.v
theories/PropAgain.v
theories/PropTrace.v
theories/PropBlame.v
theories/HeapModel.v
theories/HeapProofs.v
theories/HeapSim.v
theories/HeapLoad.v
theories/HeapDeps.v
theories/HeapRun.v
theories/HeapSwap.v
theories/PropHeap.v
theories/PropShip.v
theories/PropTruth.v
theories/PropIdent.v
theories/ToolExit.v
theories/PropExit.v
theories/ToolStatic.v
theories/PropClean.v
theories/ToolBuild.v
theories/PropBuild.v
theories/PropEnd.v
theories/PropRace.v
