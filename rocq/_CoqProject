-Q theories Verif
theories/Base.v
theories/DurationSegment.v
theories/Beh.v
theories/Tws.v
theories/DurationFacts.v
theories/Data.v
theories/LoadSegment.v
theories/SearchRoute.v
theories/RouteDur.v
theories/Valid.v
theories/ProposalDur.v
theories/ProposalRest.v
theories/Route.v
theories/RouteSpec.v
theories/RouteFacts.v
theories/RouteFacts2.v
theories/RouteFacts3.v
theories/Cost.v
theories/CostFacts.v
theories/DeltaFacts.v
theories/Penalty.v
theories/Solution.v
theories/SolutionFacts.v
theories/SolutionFacts2.v
theories/SolutionFacts3.v
theories/Sample.v
theories/SegTrees.v
theories/RouteFacts4.v
theories/PRoute.v
theories/PSolution.v
theories/SearchFacts.v
theories/PSearch.v
theories/RingBuffer.v
theories/Stop.v
theories/Rng.v
theories/RngFloat.v
theories/Pwl.v
theories/Bitset.v
theories/MatrixFacts.v
theories/ActivityText.v
theories/ResultPy.v
theories/PUtil.v
theories/DataCtor.v
theories/Pickle.v
theories/Equal.v
theories/PData.v
theories/PHash.v
theories/Ils.v
theories/Pm.v
theories/Fleet.v
theories/FleetSame.v
theories/ModelPy.v
theories/StatsCsv.v
theories/MakeRandom.v
theories/PPm.v
theories/PmWarn.v
theories/PPmWarn.v
theories/PPy.v
theories/SearchSpace.v
theories/Neighbourhood.v
theories/PSpace.v
theories/SearchNodes.v
theories/SearchSeq.v
theories/SearchLoad.v
theories/SearchLoad2.v
theories/PNodes.v
theories/Ops.v
theories/PlanFacts.v
theories/ShipState.v
theories/OpsBase.v
theories/OpsGen.v
theories/OpsMove.v
theories/OpsRelocate.v
theories/OpsSwap.v
theories/OpsOne.v
theories/OpsEdit.v
theories/OpsEdit2.v
theories/OpsAll.v
theories/Fits.v
theories/Finite.v
theories/Sample2.v
theories/POps.v
theories/LocalSearch.v
theories/LocalFacts.v
theories/LocalTerm.v
theories/LocalInsert.v
theories/LocalEnsure.v
theories/Perturb.v
theories/LocalRun.v
theories/PLocal.v
theories/Solve.v
theories/SolveTrace.v
theories/PSolve.v
theories/PFleet.v
theories/LocalOpt.v
theories/OpsComplete.v
theories/OpsComplete2.v
theories/OpsComplete3.v
theories/Moves.v
theories/LocalBest.v
theories/Sample3.v
theories/PBest.v
theories/Read.v
theories/ReadFacts.v
theories/ReadSol.v
theories/ReadSpec.v
theories/ReadData.v
theories/ReadVeh.v
theories/ReadMat.v
theories/ReadRoute.v
theories/ReadOk.v
theories/PRead.v
theories/Rounding.v
theories/PRounding.v
theories/ModelSpec.v
theories/ModelHist.v
theories/PModel.v
theories/Overflow.v
theories/OverflowSeg.v
theories/OverflowRoute.v
theories/OverflowMore.v
theories/POverflow.v
theories/Supports.v
theories/SupportsRun.v
theories/PSupports.v
theories/ReloadsAllowed.v
theories/ReloadsRun.v
theories/PReloads.v
theories/Loops.v
theories/Hang.v
theories/PHang.v
theories/Ordinary.v
theories/POrdinary.v
theories/OverflowCost.v
theories/POverflowCost.v
theories/Callbacks.v
theories/CallbacksSolve.v
theories/PCallbacks.v
theories/Config.v
theories/Cli.v
theories/FileSize.v
theories/Table.v
theories/PCli.v
theories/Bench.v
theories/PBench.v
theories/Plot.v
theories/PPlot.v
theories/ScaleWarn.v
theories/PScaleWarn.v
theories/PlotStats.v
theories/PPlotStats.v
theories/LogText.v
theories/PLogText.v
theories/ResultText.v
theories/PResultText.v
theories/SolutionText.v
theories/PSolutionText.v
theories/Counted.v
theories/CountedFacts.v
theories/Owed.v
theories/CountedCall.v
theories/CountedRounds.v
theories/PStats.v
theories/OverflowSearch.v
theories/OverflowSearchFacts.v
theories/POverflowSearch.v
theories/TestData.v
theories/TestRoute.v
theories/TestOps.v
theories/TestSolution.v
theories/TestSearch.v
theories/TestLocal.v
theories/TestRest.v
theories/TestIls.v
theories/TestCtor.v
theories/TestModel.v
