-Q theories Verif
theories/Base.v
theories/World.v
theories/Mem.v
theories/Digraph.v
theories/DigraphRep.v
theories/DigraphOps.v
theories/DigraphUnion.v
theories/DigraphDiff.v
theories/GraphSpec.v
theories/Prop_Graph.v
theories/Float.v
theories/FloatFacts.v
theories/Spi.v
theories/Dist.v
theories/Options.v
theories/Arrays.v
theories/SeedSpec.v
theories/Seeds.v
theories/SeedsSort.v
theories/SeedsProof.v
theories/SeedsExcl.v
theories/SeedsTies.v
theories/Prop_Seeds.v
theories/AssignSpec.v
theories/SortIdx.v
theories/Nng.v
theories/NngGraph.v
theories/NngSize.v
theories/NngAssign.v
theories/NngStage.v
theories/NngEst.v
theories/TypeCount.v
theories/TypeRows.v
theories/NngType.v
theories/Batch.v
theories/BatchSpec.v
theories/BatchProof.v
theories/OptionsProof.v
theories/NngClustering.v
theories/ScSpec.v
theories/ScProof.v
theories/ClusSpec.v
theories/ScFacts.v
theories/Approx.v
theories/DistProof.v
theories/ScClaims.v
theories/Example1.v
theories/ScClaims2.v
theories/ScClaims3.v
theories/ScDet.v
theories/ScStable.v
theories/StageKeep.v
theories/BatchOverflow.v
theories/Example2.v
theories/DistClaims.v
theories/FailClaims.v
theories/Prop_Sc.v
theories/Prop_Sc2.v
theories/Prop_Stable.v
theories/Prop_Fail.v
theories/Prop_Dist.v
theories/Hier.v
theories/HierDiv.v
theories/HierFind.v
theories/HierSpec.v
theories/HierRun.v
theories/HierTop.v
theories/HierClaims.v
theories/Prop_Hier.v
theories/Util.v
theories/Asks.v
theories/CheckProof.v
theories/StatsProof.v
theories/UtilClaims.v
theories/Prop_Util.v
theories/Pipe.v
theories/Prop_Pipe.v
theories/PipeHier.v
theories/Prop_Pipe2.v
theories/Obj.v
theories/ObjRun.v
theories/ObjProof.v
theories/ObjClaims.v
theories/Tidy.v
theories/ObjCalls.v
theories/ObjExample.v
theories/DataSet.v
theories/ErrMsg.v
theories/ErrClaims.v
theories/SpiTable.v
theories/Prop_Api.v
theories/Report.v
theories/Oom.v
theories/ReportClaims.v
theories/Prop_Report.v
theories/HierClaims2.v
theories/Prop_Hier2.v
theories/ScClaims4.v
theories/Prop_Sc3.v
theories/Sim.v
theories/Ann.v
theories/AnnProof.v
theories/AnnClaims.v
theories/Prop_Ann.v
theories/Same.v
theories/SameClaims.v
theories/Prop_Same.v
theories/SameHier.v
theories/Prop_Same2.v
theories/SameDist.v
theories/Prop_SameDist.v
theories/SameOrder.v
theories/Prop_SameOrder.v
theories/FloatInt.v
theories/SameInt.v
theories/Prop_SameInt.v
theories/Reach.v
theories/Prop_Reach.v
theories/Renamed.v
theories/Prop_Renamed.v
theories/Restated.v
theories/Prop_Restated.v
theories/Wider.v
theories/Prop_Wider.v
theories/HierOrder.v
theories/Prop_HierOrder.v
theories/Relabelled.v
theories/Prop_Relabelled.v
theories/Groups.v
theories/Prop_Groups.v
theories/Recovered.v
theories/Prop_Recovered.v
theories/Added.v
theories/Prop_Added.v
theories/TwoGroups.v
theories/Prop_TwoGroups.v
theories/Numbered.v
theories/Prop_Numbered.v
theories/SeedOrder.v
theories/Prop_SeedOrder.v
theories/AsksSc.v
theories/AsksClaims.v
theories/Prop_Asks.v
theories/RepoTests.v
theories/RepoTests2.v
theories/RepoTests3.v
theories/DigraphDebug.v
theories/DebugProof.v
theories/Prop_Debug.v
theories/RepoTests4.v
