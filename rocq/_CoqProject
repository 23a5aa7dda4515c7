-Q theories Verif

theories/Res.v
theories/Tensor.v
theories/Key.v
theories/Spec.v
theories/KeyFacts.v
theories/Num.v
theories/Points.v
theories/Octree.v
theories/WF.v
theories/ListFacts.v
theories/KidsFacts.v
theories/NumFacts.v
theories/SpecGeo.v
theories/ScatterFacts.v
theories/BuildFacts.v
theories/BuildClosed.v
theories/WFFacts.v
theories/SearchFacts.v
theories/BuildProps.v
theories/OrderFacts.v
theories/SpecBuild.v
theories/BuildThms.v
theories/SpecNeigh.v
theories/NeighFacts.v
theories/NeighSparse.v
theories/GetNeigh.v
theories/NeighThms.v
theories/SpecGrow.v
theories/GrowFacts.v
theories/GrowBuilt.v
theories/SpecMerge.v
theories/MergeFacts.v
theories/BuildMerge.v
theories/NnBasic.v
theories/NnConv.v
theories/SpecNN.v
theories/SumFacts.v
theories/NnFacts.v
theories/ConvFacts.v
theories/PadFacts.v
theories/Family.v
theories/PoolFacts.v
theories/Unpool.v
theories/Finite.v
theories/ConvOct.v
theories/AvgPool.v
theories/GlobalPool.v
theories/NnNorm.v
theories/SpecNorm.v
theories/NormFacts.v
theories/NormStats.v
theories/DropFacts.v
theories/Deconv.v
theories/DwGroup.v
theories/MergeConv.v
theories/VoxelThm.v
theories/Examples.v
theories/ExampleFacts.v
theories/MergeExamples.v
theories/ConvExamples.v
theories/PoolExamples.v
theories/P_Key.v
theories/P_Search.v
theories/P_Build.v
theories/P_Neigh.v
theories/P_Grow.v
theories/P_Merge.v
theories/P_Conv.v
theories/P_Pool.v
theories/NnInterp.v
theories/SpecInterp.v
theories/InterpFacts.v
theories/UpsampleFacts.v
theories/LinearFacts.v
theories/LinearThms.v
theories/InterpExamples.v
theories/LinearUpsample.v
theories/P_Interp.v
theories/Heap.v
theories/SpecHeap.v
theories/HeapFacts.v
theories/P_Heap.v
theories/PointsOps.v
theories/SpecPoints.v
theories/PointsFacts.v
theories/PointsGeo.v
theories/PointsClip.v
theories/PointsExamples.v
theories/P_Points.v
theories/Utils.v
theories/SpecUtils.v
theories/UtilsFacts.v
theories/KernelHist.v
theories/P_Utils.v
theories/Features.v
theories/SpecFeature.v
theories/FeatureFacts.v
theories/FeatureRange.v
theories/P_Feature.v
theories/Dataset.v
theories/SpecDataset.v
theories/DatasetFacts.v
theories/TransformFacts.v
theories/Pipeline.v
theories/DatasetExamples.v
theories/P_Dataset.v
theories/Net.v
theories/SpecNet.v
theories/NetFacts.v
theories/NetLoops.v
theories/NetPool.v
theories/NetSeg.v
theories/NetHr.v
theories/NetAe.v
theories/NetBuilt.v
theories/NetExamples.v
theories/P_Net.v
theories/Float32.v
theories/SpecSingle.v
theories/FloatFacts.v
theories/P_Float.v
theories/CatFacts.v
theories/SpecBatch.v
theories/NetBatch.v
theories/BatchThms.v
theories/FeatBatch.v
theories/BatchExamples.v
theories/P_Batch.v
theories/Device.v
theories/SpecDevice.v
theories/DeviceFacts.v
theories/P_Device.v
theories/Decode.v
theories/DecodeBatch.v
theories/DecodeExamples.v
theories/P_Decode.v
theories/Project.v
theories/SpecProject.v
theories/SpecEval.v
theories/MetricFacts.v
theories/EvalFacts.v
theories/ChunkFacts.v
theories/CropFacts.v
theories/LabelFacts.v
theories/Oct2Pts.v
theories/ProjectThms.v
theories/ProjectExamples.v
theories/P_Project.v
theories/Random.v
theories/SpecRandom.v
theories/RandomFacts.v
theories/P_Random.v
theories/Shape.v
theories/SpecShape.v
theories/ShapeFacts.v
theories/ShapeExamples.v
theories/P_Shape.v
theories/PointsHeap.v
theories/SpecPointsHeap.v
theories/PointsHeapFacts.v
theories/P_PointsHeap.v
theories/Prep.v
theories/SpecPrep.v
theories/PrepFacts.v
theories/SpecAug.v
theories/AugFacts.v
theories/ElasticFacts.v
theories/ScanFacts.v
theories/PrepExamples.v
theories/P_Prep.v
theories/SpecOunet.v
theories/Ounet.v
theories/OunetFacts.v
theories/OunetGrow.v
theories/OunetCall.v
theories/OunetExamples.v
theories/P_Ounet.v
theories/Tools.v
theories/SpecTools.v
theories/ToolsFacts.v
theories/P_Tools.v
theories/Scannet.v
theories/SpecScannet.v
theories/ScannetIou.v
theories/ScannetFacts.v
theories/P_Scannet.v
theories/Solver.v
theories/SpecSolver.v
theories/SolverFacts.v
theories/SolverBatch.v
theories/SolverCls.v
theories/P_Solver.v
theories/Files.v
theories/SpecFiles.v
theories/FilesFacts.v
theories/PlyFacts.v
theories/P_Files.v
theories/Filelist.v
theories/SpecFilelist.v
theories/FilelistFacts.v
theories/P_Filelist.v
theories/SpecMove.v
theories/MoveFacts.v
theories/MoveNet.v
theories/MoveBuild.v
theories/MoveThms.v
theories/MoveExamples.v
theories/P_Move.v
theories/SpecStructure.v
theories/StructureFacts.v
theories/StructureExamples.v
theories/P_Structure.v
theories/SpecMoveSeg.v
theories/MoveSeg.v
theories/MoveInterp.v
theories/MoveUnet.v
theories/MoveSegThms.v
theories/MoveSegExamples.v
theories/P_MoveSeg.v
theories/Ckpt.v
theories/SpecCkpt.v
theories/CkptFacts.v
theories/CkptExamples.v
theories/P_Ckpt.v
theories/MoveHr.v
theories/MoveHrThms.v
theories/MoveHrExamples.v
theories/P_MoveHr.v
theories/SpecTrain.v
theories/TrainFacts.v
theories/TrainExamples.v
theories/P_Train.v
theories/SpecShuffle.v
theories/ShuffleFacts.v
theories/ShuffleMerge.v
theories/ShuffleThms.v
theories/ShuffleExamples.v
theories/P_Shuffle.v
theories/GradFacts.v
theories/GradBatch.v
theories/GradMove.v
theories/GradMove2.v
theories/GradExamples.v
theories/P_Grad.v
theories/Bench.v
theories/SpecBench.v
theories/BenchFacts.v
theories/BenchThms.v
theories/BenchExamples.v
theories/P_Bench.v
theories/SpecLocal.v
theories/LocalFacts.v
theories/LocalUnet.v
theories/LocalThms.v
theories/LocalScene.v
theories/LocalExamples.v
theories/P_Local.v
theories/FloatMean.v
theories/SpecMean.v
theories/FloatMeanFacts.v
theories/FloatMeanThms.v
theories/P_FloatMean.v
theories/SpecState.v
theories/StateFacts.v
theories/StateNets.v
theories/StateNames.v
theories/SpecResid.v
theories/ResidFacts.v
theories/StateExamples.v
theories/StateOther.v
theories/P_State.v
theories/BuildFloat.v
theories/SpecNudge.v
theories/NudgeFacts.v
theories/P_Nudge.v
theories/SpecHead.v
theories/HeadFacts.v
theories/HeadNets.v
theories/HeadExamples.v
theories/P_Head.v
theories/LinearFloat.v
theories/SpecLinear32.v
theories/LinearFloatFacts.v
theories/LinearOutFacts.v
theories/P_LinearFloat.v
theories/UpsampleFloatFacts.v
theories/P_UpsampleFloat.v
theories/SpecRaw32.v
theories/RawFloatFacts.v
theories/P_RawFloat.v
theories/ClipFloat.v
theories/SpecClip32.v
theories/ClipFloatFacts.v
theories/P_ClipFloat.v
theories/NormFloat.v
theories/SpecNorm32.v
theories/NormFloatFacts.v
theories/P_NormFloat.v
theories/NormBuildFacts.v
theories/P_NormBuild.v
theories/FlipFloat.v
theories/SpecFlip32.v
theories/FlipFloatFacts.v
theories/P_FlipFloat.v
theories/OrientFloat.v
theories/SpecOrient32.v
theories/OrientFloatFacts.v
theories/P_OrientFloat.v
theories/TranslateFloat.v
theories/SpecTranslate32.v
theories/TranslateFloatFacts.v
theories/P_TranslateFloat.v
