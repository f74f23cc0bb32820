-Q theories Verif
theories/Base.v
theories/Text.v
theories/MovementModel.v
theories/TextProofs.v
theories/MovementSpec.v
theories/MovementProofs.v
theories/MovementProps.v
theories/ExtractorModel.v
theories/ExtractorProofs.v
theories/ExtractorSpec.v
theories/ExtractorContent.v
theories/ExtractorLabels.v
theories/ExtractorProps.v
theories/AtomConfigModel.v
theories/AtomConfigSpec.v
theories/AtomConfigProofs.v
theories/AtomConfigRead.v
theories/AtomConfigProps.v
theories/StructModel.v
theories/StructSpec.v
theories/StructProofs.v
theories/Vec.v
theories/SiteIndexModel.v
theories/SiteIndexSpec.v
theories/SiteIndexProofs.v
theories/StructGlue.v
theories/StructProps.v
theories/NbModel.v
theories/NbListProofs.v
theories/NbSearchProofs.v
theories/NbSpec.v
theories/NbGeomProofs.v
theories/NbProofs.v
theories/NbMlffModel.v
theories/NbDupProofs.v
theories/NbMlffSpec.v
theories/NbMlffProofs.v
theories/NbGlue.v
theories/NbWitness.v
theories/NbFinal.v
theories/NbProps.v
theories/MtpLevelModel.v
theories/MtpLevelSpec.v
theories/MtpLevelProofs.v
theories/MtpLevelProps.v
theories/RDeriv.v
theories/SeModel.v
theories/SeSpec.v
theories/SeProofs.v
theories/SeProps.v
theories/Arr.v
theories/SlotModel.v
theories/SlotSpec.v
theories/SlotProofs.v
theories/SlotProps.v
theories/TildeModel.v
theories/TildeSpec.v
theories/TildeProofs.v
theories/TildeProps.v
theories/ChebModel.v
theories/ChebSpec.v
theories/ChebProofs.v
theories/ChebProps.v
theories/VoxelModel.v
theories/VoxelSpec.v
theories/VoxelProofs.v
theories/VoxelProps.v
theories/HeapModel.v
theories/HeapProofs.v
theories/ParamModel.v
theories/ParamSpec.v
theories/ParamProofs.v
theories/ParamProps.v
theories/AlignModel.v
theories/AlignSpec.v
theories/AlignProofs.v
theories/AlignProps.v
theories/OuterModel.v
theories/OuterSpec.v
theories/OuterProofs.v
theories/OuterProps.v
theories/NeighModel.v
theories/NeighSpec.v
theories/NeighProofs.v
theories/NeighCounts.v
theories/NeighPair.v
theories/NeighGlue.v
theories/NeighReal.v
theories/NeighProps.v
theories/StatsModel.v
theories/StatsSpec.v
theories/StatsProofs.v
theories/StatsProps.v
theories/ElementModel.v
theories/ElementProofs.v
theories/ElementProps.v
theories/DataModel.v
theories/DataSpec.v
theories/DataText.v
theories/DataProofs.v
theories/DataParts.v
theories/DataMerge.v
theories/DataGroups.v
theories/DataSlices.v
theories/DataNames.v
theories/DataCases.v
theories/DataProps.v
theories/BandModel.v
theories/BandSpec.v
theories/BandProofs.v
theories/BandEdges.v
theories/BandFinal.v
theories/BandRead.v
theories/BandCases.v
theories/BandProps.v
theories/KptModel.v
theories/KptSpec.v
theories/KptProofs.v
theories/KptMesh.v
theories/KptCases.v
theories/KptProps.v
theories/AdjModel.v
theories/AdjSpec.v
theories/AdjProofs.v
theories/AdjCases.v
theories/AdjProps.v
theories/JobModel.v
theories/JobSpec.v
theories/JobProofs.v
theories/JobProps.v
theories/MtpValueModel.v
theories/MtpValueSpec.v
theories/MtpValueProofs.v
theories/MtpValueProps.v
theories/AvgModel.v
theories/AvgSpec.v
theories/AvgBondProofs.v
theories/AvgProofs.v
theories/AvgCases.v
theories/AvgProps.v
theories/LevModel.v
theories/LevSpec.v
theories/LevProofs.v
theories/LevProps.v
theories/PertModel.v
theories/PertSpec.v
theories/PertProofs.v
theories/PertFinal.v
theories/PertBounds.v
theories/PertProps.v
theories/KpathModel.v
theories/KpathSpec.v
theories/KpathProofs.v
theories/KpathCases.v
theories/KpathProps.v
theories/ProjModel.v
theories/ProjSpec.v
theories/ProjProofs.v
theories/ProjBands.v
theories/ProjCases.v
theories/ProjProps.v
theories/NestModel.v
theories/NestSpec.v
theories/NestProofs.v
theories/NestProps.v
theories/BatchModel.v
theories/BatchSpec.v
theories/BatchProofs.v
theories/BatchCases.v
theories/BatchProps.v
theories/LifeModel.v
theories/LifeSpec.v
theories/LifeProofs.v
theories/LifeInv.v
theories/LifeMake.v
theories/LifeEnlarge.v
theories/LifeSteps.v
theories/LifeCases.v
theories/LifeProps.v
theories/InferModel.v
theories/InferSpec.v
theories/InferProofs.v
theories/InferGlue.v
theories/InferRows.v
theories/InferFinal.v
theories/InferCases.v
theories/InferProps.v
theories/FieldModel.v
theories/FieldSpec.v
theories/FieldProofs.v
theories/FieldCases.v
theories/FieldProps.v
theories/BindModel.v
theories/BindSpec.v
theories/BindProofs.v
theories/BindFinal.v
theories/BindProps.v
theories/OwnModel.v
theories/OwnSpec.v
theories/OwnSep.v
theories/OwnParts.v
theories/OwnVec.v
theories/OwnObj.v
theories/OwnBuild.v
theories/OwnMake.v
theories/OwnFinal.v
theories/OwnProps.v
theories/Vec3Model.v
theories/Vec3Spec.v
theories/Vec3Proofs.v
theories/Vec3Props.v
theories/InputModel.v
theories/InputSpec.v
theories/InputProofs.v
theories/InputProps.v
theories/SetStatsModel.v
theories/SetStatsSpec.v
theories/SetStatsProofs.v
theories/SetStatsRows.v
theories/SetStatsFinal.v
theories/SetStatsCases.v
theories/SetStatsProps.v
theories/RadModel.v
theories/RadNum.v
theories/RadSpec.v
theories/RadHeap.v
theories/RadProg.v
theories/RadObj.v
theories/RadQ.v
theories/RadFinal.v
theories/RadReal.v
theories/RadProps.v
theories/RadDeModel.v
theories/RadDeSpec.v
theories/RadDeProofs.v
theories/RadDeFinal.v
theories/RadDeProps.v
theories/MtpGradModel.v
theories/MtpGradSpec.v
theories/MtpGradProofs.v
theories/MtpGradFinal.v
theories/MtpGradProps.v
theories/FlatModel.v
theories/FlatSpec.v
theories/FlatProofs.v
theories/FlatFinal.v
theories/FlatCases.v
theories/FlatProps.v
theories/CollModel.v
theories/CollSpec.v
theories/CollProofs.v
theories/CollCases.v
theories/CollProps.v
theories/TildeMemModel.v
theories/TildeMemSpec.v
theories/TildeMemProofs.v
theories/TildeMemFinal.v
theories/TildeMemCases.v
theories/TildeMemProps.v
theories/ObjModel.v
theories/ObjSpec.v
theories/ObjProofs.v
theories/ObjCases.v
theories/ObjProps.v
theories/ScratchModel.v
theories/ScratchSpec.v
theories/ScratchProofs.v
theories/ScratchFinal.v
theories/ScratchCases.v
theories/ScratchProps.v
theories/FreshModel.v
theories/FreshSpec.v
theories/FreshProofs.v
theories/FreshCases.v
theories/FreshProps.v
theories/SeriesModel.v
theories/SeriesSpec.v
theories/SeriesProofs.v
theories/SeriesCases.v
theories/SeriesProps.v
theories/SoloSpec.v
theories/SoloProofs.v
theories/SoloCases.v
theories/SoloProps.v
theories/CollTrajModel.v
theories/CollTrajSpec.v
theories/CollTrajProofs.v
theories/CollTrajCases.v
theories/CollTrajProps.v
