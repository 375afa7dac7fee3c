-Q theories Verif
theories/AggModel.v
theories/AggProofs.v
theories/AggProperties.v
theories/AggSpec.v
theories/AverModel.v
theories/AverProofs.v
theories/AverProperties.v
theories/AverRanks.v
theories/AverSpec.v
theories/AverWitness.v
theories/AxisGroups.v
theories/AxisMesh.v
theories/AxisModel.v
theories/AxisMore.v
theories/AxisProofs.v
theories/AxisProperties.v
theories/AxisSpec.v
theories/BetweenModel.v
theories/BetweenProofs.v
theories/BetweenProperties.v
theories/BetweenSpec.v
theories/BoundsProofs.v
theories/CabinetModel.v
theories/CabinetProofs.v
theories/CabinetProperties.v
theories/CabinetSpec.v
theories/CalcModel.v
theories/CalcProofs.v
theories/CalcProperties.v
theories/CalcSpec.v
theories/CalendarProofs.v
theories/CellGeom.v
theories/CellModel.v
theories/CellMore.v
theories/CellProofs.v
theories/CellProperties.v
theories/CellSpec.v
theories/ChunkModel.v
theories/ChunkProofs.v
theories/ChunkProperties.v
theories/ChunkSpec.v
theories/CollEffectProofs.v
theories/CollExtractProofs.v
theories/CollInvProofs.v
theories/CollModel.v
theories/CollProofs.v
theories/CollProperties.v
theories/CollReachProofs.v
theories/CollSpec.v
theories/CollTagProofs.v
theories/CollWitness.v
theories/ConvModel.v
theories/ConvProofs.v
theories/ConvProperties.v
theories/ConvSpec.v
theories/ConvWitness.v
theories/CoordModel.v
theories/CoordProofs.v
theories/CoordProperties.v
theories/CoordSpec.v
theories/CoordWitness.v
theories/CoordvarsModel.v
theories/CoordvarsProperties.v
theories/CoordvarsSpec.v
theories/CrsModel.v
theories/CrsMore.v
theories/CrsProofs.v
theories/CrsProperties.v
theories/CrsSpec.v
theories/DimensionModel.v
theories/DimensionProofs.v
theories/DimensionProperties.v
theories/DimensionSpec.v
theories/DistModel.v
theories/DistProofs.v
theories/DistProperties.v
theories/DistSliceProofs.v
theories/DistSpec.v
theories/DmapModel.v
theories/DmapProofs.v
theories/DmapProperties.v
theories/DmapSpec.v
theories/DmapTripProofs.v
theories/DmapWitness.v
theories/DurationProofs.v
theories/EnvProofs.v
theories/EsmfField.v
theories/EsmfModel.v
theories/EsmfMore.v
theories/EsmfProofs.v
theories/EsmfProperties.v
theories/EsmfSpec.v
theories/EsmfWitness.v
theories/EvalModel.v
theories/EvalProofs.v
theories/EvalProperties.v
theories/EvalSpec.v
theories/EvalWitness.v
theories/ExtentModel.v
theories/ExtentProofs.v
theories/ExtentProperties.v
theories/ExtentSpec.v
theories/FeatureModel.v
theories/FeatureProofs.v
theories/FeatureProperties.v
theories/FeatureSpec.v
theories/FieldModel.v
theories/FieldProofs.v
theories/FieldProperties.v
theories/FieldSliceProofs.v
theories/FieldSpec.v
theories/FieldWitness.v
theories/FindModel.v
theories/FindProofs.v
theories/FindProperties.v
theories/FindSpec.v
theories/FloatModel.v
theories/FloatProofs.v
theories/FloatSpec.v
theories/FreezeProofs.v
theories/GeomModel.v
theories/GeomMore.v
theories/GeomOps.v
theories/GeomProofs.v
theories/GeomProperties.v
theories/GeomSlice.v
theories/GeomSpec.v
theories/GeomWitness.v
theories/GroupingProofs.v
theories/HeaderModel.v
theories/HeaderProofs.v
theories/HeaderProperties.v
theories/HeaderSpec.v
theories/Lib.v
theories/MaskProofs.v
theories/MeshEsmf.v
theories/MeshModel.v
theories/MeshMore.v
theories/MeshProofs.v
theories/MeshProperties.v
theories/MeshSpec.v
theories/MeshSub.v
theories/MeshWitness.v
theories/NcModel.v
theories/NcMore.v
theories/NcProofs.v
theories/NcProperties.v
theories/NcSpec.v
theories/NcWitness.v
theories/NdModel.v
theories/NdProofs.v
theories/NdProperties.v
theories/NdSpec.v
theories/OpsModel.v
theories/OpsProofs.v
theories/OpsProperties.v
theories/OpsSpec.v
theories/OpsWitness.v
theories/PartitionModel.v
theories/PartitionProofs.v
theories/PartitionProperties.v
theories/PartitionSpec.v
theories/PercentileProofs.v
theories/PeriodModel.v
theories/PeriodProofs.v
theories/PeriodProperties.v
theories/PeriodSpec.v
theories/PicksLib.v
theories/PolyModel.v
theories/PolyProofs.v
theories/PolyProperties.v
theories/PolyRing.v
theories/PolySpec.v
theories/PolyWitness.v
theories/ProgressModel.v
theories/ProgressProofs.v
theories/ProgressProperties.v
theories/ProgressSpec.v
theories/ProjModel.v
theories/ProjProofs.v
theories/ProjProperties.v
theories/ProjSpec.v
theories/Py.v
theories/QueryModel.v
theories/QueryProofs.v
theories/QueryProperties.v
theories/QuerySpec.v
theories/RecordMeltProofs.v
theories/RecordModel.v
theories/RecordProofs.v
theories/RecordProperties.v
theories/RecordSpec.v
theories/RecordVarProofs.v
theories/RecordWitness.v
theories/RedistModel.v
theories/RedistMore.v
theories/RedistProofs.v
theories/RedistProperties.v
theories/RedistSpec.v
theories/RegridModel.v
theories/RegridMore.v
theories/RegridProofs.v
theories/RegridProperties.v
theories/RegridSpec.v
theories/RegridWitness.v
theories/ReindexComplete.v
theories/ReindexLive.v
theories/ReindexModel.v
theories/ReindexProofs.v
theories/ReindexProperties.v
theories/ReindexSetup.v
theories/ReindexSpec.v
theories/ReindexWitness.v
theories/ReorderProofs.v
theories/RequestModel.v
theories/RequestNames.v
theories/RequestProofs.v
theories/RequestProperties.v
theories/RequestSpec.v
theories/RoleModel.v
theories/RoleProofs.v
theories/RoleProperties.v
theories/RoleSpec.v
theories/RunModel.v
theories/RunMore.v
theories/RunProofs.v
theories/RunProperties.v
theories/RunSpec.v
theories/ScatterProofs.v
theories/ScopeInside.v
theories/ScopeModel.v
theories/ScopeProofs.v
theories/ScopeProperties.v
theories/ScopeSpec.v
theories/SeasonProofs.v
theories/SelectProofs.v
theories/SliceModel.v
theories/SliceProofs.v
theories/SliceProperties.v
theories/SliceSpec.v
theories/SliceVarProofs.v
theories/SliceWitness.v
theories/SpatialModel.v
theories/SpatialProofs.v
theories/SpatialProperties.v
theories/SpatialSpec.v
theories/Spec.v
theories/SphereModel.v
theories/SphereProofs.v
theories/SphereProperties.v
theories/SphereSpec.v
theories/SplitProofs.v
theories/StackModel.v
theories/StackProofs.v
theories/StackProperties.v
theories/StackSpec.v
theories/StampModel.v
theories/StampMore.v
theories/StampProofs.v
theories/StampProperties.v
theories/StampSpec.v
theories/StepModel.v
theories/StepProofs.v
theories/StepProperties.v
theories/StepSpec.v
theories/SubsetEngine.v
theories/SubsetModel.v
theories/SubsetProofs.v
theories/SubsetProperties.v
theories/SubsetSpec.v
theories/SubsetWitness.v
theories/TileModel.v
theories/TileProofs.v
theories/TileProperties.v
theories/TileSpec.v
theories/TimeModel.v
theories/TimeProofs.v
theories/TimeProperties.v
theories/TimeSpec.v
theories/UniqueSeasonProofs.v
theories/UnitsModel.v
theories/UnitsMore.v
theories/UnitsProofs.v
theories/UnitsProperties.v
theories/UnitsSpec.v
theories/UnitsTime.v
theories/UnitsWitness.v
theories/ValidModel.v
theories/ValidMore.v
theories/ValidProofs.v
theories/ValidProperties.v
theories/ValidSpec.v
theories/VmModel.v
theories/VmProofs.v
theories/VmProperties.v
theories/VmSpec.v
theories/WeightProofs.v
theories/WrapModel.v
theories/WrapMore.v
theories/WrapProofs.v
theories/WrapProperties.v
theories/WrapSpec.v
theories/WrapWitness.v
theories/ZipModel.v
theories/ZipProofs.v
theories/ZipProperties.v
theories/ZipSpec.v
