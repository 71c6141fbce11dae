-Q theories Verif
theories/PyBase.v
theories/PyLemmas.v
theories/SymbolicModel.v
theories/SymbolicSpec.v
theories/SymbolicProofs.v
theories/SymbolicRegex.v
theories/SymbolicParse.v
theories/SymbolicRoundTrip.v
theories/SymbolicAlgebra.v
theories/SymbolicTotal.v
theories/SymbolicProperties.v
theories/AliasedModel.v
theories/AliasedSpec.v
theories/AliasedProofs.v
theories/AliasedNames.v
theories/AliasedProperties.v
theories/AliasedProperties2.v
theories/ContainerModel.v
theories/ContainerSpec.v
theories/ContainerProofs.v
theories/ContainerProofs2.v
theories/ContainerRegistry.v
theories/ContainerProperties.v
theories/Nd.v
theories/IndexModel.v
theories/IndexSpec.v
theories/IndexProofs.v
theories/IndexProofs2.v
theories/IndexProofs3.v
theories/IndexProperties.v
theories/ArrayModel.v
theories/ArraySpec.v
theories/ArrayProofs.v
theories/ArrayProofs2.v
theories/ArrayProofs3.v
theories/ArrayProofs4.v
theories/CompareModel.v
theories/ArrayProperties.v
theories/MetricModel.v
theories/MetricTables.v
theories/MetricSpec.v
theories/MetricSizes.v
theories/MetricProofs.v
theories/MetricProofs2.v
theories/MetricProperties.v
theories/UnitModel.v
theories/UnitSpec.v
theories/UnitProofs.v
theories/UnitProofs2.v
theories/UnitProperties.v
theories/FsModel.v
theories/FsProofs.v
theories/ProjectModel.v
theories/ProjectSpec.v
theories/ProjectProofs.v
theories/ProjectProofs2.v
theories/ProjectProofs3.v
theories/ProjectProofs4.v
theories/ProjectProofs5.v
theories/ProjectProofs6.v
theories/ProjectProofs7.v
theories/ProjectProperties.v
theories/ProjectProperties2.v
theories/RunLogModel.v
theories/RunLogSpec.v
theories/RunLogProperties.v
theories/ProjectProperties3.v
theories/QuantityModel.v
theories/QuantitySpec.v
theories/QuantityProofs.v
theories/QuantityProperties.v
theories/AxisModel.v
theories/AxisSpec.v
theories/AxisProofs.v
theories/AxesModel.v
theories/AxesSpec.v
theories/AxesProofs.v
theories/AxesProperties.v
theories/UnitOpsModel.v
theories/UnitOpsSpec.v
theories/UnitOpsProofs.v
theories/UnitOpsProofs2.v
theories/UnitOpsTables.v
theories/UnitOpsProofs3.v
theories/UnitOpsProperties.v
theories/UnitOpsProperties2.v
theories/PhysicalModel.v
theories/PhysicalSpec.v
theories/PhysicalProofs.v
theories/PhysicalProofs2.v
theories/PhysicalProofs3.v
theories/PhysicalProofs4.v
theories/PhysicalProofs5.v
theories/PhysicalProperties.v
theories/PhysicalExamples.v
theories/PhysFuncModel.v
theories/PhysFuncSpec.v
theories/PhysFuncProofs.v
theories/PhysFuncProperties.v
theories/PhysFuncProperties2.v
theories/PhysFuncProperties3.v
theories/PhysFuncExamples.v
theories/PhysFuncProperties4.v
theories/PhysFuncExamples2.v
theories/PhysicalProperties2.v
theories/PhysicalProperties3.v
theories/ConfigModel.v
theories/ConfigSpec.v
theories/ConfigProofs.v
theories/ConfigProperties.v
theories/ParameterModel.v
theories/ParameterSpec.v
theories/ParameterNumbers.v
theories/ParameterProducts.v
theories/ParameterProofs.v
theories/ParameterTables.v
theories/ParameterProperties.v
theories/ParameterRuntime.v
theories/AtomicModel.v
theories/AtomicProperties.v
theories/ExceptionsModel.v
theories/ExceptionsProperties.v
theories/EtcModel.v
theories/EtcProperties.v
theories/EpremModel.v
theories/EpremProperties.v
theories/EpremProperties2.v
theories/EpremProperties3.v
theories/ObservableModel.v
theories/ObservableSpec.v
theories/ObservableProofs.v
theories/ObservableProperties.v
theories/ConstraintProperties.v
theories/ObservableExamples.v
theories/ObservableProperties2.v
theories/InterpModel.v
theories/InterpSpec.v
theories/InterpProofs.v
theories/InterpProperties.v
theories/InterpProperties2.v
theories/NumModel.v
theories/IntfluxModel.v
theories/IntfluxSpec.v
theories/IntfluxProofs.v
theories/IntfluxProperties.v
theories/DerivedModel.v
theories/DerivedProperties.v
theories/DerivedProperties2.v
theories/NormalizeModel.v
theories/NormalizeSpec.v
theories/NormalizeProofs.v
theories/NormalizeProofs2.v
theories/NormalizeProperties.v
theories/UnitEqModel.v
theories/UnitEqProofs.v
theories/UnitEqProperties.v
theories/UnitEqProperties2.v
theories/ConvertModel.v
theories/ConvertProofs.v
theories/ConvertProperties.v
theories/SystemsModel.v
theories/SystemsSpec.v
theories/SystemsProofs.v
theories/SystemsProperties.v
theories/ReduceProperties.v
theories/StandardModel.v
theories/StandardProperties.v
theories/DatafileModel.v
theories/DatafileSpec.v
theories/DatafileProperties.v
theories/DatafileProperties2.v
theories/ViewModel.v
theories/ViewProperties.v
theories/SourceModel.v
theories/SourceSpec.v
theories/SourceProofs.v
theories/SourceProperties.v
theories/SourceProperties2.v
theories/MeasuredModel.v
theories/MeasuredSpec.v
theories/MeasuredProofs.v
theories/MeasuredProofs2.v
theories/MeasuredRounding.v
theories/MeasuredProperties.v
theories/MeasuredProperties2.v
theories/CliModel.v
theories/CliSpec.v
theories/CliProofs.v
theories/CliProperties.v
theories/CliProperties2.v
theories/CliGenerated.v
theories/CliProperties3.v
theories/OperatorsModel.v
theories/OperatorsSpec.v
theories/OperatorsProofs.v
theories/OperatorsProperties.v
theories/DispatchModel.v
theories/DispatchSpec.v
theories/DispatchProofs.v
theories/DispatchProperties.v
theories/FactoryModel.v
theories/FactorySpec.v
theories/FactoryProperties.v
theories/GapProperties.v
theories/UniversalModel.v
theories/UniversalSpec.v
theories/UniversalProperties.v
theories/GapProperties2.v
theories/PairingProperties.v
theories/AliasedModel2.v
theories/AliasedProperties3.v
theories/AliasedProperties4.v
theories/AliasedProperties5.v
theories/ScriptModel.v
theories/ScriptProperties.v
theories/CommandModel.v
theories/CommandSpec.v
theories/CommandProofs.v
theories/CommandProperties.v
theories/CommandProperties2.v
theories/SearchModel.v
theories/SearchSpec.v
theories/SearchProperties.v
theories/TableModel.v
theories/TableSpec.v
theories/TableProperties.v
theories/ReferenceModel.v
theories/ReferenceSpec.v
theories/ReferenceProperties.v
theories/DispatchProperties2.v
theories/GapProperties3.v
theories/PathProperties.v
theories/WrapModel.v
theories/WrapProperties.v
theories/AngleModel.v
theories/AngleProperties.v
theories/ParameterFollow.v
theories/HashModel.v
theories/HashProperties.v
theories/ShiftModel.v
theories/ShiftProperties.v
theories/FormulaModel.v
theories/FormulaProperties.v
theories/TextModel.v
theories/TextSpec.v
theories/TextProperties.v
theories/PrintModel.v
theories/PrintProperties.v
