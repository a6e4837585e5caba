-Q theories Verif
theories/DurationModel.v
theories/DurationSpec.v
theories/DurationProofs.v
theories/DurationProps.v
theories/Base.v
theories/F32.v
theories/F32Facts.v
theories/ProjectModel.v
theories/ScheduleModel.v
theories/ScheduleSpec.v
theories/ScheduleProofs.v
theories/NormaliseProofs.v
theories/ScheduleProps.v
theories/MutatorModel.v
theories/MakespanModel.v
theories/TimelineSpec.v
theories/MutatorProofs.v
theories/MutatorProps.v
theories/MakespanProofs.v
theories/MakespanProps.v
theories/TemperatureModel.v
theories/StunModel.v
theories/OptimizerModel.v
theories/F32Signed.v
theories/TemperatureSpec.v
theories/TemperatureProofs.v
theories/TemperatureProps.v
theories/SearchSpec.v
theories/StunProofs.v
theories/SameProofs.v
theories/StunProps.v
theories/OptimizerSpec.v
theories/OptimizerProofs.v
theories/OptimizerSame.v
theories/OptimizerProps.v
theories/HistogramModel.v
theories/HistogramSpec.v
theories/HistogramProofs.v
theories/StatsProofs.v
theories/HistogramProps.v
theories/SimulationModel.v
theories/SimulationSpec.v
theories/SimulationProofs.v
theories/SimulationProps.v
theories/Vector2DModel.v
theories/Vector2DSpec.v
theories/Vector2DProofs.v
theories/Vector2DProps.v
theories/FitterModel.v
theories/FitterProps.v
theories/FormatModel.v
theories/FormatProps.v
theories/JsonModel.v
theories/JsonSpec.v
theories/JsonProps.v
theories/PredictModel.v
theories/PredictSpec.v
theories/PredictProps.v
theories/CliModel.v
theories/CliProps.v
theories/TerminalModel.v
theories/TerminalProps.v
theories/OptionsModel.v
theories/OptionsProps.v
theories/YamlModel.v
theories/ValidationModel.v
theories/DocumentSpec.v
theories/ValidationProofs.v
theories/ValidationProps.v
theories/LoadModel.v
theories/LoadSpec.v
theories/LoadProofs.v
theories/LoadTaskProofs.v
theories/LoadCycleProofs.v
theories/LayoutProofs.v
theories/LoadFacts.v
theories/LoadProps.v
theories/LoadTotal.v
theories/LoadTotalProps.v
theories/BindingModel.v
theories/BindingSpec.v
theories/BindingProofs.v
theories/BindingEffects.v
theories/BindingProps.v
theories/ResultProps.v
theories/CurveProofs.v
theories/CurveSpec.v
theories/SearchedProofs.v
theories/CurveProps.v
theories/CounterProps.v
theories/FitterScheme.v
theories/FitterSchemeProps.v
theories/StoppingSpec.v
theories/StoppingProps.v
theories/BufferModel.v
theories/BufferSpec.v
theories/BufferProofs.v
theories/BufferProps.v
theories/LogSpec.v
theories/LogProps.v
theories/IteratorModel.v
theories/IteratorSpec.v
theories/IteratorProps.v
theories/SerialModel.v
theories/SerialProps.v
theories/CheckedModel.v
theories/CheckedProps.v
theories/RollingModel.v
theories/RollingSpec.v
theories/RollingProofs.v
theories/RollingRuns.v
theories/RollingProps.v
theories/RandomModel.v
theories/RandomProofs.v
theories/RandomSpec.v
theories/RandomProps.v
theories/OrderSpec.v
theories/OrderProofs.v
theories/OrderProps.v
theories/RepoTestsLoad.v
theories/RepoTests.v
theories/NormalModel.v
theories/RepoTestsSimulation.v
theories/NormalCount.v
theories/NormalEnds.v
theories/NormalFloats.v
theories/NormalWindow.v
theories/NormalSpec.v
theories/NormalProofs.v
theories/NormalProps.v
theories/NormalHistogramModel.v
theories/NormalHistogramProps.v
theories/PSquareModel.v
theories/PSquareSpec.v
theories/PSquareFloats.v
theories/PSquareProofs.v
theories/PSquareProps.v
theories/EndingProofs.v
theories/EndingProps.v
theories/ZeroRunsProps.v
theories/OptionValuesModel.v
theories/OptionValuesSpec.v
theories/OptionValuesProofs.v
theories/OptionValuesProps.v
theories/PlanSpec.v
theories/PlanTimeProofs.v
theories/PlanProofs.v
theories/PlanProps.v
theories/CompletionProps.v
theories/OrdinarySpec.v
theories/OrdinaryProofs.v
theories/DefaultsModel.v
theories/DefaultsProps.v
