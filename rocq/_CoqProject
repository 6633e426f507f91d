-Q theories Verif
theories/Base.v
theories/BaseProofs.v
theories/MaterialModel.v
theories/Spec.v
theories/MaterialProofs.v
theories/MaterialProps.v
theories/FluidModel.v
theories/FluidProofs.v
theories/GassmannProofs.v
theories/HashinShtrikmanModel.v
theories/HashinShtrikmanProofs.v
theories/MineralsModel.v
theories/MineralsProofs.v
theories/SandstoneModel.v
theories/SandstoneProofs.v
theories/ConfigModel.v
theories/ConfigProofs.v
theories/SandstoneProps.v
theories/FluidProps.v
theories/ConfigProps.v
theories/HashinShtrikmanProps.v
theories/MineralsProps.v
theories/InputModel.v
theories/InputSpec.v
theories/InputProofs.v
theories/InputProps.v
theories/MainModel.v
theories/MainSpec.v
theories/MainProofs.v
theories/MainProps.v
theories/BatzleWangModel.v
theories/BatzleWangSpec.v
theories/BatzleWangProofs.v
theories/BatzleWangProps.v
theories/FluidsModel.v
theories/FluidsSpec.v
theories/FluidsProofs.v
theories/FluidsProps.v
theories/RowModel.v
theories/RowSpec.v
theories/RowProofs.v
theories/RowConfigProofs.v
theories/RowScalarProofs.v
theories/RowResultProofs.v
theories/RowProps.v
theories/SpanWagnerModel.v
theories/SpanWagnerSpec.v
theories/SpanWagnerProofs.v
theories/SpanWagnerIdealProofs.v
theories/SpanWagnerLimitProofs.v
theories/SpanWagnerCurveProofs.v
theories/SpanWagnerLookupProofs.v
theories/SpanWagnerArrayModel.v
theories/SpanWagnerArrayProofs.v
theories/SpanWagnerProps.v
theories/ReadModel.v
theories/AppModel.v
theories/ReadSpec.v
theories/ReadProofs.v
theories/ReadRowProofs.v
theories/AppProofs.v
theories/AppExampleProofs.v
theories/SchemaSpec.v
theories/SchemaProofs.v
theories/ReorderProofs.v
theories/RunProofs.v
theories/DocSpec.v
theories/DocProofs.v
theories/DefaultProofs.v
theories/FamilyProofs.v
theories/AppProps.v
theories/DocProps.v
theories/CalibrationModel.v
theories/CalibrationSpec.v
theories/CalibrationProofs.v
theories/CalibrationProps.v
theories/NumModel.v
theories/NanModel.v
theories/NanSpec.v
theories/RelProofs.v
theories/EmbedProofs.v
theories/EmbedRowProofs.v
theories/NanRowProofs.v
theories/NanExampleProofs.v
theories/NanProps.v
theories/ColumnSpec.v
theories/ColumnProofs.v
theories/ColumnProps.v
theories/PoisonSpec.v
theories/PoisonProofs.v
theories/PoisonRowProofs.v
theories/PoisonExampleProofs.v
theories/PoisonFriableProofs.v
theories/NegativeRootProofs.v
theories/PoisonProps.v
theories/FileSpec.v
theories/FileProofs.v
theories/FileRowProofs.v
theories/FileTableProofs.v
theories/FileProps.v
theories/RewriteSpec.v
theories/RewriteProofs.v
theories/SchemaAcceptProofs.v
theories/AcceptProps.v
theories/RewriteTypeProofs.v
theories/RewriteProps.v
theories/CommandModel.v
theories/CommandSpec.v
theories/CommandProofs.v
theories/CommandProps.v
theories/FloatModel.v
theories/FloatSpec.v
theories/FloatProofs.v
theories/FloatExampleProofs.v
theories/FloatProps.v
theories/PublishedSpec.v
theories/PublishedProofs.v
theories/PublishedProps.v
theories/EndSpec.v
theories/EndProofs.v
theories/EndProps.v
theories/FloatBoundsModel.v
theories/FloatBoundsSpec.v
theories/FloatBoundsProofs.v
theories/FloatBoundsProps.v
theories/ExactProofs.v
theories/ExactProps.v
theories/ReportModel.v
theories/ReportSpec.v
theories/ReportProofs.v
theories/ReportProps.v
theories/FloatMixModel.v
theories/FloatMixProofs.v
theories/FloatMixProps.v
theories/MissingSpec.v
theories/MissingProofs.v
theories/MissingProps.v
theories/FurtherProofs.v
theories/FurtherExampleProofs.v
theories/FurtherProps.v
theories/EdgeSpec.v
theories/EdgeProofs.v
theories/EdgeProps.v
theories/AcceptSpec.v
theories/AcceptProofs.v
theories/RemainProps.v
theories/ArgvModel.v
theories/ArgvSpec.v
theories/ArgvProofs.v
theories/ArgvProps.v
theories/InfModel.v
theories/InfSpec.v
theories/InfProofs.v
theories/InfProps.v
theories/InfSandModel.v
theories/InfSandProofs.v
theories/InfSandProps.v
theories/InfFluidModel.v
theories/InfFluidProofs.v
theories/InfFluidProps.v
theories/WarnModel.v
theories/WarnSpec.v
theories/WarnProofs.v
theories/WarnExampleProofs.v
theories/WarnProps.v
theories/LineSpec.v
theories/LineProofs.v
theories/LineProps.v
theories/HydroSpec.v
theories/HydroProofs.v
theories/HydroProps.v
theories/FloatPolyModel.v
theories/FloatPolySpec.v
theories/FloatPolyProofs.v
theories/FloatBrineProofs.v
theories/FloatFitProofs.v
theories/FloatPolyProps.v
theories/FloatSandModel.v
theories/FloatSandSpec.v
theories/FloatSandProofs.v
theories/FloatFriableProofs.v
theories/FloatVelocityProofs.v
theories/FloatSandProps.v
theories/FloatPressureSpec.v
theories/FloatPressureModel.v
theories/FloatPressureProofs.v
theories/FloatPressureProps.v
theories/FloatDependencyModel.v
theories/FloatDependencyProofs.v
theories/FloatDependencyProps.v
theories/FloatCorrectionProofs.v
theories/FloatCorrectionProps.v
theories/FloatPolyfitModel.v
theories/FloatPolyfitProofs.v
theories/FloatPolyfitProps.v
theories/FloatTrendSpec.v
theories/FloatTrendModel.v
theories/FloatTrendProofs.v
theories/FloatTrendProps.v
