-Q theories Verif

theories/ArrayExamples.v
theories/ArrayModel.v
theories/ArrayProofs.v
theories/ArrayProperties.v
theories/ArraySpec.v
theories/AxialModel.v
theories/AxialProofs.v
theories/AxialProperties.v
theories/AxialSpec.v
theories/AxisymModel.v
theories/AxisymProofs.v
theories/AxisymProofs2.v
theories/AxisymProperties.v
theories/BoundaryModel.v
theories/BoundaryProofs.v
theories/BoundaryProofs2.v
theories/BoundaryProofs3.v
theories/BoundaryProperties.v
theories/BoundarySpec.v
theories/BoxProofs.v
theories/CompleteModel.v
theories/CompleteProofs.v
theories/CompleteProperties.v
theories/CompleteSpec.v
theories/ConeModel.v
theories/ConeProofs.v
theories/ConeProofs2.v
theories/ConeProofs3.v
theories/ConeProperties.v
theories/ConeSpec.v
theories/ContextExamples.v
theories/ContextModel.v
theories/ContextProofs.v
theories/ContextProperties.v
theories/ContextSpec.v
theories/CopyModel.v
theories/CopyProperties.v
theories/CopySpec.v
theories/CounterModel.v
theories/CounterProofs.v
theories/CounterProperties.v
theories/CounterSpec.v
theories/CutCellModel.v
theories/CutCellProofs.v
theories/CutCellProperties.v
theories/CutCellSpec.v
theories/DebugModel.v
theories/DebugProofs.v
theories/DebugProofs2.v
theories/DebugProperties.v
theories/DebugSpec.v
theories/DiffusionModel.v
theories/DiffusionProofs.v
theories/DiffusionProofs2.v
theories/DiffusionProperties.v
theories/DiffusionSpec.v
theories/EmbeddedModel.v
theories/EmbeddedProofs.v
theories/EmbeddedProofs2.v
theories/EmbeddedProperties.v
theories/EmbeddedSpec.v
theories/EnergyModel.v
theories/EnergyProofs.v
theories/EnergyProofs2.v
theories/EnergyProofs3.v
theories/EnergyProofs4.v
theories/EnergyProperties.v
theories/EnergySpec.v
theories/ExpansionModel.v
theories/ExpansionProofs.v
theories/ExpansionProofs2.v
theories/ExpansionProofs3.v
theories/ExpansionProofs4.v
theories/ExpansionProperties.v
theories/ExpansionSpec.v
theories/FeedbackModel.v
theories/FeedbackProofs.v
theories/FeedbackProofs2.v
theories/FeedbackProperties.v
theories/FeedbackSpec.v
theories/FixedModel.v
theories/FixedProofs.v
theories/FixedProperties.v
theories/FixedSpec.v
theories/FluxExamples.v
theories/FluxModel.v
theories/FluxProofs.v
theories/FluxProperties.v
theories/FluxSpec.v
theories/GasModel.v
theories/GasProofs.v
theories/GasProperties.v
theories/GasSpec.v
theories/GeometryModel.v
theories/GeometryProofs.v
theories/GeometryProofs2.v
theories/GeometryProofs3.v
theories/GeometryProperties.v
theories/GeometryProperties2.v
theories/GeometrySpec.v
theories/HGridModel.v
theories/HGridProofs.v
theories/HGridProperties.v
theories/HGridProperties2.v
theories/HGridSpec.v
theories/Hdf5Model.v
theories/Hdf5Proofs.v
theories/Hdf5Proofs2.v
theories/Hdf5Properties.v
theories/Hdf5Spec.v
theories/HllemModel.v
theories/HllemProofs.v
theories/HllemProperties.v
theories/HllemSpec.v
theories/HllemUpwindProofs.v
theories/HllemUpwindProperties.v
theories/IgniteModel.v
theories/IgniteProofs.v
theories/IgniteProperties.v
theories/IgniteSpec.v
theories/InflowModel.v
theories/InflowProofs.v
theories/InflowProperties.v
theories/InflowSpec.v
theories/KineticsModel.v
theories/KineticsProofs.v
theories/KineticsProperties.v
theories/KineticsSpec.v
theories/LimiterModel.v
theories/LimiterProofs.v
theories/LimiterProperties.v
theories/LimiterSpec.v
theories/LogModel.v
theories/LogProofs.v
theories/LogProperties.v
theories/LogSpec.v
theories/LowMachModel.v
theories/LowMachProofs.v
theories/LowMachProofs2.v
theories/LowMachProofs3.v
theories/LowMachProperties.v
theories/LowMachProperties2.v
theories/LowMachSpec.v
theories/MassflowModel.v
theories/MassflowProofs.v
theories/MassflowProperties.v
theories/MdGradientModel.v
theories/MdGradientProofs.v
theories/MdGradientProperties.v
theories/MdGradientSpec.v
theories/MdLimiterModel.v
theories/MdLimiterProofs.v
theories/MdLimiterProperties.v
theories/MdLimiterSpec.v
theories/MechAramco74.v
theories/MechAramco91.v
theories/MechBurke.v
theories/MechGri.v
theories/MechZhao.v
theories/MechanismModel.v
theories/MechanismProofs.v
theories/MechanismProofs2.v
theories/MechanismProofs3.v
theories/MechanismProofs4.v
theories/MechanismProofs5.v
theories/MechanismProofs6.v
theories/MechanismProperties.v
theories/MechanismSpec.v
theories/MultiBlockModel.v
theories/MultiBlockProofs.v
theories/MultiBlockProofs2.v
theories/MultiBlockProofs3.v
theories/MultiBlockProperties.v
theories/MultiBlockSpec.v
theories/MultigridModel.v
theories/MultigridProofs.v
theories/MultigridProofs2.v
theories/MultigridProperties.v
theories/MultigridSpec.v
theories/NewtonModel.v
theories/NewtonProofs.v
theories/NewtonProofs2.v
theories/NewtonProperties.v
theories/NewtonProperties2.v
theories/NewtonSpec.v
theories/NoSubcycleProofs.v
theories/OdeModel.v
theories/OdeProperties.v
theories/OdeSpec.v
theories/OptionsModel.v
theories/OptionsProofs.v
theories/OptionsProperties.v
theories/OptionsSpec.v
theories/OutputExamples.v
theories/OutputModel.v
theories/OutputProofs.v
theories/OutputProperties.v
theories/OutputSpec.v
theories/PlenaModel.v
theories/PlenaProofs.v
theories/PlenaProperties.v
theories/PlenaSpec.v
theories/PoolModel.v
theories/PoolProofs.v
theories/PoolProperties.v
theories/PoolSpec.v
theories/PrimMusclModel.v
theories/PrimMusclProofs.v
theories/PrimMusclProofs2.v
theories/PrimMusclProperties.v
theories/PrimMusclSpec.v
theories/ProfileModel.v
theories/ProfileProofs.v
theories/ProfileProperties.v
theories/ProfileSpec.v
theories/RangeModel.v
theories/RangeProofs.v
theories/RangeProperties.v
theories/RangeSpec.v
theories/ReactorModel.v
theories/ReactorProofs.v
theories/ReactorProofs2.v
theories/ReactorProofs3.v
theories/ReactorProofs4.v
theories/ReactorProperties.v
theories/ReactorProperties2.v
theories/ReactorSpec.v
theories/ReconstructModel.v
theories/ReconstructProofs.v
theories/ReconstructProofs2.v
theories/ReconstructProofs3.v
theories/ReconstructProofs4.v
theories/ReconstructProperties.v
theories/ReconstructSpec.v
theories/RefluxExamples.v
theories/RefluxModel.v
theories/RefluxProofs.v
theories/RefluxProofs2.v
theories/RefluxProofs3.v
theories/RefluxProofs4.v
theories/RefluxProperties.v
theories/RefluxSpec.v
theories/RegionModel.v
theories/RegionProofs.v
theories/RegionProperties.v
theories/RegionSpec.v
theories/RegularModel.v
theories/RegularProofs.v
theories/RegularProperties.v
theories/RegularSpec.v
theories/RiemannModel.v
theories/RiemannProofs.v
theories/RiemannProofs2.v
theories/RiemannProofs3.v
theories/RiemannProofs4.v
theories/RiemannProofs5.v
theories/RiemannProperties.v
theories/RiemannSpec.v
theories/Rk3Model.v
theories/Rk3Proofs.v
theories/Rk3Proofs2.v
theories/Rk3Properties.v
theories/Rk3Spec.v
theories/RotationProofs.v
theories/RunExamples.v
theories/RunModel.v
theories/RunProofs.v
theories/RunProperties.v
theories/RunSpec.v
theories/ShallowModel.v
theories/ShallowProofs.v
theories/ShallowProofs2.v
theories/ShallowProofs3.v
theories/ShallowProperties.v
theories/ShallowSpec.v
theories/SlabModel.v
theories/SlabProofs.v
theories/SlabProperties.v
theories/SlabSpec.v
theories/SourceModel.v
theories/SourceProofs.v
theories/SourceProperties.v
theories/SourceSpec.v
theories/SplitExamples.v
theories/SplitModel.v
theories/SplitProofs.v
theories/SplitProperties.v
theories/SplitSpec.v
theories/StableDtModel.v
theories/StableDtProofs.v
theories/StableDtProperties.v
theories/StableDtSpec.v
theories/StartModel.v
theories/StartProofs.v
theories/StartProperties.v
theories/StartSpec.v
theories/StateModel.v
theories/StateProofs.v
theories/StateProofs2.v
theories/StateProofs3.v
theories/StateProperties.v
theories/StateSpec.v
theories/SubcycleExamples.v
theories/SubcycleModel.v
theories/SubcycleProofs.v
theories/SubcycleProperties.v
theories/SubcycleSpec.v
theories/TableModel.v
theories/TableProofs.v
theories/TableProperties.v
theories/TableSpec.v
theories/TaggingModel.v
theories/TaggingProofs.v
theories/TaggingProofs2.v
theories/TaggingProperties.v
theories/TaggingSpec.v
theories/ThreadsModel.v
theories/ThreadsProofs.v
theories/ThreadsProperties.v
theories/ThreadsSpec.v
theories/TubeIgniteModel.v
theories/TubeIgniteProofs.v
theories/TubeIgniteProperties.v
theories/TubeIgniteSpec.v
theories/TubeModel.v
theories/TubeProofs.v
theories/TubeProofs2.v
theories/TubeProperties.v
theories/TubeSpec.v
theories/TurbineModel.v
theories/TurbineProofs.v
theories/TurbineProofs2.v
theories/TurbineProofs3.v
theories/TurbineProofs4.v
theories/TurbineProofs5.v
theories/TurbineProperties.v
theories/TurbineSpec.v
theories/UpdateExamples.v
theories/UpdateModel.v
theories/UpdateProofs.v
theories/UpdateProofs2.v
theories/UpdateProofs3.v
theories/UpdateProofs4.v
theories/UpdateProperties.v
theories/UpdateSpec.v
theories/ValveModel.v
theories/ValveProofs.v
theories/ValveProperties.v
theories/ValveSpec.v
theories/WallModel.v
theories/WallProofs.v
theories/WallProperties.v
