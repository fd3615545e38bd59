-Q theories Verif
theories/Base/Num.v
theories/Base/Py.v
theories/Base/Arr.v
theories/Model/Layers.v
theories/Model/Archive.v
theories/Model/Grid.v
theories/Model/Interp.v
theories/Model/Shoreline.v
theories/Spec/Profile.v
theories/Proofs/ShorelineP.v
theories/Proofs/InterpP.v
theories/Proofs/ShorelineEx.v
theories/Props/ShorelineProps.v
theories/Model/SeaLevel.v
theories/Model/Subsidence.v
theories/Model/Bathymetry.v
theories/Spec/History.v
theories/Spec/Diffusion.v
theories/Proofs/GridP.v
theories/Proofs/SeaLevelP.v
theories/Proofs/SubsidenceP.v
theories/Proofs/ForcingEx.v
theories/Props/ForcingProps.v
theories/Model/Flexure.v
theories/Model/Submarine.v
theories/Model/Fluvial.v
theories/Model/Clients.v
theories/Proofs/FlexureP.v
theories/Proofs/FlexureEx.v
theories/Props/FlexureProps.v
theories/Proofs/SubmarineP.v
theories/Proofs/SubmarineEx.v
theories/Props/SubmarineProps.v
theories/Spec/Deposition.v
theories/Proofs/FluvialP.v
theories/Proofs/FluvialR.v
theories/Proofs/FluvialEx.v
theories/Spec/Sand.v
theories/Proofs/SandP.v
theories/Props/FluvialProps.v
theories/Spec/Strata.v
theories/Proofs/LayersP.v
theories/Proofs/LayersEx.v
theories/Props/LayersProps.v
theories/Model/Sequence.v
theories/Model/Components.v
theories/Model/Setattr.v
theories/Model/Getattr.v
theories/Model/DryRun.v
theories/Spec/Column.v
theories/Spec/Laid.v
theories/Proofs/SequenceP.v
theories/Proofs/SequenceEx.v
theories/Props/SequenceProps.v
theories/Model/SequenceModel.v
theories/Proofs/SequenceModelP.v
theories/Proofs/ClockP.v
theories/Proofs/LaidP.v
theories/Proofs/SequenceModelEx.v
theories/Proofs/LaidEx.v
theories/Proofs/StartP.v
theories/Proofs/SetattrP.v
theories/Proofs/ForeignP.v
theories/Proofs/DryRunP.v
theories/Proofs/SetattrEx.v
theories/Proofs/SolverP.v
theories/Proofs/StartEx.v
theories/Props/SequenceModelProps.v
theories/Props/LaidProps.v
theories/Props/StartProps.v
theories/Props/SetattrProps.v
theories/Props/RunProps.v
theories/Model/Processes.v
theories/Spec/Parameters.v
theories/Proofs/ProcessesP.v
theories/Props/ProcessesProps.v
theories/Model/Config.v
theories/Spec/Sections.v
theories/Spec/Setting.v
theories/Proofs/ConfigP.v
theories/Proofs/TimeVaryingP.v
theories/Proofs/ConfigEx.v
theories/Props/ConfigProps.v
theories/Model/Cli.v
theories/Spec/CommandLine.v
theories/Proofs/CliP.v
theories/Proofs/DotsP.v
theories/Proofs/RunP.v
theories/Proofs/RunLoopP.v
theories/Proofs/CliEx.v
theories/Props/CliProps.v
theories/Model/Netcdf.v
theories/Model/OutputWriter.v
theories/Spec/Recording.v
theories/Proofs/NetcdfP.v
theories/Proofs/OutputP.v
theories/Proofs/OutputLayersP.v
theories/Proofs/ModelOutputP.v
theories/Proofs/ModelFileP.v
theories/Proofs/OutputRunsP.v
theories/Proofs/OutputEx.v
theories/Props/OutputProps.v
theories/Model/Plot.v
theories/Spec/Polygon.v
theories/Spec/Drawn.v
theories/Proofs/PlotP.v
theories/Proofs/PlotLayersP.v
theories/Proofs/PlotFileP.v
theories/Proofs/PlotRunsP.v
theories/Proofs/PlotGridP.v
theories/Proofs/PlotEx.v
theories/Proofs/GridInitP.v
theories/Props/PlotProps.v
theories/Props/GridProps.v
theories/Model/Commands.v
theories/Spec/Run.v
theories/Proofs/CommandsP.v
theories/Proofs/CommandsEx.v
theories/Proofs/FolderP.v
theories/Props/CommandsProps.v
theories/Spec/Curvature.v
theories/Proofs/CurvatureP.v
theories/Props/CurvatureProps.v
theories/Model/Csv.v
theories/Proofs/CsvP.v
theories/Proofs/TablesP.v
theories/Props/TableProps.v
theories/Model/PlotCommand.v
theories/Proofs/PlotCommandP.v
theories/Props/PlotCommandProps.v
theories/Spec/Script.v
theories/Proofs/ScriptP.v
theories/Proofs/ScriptEx.v
theories/Proofs/CreateP.v
theories/Props/CreateProps.v
theories/Proofs/StartsP.v
theories/Spec/Selecting.v
theories/Proofs/SelectedP.v
theories/Proofs/SelectedEx.v
theories/Props/SelectedProps.v
theories/Model/Whole.v
theories/Model/Water.v
theories/Spec/Watered.v
theories/Spec/Configured.v
theories/Spec/Session.v
theories/Proofs/ShapesP.v
theories/Proofs/CausesP.v
theories/Proofs/WholeP.v
theories/Proofs/LoadP.v
theories/Proofs/NoEffectP.v
theories/Proofs/WholeEx.v
theories/Props/WholeProps.v
theories/Model/Info.v
theories/Spec/Declared.v
theories/Spec/Ordering.v
theories/Proofs/DeclaredP.v
theories/Proofs/DeclaredEx.v
theories/Proofs/OrderP.v
theories/Proofs/OrderEx.v
theories/Props/DeclaredProps.v
theories/Spec/Followed.v
theories/Proofs/FollowP.v
theories/Proofs/SinkP.v
theories/Proofs/FollowEx.v
theories/Props/FollowProps.v
theories/Spec/Turns.v
theories/Proofs/TurnsP.v
theories/Proofs/TurnsEx.v
theories/Props/TurnsProps.v
theories/Spec/Defaults.v
theories/Proofs/DefaultsP.v
theories/Proofs/DefaultsEx.v
theories/Props/DefaultsProps.v
theories/Spec/Accepts.v
theories/Proofs/AcceptsP.v
theories/Proofs/AcceptsEx.v
theories/Props/AcceptsProps.v
theories/Spec/ReadBack.v
theories/Proofs/ReadBackP.v
theories/Proofs/ReadBackEx.v
theories/Props/ReadBackProps.v
theories/Spec/Written.v
theories/Proofs/WrittenP.v
theories/Proofs/WrittenEx.v
theories/Props/WrittenProps.v
theories/Model/Reader.v
theories/Spec/Formats.v
theories/Proofs/FormatsP.v
theories/Proofs/FormatsEx.v
theories/Props/FormatsProps.v
theories/Spec/Doubles.v
theories/Proofs/DoubleP.v
theories/Proofs/DoublesP.v
theories/Proofs/DoublesEx.v
theories/Props/DoublesProps.v
theories/Spec/DoubleLayers.v
theories/Proofs/DoubleLayersP.v
theories/Proofs/DoubleMassP.v
theories/Proofs/DoubleAgesP.v
theories/Proofs/DoubleLayersEx.v
theories/Props/DoubleLayersProps.v
theories/Spec/DoubleRun.v
theories/Proofs/DoubleDivP.v
theories/Proofs/DoubleRunP.v
theories/Proofs/DoubleRunEx.v
theories/Props/DoubleRunProps.v
theories/Proofs/WaterP.v
theories/Proofs/WaterRunP.v
theories/Proofs/DepthP.v
theories/Proofs/WaterEx.v
theories/Props/WaterProps.v
theories/Spec/DoubleTables.v
theories/Proofs/DoubleTableP.v
theories/Proofs/DoubleSeaP.v
theories/Proofs/DoubleSeaEx.v
theories/Props/DoubleSeaProps.v
theories/Spec/Bending.v
theories/Proofs/BendP.v
theories/Proofs/BendEx.v
theories/Props/BendProps.v
theories/Spec/DoubleSinking.v
theories/Proofs/DoubleSinkP.v
theories/Proofs/DoubleSinkEx.v
theories/Props/DoubleSinkProps.v
theories/Spec/DoublePlate.v
theories/Proofs/DoublePlateP.v
theories/Proofs/DoublePlateEx.v
theories/Props/DoublePlateProps.v
theories/Spec/WaterAccepts.v
theories/Proofs/WaterAcceptsP.v
theories/Props/WaterAcceptsProps.v
