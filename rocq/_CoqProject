-Q theories Verif
theories/Base.v
theories/RangeModel.v
theories/RangeSpec.v
theories/RangeProofs.v
theories/ArrayModel.v
theories/ArraySpec.v
theories/ArrayProofs.v
theories/RangeProps.v
theories/ArrayProps.v
theories/LogicModel.v
theories/LogicSpec.v
theories/LogicProofs.v
theories/LogicProps.v
theories/LogicArrayModel.v
theories/LogicArrayMachine.v
theories/LogicArraySpec.v
theories/LogicArrayProofs.v
theories/LogicArrayRefine.v
theories/LogicArrayThms.v
theories/LogicArrayFormat.v
theories/LogicArrayProps.v
theories/KernelModel.v
theories/KernelProofs.v
theories/KernelHist.v
theories/KernelLog.v
theories/KernelInv.v
theories/KernelTask.v
theories/KernelWake.v
theories/KernelCalls.v
theories/KernelSpec.v
theories/KernelThms.v
theories/KernelLeak.v
theories/KernelProps.v
theories/TextModel.v
theories/ToolsModel.v
theories/ToolsSpec.v
theories/ToolsProofs.v
theories/ToolsProps.v
theories/XmlModel.v
theories/XmlSpec.v
theories/XmlProofs.v
theories/XmlProps.v
theories/TimeModel.v
theories/TimeSpec.v
theories/TimeProofs.v
theories/TimeProps.v
theories/ClockModel.v
theories/ClockSpec.v
theories/ClockProofs.v
theories/ClockProps.v
theories/HandleModel.v
theories/HandleSpec.v
theories/HandleProofs.v
theories/HandleProps.v
theories/LookupModel.v
theories/LookupSpec.v
theories/LookupProofs.v
theories/LookupProps.v
theories/ParamModel.v
theories/ParamSpec.v
theories/ParamProofs.v
theories/ParamProps.v
theories/RegressionModel.v
theories/RegressionSpec.v
theories/RegressionProofs.v
theories/RegressionProps.v
theories/KernelLayer.v
theories/QueueModel.v
theories/HeapProofs.v
theories/QueueSpec.v
theories/QueueProofs.v
theories/QueueWake.v
theories/QueueProps.v
theories/KernelStack.v
theories/WaitModel.v
theories/WaitSpec.v
theories/WaitInv.v
theories/WaitInv2.v
theories/WaitInv3.v
theories/WaitInv4.v
theories/WaitProofs.v
theories/WaitReason.v
theories/WaitThms.v
theories/WaitProps.v
theories/CycleModel.v
theories/CycleProofs.v
theories/CycleProps.v
theories/LayerProofs.v
theories/ManagerModel.v
theories/ManagerSpec.v
theories/ManagerInv.v
theories/ManagerInv2.v
theories/ManagerInv3.v
theories/ManagerInv4.v
theories/ManagerInv5.v
theories/ManagerInv6.v
theories/ManagerThms.v
theories/ManagerWhy.v
theories/ManagerProps.v
theories/TestModel.v
theories/TestSpec.v
theories/StackProofs.v
theories/TestInv.v
theories/TestInv2.v
theories/TestInv3.v
theories/TestWhy.v
theories/TestWhy2.v
theories/TestSafe.v
theories/TestThms.v
theories/TestProps.v
theories/BridgeModel.v
theories/BridgeSpec.v
theories/BridgeInv.v
theories/BridgeInv2.v
theories/BridgeThms.v
theories/BridgeProps.v
theories/QuoteModel.v
theories/QuoteSpec.v
theories/QuoteProofs.v
theories/QuoteRegex.v
theories/QuoteProps.v
theories/RunnerModel.v
theories/RunnerSpec.v
theories/RunnerProofs.v
theories/RunnerProps.v
theories/BuildModel.v
theories/BuildSpec.v
theories/BuildProofs.v
theories/BuildProps.v
theories/LogModel.v
theories/LogSpec.v
theories/LogProofs.v
theories/LogProps.v
theories/InitModel.v
theories/InitSpec.v
theories/InitProofs.v
theories/InitProps.v
theories/PytestModel.v
theories/PytestSpec.v
theories/PytestProofs.v
theories/PytestProps.v
theories/PluginModel.v
theories/PluginSpec.v
theories/PluginProofs.v
theories/PluginProps.v
theories/ScriptSpec.v
theories/ScriptProofs.v
theories/ScriptProps.v
theories/PhaseModel.v
theories/PhaseSpec.v
theories/PhaseProofs.v
theories/PhaseProps.v
theories/SummaryModel.v
theories/SummarySpec.v
theories/SummaryProofs.v
theories/SummaryProps.v
theories/ReportModel.v
theories/ReportSpec.v
theories/ReportProofs.v
theories/ReportProps.v
theories/FixtureModel.v
theories/FixtureSpec.v
theories/FixtureProofs.v
theories/FixtureProps.v
theories/CompatModel.v
theories/CompatSpec.v
theories/CompatProofs.v
theories/CompatProps.v
theories/CurrentModel.v
theories/CurrentSpec.v
theories/CurrentProofs.v
theories/CurrentProps.v
theories/OutcomeModel.v
theories/OutcomeSpec.v
theories/OutcomeProofs.v
theories/OutcomeProps.v
theories/SpanModel.v
theories/SpanSpec.v
theories/SpanProofs.v
theories/SpanProps.v
theories/DriverModel.v
theories/DriverSpec.v
theories/DriverProofs.v
theories/DriverProps.v
theories/GpiClockModel.v
theories/GpiClockProofs.v
theories/GpiClockProps.v
theories/WaveModel.v
theories/WaveSpec.v
theories/WaveProofs.v
theories/WaveProps.v
theories/KernelOpsProps.v
theories/GpiCbModel.v
theories/GpiCbSpec.v
theories/GpiCbProofs.v
theories/GpiCbProps.v
theories/PhaseWriteProps.v
theories/BuiltSpec.v
theories/BuiltProps.v
theories/RefusalProps.v
theories/SharpProps.v
theories/GpiLoadModel.v
theories/GpiLoadProps.v
theories/Sharp2Props.v
theories/Sharp3Props.v
theories/GpiLifeModel.v
theories/GpiLifeProps.v
theories/GpiStoreModel.v
theories/GpiStoreProps.v
theories/VerilatorModel.v
theories/VerilatorProps.v
theories/VpiNameModel.v
theories/VpiNameProps.v
theories/Sharp4Props.v
theories/VhpiArrayModel.v
theories/VhpiArrayProps.v
theories/SigValueModel.v
theories/SigValueProps.v
theories/VhpiNameModel.v
theories/VhpiNameProps.v
theories/FliNameModel.v
theories/FliNameProps.v
theories/Sharp5Props.v
theories/VpiIterModel.v
theories/VpiIterProps.v
theories/Sharp6Props.v
theories/Sharp7Props.v
theories/FliCbModel.v
theories/FliCbProps.v
theories/GpiLogModel.v
theories/GpiLogProps.v
theories/Sharp8Props.v
theories/GpiTimeModel.v
theories/GpiTimeProps.v
theories/EmbedModel.v
theories/EmbedProps.v
theories/VhpiCbModel.v
theories/VhpiCbProps.v
theories/Sharp9Props.v
theories/BindModel.v
theories/BindProps.v
theories/FliLifeModel.v
theories/FliLifeProps.v
theories/ObjTypeModel.v
theories/ObjTypeProps.v
theories/SliceBackProps.v
theories/TraceModel.v
theories/TraceProps.v
theories/CmdVersionModel.v
theories/CmdVersionProps.v
theories/CoverageModel.v
theories/CoverageProps.v
