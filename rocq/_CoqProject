-Q theories Verif
theories/PyBase.v
theories/SplitModel.v
theories/SplitProofs.v
theories/SplitProps.v
theories/StrModel.v
theories/StrProofs.v
theories/StrProps.v
theories/QueueModel.v
theories/QueueSpec.v
theories/QueueProofs.v
theories/QueueProps.v
theories/ExecModel.v
theories/ExecSpec.v
theories/ExecProofs.v
theories/ExecAsyncProofs.v
theories/ExecGenProofs.v
theories/ExecBoundProofs.v
theories/ExecLiveProofs.v
theories/ExecProps.v
theories/JoinModel.v
theories/JoinSpec.v
theories/JoinProofs.v
theories/JoinHistProofs.v
theories/JoinProps.v
theories/ExecAbsProofs.v
theories/ExecEndProofs.v
theories/JoinExecProofs.v
theories/JoinRunProofs.v
theories/JoinRunProps.v
theories/FsModel.v
theories/FsProofs.v
theories/ResultDirModel.v
theories/ResultDirProps.v
theories/LifeModel.v
theories/LifeProps.v
theories/LockModel.v
theories/LockProofs.v
theories/LockProps.v
theories/ResultsModel.v
theories/ResultsProps.v
theories/MultiModel.v
theories/MultiProps.v
theories/ServersModel.v
theories/ServersProps.v
theories/SelectModel.v
theories/SelectProps.v
theories/CompleteModel.v
theories/CompleteProps.v
theories/MeanModel.v
theories/MeanProps.v
theories/BosModel.v
theories/BosProps.v
theories/SurfModel.v
theories/SurfProps.v
theories/GridModel.v
theories/GridProps.v
theories/CorrelModel.v
theories/CorrelProofs.v
theories/CorrelProps.v
theories/ShiftProps.v
theories/PeakProps.v
theories/DirectModel.v
theories/DirectProps.v
theories/FourierBase.v
theories/FourierModel.v
theories/FourierProofs.v
theories/FourierProps.v
theories/NeighModel.v
theories/NeighProps.v
theories/FixModel.v
theories/FixProofs.v
theories/FixProps.v
theories/FloatBase.v
theories/SubpixModel.v
theories/SubpixProps.v
theories/PassModel.v
theories/PassProps.v
theories/NameModel.v
theories/NameProps.v
theories/PivFileModel.v
theories/PivFileProofs.v
theories/PivFileProps.v
theories/PreprocModel.v
theories/PreprocProps.v
theories/LogModel.v
theories/LogProofs.v
theories/LogProps.v
theories/UtilModel.v
theories/UtilProps.v
theories/VecFieldModel.v
theories/VecFieldProps.v
theories/FieldOpsModel.v
theories/FieldOpsProps.v
theories/SpectrumModel.v
theories/SpectrumProps.v
theories/CalibModel.v
theories/CalibProps.v
theories/StereoProps.v
theories/TomoModel.v
theories/TomoProps.v
theories/TpsModel.v
theories/TpsProps.v
theories/TpsSubProps.v
theories/MaskModel.v
theories/MaskProps.v
theories/UvmatModel.v
theories/UvmatProps.v
theories/ToolboxModel.v
theories/ToolboxProps.v
theories/PreprocRankProps.v
theories/Subpix2Props.v
theories/SurfRunProofs.v
theories/SurfRunProps.v
theories/SurfFrameModel.v
theories/SurfFrameProps.v
theories/SurfPhaseModel.v
theories/SurfPhaseProps.v
theories/MonitorModel.v
theories/MonitorProps.v
theories/MonitorJobModel.v
theories/MonitorJobProps.v
theories/MultiprocModel.v
theories/MultiprocProps.v
theories/FirstQueueModel.v
theories/FirstQueueProps.v
theories/ProgressModel.v
theories/ProgressProps.v
theories/SubprocDirModel.v
theories/SubprocDirProps.v
theories/PivPassModel.v
theories/PivHistProps.v
theories/PivInterpProps.v
theories/OptFlowModel.v
theories/OptFlowProps.v
theories/NbCoresModel.v
theories/NbCoresProps.v
theories/Im2ImModel.v
theories/Im2ImProps.v
theories/RayModel.v
theories/RayProps.v
theories/ImViewerModel.v
theories/ImViewerProps.v
theories/PivViewerModel.v
theories/PivViewerProps.v
theories/GridPixelModel.v
theories/GridPixelProps.v
theories/BosRefModel.v
theories/BosRefProps.v
theories/FieldFilterModel.v
theories/FieldFilterProps.v
theories/FieldObjModel.v
theories/FieldObjProps.v
theories/FieldDisplayModel.v
theories/FieldDisplayProps.v
theories/ServerProcModel.v
theories/ServerProcProps.v
theories/OldPostprocModel.v
theories/OldPostprocProps.v
theories/ComputeAgainModel.v
theories/ComputeAgainProps.v
theories/LogPlotModel.v
theories/LogPlotProps.v
theories/DisplayPivModel.v
theories/DisplayPivProps.v
theories/ReportModel.v
theories/ReportProps.v
theories/ToneModel.v
theories/ToneProps.v
theories/GraphModel.v
theories/GraphProps.v
theories/RealCorrelModel.v
theories/RealCorrelProps.v
theories/UvmatFileModel.v
theories/UvmatFileProps.v
theories/DiscoveryModel.v
theories/DiscoveryProps.v
theories/InteractiveModel.v
theories/InteractiveProps.v
theories/WaveVectorModel.v
theories/WaveVectorProps.v
theories/TemporalModel.v
theories/TemporalProps.v
theories/ScrollModel.v
theories/ScrollProps.v
theories/SyntheticModel.v
theories/SyntheticProps.v
theories/CalibArrayModel.v
theories/CalibArrayProps.v
theories/SignalModel.v
theories/SignalProofs.v
theories/SignalProps.v
theories/RunXmlModel.v
theories/RunXmlProps.v
theories/SubprocPipeModel.v
theories/SubprocPipeProps.v
theories/CtrlCModel.v
theories/CtrlCProps.v
theories/CalibCvModel.v
theories/CalibCvProps.v
theories/TomoNearModel.v
theories/TomoNearProps.v
theories/TomoFileModel.v
theories/TomoFileProps.v
theories/CheckInterpModel.v
theories/CheckInterpProps.v
theories/SaveNameModel.v
theories/SaveNameProps.v
