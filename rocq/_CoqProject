-Q theories Verif
theories/AccProofs.v
theories/AccProps.v
theories/AllWs.v
theories/ArgModel.v
theories/ArgMoreProps.v
theories/ArgProofs.v
theories/ArgProps.v
theories/ArgSpec.v
theories/ArgStep.v
theories/AzModel.v
theories/AzProofs.v
theories/AzProps.v
theories/BaseModel.v
theories/BaseProps.v
theories/BeamModel.v
theories/BeamProofs.v
theories/BeamProps.v
theories/BeamSpec.v
theories/CfgProps.v
theories/ChainAux.v
theories/ChainEnd.v
theories/ChainFacts.v
theories/ChainIndep.v
theories/ChainInv.v
theories/ChainLeft.v
theories/ChainMain.v
theories/ChainModel.v
theories/ChainProofs.v
theories/ChainProps.v
theories/ChainSpec.v
theories/CharFit.v
theories/CharModel.v
theories/CharProofs.v
theories/CharProps.v
theories/CharSpec.v
theories/CircProofs.v
theories/CircProps.v
theories/CircSpec.v
theories/CliAdd.v
theories/CliConfirm.v
theories/CliModel.v
theories/CliProofs.v
theories/CliProps.v
theories/CliSpec.v
theories/CliUpgrade.v
theories/ClockChain.v
theories/ClockProps.v
theories/ClockSim.v
theories/ClockSpec.v
theories/Common.v
theories/ConfData.v
theories/ConfModel.v
theories/ConfMoreProps.v
theories/ConfProofs.v
theories/ConfProps.v
theories/ConfSpec.v
theories/Cplx.v
theories/CryoModel.v
theories/CryoProps.v
theories/CurProofs.v
theories/CurveModel.v
theories/CurveProofs.v
theories/CurveProps.v
theories/CurveSpec.v
theories/DerModel.v
theories/DerProps.v
theories/DerSpec.v
theories/DftModel.v
theories/DftProofs.v
theories/DftProps.v
theories/DftSpec.v
theories/Dict.v
theories/DopModel.v
theories/DopProofs.v
theories/DopProps.v
theories/DopSpec.v
theories/EndModel.v
theories/EndProofs.v
theories/EndProps.v
theories/EndRing.v
theories/EndSpec.v
theories/FetchModel.v
theories/FetchProps.v
theories/FetchSpec.v
theories/FigModel.v
theories/FigProofs.v
theories/FigProps.v
theories/FigSpec.v
theories/FileModel.v
theories/FileProofs.v
theories/FileProps.v
theories/FileSpec.v
theories/FlowModel.v
theories/FlowProofs.v
theories/FlowProps.v
theories/FlowSpec.v
theories/FocusTarget.v
theories/FsModel.v
theories/FsProofs.v
theories/FullProofs.v
theories/FullProps.v
theories/FullSpec.v
theories/GcorrDb.v
theories/GcorrModel.v
theories/GcorrProps.v
theories/GeoModel.v
theories/GeoProofs.v
theories/GeoProps.v
theories/GeoSpec.v
theories/GlobModel.v
theories/GlobProps.v
theories/GlobSpec.v
theories/HeldProofs.v
theories/HeldProps.v
theories/HeldSpec.v
theories/HoleProofs.v
theories/HoleProps.v
theories/HoleSpec.v
theories/InfoModel.v
theories/InfoProps.v
theories/InfoSpec.v
theories/InspModel.v
theories/InspProofs.v
theories/InspProps.v
theories/InspSpec.v
theories/IoProofs.v
theories/IoProps.v
theories/IoSpec.v
theories/IsoModel.v
theories/IsoProofs.v
theories/IsoProps.v
theories/IsoSpec.v
theories/IterConv.v
theories/IterModel.v
theories/IterProofs.v
theories/IterProps.v
theories/IterSpec.v
theories/JobModel.v
theories/JobProps.v
theories/JobSpec.v
theories/LaidProofs.v
theories/LaidProps.v
theories/LaidSpec.v
theories/LinModel.v
theories/LinProofs.v
theories/LinProps.v
theories/LinSpec.v
theories/LongProofs.v
theories/LongProps.v
theories/LongSpec.v
theories/LongWhole.v
theories/MadeModel.v
theories/MadeMore.v
theories/MadeProofs.v
theories/MadeProps.v
theories/MadeSpec.v
theories/ManyProofs.v
theories/ManyProps.v
theories/ManySpec.v
theories/MaskModel.v
theories/MaskOn.v
theories/MaskProofs.v
theories/MaskProps.v
theories/MaskSpec.v
theories/MlookModel.v
theories/MlookProofs.v
theories/MlookProps.v
theories/MlookSpec.v
theories/MonHistProps.v
theories/MonHistSpec.v
theories/MonModel.v
theories/MonProofs.v
theories/MonProps.v
theories/MonSpec.v
theories/MoveProps.v
theories/MoveSpec.v
theories/NameModel.v
theories/NameProofs.v
theories/NameProps.v
theories/NameSpec.v
theories/NoteList.v
theories/NoteModel.v
theories/NoteProofs.v
theories/NoteProps.v
theories/NoteSpec.v
theories/OpenedProofs.v
theories/OpenedProps.v
theories/OpenedSpec.v
theories/ParamModel.v
theories/ParamProofs.v
theories/ParamProps.v
theories/ParamSpec.v
theories/PktAngle.v
theories/PktModel.v
theories/PktProofs.v
theories/PktProps.v
theories/PktSpec.v
theories/PointModel.v
theories/PointProofs.v
theories/PointProps.v
theories/PointSpec.v
theories/ReaderModel.v
theories/ReaderMore.v
theories/ReaderProofs.v
theories/ReaderProps.v
theories/ReaderSpec.v
theories/RotProofs.v
theories/RotProps.v
theories/RotSpec.v
theories/SchModel.v
theories/SchProofs.v
theories/SchProps.v
theories/SchSpec.v
theories/SelProofs.v
theories/ShowModel.v
theories/ShowMoreProps.v
theories/ShowProofs.v
theories/ShowProps.v
theories/ShowSpec.v
theories/SplitFull.v
theories/SplitMain.v
theories/SplitProofs.v
theories/SplitProps.v
theories/SplitSpec.v
theories/StackModel.v
theories/StackProofs.v
theories/StackProps.v
theories/StackRmc.v
theories/StackSpec.v
theories/SurfModel.v
theories/SurfMore.v
theories/SurfProofs.v
theories/SurfProps.v
theories/SurfSpec.v
theories/WaveModel.v
theories/WaveMove.v
theories/WaveProofs.v
theories/WaveProps.v
theories/WaveSpec.v
theories/WebModel.v
theories/WebProofs.v
theories/WebProps.v
theories/WebSpec.v
theories/WebWs.v
theories/WholeCal.v
theories/WholeChain.v
theories/WholeModel.v
theories/WholeMove.v
theories/WholeProofs.v
theories/WholeProps.v
theories/WholeSim.v
theories/WholeSpec.v
theories/WindowModel.v
theories/WindowMore.v
theories/WindowProofs.v
theories/WindowProps.v
theories/WindowSpec.v
theories/WriterModel.v
theories/WriterProofs.v
theories/WriterProps.v
theories/WriterSpec.v
theories/WsModel.v
theories/WsProofs.v
theories/WsProps.v
theories/WsSpec.v
theories/WswModel.v
theories/WswProps.v
theories/WswSpec.v
