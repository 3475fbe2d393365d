-Q theories Verif
theories/Base.v
theories/BaseFacts.v
theories/ScreenModel.v
theories/ScreenSpec.v
theories/ScreenProofs.v
theories/PropScreen.v
theories/BitmapModel.v
theories/DisplaySpec.v
theories/BitFacts.v
theories/ColourModel.v
theories/BitmapSpec.v
theories/BitmapProofs.v
theories/BitmapApply.v
theories/BitmapState.v
theories/ColourProofs.v
theories/DotsProofs.v
theories/BitmapFacts.v
theories/LineSpec.v
theories/LineProofs.v
theories/PropBitmap.v
theories/TableModel.v
theories/TableSpec.v
theories/LevProofs.v
theories/TableProofs.v
theories/TableFacts.v
theories/CostProofs.v
theories/PropTables.v
theories/DistSpec.v
theories/DistProofs.v
theories/PropDist.v
theories/VideoModel.v
theories/VideoSpec.v
theories/HeapFacts.v
theories/VideoProofs.v
theories/VideoStep.v
theories/VideoFacts.v
theories/VideoThms.v
theories/PrioritySpec.v
theories/PriorityProofs.v
theories/VideoDisplay.v
theories/PaletteFacts.v
theories/VideoExample.v
theories/PriorityExample.v
theories/PropPriority.v
theories/PropVideo.v
theories/ExtraProofs.v
theories/PropExtra.v
theories/OpcodeModel.v
theories/MovieModel.v
theories/MovieSpec.v
theories/ClockModel.v
theories/ClockProofs.v
theories/MovieProofs.v
theories/MovieState.v
theories/MovieThms.v
theories/MovieFinal.v
theories/PropMovie.v
theories/SymbolModel.v
theories/SymbolSpec.v
theories/SymbolProofs.v
theories/SymData.v
theories/SymCert.v
theories/AddrProofs.v
theories/AddrThms.v
theories/ListingProofs.v
theories/PropSymbols.v
theories/GrabberModel.v
theories/GrabberSpec.v
theories/GrabberProofs.v
theories/PropGrabber.v
theories/AudioModel.v
theories/AudioSpec.v
theories/AudioProofs.v
theories/PropAudio.v
theories/SimModel.v
theories/SimSpec.v
theories/SimProofs.v
theories/SimNetSpec.v
theories/SimNetProofs.v
theories/PropSim.v
theories/PropSimNet.v
theories/SimRunModel.v
theories/SimRunSpec.v
theories/SimRunProofs.v
theories/PropSimRun.v
theories/AsmModel.v
theories/PlayerCode.v
theories/CpuModel.v
theories/PlayerModel.v
theories/PlayerSpec.v
theories/PlayerExec.v
theories/ChipProofs.v
theories/TickExec.v
theories/TickCheck.v
theories/RecvCode.v
theories/EffectProofs.v
theories/TickThms.v
theories/RunProofs.v
theories/RecvProofs.v
theories/RecvThms.v
theories/LayoutProofs.v
theories/PropPlayer.v
theories/PlaybackSpec.v
theories/StartupCode.v
theories/StartupProofs.v
theories/PlaybackRead.v
theories/PlaybackProofs.v
theories/PlaybackThms.v
theories/PlaybackConv.v
theories/PauseSpec.v
theories/PauseProofs.v
theories/FidelityProofs.v
theories/PropPlayback.v
theories/PropPause.v
theories/PropFidelity.v
theories/BootSpec.v
theories/BootExec.v
theories/BootProofs.v
theories/ExitProofs.v
theories/BootThms.v
theories/PropBoot.v
theories/TruncProofs.v
theories/PropTrunc.v
theories/ServerModel.v
theories/ServerSpec.v
theories/ServerProofs.v
theories/PropServer.v
theories/MainModel.v
theories/MainSpec.v
theories/MainProofs.v
theories/PropMain.v
theories/SmallSpec.v
theories/SmallEnc.v
theories/SmallMovie.v
theories/SmallProofs.v
theories/PropSmall.v
theories/AudioStreamModel.v
theories/AudioStreamSpec.v
theories/AudioStreamProofs.v
theories/PropAudioStream.v
theories/SmoothSpec.v
theories/SmoothProofs.v
theories/PropSmooth.v
theories/PipeProofs.v
theories/PropPipe.v
theories/IndepSpec.v
theories/IndepProofs.v
theories/PropIndep.v
theories/PropSize.v
theories/AudioFloatModel.v
theories/AudioFloatProofs.v
theories/FloatSpec.v
theories/FloatProofs.v
theories/PropFloat.v
theories/HeapqModel.v
theories/HeapqSpec.v
theories/HeapqProofs.v
theories/PropHeapq.v
theories/UnitTests.v
theories/ArrayModel.v
theories/ArrayFacts.v
theories/ArrayProofs.v
theories/ArrayVideo.v
theories/ArraySpec.v
theories/ArrayMovie.v
theories/ArrayThms.v
theories/PropArray.v
theories/CheckModel.v
theories/PropCheck.v
theories/DecimalModel.v
theories/DecimalProofs.v
theories/PropDecimal.v
theories/CieModel.v
theories/CieProofs.v
theories/CieCert.v
theories/CieThms.v
theories/PropCie.v
theories/SpeedProofs.v
theories/PropSpeed.v
theories/SlowProofs.v
theories/PropSlow.v
theories/CarrierProofs.v
theories/PropCarrier.v
theories/SkipProofs.v
theories/PropSkip.v
theories/LinkProofs.v
theories/PropLink.v
theories/ThinProofs.v
theories/ThinClock.v
theories/PropThin.v
