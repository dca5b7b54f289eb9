-Q theories Verif
theories/Py.v
theories/PyStr.v
theories/Sort.v
theories/Num.v
theories/Species.v
theories/SpeciesProofs.v
theories/SpeciesThms.v
theories/Frame.v
theories/Plasma.v
theories/PlasmaProofs.v
theories/PlasmaProofs2.v
theories/PlasmaProofs3.v
theories/PlasmaProofs4.v
theories/PlasmaMore.v
theories/PlasmaThms.v
theories/FrameProofs.v
theories/FrameProofs2.v
theories/FrameThms.v
theories/Spacecraft.v
theories/Store.v
theories/StoreProofs.v
theories/StoreThms.v
theories/Vector.v
theories/VectorThms.v
theories/ObjProto.v
theories/ObjProtoThms.v
theories/Alfven.v
theories/AlfvenThms.v
theories/Tools.v
theories/ToolsThms.v
theories/Instability.v
theories/InstabilityThms.v
theories/Abund.v
theories/AbundData.v
theories/AbundThms.v
theories/FitCore.v
theories/FitCoreThms.v
theories/FitFuncs.v
theories/FitFuncsThms.v
theories/FitGuessThms.v
theories/FitShapeThms.v
theories/TrendFit.v
theories/TrendFitThms.v
theories/TexInfo.v
theories/TexInfoThms.v
theories/Solar.v
theories/SolarThms.v
theories/Activity.v
theories/ActivityThms.v
theories/Loader.v
theories/LoaderThms.v
theories/Icme.v
theories/IcmeThms.v
theories/ExtremaCalc.v
theories/ExtremaCalcThms.v
theories/PlotTools.v
theories/PlotToolsThms.v
theories/LabelTables.v
theories/Labels.v
theories/LabelsThms.v
theories/PlasmaExtra.v
theories/PlasmaExtraThms.v
theories/Hist.v
theories/HistThms.v
theories/HistMoreThms.v
theories/Spiral.v
theories/SpiralThms.v
theories/NumB64.v
theories/Float64Thms.v
theories/FloatErrorThms.v
theories/FloatAlfvenThms.v
theories/FloatHistThms.v
theories/FloatDensThms.v
theories/FloatActThms.v
theories/FloatUnitThms.v
theories/FloatPerpThms.v
theories/FloatComThms.v
theories/SidcState.v
theories/SidcStateThms.v
theories/Tight1Thms.v
theories/TightAlfvenThms.v
theories/FitPlot.v
theories/FitPlotThms.v
theories/PlotBase.v
theories/PlotBaseThms.v
theories/Select.v
theories/SelectThms.v
theories/Orbits.v
theories/OrbitsThms.v
theories/HistPlot.v
theories/HistPlotThms.v
theories/Hist2DPlot.v
theories/Hist2DPlotThms.v
theories/Hist2DJointThms.v
theories/Tight2Thms.v
theories/MoreLabels.v
theories/MoreLabelsThms.v
theories/MoreFits.v
theories/MoreFitsThms.v
theories/Download.v
theories/DownloadThms.v
theories/Tight3Thms.v
theories/Tight4Thms.v
theories/LabelTexThms.v
theories/Tight5Thms.v
theories/Tight6Thms.v
theories/Tight7Thms.v
theories/SpiralPlot.v
theories/SpiralPlotThms.v
theories/SaveFig.v
theories/SaveFigThms.v
theories/Repro.v
theories/ReproThms.v
theories/Tight8Thms.v
theories/TrendPlot.v
theories/TrendPlotThms.v
theories/SelectText.v
theories/SelectTextThms.v
theories/TexReport.v
theories/TexReportThms.v
theories/TexPaperThms.v
theories/Tight9Thms.v
theories/Tight10Thms.v
theories/FitSession.v
theories/FitSessionThms.v
theories/FitSession2Thms.v
theories/TexFormula.v
theories/TexFormulaThms.v
theories/TexBentThms.v
theories/Tight11Thms.v
theories/Tight12Thms.v
theories/OrbitProj.v
theories/OrbitProjThms.v
theories/CoreBits.v
theories/CoreBitsThms.v
theories/FFDraw.v
theories/FFDrawThms.v
theories/ResidDraw.v
theories/ResidDrawThms.v
theories/InstabDraw.v
theories/InstabDrawThms.v
theories/StabColour.v
theories/StabColourThms.v
theories/ExtremaPlot.v
theories/ExtremaPlotThms.v
theories/TrendMake.v
theories/TrendMakeThms.v
theories/SelectHatch.v
theories/SelectHatchThms.v
