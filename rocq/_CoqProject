-Q theories Verif
theories/Lib/Cube.v
theories/Lib/Dict.v
theories/Lib/Np.v
theories/Lib/Py.v
theories/Lib/QSum.v
theories/Lib/Slice.v
theories/Lib/Sorting.v
theories/Spec/AccessSpec.v
theories/Spec/AddSpec.v
theories/Spec/AntParamsSpec.v
theories/Spec/BeamAddSpec.v
theories/Spec/BeamInterpSpec.v
theories/Spec/BeamSelectSpec.v
theories/Spec/BeamSpec.v
theories/Spec/BlsSpec.v
theories/Spec/BltSpec.v
theories/Spec/CalConcatSpec.v
theories/Spec/CalFromDataSpec.v
theories/Spec/CalGainSpec.v
theories/Spec/CalSelectSpec.v
theories/Spec/CalSpec.v
theories/Spec/CalibrateSpec.v
theories/Spec/CollapseSpec.v
theories/Spec/CompressSpec.v
theories/Spec/ConcatSpec.v
theories/Spec/ConjSpec.v
theories/Spec/CoordinatesSpec.v
theories/Spec/EqCoeffsSpec.v
theories/Spec/FlagAddSpec.v
theories/Spec/FlagMetricSpec.v
theories/Spec/FlagModeSpec.v
theories/Spec/FlagSelectSpec.v
theories/Spec/FlagSpec.v
theories/Spec/FlexJonesSpec.v
theories/Spec/FlexPolSpec.v
theories/Spec/FreqAvgSpec.v
theories/Spec/FreqSpec.v
theories/Spec/Hdf5Spec.v
theories/Spec/HistorySpec.v
theories/Spec/InflateSpec.v
theories/Spec/MirAddSpec.v
theories/Spec/MirMetaSpec.v
theories/Spec/MirSelectSpec.v
theories/Spec/MirSpec.v
theories/Spec/MirVisSpec.v
theories/Spec/MwaCorrSpec.v
theories/Spec/NewDataSpec.v
theories/Spec/NormalizeSpec.v
theories/Spec/ParamSpec.v
theories/Spec/ParseAntsSpec.v
theories/Spec/PhaseSpec.v
theories/Spec/PhasingSpec.v
theories/Spec/PolSpec.v
theories/Spec/RedundancySpec.v
theories/Spec/ResampleSpec.v
theories/Spec/RotationSpec.v
theories/Spec/SelectSpec.v
theories/Spec/TimesSpec.v
theories/Spec/ToolsSpec.v
theories/Spec/UVDataSpec.v
theories/Spec/UvfitsSpec.v
theories/Model/Access.v
theories/Model/Add.v
theories/Model/AntParams.v
theories/Model/Beam.v
theories/Model/BeamAdd.v
theories/Model/BeamInterp.v
theories/Model/BeamSelect.v
theories/Model/Bls.v
theories/Model/BltAxis.v
theories/Model/Cache.v
theories/Model/CalConcat.v
theories/Model/CalFromData.v
theories/Model/CalGain.v
theories/Model/CalSelect.v
theories/Model/Calibrate.v
theories/Model/Collapse.v
theories/Model/Compress.v
theories/Model/Concat.v
theories/Model/Coordinates.v
theories/Model/EqCoeffs.v
theories/Model/FlagAdd.v
theories/Model/FlagMode.v
theories/Model/FlagSelect.v
theories/Model/FlexJones.v
theories/Model/FlexPol.v
theories/Model/Freq.v
theories/Model/FreqAvg.v
theories/Model/Hdf5.v
theories/Model/History.v
theories/Model/Inflate.v
theories/Model/KnownAnts.v
theories/Model/Mir.v
theories/Model/MirAdd.v
theories/Model/MirMeta.v
theories/Model/MirSelect.v
theories/Model/MirVis.v
theories/Model/MwaCorr.v
theories/Model/NewData.v
theories/Model/Normalize.v
theories/Model/Param.v
theories/Model/ParseAnts.v
theories/Model/Phase.v
theories/Model/PhaseCenter.v
theories/Model/Pol.v
theories/Model/Redundancy.v
theories/Model/Reorder.v
theories/Model/Resample.v
theories/Model/Rotation.v
theories/Model/Select.v
theories/Model/Times.v
theories/Model/Tools.v
theories/Model/UVCal.v
theories/Model/UVData.v
theories/Model/UVFlag.v
theories/Model/Uvfits.v
theories/Proofs/AccessProofs.v
theories/Proofs/AccessRead.v
theories/Proofs/AddAxis.v
theories/Proofs/AddCases.v
theories/Proofs/AddJoin.v
theories/Proofs/AddMove.v
theories/Proofs/AddProofs.v
theories/Proofs/AddSum.v
theories/Proofs/AddTotal.v
theories/Proofs/AntParamsProofs.v
theories/Proofs/BeamAddProofs.v
theories/Proofs/BeamCases.v
theories/Proofs/BeamInterpCache.v
theories/Proofs/BeamInterpProofs.v
theories/Proofs/BeamPeak.v
theories/Proofs/BeamPower.v
theories/Proofs/BeamSelectProofs.v
theories/Proofs/BeamStokes.v
theories/Proofs/BlsProofs.v
theories/Proofs/BltComplete.v
theories/Proofs/BltProofs.v
theories/Proofs/CacheProofs.v
theories/Proofs/CalAdd.v
theories/Proofs/CalAlign.v
theories/Proofs/CalArrange.v
theories/Proofs/CalConcatProofs.v
theories/Proofs/CalFromDataProofs.v
theories/Proofs/CalGainProofs.v
theories/Proofs/CalGet.v
theories/Proofs/CalJoin.v
theories/Proofs/CalMove.v
theories/Proofs/CalReorder.v
theories/Proofs/CalSelectProofs.v
theories/Proofs/CalSelectTop.v
theories/Proofs/CalSum.v
theories/Proofs/CalcUvw.v
theories/Proofs/CalcUvwAnts.v
theories/Proofs/CalcUvwRoutes.v
theories/Proofs/CalibrateAlign.v
theories/Proofs/CalibrateBase.v
theories/Proofs/CalibrateCases.v
theories/Proofs/CalibrateProofs.v
theories/Proofs/CalibrateTop.v
theories/Proofs/CalibrateTotal.v
theories/Proofs/CollapseProofs.v
theories/Proofs/CompressCases.v
theories/Proofs/CompressProofs.v
theories/Proofs/CompressTop.v
theories/Proofs/ConcatCases.v
theories/Proofs/ConcatCatalog.v
theories/Proofs/ConcatProofs.v
theories/Proofs/ConcatTop.v
theories/Proofs/ConjCases.v
theories/Proofs/ConjProofs.v
theories/Proofs/ConjQuery.v
theories/Proofs/ConjSame.v
theories/Proofs/CoordinatesCases.v
theories/Proofs/CoordinatesProofs.v
theories/Proofs/DownsampleProofs.v
theories/Proofs/DownsampleTop.v
theories/Proofs/DownsampleTotal.v
theories/Proofs/EqCoeffsProofs.v
theories/Proofs/FlagAddProofs.v
theories/Proofs/FlagApply.v
theories/Proofs/FlagCases.v
theories/Proofs/FlagConvert.v
theories/Proofs/FlagMetricProofs.v
theories/Proofs/FlagModeProofs.v
theories/Proofs/FlagProofs.v
theories/Proofs/FlagSelectMain.v
theories/Proofs/FlagSelectProofs.v
theories/Proofs/FlagSelectTop.v
theories/Proofs/FlexJonesBack.v
theories/Proofs/FlexJonesBase.v
theories/Proofs/FlexJonesConvert.v
theories/Proofs/FlexJonesMake.v
theories/Proofs/FlexJonesMatch.v
theories/Proofs/FlexJonesRemove.v
theories/Proofs/FlexPolBack.v
theories/Proofs/FlexPolCombine.v
theories/Proofs/FlexPolConvert.v
theories/Proofs/FlexPolLayout.v
theories/Proofs/FlexPolMake.v
theories/Proofs/FlexPolProofs.v
theories/Proofs/FlexPolSets.v
theories/Proofs/FlexPolTop.v
theories/Proofs/FreqAvgProofs.v
theories/Proofs/FreqAvgTop.v
theories/Proofs/FreqProofs.v
theories/Proofs/FreqReorder.v
theories/Proofs/GeodeticProofs.v
theories/Proofs/Hdf5Proofs.v
theories/Proofs/HistoryProofs.v
theories/Proofs/InflateCases.v
theories/Proofs/InflateNames.v
theories/Proofs/InflateProofs.v
theories/Proofs/InflateTop.v
theories/Proofs/MirAddProofs.v
theories/Proofs/MirBase.v
theories/Proofs/MirCases.v
theories/Proofs/MirMetaMain.v
theories/Proofs/MirMetaProofs.v
theories/Proofs/MirRead.v
theories/Proofs/MirSelectProofs.v
theories/Proofs/MirSeq.v
theories/Proofs/MirTop.v
theories/Proofs/MirVisProofs.v
theories/Proofs/MirWrite.v
theories/Proofs/MwaCorrMain.v
theories/Proofs/MwaCorrProofs.v
theories/Proofs/NewDataProofs.v
theories/Proofs/NormalizeProofs.v
theories/Proofs/ParamProofs.v
theories/Proofs/ParseAntsProofs.v
theories/Proofs/ParseAntsText.v
theories/Proofs/PhaseCases.v
theories/Proofs/PhaseConsolidate.v
theories/Proofs/PhaseHistory.v
theories/Proofs/PhaseMerge.v
theories/Proofs/PhaseOps.v
theories/Proofs/PhasePhase.v
theories/Proofs/PhaseProofs.v
theories/Proofs/PhaseSplit.v
theories/Proofs/PhasingCases.v
theories/Proofs/PhasingOps.v
theories/Proofs/PhasingProofs.v
theories/Proofs/PhasingTop.v
theories/Proofs/PhasingUvw.v
theories/Proofs/PolProofs.v
theories/Proofs/RedundancyBaselines.v
theories/Proofs/RedundancyGrid.v
theories/Proofs/RedundancyProofs.v
theories/Proofs/RedundancyRoutes.v
theories/Proofs/RedundancyTotal.v
theories/Proofs/ReorderProofs.v
theories/Proofs/ResampleBase.v
theories/Proofs/ResampleCases.v
theories/Proofs/RotationProofs.v
theories/Proofs/Samples.v
theories/Proofs/SelectCases.v
theories/Proofs/SelectProofs.v
theories/Proofs/SelectRows.v
theories/Proofs/SelectTotal.v
theories/Proofs/TimesProofs.v
theories/Proofs/ToolsProofs.v
theories/Proofs/UpsampleProofs.v
theories/Proofs/UvfitsProofs.v
theories/Properties/PropAccess.v
theories/Properties/PropAdd.v
theories/Properties/PropAntParams.v
theories/Properties/PropBeam.v
theories/Properties/PropBeamAdd.v
theories/Properties/PropBeamInterp.v
theories/Properties/PropBeamSelect.v
theories/Properties/PropBls.v
theories/Properties/PropBlt.v
theories/Properties/PropCache.v
theories/Properties/PropCalAdd.v
theories/Properties/PropCalConcat.v
theories/Properties/PropCalFromData.v
theories/Properties/PropCalGain.v
theories/Properties/PropCalReorder.v
theories/Properties/PropCalSelect.v
theories/Properties/PropCalibrate.v
theories/Properties/PropCollapse.v
theories/Properties/PropCompress.v
theories/Properties/PropConcat.v
theories/Properties/PropConj.v
theories/Properties/PropCoordinates.v
theories/Properties/PropEqCoeffs.v
theories/Properties/PropFlag.v
theories/Properties/PropFlagAdd.v
theories/Properties/PropFlagMetric.v
theories/Properties/PropFlagMode.v
theories/Properties/PropFlagSelect.v
theories/Properties/PropFlexJones.v
theories/Properties/PropFlexPol.v
theories/Properties/PropFreq.v
theories/Properties/PropFreqAvg.v
theories/Properties/PropHdf5.v
theories/Properties/PropHistory.v
theories/Properties/PropInflate.v
theories/Properties/PropKnownAnts.v
theories/Properties/PropMir.v
theories/Properties/PropMirAdd.v
theories/Properties/PropMirMeta.v
theories/Properties/PropMirSelect.v
theories/Properties/PropMirVis.v
theories/Properties/PropMwaCorr.v
theories/Properties/PropNewData.v
theories/Properties/PropNormalize.v
theories/Properties/PropParam.v
theories/Properties/PropParseAnts.v
theories/Properties/PropPhase.v
theories/Properties/PropPhasing.v
theories/Properties/PropPol.v
theories/Properties/PropRedundancy.v
theories/Properties/PropReorder.v
theories/Properties/PropResample.v
theories/Properties/PropSelect.v
theories/Properties/PropTimes.v
theories/Properties/PropTools.v
theories/Properties/PropUvfits.v
