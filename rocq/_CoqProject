-Q theories Verif
theories/Base.v
theories/Arith.v
theories/Dict.v
theories/Misc.v
theories/Atten.v
theories/LrProp.v
theories/Stats.v
theories/Prep.v
theories/Scripts.v
theories/PyFloat.v
theories/TestLibm.v
theories/Validate.v
theories/RInst.v
theories/RTac.v
theories/SpecDict.v
theories/Frame.v
theories/SpecLr.v
theories/PfCurves.v
theories/PfH0f.v
theories/PfFrame.v
theories/PfLrGen.v
theories/PfArea.v
theories/SpecAvar.v
theories/SpecPrep.v
theories/PfAvarGen.v
theories/PfAvarInc.v
theories/PfAvarApi.v
theories/PfPrepGen.v
theories/Cases.v
theories/PfRuns.v
theories/PfInst.v
theories/PfAvarCases.v
theories/Properties_Lr.v
theories/Properties_Avar.v
theories/SpecCurves.v
theories/PfCurves2.v
theories/Properties_Curves.v
theories/PfPrepReal.v
theories/Properties_Prep.v
theories/SpecRegime.v
theories/PfRegime.v
theories/PfRealRun.v
theories/PfLos.v
theories/Properties_Regime.v
theories/SpecAtten.v
theories/PfAtten.v
theories/PfRealCases.v
theories/Properties_Atten.v
theories/SpecQuant.v
theories/PfQuant.v
theories/PfAvarReal.v
theories/PfQuantCases.v
theories/Properties_Quant.v
theories/PfSort.v
theories/PfMisc.v
theories/SpecNormal.v
theories/PfGauss.v
theories/PfNormal.v
theories/Properties_Misc.v
theories/SpecTerminal.v
theories/PfTerminal.v
theories/Properties_Terminal.v
theories/SpecTerrain.v
theories/PfHzns.v
theories/PfLsq.v
theories/PfDlthx.v
theories/PfTerrainCases.v
theories/Properties_Terrain.v
theories/SpecProfile.v
theories/PfPfl.v
theories/Properties_Profile.v
theories/SpecScripts.v
theories/PfTerrainMod.v
theories/PfP2P.v
theories/PfAreaGrid.v
theories/PfMode.v
theories/PfPimter.v
theories/PfScriptCases.v
theories/Properties_Scripts.v
theories/SpecSwap.v
theories/PfSwap.v
theories/PfSwapCases.v
theories/Properties_Swap.v
theories/SpecStats.v
theories/PfStats.v
theories/Properties_Stats.v
theories/SpecSetup.v
theories/PfSetup.v
theories/SpecScat.v
theories/PfScat.v
theories/SpecLosRef.v
theories/PfLosRef.v
theories/PfRef.v
theories/Properties_Ref.v
theories/SpecSafe.v
theories/PfSafe.v
theories/PfSafeLr.v
theories/PfSafePrep.v
theories/PfSafeScripts.v
theories/PfSafeNan.v
theories/Properties_Safe.v
theories/SpecTotal.v
theories/PfTotal.v
theories/PfTotal2.v
theories/PfTotal3.v
theories/PfTotal4.v
theories/PfTotal5.v
theories/PfTotal6.v
theories/PfTotalCases.v
theories/Properties_Total.v
theories/SpecReverse.v
theories/PfReverse.v
theories/PfReverse2.v
theories/PfReverse3.v
theories/PfReverse4.v
theories/PfReverseCases.v
theories/Properties_Reverse.v
theories/Csv.v
theories/SpecCsv.v
theories/PfCsv.v
theories/PfCsv2.v
theories/Properties_Csv.v
theories/TerrainPath.v
theories/SpecPath.v
theories/PfPath.v
theories/Properties_Path.v
theories/PfAreaRun.v
theories/PfAreaRun2.v
theories/PfAreaRun3.v
theories/SpecAreaRun.v
theories/PfAreaRun4.v
theories/Properties_AreaRun.v
theories/SpecPathRun.v
theories/PfPathRun.v
theories/PfPathRun2.v
theories/PfPathRun3.v
theories/PfPathCases.v
theories/Properties_PathRun.v
theories/SpecTilt.v
theories/PfTilt.v
theories/PfTilt2.v
theories/PfTilt3.v
theories/PfTilt4.v
theories/PfTiltCases.v
theories/Properties_Tilt.v
theories/SpecFlat.v
theories/PfFlat.v
theories/PfFlat2.v
theories/PfFlatCases.v
theories/Properties_Flat.v
theories/SpecBand.v
theories/PfBand.v
theories/PfBand2.v
theories/Properties_Band.v
theories/SpecSense.v
theories/PfSense.v
theories/PfSense2.v
theories/PfSenseCases.v
theories/Properties_Sense.v
theories/Mains.v
theories/SpecMains.v
theories/PfMains.v
theories/Properties_Mains.v
theories/TerrainArea.v
theories/SpecTerrainArea.v
theories/PfTerrainArea.v
theories/Properties_TerrainArea.v
theories/SpecPimter.v
theories/PfPimterRun.v
theories/PfFlight.v
theories/Properties_Pimter.v
theories/SpecIgnored.v
theories/PfIgnored.v
theories/PfIgnored2.v
theories/PfReads.v
theories/PfPimterRow.v
theories/Properties_Ignored.v
theories/PfRealScripts.v
theories/PfRealScripts2.v
theories/SpecLoss.v
theories/PfLoss.v
theories/PfLoss2.v
theories/PfLoss3.v
theories/PfLoss4.v
theories/Properties_Loss.v
theories/Reader.v
theories/SpecReader.v
theories/PfReader.v
theories/PfReader2.v
theories/PfReader3.v
theories/PfReader4.v
theories/PfReader5.v
theories/PfReader6.v
theories/Properties_Reader.v
theories/Properties_PimterMain.v
theories/PfSmooth.v
theories/SpecSmooth.v
theories/PfSmooth2.v
theories/PfSmooth3.v
theories/PfSmooth4.v
theories/PfSmooth5.v
theories/Properties_Smooth.v
theories/SpecHeight.v
theories/PfHeight.v
theories/PfHeight2.v
theories/PfHeight3.v
theories/PfHeight4.v
theories/PfHeight5.v
theories/PfHeightCases.v
theories/Properties_Height.v
