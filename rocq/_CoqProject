-Q theories Verif
theories/Attributes.v
theories/Base.v
theories/CalProofs.v
theories/Classes.v
theories/Convert.v
theories/ConvertProofs.v
theories/Core.v
theories/Dataset.v
theories/DatasetProofs.v
theories/Density.v
theories/DictLemmas.v
theories/Files.v
theories/GranProofs.v
theories/Heap.v
theories/Interface.v
theories/Interrupt.v
theories/Loss.v
theories/Lsq.v
theories/LsqProofs.v
theories/Meta.v
theories/Metadata.v
theories/Num.v
theories/Plot.v
theories/PlotProofs.v
theories/PropAccuracy.v
theories/PropAcidDensity.v
theories/PropAlign.v
theories/PropAmount.v
theories/PropAppend.v
theories/PropAttributes.v
theories/PropBatch.v
theories/PropBestFit.v
theories/PropCalHistory.v
theories/PropCalibrate.v
theories/PropCases.v
theories/PropConvert.v
theories/PropCrashWrite.v
theories/PropCurves.v
theories/PropDamaged.v
theories/PropDataset.v
theories/PropDefaults.v
theories/PropDensity.v
theories/PropDickson.v
theories/PropDilution64.v
theories/PropDrift.v
theories/PropDrop.v
theories/PropEmf.v
theories/PropExtraAcid.v
theories/PropFindings.v
theories/PropFit.v
theories/PropFlag.v
theories/PropFloat.v
theories/PropGran.v
theories/PropGranReported.v
theories/PropHistory.v
theories/PropIgnored.v
theories/PropInstances.v
theories/PropInterrupt.v
theories/PropInvariance.v
theories/PropKwargs.v
theories/PropLeaveOut.v
theories/PropLeftover.v
theories/PropLineEnds.v
theories/PropLoss.v
theories/PropMean64.v
theories/PropMetadata.v
theories/PropMissing.v
theories/PropModes.v
theories/PropMonotone.v
theories/PropOffset64.v
theories/PropOffsets.v
theories/PropOrder.v
theories/PropPlot.v
theories/PropPlotData.v
theories/PropPlotReal.v
theories/PropProduct.v
theories/PropProfile.v
theories/PropPure.v
theories/PropPyCO2.v
theories/PropReadSettings.v
theories/PropReaders.v
theories/PropReference.v
theories/PropReport.v
theories/PropRowOrder.v
theories/PropSampleMass.v
theories/PropSampleVolume.v
theories/PropSensitive.v
theories/PropSettings.v
theories/PropShared.v
theories/PropSharp.v
theories/PropSimTitration.v
theories/PropSimulate.v
theories/PropSolve.v
theories/PropSpelling.v
theories/PropSpread.v
theories/PropStack.v
theories/PropStale.v
theories/PropSulfuric.v
theories/PropSupplied.v
theories/PropTable.v
theories/PropTables.v
theories/PropTemperature.v
theories/PropText.v
theories/PropTitrantDensity.v
theories/PropTitrantShare.v
theories/PropTitration.v
theories/PropTitrationWitness.v
theories/PropTransfer.v
theories/PropUnique.v
theories/PropVouch.v
theories/PropWhichFile.v
theories/PropWindow64.v
theories/PropWorkflow.v
theories/RowProofs.v
theories/SFNum.v
theories/SettingsProofs.v
theories/SimMono.v
theories/SimProofs.v
theories/SimTitration.v
theories/Simulate.v
theories/SolveProofs.v
theories/SpecConvert.v
theories/SpecCore.v
theories/SpecDataset.v
theories/SpecLoss.v
theories/SpecMetadata.v
theories/SpecPlot.v
theories/SpecSettings.v
theories/SpecSimTitration.v
theories/SpecSimulate.v
theories/SpecText.v
theories/SpecTitration.v
theories/TableProofs.v
theories/Text.v
theories/TextProofs.v
theories/TitrationProofs.v
theories/Titrations.v
theories/Witness.v
theories/XR.v
theories/XRLemmas.v
