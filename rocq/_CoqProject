-Q theories Verif
theories/Base.v
theories/Ops.v
theories/CatUtil.v
theories/Decluster.v
theories/Completeness.v
theories/Recurrence.v
theories/MaxMag.v
theories/SimpleFault.v
theories/Tectonic.v
theories/FaultCalc.v
theories/PyStr.v
theories/Csv.v
theories/EqCatalog.v
theories/SourceModel.v
theories/Nrml.v
theories/World.v
theories/CatalogFilter.v
theories/Jobs.v
theories/Workflow.v
theories/Main.v
theories/BaseFacts.v
theories/RFacts.v
theories/CompletenessProofs.v
theories/P_Selection.v
theories/SteppSpec.v
theories/SteppProofs.v
theories/P_Stepp.v
theories/DeclusterSpec.v
theories/DeclusterProofs.v
theories/CalendarSpec.v
theories/GeoProofs.v
theories/DeclusterR.v
theories/HeapSort.v
theories/GkTwice.v
theories/GkLocal.v
theories/AfteranProofs.v
theories/AfteranR.v
theories/P_Geo.v
theories/P_Decluster.v
theories/RecurrenceSpec.v
theories/RecurrenceProofs.v
theories/WeichertProofs.v
theories/WeichertNewton.v
theories/WeichertLocal.v
theories/WeichertGlobal.v
theories/RecurrenceMore.v
theories/P_Recurrence.v
theories/MaxMagProofs.v
theories/KijkoProofs.v
theories/KijkoWitness.v
theories/MomentSpec.v
theories/MomentProofs.v
theories/NormalCdf.v
theories/P_MaxMag.v
theories/FloatOps.v
theories/FaultSpec.v
theories/FaultProofs.v
theories/WeightsFloat.v
theories/RejectProofs.v
theories/P_Fault.v
theories/BudgetSpec.v
theories/BudgetProofs.v
theories/P_Budget.v
theories/PyStrProofs.v
theories/CsvProofs.v
theories/EqCatSpec.v
theories/EqCatProofs.v
theories/EqCatRow.v
theories/EqCatFile.v
theories/EqCatRound.v
theories/EqCatWitness.v
theories/DemoFloat.v
theories/P_Catalog.v
theories/NrmlSpec.v
theories/NrmlRead.v
theories/NrmlRound.v
theories/PyFloat.v
theories/PyFloatProofs.v
theories/PyDecimal.v
theories/PyNearest.v
theories/PyRound.v
theories/FReal.v
theories/FloatSpec.v
theories/PyTexts.v
theories/NrmlFinal.v
theories/P_Nrml.v
theories/FlowSpec.v
theories/FlowPipe.v
theories/FlowFiles.v
theories/FlowTable.v
theories/FlowPre.v
theories/FlowStore.v
theories/FlowTwoStep.v
theories/FlowInterfere.v
theories/FlowOrder.v
theories/FlowFive.v
theories/FlowDemo.v
theories/FlowWitness.v
theories/FlowCases.v
theories/MatrixSpec.v
theories/FlowMatrix.v
theories/PathSpec.v
theories/FlowDir.v
theories/P_Flow.v
theories/P_Matrix.v
theories/Libm.v
theories/Demo.v
theories/FidelityQa.v
theories/GkTwiceW.v
theories/P_Twice.v
theories/Fidelity.v
theories/FidelityFiles.v
theories/OrderProofs.v
theories/FrameSpec.v
theories/FrameProofs.v
theories/EpochProofs.v
theories/AfteranOrder.v
theories/ChainSpec.v
theories/AfteranChain.v
theories/OrderW.v
theories/P_Order.v
theories/CopiesSpec.v
theories/CopiesProofs.v
theories/ShiftSpec.v
theories/ShiftProofs.v
theories/P_Scaling.v
theories/NrmlSchema.v
theories/NrmlValid.v
theories/NrmlValid2.v
theories/PyXsd.v
theories/NrmlValid3.v
theories/NrmlValid4.v
theories/NrmlValid5.v
theories/NrmlSamples.v
theories/FlowValid.v
theories/FlowValidCases.v
theories/P_Schema.v
theories/RepeatSpec.v
theories/FlowRepeat.v
theories/RepeatCases.v
theories/P_Repeat.v
theories/ReuseSpec.v
theories/PyAgain.v
theories/FlowReuse.v
theories/ReuseCases.v
theories/P_Reuse.v
theories/ZoneSpec.v
theories/FlowZones.v
theories/ZoneCases.v
theories/P_Zones.v
theories/RowOrder.v
theories/RowCases.v
theories/P_RowOrder.v
theories/MagShift.v
theories/P_MagShift.v
theories/GkWider.v
theories/AfWider.v
theories/WiderW.v
theories/P_Wider.v
theories/CumBounds.v
theories/CumW.v
theories/P_Cumulative.v
theories/StepCopies.v
theories/P_StepCopies.v
theories/TenthSpec.v
theories/TenthBins.v
theories/P_Tenths.v
theories/FInt.v
theories/FNear.v
theories/WeichertBins.v
theories/WeichertTenths.v
theories/P_WeichertTenths.v
theories/FYear.v
theories/P_FYear.v
theories/RegionEq.v
theories/RegionEqProofs.v
theories/P_RegionEq.v
theories/BootSpec.v
theories/BootProofs.v
theories/P_Boot.v
theories/CatalogueSpec.v
theories/CatalogueProofs.v
theories/P_Catalogue.v
theories/FlowWeichert.v
theories/P_FlowWeichert.v
theories/IncompleteSpec.v
theories/IncompleteProofs.v
theories/P_Incomplete.v
theories/Argparse.v
theories/ArgSpec.v
theories/ArgProofs.v
theories/P_Args.v
theories/DoubleSpec.v
theories/FStepp.v
theories/P_SteppFloat.v
theories/WindowSpec.v
theories/WindowProofs.v
theories/P_Windows.v
theories/NameProofs.v
theories/P_Names.v
theories/MeanSpec.v
theories/MeanProofs.v
theories/P_Mean.v
theories/RangeSpec.v
theories/RangeProofs.v
theories/RangeCase.v
theories/P_Range.v
theories/WholeSpec.v
theories/WholeProofs.v
theories/WholeRuns.v
theories/WholeCase.v
theories/P_Whole.v
theories/DupSpec.v
theories/DupProofs.v
theories/P_Dup.v
theories/ParamSpec.v
theories/ParamProofs.v
theories/ParamCase.v
theories/P_Param.v
theories/JobsetSpec.v
theories/JobsetProofs.v
theories/JobsetCase.v
theories/P_Jobset.v
theories/RestartSpec.v
theories/RestartProofs.v
theories/RestartCase.v
theories/P_Restart.v
theories/StoreSpec.v
theories/StoreProofs.v
theories/StoreCase.v
theories/P_Store.v
theories/CatRateSpec.v
theories/CatRateProofs.v
theories/P_CatRate.v
theories/CatMeanSpec.v
theories/CatMeanProofs.v
theories/P_CatMean.v
theories/InputSpec.v
theories/InputProofs.v
theories/P_Input.v
theories/DefaultSpec.v
theories/DefaultProofs.v
theories/P_Default.v
theories/SourceEq.v
theories/SourceEqProofs.v
theories/P_SourceEq.v
theories/RunsSpec.v
theories/RunsProofs.v
theories/P_Runs.v
theories/DocSpec.v
theories/DocProofs.v
theories/P_Doc.v
theories/TableSpec.v
theories/TableProofs.v
theories/P_Table.v
theories/StoredSpec.v
theories/StoredProofs.v
theories/StoredExact.v
theories/P_Stored.v
theories/Pipeline.v
theories/PlanSpec.v
theories/PlanProofs.v
theories/P_Plan.v
