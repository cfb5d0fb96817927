-Q theories Verif
theories/AheadFacts.v
theories/Align.v
theories/AlignFacts.v
theories/AlignMore.v
theories/AlignRaw.v
theories/AloneFacts.v
theories/ApartFacts.v
theories/Archive.v
theories/ArchiveFacts.v
theories/Astype.v
theories/AstypeFacts.v
theories/AxesCells.v
theories/AxesFacts.v
theories/AxesLanes.v
theories/AxesMain.v
theories/AxesReduce.v
theories/Base.v
theories/BaseFacts.v
theories/Bounds2Facts.v
theories/BoundsFacts.v
theories/CellsFacts.v
theories/CommuteFacts.v
theories/CommuteLanes.v
theories/CommuteMain.v
theories/CommuteReduce.v
theories/Convert.v
theories/ConvertFacts.v
theories/CovFacts.v
theories/Create.v
theories/CreateFacts.v
theories/Csv.v
theories/CsvFacts.v
theories/CutErr.v
theories/CutFacts.v
theories/DivFacts.v
theories/Equal.v
theories/EqualFacts.v
theories/Exact.v
theories/ExactMove.v
theories/ExtremeFacts.v
theories/Farray.v
theories/FarrayFacts.v
theories/Flabel.v
theories/FlabelFacts.v
theories/Group.v
theories/GroupFacts.v
theories/Heap.v
theories/HeapFacts.v
theories/Index.v
theories/IndexFacts.v
theories/IndexGet.v
theories/IndexLix.v
theories/IndexSep.v
theories/IndexSet.v
theories/Lab.v
theories/LabFacts.v
theories/LaneFacts.v
theories/Lara.v
theories/LaraFacts.v
theories/Larry.v
theories/LarryDef.v
theories/LarryErr.v
theories/LarryFacts.v
theories/LarryMove.v
theories/LawsFacts.v
theories/LawsLogic.v
theories/Limit2Facts.v
theories/LimitFacts.v
theories/MergeFacts.v
theories/Methods.v
theories/Misc.v
theories/MiscFacts.v
theories/Missing.v
theories/Mono2Facts.v
theories/MonoFacts.v
theories/Move.v
theories/MoveFacts.v
theories/Moving.v
theories/MovingFacts.v
theories/NDArray.v
theories/NDArrayFacts.v
theories/NamingFacts.v
theories/NestedFacts.v
theories/Num.v
theories/NumFacts.v
theories/Numeric.v
theories/NumericFacts.v
theories/OneGroupFacts.v
theories/Ops.v
theories/OpsBinary.v
theories/OpsFacts.v
theories/OpsLarry.v
theories/OpsMore.v
theories/OrderFacts.v
theories/Parts2Facts.v
theories/PartsFacts.v
theories/PickFacts.v
theories/PropsAhead.v
theories/PropsAlign.v
theories/PropsAlone.v
theories/PropsApart.v
theories/PropsArchive.v
theories/PropsAstype.v
theories/PropsAxes.v
theories/PropsBounds.v
theories/PropsCells.v
theories/PropsCommute.v
theories/PropsConvert.v
theories/PropsCreate.v
theories/PropsCsv.v
theories/PropsDiv.v
theories/PropsEqual.v
theories/PropsExtreme.v
theories/PropsFarray.v
theories/PropsFlabel.v
theories/PropsGroup.v
theories/PropsHeap.v
theories/PropsIndex.v
theories/PropsLara.v
theories/PropsLarry.v
theories/PropsLaws.v
theories/PropsLimit.v
theories/PropsMisc.v
theories/PropsMono.v
theories/PropsMove.v
theories/PropsMoving.v
theories/PropsNaming.v
theories/PropsNested.v
theories/PropsNumeric.v
theories/PropsOneGroup.v
theories/PropsOps.v
theories/PropsOrder.v
theories/PropsParts.v
theories/PropsRefine.v
theories/PropsRefs.v
theories/PropsRelabel.v
theories/PropsReorder.v
theories/PropsRepr.v
theories/PropsResample.v
theories/PropsRoads.v
theories/PropsScalar.v
theories/PropsSession.v
theories/PropsSetArray.v
theories/PropsShift.v
theories/PropsSkip.v
theories/PropsSlice.v
theories/PropsSpan.v
theories/PropsSteps.v
theories/PropsSummary.v
theories/PropsTable.v
theories/PropsTesting.v
theories/PropsThin.v
theories/PropsTwice.v
theories/PropsUnique.v
theories/PropsYahoo.v
theories/QuantileFacts.v
theories/RankFacts.v
theories/RankLarry.v
theories/ReduceFacts.v
theories/RefineCalls.v
theories/RefineExec.v
theories/RefineFacts.v
theories/RefineMerge.v
theories/RefineMoves.v
theories/RefineOut.v
theories/RefineRun.v
theories/RefineViews.v
theories/Refs.v
theories/RefsFacts.v
theories/RelabelAlign.v
theories/RelabelFacts.v
theories/RelabelInstances.v
theories/RelabelLarry.v
theories/RelabelMain.v
theories/RelabelProgram.v
theories/ReorderFacts.v
theories/ReorderMain.v
theories/Repr.v
theories/ReprFacts.v
theories/Resample.v
theories/ResampleFacts.v
theories/Roads2Facts.v
theories/Roads3Facts.v
theories/Roads4Facts.v
theories/RoadsFacts.v
theories/Scalar.v
theories/ScalarFacts.v
theories/Session.v
theories/SessionFacts.v
theories/SetArray.v
theories/SetArrayFacts.v
theories/ShiftFacts.v
theories/ShiftMain.v
theories/ShiftStats.v
theories/SkipFacts.v
theories/Slice2Facts.v
theories/SliceFacts.v
theories/SortbyFacts.v
theories/Span2Facts.v
theories/SpanFacts.v
theories/Spec.v
theories/SpecAhead.v
theories/SpecAlone.v
theories/SpecApart.v
theories/SpecArchive.v
theories/SpecAstype.v
theories/SpecAxes.v
theories/SpecBounds.v
theories/SpecCells.v
theories/SpecCommute.v
theories/SpecConvert.v
theories/SpecCreate.v
theories/SpecCsv.v
theories/SpecEqual.v
theories/SpecExtreme.v
theories/SpecFacts.v
theories/SpecFarray.v
theories/SpecGroup.v
theories/SpecHeap.v
theories/SpecIndex.v
theories/SpecLara.v
theories/SpecLaws.v
theories/SpecLimit.v
theories/SpecMisc.v
theories/SpecMono.v
theories/SpecMove.v
theories/SpecNaming.v
theories/SpecNested.v
theories/SpecNum.v
theories/SpecOneGroup.v
theories/SpecOps.v
theories/SpecOrder.v
theories/SpecParts.v
theories/SpecRefs.v
theories/SpecRelabel.v
theories/SpecRepr.v
theories/SpecResample.v
theories/SpecRoads.v
theories/SpecScalar.v
theories/SpecSession.v
theories/SpecSetArray.v
theories/SpecShift.v
theories/SpecSkip.v
theories/SpecSlice.v
theories/SpecSpan.v
theories/SpecSummary.v
theories/SpecTable.v
theories/SpecThin.v
theories/SpecTwice.v
theories/SpecUnique.v
theories/SpecYahoo.v
theories/StackFacts.v
theories/Steps2Facts.v
theories/Steps3Facts.v
theories/StepsFacts.v
theories/StridesFacts.v
theories/SummaryFacts.v
theories/Table.v
theories/TableFacts.v
theories/Testing.v
theories/TestingFacts.v
theories/Thin2Facts.v
theories/ThinFacts.v
theories/TwiceFacts.v
theories/Unique.v
theories/UniqueFacts.v
theories/UnitBase.v
theories/UnitDeflarry.v
theories/UnitFlarry.v
theories/UnitOther.v
theories/Yahoo.v
theories/YahooFacts.v
