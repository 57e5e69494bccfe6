-Q theories Verif
theories/Base.v
theories/Num.v
theories/RNum.v
theories/PyNum.v
theories/Numpy.v
theories/LoadCase.v
theories/Beam.v
theories/Solvers.v
theories/Material.v
theories/AS4100.v
theories/Sanity.v
theories/PyReal.v
theories/S5.v
theories/S7.v
theories/Symmetry.v
theories/S6.v
theories/SectProps.v
theories/S7Facts.v
theories/P_S7.v
theories/S5Facts.v
theories/P_S5.v
theories/S6Facts.v
theories/S6Torsion.v
theories/S6Unsym.v
theories/S6Length.v
theories/S6Cases.v
theories/UnsymLength.v
theories/S6Slack.v
theories/YieldCurve.v
theories/YieldCells.v
theories/YieldFacts.v
theories/UnitFacts.v
theories/S6Value.v
theories/FormulaCases.v
theories/P_S6.v
theories/FormulaFacts.v
theories/P_Formulas.v
theories/SectFacts.v
theories/P_Sect.v
theories/DesignSpec.v
theories/DesignFacts.v
theories/P_Design.v
theories/OrdFacts.v
theories/LoadFacts.v
theories/LoadSpec.v
theories/LoadProofs.v
theories/P_LoadCase.v
theories/SolverSpec.v
theories/SolverFacts.v
theories/SolverProofs.v
theories/P_Solvers.v
theories/MaterialFacts.v
theories/P_Material.v
theories/BeamSpec.v
theories/BeamFacts.v
theories/BeamPositions.v
theories/BeamProofs.v
theories/BeamLoads.v
theories/TableCut.v
theories/BeamCut.v
theories/BeamMisc.v
theories/BeamFloat.v
theories/BeamCases.v
theories/P_Beam.v
theories/AS4100Spec.v
theories/AS4100Facts.v
theories/AS4100Util.v
theories/AS4100Scale.v
theories/IntFloat.v
theories/AS4100Int.v
theories/AS4100Cases.v
theories/P_AS4100.v
theories/MatSpec.v
theories/Frame.v
theories/MatEq.v
theories/EqualCases.v
theories/P_Equal.v
theories/S6Cache.v
theories/S6CacheFacts.v
theories/S6CacheProofs.v
theories/S6CacheNc.v
theories/S6CacheSession.v
theories/S6CacheCases.v
theories/P_S6Cache.v
theories/ArrayHeap.v
theories/ArrayFacts.v
theories/ArrayBeam.v
theories/ArraySpec.v
theories/ArrayProofs.v
theories/ArrayCases.v
theories/P_Arrays.v
theories/Objects.v
theories/ObjectFacts.v
theories/ObjectCases.v
theories/CtorFacts.v
theories/P_Objects.v
theories/TransformSpec.v
theories/BeamJoin.v
theories/BeamUnits.v
theories/BeamMirror.v
theories/TransformCases.v
theories/P_Transform.v
theories/BeamCutAt.v
theories/PeakSpec.v
theories/Peak.v
theories/SameUtil.v
theories/PeakCases.v
theories/P_Peak.v
theories/TabulateSpec.v
theories/Tabulate.v
theories/Combine.v
theories/TabulateCases.v
theories/P_Tabulate.v
theories/HeavierSpec.v
theories/Heavier.v
theories/HeavierCases.v
theories/P_Heavier.v
theories/FloatRound.v
theories/FloatOps.v
theories/FloatSpec.v
theories/FloatFacts.v
theories/FloatBeam.v
theories/FloatLocs.v
theories/FloatQueries.v
theories/FloatSolvers.v
theories/FloatValSpec.v
theories/FloatInterp.v
theories/FloatError.v
theories/FloatUtil.v
theories/FloatUtilSpec.v
theories/FloatCheck.v
theories/PiBound.v
theories/FloatCapacity.v
theories/FloatDesign.v
theories/FloatDesignCases.v
theories/FloatCases.v
theories/P_Floats.v
theories/P_FloatUtil.v
theories/FloatPlaceSpec.v
theories/FloatPlaces.v
theories/FloatLoads.v
theories/FloatEnd.v
theories/FloatPlaceCases.v
theories/P_FloatPlaces.v
theories/FloatRoot.v
theories/NumFormulas.v
theories/NumFormulasFacts.v
theories/FloatFormulaSpec.v
theories/FloatCalc.v
theories/FloatFormulas.v
theories/FloatNear.v
theories/FloatAlphaC.v
theories/FloatStocky.v
theories/FloatPow.v
theories/FloatFormulaFinal.v
theories/P_FloatFormulas.v
theories/NumS6.v
theories/NumS6Facts.v
theories/FloatS6Spec.v
theories/FloatTorsion.v
theories/FloatPow6.v
theories/FloatColumn.v
theories/FloatNc.v
theories/FloatNcCases.v
theories/P_FloatColumn.v
theories/NumSect.v
theories/NumSectFacts.v
theories/FloatOrderSpec.v
theories/FloatOrder.v
theories/FloatMono.v
theories/FloatSect.v
theories/FloatCaps.v
theories/FloatOrderCases.v
theories/P_FloatOrder.v
theories/NumLinks.v
theories/P_FloatLinks.v
theories/RestateSpec.v
theories/Restate.v
theories/P_Restate.v
theories/Listing.v
theories/ListingFacts.v
theories/P_Listing.v
theories/SuiteTests.v
theories/TestValues.v
theories/FloatTableSpec.v
theories/FloatTable.v
theories/FloatLin.v
theories/TabulateAny.v
theories/FloatTab.v
theories/FloatTableCases.v
theories/P_FloatTable.v
theories/FloatBisectSpec.v
theories/FloatBisect.v
theories/FloatBisectCases.v
theories/P_FloatBisect.v
theories/Parts.v
theories/PartsCases.v
theories/P_Parts.v
theories/Exceptions.v
theories/ErrorSpec.v
theories/Errors.v
theories/ErrorsSecant.v
theories/ErrorsCheck.v
theories/ErrorsCases.v
theories/P_Errors.v
theories/FloatStoredSpec.v
theories/FloatStored.v
theories/FloatStoredCases.v
theories/P_FloatStored.v
theories/FloatSecantSpec.v
theories/FloatSecant.v
theories/FloatSecantCases.v
theories/P_FloatSecant.v
theories/S6Threads.v
theories/S6ThreadsFacts.v
theories/S6ThreadsProofs.v
theories/S6ThreadsPool.v
theories/S6ThreadsResults.v
theories/P_Threads.v
theories/SecantConvex.v
theories/P_SecantConvex.v
theories/AS4100Lit.v
theories/P_AS4100Lit.v
theories/NumCache.v
theories/NumCacheFacts.v
theories/NumCacheDoubles.v
theories/P_NumCache.v
theories/SymDefault.v
theories/P_SymDefault.v
theories/Sizes.v
theories/P_Sizes.v
theories/Repr.v
theories/P_Repr.v
