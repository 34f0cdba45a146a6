-Q theories Verif
theories/Num.v
theories/Py.v
theories/Arr.v
theories/Eos.v
theories/Spice.v
theories/Derived.v
theories/NumFacts.v
theories/ArrFacts.v
theories/SpecEos.v
theories/ProofsEos.v
theories/ProofsEosBox.v
theories/ProofsEosSlope.v
theories/ProofsEosApi.v
theories/PropertiesEos.v
theories/ProofsFields.v
theories/ProofsFields2.v
theories/ProofsFields3.v
theories/SpecSpice.v
theories/ProofsSpice.v
theories/PropertiesFields.v
theories/SpecDz.v
theories/ProofsDz.v
theories/PropertiesDz.v
theories/SpecN2.v
theories/ProofsN2.v
theories/ProofsWave.v
theories/ProofsRename.v
theories/PropertiesN2.v
theories/N2Edges.v
theories/ProofsN2Edges.v
theories/PropertiesN2Edges.v
theories/ProofsBudget.v
theories/SpecVort.v
theories/ProofsVort.v
theories/PropertiesBudget.v
theories/Dataset.v
theories/SpecSteric.v
theories/ProofsSteric.v
theories/ProofsSteric2.v
theories/ProofsSteric3.v
theories/ProofsThermal.v
theories/ProofsStericOk.v
theories/ProofsSteric5.v
theories/ProofsSteric4.v
theories/ProofsStericDemo.v
theories/ProofsStericDemo2.v
theories/PropertiesSteric.v
theories/Util.v
theories/SpecUtil.v
theories/ProofsUtil.v
theories/PropertiesUtil.v
theories/Geo.v
theories/SpecGeo.v
theories/ProofsGeo.v
theories/ProofsGeo2.v
theories/ProofsTide.v
theories/ProofsTide2.v
theories/PropertiesGeo.v
theories/Calendar.v
theories/TimeAvg.v
theories/SpecTime.v
theories/ProofsCal.v
theories/ProofsAvg.v
theories/ProofsAvg2.v
theories/ProofsAvg3.v
theories/ProofsStericAnnual.v
theories/PropertiesTime.v
theories/YearText.v
theories/ProofsYearText.v
theories/TestData.v
theories/ProofsTestTime.v
theories/ProofsTestData.v
theories/PropertiesTestData.v
theories/Trend.v
theories/ProofsTrend.v
theories/SpecTrend.v
theories/ProofsTrend2.v
theories/ProofsTrend3.v
theories/ProofsTrend4.v
theories/PropertiesTrend.v
theories/PropertiesTrend2.v
theories/Seasonal.v
theories/ProofsPinv.v
theories/ProofsSeason.v
theories/SpecSeason.v
theories/ProofsSeason2.v
theories/ProofsSeason3.v
theories/ProofsSeason4.v
theories/ProofsSeason5.v
theories/PropertiesSeason.v
theories/PropertiesSeason2.v
theories/PropertiesSeason3.v
theories/SpecFloat64.v
theories/Ieee.v
theories/SpecIeee.v
theories/ProofsFloat.v
theories/ProofsFloat2.v
theories/ProofsIeee.v
theories/ProofsFloat3.v
theories/ProofsFloat4.v
theories/ProofsFloat5.v
theories/ProofsFloat6.v
theories/ProofsFloat7.v
theories/ProofsFloat13.v
theories/PropertiesFloat.v
theories/IeeeGlobal.v
theories/SpecIeeeGlobal.v
theories/ProofsFloat8.v
theories/ProofsFloat9.v
theories/ProofsFloat10.v
theories/IeeeTime.v
theories/ProofsFloat11.v
theories/ProofsFloat12.v
theories/PropertiesFloat3.v
theories/IeeeTrend.v
theories/PropertiesFloat4.v
theories/Ieee32.v
theories/SpecIeee32.v
theories/ProofsFloat14.v
theories/PropertiesFloat5.v
theories/PropertiesFloat2.v
theories/SpecRename.v
theories/PropertiesRename.v
theories/PropertiesTestData2.v
theories/PropertiesTestData3.v
theories/ProofsMonthly.v
theories/PropertiesTime2.v
theories/PropertiesGeo2.v
theories/PropertiesTrend3.v
theories/TrendAxis.v
theories/PropertiesTrend4.v
theories/PropertiesSteric6.v
theories/ProofsSpice2.v
theories/PropertiesSpice2.v
theories/Meta.v
theories/PropertiesMeta.v
theories/Align.v
theories/ProofsAlign.v
theories/ProofsAlign2.v
theories/PropertiesAlign.v
theories/PropertiesAlign2.v
theories/Attrs.v
theories/SpecUnits.v
theories/ProofsUnits.v
theories/PropertiesUnits.v
theories/SpecPieces.v
theories/ProofsPieces.v
theories/PropertiesPieces.v
theories/PropertiesPieces2.v
theories/PropertiesPieces3.v
theories/PropertiesYears.v
theories/Grid.v
theories/PropertiesGrid.v
theories/PropertiesSteric7.v
theories/PropertiesAnnual.v
theories/PropertiesAnnual2.v
theories/PropertiesYearText.v
theories/TideMeta.v
theories/PropertiesTide.v
theories/TideAux.v
theories/PropertiesTide2.v
theories/ProofsAvg4.v
theories/PropertiesAvg.v
theories/PropertiesSlope.v
theories/PropertiesSlope2.v
theories/PropertiesAngle.v
theories/PropertiesGeo3.v
theories/PropertiesWave.v
theories/IeeeDerived.v
theories/PropertiesFloat7.v
theories/PropertiesMonthly.v
theories/ProofsFloat15.v
theories/ProofsFloat16.v
theories/ProofsFloat17.v
theories/ProofsFloat18.v
theories/PropertiesFloat8.v
theories/PropertiesVort.v
theories/IeeeWave.v
theories/ProofsPi.v
theories/ProofsFloat19.v
theories/PropertiesFloat9.v
theories/IeeeVort.v
theories/ProofsFloat20.v
theories/PropertiesFloat10.v
theories/TestMeta.v
theories/SpecMeta.v
theories/PropertiesTestMeta.v
theories/IeeeBudget.v
theories/ProofsFloat21.v
theories/PropertiesFloat11.v
theories/PropertiesAttrs.v
theories/IeeeSphere.v
theories/SpecIeeeSphere.v
theories/ProofsFloat22.v
theories/ProofsFloat23.v
theories/PropertiesFloat12.v
theories/PropertiesFloat13.v
theories/AvgMeta.v
theories/PropertiesAvgMeta.v
theories/IeeeSpice.v
theories/SpecIeeeSpice.v
theories/ProofsFloat24.v
theories/PropertiesFloat14.v
theories/IeeeTurner.v
theories/SpecIeeeTurner.v
theories/ProofsFloat25.v
theories/ProofsFloat26.v
theories/PropertiesFloat15.v
theories/IeeeBroadcast.v
theories/ProofsFloat27.v
theories/PropertiesFloat16.v
theories/IeeeGeo.v
theories/SpecIeeeGeo.v
theories/ProofsFloat28.v
theories/ProofsFloat29.v
theories/PropertiesFloat17.v
theories/SpecMeta2.v
theories/PropertiesTestMeta2.v
theories/IeeeArea.v
theories/PropertiesFloat18.v
theories/Warn.v
theories/PropertiesWarn.v
theories/Gauges.v
theories/PropertiesGauges.v
theories/PropertiesGeo4.v
theories/PropertiesGeo5.v
theories/PropertiesGeo6.v
theories/PropertiesFloat19.v
theories/PropertiesFloat20.v
theories/Calls.v
theories/PropertiesCalls.v
theories/Kinds.v
theories/PropertiesKinds.v
theories/PropertiesCalls2.v
theories/TideWarn.v
theories/PropertiesTide3.v
