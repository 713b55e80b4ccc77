-Q theories Verif
theories/Prim.v
theories/Regex.v
theories/Float.v
theories/Values.v
theories/Weather.v
theories/Groups1.v
theories/Groups2.v
theories/Groups3.v
theories/Groups4.v
theories/Parser.v
theories/TestLib.v
theories/Tests_cloudgroup.v
theories/Tests_cloudtype.v
theories/Tests_cloudtypesgroup.v
theories/Tests_direction.v
theories/Tests_distance.v
theories/Tests_fractionstrtouint.v
theories/Tests_getsyntaxgroup.v
theories/Tests_groupparser.v
theories/Tests_keywordgroup.v
theories/Tests_layerforecastgroup.v
theories/Tests_lightninggroup.v
theories/Tests_locationgroup.v
theories/Tests_lowmidhighcloudgroup.v
theories/Tests_metaftime.v
theories/Tests_minmaxtemperaturegroup.v
theories/Tests_miscgroup.v
theories/Tests_parser.v
theories/Tests_precipitation.v
theories/Tests_precipitationgroup.v
theories/Tests_pressure.v
theories/Tests_pressuregroup.v
theories/Tests_pressuretendencygroup.v
theories/Tests_realdata.v
theories/Tests_reporttimegroup.v
theories/Tests_runway.v
theories/Tests_runwaystategroup.v
theories/Tests_seasurfacegroup.v
theories/Tests_speed.v
theories/Tests_strtouint.v
theories/Tests_surfacefriction.v
theories/Tests_temperature.v
theories/Tests_temperaturegroup.v
theories/Tests_trendgroup.v
theories/Tests_unknowngroup.v
theories/Tests_vicinitygroup.v
theories/Tests_visibilitygroup.v
theories/Tests_waveheight.v
theories/Tests_weathergroup.v
theories/Tests_weatherphenomena.v
theories/Tests_windgroup.v
theories/SpecVisitor.v
theories/Pf_Visitor.v
theories/Props_Visitor.v
theories/Lib.v
theories/SpecTokens.v
theories/SpecReads.v
theories/Pf_Tokens.v
theories/Props_Tokens.v
theories/SpecRegex.v
theories/Pf_Regex.v
theories/SpecDecimal.v
theories/Pf_Ok.v
theories/Pf_Decimal.v
theories/Props_Decimal.v
theories/Pf_Caps.v
theories/Pf_OkValues.v
theories/SpecWeather.v
theories/Pf_Weather.v
theories/Pf_OkGroups1.v
theories/Pf_OkGroups2.v
theories/Pf_OkGroups3.v
theories/Pf_OkGroups4.v
theories/SpecReach.v
theories/Pf_Total.v
theories/Props_Total.v
theories/SpecText.v
theories/Pf_Steps.v
theories/Pf_Kinds.v
theories/Pf_View.v
theories/Pf_Fresh.v
theories/Pf_Shape.v
theories/Pf_Reparse.v
theories/Props_Text.v
theories/SpecLimit.v
theories/Pf_Limit.v
theories/Props_Limit.v
theories/SpecGrammar.v
theories/Pf_Grammar.v
theories/Pf_Grammar2.v
theories/Props_Grammar.v
theories/SpecMeta.v
theories/Pf_Active.v
theories/Pf_Meta.v
theories/Pf_Meta2.v
theories/Pf_Parts.v
theories/SpecForm.v
theories/SpecType.v
theories/Pf_Form.v
theories/Pf_Type.v
theories/Props_Meta.v
theories/SpecNumeral.v
theories/Pf_Numeral.v
theories/Pf_Values1.v
theories/Pf_Values2.v
theories/SpecMiles.v
theories/Pf_Values3.v
theories/Pf_Values4.v
theories/Pf_Forms.v
theories/Pf_Values5.v
theories/Pf_Formats.v
theories/SpecCloud.v
theories/Pf_Cloud.v
theories/Pf_Formats2.v
theories/SpecReal.v
theories/SpecDirection.v
theories/SpecDate.v
theories/SpecScale.v
theories/Pf_Values6.v
theories/Pf_Values7.v
theories/Pf_Values8.v
theories/Pf_Values9.v
theories/Props_Formats.v
theories/Props_Values.v
theories/Props_Direction.v
theories/SpecUnits.v
theories/Pf_Round.v
theories/Pf_Convert.v
theories/Pf_Units.v
theories/Pf_Miles.v
theories/Pf_Index.v
theories/Pf_Parsed.v
theories/Props_Convert.v
theories/SpecPhenomena.v
theories/Pf_Phenomena.v
theories/Pf_Decode.v
theories/Pf_Events.v
theories/Pf_Words.v
theories/Pf_EndAppend.v
theories/SpecBuilt.v
theories/Pf_Built.v
theories/Pf_WeatherWords.v
theories/Props_Built.v
theories/Props_Weather.v
theories/SpecAppend.v
theories/Pf_Settled.v
theories/Pf_Refuse.v
theories/SpecTrend.v
theories/Pf_Trend.v
theories/Props_Trend.v
theories/Pf_Shapes.v
theories/SpecMinMax.v
theories/Pf_MinMax.v
theories/Props_MinMax.v
theories/Pf_Same.v
theories/Pf_Keywords.v
theories/Pf_Waits.v
theories/Props_Append.v
theories/SpecAssembled.v
theories/SpecNearby.v
theories/Pf_Assembled.v
theories/Pf_Nearby.v
theories/Pf_Lightning.v
theories/Pf_Vicinity.v
theories/Props_Nearby.v
theories/SpecTexts.v
theories/SpecWind.v
theories/Pf_Layout.v
theories/Pf_Texts.v
theories/Pf_Grown.v
theories/Pf_WindWords.v
theories/Props_Texts.v
theories/Props_Wind.v
theories/SpecVisibility.v
theories/Pf_Prefer.v
theories/Pf_VisTexts.v
theories/Pf_RunwayRange.v
theories/Pf_Visibility.v
theories/Props_Visibility.v
theories/SpecClouds.v
theories/Pf_Clouds.v
theories/Pf_CloudTypes.v
theories/Props_Clouds.v
theories/SpecReadings.v
theories/Pf_Temperatures.v
theories/Pf_Pressures.v
theories/Pf_Tendencies.v
theories/Pf_RunwayStates.v
theories/Props_Readings.v
theories/SpecAmounts.v
theories/Pf_Whole.v
theories/Pf_Amounts.v
theories/Pf_Miscs.v
theories/Props_Amounts.v
theories/SpecOpenings.v
theories/Pf_Disjoint.v
theories/Pf_Openings.v
theories/Pf_OpeningWords.v
theories/Pf_OneKind.v
theories/Props_Openings.v
theories/SpecSentence.v
theories/Pf_TimeOnly.v
theories/Pf_Sentence.v
theories/Pf_Header.v
theories/Pf_Reading.v
theories/Pf_SentenceExample.v
theories/Props_Sentence.v
theories/SpecValid.v
theories/Pf_Order.v
theories/Pf_MileOrder.v
theories/Pf_Valid.v
theories/Pf_Validity.v
theories/Props_Valid.v
theories/SpecWeatherGroup.v
theories/Pf_WeatherGroup.v
theories/Props_WeatherGroup.v
theories/SpecWhole.v
theories/Pf_Division.v
theories/Pf_EveryReport.v
theories/Pf_HeaderWalk.v
theories/Pf_ReportIff.v
theories/Pf_ReportExample.v
theories/Props_Report.v
theories/SpecSaid.v
theories/SpecLongest.v
theories/Pf_Ends.v
theories/Pf_Completion.v
theories/Pf_Said.v
theories/Pf_Longest.v
theories/Pf_Pieces.v
theories/Props_Longest.v
theories/Summary.v
theories/SpecSumNumbers.v
theories/SpecSummary.v
theories/Pf_Bounded.v
theories/Pf_SumTable.v
theories/Pf_SumRange.v
theories/Pf_Summary.v
theories/Pf_SumValues.v
theories/Pf_SumWeather.v
theories/Pf_SumRefuted.v
theories/Props_Summary.v
theories/Format.v
theories/Explain.v
theories/SpecExplain.v
theories/SpecShown.v
theories/Pf_Ghost.v
theories/Pf_ExText.v
theories/Pf_ExDist.v
theories/Pf_ExValues.v
theories/Pf_ExBreaks.v
theories/Pf_Explain.v
theories/Pf_ExTable.v
theories/Pf_ExValid.v
theories/Pf_ExNumber.v
theories/Pf_ExShown.v
theories/Props_Explain.v
theories/SpecKinds.v
theories/SpecFacts.v
theories/Pf_ExFacts.v
theories/Pf_ExFacts2.v
theories/Pf_ExOmits.v
theories/Pf_ExKinds.v
theories/Props_Facts.v
theories/Props_Kinds.v
theories/Tutorial.v
theories/SpecTutorial.v
theories/SpecAgain.v
theories/Pf_Again.v
theories/Pf_Tutorial.v
theories/Props_Again.v
theories/Props_Tutorial.v
theories/SpecCompass.v
theories/Pf_Compass.v
theories/Props_Compass.v
theories/SpecFigures.v
theories/Pf_Figures.v
theories/SpecStream.v
theories/Pf_Stream.v
theories/Pf_StreamMisc.v
theories/Props_Figures.v
theories/SpecWaiting.v
theories/Pf_Waiting.v
theories/Props_Waiting.v
theories/SpecAlphabet.v
theories/Pf_Alphabet.v
theories/Props_Alphabet.v
theories/Pf_Local.v
theories/Pf_Context.v
theories/Props_Local.v
theories/Pf_Cut.v
theories/Props_Cut.v
theories/SpecForeign.v
theories/Pf_Foreign.v
theories/Props_Foreign.v
theories/Page.v
theories/SpecPage.v
theories/Pf_Page.v
theories/Pf_PageLines.v
theories/Pf_PageText.v
theories/Pf_PageIcon.v
theories/Pf_PageWidget.v
theories/Props_Page.v
theories/Props_PageWidget.v
theories/SpecStations.v
theories/Pf_Stations.v
theories/Props_Stations.v
theories/SpecStray.v
theories/Pf_Stray.v
theories/Props_Stray.v
theories/Performance.v
theories/SpecPerformance.v
theories/Pf_PerfBatch.v
theories/Pf_PerfArchive.v
theories/Pf_PerfTest.v
theories/Pf_PerfFreq.v
theories/Pf_PerfGroups.v
theories/Pf_PerfMain.v
theories/Pf_Performance.v
theories/Pf_PerfLine.v
theories/Pf_PerfCases.v
theories/Props_Performance.v
theories/Props_PerfLine.v
theories/ExplainPage.v
theories/SpecLink.v
theories/Pf_Link.v
theories/Pf_LinkReturns.v
theories/Props_Link.v
theories/Options.v
theories/SpecOptions.v
theories/Pf_Options.v
theories/Props_Options.v
theories/PageFlow.v
theories/SpecFlow.v
theories/Pf_Flow.v
theories/Props_Flow.v
theories/Clock.v
theories/SpecClock.v
theories/Pf_Clock.v
theories/Pf_ClockPage.v
theories/Props_Clock.v
theories/Distance.v
theories/SpecDistance.v
theories/Pf_Distance.v
theories/Props_Distance.v
theories/Requests.v
theories/SpecRequests.v
theories/Pf_Requests.v
theories/Props_Requests.v
theories/Pf_PerfBrowser.v
theories/Props_PerfBrowser.v
theories/Pf_Friction.v
theories/Props_Friction.v
