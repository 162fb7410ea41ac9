-Q theories Verif
theories/ListLemmas.v
theories/CLib.v
theories/TleModel.v
theories/TleSpec.v
theories/TleProofs1.v
theories/TleProofs2.v
theories/TleProofs3.v
theories/TleProofs4.v
theories/TleProofs5.v
theories/TleProofs6.v
theories/TleExamples.v
theories/TleSafeSpec.v
theories/TleSafeProofs.v
theories/TleSafeRuns.v
theories/TleExactSpec.v
theories/TleExactProofs.v
theories/TleExactRuns.v
theories/Prop_Tle.v
theories/FloatModel.v
theories/FloatLemmas.v
theories/CalendarModel.v
theories/CalendarSpec.v
theories/CalendarTable.v
theories/CalendarProofs1.v
theories/CalendarProofs2.v
theories/CalendarProofs3.v
theories/CalendarProofs4.v
theories/CalendarProofs5.v
theories/CalendarProofs6.v
theories/Prop_Calendar.v
theories/HealpixModel.v
theories/HealpixSpec.v
theories/HealpixAngModel.v
theories/HealpixRealModel.v
theories/HealpixFloatModel.v
theories/HealpixFloatSpec.v
theories/HealpixProofs1.v
theories/HealpixProofs2.v
theories/HealpixProofs3.v
theories/HealpixProofs4.v
theories/HealpixProofs5.v
theories/HealpixProofs6.v
theories/HealpixProofs7.v
theories/HealpixProofs8.v
theories/HealpixProofs9.v
theories/HealpixProofs10.v
theories/HealpixProofs11.v
theories/HealpixProofs12.v
theories/HealpixProofs13.v
theories/HealpixProofs14.v
theories/Prop_Healpix.v
theories/JsonSpec.v
theories/JsonAcceptor.v
theories/JsonProofs.v
theories/JsonText.v
theories/IoModel.v
theories/SkymapModel.v
theories/SkymapSpec.v
theories/SkymapOutSpec.v
theories/SkymapExamples.v
theories/SkymapProofs1.v
theories/SkymapProofs2.v
theories/SkymapProofs3.v
theories/SkymapProofs4.v
theories/SkymapProofs5.v
theories/SkymapProofs6.v
theories/SkymapProofs7.v
theories/SkymapProofs8.v
theories/SkymapProofs9.v
theories/SkymapProofs10.v
theories/SkymapRuns.v
theories/Prop_Skymap.v
theories/Prop_Json.v
theories/CliModel.v
theories/CliSpec.v
theories/CliProofs1.v
theories/CliProofs2.v
theories/CliProofs3.v
theories/CliProofs4.v
theories/CliRuns.v
theories/Prop_Cli.v
theories/VisCliModel.v
theories/VisModel.v
theories/VisSpec.v
theories/VisCliSpec.v
theories/VisProofs1.v
theories/VisProofs2.v
theories/VisProofs3.v
theories/VisProofs4.v
theories/VisProofs5.v
theories/VisProofs6.v
theories/VisProofs7.v
theories/VisProofs8.v
theories/VisProofs9.v
theories/VisFindSpec.v
theories/VisProofs10.v
theories/VisRuns.v
theories/Prop_Visibility.v
theories/ArithModel.v
theories/GeoModel.v
theories/GeoSpec.v
theories/GeoLemmas.v
theories/GeoProofs1.v
theories/GeoProofs2.v
theories/GeoProofs3.v
theories/GeoProofs4.v
theories/GeoProofs5.v
theories/GeoProofs6.v
theories/GeoRuns.v
theories/GeoExamples.v
theories/Prop_Geometry.v
theories/TimeModel.v
theories/TimeSpec.v
theories/TimeProofs.v
theories/TimeProofs2.v
theories/TimeProofs3.v
theories/TimeRuns.v
theories/Prop_Time.v
theories/OrbModel.v
theories/OrbSpec.v
theories/OrbTerms.v
theories/OrbProofs1.v
theories/OrbProofs2.v
theories/OrbProofs3.v
theories/OrbProofs4.v
theories/OrbProofs5.v
theories/OrbProofs6.v
theories/OrbExamples.v
theories/OrbProofs7.v
theories/AngleProofs.v
theories/Prop_Orbit.v
theories/DeepModel.v
theories/DeepSpec.v
theories/DeepTerms.v
theories/DeepProofs1.v
theories/DeepProofs2.v
theories/DeepProofs3.v
theories/DeepProofs4.v
theories/DeepProofs5.v
theories/DeepProofs6.v
theories/DeepProofs7.v
theories/DeepProofs8.v
theories/DeepProofs9.v
theories/DeepProofs10.v
theories/DeepProofs11.v
theories/DeepProofs12.v
theories/DeepProofs13.v
theories/DeepExamples.v
theories/HighSpec.v
theories/DeepProofs14.v
theories/Prop_Deep.v
theories/TrigBounds.v
theories/NutModel.v
theories/NutSpec.v
theories/NutProofs1.v
theories/NutProofs2.v
theories/NutProofs3.v
theories/NutProofs4.v
theories/NutProofs5.v
theories/NutExamples.v
theories/Prop_Nut.v
theories/ParSpec.v
theories/GeoProofs7.v
theories/OrbProofs8.v
theories/PipeModel.v
theories/PipeNumModel.v
theories/PipeSpec.v
theories/PipeTerms.v
theories/PipeProofs1.v
theories/PipeProofs2.v
theories/PipeProofs3.v
theories/PipeProofs4.v
theories/PipeProofs5.v
theories/PipeProofs6.v
theories/PipeProofs7.v
theories/PipeProofs8.v
theories/PipeProofs9.v
theories/PipeProofs10.v
theories/PipeExamples.v
theories/Prop_Pipe.v
theories/WatchModel.v
theories/WatchTerms.v
theories/WatchProofs1.v
theories/WatchProofs2.v
theories/WatchProofs3.v
theories/WatchProofs4.v
theories/WatchProofs5.v
theories/WatchExamples.v
theories/Prop_Watch.v
theories/VisDataSpec.v
theories/VisProofs11.v
theories/VisRuns2.v
theories/Prop_VisData.v
theories/ThirdSpec.v
theories/ThirdTerms.v
theories/ThirdProofs1.v
theories/ThirdProofs2.v
theories/ThirdProofs3.v
theories/ThirdProofs4.v
theories/ThirdProofs5.v
theories/ThirdProofs6.v
theories/ThirdProofs7.v
theories/ThirdProofs8.v
theories/Prop_Third.v
theories/Sgp8Model.v
theories/Sgp8Spec.v
theories/Sgp8Proofs1.v
theories/Sgp8Proofs2.v
theories/Sgp8Proofs3.v
theories/Sgp8Proofs4.v
theories/Sgp8Proofs5.v
theories/Sgp8Proofs6.v
theories/Prop_Sgp8.v
theories/DynModel.v
theories/DynSpec.v
theories/DynProofs1.v
theories/Prop_Dyn.v
theories/SgpModel.v
theories/SgpSpec.v
theories/SgpProofs1.v
theories/SgpProofs2.v
theories/SgpProofs3.v
theories/Prop_Sgp.v
theories/Sdp8Model.v
theories/Sdp8Terms.v
theories/Sdp8Proofs1.v
theories/Sdp8Proofs2.v
theories/Prop_Sdp8.v
theories/VisOutSpec.v
theories/VisProofs12.v
theories/VisRuns3.v
theories/Prop_VisJson.v
theories/HealpixAng64Model.v
theories/HealpixAng64Spec.v
theories/HealpixProofs15.v
theories/HealpixProofs16.v
theories/HealpixProofs17.v
theories/HealpixProofs18.v
theories/HealpixProofs19.v
theories/Prop_Healpix64.v
theories/HealpixVecModel.v
theories/HealpixVecSpec.v
theories/HealpixProofs20.v
theories/HealpixProofs21.v
theories/HealpixProofs22.v
theories/HealpixProofs23.v
theories/Prop_HealpixVec.v
theories/HealpixProofs24.v
theories/HealpixProofs25.v
theories/Prop_HealpixNest64.v
theories/GeoMachSpec.v
theories/GeoMachProofs.v
theories/GeoMachRuns.v
theories/Prop_GeoMach.v
theories/GeoNadirSpec.v
theories/GeoNadir.v
theories/GeoAltMach.v
theories/Prop_GeoNadir.v
theories/GeoCirc.v
theories/Prop_GeoCirc.v
theories/GeoSym.v
theories/GeoSymRuns.v
theories/Prop_GeoSym.v
theories/Prop_HealpixRing.v
theories/DatefModel.v
theories/DatefSpec.v
theories/CalendarProofs7.v
theories/CalendarProofs8.v
theories/CalendarProofs9.v
theories/Prop_Datef.v
theories/JsonDataSpec.v
theories/JsonDataProofs.v
theories/SkymapReadSpec.v
theories/SkymapReadProofs.v
theories/Prop_Read.v
theories/VisReadSpec.v
theories/VisReadProofs.v
theories/VisRuns4.v
theories/Prop_VisRead.v
theories/JsonAgreeSpec.v
theories/JsonAgreeProofs.v
theories/DpsecSetModel.v
theories/DpsecSetSpec.v
theories/DpsecSetProofs1.v
theories/DpsecSetProofs2.v
theories/DpsecSetRuns.v
theories/Prop_Settings.v
