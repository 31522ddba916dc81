-Q theories Verif

theories/Base/Num.v
theories/Base/Res.v
theories/Base/FloatNum.v
theories/Base/Tac.v
theories/Model/Units.v
theories/Model/Util.v
theories/Model/Psychrometrics.v
theories/Model/Conditions.v
theories/Model/Defrost.v
theories/Model/Fan.v
theories/Model/Curves.v
theories/Model/Tabular.v
theories/Model/Unit.v
theories/Model/NREL.v
theories/Model/BaseModel.v
theories/Model/Title24.v
theories/Model/Resnet.v
theories/Model/DXUnit.v
theories/Model/RatingSolver.v
theories/Model/Idf.v
theories/Model/Repr205.v
theories/Model/Validation.v
theories/Model/Report.v
theories/Spec/UtilSpec.v
theories/Proofs/UtilProofs.v
theories/Props/P_Util.v
theories/Spec/PsychSpec.v
theories/Proofs/PsychProofs.v
theories/Props/P_Psych.v
theories/Spec/CondSpec.v
theories/Proofs/CondProofs.v
theories/Proofs/StdAir.v
theories/Spec/DefrostSpec.v
theories/Proofs/DefrostProofs.v
theories/Props/P_Cond.v
theories/Props/P_Defrost.v
theories/Spec/FanSpec.v
theories/Spec/FanRatioSpec.v
theories/Proofs/FanProofs.v
theories/Proofs/UnitsR.v
theories/Proofs/FanProofs2.v
theories/Proofs/FanProofs3.v
theories/Proofs/FanProofs4.v
theories/Proofs/FanRatio.v
theories/Props/P_Fan.v
theories/Spec/TabularSpec.v
theories/Proofs/Lin1.v
theories/Proofs/TabCells.v
theories/Proofs/TabAdd.v
theories/Proofs/TabInterp.v
theories/Proofs/TabGross.v
theories/Proofs/TabBuild.v
theories/Proofs/TabTotal.v
theories/Proofs/TabNeep.v
theories/Proofs/TabNeep2.v
theories/Proofs/TabMisc.v
theories/Props/P_Tabular.v
theories/Spec/NrelSpec.v
theories/Proofs/MakeCond.v
theories/Proofs/NrelProofs.v
theories/Proofs/ToyUnit.v
theories/Proofs/NrelProofs2.v
theories/Props/P_Nrel.v
theories/Spec/ModelSpec.v
theories/Proofs/T24Cache.v
theories/Proofs/ModelProofs.v
theories/Proofs/ResnetProofs.v
theories/Proofs/ModelExamples.v
theories/Props/P_Models.v
theories/Spec/UnitModels.v
theories/Spec/UnitSpec.v
theories/Proofs/Frame.v
theories/Proofs/StandardProofs.v
theories/Proofs/StandardProofs2.v
theories/Proofs/UnitProofs.v
theories/Proofs/UnitProofs2.v
theories/Proofs/UnitProofs3.v
theories/Proofs/CopProofs.v
theories/Proofs/UnitProofs4.v
theories/Proofs/ToyBuild.v
theories/Proofs/ToyBuild2.v
theories/Props/P_Unit.v
theories/Spec/SeasonSpec.v
theories/Proofs/SeerProofs.v
theories/Proofs/ScaleProofs.v
theories/Proofs/HspfProofs.v
theories/Proofs/HspfProofs2.v
theories/Proofs/HspfProofs3.v
theories/Proofs/ToySeason.v
theories/Proofs/ToySeason2.v
theories/Proofs/ToySeason3.v
theories/Proofs/ToyResnetTable.v
theories/Proofs/Secant.v
theories/Proofs/ToyResnet.v
theories/Proofs/ToyResnet2.v
theories/Props/P_Season.v
theories/Spec/RatingSpec.v
theories/Proofs/Patch.v
theories/Proofs/Patch2.v
theories/Proofs/RatingProofs.v
theories/Proofs/SingleFan.v
theories/Proofs/SingleFan2.v
theories/Proofs/SingleTable.v
theories/Proofs/SingleUnit.v
theories/Proofs/SingleRating.v
theories/Proofs/SingleRating2.v
theories/Props/P_Rating.v
theories/Spec/IdfSpec.v
theories/Spec/IdfPerfSpec.v
theories/Proofs/IdfText.v
theories/Proofs/IdfStruct.v
theories/Proofs/IdfNames.v
theories/Proofs/IdfRefs.v
theories/Proofs/IdfTables.v
theories/Proofs/IdfPerf.v
theories/Proofs/IdfFinal.v
theories/Proofs/IdfFinal2.v
theories/Proofs/IdfRead.v
theories/Proofs/ToyIdf.v
theories/Spec/IdfTypeSpec.v
theories/Proofs/IdfTypes.v
theories/Props/P_Idf.v
theories/Spec/Repr205Spec.v
theories/Proofs/Repr205Proofs.v
theories/Proofs/Repr205Proofs2.v
theories/Proofs/Toy205.v
theories/Props/P_205.v
theories/Spec/CopSpec.v
theories/Spec/CoilSpec.v
theories/Spec/FitSpec.v
theories/Proofs/CopProofs2.v
theories/Proofs/CoilProofs.v
theories/Proofs/ToyCoil.v
theories/Proofs/FitProofs.v
theories/Props/P_Coil.v
theories/Spec/TestSpec.v
theories/Proofs/TestProofs.v
theories/Proofs/ToyTests.v
theories/Props/P_Tests.v
theories/Spec/ValidationSpec.v
theories/Proofs/ValidationProofs.v
theories/Proofs/ToyValidation.v
theories/Props/P_Validation.v
theories/Spec/RatedSpec.v
theories/Proofs/RatedFan.v
theories/Proofs/RatedTable.v
theories/Proofs/RatedValues.v
theories/Proofs/RatedEer.v
theories/Proofs/MissedRatings.v
theories/Props/P_Rated.v
theories/Spec/ReportSpec.v
theories/Proofs/ReportProofs.v
theories/Proofs/Layout.v
theories/Proofs/ToyReport.v
theories/Props/P_Report.v
theories/Spec/Title24Spec.v
theories/Proofs/T24Cooling.v
theories/Proofs/T24Heating.v
theories/Proofs/ToyT24.v
theories/Props/P_Title24.v
theories/Spec/DefaultSpec.v
theories/Proofs/DefaultFan.v
theories/Proofs/DefaultFan2.v
theories/Proofs/ConstantUnit.v
theories/Proofs/ToyT24Unit.v
theories/Proofs/ToyDefault.v
theories/Props/P_Default.v
theories/Spec/IdfSettingsSpec.v
theories/Proofs/IdfFields.v
theories/Proofs/ToyIdfSettings.v
theories/Props/P_IdfSettings.v
theories/Spec/SettingsSpec.v
theories/Spec/BuildSpec.v
theories/Proofs/SettingsProofs.v
theories/Proofs/Unbuildable.v
theories/Proofs/OwnTable.v
theories/Proofs/ToyOwn.v
theories/Props/P_Settings.v
theories/Proofs/T24FanSpeeds.v
theories/Props/P_Build.v
theories/Validate/FloatLib.v
theories/Validate/TestValues.v
theories/Spec/CompareSpec.v
theories/Proofs/Dominance.v
theories/Proofs/ToyCompare.v
theories/Props/P_Compare.v
theories/Props/P_FanRatio.v
theories/Model/Metadata205.v
theories/Spec/Metadata205Spec.v
theories/Proofs/Metadata205Proofs.v
theories/Props/P_Metadata.v
theories/Spec/ResetSpec.v
theories/Proofs/ResetProofs.v
theories/Proofs/ResetProofs2.v
theories/Proofs/ResetProofs3.v
theories/Proofs/ToyReset.v
theories/Props/P_Reset.v
theories/Spec/OptionSpec.v
theories/Proofs/OptionProofs.v
theories/Proofs/OptionUnit.v
theories/Props/P_Options.v
theories/Spec/FanSpeedSpec.v
theories/Proofs/FanSpeed.v
theories/Props/P_FanSpeed.v
theories/Spec/NrelUnitSpec.v
theories/Proofs/NrelDefaults.v
theories/Props/P_NrelUnit.v
theories/Spec/MapShapeSpec.v
theories/Proofs/MapShape.v
theories/Props/P_MapShape.v
theories/Proofs/T24Regress.v
theories/Props/P_T24Regress.v
theories/Spec/ResnetFanSpec.v
theories/Proofs/ResnetFan.v
theories/Proofs/ResnetFan2.v
theories/Proofs/ResnetFan3.v
theories/Proofs/LowerSpeed.v
theories/Props/P_ResnetFan.v
theories/Validate/FanPressures.v
theories/Spec/CurveSpec.v
theories/Proofs/CurveProofs.v
theories/Props/P_Curve.v
theories/Validate/LowerSpeedRuns.v
theories/Validate/MissedRuns.v
theories/Spec/CyclingSpec.v
theories/Proofs/Cycling.v
theories/Proofs/Cycling2.v
theories/Proofs/Cycling3.v
theories/Proofs/Resistance.v
theories/Proofs/CutIn.v
theories/Props/P_Cycling.v
theories/Spec/CopListSpec.v
theories/Proofs/CopLists.v
theories/Proofs/CopLists2.v
theories/Props/P_CopLists.v
theories/Proofs/Control205.v
theories/Spec/EereSpec.v
theories/Proofs/Eere.v
theories/Proofs/Eere2.v
theories/Props/P_Eere.v
theories/Proofs/MotorPower.v
theories/Proofs/MotorPower2.v
theories/Props/P_MotorPower.v
theories/Spec/HeatRatioSpec.v
theories/Proofs/HeatRatio.v
theories/Proofs/HeatRatio2.v
theories/Props/P_HeatRatio.v
theories/Spec/SensibleSpec.v
theories/Proofs/Sensible.v
theories/Proofs/Sensible2.v
theories/Props/P_Sensible.v
theories/Spec/DefaultUnitSpec.v
theories/Proofs/DefaultUnit.v
theories/Proofs/DefaultUnit2.v
theories/Props/P_DefaultUnit.v
theories/Proofs/FanCost.v
theories/Props/P_FanCost.v
theories/Proofs/EqualSpeeds.v
theories/Props/P_EqualSpeeds.v
theories/Spec/ChargeSpec.v
theories/Proofs/Charge.v
theories/Proofs/ChargeExample.v
theories/Props/P_Charge.v
theories/Spec/WeatherSpec.v
theories/Proofs/Weather.v
theories/Proofs/WeatherExample.v
theories/Props/P_Weather.v
theories/Proofs/ChargeRating.v
theories/Props/P_ChargeRating.v
theories/Proofs/T24Lines.v
theories/Props/P_T24Lines.v
theories/Spec/ControlSpec.v
theories/Proofs/Control.v
theories/Proofs/ControlExample.v
theories/Props/P_Control.v
theories/Spec/AgreeSpec.v
theories/Proofs/Agree.v
theories/Proofs/AgreeExample.v
theories/Props/P_Agree.v
theories/Spec/UnratedSpec.v
theories/Proofs/Unrated.v
theories/Props/P_Unrated.v
theories/Spec/ClimateSpec.v
theories/Proofs/Climate.v
theories/Props/P_Climate.v
theories/Proofs/Locked.v
theories/Proofs/LockedExample.v
theories/Props/P_Locked.v
theories/Spec/T24WeatherSpec.v
theories/Proofs/T24Weather.v
theories/Proofs/T24WeatherExample.v
theories/Props/P_T24Weather.v
theories/Spec/FrostWeatherSpec.v
theories/Proofs/FrostWeather.v
theories/Proofs/FrostWeatherExample.v
theories/Props/P_FrostWeather.v
theories/Spec/T24CopSpec.v
theories/Proofs/T24Cop.v
theories/Proofs/T24CopExample.v
theories/Props/P_T24Cop.v
theories/Spec/FrostHumidSpec.v
theories/Proofs/FrostHumid.v
theories/Proofs/FrostHumidExample.v
theories/Props/P_FrostHumid.v
theories/Spec/FrostWarmSpec.v
theories/Proofs/FrostWarm.v
theories/Proofs/FrostWarmExample.v
theories/Props/P_FrostWarm.v
theories/Spec/FanPointSpec.v
theories/Proofs/FanPoint.v
theories/Proofs/FanPoint2.v
theories/Props/P_FanPoint.v
theories/Proofs/EcmPoint.v
theories/Props/P_EcmPoint.v
theories/Proofs/EereDuct.v
theories/Props/P_EereDuct.v
theories/Proofs/PscPressure.v
theories/Props/P_PscPressure.v
theories/Proofs/EcmCube.v
theories/Props/P_EcmCube.v
