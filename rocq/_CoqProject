-Q theories Verif
theories/Base.v
theories/Num.v
theories/Xr.v
theories/M_TimeFrame.v
theories/M_Params.v
theories/M_Hourly.v
theories/S_Calendar.v
theories/L_Calendar.v
theories/L_HourlyShape.v
theories/L_Xr.v
theories/M_Map.v
theories/S_RC.v
theories/L_HourlyR.v
theories/S_Physical.v
theories/S_Results.v
theories/S_Edit.v
theories/L_HourlyFin.v
theories/L_HourlyOut.v
theories/E_SmallOffice.v
theories/L_Office.v
theories/S_Network.v
theories/L_HourlyFin2.v
theories/L_HourlySpec.v
theories/S_Year.v
theories/S_HourSpec.v
theories/L_HourlyRun.v
theories/L_HourlyThm.v
theories/L_HourlyThm2.v
theories/L_Office2.v
theories/L_HourlyThm3.v
theories/L_HourlyThm4.v
theories/L_HourlyAgain.v
theories/Text.v
theories/M_Text.v
theories/S_Text.v
theories/S_Properties.v
theories/L_Text.v
theories/M_Properties.v
theories/L_Properties.v
theories/M_UserModel.v
theories/S_Loading.v
theories/L_UserModel.v
theories/L_Loading.v
theories/L_Loading2.v
theories/L_Loading3.v
theories/E_Decimal.v
theories/E_OfficeFile.v
theories/T_Calendar.v
theories/T_Properties.v
theories/T_Loading.v
theories/T_HourlyTable.v
theories/T_HourlyStep.v
theories/T_HourlyYear.v
theories/M_Epw.v
theories/S_Epw.v
theories/L_Epw.v
theories/L_Epw2.v
theories/E_EpwFile.v
theories/L_Epw3.v
theories/T_Epw.v
theories/M_Solar.v
theories/S_Solar.v
theories/L_Solar.v
theories/L_Solar2.v
theories/L_Solar3.v
theories/L_SolarR.v
theories/L_Solar4.v
theories/L_Solar5.v
theories/L_Solar6.v
theories/T_Solar.v
theories/M_IsoText.v
theories/M_Weather.v
theories/S_Weather.v
theories/L_IsoText.v
theories/L_IsoText2.v
theories/L_Weather.v
theories/S_History.v
theories/L_Weather2.v
theories/L_Weather3.v
theories/T_Weather.v
theories/M_Monthly.v
theories/M_Main.v
theories/S_Schedule.v
theories/L_Monthly.v
theories/L_Monthly2.v
theories/S_Monthly.v
theories/L_Monthly3.v
theories/E_Monthly.v
theories/L_Monthly4.v
theories/T_MonthlyTime.v
theories/L_Monthly5.v
theories/L_Monthly6.v
theories/T_MonthlyTable.v
theories/S_MonthlySound.v
theories/S_MonthlyHeat.v
theories/L_MonthlyFin.v
theories/L_MonthlyFin2.v
theories/L_MonthlyNaN.v
theories/L_MonthlyGain.v
theories/L_MonthlyNeed.v
theories/L_MonthlyTemp.v
theories/L_MonthlyVent.v
theories/L_MonthlyCase.v
theories/T_MonthlyGain.v
theories/T_MonthlyHeat.v
theories/T_MonthlyVent.v
theories/S_MonthlyPlant.v
theories/L_MonthlyPlant.v
theories/E_House.v
theories/L_MonthlyPlant2.v
theories/L_MonthlyHouse.v
theories/L_MonthlyHouse2.v
theories/S_MonthlyBalance.v
theories/L_MonthlyBalance.v
theories/S_MonthlyTemp.v
theories/L_MonthlyWeek.v
theories/E_NightHouse.v
theories/L_MonthlyNight.v
theories/T_MonthlyPlant.v
theories/T_MonthlyBalance.v
theories/S_Main.v
theories/L_Main.v
theories/T_Main.v
theories/L_Main2.v
theories/S_Program.v
theories/L_Main3.v
theories/L_Main4.v
theories/E_Program.v
theories/L_Main5.v
theories/L_Main6.v
theories/L_Main7.v
theories/L_Main8.v
theories/M_Access.v
theories/S_Access.v
theories/L_Access.v
theories/L_Access2.v
theories/L_Access3.v
theories/L_Access4.v
theories/E_ShortFile.v
theories/L_AccessX.v
theories/T_Access.v
theories/E_ShortHouse.v
theories/L_MonthlyCool.v
theories/S_Reload.v
theories/E_CompleteFile.v
theories/L_Reload.v
theories/T_Reload.v
theories/S_Balance.v
theories/L_HourlyBalance.v
theories/L_HourlyBalance2.v
theories/T_HourlyBalance.v
theories/S_Inputs.v
theories/L_Inputs.v
theories/L_Inputs2.v
theories/L_Inputs3.v
theories/T_Inputs.v
theories/S_Symmetry.v
theories/L_Turn.v
theories/L_TurnMonthly.v
theories/L_Sized.v
theories/L_SizedMonthly.v
theories/L_SymmetryCase.v
theories/T_Symmetry.v
theories/S_Locality.v
theories/L_Locality.v
theories/L_LocalityCase.v
theories/T_Locality.v
theories/S_Sides.v
theories/L_Sides.v
theories/T_Sides.v
theories/S_Totals.v
theories/L_Totals.v
theories/T_Totals.v
theories/Dbl.v
theories/L_Dbl.v
theories/S_Double.v
theories/L_Double.v
theories/L_Double2.v
theories/L_Double3.v
theories/L_Double4.v
theories/L_Double5.v
theories/T_Double.v
theories/S_Scaling.v
theories/L_Scaling.v
theories/L_Scaling2.v
theories/L_Scaling3.v
theories/L_Scaling4.v
theories/L_Scaling5.v
theories/T_Scaling.v
theories/L_Scaling6.v
theories/L_Scaling7.v
theories/L_Scaling8.v
theories/S_Compare.v
theories/L_Compare.v
theories/L_Compare2.v
theories/L_Compare3.v
theories/T_Compare.v
theories/L_SizedHouse.v
theories/L_Utilise.v
theories/S_MonthlyCompare.v
theories/L_MonthlyCompare.v
theories/L_MonthlyCompare2.v
theories/T_MonthlyCompare.v
theories/S_MonthlyClimate.v
theories/L_MonthlyClimate.v
theories/L_MonthlyClimate2.v
theories/T_MonthlyClimate.v
theories/S_YearCompare.v
theories/L_YearCompare.v
theories/L_YearCompare2.v
theories/L_YearCompare3.v
theories/T_YearCompare.v
theories/L_YearCompare4.v
theories/S_YearClimate.v
theories/L_YearClimate.v
theories/L_YearClimate2.v
theories/T_YearClimate.v
theories/S_YearStable.v
theories/L_YearStable.v
theories/L_YearStable2.v
theories/T_YearStable.v
theories/M_TestBuild.v
theories/S_TestBuild.v
theories/L_TestBuild.v
theories/T_TestBuild.v
theories/S_YearLoad.v
theories/L_YearLoad.v
theories/L_YearLoad2.v
theories/T_YearLoad.v
theories/L_YearPeak.v
theories/L_YearPeak2.v
theories/T_YearPeak.v
theories/S_DoubleMonthly.v
theories/L_Double6.v
theories/L_Double7.v
theories/L_Double8.v
theories/T_DoubleMonthly.v
theories/S_MonthlyFan.v
theories/L_MonthlyFan.v
theories/T_MonthlyFan.v
theories/S_Order.v
theories/L_Order.v
theories/T_Order.v
theories/S_Engines.v
theories/L_Engines.v
theories/T_Engines.v
theories/S_DoubleTotals.v
theories/L_Double9.v
theories/T_DoubleTotals.v
theories/M_Decimal.v
theories/S_Decimal.v
theories/L_Decimal.v
theories/L_Decimal2.v
theories/T_Decimal.v
theories/S_Insulation.v
theories/L_Insulation.v
theories/L_Insulation2.v
theories/T_Insulation.v
theories/S_Recovery.v
theories/L_Recovery.v
theories/T_Recovery.v
theories/L_NumberLists.v
theories/T_NumberLists.v
theories/S_Airtight.v
theories/L_Airtight.v
theories/L_Airtight2.v
theories/T_Airtight.v
theories/M_Report.v
theories/L_Report.v
theories/T_Report.v
theories/S_Walls.v
theories/L_Walls.v
theories/L_Walls2.v
theories/T_Walls.v
theories/S_Trace.v
theories/L_Trace.v
theories/T_Trace.v
theories/S_Preheat.v
theories/L_Preheat.v
theories/T_Preheat.v
theories/S_MonthlyAir.v
theories/L_MonthlyAir.v
theories/L_MonthlyAir2.v
theories/T_MonthlyAir.v
theories/S_DoubleKey.v
theories/L_DoubleKey.v
theories/T_DoubleKey.v
theories/S_MonthlySun.v
theories/L_MonthlySun.v
theories/L_MonthlySun2.v
theories/T_MonthlySun.v
theories/S_YearSun.v
theories/L_YearSun.v
theories/L_YearSun2.v
theories/T_YearSun.v
theories/S_DoubleAppliances.v
theories/L_DoubleAppliances.v
theories/T_DoubleAppliances.v
theories/S_DoubleSum.v
theories/L_DoubleSum.v
theories/L_DoubleSum2.v
theories/T_DoubleSum.v
theories/S_DoubleWater.v
theories/E_Water.v
theories/L_DoubleWater.v
theories/T_DoubleWater.v
theories/S_DoubleLights.v
theories/L_DoubleLights.v
theories/T_DoubleLights.v
theories/S_DoubleOutside.v
theories/L_DoubleOutside.v
theories/T_DoubleOutside.v
theories/S_DoubleSun.v
theories/E_Sun.v
theories/L_DoubleSun.v
theories/L_DoubleSun2.v
theories/T_DoubleSun.v
theories/L_DoubleSun3.v
theories/S_Broken.v
theories/E_Broken.v
theories/L_Broken.v
theories/L_Broken2.v
theories/T_Broken.v
theories/S_BrokenMonth.v
theories/E_BrokenMonth.v
theories/L_BrokenMonth.v
theories/L_BrokenMonth2.v
theories/T_BrokenMonth.v
theories/E_Zenith.v
theories/L_Broken3.v
theories/L_BrokenMonth3.v
theories/L_Broken4.v
theories/L_Broken5.v
theories/L_Broken6.v
