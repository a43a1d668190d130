-Q theories Verif
theories/Py.v
theories/PyFloat.v
theories/FloatFacts.v
theories/PyStr.v
theories/T_SolarUtil.v
theories/T_LunarUtil.v
theories/T_Almanac.v
theories/T_Holiday.v
theories/T_Misc.v
theories/Solar.v
theories/CalSpec.v
theories/DayNo.v
theories/SolarProofs.v
theories/SolarProofs2.v
theories/FloatTac.v
theories/Meeus.v
theories/JulianDay.v
theories/FromJulianDay.v
theories/P_Solar.v
theories/P_JD.v
theories/SolarUnits.v
theories/UnitsProofs.v
theories/P_Units.v
theories/LunarUtil.v
theories/AlmanacProofs.v
theories/P_Almanac.v
theories/P_Tables.v
theories/Holiday.v
theories/HolidayProofs.v
theories/HolidayRecs.v
theories/P_Holiday.v
theories/P_HolidayFix.v
theories/P_WorkDay.v
theories/T_ShouXing.v
theories/ShouXing.v
theories/FloatExpr.v
theories/Trig.v
theories/SunLon.v
theories/SunDt.v
theories/SunTerm.v
theories/SunQi.v
theories/SunLate.v
theories/SunInv.v
theories/SunKb.v
theories/SunYear.v
theories/LunarYear.v
theories/Lunar.v
theories/NineStar.v
theories/LunarTime.v
theories/T_Festivals.v
theories/EightChar.v
theories/FotoTao.v
theories/Demo.v
theories/LunarProofs.v
theories/TermProofs.v
theories/P_Pillars.v
theories/P_Terms.v
theories/YearProofs.v
theories/P_YearTable.v
theories/CalProofs.v
theories/P_LunarCal.v
theories/CalCheck.v
theories/P_LunarYears.v
theories/EarlyYears.v
theories/SunDate.v
theories/P_NewYear.v
theories/P_Accessors.v
theories/P_Stars.v
theories/P_EightChar.v
theories/P_Times.v
theories/P_Seasons.v
theories/P_Luck.v
theories/P_FotoTao.v
theories/P_BaZi.v
theories/LunarCache.v
theories/P_Cache.v
theories/P_Day.v
theories/P_Year.v
theories/P_Fest.v
theories/P_FotoDays.v
theories/P_Text.v
theories/Cert.v
theories/CertSky.v
theories/TermEst.v
theories/CertTerms.v
theories/MoonLite.v
theories/MoonEdge.v
theories/CertZhong.v
theories/CertYears.v
theories/MoonCut.v
theories/MoonFast.v
theories/CertFast.v
theories/RealYears.v
theories/P_Real.v
theories/P_SunTerms.v
theories/P_Zhong.v
theories/P_SunLon.v
theories/P_Moon.v
theories/P_Attr.v
theories/P_PartWeek.v
theories/P_Fasts.v
theories/Texts.v
theories/P_Texts.v
theories/P_Anniv.v
theories/P_Order.v
theories/PyDate.v
theories/P_Date.v
theories/LunarState.v
theories/P_State.v
theories/P_Rest.v
