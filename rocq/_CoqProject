-Q theories Verif
theories/Base.v
theories/Flt.v
theories/QUtil.v
theories/BaseModel.v
theories/SpecGreg.v
theories/GregModel.v
theories/GregProofs.v
theories/GregProofs2.v
theories/GregProofs3.v
theories/MeeusProofs.v
theories/MeeusFloat.v
theories/SpecMisc.v
theories/MiscModel.v
theories/BaseProofs.v
theories/BaseProofs2.v
theories/MiscProofs.v
theories/MiscProofs2.v
theories/BadiModel.v
theories/SunProofs.v
theories/SpecBadi.v
theories/BadiProofs.v
theories/BadiProofs2.v
theories/LongYear.v
theories/BadiProofs3.v
theories/DecProofs.v
theories/BadiProofs4.v
theories/LongProofs.v
theories/BadiProofs5.v
theories/ClockProofs.v
theories/ClockProofs2.v
theories/ClockProofs3.v
theories/ClockProofs4.v
theories/TduModel.v
theories/DateModel.v
theories/SpecDate.v
theories/TduProofs.v
theories/TduProofs2.v
theories/TduProofs3.v
theories/DateProofs.v
theories/SampleSun.v
theories/TimeModel.v
theories/SpecTime.v
theories/TimeProofs.v
theories/PropertiesGreg.v
theories/PropertiesBase.v
theories/PropertiesBadi.v
theories/PropertiesBadi2.v
theories/PropertiesDate.v
theories/PropertiesDate2.v
theories/PropertiesTime.v
theories/PropertiesDt.v
theories/PropertiesDt2.v
theories/TextModel.v
theories/SpecText.v
theories/TextProofs.v
theories/TextProofs2.v
theories/TextProofs3.v
theories/PropertiesText.v
theories/PropertiesText2.v
theories/PropertiesText3.v
theories/PropertiesText4.v
theories/StrfModel.v
theories/SpecStrf.v
theories/StrfProofs.v
theories/PropertiesStrf.v
theories/PropertiesStrf2.v
theories/PropertiesStrf3.v
theories/PropertiesStrf4.v
theories/PropertiesStrf5.v
theories/PropertiesStrf6.v
theories/StateModel.v
theories/PropertiesState.v
theories/StrpModel.v
theories/SpecStrp.v
theories/StrpProofs.v
theories/PropertiesStrp.v
theories/PropertiesStrp2.v
theories/PropertiesStrp3.v
theories/PropertiesStrp4.v
theories/PropertiesStrp5.v
theories/PropertiesStrp6.v
theories/PropertiesStrp7.v
theories/SpecEquinox.v
theories/PropertiesLeap.v
theories/ConvModel.v
theories/SpecConv.v
theories/GregProofs4.v
theories/ConvProofs.v
theories/ConvProofs2.v
theories/PropertiesConv.v
theories/TsModel.v
theories/SpecTs.v
theories/TsProofs.v
theories/PropertiesTs.v
theories/ReprModel.v
theories/SpecRepr.v
theories/ReprProofs.v
theories/PropertiesRepr.v
theories/AstroModel.v
theories/AstroReal.v
theories/AstroReal2.v
theories/SpecAstro.v
theories/AstroFlt.v
theories/AstroApx.v
theories/AstroSun.v
theories/AstroNut.v
theories/AstroRA.v
theories/AstroMove.v
theories/AstroStep.v
theories/AstroDt.v
theories/AstroRise.v
theories/AstroRise2.v
theories/AstroRise3.v
theories/AstroRise4.v
theories/AstroRise5.v
theories/PropertiesAstro.v
theories/AstroBall.v
theories/AstroNaw.v
theories/AstroNaw2.v
theories/AstroNaw3.v
theories/PropertiesAstro2.v
theories/SpecSeason.v
theories/EquinoxModel.v
theories/EquinoxProofs.v
theories/EquinoxBall.v
theories/EquinoxYears.v
theories/EquinoxLen.v
theories/PropertiesEquinox.v
theories/LocalModel.v
theories/LocalProofs.v
theories/PropertiesLocal.v
theories/AstroDay.v
theories/DayProofs.v
theories/PropertiesDay.v
theories/SpecSun.v
theories/SunReal.v
theories/SunLine.v
theories/SunPlace.v
theories/SunTrue.v
theories/PropertiesSun.v
theories/SpecNut.v
theories/NutProofs.v
theories/PropertiesNut.v
theories/NoonProofs.v
theories/PropertiesNoon.v
theories/ObjModel.v
theories/SpecObj.v
theories/PropertiesObj.v
theories/LimModel.v
theories/SpecLim.v
theories/PropertiesLim.v
theories/DstModel.v
theories/SpecDst.v
theories/PropertiesDst.v
theories/FmtModel.v
theories/PropertiesFmt.v
theories/TzDecModel.v
theories/PropertiesTzDec.v
theories/PlanetModel.v
theories/SpecPlanet.v
theories/PlanetProofs.v
theories/PropertiesPlanet.v
theories/LocModel.v
theories/SpecLoc.v
theories/LocProofs.v
theories/PropertiesLoc.v
theories/YmdModel.v
theories/PropertiesYmd.v
theories/SpecTransit.v
theories/PropertiesTransit.v
