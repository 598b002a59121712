-Q theories Verif
theories/Py.v
theories/Num.v
theories/NumFacts.v
theories/SpecNum.v
theories/Aero.v
theories/AeroFacts.v
theories/AeroFacts2.v
theories/SpecISA.v
theories/AeroFacts3.v
theories/AeroFacts4.v
theories/P_Aero.v
theories/Geo.v
theories/GeoFacts.v
theories/P_Geo.v
theories/Thrust.v
theories/Drag.v
theories/Fuel.v
theories/Emission.v
theories/Mass.v
theories/DragFacts.v
theories/P_Drag.v
theories/Cts.v
theories/ThrustFacts.v
theories/P_Thrust.v
theories/FuelFacts.v
theories/P_Fuel.v
theories/P_Emission.v
theories/Contrail.v
theories/Functions.v
theories/Vec.v
theories/Hom.v
theories/SpecVec.v
theories/VecFacts.v
theories/Sym.v
theories/ContrailFacts.v
theories/P_Contrail.v
theories/P_Contrail2.v
theories/Fuzzy.v
theories/Fuzzy2.v
theories/Phase.v
theories/FuzzyFacts.v
theories/PhaseFacts.v
theories/PhaseFacts2.v
theories/P_Phase.v
theories/P_Phase2.v
theories/Gen.v
theories/GenRng.v
theories/GenFacts.v
theories/GenFacts2.v
theories/P_Gen.v
theories/P_Gen2.v
theories/P_Gen3.v
theories/Str.v
theories/StrFacts.v
theories/PropPy.v
theories/DataAc.v
theories/DataPolar.v
theories/DataWrap.v
theories/DataEng.v
theories/Build.v
theories/Kinematic.v
theories/Params.v
theories/PropFacts.v
theories/P_Prop.v
theories/P_Prop2.v
theories/P_Prop3.v
theories/Cache.v
theories/P_Cache.v
theories/P_Vec.v
theories/P_Sym.v
theories/P_Sun.v
theories/P_BFFM.v
theories/P_Laws.v
theories/P_Data.v
theories/P_Kin.v
theories/P_DataGen.v
theories/P_GenRng.v
theories/P_FuelModel.v
theories/P_Eng.v
theories/DataNav.v
theories/Nav.v
theories/P_Nav.v
theories/Filters.v
theories/P_Filters.v
theories/P_Filters2.v
theories/P_Filters3.v
theories/Bada3.v
theories/P_Bada3.v
theories/P_Bada3Thr.v
theories/P_Bada3Fuel.v
theories/P_Bada3Data.v
theories/Nd.v
theories/NdFacts.v
theories/Bada4.v
theories/Bada4Facts.v
theories/P_Bada4.v
theories/P_Bada4Drag.v
theories/P_Bada4Thr.v
theories/P_Bada4Fuel.v
theories/P_Bada4Shape.v
theories/P_Bada4Xml.v
theories/Jax.v
theories/SpecJax.v
theories/JaxFacts.v
theories/JaxAero.v
theories/JaxHom.v
theories/JaxDrag.v
theories/JaxThrust.v
theories/JaxFuel.v
theories/JaxGeo.v
theories/JaxNf.v
theories/P_Jax.v
theories/P_JaxDrag.v
theories/P_JaxFuel.v
theories/P_JaxPrim.v
theories/Fl.v
theories/SpecFl.v
theories/FlFacts.v
theories/P_Fl.v
theories/P_FlCas.v
theories/P_FlGeo.v
theories/P_FlSun.v
theories/Stats.v
theories/P_Stats.v
theories/JaxShape.v
theories/P_JaxShape.v
theories/Olr.v
theories/P_Olr.v
theories/Timestamp.v
theories/P_Timestamp.v
theories/FlAtmFacts.v
theories/P_FlDrag.v
theories/P_FlThrust.v
theories/P_FlFuel.v
theories/P_FlEmis.v
theories/Wire.v
theories/P_Wire.v
theories/Regex.v
theories/Bada3Text.v
theories/RegexFacts.v
theories/SpecText.v
theories/Bada3TextFacts.v
theories/P_Bada3Text.v
theories/P_Bada3Syn.v
theories/Import.v
theories/ImportSrc.v
theories/P_Import.v
theories/Call.v
theories/P_Call.v
theories/FileText.v
theories/FileLoad.v
theories/SpecFile.v
theories/FileFacts.v
theories/YamlFacts.v
theories/TextAc.v
theories/TextPolar.v
theories/TextWrap.v
theories/TextEng.v
theories/P_Yaml.v
theories/P_Csv.v
theories/P_Fwf.v
theories/P_Numeral.v
theories/P_Cruise.v
theories/IntArg.v
theories/IntArgFacts.v
theories/P_IntArg.v
