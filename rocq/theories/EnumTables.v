(** The enumerations of the library and the tables of their names, transcribed from the headers (the enumerators in their order, which is
    their value: none has an explicit one) and from the specialisations of Enum::getNames. *)
From Verif Require Export Enum.

(** Branch::Side: include/powsybl/iidm/Branch.hpp:29-32; its names: src/iidm/Branch.cpp:358-364. *)
Definition e_Branch_Side : enumeration := mkEnum
  ["ONE"; "TWO"]
  ["ONE"; "TWO"].
(** ConnectableType: include/powsybl/iidm/ConnectableType.hpp:17-29; its names: src/iidm/ConnectableType.cpp:19-34. *)
Definition e_ConnectableType : enumeration := mkEnum
  ["BUSBAR_SECTION"; "LINE"; "TWO_WINDINGS_TRANSFORMER"; "THREE_WINDINGS_TRANSFORMER"; "GENERATOR"; "BATTERY"; "LOAD";
   "SHUNT_COMPENSATOR"; "DANGLING_LINE"; "STATIC_VAR_COMPENSATOR"; "HVDC_CONVERTER_STATION"]
  ["BUSBAR_SECTION"; "LINE"; "TWO_WINDINGS_TRANSFORMER"; "THREE_WINDINGS_TRANSFORMER"; "GENERATOR"; "BATTERY"; "LOAD";
   "SHUNT_COMPENSATOR"; "DANGLING_LINE"; "STATIC_VAR_COMPENSATOR"; "HVDC_CONVERTER_STATION"].
(** Country: include/powsybl/iidm/Country.hpp:17-268; its names: src/iidm/Country.cpp:284-538. *)
Definition e_Country : enumeration := mkEnum
  ["AF"; "AX"; "AL"; "DZ"; "AS"; "AD"; "AO"; "AI"; "AQ"; "AG"; "AR"; "AM"; "AW"; "AU"; "AT"; "AZ"; "BS"; "BH"; "BD"; "BB"; "BY";
   "BE"; "BZ"; "BJ"; "BM"; "BT"; "BO"; "BQ"; "BA"; "BW"; "BV"; "BR"; "IO"; "BN"; "BG"; "BF"; "BI"; "KH"; "CM"; "CA"; "CV"; "KY";
   "CF"; "TD"; "CL"; "CN"; "CX"; "CC"; "CO"; "KM"; "CG"; "CD"; "CK"; "CR"; "CI"; "HR"; "CU"; "CW"; "CY"; "CZ"; "DK"; "DJ"; "DM";
   "DO"; "EC"; "EG"; "SV"; "GQ"; "ER"; "EE"; "ET"; "FK"; "FO"; "FJ"; "FI"; "FR"; "GF"; "PF"; "TF"; "GA"; "GM"; "GE"; "DE"; "GH";
   "GI"; "GR"; "GL"; "GD"; "GP"; "GU"; "GT"; "GG"; "GN"; "GW"; "GY"; "HT"; "HM"; "VA"; "HN"; "HK"; "HU"; "IS"; "IN"; "ID"; "IR";
   "IQ"; "IE"; "IM"; "IL"; "IT"; "JM"; "JP"; "JE"; "JO"; "KZ"; "KE"; "KI"; "KP"; "KR"; "XK"; "KW"; "KG"; "LA"; "LV"; "LB"; "LS";
   "LR"; "LY"; "LI"; "LT"; "LU"; "MO"; "MK"; "MG"; "MW"; "MY"; "MV"; "ML"; "MT"; "MH"; "MQ"; "MR"; "MU"; "YT"; "MX"; "FM"; "MD";
   "MC"; "MN"; "ME"; "MS"; "MA"; "MZ"; "MM"; "NA"; "NR"; "NP"; "NL"; "NC"; "NZ"; "NI"; "NE"; "NG"; "NU"; "NF"; "MP"; "NO"; "OM";
   "PK"; "PW"; "PS"; "PA"; "PG"; "PY"; "PE"; "PH"; "PN"; "PL"; "PT"; "PR"; "QA"; "RE"; "RO"; "RU"; "RW"; "BL"; "SH"; "KN"; "LC";
   "MF"; "PM"; "VC"; "WS"; "SM"; "ST"; "SA"; "SN"; "RS"; "SC"; "SL"; "SG"; "SX"; "SK"; "SI"; "SB"; "SO"; "ZA"; "GS"; "SS"; "ES";
   "LK"; "SD"; "SR"; "SJ"; "SZ"; "SE"; "CH"; "SY"; "TW"; "TJ"; "TZ"; "TH"; "TL"; "TG"; "TK"; "TO"; "TT"; "TN"; "TR"; "TM"; "TC";
   "TV"; "UG"; "UA"; "AE"; "GB"; "US"; "UM"; "UY"; "UZ"; "VU"; "VE"; "VN"; "VG"; "VI"; "WF"; "EH"; "YE"; "ZM"; "ZW"]
  ["AF"; "AX"; "AL"; "DZ"; "AS"; "AD"; "AO"; "AI"; "AQ"; "AG"; "AR"; "AM"; "AW"; "AU"; "AT"; "AZ"; "BS"; "BH"; "BD"; "BB"; "BY";
   "BE"; "BZ"; "BJ"; "BM"; "BT"; "BO"; "BQ"; "BA"; "BW"; "BV"; "BR"; "IO"; "BN"; "BG"; "BF"; "BI"; "KH"; "CM"; "CA"; "CV"; "KY";
   "CF"; "TD"; "CL"; "CN"; "CX"; "CC"; "CO"; "KM"; "CG"; "CD"; "CK"; "CR"; "CI"; "HR"; "CU"; "CW"; "CY"; "CZ"; "DK"; "DJ"; "DM";
   "DO"; "EC"; "EG"; "SV"; "GQ"; "ER"; "EE"; "ET"; "FK"; "FO"; "FJ"; "FI"; "FR"; "GF"; "PF"; "TF"; "GA"; "GM"; "GE"; "DE"; "GH";
   "GI"; "GR"; "GL"; "GD"; "GP"; "GU"; "GT"; "GG"; "GN"; "GW"; "GY"; "HT"; "HM"; "VA"; "HN"; "HK"; "HU"; "IS"; "IN"; "ID"; "IR";
   "IQ"; "IE"; "IM"; "IL"; "IT"; "JM"; "JP"; "JE"; "JO"; "KZ"; "KE"; "KI"; "KP"; "KR"; "XK"; "KW"; "KG"; "LA"; "LV"; "LB"; "LS";
   "LR"; "LY"; "LI"; "LT"; "LU"; "MO"; "MK"; "MG"; "MW"; "MY"; "MV"; "ML"; "MT"; "MH"; "MQ"; "MR"; "MU"; "YT"; "MX"; "FM"; "MD";
   "MC"; "MN"; "ME"; "MS"; "MA"; "MZ"; "MM"; "NA"; "NR"; "NP"; "NL"; "NC"; "NZ"; "NI"; "NE"; "NG"; "NU"; "NF"; "MP"; "NO"; "OM";
   "PK"; "PW"; "PS"; "PA"; "PG"; "PY"; "PE"; "PH"; "PN"; "PL"; "PT"; "PR"; "QA"; "RE"; "RO"; "RU"; "RW"; "BL"; "SH"; "KN"; "LC";
   "MF"; "PM"; "VC"; "WS"; "SM"; "ST"; "SA"; "SN"; "RS"; "SC"; "SL"; "SG"; "SX"; "SK"; "SI"; "SB"; "SO"; "ZA"; "GS"; "SS"; "ES";
   "LK"; "SD"; "SR"; "SJ"; "SZ"; "SE"; "CH"; "SY"; "TW"; "TJ"; "TZ"; "TH"; "TL"; "TG"; "TK"; "TO"; "TT"; "TN"; "TR"; "TM"; "TC";
   "TV"; "UG"; "UA"; "AE"; "GB"; "US"; "UM"; "UY"; "UZ"; "VU"; "VE"; "VN"; "VG"; "VI"; "WF"; "EH"; "YE"; "ZM"; "ZW"].
(** EnergySource: include/powsybl/iidm/EnergySource.hpp:17-24; its names: src/iidm/EnergySource.cpp:19-29. *)
Definition e_EnergySource : enumeration := mkEnum
  ["HYDRO"; "NUCLEAR"; "WIND"; "THERMAL"; "SOLAR"; "OTHER"]
  ["HYDRO"; "NUCLEAR"; "WIND"; "THERMAL"; "SOLAR"; "OTHER"].
(** HvdcConverterStation::HvdcType: include/powsybl/iidm/HvdcConverterStation.hpp:25-28; its names: src/iidm/HvdcConverterStation.cpp:53-59. *)
Definition e_HvdcConverterStation_HvdcType : enumeration := mkEnum
  ["VSC"; "LCC"]
  ["LCC"; "VSC"].
(** HvdcLine::ConvertersMode: include/powsybl/iidm/HvdcLine.hpp:26-29; its names: src/iidm/HvdcLine.cpp:168-174. *)
Definition e_HvdcLine_ConvertersMode : enumeration := mkEnum
  ["SIDE_1_RECTIFIER_SIDE_2_INVERTER"; "SIDE_1_INVERTER_SIDE_2_RECTIFIER"]
  ["SIDE_1_RECTIFIER_SIDE_2_INVERTER"; "SIDE_1_INVERTER_SIDE_2_RECTIFIER"].
(** LimitType: include/powsybl/iidm/LimitType.hpp:15-20; its names: src/iidm/LimitType.cpp:19-27. *)
Definition e_LimitType : enumeration := mkEnum
  ["ACTIVE_POWER"; "APPARENT_POWER"; "CURRENT"; "VOLTAGE"]
  ["ACTIVE_POWER"; "APPARENT_POWER"; "CURRENT"; "VOLTAGE"].
(** LoadType: include/powsybl/iidm/LoadType.hpp:15-19; its names: src/iidm/LoadType.cpp:19-26. *)
Definition e_LoadType : enumeration := mkEnum
  ["UNDEFINED"; "AUXILIARY"; "FICTITIOUS"]
  ["UNDEFINED"; "AUXILIARY"; "FICTITIOUS"].
(** PhaseTapChanger::RegulationMode: include/powsybl/iidm/PhaseTapChanger.hpp:22-26; its names: src/iidm/PhaseTapChanger.cpp:80-87. *)
Definition e_PhaseTapChanger_RegulationMode : enumeration := mkEnum
  ["CURRENT_LIMITER"; "ACTIVE_POWER_CONTROL"; "FIXED_TAP"]
  ["CURRENT_LIMITER"; "ACTIVE_POWER_CONTROL"; "FIXED_TAP"].
(** ShuntCompensatorModelType: include/powsybl/iidm/ShuntCompensatorModelType.hpp:15-18; its names: src/iidm/ShuntCompensatorModelType.cpp:19-25. *)
Definition e_ShuntCompensatorModelType : enumeration := mkEnum
  ["LINEAR"; "NON_LINEAR"]
  ["LINEAR"; "NON_LINEAR"].
(** StaticVarCompensator::RegulationMode: include/powsybl/iidm/StaticVarCompensator.hpp:24-28; its names: src/iidm/StaticVarCompensator.cpp:133-140. *)
Definition e_StaticVarCompensator_RegulationMode : enumeration := mkEnum
  ["VOLTAGE"; "REACTIVE_POWER"; "OFF"]
  ["VOLTAGE"; "REACTIVE_POWER"; "OFF"].
(** SwitchKind: include/powsybl/iidm/SwitchKind.hpp:17-21; its names: src/iidm/SwitchKind.cpp:19-26. *)
Definition e_SwitchKind : enumeration := mkEnum
  ["BREAKER"; "DISCONNECTOR"; "LOAD_BREAK_SWITCH"]
  ["BREAKER"; "DISCONNECTOR"; "LOAD_BREAK_SWITCH"].
(** ThreeWindingsTransformer::Side: include/powsybl/iidm/ThreeWindingsTransformer.hpp:22-26; its names: src/iidm/ThreeWindingsTransformer.cpp:164-171. *)
Definition e_ThreeWindingsTransformer_Side : enumeration := mkEnum
  ["ONE"; "TWO"; "THREE"]
  ["ONE"; "TWO"; "THREE"].
(** TopologyKind: include/powsybl/iidm/TopologyKind.hpp:17-20; its names: src/iidm/TopologyKind.cpp:19-25. *)
Definition e_TopologyKind : enumeration := mkEnum
  ["NODE_BREAKER"; "BUS_BREAKER"]
  ["NODE_BREAKER"; "BUS_BREAKER"].
(** TopologyLevel: include/powsybl/iidm/TopologyLevel.hpp:19-23; its names: src/iidm/TopologyLevel.cpp:40-47. *)
Definition e_TopologyLevel : enumeration := mkEnum
  ["NODE_BREAKER"; "BUS_BREAKER"; "BUS_BRANCH"]
  ["NODE_BREAKER"; "BUS_BREAKER"; "BUS_BRANCH"].
(** ExportOptions::IidmVersionIncompatibilityBehavior: include/powsybl/iidm/converter/ExportOptions.hpp:38-41; its names: src/iidm/converter/ExportOptions.cpp:27-33. *)
Definition e_ExportOptions_IidmVersionIncompatibilityBehavior : enumeration := mkEnum
  ["THROW_EXCEPTION"; "LOG_ERROR"]
  ["THROW_EXCEPTION"; "LOG_ERROR"].
(** DiscreteMeasurement::TapChanger: extensions/iidm/include/powsybl/iidm/extensions/iidm/DiscreteMeasurement.hpp:46-55; its names: extensions/iidm/src/DiscreteMeasurement.cpp:36-48. *)
Definition e_DiscreteMeasurement_TapChanger : enumeration := mkEnum
  ["RATIO_TAP_CHANGER"; "PHASE_TAP_CHANGER"; "RATIO_TAP_CHANGER_1"; "PHASE_TAP_CHANGER_1"; "RATIO_TAP_CHANGER_2";
   "PHASE_TAP_CHANGER_2"; "RATIO_TAP_CHANGER_3"; "PHASE_TAP_CHANGER_3"]
  ["RATIO_TAP_CHANGER"; "PHASE_TAP_CHANGER"; "RATIO_TAP_CHANGER_1"; "PHASE_TAP_CHANGER_1"; "RATIO_TAP_CHANGER_2";
   "PHASE_TAP_CHANGER_2"; "RATIO_TAP_CHANGER_3"; "PHASE_TAP_CHANGER_3"].
(** DiscreteMeasurement::Type: extensions/iidm/include/powsybl/iidm/extensions/iidm/DiscreteMeasurement.hpp:35-40; its names: extensions/iidm/src/DiscreteMeasurement.cpp:25-33. *)
Definition e_DiscreteMeasurement_Type : enumeration := mkEnum
  ["TAP_POSITION"; "SWITCH_POSITION"; "SHUNT_COMPENSATOR_SECTION"; "OTHER"]
  ["TAP_POSITION"; "SWITCH_POSITION"; "SHUNT_COMPENSATOR_SECTION"; "OTHER"].
(** DiscreteMeasurement::ValueType: extensions/iidm/include/powsybl/iidm/extensions/iidm/DiscreteMeasurement.hpp:60-64; its names: extensions/iidm/src/DiscreteMeasurement.cpp:51-58. *)
Definition e_DiscreteMeasurement_ValueType : enumeration := mkEnum
  ["BOOLEAN"; "INT"; "STRING"]
  ["BOOLEAN"; "INT"; "STRING"].
(** Measurement::Side: extensions/iidm/include/powsybl/iidm/extensions/iidm/Measurement.hpp:33-37; its names: extensions/iidm/src/Measurement.cpp:22-29. *)
Definition e_Measurement_Side : enumeration := mkEnum
  ["ONE"; "TWO"; "THREE"]
  ["ONE"; "TWO"; "THREE"].
(** Measurement::Type: extensions/iidm/include/powsybl/iidm/extensions/iidm/Measurement.hpp:42-51; its names: extensions/iidm/src/Measurement.cpp:32-44. *)
Definition e_Measurement_Type : enumeration := mkEnum
  ["ANGLE"; "ACTIVE_POWER"; "APPARENT_POWER"; "REACTIVE_POWER"; "CURRENT"; "VOLTAGE"; "FREQUENCY"; "OTHER"]
  ["ANGLE"; "ACTIVE_POWER"; "APPARENT_POWER"; "REACTIVE_POWER"; "CURRENT"; "VOLTAGE"; "FREQUENCY"; "OTHER"].
(** BranchStatus::Status: extensions/sld/include/powsybl/iidm/extensions/sld/BranchStatus.hpp:25-29; its names: extensions/sld/src/BranchStatus.cpp:20-27. *)
Definition e_BranchStatus_Status : enumeration := mkEnum
  ["IN_OPERATION"; "PLANNED_OUTAGE"; "FORCED_OUTAGE"]
  ["IN_OPERATION"; "PLANNED_OUTAGE"; "FORCED_OUTAGE"].
(** EntsoeGeographicalCode: extensions/entsoe/include/powsybl/iidm/extensions/entsoe/EntsoeGeographicalCode.hpp:19-63; its names: extensions/entsoe/src/EntsoeGeographicalCode.cpp:19-66. *)
Definition e_EntsoeGeographicalCode : enumeration := mkEnum
  ["AL"; "AT"; "BA"; "BE"; "BG"; "BY"; "CH"; "CZ"; "DE"; "D1"; "D2"; "D4"; "D7"; "D8"; "DK"; "ES"; "FR"; "GB"; "GR"; "HR"; "HU";
   "IT"; "KS"; "LU"; "LT"; "MA"; "MD"; "ME"; "MK"; "NL"; "NO"; "PL"; "PT"; "RO"; "RS"; "RU"; "SE"; "SK"; "SI"; "TR"; "UA"; "UC";
   "UX"]
  ["AL"; "AT"; "BA"; "BE"; "BG"; "BY"; "CH"; "CZ"; "DE"; "D1"; "D2"; "D4"; "D7"; "D8"; "DK"; "ES"; "FR"; "GB"; "GR"; "HR"; "HU";
   "IT"; "KS"; "LU"; "LT"; "MA"; "MD"; "ME"; "MK"; "NL"; "NO"; "PL"; "PT"; "RO"; "RS"; "RU"; "SE"; "SK"; "SI"; "TR"; "UA"; "UC";
   "UX"].
(** ConnectablePosition::Direction: extensions/sld/include/powsybl/iidm/extensions/sld/ConnectablePosition.hpp:26-30; its names: extensions/sld/src/ConnectablePosition.cpp:21-28. *)
Definition e_ConnectablePosition_Direction : enumeration := mkEnum
  ["TOP"; "BOTTOM"; "UNDEFINED"]
  ["TOP"; "BOTTOM"; "UNDEFINED"].
(** s_countryNames: src/iidm/Country.cpp:21-272 (UTF-8). *)
Definition country_names : list string :=
  ["AFGHANISTAN"; "ÅLAND ISLANDS"; "ALBANIA"; "ALGERIA"; "AMERICAN SAMOA"; "ANDORRA"; "ANGOLA"; "ANGUILLA"; "ANTARCTICA";
   "ANTIGUA AND BARBUDA"; "ARGENTINA"; "ARMENIA"; "ARUBA"; "AUSTRALIA"; "AUSTRIA"; "AZERBAIJAN"; "BAHAMAS"; "BAHRAIN";
   "BANGLADESH"; "BARBADOS"; "BELARUS"; "BELGIUM"; "BELIZE"; "BENIN"; "BERMUDA"; "BHUTAN"; "BOLIVIA, PLURINATIONAL STATE OF";
   "BONAIRE, SINT EUSTATIUS AND SABA"; "BOSNIA AND HERZEGOVINA"; "BOTSWANA"; "BOUVET ISLAND"; "BRAZIL";
   "BRITISH INDIAN OCEAN TERRITORY"; "BRUNEI DARUSSALAM"; "BULGARIA"; "BURKINA FASO"; "BURUNDI"; "CAMBODIA"; "CAMEROON";
   "CANADA"; "CAPE VERDE"; "CAYMAN ISLANDS"; "CENTRAL AFRICAN REPUBLIC"; "CHAD"; "CHILE"; "CHINA"; "CHRISTMAS ISLAND";
   "COCOS  = KEELING) ISLANDS"; "COLOMBIA"; "COMOROS"; "CONGO"; "CONGO, THE DEMOCRATIC REPUBLIC OF THE"; "COOK ISLANDS";
   "COSTA RICA"; "CÔTE D'IVOIRE"; "CROATIA"; "CUBA"; "CURAÇAO"; "CYPRUS"; "CZECH REPUBLIC"; "DENMARK"; "DJIBOUTI"; "DOMINICA";
   "DOMINICAN REPUBLIC"; "ECUADOR"; "EGYPT"; "EL SALVADOR"; "EQUATORIAL GUINEA"; "ERITREA"; "ESTONIA"; "ETHIOPIA";
   "FALKLAND ISLANDS  = MALVINAS)"; "FAROE ISLANDS"; "FIJI"; "FINLAND"; "FRANCE"; "FRENCH GUIANA"; "FRENCH POLYNESIA";
   "FRENCH SOUTHERN TERRITORIES"; "GABON"; "GAMBIA"; "GEORGIA"; "GERMANY"; "GHANA"; "GIBRALTAR"; "GREECE"; "GREENLAND";
   "GRENADA"; "GUADELOUPE"; "GUAM"; "GUATEMALA"; "GUERNSEY"; "GUINEA"; "GUINEA-BISSAU"; "GUYANA"; "HAITI";
   "HEARD ISLAND AND MCDONALD ISLANDS"; "HOLY SEE  = VATICAN CITY STATE)"; "HONDURAS"; "HONG KONG"; "HUNGARY"; "ICELAND";
   "INDIA"; "INDONESIA"; "IRAN, ISLAMIC REPUBLIC OF"; "IRAQ"; "IRELAND"; "ISLE OF MAN"; "ISRAEL"; "ITALY"; "JAMAICA"; "JAPAN";
   "JERSEY"; "JORDAN"; "KAZAKHSTAN"; "KENYA"; "KIRIBATI"; "KOREA, DEMOCRATIC PEOPLE'S REPUBLIC OF"; "KOREA, REPUBLIC OF";
   "KOSOVO"; "KUWAIT"; "KYRGYZSTAN"; "LAO PEOPLE'S DEMOCRATIC REPUBLIC"; "LATVIA"; "LEBANON"; "LESOTHO"; "LIBERIA"; "LIBYA";
   "LIECHTENSTEIN"; "LITHUANIA"; "LUXEMBOURG"; "MACAO"; "MACEDONIA, THE FORMER YUGOSLAV REPUBLIC OF"; "MADAGASCAR"; "MALAWI";
   "MALAYSIA"; "MALDIVES"; "MALI"; "MALTA"; "MARSHALL ISLANDS"; "MARTINIQUE"; "MAURITANIA"; "MAURITIUS"; "MAYOTTE"; "MEXICO";
   "MICRONESIA, FEDERATED STATES OF"; "MOLDOVA, REPUBLIC OF"; "MONACO"; "MONGOLIA"; "MONTENEGRO"; "MONTSERRAT"; "MOROCCO";
   "MOZAMBIQUE"; "MYANMAR"; "NAMIBIA"; "NAURU"; "NEPAL"; "NETHERLANDS"; "NEW CALEDONIA"; "NEW ZEALAND"; "NICARAGUA"; "NIGER";
   "NIGERIA"; "NIUE"; "NORFOLK ISLAND"; "NORTHERN MARIANA ISLANDS"; "NORWAY"; "OMAN"; "PAKISTAN"; "PALAU"; "PALESTINE, STATE OF";
   "PANAMA"; "PAPUA NEW GUINEA"; "PARAGUAY"; "PERU"; "PHILIPPINES"; "PITCAIRN"; "POLAND"; "PORTUGAL"; "PUERTO RICO"; "QATAR";
   "RÉUNION"; "ROMANIA"; "RUSSIAN FEDERATION"; "RWANDA"; "SAINT BARTHÉLEMY"; "SAINT HELENA, ASCENSION AND TRISTAN DA CUNHA";
   "SAINT KITTS AND NEVIS"; "SAINT LUCIA"; "SAINT MARTIN  = FRENCH PART)"; "SAINT PIERRE AND MIQUELON";
   "SAINT VINCENT AND THE GRENADINES"; "SAMOA"; "SAN MARINO"; "SAO TOME AND PRINCIPE"; "SAUDI ARABIA"; "SENEGAL"; "SERBIA";
   "SEYCHELLES"; "SIERRA LEONE"; "SINGAPORE"; "SINT MAARTEN  = DUTCH PART)"; "SLOVAKIA"; "SLOVENIA"; "SOLOMON ISLANDS";
   "SOMALIA"; "SOUTH AFRICA"; "SOUTH GEORGIA AND THE SOUTH SANDWICH ISLANDS"; "SOUTH SUDAN"; "SPAIN"; "SRI LANKA"; "SUDAN";
   "SURINAME"; "SVALBARD AND JAN MAYEN"; "SWAZILAND"; "SWEDEN"; "SWITZERLAND"; "SYRIAN ARAB REPUBLIC";
   "TAIWAN, PROVINCE OF CHINA"; "TAJIKISTAN"; "TANZANIA, UNITED REPUBLIC OF"; "THAILAND"; "TIMOR-LESTE"; "TOGO"; "TOKELAU";
   "TONGA"; "TRINIDAD AND TOBAGO"; "TUNISIA"; "TURKEY"; "TURKMENISTAN"; "TURKS AND CAICOS ISLANDS"; "TUVALU"; "UGANDA";
   "UKRAINE"; "UNITED ARAB EMIRATES"; "UNITED KINGDOM"; "UNITED STATES"; "UNITED STATES MINOR OUTLYING ISLANDS"; "URUGUAY";
   "UZBEKISTAN"; "VANUATU"; "VENEZUELA, BOLIVARIAN REPUBLIC OF"; "VIET NAM"; "VIRGIN ISLANDS, BRITISH"; "VIRGIN ISLANDS, U.S.";
   "WALLIS AND FUTUNA"; "WESTERN SAHARA"; "YEMEN"; "ZAMBIA"; "ZIMBABWE"].

(** All of them. *)
Definition enumerations : list enumeration :=
  [e_Branch_Side; e_ConnectableType; e_Country; e_EnergySource; e_HvdcConverterStation_HvdcType;
   e_HvdcLine_ConvertersMode; e_LimitType; e_LoadType; e_PhaseTapChanger_RegulationMode; e_ShuntCompensatorModelType;
   e_StaticVarCompensator_RegulationMode; e_SwitchKind; e_ThreeWindingsTransformer_Side; e_TopologyKind; e_TopologyLevel;
   e_ExportOptions_IidmVersionIncompatibilityBehavior; e_DiscreteMeasurement_TapChanger; e_DiscreteMeasurement_Type; e_DiscreteMeasurement_ValueType; e_Measurement_Side;
   e_Measurement_Type; e_BranchStatus_Status; e_EntsoeGeographicalCode; e_ConnectablePosition_Direction].
