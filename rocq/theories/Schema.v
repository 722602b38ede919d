(* GENERATED by tools/gen_schema.py from the text of /repo/ccsds_ndm/models/ndmxml2/*.py. Do not edit.
   Each definition cites the file and lines of the class it transcribes.
   Fields are in dataclass order (base class fields first).
   Simplification: validation facets (pattern, min/max, required) and
   namespaces are dropped; the library never enforces them on reading. *)
From Coq Require Import String List.
From Verif Require Import PyVal.
Import ListNotations.
Local Open Scope string_scope.

(* ccsds_ndm/models/ndmxml2/ndmxml_2_0_0_common_2_0.py lines 9-10 *)
Definition c_AccUnits : cdef := CEnum [("KM_S_2", "km/s**2")].
(* ccsds_ndm/models/ndmxml2/ndmxml_2_0_0_common_2_0.py lines 13-16 *)
Definition c_AngleKeywordType : cdef := CEnum [("X_ANGLE", "X_ANGLE"); ("Y_ANGLE", "Y_ANGLE"); ("Z_ANGLE", "Z_ANGLE")].
(* ccsds_ndm/models/ndmxml2/ndmxml_2_0_0_common_2_0.py lines 19-22 *)
Definition c_AngleRateKeywordType : cdef := CEnum [("X_RATE", "X_RATE"); ("Y_RATE", "Y_RATE"); ("Z_RATE", "Z_RATE")].
(* ccsds_ndm/models/ndmxml2/ndmxml_2_0_0_common_2_0.py lines 25-26 *)
Definition c_AngleRateUnits : cdef := CEnum [("DEG_S", "deg/s")].
(* ccsds_ndm/models/ndmxml2/ndmxml_2_0_0_common_2_0.py lines 29-30 *)
Definition c_AngleUnits : cdef := CEnum [("DEG", "deg")].
(* ccsds_ndm/models/ndmxml2/ndmxml_2_0_0_common_2_0.py lines 33-34 *)
Definition c_AreaUnits : cdef := CEnum [("M_2", "m**2")].
(* ccsds_ndm/models/ndmxml2/ndmxml_2_0_0_common_2_0.py lines 37-38 *)
Definition c_BallisticCoeffUnitsType : cdef := CEnum [("KG_M_2", "kg/m**2")].
(* ccsds_ndm/models/ndmxml2/ndmxml_2_0_0_common_2_0.py lines 41-47 *)
Definition c_ControlledType : cdef := CEnum [("YES", "YES"); ("YES_1", "yes"); ("NO", "NO"); ("NO_1", "no"); ("UNKNOWN", "UNKNOWN"); ("UNKNOWN_1", "unknown")].
(* ccsds_ndm/models/ndmxml2/ndmxml_2_0_0_common_2_0.py lines 50-51 *)
Definition c_DayIntervalUnits : cdef := CEnum [("D", "d")].
(* ccsds_ndm/models/ndmxml2/ndmxml_2_0_0_common_2_0.py lines 54-58 *)
Definition c_DisintegrationType : cdef := CEnum [("NONE_VALUE", "NONE"); ("MASS_LOSS", "MASS-LOSS"); ("BREAK_UP", "BREAK-UP"); ("MASS_LOSS_BREAK_UP", "MASS-LOSS + BREAK-UP")].
(* ccsds_ndm/models/ndmxml2/ndmxml_2_0_0_common_2_0.py lines 61-62 *)
Definition c_FrequencyUnits : cdef := CEnum [("HZ", "Hz")].
(* ccsds_ndm/models/ndmxml2/ndmxml_2_0_0_common_2_0.py lines 65-67 *)
Definition c_GmUnits : cdef := CEnum [("KM_3_S_2", "km**3/s**2"); ("KM_3_S_2_1", "KM**3/S**2")].
(* ccsds_ndm/models/ndmxml2/ndmxml_2_0_0_common_2_0.py lines 70-74 *)
Definition c_ImpactUncertaintyType : cdef := CEnum [("NONE_VALUE", "NONE"); ("ANALYTICAL", "ANALYTICAL"); ("STOCHASTIC", "STOCHASTIC"); ("EMPIRICAL", "EMPIRICAL")].
(* ccsds_ndm/models/ndmxml2/ndmxml_2_0_0_common_2_0.py lines 77-78 *)
Definition c_Km2Units : cdef := CEnum [("KM_2", "km**2")].
(* ccsds_ndm/models/ndmxml2/ndmxml_2_0_0_common_2_0.py lines 81-82 *)
Definition c_Km2S2Units : cdef := CEnum [("KM_2_S_2", "km**2/s**2")].
(* ccsds_ndm/models/ndmxml2/ndmxml_2_0_0_common_2_0.py lines 85-86 *)
Definition c_Km2SUnits : cdef := CEnum [("KM_2_S", "km**2/s")].
(* ccsds_ndm/models/ndmxml2/ndmxml_2_0_0_common_2_0.py lines 89-90 *)
Definition c_LatLonUnits : cdef := CEnum [("DEG", "deg")].
(* ccsds_ndm/models/ndmxml2/ndmxml_2_0_0_common_2_0.py lines 93-94 *)
Definition c_LengthUnits : cdef := CEnum [("M", "m")].
(* ccsds_ndm/models/ndmxml2/ndmxml_2_0_0_common_2_0.py lines 97-98 *)
Definition c_MassUnits : cdef := CEnum [("KG", "kg")].
(* ccsds_ndm/models/ndmxml2/ndmxml_2_0_0_common_2_0.py lines 101-102 *)
Definition c_MomentUnits : cdef := CEnum [("KG_M_2", "kg*m**2")].
(* ccsds_ndm/models/ndmxml2/ndmxml_2_0_0_common_2_0.py lines 105-106 *)
Definition c_Ms2Units : cdef := CEnum [("M_S_2", "m/s**2")].
(* ccsds_ndm/models/ndmxml2/ndmxml_2_0_0_common_2_0.py lines 109-140 *)
Definition c_NdmHeader : cdef := CData "ndmHeader" [
  mkField "comment" (Some "COMMENT") true TStr KElem None;
  mkField "creation_date" (Some "CREATION_DATE") false TStr KElem None;
  mkField "originator" (Some "ORIGINATOR") false TStr KElem None
].
(* ccsds_ndm/models/ndmxml2/ndmxml_2_0_0_common_2_0.py lines 143-155 *)
Definition c_ObjectDescriptionType : cdef := CEnum [("PAYLOAD", "PAYLOAD"); ("PAYLOAD_1", "payload"); ("ROCKET_BODY", "ROCKET BODY"); ("ROCKET_BODY_1", "rocket body"); ("UPPER_STAGE", "UPPER STAGE"); ("UPPER_STAGE_1", "upper stage"); ("DEBRIS", "DEBRIS"); ("DEBRIS_1", "debris"); ("UNKNOWN", "UNKNOWN"); ("UNKNOWN_1", "unknown"); ("OTHER", "OTHER"); ("OTHER_1", "other")].
(* ccsds_ndm/models/ndmxml2/ndmxml_2_0_0_common_2_0.py lines 158-188 *)
Definition c_OemCovarianceMatrixAbstractType : cdef := CData "oemCovarianceMatrixAbstractType" [
  mkField "comment" (Some "COMMENT") true TStr KElem None;
  mkField "epoch" (Some "EPOCH") false TStr KElem None;
  mkField "cov_ref_frame" (Some "COV_REF_FRAME") false TStr KElem None
].
(* ccsds_ndm/models/ndmxml2/ndmxml_2_0_0_common_2_0.py lines 191-211 *)
Definition c_OpmCovarianceMatrixAbstractType : cdef := CData "opmCovarianceMatrixAbstractType" [
  mkField "comment" (Some "COMMENT") true TStr KElem None;
  mkField "cov_ref_frame" (Some "COV_REF_FRAME") false TStr KElem None
].
(* ccsds_ndm/models/ndmxml2/ndmxml_2_0_0_common_2_0.py lines 214-215 *)
Definition c_PercentageUnits : cdef := CEnum [("VALUE", "%")].
(* ccsds_ndm/models/ndmxml2/ndmxml_2_0_0_common_2_0.py lines 218-219 *)
Definition c_PositionCovarianceUnits : cdef := CEnum [("KM_2", "km**2")].
(* ccsds_ndm/models/ndmxml2/ndmxml_2_0_0_common_2_0.py lines 222-223 *)
Definition c_PositionUnits : cdef := CEnum [("KM", "km")].
(* ccsds_ndm/models/ndmxml2/ndmxml_2_0_0_common_2_0.py lines 226-227 *)
Definition c_PositionVelocityCovarianceUnits : cdef := CEnum [("KM_2_S", "km**2/s")].
(* ccsds_ndm/models/ndmxml2/ndmxml_2_0_0_common_2_0.py lines 230-231 *)
Definition c_QuaternionDotUnits : cdef := CEnum [("VALUE_1_S", "1/s")].
(* ccsds_ndm/models/ndmxml2/ndmxml_2_0_0_common_2_0.py lines 234-282 *)
Definition c_QuaternionType : cdef := CData "quaternionType" [
  mkField "qc" (Some "QC") false TDec KElem None;
  mkField "q1" (Some "Q1") false TDec KElem None;
  mkField "q2" (Some "Q2") false TDec KElem None;
  mkField "q3" (Some "Q3") false TDec KElem None
].
(* ccsds_ndm/models/ndmxml2/ndmxml_2_0_0_common_2_0.py lines 285-289 *)
Definition c_ReentryUncertaintyMethodType : cdef := CEnum [("NONE_VALUE", "NONE"); ("ANALYTICAL", "ANALYTICAL"); ("STOCHASTIC", "STOCHASTIC"); ("EMPIRICAL", "EMPIRICAL")].
(* ccsds_ndm/models/ndmxml2/ndmxml_2_0_0_common_2_0.py lines 292-294 *)
Definition c_RotDirectionType : cdef := CEnum [("A2_B", "A2B"); ("B2_A", "B2A")].
(* ccsds_ndm/models/ndmxml2/ndmxml_2_0_0_common_2_0.py lines 297-309 *)
Definition c_RotseqType : cdef := CEnum [("VALUE_121", "121"); ("VALUE_123", "123"); ("VALUE_131", "131"); ("VALUE_132", "132"); ("VALUE_212", "212"); ("VALUE_213", "213"); ("VALUE_231", "231"); ("VALUE_232", "232"); ("VALUE_312", "312"); ("VALUE_313", "313"); ("VALUE_321", "321"); ("VALUE_323", "323")].
(* ccsds_ndm/models/ndmxml2/ndmxml_2_0_0_common_2_0.py lines 312-332 *)
Definition c_TimeSystemType : cdef := CEnum [("GMST", "GMST"); ("GMST_1", "gmst"); ("GPS", "GPS"); ("GPS_1", "gps"); ("SCLK", "SCLK"); ("SCLK_1", "sclk"); ("TAI", "TAI"); ("TAI_1", "tai"); ("TCB", "TCB"); ("TCB_1", "tcb"); ("TDB", "TDB"); ("TDB_1", "tdb"); ("TOD", "TOD"); ("TOD_1", "tod"); ("TT", "TT"); ("TT_1", "tt"); ("UT1", "UT1"); ("UT1_1", "ut1"); ("UTC", "UTC"); ("UTC_1", "utc")].
(* ccsds_ndm/models/ndmxml2/ndmxml_2_0_0_common_2_0.py lines 335-336 *)
Definition c_TimeUnits : cdef := CEnum [("S", "s")].
(* ccsds_ndm/models/ndmxml2/ndmxml_2_0_0_common_2_0.py lines 339-353 *)
Definition c_UserDefinedParameterType : cdef := CData "userDefinedParameterType" [
  mkField "value" None false TStr KText None;
  mkField "parameter" None false TStr KAttr None
].
(* ccsds_ndm/models/ndmxml2/ndmxml_2_0_0_common_2_0.py lines 356-357 *)
Definition c_VelocityCovarianceUnits : cdef := CEnum [("KM_2_S_2", "km**2/s**2")].
(* ccsds_ndm/models/ndmxml2/ndmxml_2_0_0_common_2_0.py lines 360-361 *)
Definition c_VelocityUnits : cdef := CEnum [("KM_S", "km/s")].
(* ccsds_ndm/models/ndmxml2/ndmxml_2_0_0_common_2_0.py lines 364-368 *)
Definition c_YesNoType : cdef := CEnum [("YES", "YES"); ("YES_1", "yes"); ("NO", "NO"); ("NO_1", "no")].
(* ccsds_ndm/models/ndmxml2/ndmxml_2_0_0_common_2_0.py lines 371-384 *)
Definition c_AccType : cdef := CData "accType" [
  mkField "value" None false TDec KText None;
  mkField "units" None false (TCls "AccUnits") KAttr None
].
(* ccsds_ndm/models/ndmxml2/ndmxml_2_0_0_common_2_0.py lines 387-404 *)
Definition c_AltType : cdef := CData "altType" [
  mkField "value" None false TDec KText None;
  mkField "units" None false (TCls "LengthUnits") KAttr None
].
(* ccsds_ndm/models/ndmxml2/ndmxml_2_0_0_common_2_0.py lines 407-420 *)
Definition c_AngleRateType : cdef := CData "angleRateType" [
  mkField "value" None false TDec KText None;
  mkField "units" None false (TCls "AngleRateUnits") KAttr None
].
(* ccsds_ndm/models/ndmxml2/ndmxml_2_0_0_common_2_0.py lines 423-440 *)
Definition c_AngleType : cdef := CData "angleType" [
  mkField "value" None false TDec KText None;
  mkField "units" None false (TCls "AngleUnits") KAttr None
].
(* ccsds_ndm/models/ndmxml2/ndmxml_2_0_0_common_2_0.py lines 443-459 *)
Definition c_AreaType : cdef := CData "areaType" [
  mkField "value" None false TDec KText None;
  mkField "units" None false (TCls "AreaUnits") KAttr None
].
(* ccsds_ndm/models/ndmxml2/ndmxml_2_0_0_common_2_0.py lines 462-478 *)
Definition c_BallisticCoeffType : cdef := CData "ballisticCoeffType" [
  mkField "value" None false TDec KText None;
  mkField "units" None false (TCls "BallisticCoeffUnitsType") KAttr None
].
(* ccsds_ndm/models/ndmxml2/ndmxml_2_0_0_common_2_0.py lines 481-498 *)
Definition c_DayIntervalType : cdef := CData "dayIntervalType" [
  mkField "value" None false TDec KText None;
  mkField "units" None false (TCls "DayIntervalUnits") KAttr None
].
(* ccsds_ndm/models/ndmxml2/ndmxml_2_0_0_common_2_0.py lines 501-517 *)
Definition c_DeltamassType : cdef := CData "deltamassType" [
  mkField "value" None false TDec KText None;
  mkField "units" None false (TCls "MassUnits") KAttr None
].
(* ccsds_ndm/models/ndmxml2/ndmxml_2_0_0_common_2_0.py lines 520-533 *)
Definition c_DistanceType : cdef := CData "distanceType" [
  mkField "value" None false TDec KText None;
  mkField "units" None false (TCls "PositionUnits") KAttr None
].
(* ccsds_ndm/models/ndmxml2/ndmxml_2_0_0_common_2_0.py lines 536-552 *)
Definition c_DurationType : cdef := CData "durationType" [
  mkField "value" None false TDec KText None;
  mkField "units" None false (TCls "TimeUnits") KAttr None
].
(* ccsds_ndm/models/ndmxml2/ndmxml_2_0_0_common_2_0.py lines 555-571 *)
Definition c_FrequencyType : cdef := CData "frequencyType" [
  mkField "value" None false TDec KText None;
  mkField "units" None false (TCls "FrequencyUnits") KAttr None
].
(* ccsds_ndm/models/ndmxml2/ndmxml_2_0_0_common_2_0.py lines 574-590 *)
Definition c_GmType : cdef := CData "gmType" [
  mkField "value" None false TDec KText None;
  mkField "units" None false (TCls "GmUnits") KAttr None
].
(* ccsds_ndm/models/ndmxml2/ndmxml_2_0_0_common_2_0.py lines 593-611 *)
Definition c_InclinationType : cdef := CData "inclinationType" [
  mkField "value" None false TDec KText None;
  mkField "units" None false (TCls "AngleUnits") KAttr None
].
(* ccsds_ndm/models/ndmxml2/ndmxml_2_0_0_common_2_0.py lines 614-627 *)
Definition c_Km2Type : cdef := CData "km2Type" [
  mkField "value" None false TDec KText None;
  mkField "units" None false (TCls "Km2Units") KAttr None
].
(* ccsds_ndm/models/ndmxml2/ndmxml_2_0_0_common_2_0.py lines 630-643 *)
Definition c_Km2S2Type : cdef := CData "km2s2Type" [
  mkField "value" None false TDec KText None;
  mkField "units" None false (TCls "Km2S2Units") KAttr None
].
(* ccsds_ndm/models/ndmxml2/ndmxml_2_0_0_common_2_0.py lines 646-659 *)
Definition c_Km2SType : cdef := CData "km2sType" [
  mkField "value" None false TDec KText None;
  mkField "units" None false (TCls "Km2SUnits") KAttr None
].
(* ccsds_ndm/models/ndmxml2/ndmxml_2_0_0_common_2_0.py lines 662-680 *)
Definition c_LatType : cdef := CData "latType" [
  mkField "value" None false TDec KText None;
  mkField "units" None false (TCls "LatLonUnits") KAttr None
].
(* ccsds_ndm/models/ndmxml2/ndmxml_2_0_0_common_2_0.py lines 683-697 *)
Definition c_LengthType : cdef := CData "lengthType" [
  mkField "value" None false TDec KText None;
  mkField "units" None false (TCls "LengthUnits") KAttr None
].
(* ccsds_ndm/models/ndmxml2/ndmxml_2_0_0_common_2_0.py lines 700-718 *)
Definition c_LonType : cdef := CData "lonType" [
  mkField "value" None false TDec KText None;
  mkField "units" None false (TCls "LatLonUnits") KAttr None
].
(* ccsds_ndm/models/ndmxml2/ndmxml_2_0_0_common_2_0.py lines 721-737 *)
Definition c_MassType : cdef := CData "massType" [
  mkField "value" None false TDec KText None;
  mkField "units" None false (TCls "MassUnits") KAttr None
].
(* ccsds_ndm/models/ndmxml2/ndmxml_2_0_0_common_2_0.py lines 740-753 *)
Definition c_MomentType : cdef := CData "momentType" [
  mkField "value" None false TDec KText None;
  mkField "units" None false (TCls "MomentUnits") KAttr None
].
(* ccsds_ndm/models/ndmxml2/ndmxml_2_0_0_common_2_0.py lines 756-770 *)
Definition c_Ms2Type : cdef := CData "ms2Type" [
  mkField "value" None false TDec KText None;
  mkField "units" None false (TCls "Ms2Units") KAttr None
].
(* ccsds_ndm/models/ndmxml2/ndmxml_2_0_0_common_2_0.py lines 773-791 *)
Definition c_PercentageType : cdef := CData "percentageType" [
  mkField "value" None false TDec KText None;
  mkField "units" None false (TCls "PercentageUnits") KAttr None
].
(* ccsds_ndm/models/ndmxml2/ndmxml_2_0_0_common_2_0.py lines 794-807 *)
Definition c_PositionCovarianceType : cdef := CData "positionCovarianceType" [
  mkField "value" None false TDec KText None;
  mkField "units" None false (TCls "PositionCovarianceUnits") KAttr None
].
(* ccsds_ndm/models/ndmxml2/ndmxml_2_0_0_common_2_0.py lines 810-823 *)
Definition c_PositionType : cdef := CData "positionType" [
  mkField "value" None false TDec KText None;
  mkField "units" None false (TCls "PositionUnits") KAttr None
].
(* ccsds_ndm/models/ndmxml2/ndmxml_2_0_0_common_2_0.py lines 826-839 *)
Definition c_PositionVelocityCovarianceType : cdef := CData "positionVelocityCovarianceType" [
  mkField "value" None false TDec KText None;
  mkField "units" None false (TCls "PositionVelocityCovarianceUnits") KAttr None
].
(* ccsds_ndm/models/ndmxml2/ndmxml_2_0_0_common_2_0.py lines 842-855 *)
Definition c_QuaternionDotType : cdef := CData "quaternionDotType" [
  mkField "value" None false TDec KText None;
  mkField "units" None false (TCls "QuaternionDotUnits") KAttr None
].
(* ccsds_ndm/models/ndmxml2/ndmxml_2_0_0_common_2_0.py lines 858-872 *)
Definition c_RdmPositionType : cdef := CData "rdmPositionType" [
  mkField "value" None false TDec KText None;
  mkField "units" None false (TCls "PositionUnits") KAttr None
].
(* ccsds_ndm/models/ndmxml2/ndmxml_2_0_0_common_2_0.py lines 875-889 *)
Definition c_RdmVelocityType : cdef := CData "rdmVelocityType" [
  mkField "value" None false TDec KText None;
  mkField "units" None false (TCls "VelocityUnits") KAttr None
].
(* ccsds_ndm/models/ndmxml2/ndmxml_2_0_0_common_2_0.py lines 892-916 *)
Definition c_RotationAngleComponentType : cdef := CData "rotationAngleComponentType" [
  mkField "value" None false TDec KText None;
  mkField "angle" None false (TCls "AngleKeywordType") KAttr None;
  mkField "units" None false (TCls "AngleUnits") KAttr None
].
(* ccsds_ndm/models/ndmxml2/ndmxml_2_0_0_common_2_0.py lines 919-945 *)
Definition c_RotationAngleComponentTypeold : cdef := CData "rotationAngleComponentTypeold" [
  mkField "units" None false (TCls "AngleUnits") KAttr None;
  mkField "angle" None false (TCls "AngleKeywordType") KAttr None;
  mkField "value" None false TDec KAttr None
].
(* ccsds_ndm/models/ndmxml2/ndmxml_2_0_0_common_2_0.py lines 948-968 *)
Definition c_RotationRateComponentType : cdef := CData "rotationRateComponentType" [
  mkField "value" None false TDec KText None;
  mkField "rate" None false (TCls "AngleRateKeywordType") KAttr None;
  mkField "units" None false (TCls "AngleRateUnits") KAttr None
].
(* ccsds_ndm/models/ndmxml2/ndmxml_2_0_0_common_2_0.py lines 971-995 *)
Definition c_RotationRateComponentTypeOld : cdef := CData "rotationRateComponentTypeOLD" [
  mkField "units" None false (TCls "AngleRateUnits") KAttr None;
  mkField "rate" None false (TCls "AngleRateKeywordType") KAttr None;
  mkField "value" None false TDec KAttr None
].
(* ccsds_ndm/models/ndmxml2/ndmxml_2_0_0_common_2_0.py lines 998-1020 *)
Definition c_UserDefinedType : cdef := CData "userDefinedType" [
  mkField "comment" (Some "COMMENT") true TStr KElem None;
  mkField "user_defined" (Some "USER_DEFINED") true (TCls "UserDefinedParameterType") KElem None
].
(* ccsds_ndm/models/ndmxml2/ndmxml_2_0_0_common_2_0.py lines 1023-1036 *)
Definition c_VelocityCovarianceType : cdef := CData "velocityCovarianceType" [
  mkField "value" None false TDec KText None;
  mkField "units" None false (TCls "VelocityCovarianceUnits") KAttr None
].
(* ccsds_ndm/models/ndmxml2/ndmxml_2_0_0_common_2_0.py lines 1039-1052 *)
Definition c_VelocityType : cdef := CData "velocityType" [
  mkField "value" None false TDec KText None;
  mkField "units" None false (TCls "VelocityUnits") KAttr None
].
(* ccsds_ndm/models/ndmxml2/ndmxml_2_0_0_common_2_0.py lines 1055-1136 *)
Definition c_AtmosphericReentryParametersType : cdef := CData "atmosphericReentryParametersType" [
  mkField "comment" (Some "COMMENT") true TStr KElem None;
  mkField "orbit_lifetime" (Some "ORBIT_LIFETIME") false (TCls "DayIntervalType") KElem None;
  mkField "reentry_altitude" (Some "REENTRY_ALTITUDE") false (TCls "PositionType") KElem None;
  mkField "orbit_lifetime_window_start" (Some "ORBIT_LIFETIME_WINDOW_START") false (TCls "DayIntervalType") KElem None;
  mkField "orbit_lifetime_window_end" (Some "ORBIT_LIFETIME_WINDOW_END") false (TCls "DayIntervalType") KElem None;
  mkField "nominal_reentry_epoch" (Some "NOMINAL_REENTRY_EPOCH") false TStr KElem None;
  mkField "reentry_window_start" (Some "REENTRY_WINDOW_START") false TStr KElem None;
  mkField "reentry_window_end" (Some "REENTRY_WINDOW_END") false TStr KElem None;
  mkField "orbit_lifetime_confidence_level" (Some "ORBIT_LIFETIME_CONFIDENCE_LEVEL") false (TCls "PercentageType") KElem None
].
(* ccsds_ndm/models/ndmxml2/ndmxml_2_0_0_common_2_0.py lines 1139-1404 *)
Definition c_GroundImpactParametersType : cdef := CData "groundImpactParametersType" [
  mkField "comment" (Some "COMMENT") true TStr KElem None;
  mkField "probability_of_impact" (Some "PROBABILITY_OF_IMPACT") false TDec KElem None;
  mkField "probability_of_burn_up" (Some "PROBABILITY_OF_BURN_UP") false TDec KElem None;
  mkField "probability_of_break_up" (Some "PROBABILITY_OF_BREAK_UP") false TDec KElem None;
  mkField "probability_of_land_impact" (Some "PROBABILITY_OF_LAND_IMPACT") false TDec KElem None;
  mkField "probability_of_casualty" (Some "PROBABILITY_OF_CASUALTY") false TDec KElem None;
  mkField "nominal_impact_epoch" (Some "NOMINAL_IMPACT_EPOCH") false TStr KElem None;
  mkField "impact_window_start" (Some "IMPACT_WINDOW_START") false TStr KElem None;
  mkField "impact_window_end" (Some "IMPACT_WINDOW_END") false TStr KElem None;
  mkField "impact_ref_frame" (Some "IMPACT_REF_FRAME") false TStr KElem None;
  mkField "nominal_impact_lon" (Some "NOMINAL_IMPACT_LON") false (TCls "LonType") KElem None;
  mkField "nominal_impact_lat" (Some "NOMINAL_IMPACT_LAT") false (TCls "LatType") KElem None;
  mkField "nominal_impact_alt" (Some "NOMINAL_IMPACT_ALT") false (TCls "AltType") KElem None;
  mkField "impact_1_confidence" (Some "IMPACT_1_CONFIDENCE") false (TCls "PercentageType") KElem None;
  mkField "impact_1_start_lon" (Some "IMPACT_1_START_LON") false (TCls "LonType") KElem None;
  mkField "impact_1_start_lat" (Some "IMPACT_1_START_LAT") false (TCls "LatType") KElem None;
  mkField "impact_1_stop_lon" (Some "IMPACT_1_STOP_LON") false (TCls "LonType") KElem None;
  mkField "impact_1_stop_lat" (Some "IMPACT_1_STOP_LAT") false (TCls "LatType") KElem None;
  mkField "impact_1_cross_track" (Some "IMPACT_1_CROSS_TRACK") false (TCls "DistanceType") KElem None;
  mkField "impact_2_confidence" (Some "IMPACT_2_CONFIDENCE") false (TCls "PercentageType") KElem None;
  mkField "impact_2_start_lon" (Some "IMPACT_2_START_LON") false (TCls "LonType") KElem None;
  mkField "impact_2_start_lat" (Some "IMPACT_2_START_LAT") false (TCls "LatType") KElem None;
  mkField "impact_2_stop_lon" (Some "IMPACT_2_STOP_LON") false (TCls "LonType") KElem None;
  mkField "impact_2_stop_lat" (Some "IMPACT_2_STOP_LAT") false (TCls "LatType") KElem None;
  mkField "impact_2_cross_track" (Some "IMPACT_2_CROSS_TRACK") false (TCls "DistanceType") KElem None;
  mkField "impact_3_confidence" (Some "IMPACT_3_CONFIDENCE") false (TCls "PercentageType") KElem None;
  mkField "impact_3_start_lon" (Some "IMPACT_3_START_LON") false (TCls "LonType") KElem None;
  mkField "impact_3_start_lat" (Some "IMPACT_3_START_LAT") false (TCls "LatType") KElem None;
  mkField "impact_3_stop_lon" (Some "IMPACT_3_STOP_LON") false (TCls "LonType") KElem None;
  mkField "impact_3_stop_lat" (Some "IMPACT_3_STOP_LAT") false (TCls "LatType") KElem None;
  mkField "impact_3_cross_track" (Some "IMPACT_3_CROSS_TRACK") false (TCls "DistanceType") KElem None
].
(* ccsds_ndm/models/ndmxml2/ndmxml_2_0_0_common_2_0.py lines 1407-1502 *)
Definition c_OdParametersType : cdef := CData "odParametersType" [
  mkField "comment" (Some "COMMENT") true TStr KElem None;
  mkField "time_lastob_start" (Some "TIME_LASTOB_START") false TStr KElem None;
  mkField "time_lastob_end" (Some "TIME_LASTOB_END") false TStr KElem None;
  mkField "recommended_od_span" (Some "RECOMMENDED_OD_SPAN") false (TCls "DayIntervalType") KElem None;
  mkField "actual_od_span" (Some "ACTUAL_OD_SPAN") false (TCls "DayIntervalType") KElem None;
  mkField "obs_available" (Some "OBS_AVAILABLE") false TInt KElem None;
  mkField "obs_used" (Some "OBS_USED") false TInt KElem None;
  mkField "tracks_available" (Some "TRACKS_AVAILABLE") false TInt KElem None;
  mkField "tracks_used" (Some "TRACKS_USED") false TInt KElem None;
  mkField "residuals_accepted" (Some "RESIDUALS_ACCEPTED") false (TCls "PercentageType") KElem None;
  mkField "weighted_rms" (Some "WEIGHTED_RMS") false TDec KElem None
].
(* ccsds_ndm/models/ndmxml2/ndmxml_2_0_0_common_2_0.py lines 1505-1698; base OemCovarianceMatrixAbstractType ccsds_ndm/models/ndmxml2/ndmxml_2_0_0_common_2_0.py lines 158-188 *)
Definition c_OemCovarianceMatrixType : cdef := CData "oemCovarianceMatrixType" [
  mkField "comment" (Some "COMMENT") true TStr KElem None;
  mkField "epoch" (Some "EPOCH") false TStr KElem None;
  mkField "cov_ref_frame" (Some "COV_REF_FRAME") false TStr KElem None;
  mkField "cx_x" (Some "CX_X") false (TCls "PositionCovarianceType") KElem None;
  mkField "cy_x" (Some "CY_X") false (TCls "PositionCovarianceType") KElem None;
  mkField "cy_y" (Some "CY_Y") false (TCls "PositionCovarianceType") KElem None;
  mkField "cz_x" (Some "CZ_X") false (TCls "PositionCovarianceType") KElem None;
  mkField "cz_y" (Some "CZ_Y") false (TCls "PositionCovarianceType") KElem None;
  mkField "cz_z" (Some "CZ_Z") false (TCls "PositionCovarianceType") KElem None;
  mkField "cx_dot_x" (Some "CX_DOT_X") false (TCls "PositionVelocityCovarianceType") KElem None;
  mkField "cx_dot_y" (Some "CX_DOT_Y") false (TCls "PositionVelocityCovarianceType") KElem None;
  mkField "cx_dot_z" (Some "CX_DOT_Z") false (TCls "PositionVelocityCovarianceType") KElem None;
  mkField "cx_dot_x_dot" (Some "CX_DOT_X_DOT") false (TCls "VelocityCovarianceType") KElem None;
  mkField "cy_dot_x" (Some "CY_DOT_X") false (TCls "PositionVelocityCovarianceType") KElem None;
  mkField "cy_dot_y" (Some "CY_DOT_Y") false (TCls "PositionVelocityCovarianceType") KElem None;
  mkField "cy_dot_z" (Some "CY_DOT_Z") false (TCls "PositionVelocityCovarianceType") KElem None;
  mkField "cy_dot_x_dot" (Some "CY_DOT_X_DOT") false (TCls "VelocityCovarianceType") KElem None;
  mkField "cy_dot_y_dot" (Some "CY_DOT_Y_DOT") false (TCls "VelocityCovarianceType") KElem None;
  mkField "cz_dot_x" (Some "CZ_DOT_X") false (TCls "PositionVelocityCovarianceType") KElem None;
  mkField "cz_dot_y" (Some "CZ_DOT_Y") false (TCls "PositionVelocityCovarianceType") KElem None;
  mkField "cz_dot_z" (Some "CZ_DOT_Z") false (TCls "PositionVelocityCovarianceType") KElem None;
  mkField "cz_dot_x_dot" (Some "CZ_DOT_X_DOT") false (TCls "VelocityCovarianceType") KElem None;
  mkField "cz_dot_y_dot" (Some "CZ_DOT_Y_DOT") false (TCls "VelocityCovarianceType") KElem None;
  mkField "cz_dot_z_dot" (Some "CZ_DOT_Z_DOT") false (TCls "VelocityCovarianceType") KElem None
].
(* ccsds_ndm/models/ndmxml2/ndmxml_2_0_0_common_2_0.py lines 1701-1894; base OpmCovarianceMatrixAbstractType ccsds_ndm/models/ndmxml2/ndmxml_2_0_0_common_2_0.py lines 191-211 *)
Definition c_OpmCovarianceMatrixType : cdef := CData "opmCovarianceMatrixType" [
  mkField "comment" (Some "COMMENT") true TStr KElem None;
  mkField "cov_ref_frame" (Some "COV_REF_FRAME") false TStr KElem None;
  mkField "cx_x" (Some "CX_X") false (TCls "PositionCovarianceType") KElem None;
  mkField "cy_x" (Some "CY_X") false (TCls "PositionCovarianceType") KElem None;
  mkField "cy_y" (Some "CY_Y") false (TCls "PositionCovarianceType") KElem None;
  mkField "cz_x" (Some "CZ_X") false (TCls "PositionCovarianceType") KElem None;
  mkField "cz_y" (Some "CZ_Y") false (TCls "PositionCovarianceType") KElem None;
  mkField "cz_z" (Some "CZ_Z") false (TCls "PositionCovarianceType") KElem None;
  mkField "cx_dot_x" (Some "CX_DOT_X") false (TCls "PositionVelocityCovarianceType") KElem None;
  mkField "cx_dot_y" (Some "CX_DOT_Y") false (TCls "PositionVelocityCovarianceType") KElem None;
  mkField "cx_dot_z" (Some "CX_DOT_Z") false (TCls "PositionVelocityCovarianceType") KElem None;
  mkField "cx_dot_x_dot" (Some "CX_DOT_X_DOT") false (TCls "VelocityCovarianceType") KElem None;
  mkField "cy_dot_x" (Some "CY_DOT_X") false (TCls "PositionVelocityCovarianceType") KElem None;
  mkField "cy_dot_y" (Some "CY_DOT_Y") false (TCls "PositionVelocityCovarianceType") KElem None;
  mkField "cy_dot_z" (Some "CY_DOT_Z") false (TCls "PositionVelocityCovarianceType") KElem None;
  mkField "cy_dot_x_dot" (Some "CY_DOT_X_DOT") false (TCls "VelocityCovarianceType") KElem None;
  mkField "cy_dot_y_dot" (Some "CY_DOT_Y_DOT") false (TCls "VelocityCovarianceType") KElem None;
  mkField "cz_dot_x" (Some "CZ_DOT_X") false (TCls "PositionVelocityCovarianceType") KElem None;
  mkField "cz_dot_y" (Some "CZ_DOT_Y") false (TCls "PositionVelocityCovarianceType") KElem None;
  mkField "cz_dot_z" (Some "CZ_DOT_Z") false (TCls "PositionVelocityCovarianceType") KElem None;
  mkField "cz_dot_x_dot" (Some "CZ_DOT_X_DOT") false (TCls "VelocityCovarianceType") KElem None;
  mkField "cz_dot_y_dot" (Some "CZ_DOT_Y_DOT") false (TCls "VelocityCovarianceType") KElem None;
  mkField "cz_dot_z_dot" (Some "CZ_DOT_Z_DOT") false (TCls "VelocityCovarianceType") KElem None
].
(* ccsds_ndm/models/ndmxml2/ndmxml_2_0_0_common_2_0.py lines 1897-1937 *)
Definition c_QuaternionRateType : cdef := CData "quaternionRateType" [
  mkField "qc_dot" (Some "QC_DOT") false (TCls "QuaternionDotType") KElem None;
  mkField "q1_dot" (Some "Q1_DOT") false (TCls "QuaternionDotType") KElem None;
  mkField "q2_dot" (Some "Q2_DOT") false (TCls "QuaternionDotType") KElem None;
  mkField "q3_dot" (Some "Q3_DOT") false (TCls "QuaternionDotType") KElem None
].
(* ccsds_ndm/models/ndmxml2/ndmxml_2_0_0_common_2_0.py lines 1940-2034 *)
Definition c_RdmSpacecraftParametersType : cdef := CData "rdmSpacecraftParametersType" [
  mkField "comment" (Some "COMMENT") true TStr KElem None;
  mkField "wet_mass" (Some "WET_MASS") false (TCls "MassType") KElem None;
  mkField "dry_mass" (Some "DRY_MASS") false (TCls "MassType") KElem None;
  mkField "hazardous_substances" (Some "HAZARDOUS_SUBSTANCES") false TStr KElem None;
  mkField "solar_rad_area" (Some "SOLAR_RAD_AREA") false (TCls "AreaType") KElem None;
  mkField "solar_rad_coeff" (Some "SOLAR_RAD_COEFF") false TDec KElem None;
  mkField "drag_area" (Some "DRAG_AREA") false (TCls "AreaType") KElem None;
  mkField "drag_coeff" (Some "DRAG_COEFF") false TDec KElem None;
  mkField "rcs" (Some "RCS") false (TCls "AreaType") KElem None;
  mkField "ballistic_coeff" (Some "BALLISTIC_COEFF") false (TCls "BallisticCoeffType") KElem None;
  mkField "thrust_acceleration" (Some "THRUST_ACCELERATION") false (TCls "Ms2Type") KElem None
].
(* ccsds_ndm/models/ndmxml2/ndmxml_2_0_0_common_2_0.py lines 2037-2065 *)
Definition c_RotationAngleType : cdef := CData "rotationAngleType" [
  mkField "rotation1" None false (TCls "RotationAngleComponentType") KElem None;
  mkField "rotation2" None false (TCls "RotationAngleComponentType") KElem None;
  mkField "rotation3" None false (TCls "RotationAngleComponentType") KElem None
].
(* ccsds_ndm/models/ndmxml2/ndmxml_2_0_0_common_2_0.py lines 2068-2096 *)
Definition c_RotationRateType : cdef := CData "rotationRateType" [
  mkField "rotation1" None false (TCls "RotationRateComponentType") KElem None;
  mkField "rotation2" None false (TCls "RotationRateComponentType") KElem None;
  mkField "rotation3" None false (TCls "RotationRateComponentType") KElem None
].
(* ccsds_ndm/models/ndmxml2/ndmxml_2_0_0_common_2_0.py lines 2099-2158 *)
Definition c_SpacecraftParametersType : cdef := CData "spacecraftParametersType" [
  mkField "comment" (Some "COMMENT") true TStr KElem None;
  mkField "mass" (Some "MASS") false (TCls "MassType") KElem None;
  mkField "solar_rad_area" (Some "SOLAR_RAD_AREA") false (TCls "AreaType") KElem None;
  mkField "solar_rad_coeff" (Some "SOLAR_RAD_COEFF") false TDec KElem None;
  mkField "drag_area" (Some "DRAG_AREA") false (TCls "AreaType") KElem None;
  mkField "drag_coeff" (Some "DRAG_COEFF") false TDec KElem None
].
(* ccsds_ndm/models/ndmxml2/ndmxml_2_0_0_common_2_0.py lines 2161-2253 *)
Definition c_StateVectorAccType : cdef := CData "stateVectorAccType" [
  mkField "epoch" (Some "EPOCH") false TStr KElem None;
  mkField "x" (Some "X") false (TCls "PositionType") KElem None;
  mkField "y" (Some "Y") false (TCls "PositionType") KElem None;
  mkField "z" (Some "Z") false (TCls "PositionType") KElem None;
  mkField "x_dot" (Some "X_DOT") false (TCls "VelocityType") KElem None;
  mkField "y_dot" (Some "Y_DOT") false (TCls "VelocityType") KElem None;
  mkField "z_dot" (Some "Z_DOT") false (TCls "VelocityType") KElem None;
  mkField "x_ddot" (Some "X_DDOT") false (TCls "AccType") KElem None;
  mkField "y_ddot" (Some "Y_DDOT") false (TCls "AccType") KElem None;
  mkField "z_ddot" (Some "Z_DDOT") false (TCls "AccType") KElem None
].
(* ccsds_ndm/models/ndmxml2/ndmxml_2_0_0_common_2_0.py lines 2256-2332 *)
Definition c_StateVectorType : cdef := CData "stateVectorType" [
  mkField "comment" (Some "COMMENT") true TStr KElem None;
  mkField "epoch" (Some "EPOCH") false TStr KElem None;
  mkField "x" (Some "X") false (TCls "PositionType") KElem None;
  mkField "y" (Some "Y") false (TCls "PositionType") KElem None;
  mkField "z" (Some "Z") false (TCls "PositionType") KElem None;
  mkField "x_dot" (Some "X_DOT") false (TCls "VelocityType") KElem None;
  mkField "y_dot" (Some "Y_DOT") false (TCls "VelocityType") KElem None;
  mkField "z_dot" (Some "Z_DOT") false (TCls "VelocityType") KElem None
].
(* ccsds_ndm/models/ndmxml2/ndmxml_2_0_0_aem_1_0.py lines 22-26 *)
Definition c_AemRateFrameType : cdef := CEnum [("REF_FRAME_A", "ref_frame_a"); ("REF_FRAME_A_1", "REF_FRAME_A"); ("REF_FRAME_B", "ref_frame_b"); ("REF_FRAME_B_1", "REF_FRAME_B")].
(* ccsds_ndm/models/ndmxml2/ndmxml_2_0_0_aem_1_0.py lines 29-43 *)
Definition c_AttitudeTypeType : cdef := CEnum [("QUATERNION", "quaternion"); ("QUATERNION_1", "QUATERNION"); ("QUATERNION_DERIVATIVE", "quaternion/derivative"); ("QUATERNION_DERIVATIVE_1", "QUATERNION/DERIVATIVE"); ("QUATERNION_RATE", "quaternion/rate"); ("QUATERNION_RATE_1", "QUATERNION/RATE"); ("EULER_ANGLE", "euler_angle"); ("EULER_ANGLE_1", "EULER_ANGLE"); ("EULER_ANGLE_RATE", "euler_angle/rate"); ("EULER_ANGLE_RATE_1", "EULER_ANGLE/RATE"); ("SPIN", "spin"); ("SPIN_1", "SPIN"); ("SPIN_NUTATION", "spin/nutation"); ("SPIN_NUTATION_1", "SPIN/NUTATION")].
(* ccsds_ndm/models/ndmxml2/ndmxml_2_0_0_aem_1_0.py lines 46-50 *)
Definition c_QuaternionTypeType : cdef := CEnum [("FIRST", "first"); ("FIRST_1", "FIRST"); ("LAST", "last"); ("LAST_1", "LAST")].
(* ccsds_ndm/models/ndmxml2/ndmxml_2_0_0_aem_1_0.py lines 53-214 *)
Definition c_AemMetadata : cdef := CData "aemMetadata" [
  mkField "comment" (Some "COMMENT") true TStr KElem None;
  mkField "object_name" (Some "OBJECT_NAME") false TStr KElem None;
  mkField "object_id" (Some "OBJECT_ID") false TStr KElem None;
  mkField "center_name" (Some "CENTER_NAME") false TStr KElem None;
  mkField "ref_frame_a" (Some "REF_FRAME_A") false TStr KElem None;
  mkField "ref_frame_b" (Some "REF_FRAME_B") false TStr KElem None;
  mkField "attitude_dir" (Some "ATTITUDE_DIR") false (TCls "RotDirectionType") KElem None;
  mkField "time_system" (Some "TIME_SYSTEM") false (TCls "TimeSystemType") KElem None;
  mkField "start_time" (Some "START_TIME") false TStr KElem None;
  mkField "useable_start_time" (Some "USEABLE_START_TIME") false TStr KElem None;
  mkField "useable_stop_time" (Some "USEABLE_STOP_TIME") false TStr KElem None;
  mkField "stop_time" (Some "STOP_TIME") false TStr KElem None;
  mkField "attitude_type" (Some "ATTITUDE_TYPE") false (TCls "AttitudeTypeType") KElem None;
  mkField "quaternion_type" (Some "QUATERNION_TYPE") false (TCls "QuaternionTypeType") KElem None;
  mkField "euler_rot_seq" (Some "EULER_ROT_SEQ") false (TCls "RotseqType") KElem None;
  mkField "rate_frame" (Some "RATE_FRAME") false (TCls "AemRateFrameType") KElem None;
  mkField "interpolation_method" (Some "INTERPOLATION_METHOD") false TStr KElem None;
  mkField "interpolation_degree" (Some "INTERPOLATION_DEGREE") false TInt KElem None
].
(* ccsds_ndm/models/ndmxml2/ndmxml_2_0_0_aem_1_0.py lines 217-247 *)
Definition c_EulerAngleRateType : cdef := CData "eulerAngleRateType" [
  mkField "epoch" (Some "EPOCH") false TStr KElem None;
  mkField "rotation_angles" (Some "rotationAngles") false (TCls "RotationAngleType") KElem None;
  mkField "rotation_rates" (Some "rotationRates") false (TCls "RotationRateType") KElem None
].
(* ccsds_ndm/models/ndmxml2/ndmxml_2_0_0_aem_1_0.py lines 250-272 *)
Definition c_EulerAngleType : cdef := CData "eulerAngleType" [
  mkField "epoch" (Some "EPOCH") false TStr KElem None;
  mkField "rotation_angles" (Some "rotationAngles") false (TCls "RotationAngleType") KElem None
].
(* ccsds_ndm/models/ndmxml2/ndmxml_2_0_0_aem_1_0.py lines 275-306 *)
Definition c_QuaternionDerivativeType : cdef := CData "quaternionDerivativeType" [
  mkField "epoch" (Some "EPOCH") false TStr KElem None;
  mkField "quaternion" None false (TCls "QuaternionType") KElem None;
  mkField "quaternion_rate" (Some "quaternionRate") false (TCls "QuaternionRateType") KElem None
].
(* ccsds_ndm/models/ndmxml2/ndmxml_2_0_0_aem_1_0.py lines 309-331 *)
Definition c_QuaternionEphemerisType : cdef := CData "quaternionEphemerisType" [
  mkField "epoch" (Some "EPOCH") false TStr KElem None;
  mkField "quaternion" None false (TCls "QuaternionType") KElem None
].
(* ccsds_ndm/models/ndmxml2/ndmxml_2_0_0_aem_1_0.py lines 334-364 *)
Definition c_QuaternionEulerRateType : cdef := CData "quaternionEulerRateType" [
  mkField "epoch" (Some "EPOCH") false TStr KElem None;
  mkField "quaternion" None false (TCls "QuaternionType") KElem None;
  mkField "rotation_rates" (Some "rotationRates") false (TCls "RotationRateType") KElem None
].
(* ccsds_ndm/models/ndmxml2/ndmxml_2_0_0_aem_1_0.py lines 367-444 *)
Definition c_SpinNutationType : cdef := CData "spinNutationType" [
  mkField "epoch" (Some "EPOCH") false TStr KElem None;
  mkField "spin_alpha" (Some "SPIN_ALPHA") false (TCls "AngleType") KElem None;
  mkField "spin_delta" (Some "SPIN_DELTA") false (TCls "AngleType") KElem None;
  mkField "spin_angle" (Some "SPIN_ANGLE") false (TCls "AngleType") KElem None;
  mkField "spin_angle_vel" (Some "SPIN_ANGLE_VEL") false (TCls "AngleRateType") KElem None;
  mkField "nutation" (Some "NUTATION") false (TCls "AngleType") KElem None;
  mkField "nutation_per" (Some "NUTATION_PER") false (TCls "DurationType") KElem None;
  mkField "nutation_phase" (Some "NUTATION_PHASE") false (TCls "AngleType") KElem None
].
(* ccsds_ndm/models/ndmxml2/ndmxml_2_0_0_aem_1_0.py lines 447-497 *)
Definition c_SpinType : cdef := CData "spinType" [
  mkField "epoch" (Some "EPOCH") false TStr KElem None;
  mkField "spin_alpha" (Some "SPIN_ALPHA") false (TCls "AngleType") KElem None;
  mkField "spin_delta" (Some "SPIN_DELTA") false (TCls "AngleType") KElem None;
  mkField "spin_angle" (Some "SPIN_ANGLE") false (TCls "AngleType") KElem None;
  mkField "spin_angle_vel" (Some "SPIN_ANGLE_VEL") false (TCls "AngleRateType") KElem None
].
(* ccsds_ndm/models/ndmxml2/ndmxml_2_0_0_aem_1_0.py lines 500-559 *)
Definition c_AttitudeStateType : cdef := CData "attitudeStateType" [
  mkField "quaternion_state" (Some "quaternionState") false (TCls "QuaternionEphemerisType") KElem None;
  mkField "quaternion_derivative" (Some "quaternionDerivative") false (TCls "QuaternionDerivativeType") KElem None;
  mkField "quaternion_euler_rate" (Some "quaternionEulerRate") false (TCls "QuaternionEulerRateType") KElem None;
  mkField "euler_angle" (Some "eulerAngle") false (TCls "EulerAngleType") KElem None;
  mkField "euler_angle_rate" (Some "eulerAngleRate") false (TCls "EulerAngleRateType") KElem None;
  mkField "spin" None false (TCls "SpinType") KElem None;
  mkField "spin_nutation" (Some "spinNutation") false (TCls "SpinNutationType") KElem None
].
(* ccsds_ndm/models/ndmxml2/ndmxml_2_0_0_aem_1_0.py lines 562-583 *)
Definition c_AemData : cdef := CData "aemData" [
  mkField "comment" (Some "COMMENT") true TStr KElem None;
  mkField "attitude_state" (Some "attitudeState") true (TCls "AttitudeStateType") KElem None
].
(* ccsds_ndm/models/ndmxml2/ndmxml_2_0_0_aem_1_0.py lines 586-606 *)
Definition c_AemSegment : cdef := CData "aemSegment" [
  mkField "metadata" None false (TCls "AemMetadata") KElem None;
  mkField "data" None false (TCls "AemData") KElem None
].
(* ccsds_ndm/models/ndmxml2/ndmxml_2_0_0_aem_1_0.py lines 609-621 *)
Definition c_AemBody : cdef := CData "aemBody" [
  mkField "segment" None true (TCls "AemSegment") KElem None
].
(* ccsds_ndm/models/ndmxml2/ndmxml_2_0_0_aem_1_0.py lines 624-660 *)
Definition c_AemType : cdef := CData "aemType" [
  mkField "header" None false (TCls "NdmHeader") KElem None;
  mkField "body" None false (TCls "AemBody") KElem None;
  mkField "id" None false TStr KAttr (Some "CCSDS_AEM_VERS");
  mkField "version" None false TStr KAttr (Some "1.0")
].
(* ccsds_ndm/models/ndmxml2/ndmxml_2_0_0_apm_1_0.py lines 24-26 *)
Definition c_ApmRateFrameType : cdef := CEnum [("EULER_FRAME_A", "EULER_FRAME_A"); ("EULER_FRAME_B", "EULER_FRAME_B")].
(* ccsds_ndm/models/ndmxml2/ndmxml_2_0_0_apm_1_0.py lines 29-30 *)
Definition c_TorqueUnits : cdef := CEnum [("N_M", "N*m")].
(* ccsds_ndm/models/ndmxml2/ndmxml_2_0_0_apm_1_0.py lines 33-80 *)
Definition c_ApmMetadata : cdef := CData "apmMetadata" [
  mkField "comment" (Some "COMMENT") true TStr KElem None;
  mkField "object_name" (Some "OBJECT_NAME") false TStr KElem None;
  mkField "object_id" (Some "OBJECT_ID") false TStr KElem None;
  mkField "center_name" (Some "CENTER_NAME") false TStr KElem None;
  mkField "time_system" (Some "TIME_SYSTEM") false (TCls "TimeSystemType") KElem None
].
(* ccsds_ndm/models/ndmxml2/ndmxml_2_0_0_apm_1_0.py lines 83-157 *)
Definition c_AttSpacecraftParametersType : cdef := CData "attSpacecraftParametersType" [
  mkField "comment" (Some "COMMENT") true TStr KElem None;
  mkField "inertia_ref_frame" (Some "INERTIA_REF_FRAME") false TStr KElem None;
  mkField "i11" (Some "I11") false (TCls "MomentType") KElem None;
  mkField "i22" (Some "I22") false (TCls "MomentType") KElem None;
  mkField "i33" (Some "I33") false (TCls "MomentType") KElem None;
  mkField "i12" (Some "I12") false (TCls "MomentType") KElem None;
  mkField "i13" (Some "I13") false (TCls "MomentType") KElem None;
  mkField "i23" (Some "I23") false (TCls "MomentType") KElem None
].
(* ccsds_ndm/models/ndmxml2/ndmxml_2_0_0_apm_1_0.py lines 160-254 *)
Definition c_EulerElementsSpinType : cdef := CData "eulerElementsSpinType" [
  mkField "comment" (Some "COMMENT") true TStr KElem None;
  mkField "spin_frame_a" (Some "SPIN_FRAME_A") false TStr KElem None;
  mkField "spin_frame_b" (Some "SPIN_FRAME_B") false TStr KElem None;
  mkField "spin_dir" (Some "SPIN_DIR") false (TCls "RotDirectionType") KElem None;
  mkField "spin_alpha" (Some "SPIN_ALPHA") false (TCls "AngleType") KElem None;
  mkField "spin_delta" (Some "SPIN_DELTA") false (TCls "AngleType") KElem None;
  mkField "spin_angle" (Some "SPIN_ANGLE") false (TCls "AngleType") KElem None;
  mkField "spin_angle_vel" (Some "SPIN_ANGLE_VEL") false (TCls "AngleRateType") KElem None;
  mkField "nutation" (Some "NUTATION") false (TCls "AngleType") KElem None;
  mkField "nutation_per" (Some "NUTATION_PER") false (TCls "DurationType") KElem None;
  mkField "nutation_phase" (Some "NUTATION_PHASE") false (TCls "AngleType") KElem None
].
(* ccsds_ndm/models/ndmxml2/ndmxml_2_0_0_apm_1_0.py lines 257-325 *)
Definition c_EulerElementsThreeType : cdef := CData "eulerElementsThreeType" [
  mkField "comment" (Some "COMMENT") true TStr KElem None;
  mkField "euler_frame_a" (Some "EULER_FRAME_A") false TStr KElem None;
  mkField "euler_frame_b" (Some "EULER_FRAME_B") false TStr KElem None;
  mkField "euler_dir" (Some "EULER_DIR") false (TCls "RotDirectionType") KElem None;
  mkField "euler_rot_seq" (Some "EULER_ROT_SEQ") false (TCls "RotseqType") KElem None;
  mkField "rate_frame" (Some "RATE_FRAME") false (TCls "ApmRateFrameType") KElem None;
  mkField "rotation_angles" (Some "rotationAngles") false (TCls "RotationAngleType") KElem None;
  mkField "rotation_rates" (Some "rotationRates") false (TCls "RotationRateType") KElem None
].
(* ccsds_ndm/models/ndmxml2/ndmxml_2_0_0_apm_1_0.py lines 328-393 *)
Definition c_QuaternionStateType : cdef := CData "quaternionStateType" [
  mkField "comment" (Some "COMMENT") true TStr KElem None;
  mkField "epoch" (Some "EPOCH") false TStr KElem None;
  mkField "q_frame_a" (Some "Q_FRAME_A") false TStr KElem None;
  mkField "q_frame_b" (Some "Q_FRAME_B") false TStr KElem None;
  mkField "q_dir" (Some "Q_DIR") false (TCls "RotDirectionType") KElem None;
  mkField "quaternion" None false (TCls "QuaternionType") KElem None;
  mkField "quaternion_rate" (Some "quaternionRate") false (TCls "QuaternionRateType") KElem None
].
(* ccsds_ndm/models/ndmxml2/ndmxml_2_0_0_apm_1_0.py lines 396-409 *)
Definition c_TorqueType : cdef := CData "torqueType" [
  mkField "value" None false TDec KText None;
  mkField "units" None false (TCls "TorqueUnits") KAttr None
].
(* ccsds_ndm/models/ndmxml2/ndmxml_2_0_0_apm_1_0.py lines 412-479 *)
Definition c_AttManeuverParametersType : cdef := CData "attManeuverParametersType" [
  mkField "comment" (Some "COMMENT") true TStr KElem None;
  mkField "man_epoch_start" (Some "MAN_EPOCH_START") false TStr KElem None;
  mkField "man_duration" (Some "MAN_DURATION") false (TCls "DurationType") KElem None;
  mkField "man_ref_frame" (Some "MAN_REF_FRAME") false TStr KElem None;
  mkField "man_tor_1" (Some "MAN_TOR_1") false (TCls "TorqueType") KElem None;
  mkField "man_tor_2" (Some "MAN_TOR_2") false (TCls "TorqueType") KElem None;
  mkField "man_tor_3" (Some "MAN_TOR_3") false (TCls "TorqueType") KElem None
].
(* ccsds_ndm/models/ndmxml2/ndmxml_2_0_0_apm_1_0.py lines 482-535 *)
Definition c_ApmData : cdef := CData "apmData" [
  mkField "comment" (Some "COMMENT") true TStr KElem None;
  mkField "quaternion_state" (Some "quaternionState") false (TCls "QuaternionStateType") KElem None;
  mkField "euler_elements_three" (Some "eulerElementsThree") false (TCls "EulerElementsThreeType") KElem None;
  mkField "euler_elements_spin" (Some "eulerElementsSpin") false (TCls "EulerElementsSpinType") KElem None;
  mkField "spacecraft_parameters" (Some "spacecraftParameters") false (TCls "AttSpacecraftParametersType") KElem None;
  mkField "maneuver_parameters" (Some "maneuverParameters") true (TCls "AttManeuverParametersType") KElem None
].
(* ccsds_ndm/models/ndmxml2/ndmxml_2_0_0_apm_1_0.py lines 538-558 *)
Definition c_ApmSegment : cdef := CData "apmSegment" [
  mkField "metadata" None false (TCls "ApmMetadata") KElem None;
  mkField "data" None false (TCls "ApmData") KElem None
].
(* ccsds_ndm/models/ndmxml2/ndmxml_2_0_0_apm_1_0.py lines 561-573 *)
Definition c_ApmBody : cdef := CData "apmBody" [
  mkField "segment" None false (TCls "ApmSegment") KElem None
].
(* ccsds_ndm/models/ndmxml2/ndmxml_2_0_0_apm_1_0.py lines 576-612 *)
Definition c_ApmType : cdef := CData "apmType" [
  mkField "header" None false (TCls "NdmHeader") KElem None;
  mkField "body" None false (TCls "ApmBody") KElem None;
  mkField "id" None false TStr KAttr (Some "CCSDS_APM_VERS");
  mkField "version" None false TStr KAttr (Some "1.0")
].
(* ccsds_ndm/models/ndmxml2/ndmxml_2_0_0_cdm_1_0.py lines 21-69 *)
Definition c_CdmHeader : cdef := CData "cdmHeader" [
  mkField "comment" (Some "COMMENT") true TStr KElem None;
  mkField "creation_date" (Some "CREATION_DATE") false TStr KElem None;
  mkField "originator" (Some "ORIGINATOR") false TStr KElem None;
  mkField "message_for" (Some "MESSAGE_FOR") false TStr KElem None;
  mkField "message_id" (Some "MESSAGE_ID") false TStr KElem None
].
(* ccsds_ndm/models/ndmxml2/ndmxml_2_0_0_cdm_1_0.py lines 72-76 *)
Definition c_CovarianceMethodType : cdef := CEnum [("CALCULATED", "CALCULATED"); ("CALCULATED_1", "calculated"); ("DEFAULT", "DEFAULT"); ("DEFAULT_1", "default")].
(* ccsds_ndm/models/ndmxml2/ndmxml_2_0_0_cdm_1_0.py lines 79-80 *)
Definition c_DvUnits : cdef := CEnum [("M_S", "m/s")].
(* ccsds_ndm/models/ndmxml2/ndmxml_2_0_0_cdm_1_0.py lines 83-84 *)
Definition c_M2Units : cdef := CEnum [("M_2", "m**2")].
(* ccsds_ndm/models/ndmxml2/ndmxml_2_0_0_cdm_1_0.py lines 87-88 *)
Definition c_M2KgUnits : cdef := CEnum [("M_2_KG", "m**2/kg")].
(* ccsds_ndm/models/ndmxml2/ndmxml_2_0_0_cdm_1_0.py lines 91-92 *)
Definition c_M2S2Units : cdef := CEnum [("M_2_S_2", "m**2/s**2")].
(* ccsds_ndm/models/ndmxml2/ndmxml_2_0_0_cdm_1_0.py lines 95-96 *)
Definition c_M2S3Units : cdef := CEnum [("M_2_S_3", "m**2/s**3")].
(* ccsds_ndm/models/ndmxml2/ndmxml_2_0_0_cdm_1_0.py lines 99-100 *)
Definition c_M2S4Units : cdef := CEnum [("M_2_S_4", "m**2/s**4")].
(* ccsds_ndm/models/ndmxml2/ndmxml_2_0_0_cdm_1_0.py lines 103-104 *)
Definition c_M2SUnits : cdef := CEnum [("M_2_S", "m**2/s")].
(* ccsds_ndm/models/ndmxml2/ndmxml_2_0_0_cdm_1_0.py lines 107-108 *)
Definition c_M3KgUnits : cdef := CEnum [("M_3_KG", "m**3/kg")].
(* ccsds_ndm/models/ndmxml2/ndmxml_2_0_0_cdm_1_0.py lines 111-112 *)
Definition c_M3Kgs2Units : cdef := CEnum [("M_3_KG_S_2", "m**3/(kg*s**2)")].
(* ccsds_ndm/models/ndmxml2/ndmxml_2_0_0_cdm_1_0.py lines 115-116 *)
Definition c_M3KgsUnits : cdef := CEnum [("M_3_KG_S", "m**3/(kg*s)")].
(* ccsds_ndm/models/ndmxml2/ndmxml_2_0_0_cdm_1_0.py lines 119-120 *)
Definition c_M4Kg2Units : cdef := CEnum [("M_4_KG_2", "m**4/kg**2")].
(* ccsds_ndm/models/ndmxml2/ndmxml_2_0_0_cdm_1_0.py lines 123-129 *)
Definition c_ManeuverableType : cdef := CEnum [("YES", "YES"); ("YES_1", "yes"); ("NO", "NO"); ("NO_1", "no"); ("N_A", "N/A"); ("N_A_1", "n/a")].
(* ccsds_ndm/models/ndmxml2/ndmxml_2_0_0_cdm_1_0.py lines 132-136 *)
Definition c_ObjectType : cdef := CEnum [("OBJECT1", "OBJECT1"); ("OBJECT1_1", "object1"); ("OBJECT2", "OBJECT2"); ("OBJECT2_1", "object2")].
(* ccsds_ndm/models/ndmxml2/ndmxml_2_0_0_cdm_1_0.py lines 139-145 *)
Definition c_ReferenceFrameType : cdef := CEnum [("EME2000", "EME2000"); ("EME2000_1", "eme2000"); ("GCRF", "GCRF"); ("GCRF_1", "gcrf"); ("ITRF", "ITRF"); ("ITRF_1", "itrf")].
(* ccsds_ndm/models/ndmxml2/ndmxml_2_0_0_cdm_1_0.py lines 148-152 *)
Definition c_ScreenVolumeFrameType : cdef := CEnum [("RTN", "RTN"); ("RTN_1", "rtn"); ("TVN", "TVN"); ("TVN_1", "tvn")].
(* ccsds_ndm/models/ndmxml2/ndmxml_2_0_0_cdm_1_0.py lines 155-159 *)
Definition c_ScreenVolumeShapeType : cdef := CEnum [("ELLIPSOID", "ELLIPSOID"); ("ELLIPSOID_1", "ellipsoid"); ("BOX", "BOX"); ("BOX_1", "box")].
(* ccsds_ndm/models/ndmxml2/ndmxml_2_0_0_cdm_1_0.py lines 162-163 *)
Definition c_WkgUnits : cdef := CEnum [("W_KG", "W/kg")].
(* ccsds_ndm/models/ndmxml2/ndmxml_2_0_0_cdm_1_0.py lines 166-355 *)
Definition c_CdmMetadata : cdef := CData "cdmMetadata" [
  mkField "comment" (Some "COMMENT") true TStr KElem None;
  mkField "object" (Some "OBJECT") false (TCls "ObjectType") KElem None;
  mkField "object_designator" (Some "OBJECT_DESIGNATOR") false TStr KElem None;
  mkField "catalog_name" (Some "CATALOG_NAME") false TStr KElem None;
  mkField "object_name" (Some "OBJECT_NAME") false TStr KElem None;
  mkField "international_designator" (Some "INTERNATIONAL_DESIGNATOR") false TStr KElem None;
  mkField "object_type" (Some "OBJECT_TYPE") false (TCls "ObjectDescriptionType") KElem None;
  mkField "operator_contact_position" (Some "OPERATOR_CONTACT_POSITION") false TStr KElem None;
  mkField "operator_organization" (Some "OPERATOR_ORGANIZATION") false TStr KElem None;
  mkField "operator_phone" (Some "OPERATOR_PHONE") false TStr KElem None;
  mkField "operator_email" (Some "OPERATOR_EMAIL") false TStr KElem None;
  mkField "ephemeris_name" (Some "EPHEMERIS_NAME") false TStr KElem None;
  mkField "covariance_method" (Some "COVARIANCE_METHOD") false (TCls "CovarianceMethodType") KElem None;
  mkField "maneuverable" (Some "MANEUVERABLE") false (TCls "ManeuverableType") KElem None;
  mkField "orbit_center" (Some "ORBIT_CENTER") false TStr KElem None;
  mkField "ref_frame" (Some "REF_FRAME") false (TCls "ReferenceFrameType") KElem None;
  mkField "gravity_model" (Some "GRAVITY_MODEL") false TStr KElem None;
  mkField "atmospheric_model" (Some "ATMOSPHERIC_MODEL") false TStr KElem None;
  mkField "n_body_perturbations" (Some "N_BODY_PERTURBATIONS") false TStr KElem None;
  mkField "solar_rad_pressure" (Some "SOLAR_RAD_PRESSURE") false (TCls "YesNoType") KElem None;
  mkField "earth_tides" (Some "EARTH_TIDES") false (TCls "YesNoType") KElem None;
  mkField "intrack_thrust" (Some "INTRACK_THRUST") false (TCls "YesNoType") KElem None
].
(* ccsds_ndm/models/ndmxml2/ndmxml_2_0_0_cdm_1_0.py lines 358-372 *)
Definition c_CdmPositionType : cdef := CData "cdmPositionType" [
  mkField "value" None false TDec KText None;
  mkField "units" None false (TCls "PositionUnits") KAttr None
].
(* ccsds_ndm/models/ndmxml2/ndmxml_2_0_0_cdm_1_0.py lines 375-389 *)
Definition c_CdmVelocityType : cdef := CData "cdmVelocityType" [
  mkField "value" None false TDec KText None;
  mkField "units" None false (TCls "VelocityUnits") KAttr None
].
(* ccsds_ndm/models/ndmxml2/ndmxml_2_0_0_cdm_1_0.py lines 392-406 *)
Definition c_DvType : cdef := CData "dvType" [
  mkField "value" None false TDec KText None;
  mkField "units" None false (TCls "DvUnits") KAttr None
].
(* ccsds_ndm/models/ndmxml2/ndmxml_2_0_0_cdm_1_0.py lines 409-423 *)
Definition c_M2Type : cdef := CData "m2Type" [
  mkField "value" None false TDec KText None;
  mkField "units" None false (TCls "M2Units") KAttr None
].
(* ccsds_ndm/models/ndmxml2/ndmxml_2_0_0_cdm_1_0.py lines 426-443 *)
Definition c_M2KgType : cdef := CData "m2kgType" [
  mkField "value" None false TDec KText None;
  mkField "units" None false (TCls "M2KgUnits") KAttr None
].
(* ccsds_ndm/models/ndmxml2/ndmxml_2_0_0_cdm_1_0.py lines 446-460 *)
Definition c_M2S2Type : cdef := CData "m2s2Type" [
  mkField "value" None false TDec KText None;
  mkField "units" None false (TCls "M2S2Units") KAttr None
].
(* ccsds_ndm/models/ndmxml2/ndmxml_2_0_0_cdm_1_0.py lines 463-477 *)
Definition c_M2S3Type : cdef := CData "m2s3Type" [
  mkField "value" None false TDec KText None;
  mkField "units" None false (TCls "M2S3Units") KAttr None
].
(* ccsds_ndm/models/ndmxml2/ndmxml_2_0_0_cdm_1_0.py lines 480-494 *)
Definition c_M2S4Type : cdef := CData "m2s4Type" [
  mkField "value" None false TDec KText None;
  mkField "units" None false (TCls "M2S4Units") KAttr None
].
(* ccsds_ndm/models/ndmxml2/ndmxml_2_0_0_cdm_1_0.py lines 497-511 *)
Definition c_M2SType : cdef := CData "m2sType" [
  mkField "value" None false TDec KText None;
  mkField "units" None false (TCls "M2SUnits") KAttr None
].
(* ccsds_ndm/models/ndmxml2/ndmxml_2_0_0_cdm_1_0.py lines 514-528 *)
Definition c_M3KgType : cdef := CData "m3kgType" [
  mkField "value" None false TDec KText None;
  mkField "units" None false (TCls "M3KgUnits") KAttr None
].
(* ccsds_ndm/models/ndmxml2/ndmxml_2_0_0_cdm_1_0.py lines 531-545 *)
Definition c_M3Kgs2Type : cdef := CData "m3kgs2Type" [
  mkField "value" None false TDec KText None;
  mkField "units" None false (TCls "M3Kgs2Units") KAttr None
].
(* ccsds_ndm/models/ndmxml2/ndmxml_2_0_0_cdm_1_0.py lines 548-562 *)
Definition c_M3KgsType : cdef := CData "m3kgsType" [
  mkField "value" None false TDec KText None;
  mkField "units" None false (TCls "M3KgsUnits") KAttr None
].
(* ccsds_ndm/models/ndmxml2/ndmxml_2_0_0_cdm_1_0.py lines 565-579 *)
Definition c_M4Kg2Type : cdef := CData "m4kg2Type" [
  mkField "value" None false TDec KText None;
  mkField "units" None false (TCls "M4Kg2Units") KAttr None
].
(* ccsds_ndm/models/ndmxml2/ndmxml_2_0_0_cdm_1_0.py lines 582-599 *)
Definition c_WkgType : cdef := CData "wkgType" [
  mkField "value" None false TDec KText None;
  mkField "units" None false (TCls "WkgUnits") KAttr None
].
(* ccsds_ndm/models/ndmxml2/ndmxml_2_0_0_cdm_1_0.py lines 602-678 *)
Definition c_AdditionalParametersType : cdef := CData "additionalParametersType" [
  mkField "comment" (Some "COMMENT") true TStr KElem None;
  mkField "area_pc" (Some "AREA_PC") false (TCls "AreaType") KElem None;
  mkField "area_drg" (Some "AREA_DRG") false (TCls "AreaType") KElem None;
  mkField "area_srp" (Some "AREA_SRP") false (TCls "AreaType") KElem None;
  mkField "mass" (Some "MASS") false (TCls "MassType") KElem None;
  mkField "cd_area_over_mass" (Some "CD_AREA_OVER_MASS") false (TCls "M2KgType") KElem None;
  mkField "cr_area_over_mass" (Some "CR_AREA_OVER_MASS") false (TCls "M2KgType") KElem None;
  mkField "thrust_acceleration" (Some "THRUST_ACCELERATION") false (TCls "Ms2Type") KElem None;
  mkField "sedr" (Some "SEDR") false (TCls "WkgType") KElem None
].
(* ccsds_ndm/models/ndmxml2/ndmxml_2_0_0_cdm_1_0.py lines 681-1074 *)
Definition c_CdmCovarianceMatrixType : cdef := CData "cdmCovarianceMatrixType" [
  mkField "comment" (Some "COMMENT") true TStr KElem None;
  mkField "cr_r" (Some "CR_R") false (TCls "M2Type") KElem None;
  mkField "ct_r" (Some "CT_R") false (TCls "M2Type") KElem None;
  mkField "ct_t" (Some "CT_T") false (TCls "M2Type") KElem None;
  mkField "cn_r" (Some "CN_R") false (TCls "M2Type") KElem None;
  mkField "cn_t" (Some "CN_T") false (TCls "M2Type") KElem None;
  mkField "cn_n" (Some "CN_N") false (TCls "M2Type") KElem None;
  mkField "crdot_r" (Some "CRDOT_R") false (TCls "M2SType") KElem None;
  mkField "crdot_t" (Some "CRDOT_T") false (TCls "M2SType") KElem None;
  mkField "crdot_n" (Some "CRDOT_N") false (TCls "M2SType") KElem None;
  mkField "crdot_rdot" (Some "CRDOT_RDOT") false (TCls "M2S2Type") KElem None;
  mkField "ctdot_r" (Some "CTDOT_R") false (TCls "M2SType") KElem None;
  mkField "ctdot_t" (Some "CTDOT_T") false (TCls "M2SType") KElem None;
  mkField "ctdot_n" (Some "CTDOT_N") false (TCls "M2SType") KElem None;
  mkField "ctdot_rdot" (Some "CTDOT_RDOT") false (TCls "M2S2Type") KElem None;
  mkField "ctdot_tdot" (Some "CTDOT_TDOT") false (TCls "M2S2Type") KElem None;
  mkField "cndot_r" (Some "CNDOT_R") false (TCls "M2SType") KElem None;
  mkField "cndot_t" (Some "CNDOT_T") false (TCls "M2SType") KElem None;
  mkField "cndot_n" (Some "CNDOT_N") false (TCls "M2SType") KElem None;
  mkField "cndot_rdot" (Some "CNDOT_RDOT") false (TCls "M2S2Type") KElem None;
  mkField "cndot_tdot" (Some "CNDOT_TDOT") false (TCls "M2S2Type") KElem None;
  mkField "cndot_ndot" (Some "CNDOT_NDOT") false (TCls "M2S2Type") KElem None;
  mkField "cdrg_r" (Some "CDRG_R") false (TCls "M3KgType") KElem None;
  mkField "cdrg_t" (Some "CDRG_T") false (TCls "M3KgType") KElem None;
  mkField "cdrg_n" (Some "CDRG_N") false (TCls "M3KgType") KElem None;
  mkField "cdrg_rdot" (Some "CDRG_RDOT") false (TCls "M3KgsType") KElem None;
  mkField "cdrg_tdot" (Some "CDRG_TDOT") false (TCls "M3KgsType") KElem None;
  mkField "cdrg_ndot" (Some "CDRG_NDOT") false (TCls "M3KgsType") KElem None;
  mkField "cdrg_drg" (Some "CDRG_DRG") false (TCls "M4Kg2Type") KElem None;
  mkField "csrp_r" (Some "CSRP_R") false (TCls "M3KgType") KElem None;
  mkField "csrp_t" (Some "CSRP_T") false (TCls "M3KgType") KElem None;
  mkField "csrp_n" (Some "CSRP_N") false (TCls "M3KgType") KElem None;
  mkField "csrp_rdot" (Some "CSRP_RDOT") false (TCls "M3KgsType") KElem None;
  mkField "csrp_tdot" (Some "CSRP_TDOT") false (TCls "M3KgsType") KElem None;
  mkField "csrp_ndot" (Some "CSRP_NDOT") false (TCls "M3KgsType") KElem None;
  mkField "csrp_drg" (Some "CSRP_DRG") false (TCls "M4Kg2Type") KElem None;
  mkField "csrp_srp" (Some "CSRP_SRP") false (TCls "M4Kg2Type") KElem None;
  mkField "cthr_r" (Some "CTHR_R") false (TCls "M2S2Type") KElem None;
  mkField "cthr_t" (Some "CTHR_T") false (TCls "M2S2Type") KElem None;
  mkField "cthr_n" (Some "CTHR_N") false (TCls "M2S2Type") KElem None;
  mkField "cthr_rdot" (Some "CTHR_RDOT") false (TCls "M2S3Type") KElem None;
  mkField "cthr_tdot" (Some "CTHR_TDOT") false (TCls "M2S3Type") KElem None;
  mkField "cthr_ndot" (Some "CTHR_NDOT") false (TCls "M2S3Type") KElem None;
  mkField "cthr_drg" (Some "CTHR_DRG") false (TCls "M3Kgs2Type") KElem None;
  mkField "cthr_srp" (Some "CTHR_SRP") false (TCls "M3Kgs2Type") KElem None;
  mkField "cthr_thr" (Some "CTHR_THR") false (TCls "M2S4Type") KElem None
].
(* ccsds_ndm/models/ndmxml2/ndmxml_2_0_0_cdm_1_0.py lines 1077-1143 *)
Definition c_CdmStateVectorType : cdef := CData "cdmStateVectorType" [
  mkField "comment" (Some "COMMENT") true TStr KElem None;
  mkField "x" (Some "X") false (TCls "CdmPositionType") KElem None;
  mkField "y" (Some "Y") false (TCls "CdmPositionType") KElem None;
  mkField "z" (Some "Z") false (TCls "CdmPositionType") KElem None;
  mkField "x_dot" (Some "X_DOT") false (TCls "CdmVelocityType") KElem None;
  mkField "y_dot" (Some "Y_DOT") false (TCls "CdmVelocityType") KElem None;
  mkField "z_dot" (Some "Z_DOT") false (TCls "CdmVelocityType") KElem None
].
(* ccsds_ndm/models/ndmxml2/ndmxml_2_0_0_cdm_1_0.py lines 1146-1204 *)
Definition c_RelativeStateVectorType : cdef := CData "relativeStateVectorType" [
  mkField "relative_position_r" (Some "RELATIVE_POSITION_R") false (TCls "LengthType") KElem None;
  mkField "relative_position_t" (Some "RELATIVE_POSITION_T") false (TCls "LengthType") KElem None;
  mkField "relative_position_n" (Some "RELATIVE_POSITION_N") false (TCls "LengthType") KElem None;
  mkField "relative_velocity_r" (Some "RELATIVE_VELOCITY_R") false (TCls "DvType") KElem None;
  mkField "relative_velocity_t" (Some "RELATIVE_VELOCITY_T") false (TCls "DvType") KElem None;
  mkField "relative_velocity_n" (Some "RELATIVE_VELOCITY_N") false (TCls "DvType") KElem None
].
(* ccsds_ndm/models/ndmxml2/ndmxml_2_0_0_cdm_1_0.py lines 1207-1253 *)
Definition c_CdmData : cdef := CData "cdmData" [
  mkField "comment" (Some "COMMENT") true TStr KElem None;
  mkField "od_parameters" (Some "odParameters") false (TCls "OdParametersType") KElem None;
  mkField "additional_parameters" (Some "additionalParameters") false (TCls "AdditionalParametersType") KElem None;
  mkField "state_vector" (Some "stateVector") false (TCls "CdmStateVectorType") KElem None;
  mkField "covariance_matrix" (Some "covarianceMatrix") false (TCls "CdmCovarianceMatrixType") KElem None
].
(* ccsds_ndm/models/ndmxml2/ndmxml_2_0_0_cdm_1_0.py lines 1256-1397 *)
Definition c_RelativeMetadataData : cdef := CData "relativeMetadataData" [
  mkField "comment" (Some "COMMENT") true TStr KElem None;
  mkField "tca" (Some "TCA") false TStr KElem None;
  mkField "miss_distance" (Some "MISS_DISTANCE") false (TCls "LengthType") KElem None;
  mkField "relative_speed" (Some "RELATIVE_SPEED") false (TCls "DvType") KElem None;
  mkField "relative_state_vector" (Some "relativeStateVector") false (TCls "RelativeStateVectorType") KElem None;
  mkField "start_screen_period" (Some "START_SCREEN_PERIOD") false TStr KElem None;
  mkField "stop_screen_period" (Some "STOP_SCREEN_PERIOD") false TStr KElem None;
  mkField "screen_volume_frame" (Some "SCREEN_VOLUME_FRAME") false (TCls "ScreenVolumeFrameType") KElem None;
  mkField "screen_volume_shape" (Some "SCREEN_VOLUME_SHAPE") false (TCls "ScreenVolumeShapeType") KElem None;
  mkField "screen_volume_x" (Some "SCREEN_VOLUME_X") false (TCls "LengthType") KElem None;
  mkField "screen_volume_y" (Some "SCREEN_VOLUME_Y") false (TCls "LengthType") KElem None;
  mkField "screen_volume_z" (Some "SCREEN_VOLUME_Z") false (TCls "LengthType") KElem None;
  mkField "screen_entry_time" (Some "SCREEN_ENTRY_TIME") false TStr KElem None;
  mkField "screen_exit_time" (Some "SCREEN_EXIT_TIME") false TStr KElem None;
  mkField "collision_probability" (Some "COLLISION_PROBABILITY") false TDec KElem None;
  mkField "collision_probability_method" (Some "COLLISION_PROBABILITY_METHOD") false TStr KElem None
].
(* ccsds_ndm/models/ndmxml2/ndmxml_2_0_0_cdm_1_0.py lines 1400-1420 *)
Definition c_CdmSegment : cdef := CData "cdmSegment" [
  mkField "metadata" None false (TCls "CdmMetadata") KElem None;
  mkField "data" None false (TCls "CdmData") KElem None
].
(* ccsds_ndm/models/ndmxml2/ndmxml_2_0_0_cdm_1_0.py lines 1423-1445 *)
Definition c_CdmBody : cdef := CData "cdmBody" [
  mkField "relative_metadata_data" (Some "relativeMetadataData") false (TCls "RelativeMetadataData") KElem None;
  mkField "segment" None true (TCls "CdmSegment") KElem None
].
(* ccsds_ndm/models/ndmxml2/ndmxml_2_0_0_cdm_1_0.py lines 1448-1484 *)
Definition c_CdmType : cdef := CData "cdmType" [
  mkField "header" None false (TCls "CdmHeader") KElem None;
  mkField "body" None false (TCls "CdmBody") KElem None;
  mkField "id" None false TStr KAttr (Some "CCSDS_CDM_VERS");
  mkField "version" None false TStr KAttr (Some "1.0")
].
(* ccsds_ndm/models/ndmxml2/ndmxml_2_0_0_oem_2_0.py lines 13-133 *)
Definition c_OemMetadata : cdef := CData "oemMetadata" [
  mkField "comment" (Some "COMMENT") true TStr KElem None;
  mkField "object_name" (Some "OBJECT_NAME") false TStr KElem None;
  mkField "object_id" (Some "OBJECT_ID") false TStr KElem None;
  mkField "center_name" (Some "CENTER_NAME") false TStr KElem None;
  mkField "ref_frame" (Some "REF_FRAME") false TStr KElem None;
  mkField "ref_frame_epoch" (Some "REF_FRAME_EPOCH") false TStr KElem None;
  mkField "time_system" (Some "TIME_SYSTEM") false TStr KElem None;
  mkField "start_time" (Some "START_TIME") false TStr KElem None;
  mkField "useable_start_time" (Some "USEABLE_START_TIME") false TStr KElem None;
  mkField "useable_stop_time" (Some "USEABLE_STOP_TIME") false TStr KElem None;
  mkField "stop_time" (Some "STOP_TIME") false TStr KElem None;
  mkField "interpolation" (Some "INTERPOLATION") false TStr KElem None;
  mkField "interpolation_degree" (Some "INTERPOLATION_DEGREE") false TInt KElem None
].
(* ccsds_ndm/models/ndmxml2/ndmxml_2_0_0_oem_2_0.py lines 136-165 *)
Definition c_OemData : cdef := CData "oemData" [
  mkField "comment" (Some "COMMENT") true TStr KElem None;
  mkField "state_vector" (Some "stateVector") true (TCls "StateVectorAccType") KElem None;
  mkField "covariance_matrix" (Some "covarianceMatrix") true (TCls "OemCovarianceMatrixType") KElem None
].
(* ccsds_ndm/models/ndmxml2/ndmxml_2_0_0_oem_2_0.py lines 168-188 *)
Definition c_OemSegment : cdef := CData "oemSegment" [
  mkField "metadata" None false (TCls "OemMetadata") KElem None;
  mkField "data" None false (TCls "OemData") KElem None
].
(* ccsds_ndm/models/ndmxml2/ndmxml_2_0_0_oem_2_0.py lines 191-203 *)
Definition c_OemBody : cdef := CData "oemBody" [
  mkField "segment" None true (TCls "OemSegment") KElem None
].
(* ccsds_ndm/models/ndmxml2/ndmxml_2_0_0_oem_2_0.py lines 206-242 *)
Definition c_OemType : cdef := CData "oemType" [
  mkField "header" None false (TCls "NdmHeader") KElem None;
  mkField "body" None false (TCls "OemBody") KElem None;
  mkField "id" None false TStr KAttr (Some "CCSDS_OEM_VERS");
  mkField "version" None false TStr KAttr (Some "2.0")
].
(* ccsds_ndm/models/ndmxml2/ndmxml_2_0_0_omm_2_0.py lines 20-21 *)
Definition c_BStarUnits : cdef := CEnum [("VALUE_1_ER", "1/ER")].
(* ccsds_ndm/models/ndmxml2/ndmxml_2_0_0_omm_2_0.py lines 24-26 *)
Definition c_DRevUnits : cdef := CEnum [("REV_DAY_2", "rev/day**2"); ("REV_DAY_2_1", "REV/DAY**2")].
(* ccsds_ndm/models/ndmxml2/ndmxml_2_0_0_omm_2_0.py lines 29-31 *)
Definition c_DdRevUnits : cdef := CEnum [("REV_DAY_3", "rev/day**3"); ("REV_DAY_3_1", "REV/DAY**3")].
(* ccsds_ndm/models/ndmxml2/ndmxml_2_0_0_omm_2_0.py lines 34-109 *)
Definition c_OmmMetadata : cdef := CData "ommMetadata" [
  mkField "comment" (Some "COMMENT") true TStr KElem None;
  mkField "object_name" (Some "OBJECT_NAME") false TStr KElem None;
  mkField "object_id" (Some "OBJECT_ID") false TStr KElem None;
  mkField "center_name" (Some "CENTER_NAME") false TStr KElem None;
  mkField "ref_frame" (Some "REF_FRAME") false TStr KElem None;
  mkField "ref_frame_epoch" (Some "REF_FRAME_EPOCH") false TStr KElem None;
  mkField "time_system" (Some "TIME_SYSTEM") false TStr KElem None;
  mkField "mean_element_theory" (Some "MEAN_ELEMENT_THEORY") false TStr KElem None
].
(* ccsds_ndm/models/ndmxml2/ndmxml_2_0_0_omm_2_0.py lines 112-114 *)
Definition c_RevUnits : cdef := CEnum [("REV_DAY", "rev/day"); ("REV_DAY_1", "REV/DAY")].
(* ccsds_ndm/models/ndmxml2/ndmxml_2_0_0_omm_2_0.py lines 117-130 *)
Definition c_BStarType : cdef := CData "bStarType" [
  mkField "value" None false TDec KText None;
  mkField "units" None false (TCls "BStarUnits") KAttr None
].
(* ccsds_ndm/models/ndmxml2/ndmxml_2_0_0_omm_2_0.py lines 133-146 *)
Definition c_DRevType : cdef := CData "dRevType" [
  mkField "value" None false TDec KText None;
  mkField "units" None false (TCls "DRevUnits") KAttr None
].
(* ccsds_ndm/models/ndmxml2/ndmxml_2_0_0_omm_2_0.py lines 149-162 *)
Definition c_DdRevType : cdef := CData "ddRevType" [
  mkField "value" None false TDec KText None;
  mkField "units" None false (TCls "DdRevUnits") KAttr None
].
(* ccsds_ndm/models/ndmxml2/ndmxml_2_0_0_omm_2_0.py lines 165-178 *)
Definition c_RevType : cdef := CData "revType" [
  mkField "value" None false TDec KText None;
  mkField "units" None false (TCls "RevUnits") KAttr None
].
(* ccsds_ndm/models/ndmxml2/ndmxml_2_0_0_omm_2_0.py lines 181-273 *)
Definition c_MeanElementsType : cdef := CData "meanElementsType" [
  mkField "comment" (Some "COMMENT") true TStr KElem None;
  mkField "epoch" (Some "EPOCH") false TStr KElem None;
  mkField "semi_major_axis" (Some "SEMI_MAJOR_AXIS") false (TCls "DistanceType") KElem None;
  mkField "mean_motion" (Some "MEAN_MOTION") false (TCls "RevType") KElem None;
  mkField "eccentricity" (Some "ECCENTRICITY") false TDec KElem None;
  mkField "inclination" (Some "INCLINATION") false (TCls "InclinationType") KElem None;
  mkField "ra_of_asc_node" (Some "RA_OF_ASC_NODE") false (TCls "AngleType") KElem None;
  mkField "arg_of_pericenter" (Some "ARG_OF_PERICENTER") false (TCls "AngleType") KElem None;
  mkField "mean_anomaly" (Some "MEAN_ANOMALY") false (TCls "AngleType") KElem None;
  mkField "gm" (Some "GM") false (TCls "GmType") KElem None
].
(* ccsds_ndm/models/ndmxml2/ndmxml_2_0_0_omm_2_0.py lines 276-360 *)
Definition c_TleParametersType : cdef := CData "tleParametersType" [
  mkField "comment" (Some "COMMENT") true TStr KElem None;
  mkField "ephemeris_type" (Some "EPHEMERIS_TYPE") false TInt KElem None;
  mkField "classification_type" (Some "CLASSIFICATION_TYPE") false TStr KElem None;
  mkField "norad_cat_id" (Some "NORAD_CAT_ID") false TInt KElem None;
  mkField "element_set_no" (Some "ELEMENT_SET_NO") false TInt KElem None;
  mkField "rev_at_epoch" (Some "REV_AT_EPOCH") false TInt KElem None;
  mkField "bstar" (Some "BSTAR") false (TCls "BStarType") KElem None;
  mkField "mean_motion_dot" (Some "MEAN_MOTION_DOT") false (TCls "DRevType") KElem None;
  mkField "mean_motion_ddot" (Some "MEAN_MOTION_DDOT") false (TCls "DdRevType") KElem None
].
(* ccsds_ndm/models/ndmxml2/ndmxml_2_0_0_omm_2_0.py lines 363-416 *)
Definition c_OmmData : cdef := CData "ommData" [
  mkField "comment" (Some "COMMENT") true TStr KElem None;
  mkField "mean_elements" (Some "meanElements") false (TCls "MeanElementsType") KElem None;
  mkField "spacecraft_parameters" (Some "spacecraftParameters") false (TCls "SpacecraftParametersType") KElem None;
  mkField "tle_parameters" (Some "tleParameters") false (TCls "TleParametersType") KElem None;
  mkField "covariance_matrix" (Some "covarianceMatrix") false (TCls "OpmCovarianceMatrixType") KElem None;
  mkField "user_defined_parameters" (Some "userDefinedParameters") false (TCls "UserDefinedType") KElem None
].
(* ccsds_ndm/models/ndmxml2/ndmxml_2_0_0_omm_2_0.py lines 419-439 *)
Definition c_OmmSegment : cdef := CData "ommSegment" [
  mkField "metadata" None false (TCls "OmmMetadata") KElem None;
  mkField "data" None false (TCls "OmmData") KElem None
].
(* ccsds_ndm/models/ndmxml2/ndmxml_2_0_0_omm_2_0.py lines 442-454 *)
Definition c_OmmBody : cdef := CData "ommBody" [
  mkField "segment" None false (TCls "OmmSegment") KElem None
].
(* ccsds_ndm/models/ndmxml2/ndmxml_2_0_0_omm_2_0.py lines 457-493 *)
Definition c_OmmType : cdef := CData "ommType" [
  mkField "header" None false (TCls "NdmHeader") KElem None;
  mkField "body" None false (TCls "OmmBody") KElem None;
  mkField "id" None false TStr KAttr (Some "CCSDS_OMM_VERS");
  mkField "version" None false TStr KAttr (Some "2.0")
].
(* ccsds_ndm/models/ndmxml2/ndmxml_2_0_0_opm_2_0.py lines 23-89 *)
Definition c_OpmMetadata : cdef := CData "opmMetadata" [
  mkField "comment" (Some "COMMENT") true TStr KElem None;
  mkField "object_name" (Some "OBJECT_NAME") false TStr KElem None;
  mkField "object_id" (Some "OBJECT_ID") false TStr KElem None;
  mkField "center_name" (Some "CENTER_NAME") false TStr KElem None;
  mkField "ref_frame" (Some "REF_FRAME") false TStr KElem None;
  mkField "ref_frame_epoch" (Some "REF_FRAME_EPOCH") false TStr KElem None;
  mkField "time_system" (Some "TIME_SYSTEM") false TStr KElem None
].
(* ccsds_ndm/models/ndmxml2/ndmxml_2_0_0_opm_2_0.py lines 92-175 *)
Definition c_KeplerianElementsType : cdef := CData "keplerianElementsType" [
  mkField "comment" (Some "COMMENT") true TStr KElem None;
  mkField "semi_major_axis" (Some "SEMI_MAJOR_AXIS") false (TCls "DistanceType") KElem None;
  mkField "eccentricity" (Some "ECCENTRICITY") false TDec KElem None;
  mkField "inclination" (Some "INCLINATION") false (TCls "InclinationType") KElem None;
  mkField "ra_of_asc_node" (Some "RA_OF_ASC_NODE") false (TCls "AngleType") KElem None;
  mkField "arg_of_pericenter" (Some "ARG_OF_PERICENTER") false (TCls "AngleType") KElem None;
  mkField "true_anomaly" (Some "TRUE_ANOMALY") false (TCls "AngleType") KElem None;
  mkField "mean_anomaly" (Some "MEAN_ANOMALY") false (TCls "AngleType") KElem None;
  mkField "gm" (Some "GM") false (TCls "GmType") KElem None
].
(* ccsds_ndm/models/ndmxml2/ndmxml_2_0_0_opm_2_0.py lines 178-254 *)
Definition c_ManeuverParametersType : cdef := CData "maneuverParametersType" [
  mkField "comment" (Some "COMMENT") true TStr KElem None;
  mkField "man_epoch_ignition" (Some "MAN_EPOCH_IGNITION") false TStr KElem None;
  mkField "man_duration" (Some "MAN_DURATION") false (TCls "DurationType") KElem None;
  mkField "man_delta_mass" (Some "MAN_DELTA_MASS") false (TCls "DeltamassType") KElem None;
  mkField "man_ref_frame" (Some "MAN_REF_FRAME") false TStr KElem None;
  mkField "man_dv_1" (Some "MAN_DV_1") false (TCls "VelocityType") KElem None;
  mkField "man_dv_2" (Some "MAN_DV_2") false (TCls "VelocityType") KElem None;
  mkField "man_dv_3" (Some "MAN_DV_3") false (TCls "VelocityType") KElem None
].
(* ccsds_ndm/models/ndmxml2/ndmxml_2_0_0_opm_2_0.py lines 257-318 *)
Definition c_OpmData : cdef := CData "opmData" [
  mkField "comment" (Some "COMMENT") true TStr KElem None;
  mkField "state_vector" (Some "stateVector") false (TCls "StateVectorType") KElem None;
  mkField "keplerian_elements" (Some "keplerianElements") false (TCls "KeplerianElementsType") KElem None;
  mkField "spacecraft_parameters" (Some "spacecraftParameters") false (TCls "SpacecraftParametersType") KElem None;
  mkField "covariance_matrix" (Some "covarianceMatrix") false (TCls "OpmCovarianceMatrixType") KElem None;
  mkField "maneuver_parameters" (Some "maneuverParameters") true (TCls "ManeuverParametersType") KElem None;
  mkField "user_defined_parameters" (Some "userDefinedParameters") false (TCls "UserDefinedType") KElem None
].
(* ccsds_ndm/models/ndmxml2/ndmxml_2_0_0_opm_2_0.py lines 321-341 *)
Definition c_OpmSegment : cdef := CData "opmSegment" [
  mkField "metadata" None false (TCls "OpmMetadata") KElem None;
  mkField "data" None false (TCls "OpmData") KElem None
].
(* ccsds_ndm/models/ndmxml2/ndmxml_2_0_0_opm_2_0.py lines 344-356 *)
Definition c_OpmBody : cdef := CData "opmBody" [
  mkField "segment" None false (TCls "OpmSegment") KElem None
].
(* ccsds_ndm/models/ndmxml2/ndmxml_2_0_0_opm_2_0.py lines 359-395 *)
Definition c_OpmType : cdef := CData "opmType" [
  mkField "header" None false (TCls "NdmHeader") KElem None;
  mkField "body" None false (TCls "OpmBody") KElem None;
  mkField "id" None false TStr KAttr (Some "CCSDS_OPM_VERS");
  mkField "version" None false TStr KAttr (Some "2.0")
].
(* ccsds_ndm/models/ndmxml2/ndmxml_2_0_0_rdm_1_0.py lines 24-64 *)
Definition c_RdmHeader : cdef := CData "rdmHeader" [
  mkField "comment" (Some "COMMENT") true TStr KElem None;
  mkField "creation_date" (Some "CREATION_DATE") false TStr KElem None;
  mkField "originator" (Some "ORIGINATOR") false TStr KElem None;
  mkField "message_id" (Some "MESSAGE_ID") false TStr KElem None
].
(* ccsds_ndm/models/ndmxml2/ndmxml_2_0_0_rdm_1_0.py lines 67-136 *)
Definition c_RdmData : cdef := CData "rdmData" [
  mkField "comment" (Some "COMMENT") true TStr KElem None;
  mkField "atmospheric_reentry_parameters" (Some "atmosphericReentryParameters") false (TCls "AtmosphericReentryParametersType") KElem None;
  mkField "ground_impact_parameters" (Some "groundImpactParameters") false (TCls "GroundImpactParametersType") KElem None;
  mkField "state_vector" (Some "stateVector") false (TCls "StateVectorType") KElem None;
  mkField "covariance_matrix" (Some "covarianceMatrix") false (TCls "OpmCovarianceMatrixType") KElem None;
  mkField "spacecraft_parameters" (Some "spacecraftParameters") false (TCls "RdmSpacecraftParametersType") KElem None;
  mkField "od_parameters" (Some "odParameters") false (TCls "OdParametersType") KElem None;
  mkField "user_defined_parameters" (Some "userDefinedParameters") false (TCls "UserDefinedType") KElem None
].
(* ccsds_ndm/models/ndmxml2/ndmxml_2_0_0_rdm_1_0.py lines 139-393 *)
Definition c_RdmMetadata : cdef := CData "rdmMetadata" [
  mkField "comment" (Some "COMMENT") true TStr KElem None;
  mkField "object_name" (Some "OBJECT_NAME") false TStr KElem None;
  mkField "international_designator" (Some "INTERNATIONAL_DESIGNATOR") false TStr KElem None;
  mkField "catalog_name" (Some "CATALOG_NAME") false TStr KElem None;
  mkField "object_designator" (Some "OBJECT_DESIGNATOR") false TStr KElem None;
  mkField "object_type" (Some "OBJECT_TYPE") false (TCls "ObjectDescriptionType") KElem None;
  mkField "object_owner" (Some "OBJECT_OWNER") false TStr KElem None;
  mkField "object_operator" (Some "OBJECT_OPERATOR") false TStr KElem None;
  mkField "controlled_reentry" (Some "CONTROLLED_REENTRY") false (TCls "ControlledType") KElem None;
  mkField "center_name" (Some "CENTER_NAME") false TStr KElem None;
  mkField "time_system" (Some "TIME_SYSTEM") false TStr KElem None;
  mkField "epoch_tzero" (Some "EPOCH_TZERO") false TStr KElem None;
  mkField "ref_frame" (Some "REF_FRAME") false TStr KElem None;
  mkField "ref_frame_epoch" (Some "REF_FRAME_EPOCH") false TStr KElem None;
  mkField "ephemeris_name" (Some "EPHEMERIS_NAME") false TStr KElem None;
  mkField "gravity_model" (Some "GRAVITY_MODEL") false TStr KElem None;
  mkField "atmospheric_model" (Some "ATMOSPHERIC_MODEL") false TStr KElem None;
  mkField "solar_flux_prediction" (Some "SOLAR_FLUX_PREDICTION") false TStr KElem None;
  mkField "n_body_perturbations" (Some "N_BODY_PERTURBATIONS") false TStr KElem None;
  mkField "solar_rad_pressure" (Some "SOLAR_RAD_PRESSURE") false TStr KElem None;
  mkField "earth_tides" (Some "EARTH_TIDES") false TStr KElem None;
  mkField "intrack_thrust" (Some "INTRACK_THRUST") false (TCls "YesNoType") KElem None;
  mkField "drag_parameters_source" (Some "DRAG_PARAMETERS_SOURCE") false TStr KElem None;
  mkField "drag_parameters_altitude" (Some "DRAG_PARAMETERS_ALTITUDE") false (TCls "DistanceType") KElem None;
  mkField "reentry_uncertainty_method" (Some "REENTRY_UNCERTAINTY_METHOD") false (TCls "ReentryUncertaintyMethodType") KElem None;
  mkField "reentry_disintegration" (Some "REENTRY_DISINTEGRATION") false (TCls "DisintegrationType") KElem None;
  mkField "impact_uncertainty_method" (Some "IMPACT_UNCERTAINTY_METHOD") false (TCls "ImpactUncertaintyType") KElem None;
  mkField "previous_message_id" (Some "PREVIOUS_MESSAGE_ID") false TStr KElem None;
  mkField "previous_message_epoch" (Some "PREVIOUS_MESSAGE_EPOCH") false TStr KElem None;
  mkField "next_message_epoch" (Some "NEXT_MESSAGE_EPOCH") false TStr KElem None
].
(* ccsds_ndm/models/ndmxml2/ndmxml_2_0_0_rdm_1_0.py lines 396-416 *)
Definition c_RdmSegment : cdef := CData "rdmSegment" [
  mkField "metadata" None false (TCls "RdmMetadata") KElem None;
  mkField "data" None false (TCls "RdmData") KElem None
].
(* ccsds_ndm/models/ndmxml2/ndmxml_2_0_0_rdm_1_0.py lines 419-431 *)
Definition c_RdmBody : cdef := CData "rdmBody" [
  mkField "segment" None false (TCls "RdmSegment") KElem None
].
(* ccsds_ndm/models/ndmxml2/ndmxml_2_0_0_rdm_1_0.py lines 434-470 *)
Definition c_RdmType : cdef := CData "rdmType" [
  mkField "header" None false (TCls "RdmHeader") KElem None;
  mkField "body" None false (TCls "RdmBody") KElem None;
  mkField "id" None false TStr KAttr (Some "CCSDS_RDM_VERS");
  mkField "version" None false TStr KAttr (Some "1.0")
].
(* ccsds_ndm/models/ndmxml2/ndmxml_2_0_0_tdm_2_0.py lines 15-23 *)
Definition c_AngleTypeType : cdef := CEnum [("AZEL", "AZEL"); ("AZEL_1", "azel"); ("RADEC", "RADEC"); ("RADEC_1", "radec"); ("XEYN", "XEYN"); ("XEYN_1", "xeyn"); ("XSYE", "XSYE"); ("XSYE_1", "xsye")].
(* ccsds_ndm/models/ndmxml2/ndmxml_2_0_0_tdm_2_0.py lines 26-32 *)
Definition c_DataQualityType : cdef := CEnum [("RAW", "raw"); ("RAW_1", "RAW"); ("VALIDATED", "validated"); ("VALIDATED_1", "VALIDATED"); ("DEGRADED", "degraded"); ("DEGRADED_1", "DEGRADED")].
(* ccsds_ndm/models/ndmxml2/ndmxml_2_0_0_tdm_2_0.py lines 35-41 *)
Definition c_IntegrationRefType : cdef := CEnum [("START", "START"); ("START_1", "start"); ("MIDDLE", "MIDDLE"); ("MIDDLE_1", "middle"); ("END", "END"); ("END_1", "end")].
(* ccsds_ndm/models/ndmxml2/ndmxml_2_0_0_tdm_2_0.py lines 44-48 *)
Definition c_ModeType : cdef := CEnum [("SEQUENTIAL", "SEQUENTIAL"); ("SEQUENTIAL_1", "sequential"); ("SINGLE_DIFF", "SINGLE_DIFF"); ("SINGLE_DIFF_1", "single_diff")].
(* ccsds_ndm/models/ndmxml2/ndmxml_2_0_0_tdm_2_0.py lines 51-57 *)
Definition c_RangeUnitsType : cdef := CEnum [("KM", "km"); ("KM_1", "KM"); ("RU", "ru"); ("RU_1", "RU"); ("S", "s"); ("S_1", "S")].
(* ccsds_ndm/models/ndmxml2/ndmxml_2_0_0_tdm_2_0.py lines 60-66 *)
Definition c_RangemodeType : cdef := CEnum [("COHERENT", "coherent"); ("COHERENT_1", "COHERENT"); ("CONSTANT", "constant"); ("CONSTANT_1", "CONSTANT"); ("ONE_WAY", "one_way"); ("ONE_WAY_1", "ONE_WAY")].
(* ccsds_ndm/models/ndmxml2/ndmxml_2_0_0_tdm_2_0.py lines 69-81 *)
Definition c_RefFrameType : cdef := CEnum [("EME2000", "EME2000"); ("EME2000_1", "eme2000"); ("ICRF", "ICRF"); ("ICRF_1", "icrf"); ("ITRF2000", "ITRF2000"); ("ITRF2000_1", "itrf2000"); ("ITRF_93", "ITRF-93"); ("ITRF_93_1", "itrf-93"); ("ITRF_97", "ITRF-97"); ("ITRF_97_1", "itrf-97"); ("TOD", "TOD"); ("TOD_1", "tod")].
(* ccsds_ndm/models/ndmxml2/ndmxml_2_0_0_tdm_2_0.py lines 84-123 *)
Definition c_TdmHeader : cdef := CData "tdmHeader" [
  mkField "comment" (Some "COMMENT") true TStr KElem None;
  mkField "creation_date" (Some "CREATION_DATE") false TStr KElem None;
  mkField "originator" (Some "ORIGINATOR") false TStr KElem None;
  mkField "message_id" (Some "MESSAGE_ID") false TStr KElem None
].
(* ccsds_ndm/models/ndmxml2/ndmxml_2_0_0_tdm_2_0.py lines 126-130 *)
Definition c_TimetagRefType : cdef := CEnum [("TRANSMIT", "TRANSMIT"); ("TRANSMIT_1", "transmit"); ("RECEIVE", "RECEIVE"); ("RECEIVE_1", "receive")].
(* ccsds_ndm/models/ndmxml2/ndmxml_2_0_0_tdm_2_0.py lines 133-637 *)
Definition c_TdmMetadata : cdef := CData "tdmMetadata" [
  mkField "comment" (Some "COMMENT") true TStr KElem None;
  mkField "track_id" (Some "TRACK_ID") false TStr KElem None;
  mkField "data_types" (Some "DATA_TYPES") false TStr KElem None;
  mkField "time_system" (Some "TIME_SYSTEM") false (TCls "TimeSystemType") KElem None;
  mkField "start_time" (Some "START_TIME") false TStr KElem None;
  mkField "stop_time" (Some "STOP_TIME") false TStr KElem None;
  mkField "participant_1" (Some "PARTICIPANT_1") false TStr KElem None;
  mkField "participant_2" (Some "PARTICIPANT_2") false TStr KElem None;
  mkField "participant_3" (Some "PARTICIPANT_3") false TStr KElem None;
  mkField "participant_4" (Some "PARTICIPANT_4") false TStr KElem None;
  mkField "participant_5" (Some "PARTICIPANT_5") false TStr KElem None;
  mkField "mode" (Some "MODE") false (TCls "ModeType") KElem None;
  mkField "path" (Some "PATH") false TStr KElem None;
  mkField "path_1" (Some "PATH_1") false TStr KElem None;
  mkField "path_2" (Some "PATH_2") false TStr KElem None;
  mkField "ephemeris_name_1" (Some "EPHEMERIS_NAME_1") false TStr KElem None;
  mkField "ephemeris_name_2" (Some "EPHEMERIS_NAME_2") false TStr KElem None;
  mkField "ephemeris_name_3" (Some "EPHEMERIS_NAME_3") false TStr KElem None;
  mkField "ephemeris_name_4" (Some "EPHEMERIS_NAME_4") false TStr KElem None;
  mkField "ephemeris_name_5" (Some "EPHEMERIS_NAME_5") false TStr KElem None;
  mkField "transmit_band" (Some "TRANSMIT_BAND") false TStr KElem None;
  mkField "receive_band" (Some "RECEIVE_BAND") false TStr KElem None;
  mkField "turnaround_numerator" (Some "TURNAROUND_NUMERATOR") false TInt KElem None;
  mkField "turnaround_denominator" (Some "TURNAROUND_DENOMINATOR") false TInt KElem None;
  mkField "timetag_ref" (Some "TIMETAG_REF") false (TCls "TimetagRefType") KElem None;
  mkField "integration_interval" (Some "INTEGRATION_INTERVAL") false TDec KElem None;
  mkField "integration_ref" (Some "INTEGRATION_REF") false (TCls "IntegrationRefType") KElem None;
  mkField "freq_offset" (Some "FREQ_OFFSET") false TDec KElem None;
  mkField "range_mode" (Some "RANGE_MODE") false (TCls "RangemodeType") KElem None;
  mkField "range_modulus" (Some "RANGE_MODULUS") false TDec KElem None;
  mkField "range_units" (Some "RANGE_UNITS") false (TCls "RangeUnitsType") KElem None;
  mkField "angle_type" (Some "ANGLE_TYPE") false (TCls "AngleTypeType") KElem None;
  mkField "reference_frame" (Some "REFERENCE_FRAME") false (TCls "RefFrameType") KElem None;
  mkField "interpolation" (Some "INTERPOLATION") false TStr KElem None;
  mkField "interpolation_degree" (Some "INTERPOLATION_DEGREE") false TInt KElem None;
  mkField "doppler_count_bias" (Some "DOPPLER_COUNT_BIAS") false TDec KElem None;
  mkField "doppler_count_scale" (Some "DOPPLER_COUNT_SCALE") false TInt KElem None;
  mkField "doppler_count_rollover" (Some "DOPPLER_COUNT_ROLLOVER") false (TCls "YesNoType") KElem None;
  mkField "transmit_delay_1" (Some "TRANSMIT_DELAY_1") false TDec KElem None;
  mkField "transmit_delay_2" (Some "TRANSMIT_DELAY_2") false TDec KElem None;
  mkField "transmit_delay_3" (Some "TRANSMIT_DELAY_3") false TDec KElem None;
  mkField "transmit_delay_4" (Some "TRANSMIT_DELAY_4") false TDec KElem None;
  mkField "transmit_delay_5" (Some "TRANSMIT_DELAY_5") false TDec KElem None;
  mkField "receive_delay_1" (Some "RECEIVE_DELAY_1") false TDec KElem None;
  mkField "receive_delay_2" (Some "RECEIVE_DELAY_2") false TDec KElem None;
  mkField "receive_delay_3" (Some "RECEIVE_DELAY_3") false TDec KElem None;
  mkField "receive_delay_4" (Some "RECEIVE_DELAY_4") false TDec KElem None;
  mkField "receive_delay_5" (Some "RECEIVE_DELAY_5") false TDec KElem None;
  mkField "data_quality" (Some "DATA_QUALITY") false (TCls "DataQualityType") KElem None;
  mkField "correction_angle_1" (Some "CORRECTION_ANGLE_1") false TDec KElem None;
  mkField "correction_angle_2" (Some "CORRECTION_ANGLE_2") false TDec KElem None;
  mkField "correction_doppler" (Some "CORRECTION_DOPPLER") false TDec KElem None;
  mkField "correction_mag" (Some "CORRECTION_MAG") false TDec KElem None;
  mkField "correction_range" (Some "CORRECTION_RANGE") false TDec KElem None;
  mkField "correction_rcs" (Some "CORRECTION_RCS") false TDec KElem None;
  mkField "correction_receive" (Some "CORRECTION_RECEIVE") false TDec KElem None;
  mkField "correction_transmit" (Some "CORRECTION_TRANSMIT") false TDec KElem None;
  mkField "correction_aberration_yearly" (Some "CORRECTION_ABERRATION_YEARLY") false TDec KElem None;
  mkField "correction_aberration_diurnal" (Some "CORRECTION_ABERRATION_DIURNAL") false TDec KElem None;
  mkField "corrections_applied" (Some "CORRECTIONS_APPLIED") false (TCls "YesNoType") KElem None
].
(* ccsds_ndm/models/ndmxml2/ndmxml_2_0_0_tdm_2_0.py lines 640-1040 *)
Definition c_TrackingDataObservationType : cdef := CData "trackingDataObservationType" [
  mkField "epoch" (Some "EPOCH") false TStr KElem None;
  mkField "angle_1" (Some "ANGLE_1") false (TCls "AngleType") KElem None;
  mkField "angle_2" (Some "ANGLE_2") false (TCls "AngleType") KElem None;
  mkField "carrier_power" (Some "CARRIER_POWER") false TDec KElem None;
  mkField "clock_bias" (Some "CLOCK_BIAS") false TDec KElem None;
  mkField "clock_drift" (Some "CLOCK_DRIFT") false TDec KElem None;
  mkField "doppler_count" (Some "DOPPLER_COUNT") false TDec KElem None;
  mkField "doppler_instantaneous" (Some "DOPPLER_INSTANTANEOUS") false TDec KElem None;
  mkField "doppler_integrated" (Some "DOPPLER_INTEGRATED") false TDec KElem None;
  mkField "dor" (Some "DOR") false TDec KElem None;
  mkField "mag" (Some "MAG") false TDec KElem None;
  mkField "pc_n0" (Some "PC_N0") false TDec KElem None;
  mkField "pr_n0" (Some "PR_N0") false TDec KElem None;
  mkField "pressure" (Some "PRESSURE") false TDec KElem None;
  mkField "range" (Some "RANGE") false TDec KElem None;
  mkField "rcs" (Some "RCS") false TDec KElem None;
  mkField "receive_freq" (Some "RECEIVE_FREQ") false TDec KElem None;
  mkField "receive_freq_1" (Some "RECEIVE_FREQ_1") false TDec KElem None;
  mkField "receive_freq_2" (Some "RECEIVE_FREQ_2") false TDec KElem None;
  mkField "receive_freq_3" (Some "RECEIVE_FREQ_3") false TDec KElem None;
  mkField "receive_freq_4" (Some "RECEIVE_FREQ_4") false TDec KElem None;
  mkField "receive_freq_5" (Some "RECEIVE_FREQ_5") false TDec KElem None;
  mkField "receive_phase_ct_1" (Some "RECEIVE_PHASE_CT_1") false TDec KElem None;
  mkField "receive_phase_ct_2" (Some "RECEIVE_PHASE_CT_2") false TDec KElem None;
  mkField "receive_phase_ct_3" (Some "RECEIVE_PHASE_CT_3") false TDec KElem None;
  mkField "receive_phase_ct_4" (Some "RECEIVE_PHASE_CT_4") false TDec KElem None;
  mkField "receive_phase_ct_5" (Some "RECEIVE_PHASE_CT_5") false TDec KElem None;
  mkField "rhumidity" (Some "RHUMIDITY") false TDec KElem None;
  mkField "stec" (Some "STEC") false TDec KElem None;
  mkField "temperature" (Some "TEMPERATURE") false TDec KElem None;
  mkField "transmit_freq_1" (Some "TRANSMIT_FREQ_1") false TDec KElem None;
  mkField "transmit_freq_2" (Some "TRANSMIT_FREQ_2") false TDec KElem None;
  mkField "transmit_freq_3" (Some "TRANSMIT_FREQ_3") false TDec KElem None;
  mkField "transmit_freq_4" (Some "TRANSMIT_FREQ_4") false TDec KElem None;
  mkField "transmit_freq_5" (Some "TRANSMIT_FREQ_5") false TDec KElem None;
  mkField "transmit_freq_rate_1" (Some "TRANSMIT_FREQ_RATE_1") false TDec KElem None;
  mkField "transmit_freq_rate_2" (Some "TRANSMIT_FREQ_RATE_2") false TDec KElem None;
  mkField "transmit_freq_rate_3" (Some "TRANSMIT_FREQ_RATE_3") false TDec KElem None;
  mkField "transmit_freq_rate_4" (Some "TRANSMIT_FREQ_RATE_4") false TDec KElem None;
  mkField "transmit_freq_rate_5" (Some "TRANSMIT_FREQ_RATE_5") false TDec KElem None;
  mkField "transmit_phase_ct_1" (Some "TRANSMIT_PHASE_CT_1") false TDec KElem None;
  mkField "transmit_phase_ct_2" (Some "TRANSMIT_PHASE_CT_2") false TDec KElem None;
  mkField "transmit_phase_ct_3" (Some "TRANSMIT_PHASE_CT_3") false TDec KElem None;
  mkField "transmit_phase_ct_4" (Some "TRANSMIT_PHASE_CT_4") false TDec KElem None;
  mkField "transmit_phase_ct_5" (Some "TRANSMIT_PHASE_CT_5") false TDec KElem None;
  mkField "tropo_dry" (Some "TROPO_DRY") false TDec KElem None;
  mkField "tropo_wet" (Some "TROPO_WET") false TDec KElem None;
  mkField "vlbi_delay" (Some "VLBI_DELAY") false TDec KElem None
].
(* ccsds_ndm/models/ndmxml2/ndmxml_2_0_0_tdm_2_0.py lines 1043-1063 *)
Definition c_TdmData : cdef := CData "tdmData" [
  mkField "comment" (Some "COMMENT") true TStr KElem None;
  mkField "observation" None true (TCls "TrackingDataObservationType") KElem None
].
(* ccsds_ndm/models/ndmxml2/ndmxml_2_0_0_tdm_2_0.py lines 1066-1086 *)
Definition c_TdmSegment : cdef := CData "tdmSegment" [
  mkField "metadata" None false (TCls "TdmMetadata") KElem None;
  mkField "data" None false (TCls "TdmData") KElem None
].
(* ccsds_ndm/models/ndmxml2/ndmxml_2_0_0_tdm_2_0.py lines 1089-1101 *)
Definition c_TdmBody : cdef := CData "tdmBody" [
  mkField "segment" None true (TCls "TdmSegment") KElem None
].
(* ccsds_ndm/models/ndmxml2/ndmxml_2_0_0_tdm_2_0.py lines 1104-1140 *)
Definition c_TdmType : cdef := CData "tdmType" [
  mkField "header" None false (TCls "TdmHeader") KElem None;
  mkField "body" None false (TCls "TdmBody") KElem None;
  mkField "id" None false TStr KAttr (Some "CCSDS_TDM_VERS");
  mkField "version" None false TStr KAttr (Some "2.0")
].
(* ccsds_ndm/models/ndmxml2/ndmxml_2_0_0_ndm_2_0.py lines 16-100 *)
Definition c_NdmType : cdef := CData "ndmType" [
  mkField "message_id" (Some "MESSAGE_ID") false TStr KElem None;
  mkField "comment" (Some "COMMENT") true TStr KElem None;
  mkField "aem" None true (TCls "AemType") KElem None;
  mkField "apm" None true (TCls "ApmType") KElem None;
  mkField "cdm" None true (TCls "CdmType") KElem None;
  mkField "oem" None true (TCls "OemType") KElem None;
  mkField "omm" None true (TCls "OmmType") KElem None;
  mkField "opm" None true (TCls "OpmType") KElem None;
  mkField "rdm" None true (TCls "RdmType") KElem None;
  mkField "tdm" None true (TCls "TdmType") KElem None
].
(* ccsds_ndm/models/ndmxml2/ndmxml_2_0_0_master_2_0.py lines 14-17; base AemType ccsds_ndm/models/ndmxml2/ndmxml_2_0_0_aem_1_0.py lines 624-660 *)
Definition c_Aem : cdef := CData "aem" [
  mkField "header" None false (TCls "NdmHeader") KElem None;
  mkField "body" None false (TCls "AemBody") KElem None;
  mkField "id" None false TStr KAttr (Some "CCSDS_AEM_VERS");
  mkField "version" None false TStr KAttr (Some "1.0")
].
(* ccsds_ndm/models/ndmxml2/ndmxml_2_0_0_master_2_0.py lines 20-23; base ApmType ccsds_ndm/models/ndmxml2/ndmxml_2_0_0_apm_1_0.py lines 576-612 *)
Definition c_Apm : cdef := CData "apm" [
  mkField "header" None false (TCls "NdmHeader") KElem None;
  mkField "body" None false (TCls "ApmBody") KElem None;
  mkField "id" None false TStr KAttr (Some "CCSDS_APM_VERS");
  mkField "version" None false TStr KAttr (Some "1.0")
].
(* ccsds_ndm/models/ndmxml2/ndmxml_2_0_0_master_2_0.py lines 26-29; base CdmType ccsds_ndm/models/ndmxml2/ndmxml_2_0_0_cdm_1_0.py lines 1448-1484 *)
Definition c_Cdm : cdef := CData "cdm" [
  mkField "header" None false (TCls "CdmHeader") KElem None;
  mkField "body" None false (TCls "CdmBody") KElem None;
  mkField "id" None false TStr KAttr (Some "CCSDS_CDM_VERS");
  mkField "version" None false TStr KAttr (Some "1.0")
].
(* ccsds_ndm/models/ndmxml2/ndmxml_2_0_0_master_2_0.py lines 32-35; base NdmType ccsds_ndm/models/ndmxml2/ndmxml_2_0_0_ndm_2_0.py lines 16-100 *)
Definition c_Ndm : cdef := CData "ndm" [
  mkField "message_id" (Some "MESSAGE_ID") false TStr KElem None;
  mkField "comment" (Some "COMMENT") true TStr KElem None;
  mkField "aem" None true (TCls "AemType") KElem None;
  mkField "apm" None true (TCls "ApmType") KElem None;
  mkField "cdm" None true (TCls "CdmType") KElem None;
  mkField "oem" None true (TCls "OemType") KElem None;
  mkField "omm" None true (TCls "OmmType") KElem None;
  mkField "opm" None true (TCls "OpmType") KElem None;
  mkField "rdm" None true (TCls "RdmType") KElem None;
  mkField "tdm" None true (TCls "TdmType") KElem None
].
(* ccsds_ndm/models/ndmxml2/ndmxml_2_0_0_master_2_0.py lines 38-41; base OemType ccsds_ndm/models/ndmxml2/ndmxml_2_0_0_oem_2_0.py lines 206-242 *)
Definition c_Oem : cdef := CData "oem" [
  mkField "header" None false (TCls "NdmHeader") KElem None;
  mkField "body" None false (TCls "OemBody") KElem None;
  mkField "id" None false TStr KAttr (Some "CCSDS_OEM_VERS");
  mkField "version" None false TStr KAttr (Some "2.0")
].
(* ccsds_ndm/models/ndmxml2/ndmxml_2_0_0_master_2_0.py lines 44-47; base OmmType ccsds_ndm/models/ndmxml2/ndmxml_2_0_0_omm_2_0.py lines 457-493 *)
Definition c_Omm : cdef := CData "omm" [
  mkField "header" None false (TCls "NdmHeader") KElem None;
  mkField "body" None false (TCls "OmmBody") KElem None;
  mkField "id" None false TStr KAttr (Some "CCSDS_OMM_VERS");
  mkField "version" None false TStr KAttr (Some "2.0")
].
(* ccsds_ndm/models/ndmxml2/ndmxml_2_0_0_master_2_0.py lines 50-53; base OpmType ccsds_ndm/models/ndmxml2/ndmxml_2_0_0_opm_2_0.py lines 359-395 *)
Definition c_Opm : cdef := CData "opm" [
  mkField "header" None false (TCls "NdmHeader") KElem None;
  mkField "body" None false (TCls "OpmBody") KElem None;
  mkField "id" None false TStr KAttr (Some "CCSDS_OPM_VERS");
  mkField "version" None false TStr KAttr (Some "2.0")
].
(* ccsds_ndm/models/ndmxml2/ndmxml_2_0_0_master_2_0.py lines 56-59; base RdmType ccsds_ndm/models/ndmxml2/ndmxml_2_0_0_rdm_1_0.py lines 434-470 *)
Definition c_Rdm : cdef := CData "rdm" [
  mkField "header" None false (TCls "RdmHeader") KElem None;
  mkField "body" None false (TCls "RdmBody") KElem None;
  mkField "id" None false TStr KAttr (Some "CCSDS_RDM_VERS");
  mkField "version" None false TStr KAttr (Some "1.0")
].
(* ccsds_ndm/models/ndmxml2/ndmxml_2_0_0_master_2_0.py lines 62-65; base TdmType ccsds_ndm/models/ndmxml2/ndmxml_2_0_0_tdm_2_0.py lines 1104-1140 *)
Definition c_Tdm : cdef := CData "tdm" [
  mkField "header" None false (TCls "TdmHeader") KElem None;
  mkField "body" None false (TCls "TdmBody") KElem None;
  mkField "id" None false TStr KAttr (Some "CCSDS_TDM_VERS");
  mkField "version" None false TStr KAttr (Some "2.0")
].

(* all classes of /repo/ccsds_ndm/models/ndmxml2/*.py *)
Definition schema : list (string * cdef) := [
  ("AccUnits", c_AccUnits);
  ("AngleKeywordType", c_AngleKeywordType);
  ("AngleRateKeywordType", c_AngleRateKeywordType);
  ("AngleRateUnits", c_AngleRateUnits);
  ("AngleUnits", c_AngleUnits);
  ("AreaUnits", c_AreaUnits);
  ("BallisticCoeffUnitsType", c_BallisticCoeffUnitsType);
  ("ControlledType", c_ControlledType);
  ("DayIntervalUnits", c_DayIntervalUnits);
  ("DisintegrationType", c_DisintegrationType);
  ("FrequencyUnits", c_FrequencyUnits);
  ("GmUnits", c_GmUnits);
  ("ImpactUncertaintyType", c_ImpactUncertaintyType);
  ("Km2Units", c_Km2Units);
  ("Km2S2Units", c_Km2S2Units);
  ("Km2SUnits", c_Km2SUnits);
  ("LatLonUnits", c_LatLonUnits);
  ("LengthUnits", c_LengthUnits);
  ("MassUnits", c_MassUnits);
  ("MomentUnits", c_MomentUnits);
  ("Ms2Units", c_Ms2Units);
  ("NdmHeader", c_NdmHeader);
  ("ObjectDescriptionType", c_ObjectDescriptionType);
  ("OemCovarianceMatrixAbstractType", c_OemCovarianceMatrixAbstractType);
  ("OpmCovarianceMatrixAbstractType", c_OpmCovarianceMatrixAbstractType);
  ("PercentageUnits", c_PercentageUnits);
  ("PositionCovarianceUnits", c_PositionCovarianceUnits);
  ("PositionUnits", c_PositionUnits);
  ("PositionVelocityCovarianceUnits", c_PositionVelocityCovarianceUnits);
  ("QuaternionDotUnits", c_QuaternionDotUnits);
  ("QuaternionType", c_QuaternionType);
  ("ReentryUncertaintyMethodType", c_ReentryUncertaintyMethodType);
  ("RotDirectionType", c_RotDirectionType);
  ("RotseqType", c_RotseqType);
  ("TimeSystemType", c_TimeSystemType);
  ("TimeUnits", c_TimeUnits);
  ("UserDefinedParameterType", c_UserDefinedParameterType);
  ("VelocityCovarianceUnits", c_VelocityCovarianceUnits);
  ("VelocityUnits", c_VelocityUnits);
  ("YesNoType", c_YesNoType);
  ("AccType", c_AccType);
  ("AltType", c_AltType);
  ("AngleRateType", c_AngleRateType);
  ("AngleType", c_AngleType);
  ("AreaType", c_AreaType);
  ("BallisticCoeffType", c_BallisticCoeffType);
  ("DayIntervalType", c_DayIntervalType);
  ("DeltamassType", c_DeltamassType);
  ("DistanceType", c_DistanceType);
  ("DurationType", c_DurationType);
  ("FrequencyType", c_FrequencyType);
  ("GmType", c_GmType);
  ("InclinationType", c_InclinationType);
  ("Km2Type", c_Km2Type);
  ("Km2S2Type", c_Km2S2Type);
  ("Km2SType", c_Km2SType);
  ("LatType", c_LatType);
  ("LengthType", c_LengthType);
  ("LonType", c_LonType);
  ("MassType", c_MassType);
  ("MomentType", c_MomentType);
  ("Ms2Type", c_Ms2Type);
  ("PercentageType", c_PercentageType);
  ("PositionCovarianceType", c_PositionCovarianceType);
  ("PositionType", c_PositionType);
  ("PositionVelocityCovarianceType", c_PositionVelocityCovarianceType);
  ("QuaternionDotType", c_QuaternionDotType);
  ("RdmPositionType", c_RdmPositionType);
  ("RdmVelocityType", c_RdmVelocityType);
  ("RotationAngleComponentType", c_RotationAngleComponentType);
  ("RotationAngleComponentTypeold", c_RotationAngleComponentTypeold);
  ("RotationRateComponentType", c_RotationRateComponentType);
  ("RotationRateComponentTypeOld", c_RotationRateComponentTypeOld);
  ("UserDefinedType", c_UserDefinedType);
  ("VelocityCovarianceType", c_VelocityCovarianceType);
  ("VelocityType", c_VelocityType);
  ("AtmosphericReentryParametersType", c_AtmosphericReentryParametersType);
  ("GroundImpactParametersType", c_GroundImpactParametersType);
  ("OdParametersType", c_OdParametersType);
  ("OemCovarianceMatrixType", c_OemCovarianceMatrixType);
  ("OpmCovarianceMatrixType", c_OpmCovarianceMatrixType);
  ("QuaternionRateType", c_QuaternionRateType);
  ("RdmSpacecraftParametersType", c_RdmSpacecraftParametersType);
  ("RotationAngleType", c_RotationAngleType);
  ("RotationRateType", c_RotationRateType);
  ("SpacecraftParametersType", c_SpacecraftParametersType);
  ("StateVectorAccType", c_StateVectorAccType);
  ("StateVectorType", c_StateVectorType);
  ("AemRateFrameType", c_AemRateFrameType);
  ("AttitudeTypeType", c_AttitudeTypeType);
  ("QuaternionTypeType", c_QuaternionTypeType);
  ("AemMetadata", c_AemMetadata);
  ("EulerAngleRateType", c_EulerAngleRateType);
  ("EulerAngleType", c_EulerAngleType);
  ("QuaternionDerivativeType", c_QuaternionDerivativeType);
  ("QuaternionEphemerisType", c_QuaternionEphemerisType);
  ("QuaternionEulerRateType", c_QuaternionEulerRateType);
  ("SpinNutationType", c_SpinNutationType);
  ("SpinType", c_SpinType);
  ("AttitudeStateType", c_AttitudeStateType);
  ("AemData", c_AemData);
  ("AemSegment", c_AemSegment);
  ("AemBody", c_AemBody);
  ("AemType", c_AemType);
  ("ApmRateFrameType", c_ApmRateFrameType);
  ("TorqueUnits", c_TorqueUnits);
  ("ApmMetadata", c_ApmMetadata);
  ("AttSpacecraftParametersType", c_AttSpacecraftParametersType);
  ("EulerElementsSpinType", c_EulerElementsSpinType);
  ("EulerElementsThreeType", c_EulerElementsThreeType);
  ("QuaternionStateType", c_QuaternionStateType);
  ("TorqueType", c_TorqueType);
  ("AttManeuverParametersType", c_AttManeuverParametersType);
  ("ApmData", c_ApmData);
  ("ApmSegment", c_ApmSegment);
  ("ApmBody", c_ApmBody);
  ("ApmType", c_ApmType);
  ("CdmHeader", c_CdmHeader);
  ("CovarianceMethodType", c_CovarianceMethodType);
  ("DvUnits", c_DvUnits);
  ("M2Units", c_M2Units);
  ("M2KgUnits", c_M2KgUnits);
  ("M2S2Units", c_M2S2Units);
  ("M2S3Units", c_M2S3Units);
  ("M2S4Units", c_M2S4Units);
  ("M2SUnits", c_M2SUnits);
  ("M3KgUnits", c_M3KgUnits);
  ("M3Kgs2Units", c_M3Kgs2Units);
  ("M3KgsUnits", c_M3KgsUnits);
  ("M4Kg2Units", c_M4Kg2Units);
  ("ManeuverableType", c_ManeuverableType);
  ("ObjectType", c_ObjectType);
  ("ReferenceFrameType", c_ReferenceFrameType);
  ("ScreenVolumeFrameType", c_ScreenVolumeFrameType);
  ("ScreenVolumeShapeType", c_ScreenVolumeShapeType);
  ("WkgUnits", c_WkgUnits);
  ("CdmMetadata", c_CdmMetadata);
  ("CdmPositionType", c_CdmPositionType);
  ("CdmVelocityType", c_CdmVelocityType);
  ("DvType", c_DvType);
  ("M2Type", c_M2Type);
  ("M2KgType", c_M2KgType);
  ("M2S2Type", c_M2S2Type);
  ("M2S3Type", c_M2S3Type);
  ("M2S4Type", c_M2S4Type);
  ("M2SType", c_M2SType);
  ("M3KgType", c_M3KgType);
  ("M3Kgs2Type", c_M3Kgs2Type);
  ("M3KgsType", c_M3KgsType);
  ("M4Kg2Type", c_M4Kg2Type);
  ("WkgType", c_WkgType);
  ("AdditionalParametersType", c_AdditionalParametersType);
  ("CdmCovarianceMatrixType", c_CdmCovarianceMatrixType);
  ("CdmStateVectorType", c_CdmStateVectorType);
  ("RelativeStateVectorType", c_RelativeStateVectorType);
  ("CdmData", c_CdmData);
  ("RelativeMetadataData", c_RelativeMetadataData);
  ("CdmSegment", c_CdmSegment);
  ("CdmBody", c_CdmBody);
  ("CdmType", c_CdmType);
  ("OemMetadata", c_OemMetadata);
  ("OemData", c_OemData);
  ("OemSegment", c_OemSegment);
  ("OemBody", c_OemBody);
  ("OemType", c_OemType);
  ("BStarUnits", c_BStarUnits);
  ("DRevUnits", c_DRevUnits);
  ("DdRevUnits", c_DdRevUnits);
  ("OmmMetadata", c_OmmMetadata);
  ("RevUnits", c_RevUnits);
  ("BStarType", c_BStarType);
  ("DRevType", c_DRevType);
  ("DdRevType", c_DdRevType);
  ("RevType", c_RevType);
  ("MeanElementsType", c_MeanElementsType);
  ("TleParametersType", c_TleParametersType);
  ("OmmData", c_OmmData);
  ("OmmSegment", c_OmmSegment);
  ("OmmBody", c_OmmBody);
  ("OmmType", c_OmmType);
  ("OpmMetadata", c_OpmMetadata);
  ("KeplerianElementsType", c_KeplerianElementsType);
  ("ManeuverParametersType", c_ManeuverParametersType);
  ("OpmData", c_OpmData);
  ("OpmSegment", c_OpmSegment);
  ("OpmBody", c_OpmBody);
  ("OpmType", c_OpmType);
  ("RdmHeader", c_RdmHeader);
  ("RdmData", c_RdmData);
  ("RdmMetadata", c_RdmMetadata);
  ("RdmSegment", c_RdmSegment);
  ("RdmBody", c_RdmBody);
  ("RdmType", c_RdmType);
  ("AngleTypeType", c_AngleTypeType);
  ("DataQualityType", c_DataQualityType);
  ("IntegrationRefType", c_IntegrationRefType);
  ("ModeType", c_ModeType);
  ("RangeUnitsType", c_RangeUnitsType);
  ("RangemodeType", c_RangemodeType);
  ("RefFrameType", c_RefFrameType);
  ("TdmHeader", c_TdmHeader);
  ("TimetagRefType", c_TimetagRefType);
  ("TdmMetadata", c_TdmMetadata);
  ("TrackingDataObservationType", c_TrackingDataObservationType);
  ("TdmData", c_TdmData);
  ("TdmSegment", c_TdmSegment);
  ("TdmBody", c_TdmBody);
  ("TdmType", c_TdmType);
  ("NdmType", c_NdmType);
  ("Aem", c_Aem);
  ("Apm", c_Apm);
  ("Cdm", c_Cdm);
  ("Ndm", c_Ndm);
  ("Oem", c_Oem);
  ("Omm", c_Omm);
  ("Opm", c_Opm);
  ("Rdm", c_Rdm);
  ("Tdm", c_Tdm)
].
