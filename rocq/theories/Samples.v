(* GENERATED by tools/gen_samples.py from /repo/ccsds_ndm/tests/data/kvn/*.kvn and *.xml. Do not edit.
   Validation of the model on the repository's own test data (concrete tests, not part
   of any proof). *)
From Coq Require Import NArith ZArith List String.
From Verif Require Import PyStr PyDec PyVal.
Import ListNotations.
Local Open Scope string_scope.

(* ccsds_ndm/tests/data/kvn/502x0b2c1e2_fig3_2_opm.kvn *)
Definition kvn_502x0b2c1e2_fig3_2_opm : string := "CCSDS_OPM_VERS    =  2.0

COMMENT  Generated by GSOC, R. Kiehling
COMMENT  Current intermediate orbit IO2 and maneuver planning data

CREATION_DATE     =  2000-06-03T05:33:00.000
ORIGINATOR        =  GSOC
OBJECT_NAME       =  EUTELSAT W4
OBJECT_ID         =  2000-028A
CENTER_NAME       =  EARTH
REF_FRAME         =  TOD
TIME_SYSTEM       =  UTC

COMMENT  State Vector
EPOCH             =  2006-06-03T00:00:00.000
X                 =    6655.9942        [km]
Y                 =  -40218.5751        [km]
Z                 =     -82.9177        [km]
X_DOT             =       3.11548208    [km/s]
Y_DOT             =       0.47042605    [km/s]
Z_DOT             =      -0.00101495    [km/s]

COMMENT  Keplerian elements
SEMI_MAJOR_AXIS   =   41399.5123        [km]
ECCENTRICITY      =       0.020842611
INCLINATION       =       0.117746      [deg]
RA_OF_ASC_NODE    =      17.604721      [deg]
ARG_OF_PERICENTER =     218.242943      [deg]
TRUE_ANOMALY      =      41.922339      [deg]
GM                =  398600.4415        [km**3/s**2]

COMMENT  Spacecraft parameters
MASS              =    1913.000         [kg]
SOLAR_RAD_AREA    =      10.000         [m**2]
SOLAR_RAD_COEFF   =       1.300
DRAG_AREA         =      10.000         [m**2]
DRAG_COEFF        =       2.300

COMMENT  2 planned maneuvers
COMMENT  First maneuver: AMF-3
COMMENT  Non-impulsive, thrust direction fixed in inertial frame
MAN_EPOCH_IGNITION =      2000-06-03T09:00:34.1
MAN_DURATION      =     132.60          [s]
MAN_DELTA_MASS    =     -18.418         [kg]
MAN_REF_FRAME     =       EME2000
MAN_DV_1          =      -0.02325700    [km/s]
MAN_DV_2          =       0.01683160    [km/s]
MAN_DV_3          =      -0.00893444    [km/s]

COMMENT  Second maneuver: first station acquisition maneuver
COMMENT  impulsive, thrust direction fixed in RTN frame
MAN_EPOCH_IGNITION =      2000-06-05T18:59:21.0
MAN_DURATION      =       0.00          [s]
MAN_DELTA_MASS    =      -1.469         [kg]
MAN_REF_FRAME     =       RTN
MAN_DV_1          =       0.00101500    [km/s]
MAN_DV_2          =      -0.00187300    [km/s]
MAN_DV_3          =       0.00000000    [km/s]
".
(* ccsds_ndm/tests/data/kvn/502x0b2c1e2_fig3_2_opm.xml *)
Definition obj_502x0b2c1e2_fig3_2_opm : pyval :=
 VObj "Opm" [("header", VObj "NdmHeader" [("comment", VList [VStr (lit "Generated by GSOC, R. Kiehling"); VStr (lit "Current intermediate orbit IO2 and maneuver planning data")]);
 ("creation_date", VStr (lit "2000-06-03T05:33:00.000"));
 ("originator", VStr (lit "GSOC"))]);
 ("body", VObj "OpmBody" [("segment", VObj "OpmSegment" [("metadata", VObj "OpmMetadata" [("comment", VList []);
 ("object_name", VStr (lit "EUTELSAT W4"));
 ("object_id", VStr (lit "2000-028A"));
 ("center_name", VStr (lit "EARTH"));
 ("ref_frame", VStr (lit "TOD"));
 ("ref_frame_epoch", VNone);
 ("time_system", VStr (lit "UTC"))]);
 ("data", VObj "OpmData" [("comment", VList [VStr (lit "State Vector")]);
 ("state_vector", VObj "StateVectorType" [("comment", VList []);
 ("epoch", VStr (lit "2006-06-03T00:00:00.000"));
 ("x", VObj "PositionType" [("value", VDec (DFin false 66559942%N (-4)%Z));
 ("units", VEnum "PositionUnits" "KM" (lit "km"))]);
 ("y", VObj "PositionType" [("value", VDec (DFin true 402185751%N (-4)%Z));
 ("units", VEnum "PositionUnits" "KM" (lit "km"))]);
 ("z", VObj "PositionType" [("value", VDec (DFin true 829177%N (-4)%Z));
 ("units", VEnum "PositionUnits" "KM" (lit "km"))]);
 ("x_dot", VObj "VelocityType" [("value", VDec (DFin false 311548208%N (-8)%Z));
 ("units", VEnum "VelocityUnits" "KM_S" (lit "km/s"))]);
 ("y_dot", VObj "VelocityType" [("value", VDec (DFin false 47042605%N (-8)%Z));
 ("units", VEnum "VelocityUnits" "KM_S" (lit "km/s"))]);
 ("z_dot", VObj "VelocityType" [("value", VDec (DFin true 101495%N (-8)%Z));
 ("units", VEnum "VelocityUnits" "KM_S" (lit "km/s"))])]);
 ("keplerian_elements", VObj "KeplerianElementsType" [("comment", VList [VStr (lit "Keplerian elements")]);
 ("semi_major_axis", VObj "DistanceType" [("value", VDec (DFin false 413995123%N (-4)%Z));
 ("units", VEnum "PositionUnits" "KM" (lit "km"))]);
 ("eccentricity", VDec (DFin false 20842611%N (-9)%Z));
 ("inclination", VObj "InclinationType" [("value", VDec (DFin false 117746%N (-6)%Z));
 ("units", VEnum "AngleUnits" "DEG" (lit "deg"))]);
 ("ra_of_asc_node", VObj "AngleType" [("value", VDec (DFin false 17604721%N (-6)%Z));
 ("units", VEnum "AngleUnits" "DEG" (lit "deg"))]);
 ("arg_of_pericenter", VObj "AngleType" [("value", VDec (DFin false 218242943%N (-6)%Z));
 ("units", VEnum "AngleUnits" "DEG" (lit "deg"))]);
 ("true_anomaly", VObj "AngleType" [("value", VDec (DFin false 41922339%N (-6)%Z));
 ("units", VEnum "AngleUnits" "DEG" (lit "deg"))]);
 ("mean_anomaly", VNone);
 ("gm", VObj "GmType" [("value", VDec (DFin false 3986004415%N (-4)%Z));
 ("units", VEnum "GmUnits" "KM_3_S_2" (lit "km**3/s**2"))])]);
 ("spacecraft_parameters", VObj "SpacecraftParametersType" [("comment", VList [VStr (lit "Spacecraft parameters")]);
 ("mass", VObj "MassType" [("value", VDec (DFin false 1913000%N (-3)%Z));
 ("units", VEnum "MassUnits" "KG" (lit "kg"))]);
 ("solar_rad_area", VObj "AreaType" [("value", VDec (DFin false 10000%N (-3)%Z));
 ("units", VEnum "AreaUnits" "M_2" (lit "m**2"))]);
 ("solar_rad_coeff", VDec (DFin false 1300%N (-3)%Z));
 ("drag_area", VObj "AreaType" [("value", VDec (DFin false 10000%N (-3)%Z));
 ("units", VEnum "AreaUnits" "M_2" (lit "m**2"))]);
 ("drag_coeff", VDec (DFin false 2300%N (-3)%Z))]);
 ("covariance_matrix", VNone);
 ("maneuver_parameters", VList [VObj "ManeuverParametersType" [("comment", VList [VStr (lit "2 planned maneuvers"); VStr (lit "First maneuver: AMF-3"); VStr (lit "Non-impulsive, thrust direction fixed in inertial frame")]);
 ("man_epoch_ignition", VStr (lit "2000-06-03T09:00:34.1"));
 ("man_duration", VObj "DurationType" [("value", VDec (DFin false 13260%N (-2)%Z));
 ("units", VEnum "TimeUnits" "S" (lit "s"))]);
 ("man_delta_mass", VObj "DeltamassType" [("value", VDec (DFin true 18418%N (-3)%Z));
 ("units", VEnum "MassUnits" "KG" (lit "kg"))]);
 ("man_ref_frame", VStr (lit "EME2000"));
 ("man_dv_1", VObj "VelocityType" [("value", VDec (DFin true 2325700%N (-8)%Z));
 ("units", VEnum "VelocityUnits" "KM_S" (lit "km/s"))]);
 ("man_dv_2", VObj "VelocityType" [("value", VDec (DFin false 1683160%N (-8)%Z));
 ("units", VEnum "VelocityUnits" "KM_S" (lit "km/s"))]);
 ("man_dv_3", VObj "VelocityType" [("value", VDec (DFin true 893444%N (-8)%Z));
 ("units", VEnum "VelocityUnits" "KM_S" (lit "km/s"))])]; VObj "ManeuverParametersType" [("comment", VList [VStr (lit "Second maneuver: first station acquisition maneuver"); VStr (lit "impulsive, thrust direction fixed in RTN frame")]);
 ("man_epoch_ignition", VStr (lit "2000-06-05T18:59:21.0"));
 ("man_duration", VObj "DurationType" [("value", VDec (DFin false 0%N (-2)%Z));
 ("units", VEnum "TimeUnits" "S" (lit "s"))]);
 ("man_delta_mass", VObj "DeltamassType" [("value", VDec (DFin true 1469%N (-3)%Z));
 ("units", VEnum "MassUnits" "KG" (lit "kg"))]);
 ("man_ref_frame", VStr (lit "RTN"));
 ("man_dv_1", VObj "VelocityType" [("value", VDec (DFin false 101500%N (-8)%Z));
 ("units", VEnum "VelocityUnits" "KM_S" (lit "km/s"))]);
 ("man_dv_2", VObj "VelocityType" [("value", VDec (DFin true 187300%N (-8)%Z));
 ("units", VEnum "VelocityUnits" "KM_S" (lit "km/s"))]);
 ("man_dv_3", VObj "VelocityType" [("value", VDec (DFin false 0%N (-8)%Z));
 ("units", VEnum "VelocityUnits" "KM_S" (lit "km/s"))])]]);
 ("user_defined_parameters", VNone)])])])].
(* ccsds_ndm/tests/data/kvn/502x0b2c1e2_fig3_4_opm.kvn *)
Definition kvn_502x0b2c1e2_fig3_4_opm : string := "CCSDS_OPM_VERS    =  2.0

COMMENT  Generated by GSOC, R. Kiehling
COMMENT  Current intermediate orbit IO2 and maneuver planning data

CREATION_DATE     =  2000-06-03T05:33:00.000
ORIGINATOR        =  GSOC
OBJECT_NAME       =  EUTELSAT W4
OBJECT_ID         =  2000-028A
CENTER_NAME       =  EARTH
REF_FRAME         =  TOD 
TIME_SYSTEM       =  UTC
COMMENT  State Vector 
EPOCH             =  2006-06-03T00:00:00.000 
X                 =    6655.9942        [km]
Y                 =  -40218.5751        [km]
Z                 =     -82.9177        [km]
X_DOT             =       3.11548208    [km/s]
Y_DOT             =       0.47042605    [km/s]
Z_DOT             =      -0.00101495    [km/s]

COMMENT  Keplerian elements
SEMI_MAJOR_AXIS   =   41399.5123        [km]
ECCENTRICITY      =       0.020842611
INCLINATION       =       0.117746      [deg]
RA_OF_ASC_NODE    =      17.604721      [deg]
ARG_OF_PERICENTER =     218.242943      [deg]
TRUE_ANOMALY      =      41.922339      [deg]
GM                =  398600.4415        [km**3/s**2]

COMMENT  Spacecraft parameters
MASS              =    1913.000         [kg]
SOLAR_RAD_AREA    =      10.000         [m**2]
SOLAR_RAD_COEFF   =       1.300
DRAG_AREA         =      10.000         [m**2]
DRAG_COEFF        =       2.300

COV_REF_FRAME = RTN
CX_X =  3.331349476038534e-04
CY_X =  4.618927349220216e-04
CY_Y =  6.782421679971363e-04
CZ_X =  -3.070007847730449e-04
CZ_Y =  -4.221234189514228e-04
CZ_Z =  3.231931992380369e-04
CX_DOT_X =  -3.349365033922630e-07
CX_DOT_Y =  -4.686084221046758e-07
CX_DOT_Z =  2.484949578400095e-07
CX_DOT_X_DOT =  4.296022805587290e-10
CY_DOT_X =  -2.211832501084875e-07
CY_DOT_Y =  -2.864186892102733e-07
CY_DOT_Z =  1.798098699846038e-07
CY_DOT_X_DOT =  2.608899201686016e-10
CY_DOT_Y_DOT =  1.767514756338532e-10
CZ_DOT_X =  -3.041346050686871e-07
CZ_DOT_Y =  -4.989496988610662e-07
CZ_DOT_Z =  3.540310904497689e-07
CZ_DOT_X_DOT =  1.869263192954590e-10
CZ_DOT_Y_DOT =  1.008862586240695e-10
CZ_DOT_Z_DOT =  6.224444338635500e-10

USER_DEFINED_EARTH_MODEL = WGS-84".
(* ccsds_ndm/tests/data/kvn/502x0b2c1e2_fig3_4_opm.xml *)
Definition obj_502x0b2c1e2_fig3_4_opm : pyval :=
 VObj "Opm" [("header", VObj "NdmHeader" [("comment", VList [VStr (lit "Generated by GSOC, R. Kiehling"); VStr (lit "Current intermediate orbit IO2 and maneuver planning data")]);
 ("creation_date", VStr (lit "2000-06-03T05:33:00.000"));
 ("originator", VStr (lit "GSOC"))]);
 ("body", VObj "OpmBody" [("segment", VObj "OpmSegment" [("metadata", VObj "OpmMetadata" [("comment", VList []);
 ("object_name", VStr (lit "EUTELSAT W4"));
 ("object_id", VStr (lit "2000-028A"));
 ("center_name", VStr (lit "EARTH"));
 ("ref_frame", VStr (lit "TOD"));
 ("ref_frame_epoch", VNone);
 ("time_system", VStr (lit "UTC"))]);
 ("data", VObj "OpmData" [("comment", VList [VStr (lit "State Vector")]);
 ("state_vector", VObj "StateVectorType" [("comment", VList []);
 ("epoch", VStr (lit "2006-06-03T00:00:00.000"));
 ("x", VObj "PositionType" [("value", VDec (DFin false 66559942%N (-4)%Z));
 ("units", VEnum "PositionUnits" "KM" (lit "km"))]);
 ("y", VObj "PositionType" [("value", VDec (DFin true 402185751%N (-4)%Z));
 ("units", VEnum "PositionUnits" "KM" (lit "km"))]);
 ("z", VObj "PositionType" [("value", VDec (DFin true 829177%N (-4)%Z));
 ("units", VEnum "PositionUnits" "KM" (lit "km"))]);
 ("x_dot", VObj "VelocityType" [("value", VDec (DFin false 311548208%N (-8)%Z));
 ("units", VEnum "VelocityUnits" "KM_S" (lit "km/s"))]);
 ("y_dot", VObj "VelocityType" [("value", VDec (DFin false 47042605%N (-8)%Z));
 ("units", VEnum "VelocityUnits" "KM_S" (lit "km/s"))]);
 ("z_dot", VObj "VelocityType" [("value", VDec (DFin true 101495%N (-8)%Z));
 ("units", VEnum "VelocityUnits" "KM_S" (lit "km/s"))])]);
 ("keplerian_elements", VObj "KeplerianElementsType" [("comment", VList [VStr (lit "Keplerian elements")]);
 ("semi_major_axis", VObj "DistanceType" [("value", VDec (DFin false 413995123%N (-4)%Z));
 ("units", VEnum "PositionUnits" "KM" (lit "km"))]);
 ("eccentricity", VDec (DFin false 20842611%N (-9)%Z));
 ("inclination", VObj "InclinationType" [("value", VDec (DFin false 117746%N (-6)%Z));
 ("units", VEnum "AngleUnits" "DEG" (lit "deg"))]);
 ("ra_of_asc_node", VObj "AngleType" [("value", VDec (DFin false 17604721%N (-6)%Z));
 ("units", VEnum "AngleUnits" "DEG" (lit "deg"))]);
 ("arg_of_pericenter", VObj "AngleType" [("value", VDec (DFin false 218242943%N (-6)%Z));
 ("units", VEnum "AngleUnits" "DEG" (lit "deg"))]);
 ("true_anomaly", VObj "AngleType" [("value", VDec (DFin false 41922339%N (-6)%Z));
 ("units", VEnum "AngleUnits" "DEG" (lit "deg"))]);
 ("mean_anomaly", VNone);
 ("gm", VObj "GmType" [("value", VDec (DFin false 3986004415%N (-4)%Z));
 ("units", VEnum "GmUnits" "KM_3_S_2" (lit "km**3/s**2"))])]);
 ("spacecraft_parameters", VObj "SpacecraftParametersType" [("comment", VList [VStr (lit "Spacecraft parameters")]);
 ("mass", VObj "MassType" [("value", VDec (DFin false 1913000%N (-3)%Z));
 ("units", VEnum "MassUnits" "KG" (lit "kg"))]);
 ("solar_rad_area", VObj "AreaType" [("value", VDec (DFin false 10000%N (-3)%Z));
 ("units", VEnum "AreaUnits" "M_2" (lit "m**2"))]);
 ("solar_rad_coeff", VDec (DFin false 1300%N (-3)%Z));
 ("drag_area", VObj "AreaType" [("value", VDec (DFin false 10000%N (-3)%Z));
 ("units", VEnum "AreaUnits" "M_2" (lit "m**2"))]);
 ("drag_coeff", VDec (DFin false 2300%N (-3)%Z))]);
 ("covariance_matrix", VObj "OpmCovarianceMatrixType" [("comment", VList []);
 ("cov_ref_frame", VStr (lit "RTN"));
 ("cx_x", VObj "PositionCovarianceType" [("value", VDec (DFin false 3331349476038534%N (-19)%Z));
 ("units", VNone)]);
 ("cy_x", VObj "PositionCovarianceType" [("value", VDec (DFin false 4618927349220216%N (-19)%Z));
 ("units", VNone)]);
 ("cy_y", VObj "PositionCovarianceType" [("value", VDec (DFin false 6782421679971363%N (-19)%Z));
 ("units", VNone)]);
 ("cz_x", VObj "PositionCovarianceType" [("value", VDec (DFin true 3070007847730449%N (-19)%Z));
 ("units", VNone)]);
 ("cz_y", VObj "PositionCovarianceType" [("value", VDec (DFin true 4221234189514228%N (-19)%Z));
 ("units", VNone)]);
 ("cz_z", VObj "PositionCovarianceType" [("value", VDec (DFin false 3231931992380369%N (-19)%Z));
 ("units", VNone)]);
 ("cx_dot_x", VObj "PositionVelocityCovarianceType" [("value", VDec (DFin true 3349365033922630%N (-22)%Z));
 ("units", VNone)]);
 ("cx_dot_y", VObj "PositionVelocityCovarianceType" [("value", VDec (DFin true 4686084221046758%N (-22)%Z));
 ("units", VNone)]);
 ("cx_dot_z", VObj "PositionVelocityCovarianceType" [("value", VDec (DFin false 2484949578400095%N (-22)%Z));
 ("units", VNone)]);
 ("cx_dot_x_dot", VObj "VelocityCovarianceType" [("value", VDec (DFin false 4296022805587290%N (-25)%Z));
 ("units", VNone)]);
 ("cy_dot_x", VObj "PositionVelocityCovarianceType" [("value", VDec (DFin true 2211832501084875%N (-22)%Z));
 ("units", VNone)]);
 ("cy_dot_y", VObj "PositionVelocityCovarianceType" [("value", VDec (DFin true 2864186892102733%N (-22)%Z));
 ("units", VNone)]);
 ("cy_dot_z", VObj "PositionVelocityCovarianceType" [("value", VDec (DFin false 1798098699846038%N (-22)%Z));
 ("units", VNone)]);
 ("cy_dot_x_dot", VObj "VelocityCovarianceType" [("value", VDec (DFin false 2608899201686016%N (-25)%Z));
 ("units", VNone)]);
 ("cy_dot_y_dot", VObj "VelocityCovarianceType" [("value", VDec (DFin false 1767514756338532%N (-25)%Z));
 ("units", VNone)]);
 ("cz_dot_x", VObj "PositionVelocityCovarianceType" [("value", VDec (DFin true 3041346050686871%N (-22)%Z));
 ("units", VNone)]);
 ("cz_dot_y", VObj "PositionVelocityCovarianceType" [("value", VDec (DFin true 4989496988610662%N (-22)%Z));
 ("units", VNone)]);
 ("cz_dot_z", VObj "PositionVelocityCovarianceType" [("value", VDec (DFin false 3540310904497689%N (-22)%Z));
 ("units", VNone)]);
 ("cz_dot_x_dot", VObj "VelocityCovarianceType" [("value", VDec (DFin false 1869263192954590%N (-25)%Z));
 ("units", VNone)]);
 ("cz_dot_y_dot", VObj "VelocityCovarianceType" [("value", VDec (DFin false 1008862586240695%N (-25)%Z));
 ("units", VNone)]);
 ("cz_dot_z_dot", VObj "VelocityCovarianceType" [("value", VDec (DFin false 6224444338635500%N (-25)%Z));
 ("units", VNone)])]);
 ("maneuver_parameters", VList []);
 ("user_defined_parameters", VObj "UserDefinedType" [("comment", VList []);
 ("user_defined", VList [VObj "UserDefinedParameterType" [("value", VStr (lit "WGS-84"));
 ("parameter", VStr (lit "EARTH_MODEL"))]])])])])])].
(* ccsds_ndm/tests/data/kvn/504x0b1c1_fig3_6_apm.kvn *)
Definition kvn_504x0b1c1_fig3_6_apm : string := "CCSDS_APM_VERS  = 1.0
CREATION_DATE   = 2006-03-13T13:13:33
ORIGINATOR      = GSFC

OBJECT_NAME     = GOES-P
OBJECT_ID       = 2006-003A
CENTER_NAME     = EARTH
TIME_SYSTEM     = UTC
COMMENT           GEOSYNCHRONOUS, CARTESIAN, EARTH FIXED

COMMENT OBJECT_ID: 2006-003A
COMMENT $ITIM = 2006 FEB 5 03:23:45.60000000, $ original launch time

COMMENT           Attitude state quaternion
EPOCH           = 2006-03-12T09:56:39.4987
Q_FRAME_A       = SC_BODY_1
Q_FRAME_B       = ITRF-97
Q_DIR           = A2B

QC              = 0.47832
Q1              = 0.03123
Q2              = 0.78543
Q3              = 0.39158

COMMENT           Euler rates
EULER_FRAME_A   = SC_BODY_1
EULER_FRAME_B   = ITRF-97
EULER_DIR       = A2B
EULER_ROT_SEQ   = 212
RATE_FRAME      = EULER_FRAME_A
Y_ANGLE         = -26.78 [deg ]
X_ANGLE         =  46.26 [deg ]
Y_ANGLE         = 144.10 [deg ]
Y_RATE          = 0.1045   [deg/s]
X_RATE          = 0.03214  [deg/s]
Y_RATE          = 0.02156  [deg/s]".
(* ccsds_ndm/tests/data/kvn/504x0b1c1_fig3_6_apm.xml *)
Definition obj_504x0b1c1_fig3_6_apm : pyval :=
 VObj "Apm" [("header", VObj "NdmHeader" [("comment", VList []);
 ("creation_date", VStr (lit "2006-03-13T13:13:33"));
 ("originator", VStr (lit "GSFC"))]);
 ("body", VObj "ApmBody" [("segment", VObj "ApmSegment" [("metadata", VObj "ApmMetadata" [("comment", VList []);
 ("object_name", VStr (lit "GOES-P"));
 ("object_id", VStr (lit "2006-003A"));
 ("center_name", VStr (lit "EARTH"));
 ("time_system", VEnum "TimeSystemType" "UTC" (lit "UTC"))]);
 ("data", VObj "ApmData" [("comment", VList [VStr (lit "GEOSYNCHRONOUS, CARTESIAN, EARTH FIXED")]);
 ("quaternion_state", VObj "QuaternionStateType" [("comment", VList [VStr (lit "OBJECT_ID: 2006-003A"); VStr (lit "$ITIM = 2006 FEB 5 03:23:45.60000000, $ original launch time"); VStr (lit "Attitude state quaternion")]);
 ("epoch", VStr (lit "2006-03-12T09:56:39.4987"));
 ("q_frame_a", VStr (lit "SC_BODY_1"));
 ("q_frame_b", VStr (lit "ITRF-97"));
 ("q_dir", VEnum "RotDirectionType" "A2_B" (lit "A2B"));
 ("quaternion", VObj "QuaternionType" [("qc", VDec (DFin false 47832%N (-5)%Z));
 ("q1", VDec (DFin false 3123%N (-5)%Z));
 ("q2", VDec (DFin false 78543%N (-5)%Z));
 ("q3", VDec (DFin false 39158%N (-5)%Z))]);
 ("quaternion_rate", VNone)]);
 ("euler_elements_three", VObj "EulerElementsThreeType" [("comment", VList [VStr (lit "Euler rates")]);
 ("euler_frame_a", VStr (lit "SC_BODY_1"));
 ("euler_frame_b", VStr (lit "ITRF-97"));
 ("euler_dir", VEnum "RotDirectionType" "A2_B" (lit "A2B"));
 ("euler_rot_seq", VEnum "RotseqType" "VALUE_212" (lit "212"));
 ("rate_frame", VEnum "ApmRateFrameType" "EULER_FRAME_A" (lit "EULER_FRAME_A"));
 ("rotation_angles", VObj "RotationAngleType" [("rotation1", VObj "RotationAngleComponentType" [("value", VDec (DFin true 2678%N (-2)%Z));
 ("angle", VEnum "AngleKeywordType" "Y_ANGLE" (lit "Y_ANGLE"));
 ("units", VEnum "AngleUnits" "DEG" (lit "deg"))]);
 ("rotation2", VObj "RotationAngleComponentType" [("value", VDec (DFin false 4626%N (-2)%Z));
 ("angle", VEnum "AngleKeywordType" "X_ANGLE" (lit "X_ANGLE"));
 ("units", VEnum "AngleUnits" "DEG" (lit "deg"))]);
 ("rotation3", VObj "RotationAngleComponentType" [("value", VDec (DFin false 14410%N (-2)%Z));
 ("angle", VEnum "AngleKeywordType" "Y_ANGLE" (lit "Y_ANGLE"));
 ("units", VEnum "AngleUnits" "DEG" (lit "deg"))])]);
 ("rotation_rates", VObj "RotationRateType" [("rotation1", VObj "RotationRateComponentType" [("value", VDec (DFin false 1045%N (-4)%Z));
 ("rate", VEnum "AngleRateKeywordType" "Y_RATE" (lit "Y_RATE"));
 ("units", VEnum "AngleRateUnits" "DEG_S" (lit "deg/s"))]);
 ("rotation2", VObj "RotationRateComponentType" [("value", VDec (DFin false 3214%N (-5)%Z));
 ("rate", VEnum "AngleRateKeywordType" "X_RATE" (lit "X_RATE"));
 ("units", VEnum "AngleRateUnits" "DEG_S" (lit "deg/s"))]);
 ("rotation3", VObj "RotationRateComponentType" [("value", VDec (DFin false 2156%N (-5)%Z));
 ("rate", VEnum "AngleRateKeywordType" "Y_RATE" (lit "Y_RATE"));
 ("units", VEnum "AngleRateUnits" "DEG_S" (lit "deg/s"))])])]);
 ("euler_elements_spin", VNone);
 ("spacecraft_parameters", VNone);
 ("maneuver_parameters", VList [])])])])].
(* ccsds_ndm/tests/data/kvn/504x0b1c1_fig3_8_apm.kvn *)
Definition kvn_504x0b1c1_fig3_8_apm : string := "CCSDS_APM_VERS  = 1.0
CREATION_DATE   = 2004-02-14T19:23:57
ORIGINATOR      = JPL
OBJECT_NAME     = MARS SPIRIT
OBJECT_ID       = 2004-003A
CENTER_NAME     = EARTH
TIME_SYSTEM     = UTC
COMMENT           GEOCENTRIC, CARTESIAN, EARTH FIXED

COMMENT OBJECT_ID: 2004-003
COMMENT  $ITIM  = 2004 JAN 14 22:26:18.400000, $ original launch time 14:36

COMMENT           Generated by JPL
COMMENT           Current attitude for orbit 20 and attitude maneuver
COMMENT           planning data.

COMMENT           Attitude state quaternion
EPOCH           = 2004-02-14T14:28:15.1172
Q_FRAME_A       = INSTRUMENT_A
Q_FRAME_B       = ITRF-97
Q_DIR           = A2B

QC              = 0.47832
Q1              = 0.03123
Q2              = 0.78543
Q3              = 0.39158

COMMENT           Attitude specified as Euler elements
EULER_FRAME_A   = INSTRUMENT_A
EULER_FRAME_B   = ITRF-97
EULER_DIR       = A2B
EULER_ROT_SEQ   = 312
RATE_FRAME      = EULER_FRAME_A
Z_ANGLE         = -53.3688 [deg]
X_ANGLE         = 139.7527 [deg]
Y_ANGLE         = 25.0658  [deg]
Z_RATE          = 0.02156  [deg/s]
X_RATE          = 0.1045   [deg/s]
Y_RATE          = 0.03214  [deg/s]

COMMENT           Spacecraft Parameters
I11             = 6080.0   [kg*m**2]
I22             = 5245.5   [kg*m**2]
I33             = 8067.3   [kg*m**2]
I12             = -135.9   [kg*m**2]
I13             = 89.3     [kg*m**2]
I23             = -90.7    [kg*m**2]

COMMENT           Data follows for 2 planned maneuvers.
COMMENT           First attitude maneuver for: MARS SPIRIT
COMMENT           Impulsive, torque direction fixed in body frame
MAN_EPOCH_START = 2004-02-14T14:29:00.5098
MAN_DURATION    = 3        [s]
MAN_REF_FRAME   = INSTRUMENT_A
MAN_TOR_1       = -1.25    [N*m]
MAN_TOR_2       = -0.5     [N*m]
MAN_TOR_3       = 0.5      [N*m]

COMMENT           Second attitude maneuver for: MARS SPIRIT
COMMENT           Impulsive, torque direction fixed in body frame
MAN_EPOCH_START = 2004-02-15T14:29:00.5098
MAN_DURATION    = 5        [s]
MAN_REF_FRAME   = INSTRUMENT_A
MAN_TOR_1       = -1.25    [N*m]
MAN_TOR_2       = -0.5     [N*m]
MAN_TOR_3       = 0.5      [N*m]".
(* ccsds_ndm/tests/data/kvn/504x0b1c1_fig3_8_apm.xml *)
Definition obj_504x0b1c1_fig3_8_apm : pyval :=
 VObj "Apm" [("header", VObj "NdmHeader" [("comment", VList []);
 ("creation_date", VStr (lit "2004-02-14T19:23:57"));
 ("originator", VStr (lit "JPL"))]);
 ("body", VObj "ApmBody" [("segment", VObj "ApmSegment" [("metadata", VObj "ApmMetadata" [("comment", VList []);
 ("object_name", VStr (lit "MARS SPIRIT"));
 ("object_id", VStr (lit "2004-003A"));
 ("center_name", VStr (lit "EARTH"));
 ("time_system", VEnum "TimeSystemType" "UTC" (lit "UTC"))]);
 ("data", VObj "ApmData" [("comment", VList [VStr (lit "GEOCENTRIC, CARTESIAN, EARTH FIXED")]);
 ("quaternion_state", VObj "QuaternionStateType" [("comment", VList [VStr (lit "OBJECT_ID: 2004-003"); VStr (lit "$ITIM  = 2004 JAN 14 22:26:18.400000, $ original launch time 14:36"); VStr (lit "Generated by JPL"); VStr (lit "Current attitude for orbit 20 and attitude maneuver"); VStr (lit "planning data."); VStr (lit "Attitude state quaternion")]);
 ("epoch", VStr (lit "2004-02-14T14:28:15.1172"));
 ("q_frame_a", VStr (lit "INSTRUMENT_A"));
 ("q_frame_b", VStr (lit "ITRF-97"));
 ("q_dir", VEnum "RotDirectionType" "A2_B" (lit "A2B"));
 ("quaternion", VObj "QuaternionType" [("qc", VDec (DFin false 47832%N (-5)%Z));
 ("q1", VDec (DFin false 3123%N (-5)%Z));
 ("q2", VDec (DFin false 78543%N (-5)%Z));
 ("q3", VDec (DFin false 39158%N (-5)%Z))]);
 ("quaternion_rate", VNone)]);
 ("euler_elements_three", VObj "EulerElementsThreeType" [("comment", VList [VStr (lit "Attitude specified as Euler elements")]);
 ("euler_frame_a", VStr (lit "INSTRUMENT_A"));
 ("euler_frame_b", VStr (lit "ITRF-97"));
 ("euler_dir", VEnum "RotDirectionType" "A2_B" (lit "A2B"));
 ("euler_rot_seq", VEnum "RotseqType" "VALUE_312" (lit "312"));
 ("rate_frame", VEnum "ApmRateFrameType" "EULER_FRAME_A" (lit "EULER_FRAME_A"));
 ("rotation_angles", VObj "RotationAngleType" [("rotation1", VObj "RotationAngleComponentType" [("value", VDec (DFin true 533688%N (-4)%Z));
 ("angle", VEnum "AngleKeywordType" "Z_ANGLE" (lit "Z_ANGLE"));
 ("units", VEnum "AngleUnits" "DEG" (lit "deg"))]);
 ("rotation2", VObj "RotationAngleComponentType" [("value", VDec (DFin false 1397527%N (-4)%Z));
 ("angle", VEnum "AngleKeywordType" "X_ANGLE" (lit "X_ANGLE"));
 ("units", VEnum "AngleUnits" "DEG" (lit "deg"))]);
 ("rotation3", VObj "RotationAngleComponentType" [("value", VDec (DFin false 250658%N (-4)%Z));
 ("angle", VEnum "AngleKeywordType" "Y_ANGLE" (lit "Y_ANGLE"));
 ("units", VEnum "AngleUnits" "DEG" (lit "deg"))])]);
 ("rotation_rates", VObj "RotationRateType" [("rotation1", VObj "RotationRateComponentType" [("value", VDec (DFin false 2156%N (-5)%Z));
 ("rate", VEnum "AngleRateKeywordType" "Z_RATE" (lit "Z_RATE"));
 ("units", VEnum "AngleRateUnits" "DEG_S" (lit "deg/s"))]);
 ("rotation2", VObj "RotationRateComponentType" [("value", VDec (DFin false 1045%N (-4)%Z));
 ("rate", VEnum "AngleRateKeywordType" "X_RATE" (lit "X_RATE"));
 ("units", VEnum "AngleRateUnits" "DEG_S" (lit "deg/s"))]);
 ("rotation3", VObj "RotationRateComponentType" [("value", VDec (DFin false 3214%N (-5)%Z));
 ("rate", VEnum "AngleRateKeywordType" "Y_RATE" (lit "Y_RATE"));
 ("units", VEnum "AngleRateUnits" "DEG_S" (lit "deg/s"))])])]);
 ("euler_elements_spin", VNone);
 ("spacecraft_parameters", VObj "AttSpacecraftParametersType" [("comment", VList [VStr (lit "Spacecraft Parameters")]);
 ("inertia_ref_frame", VNone);
 ("i11", VObj "MomentType" [("value", VDec (DFin false 60800%N (-1)%Z));
 ("units", VEnum "MomentUnits" "KG_M_2" (lit "kg*m**2"))]);
 ("i22", VObj "MomentType" [("value", VDec (DFin false 52455%N (-1)%Z));
 ("units", VEnum "MomentUnits" "KG_M_2" (lit "kg*m**2"))]);
 ("i33", VObj "MomentType" [("value", VDec (DFin false 80673%N (-1)%Z));
 ("units", VEnum "MomentUnits" "KG_M_2" (lit "kg*m**2"))]);
 ("i12", VObj "MomentType" [("value", VDec (DFin true 1359%N (-1)%Z));
 ("units", VEnum "MomentUnits" "KG_M_2" (lit "kg*m**2"))]);
 ("i13", VObj "MomentType" [("value", VDec (DFin false 893%N (-1)%Z));
 ("units", VEnum "MomentUnits" "KG_M_2" (lit "kg*m**2"))]);
 ("i23", VObj "MomentType" [("value", VDec (DFin true 907%N (-1)%Z));
 ("units", VEnum "MomentUnits" "KG_M_2" (lit "kg*m**2"))])]);
 ("maneuver_parameters", VList [VObj "AttManeuverParametersType" [("comment", VList [VStr (lit "Data follows for 2 planned maneuvers."); VStr (lit "First attitude maneuver for: MARS SPIRIT"); VStr (lit "Impulsive, torque direction fixed in body frame")]);
 ("man_epoch_start", VStr (lit "2004-02-14T14:29:00.5098"));
 ("man_duration", VObj "DurationType" [("value", VDec (DFin false 3%N (0)%Z));
 ("units", VEnum "TimeUnits" "S" (lit "s"))]);
 ("man_ref_frame", VStr (lit "INSTRUMENT_A"));
 ("man_tor_1", VObj "TorqueType" [("value", VDec (DFin true 125%N (-2)%Z));
 ("units", VEnum "TorqueUnits" "N_M" (lit "N*m"))]);
 ("man_tor_2", VObj "TorqueType" [("value", VDec (DFin true 5%N (-1)%Z));
 ("units", VEnum "TorqueUnits" "N_M" (lit "N*m"))]);
 ("man_tor_3", VObj "TorqueType" [("value", VDec (DFin false 5%N (-1)%Z));
 ("units", VEnum "TorqueUnits" "N_M" (lit "N*m"))])]; VObj "AttManeuverParametersType" [("comment", VList [VStr (lit "Second attitude maneuver for: MARS SPIRIT"); VStr (lit "Impulsive, torque direction fixed in body frame")]);
 ("man_epoch_start", VStr (lit "2004-02-15T14:29:00.5098"));
 ("man_duration", VObj "DurationType" [("value", VDec (DFin false 5%N (0)%Z));
 ("units", VEnum "TimeUnits" "S" (lit "s"))]);
 ("man_ref_frame", VStr (lit "INSTRUMENT_A"));
 ("man_tor_1", VObj "TorqueType" [("value", VDec (DFin true 125%N (-2)%Z));
 ("units", VEnum "TorqueUnits" "N_M" (lit "N*m"))]);
 ("man_tor_2", VObj "TorqueType" [("value", VDec (DFin true 5%N (-1)%Z));
 ("units", VEnum "TorqueUnits" "N_M" (lit "N*m"))]);
 ("man_tor_3", VObj "TorqueType" [("value", VDec (DFin false 5%N (-1)%Z));
 ("units", VEnum "TorqueUnits" "N_M" (lit "N*m"))])]])])])])].
(* ccsds_ndm/tests/data/kvn/508x1b1_figc_2_rdm.kvn *)
Definition kvn_508x1b1_figc_2_rdm : string := "CCSDS_RDM_VERS              = 1.0
COMMENT = This is RDM Annex C KVN Fig C-2
CREATION_DATE               = 2018-04-22T09:31:34.00
ORIGINATOR                  = ESA
MESSAGE_ID                  = ESA/20180422-001

OBJECT_NAME                 = SPACEOBJECT
INTERNATIONAL_DESIGNATOR    = 2018-099B
CATALOG_NAME                = SATCAT
OBJECT_DESIGNATOR           = 81594
OBJECT_TYPE                 = ROCKET BODY
OBJECT_OWNER                = ESA
CONTROLLED_REENTRY          = NO
CENTER_NAME                 = EARTH
TIME_SYSTEM                 = UTC
EPOCH_TZERO                 = 2018-04-22T09:00:00.00
REF_FRAME                   = EME2000
GRAVITY_MODEL               = EGM-96: 36D 36O
ATMOSPHERIC_MODEL           = NRLMSISE-00
N_BODY_PERTURBATIONS        = MOON
SOLAR_RAD_PRESSURE          = NO
EARTH_TIDES                 = ESR
INTRACK_THRUST              = NO
REENTRY_DISINTEGRATION      = MASS-LOSS + BREAK-UP
PREVIOUS_MESSAGE_ID         = ESA/20180421-007
NEXT_MESSAGE_EPOCH          = 2018-04-23T09:00:00

COMMENT Short term re-entry prediction results
ORBIT_LIFETIME              = 5.5                           [d]
REENTRY_ALTITUDE            = 80.0                          [km]
NOMINAL_REENTRY_EPOCH       = 2018-04-27T19:45:33
REENTRY_WINDOW_START        = 2018-04-27T11:45:33
REENTRY_WINDOW_END          = 2018-04-27T22:12:56
PROBABILITY_OF_IMPACT       = 0.0
PROBABILITY_OF_BURN_UP      = 1.0

COMMENT State vector at the last OD epoch
EPOCH                       = 2018-04-22T09:30:12
X                           = 4000.000000                   [km]
Y                           = 4000.000000                   [km]
Z                           = 4000.000000                   [km]
X_DOT                       = 7.000000                      [km/s]
Y_DOT                       = 7.000000                      [km/s]
Z_DOT                       = 7.000000                      [km/s]

COMMENT Position/velocity covariance matrix at last OD epoch
COV_REF_FRAME               = RTN
CX_X                        = 0.10000                       [km**2]  
CY_X                        = 0.10000                       [km**2]
CY_Y                        = 0.10000                       [km**2]
CZ_X                        = 0.10000                       [km**2]
CZ_Y                        = 0.10000                       [km**2]
CZ_Z                        = 0.10000                       [km**2]
CX_DOT_X                    = 0.02000                       [km**2/s]
CX_DOT_Y                    = 0.02000                       [km**2/s]
CX_DOT_Z                    = 0.02000                       [km**2/s]
CX_DOT_X_DOT                = 0.00600                       [km**2/s**2]
CY_DOT_X                    = 0.02000                       [km**2/s]
CY_DOT_Y                    = 0.02000                       [km**2/s]
CY_DOT_Z                    = 0.02000                       [km**2/s]
CY_DOT_X_DOT                = 0.00600                       [km**2/s**2]
CY_DOT_Y_DOT                = 0.00600                       [km**2/s**2]
CZ_DOT_X                    = 0.02000                       [km**2/s]
CZ_DOT_Y                    = 0.02000                       [km**2/s]
CZ_DOT_Z                    = 0.02000                       [km**2/s]
CZ_DOT_X_DOT                = 0.00400                       [km**2/s**2]
CZ_DOT_Y_DOT                = 0.00400                       [km**2/s**2]
CZ_DOT_Z_DOT                = 0.00400                       [km**2/s**2]

COMMENT Spacecraft parameters used in OD and re-entry prediction
WET_MASS                    = 3582                          [kg]
DRAG_AREA                   = 23.3565                       [m**2]
DRAG_COEFF                  = 2.2634

COMMENT OD parameters from batch orbit determination
ACTUAL_OD_SPAN              = 3.4554                        [d]
 TRACKS_AVAILABLE            = 18
 TRACKS_USED                 = 17
".
(* ccsds_ndm/tests/data/kvn/508x1b1_figc_2_rdm.xml *)
Definition obj_508x1b1_figc_2_rdm : pyval :=
 VObj "Rdm" [("header", VObj "RdmHeader" [("comment", VList [VStr (lit "This is RDM Annex C KVN Fig C-2")]);
 ("creation_date", VStr (lit "2018-04-22T09:31:34.00"));
 ("originator", VStr (lit "ESA"));
 ("message_id", VStr (lit "ESA/20180422-001"))]);
 ("body", VObj "RdmBody" [("segment", VObj "RdmSegment" [("metadata", VObj "RdmMetadata" [("comment", VList []);
 ("object_name", VStr (lit "SPACEOBJECT"));
 ("international_designator", VStr (lit "2018-099B"));
 ("catalog_name", VStr (lit "SATCAT"));
 ("object_designator", VStr (lit "81594"));
 ("object_type", VEnum "ObjectDescriptionType" "ROCKET_BODY" (lit "ROCKET BODY"));
 ("object_owner", VStr (lit "ESA"));
 ("object_operator", VNone);
 ("controlled_reentry", VEnum "ControlledType" "NO" (lit "NO"));
 ("center_name", VStr (lit "EARTH"));
 ("time_system", VStr (lit "UTC"));
 ("epoch_tzero", VStr (lit "2018-04-22T09:00:00.00"));
 ("ref_frame", VStr (lit "EME2000"));
 ("ref_frame_epoch", VNone);
 ("ephemeris_name", VNone);
 ("gravity_model", VStr (lit "EGM-96: 36D 36O"));
 ("atmospheric_model", VStr (lit "NRLMSISE-00"));
 ("solar_flux_prediction", VNone);
 ("n_body_perturbations", VStr (lit "MOON"));
 ("solar_rad_pressure", VStr (lit "NO"));
 ("earth_tides", VStr (lit "ESR"));
 ("intrack_thrust", VEnum "YesNoType" "NO" (lit "NO"));
 ("drag_parameters_source", VNone);
 ("drag_parameters_altitude", VNone);
 ("reentry_uncertainty_method", VNone);
 ("reentry_disintegration", VEnum "DisintegrationType" "MASS_LOSS_BREAK_UP" (lit "MASS-LOSS + BREAK-UP"));
 ("impact_uncertainty_method", VNone);
 ("previous_message_id", VStr (lit "ESA/20180421-007"));
 ("previous_message_epoch", VNone);
 ("next_message_epoch", VStr (lit "2018-04-23T09:00:00"))]);
 ("data", VObj "RdmData" [("comment", VList [VStr (lit "Short term re-entry prediction results")]);
 ("atmospheric_reentry_parameters", VObj "AtmosphericReentryParametersType" [("comment", VList []);
 ("orbit_lifetime", VObj "DayIntervalType" [("value", VDec (DFin false 55%N (-1)%Z));
 ("units", VEnum "DayIntervalUnits" "D" (lit "d"))]);
 ("reentry_altitude", VObj "PositionType" [("value", VDec (DFin false 800%N (-1)%Z));
 ("units", VEnum "PositionUnits" "KM" (lit "km"))]);
 ("orbit_lifetime_window_start", VNone);
 ("orbit_lifetime_window_end", VNone);
 ("nominal_reentry_epoch", VStr (lit "2018-04-27T19:45:33"));
 ("reentry_window_start", VStr (lit "2018-04-27T11:45:33"));
 ("reentry_window_end", VStr (lit "2018-04-27T22:12:56"));
 ("orbit_lifetime_confidence_level", VNone)]);
 ("ground_impact_parameters", VObj "GroundImpactParametersType" [("comment", VList []);
 ("probability_of_impact", VDec (DFin false 0%N (-1)%Z));
 ("probability_of_burn_up", VDec (DFin false 10%N (-1)%Z));
 ("probability_of_break_up", VNone);
 ("probability_of_land_impact", VNone);
 ("probability_of_casualty", VNone);
 ("nominal_impact_epoch", VNone);
 ("impact_window_start", VNone);
 ("impact_window_end", VNone);
 ("impact_ref_frame", VNone);
 ("nominal_impact_lon", VNone);
 ("nominal_impact_lat", VNone);
 ("nominal_impact_alt", VNone);
 ("impact_1_confidence", VNone);
 ("impact_1_start_lon", VNone);
 ("impact_1_start_lat", VNone);
 ("impact_1_stop_lon", VNone);
 ("impact_1_stop_lat", VNone);
 ("impact_1_cross_track", VNone);
 ("impact_2_confidence", VNone);
 ("impact_2_start_lon", VNone);
 ("impact_2_start_lat", VNone);
 ("impact_2_stop_lon", VNone);
 ("impact_2_stop_lat", VNone);
 ("impact_2_cross_track", VNone);
 ("impact_3_confidence", VNone);
 ("impact_3_start_lon", VNone);
 ("impact_3_start_lat", VNone);
 ("impact_3_stop_lon", VNone);
 ("impact_3_stop_lat", VNone);
 ("impact_3_cross_track", VNone)]);
 ("state_vector", VObj "StateVectorType" [("comment", VList [VStr (lit "State vector at the last OD epoch")]);
 ("epoch", VStr (lit "2018-04-22T09:30:12"));
 ("x", VObj "PositionType" [("value", VDec (DFin false 4000000000%N (-6)%Z));
 ("units", VEnum "PositionUnits" "KM" (lit "km"))]);
 ("y", VObj "PositionType" [("value", VDec (DFin false 4000000000%N (-6)%Z));
 ("units", VEnum "PositionUnits" "KM" (lit "km"))]);
 ("z", VObj "PositionType" [("value", VDec (DFin false 4000000000%N (-6)%Z));
 ("units", VEnum "PositionUnits" "KM" (lit "km"))]);
 ("x_dot", VObj "VelocityType" [("value", VDec (DFin false 7000000%N (-6)%Z));
 ("units", VEnum "VelocityUnits" "KM_S" (lit "km/s"))]);
 ("y_dot", VObj "VelocityType" [("value", VDec (DFin false 7000000%N (-6)%Z));
 ("units", VEnum "VelocityUnits" "KM_S" (lit "km/s"))]);
 ("z_dot", VObj "VelocityType" [("value", VDec (DFin false 7000000%N (-6)%Z));
 ("units", VEnum "VelocityUnits" "KM_S" (lit "km/s"))])]);
 ("covariance_matrix", VObj "OpmCovarianceMatrixType" [("comment", VList [VStr (lit "Position/velocity covariance matrix at last OD epoch")]);
 ("cov_ref_frame", VStr (lit "RTN"));
 ("cx_x", VObj "PositionCovarianceType" [("value", VDec (DFin false 10000%N (-5)%Z));
 ("units", VEnum "PositionCovarianceUnits" "KM_2" (lit "km**2"))]);
 ("cy_x", VObj "PositionCovarianceType" [("value", VDec (DFin false 10000%N (-5)%Z));
 ("units", VEnum "PositionCovarianceUnits" "KM_2" (lit "km**2"))]);
 ("cy_y", VObj "PositionCovarianceType" [("value", VDec (DFin false 10000%N (-5)%Z));
 ("units", VEnum "PositionCovarianceUnits" "KM_2" (lit "km**2"))]);
 ("cz_x", VObj "PositionCovarianceType" [("value", VDec (DFin false 10000%N (-5)%Z));
 ("units", VEnum "PositionCovarianceUnits" "KM_2" (lit "km**2"))]);
 ("cz_y", VObj "PositionCovarianceType" [("value", VDec (DFin false 10000%N (-5)%Z));
 ("units", VEnum "PositionCovarianceUnits" "KM_2" (lit "km**2"))]);
 ("cz_z", VObj "PositionCovarianceType" [("value", VDec (DFin false 10000%N (-5)%Z));
 ("units", VEnum "PositionCovarianceUnits" "KM_2" (lit "km**2"))]);
 ("cx_dot_x", VObj "PositionVelocityCovarianceType" [("value", VDec (DFin false 2000%N (-5)%Z));
 ("units", VEnum "PositionVelocityCovarianceUnits" "KM_2_S" (lit "km**2/s"))]);
 ("cx_dot_y", VObj "PositionVelocityCovarianceType" [("value", VDec (DFin false 2000%N (-5)%Z));
 ("units", VEnum "PositionVelocityCovarianceUnits" "KM_2_S" (lit "km**2/s"))]);
 ("cx_dot_z", VObj "PositionVelocityCovarianceType" [("value", VDec (DFin false 2000%N (-5)%Z));
 ("units", VEnum "PositionVelocityCovarianceUnits" "KM_2_S" (lit "km**2/s"))]);
 ("cx_dot_x_dot", VObj "VelocityCovarianceType" [("value", VDec (DFin false 600%N (-5)%Z));
 ("units", VEnum "VelocityCovarianceUnits" "KM_2_S_2" (lit "km**2/s**2"))]);
 ("cy_dot_x", VObj "PositionVelocityCovarianceType" [("value", VDec (DFin false 2000%N (-5)%Z));
 ("units", VEnum "PositionVelocityCovarianceUnits" "KM_2_S" (lit "km**2/s"))]);
 ("cy_dot_y", VObj "PositionVelocityCovarianceType" [("value", VDec (DFin false 2000%N (-5)%Z));
 ("units", VEnum "PositionVelocityCovarianceUnits" "KM_2_S" (lit "km**2/s"))]);
 ("cy_dot_z", VObj "PositionVelocityCovarianceType" [("value", VDec (DFin false 2000%N (-5)%Z));
 ("units", VEnum "PositionVelocityCovarianceUnits" "KM_2_S" (lit "km**2/s"))]);
 ("cy_dot_x_dot", VObj "VelocityCovarianceType" [("value", VDec (DFin false 600%N (-5)%Z));
 ("units", VEnum "VelocityCovarianceUnits" "KM_2_S_2" (lit "km**2/s**2"))]);
 ("cy_dot_y_dot", VObj "VelocityCovarianceType" [("value", VDec (DFin false 600%N (-5)%Z));
 ("units", VEnum "VelocityCovarianceUnits" "KM_2_S_2" (lit "km**2/s**2"))]);
 ("cz_dot_x", VObj "PositionVelocityCovarianceType" [("value", VDec (DFin false 2000%N (-5)%Z));
 ("units", VEnum "PositionVelocityCovarianceUnits" "KM_2_S" (lit "km**2/s"))]);
 ("cz_dot_y", VObj "PositionVelocityCovarianceType" [("value", VDec (DFin false 2000%N (-5)%Z));
 ("units", VEnum "PositionVelocityCovarianceUnits" "KM_2_S" (lit "km**2/s"))]);
 ("cz_dot_z", VObj "PositionVelocityCovarianceType" [("value", VDec (DFin false 2000%N (-5)%Z));
 ("units", VEnum "PositionVelocityCovarianceUnits" "KM_2_S" (lit "km**2/s"))]);
 ("cz_dot_x_dot", VObj "VelocityCovarianceType" [("value", VDec (DFin false 400%N (-5)%Z));
 ("units", VEnum "VelocityCovarianceUnits" "KM_2_S_2" (lit "km**2/s**2"))]);
 ("cz_dot_y_dot", VObj "VelocityCovarianceType" [("value", VDec (DFin false 400%N (-5)%Z));
 ("units", VEnum "VelocityCovarianceUnits" "KM_2_S_2" (lit "km**2/s**2"))]);
 ("cz_dot_z_dot", VObj "VelocityCovarianceType" [("value", VDec (DFin false 400%N (-5)%Z));
 ("units", VEnum "VelocityCovarianceUnits" "KM_2_S_2" (lit "km**2/s**2"))])]);
 ("spacecraft_parameters", VObj "RdmSpacecraftParametersType" [("comment", VList [VStr (lit "Spacecraft parameters used in OD and re-entry prediction")]);
 ("wet_mass", VObj "MassType" [("value", VDec (DFin false 3582%N (0)%Z));
 ("units", VEnum "MassUnits" "KG" (lit "kg"))]);
 ("dry_mass", VNone);
 ("hazardous_substances", VNone);
 ("solar_rad_area", VNone);
 ("solar_rad_coeff", VNone);
 ("drag_area", VObj "AreaType" [("value", VDec (DFin false 233565%N (-4)%Z));
 ("units", VEnum "AreaUnits" "M_2" (lit "m**2"))]);
 ("drag_coeff", VDec (DFin false 22634%N (-4)%Z));
 ("rcs", VNone);
 ("ballistic_coeff", VNone);
 ("thrust_acceleration", VNone)]);
 ("od_parameters", VObj "OdParametersType" [("comment", VList [VStr (lit "OD parameters from batch orbit determination")]);
 ("time_lastob_start", VNone);
 ("time_lastob_end", VNone);
 ("recommended_od_span", VNone);
 ("actual_od_span", VObj "DayIntervalType" [("value", VDec (DFin false 34554%N (-4)%Z));
 ("units", VEnum "DayIntervalUnits" "D" (lit "d"))]);
 ("obs_available", VNone);
 ("obs_used", VNone);
 ("tracks_available", VInt (18)%Z);
 ("tracks_used", VInt (17)%Z);
 ("residuals_accepted", VNone);
 ("weighted_rms", VNone)]);
 ("user_defined_parameters", VNone)])])])].
(* ccsds_ndm/tests/data/kvn/adm-testcase04a_abbrev.kvn *)
Definition kvn_adm_testcase04a_abbrev : string := "CCSDS_AEM_VERS	= 1.0
COMMENT   AEM Implementation Test - Attempt 2
COMMENT   Euler angle rates have been corrected
CREATION_DATE	= 2007-10-03T13:25:00
ORIGINATOR	= GSFC

META_START
COMMENT	TRMM Attitude history beginning at 2003-03-04T12:00:00
COMMENT	Attitude requires an OEM for full processing
COMMENT	OEM provided for this message is trmm_oem_20030304_1200_1305.txt
OBJECT_NAME		= TRMM
OBJECT_ID		= 1997-009A
CENTER_NAME		= EARTH
REF_FRAME_A		= SC_BODY
REF_FRAME_B		= LVLH
ATTITUDE_DIR		= B2A
TIME_SYSTEM		= TOD
START_TIME		= 2003-03-04T12:00:00.0
STOP_TIME		= 2003-03-04T12:00:47.5
ATTITUDE_TYPE		= EULER_ANGLE/RATE
EULER_ROT_SEQ		= 321
RATE_FRAME		= REF_FRAME_A
META_STOP

DATA_START

2003-03-04T12:00:00.500  0.01626368 -0.01791928  0.00945166  0.00008895 -0.00031400  0.00003118
2003-03-04T12:00:01.000  0.01626462 -0.01791804  0.00944837  0.00008895 -0.00031403  0.00003118
2003-03-04T12:00:01.500  0.01626556 -0.01791682  0.00944509  0.00008895 -0.00031406  0.00003118
2003-03-04T12:00:02.000  0.01626649 -0.01791560  0.00944180  0.00008895 -0.00031408  0.00003118
2003-03-04T12:00:02.500  0.01626743 -0.01791440  0.00943852  0.00008895 -0.00031411  0.00003118
2003-03-04T12:00:03.000  0.01626837 -0.01791320  0.00943523  0.00008895 -0.00031414  0.00003118
2003-03-04T12:00:03.500  0.01626929 -0.01791203  0.00943199  0.00008985  0.00057424  0.00002968
2003-03-04T12:00:04.000  0.01627023 -0.01791085  0.00942871  0.00008895 -0.00031420  0.00003118
2003-03-04T12:00:04.500  0.01627117 -0.01790968  0.00942542  0.00008895 -0.00031442  0.00003118
2003-03-04T12:00:05.000  0.01627211 -0.01790851  0.00942214  0.00008895 -0.00031445  0.00003118
2003-03-04T12:00:05.500  0.01627305 -0.01790736  0.00941886  0.00008895 -0.00031447  0.00003118
2003-03-04T12:00:06.000  0.01627397 -0.01790623  0.00941562  0.00008985  0.00057392  0.00002968
2003-03-04T12:00:06.500  0.01627491 -0.01790517  0.00941233  0.00008955 -0.00031644 -0.00085693
2003-03-04T12:00:07.000  0.01627585 -0.01790404  0.00940904  0.00008895 -0.00031455  0.00003118
2003-03-04T12:00:07.500  0.01627679 -0.01790292  0.00940576  0.00008895 -0.00031457  0.00003118
2003-03-04T12:00:08.000  0.01627769 -0.01790164  0.00940248  0.00097745 -0.00031508  0.00003034
2003-03-04T12:00:08.500  0.01627863 -0.01790054  0.00939920  0.00008895 -0.00031485  0.00003118
2003-03-04T12:00:09.000  0.01627957 -0.01789944  0.00939591  0.00008895 -0.00031488  0.00003118
2003-03-04T12:00:09.500  0.01628051 -0.01789836  0.00939263  0.00008895 -0.00031491  0.00003118
2003-03-04T12:00:10.000  0.01628145 -0.01789729  0.00938935  0.00008895 -0.00031494  0.00003118
2003-03-04T12:00:10.500  0.01628239 -0.01789622  0.00938606  0.00008895 -0.00031496  0.00003118
2003-03-04T12:00:11.000  0.01628332 -0.01789518  0.00938282  0.00008985  0.00057342  0.00002968
2003-03-04T12:00:11.500  0.01628426 -0.01789413  0.00937954  0.00008895 -0.00031502  0.00003118
2003-03-04T12:00:12.000  0.01628520 -0.01789309  0.00937626  0.00008895 -0.00031461  0.00003118
2003-03-04T12:00:12.500  0.01628614 -0.01789206  0.00937297  0.00008895 -0.00031523  0.00003118
2003-03-04T12:00:13.000  0.01628708 -0.01789104  0.00936969  0.00008895 -0.00031525  0.00003118
2003-03-04T12:00:13.500  0.01628802 -0.01789003  0.00936640  0.00008895 -0.00031528  0.00003118
2003-03-04T12:00:14.000  0.01628896 -0.01788903  0.00936312  0.00008895 -0.00031530  0.00003118
2003-03-04T12:00:14.500  0.01628989 -0.01788804  0.00935988  0.00008985  0.00057309  0.00002968
2003-03-04T12:00:15.000  0.01629083 -0.01788706  0.00935660  0.00008895 -0.00031535  0.00003118
2003-03-04T12:00:15.500  0.01629177 -0.01788608  0.00935332  0.00008895 -0.00031538  0.00003118
2003-03-04T12:00:16.000  0.01629267 -0.01788494  0.00935004  0.00097745 -0.00031549  0.00003034
2003-03-04T12:00:16.500  0.01629362 -0.01788398  0.00934676  0.00008895 -0.00031562  0.00003118
2003-03-04T12:00:17.000  0.01629456 -0.01788302  0.00934348  0.00008895 -0.00031565  0.00003118
2003-03-04T12:00:17.500  0.01629550 -0.01788208  0.00934019  0.00008895 -0.00031567  0.00003118
2003-03-04T12:00:18.000  0.01629644 -0.01788115  0.00933691  0.00008895 -0.00031570  0.00003118
2003-03-04T12:00:18.500  0.01629738 -0.01788022  0.00933363  0.00008895 -0.00031572  0.00003118
2003-03-04T12:00:19.000  0.01629831 -0.01787932  0.00933039  0.00008985  0.00057267  0.00002968
2003-03-04T12:00:19.500  0.01629925 -0.01787841  0.00932711  0.00008895 -0.00031577  0.00003118
2003-03-04T12:00:20.000  0.01630020 -0.01787752  0.00932383  0.00008895 -0.00031501  0.00003118
2003-03-04T12:00:20.500  0.01630114 -0.01787663  0.00932054  0.00008895 -0.00031606  0.00003118
2003-03-04T12:00:21.000  0.01630208 -0.01787574  0.00931726  0.00008895 -0.00031609  0.00003118
2003-03-04T12:00:21.500  0.01630301 -0.01787488  0.00931402  0.00008985  0.00057230  0.00002968
2003-03-04T12:00:22.000  0.01630395 -0.01787402  0.00931074  0.00008895 -0.00031614  0.00003118
2003-03-04T12:00:22.500  0.01630490 -0.01787317  0.00930746  0.00008895 -0.00031617  0.00003118
2003-03-04T12:00:23.000  0.01630584 -0.01787232  0.00930418  0.00008895 -0.00031619  0.00003118
2003-03-04T12:00:23.500  0.01630678 -0.01787148  0.00930090  0.00008895 -0.00031622  0.00003118
2003-03-04T12:00:24.000  0.01630772 -0.01787065  0.00929762  0.00008895 -0.00031521  0.00003118
2003-03-04T12:00:24.500  0.01630863 -0.01786966  0.00929434  0.00097745 -0.00031708  0.00003034
2003-03-04T12:00:25.000  0.01630958 -0.01786885  0.00929106  0.00008895 -0.00031643  0.00003118
2003-03-04T12:00:25.500  0.01631052 -0.01786804  0.00928778  0.00008895 -0.00031645  0.00003118
2003-03-04T12:00:26.000  0.01631146 -0.01786725  0.00928450  0.00008895 -0.00031648  0.00003118
2003-03-04T12:00:26.500  0.01631239 -0.01786648  0.00928126  0.00008985  0.00057191  0.00002968
2003-03-04T12:00:27.000  0.01631334 -0.01786570  0.00927798  0.00008895 -0.00031653  0.00003118
2003-03-04T12:00:27.500  0.01631428 -0.01786493  0.00927470  0.00008895 -0.00031655  0.00003118
2003-03-04T12:00:28.000  0.01631523 -0.01786418  0.00927142  0.00008895 -0.00031541  0.00003118
2003-03-04T12:00:28.500  0.01631617 -0.01786343  0.00926814  0.00008895 -0.00031675  0.00003118
2003-03-04T12:00:29.000  0.01631711 -0.01786269  0.00926486  0.00008895 -0.00031677  0.00003118
2003-03-04T12:00:29.500  0.01631806 -0.01786195  0.00926158  0.00008895 -0.00031679  0.00003118
2003-03-04T12:00:30.000  0.01631900 -0.01786123  0.00925830  0.00008895 -0.00031682  0.00003118
2003-03-04T12:00:30.500  0.01631994 -0.01786052  0.00925507  0.00008985  0.00057157  0.00002968
2003-03-04T12:00:31.000  0.01632088 -0.01785982  0.00925179  0.00008895 -0.00031686  0.00003118
2003-03-04T12:00:31.500  0.01632182 -0.01785912  0.00924851  0.00008895 -0.00031689  0.00003118
2003-03-04T12:00:32.000  0.01632277 -0.01785843  0.00924523  0.00008895 -0.00031560  0.00003118
2003-03-04T12:00:32.500  0.01632368 -0.01785764  0.00924195  0.00097804 -0.00031973 -0.00085776
2003-03-04T12:00:33.000  0.01632462 -0.01785697  0.00923868  0.00008895 -0.00031716  0.00003118
2003-03-04T12:00:33.500  0.01632557 -0.01785631  0.00923540  0.00008895 -0.00031718  0.00003118
2003-03-04T12:00:34.000  0.01632651 -0.01785566  0.00923212  0.00008895 -0.00031720  0.00003118
2003-03-04T12:00:34.500  0.01632745 -0.01785502  0.00922888  0.00008985  0.00057119  0.00002968
2003-03-04T12:00:35.000  0.01632839 -0.01785439  0.00922561  0.00008895 -0.00031725  0.00003118
2003-03-04T12:00:35.500  0.01632934 -0.01785376  0.00922233  0.00008895 -0.00031727  0.00003118
2003-03-04T12:00:36.000  0.01633028 -0.01785314  0.00921905  0.00008895 -0.00031578  0.00003118
2003-03-04T12:00:36.500  0.01633123 -0.01785253  0.00921577  0.00008895 -0.00031740  0.00003118
2003-03-04T12:00:37.000  0.01633218 -0.01785193  0.00921249  0.00008895 -0.00031742  0.00003118
2003-03-04T12:00:37.500  0.01633312 -0.01785133  0.00920922  0.00008895 -0.00031744  0.00003118
2003-03-04T12:00:38.000  0.01633405 -0.01785083  0.00920598  0.00009045  0.00056903 -0.00085842
2003-03-04T12:00:38.500  0.01633500 -0.01785025  0.00920270  0.00008895 -0.00031749  0.00003118
2003-03-04T12:00:39.000  0.01633595 -0.01784969  0.00919942  0.00008895 -0.00031751  0.00003118
2003-03-04T12:00:39.500  0.01633689 -0.01784913  0.00919615  0.00008895 -0.00031753  0.00003118
2003-03-04T12:00:40.000  0.01633784 -0.01784858  0.00919287  0.00008895 -0.00031596  0.00003118
2003-03-04T12:00:40.500  0.01633879 -0.01784804  0.00918959  0.00008895 -0.00031788  0.00003118
2003-03-04T12:00:41.000  0.01633973 -0.01784751  0.00918632  0.00008895 -0.00031791  0.00003118
2003-03-04T12:00:41.500  0.01634064 -0.01784681  0.00918305  0.00097745 -0.00031861  0.00003034
2003-03-04T12:00:42.000  0.01634159 -0.01784629  0.00917977  0.00008895 -0.00031795  0.00003118
2003-03-04T12:00:42.500  0.01634254 -0.01784579  0.00917650  0.00008895 -0.00031798  0.00003118
2003-03-04T12:00:43.000  0.01634347 -0.01784530  0.00917327  0.00008985  0.00057041  0.00002968
2003-03-04T12:00:43.500  0.01634442 -0.01784481  0.00916999  0.00008895 -0.00031802  0.00003118
2003-03-04T12:00:44.000  0.01634537 -0.01784433  0.00916672  0.00008895 -0.00031615  0.00003118
2003-03-04T12:00:44.500  0.01634632 -0.01784386  0.00916344  0.00008895 -0.00031808  0.00003118
2003-03-04T12:00:45.000  0.01634726 -0.01784340  0.00916017  0.00008895 -0.00031810  0.00003118
2003-03-04T12:00:45.500  0.01634821 -0.01784294  0.00915689  0.00008895 -0.00031812  0.00003118
2003-03-04T12:00:46.000  0.01634915 -0.01784250  0.00915366  0.00008985  0.00057027  0.00002968
2003-03-04T12:00:46.500  0.01635009 -0.01784207  0.00915039  0.00008895 -0.00031816  0.00003118
2003-03-04T12:00:47.000  0.01635104 -0.01784164  0.00914711  0.00008895 -0.00031818  0.00003118
2003-03-04T12:00:47.500  0.01635199 -0.01784122  0.00914384  0.00008895 -0.00031821  0.00003118
DATA_STOP
".
(* ccsds_ndm/tests/data/kvn/adm-testcase04a_abbrev.xml *)
Definition obj_adm_testcase04a_abbrev : pyval :=
 VObj "Aem" [("header", VObj "NdmHeader" [("comment", VList [VStr (lit "AEM Implementation Test - Attempt 2"); VStr (lit "Euler angle rates have been corrected")]);
 ("creation_date", VStr (lit "2007-10-03T13:25:00"));
 ("originator", VStr (lit "GSFC"))]);
 ("body", VObj "AemBody" [("segment", VList [VObj "AemSegment" [("metadata", VObj "AemMetadata" [("comment", VList [VStr (lit "TRMM Attitude history beginning at 2003-03-04T12:00:00"); VStr (lit "Attitude requires an OEM for full processing"); VStr (lit "OEM provided for this message is trmm_oem_20030304_1200_1305.txt")]);
 ("object_name", VStr (lit "TRMM"));
 ("object_id", VStr (lit "1997-009A"));
 ("center_name", VStr (lit "EARTH"));
 ("ref_frame_a", VStr (lit "SC_BODY"));
 ("ref_frame_b", VStr (lit "LVLH"));
 ("attitude_dir", VEnum "RotDirectionType" "B2_A" (lit "B2A"));
 ("time_system", VEnum "TimeSystemType" "TOD" (lit "TOD"));
 ("start_time", VStr (lit "2003-03-04T12:00:00.0"));
 ("useable_start_time", VNone);
 ("useable_stop_time", VNone);
 ("stop_time", VStr (lit "2003-03-04T12:00:47.5"));
 ("attitude_type", VEnum "AttitudeTypeType" "EULER_ANGLE_RATE_1" (lit "EULER_ANGLE/RATE"));
 ("quaternion_type", VNone);
 ("euler_rot_seq", VEnum "RotseqType" "VALUE_321" (lit "321"));
 ("rate_frame", VEnum "AemRateFrameType" "REF_FRAME_A_1" (lit "REF_FRAME_A"));
 ("interpolation_method", VNone);
 ("interpolation_degree", VNone)]);
 ("data", VObj "AemData" [("comment", VList []);
 ("attitude_state", VList [VObj "AttitudeStateType" [("quaternion_state", VNone);
 ("quaternion_derivative", VNone);
 ("quaternion_euler_rate", VNone);
 ("euler_angle", VNone);
 ("euler_angle_rate", VObj "EulerAngleRateType" [("epoch", VStr (lit "2003-03-04T12:00:00.500"));
 ("rotation_angles", VObj "RotationAngleType" [("rotation1", VObj "RotationAngleComponentType" [("value", VDec (DFin false 1626368%N (-8)%Z));
 ("angle", VEnum "AngleKeywordType" "Z_ANGLE" (lit "Z_ANGLE"));
 ("units", VNone)]);
 ("rotation2", VObj "RotationAngleComponentType" [("value", VDec (DFin true 1791928%N (-8)%Z));
 ("angle", VEnum "AngleKeywordType" "Y_ANGLE" (lit "Y_ANGLE"));
 ("units", VNone)]);
 ("rotation3", VObj "RotationAngleComponentType" [("value", VDec (DFin false 945166%N (-8)%Z));
 ("angle", VEnum "AngleKeywordType" "X_ANGLE" (lit "X_ANGLE"));
 ("units", VNone)])]);
 ("rotation_rates", VObj "RotationRateType" [("rotation1", VObj "RotationRateComponentType" [("value", VDec (DFin false 8895%N (-8)%Z));
 ("rate", VEnum "AngleRateKeywordType" "Z_RATE" (lit "Z_RATE"));
 ("units", VNone)]);
 ("rotation2", VObj "RotationRateComponentType" [("value", VDec (DFin true 31400%N (-8)%Z));
 ("rate", VEnum "AngleRateKeywordType" "Y_RATE" (lit "Y_RATE"));
 ("units", VNone)]);
 ("rotation3", VObj "RotationRateComponentType" [("value", VDec (DFin false 3118%N (-8)%Z));
 ("rate", VEnum "AngleRateKeywordType" "X_RATE" (lit "X_RATE"));
 ("units", VNone)])])]);
 ("spin", VNone);
 ("spin_nutation", VNone)]; VObj "AttitudeStateType" [("quaternion_state", VNone);
 ("quaternion_derivative", VNone);
 ("quaternion_euler_rate", VNone);
 ("euler_angle", VNone);
 ("euler_angle_rate", VObj "EulerAngleRateType" [("epoch", VStr (lit "2003-03-04T12:00:01.000"));
 ("rotation_angles", VObj "RotationAngleType" [("rotation1", VObj "RotationAngleComponentType" [("value", VDec (DFin false 1626462%N (-8)%Z));
 ("angle", VEnum "AngleKeywordType" "Z_ANGLE" (lit "Z_ANGLE"));
 ("units", VNone)]);
 ("rotation2", VObj "RotationAngleComponentType" [("value", VDec (DFin true 1791804%N (-8)%Z));
 ("angle", VEnum "AngleKeywordType" "Y_ANGLE" (lit "Y_ANGLE"));
 ("units", VNone)]);
 ("rotation3", VObj "RotationAngleComponentType" [("value", VDec (DFin false 944837%N (-8)%Z));
 ("angle", VEnum "AngleKeywordType" "X_ANGLE" (lit "X_ANGLE"));
 ("units", VNone)])]);
 ("rotation_rates", VObj "RotationRateType" [("rotation1", VObj "RotationRateComponentType" [("value", VDec (DFin false 8895%N (-8)%Z));
 ("rate", VEnum "AngleRateKeywordType" "Z_RATE" (lit "Z_RATE"));
 ("units", VNone)]);
 ("rotation2", VObj "RotationRateComponentType" [("value", VDec (DFin true 31403%N (-8)%Z));
 ("rate", VEnum "AngleRateKeywordType" "Y_RATE" (lit "Y_RATE"));
 ("units", VNone)]);
 ("rotation3", VObj "RotationRateComponentType" [("value", VDec (DFin false 3118%N (-8)%Z));
 ("rate", VEnum "AngleRateKeywordType" "X_RATE" (lit "X_RATE"));
 ("units", VNone)])])]);
 ("spin", VNone);
 ("spin_nutation", VNone)]; VObj "AttitudeStateType" [("quaternion_state", VNone);
 ("quaternion_derivative", VNone);
 ("quaternion_euler_rate", VNone);
 ("euler_angle", VNone);
 ("euler_angle_rate", VObj "EulerAngleRateType" [("epoch", VStr (lit "2003-03-04T12:00:01.500"));
 ("rotation_angles", VObj "RotationAngleType" [("rotation1", VObj "RotationAngleComponentType" [("value", VDec (DFin false 1626556%N (-8)%Z));
 ("angle", VEnum "AngleKeywordType" "Z_ANGLE" (lit "Z_ANGLE"));
 ("units", VNone)]);
 ("rotation2", VObj "RotationAngleComponentType" [("value", VDec (DFin true 1791682%N (-8)%Z));
 ("angle", VEnum "AngleKeywordType" "Y_ANGLE" (lit "Y_ANGLE"));
 ("units", VNone)]);
 ("rotation3", VObj "RotationAngleComponentType" [("value", VDec (DFin false 944509%N (-8)%Z));
 ("angle", VEnum "AngleKeywordType" "X_ANGLE" (lit "X_ANGLE"));
 ("units", VNone)])]);
 ("rotation_rates", VObj "RotationRateType" [("rotation1", VObj "RotationRateComponentType" [("value", VDec (DFin false 8895%N (-8)%Z));
 ("rate", VEnum "AngleRateKeywordType" "Z_RATE" (lit "Z_RATE"));
 ("units", VNone)]);
 ("rotation2", VObj "RotationRateComponentType" [("value", VDec (DFin true 31406%N (-8)%Z));
 ("rate", VEnum "AngleRateKeywordType" "Y_RATE" (lit "Y_RATE"));
 ("units", VNone)]);
 ("rotation3", VObj "RotationRateComponentType" [("value", VDec (DFin false 3118%N (-8)%Z));
 ("rate", VEnum "AngleRateKeywordType" "X_RATE" (lit "X_RATE"));
 ("units", VNone)])])]);
 ("spin", VNone);
 ("spin_nutation", VNone)]; VObj "AttitudeStateType" [("quaternion_state", VNone);
 ("quaternion_derivative", VNone);
 ("quaternion_euler_rate", VNone);
 ("euler_angle", VNone);
 ("euler_angle_rate", VObj "EulerAngleRateType" [("epoch", VStr (lit "2003-03-04T12:00:02.000"));
 ("rotation_angles", VObj "RotationAngleType" [("rotation1", VObj "RotationAngleComponentType" [("value", VDec (DFin false 1626649%N (-8)%Z));
 ("angle", VEnum "AngleKeywordType" "Z_ANGLE" (lit "Z_ANGLE"));
 ("units", VNone)]);
 ("rotation2", VObj "RotationAngleComponentType" [("value", VDec (DFin true 1791560%N (-8)%Z));
 ("angle", VEnum "AngleKeywordType" "Y_ANGLE" (lit "Y_ANGLE"));
 ("units", VNone)]);
 ("rotation3", VObj "RotationAngleComponentType" [("value", VDec (DFin false 944180%N (-8)%Z));
 ("angle", VEnum "AngleKeywordType" "X_ANGLE" (lit "X_ANGLE"));
 ("units", VNone)])]);
 ("rotation_rates", VObj "RotationRateType" [("rotation1", VObj "RotationRateComponentType" [("value", VDec (DFin false 8895%N (-8)%Z));
 ("rate", VEnum "AngleRateKeywordType" "Z_RATE" (lit "Z_RATE"));
 ("units", VNone)]);
 ("rotation2", VObj "RotationRateComponentType" [("value", VDec (DFin true 31408%N (-8)%Z));
 ("rate", VEnum "AngleRateKeywordType" "Y_RATE" (lit "Y_RATE"));
 ("units", VNone)]);
 ("rotation3", VObj "RotationRateComponentType" [("value", VDec (DFin false 3118%N (-8)%Z));
 ("rate", VEnum "AngleRateKeywordType" "X_RATE" (lit "X_RATE"));
 ("units", VNone)])])]);
 ("spin", VNone);
 ("spin_nutation", VNone)]; VObj "AttitudeStateType" [("quaternion_state", VNone);
 ("quaternion_derivative", VNone);
 ("quaternion_euler_rate", VNone);
 ("euler_angle", VNone);
 ("euler_angle_rate", VObj "EulerAngleRateType" [("epoch", VStr (lit "2003-03-04T12:00:02.500"));
 ("rotation_angles", VObj "RotationAngleType" [("rotation1", VObj "RotationAngleComponentType" [("value", VDec (DFin false 1626743%N (-8)%Z));
 ("angle", VEnum "AngleKeywordType" "Z_ANGLE" (lit "Z_ANGLE"));
 ("units", VNone)]);
 ("rotation2", VObj "RotationAngleComponentType" [("value", VDec (DFin true 1791440%N (-8)%Z));
 ("angle", VEnum "AngleKeywordType" "Y_ANGLE" (lit "Y_ANGLE"));
 ("units", VNone)]);
 ("rotation3", VObj "RotationAngleComponentType" [("value", VDec (DFin false 943852%N (-8)%Z));
 ("angle", VEnum "AngleKeywordType" "X_ANGLE" (lit "X_ANGLE"));
 ("units", VNone)])]);
 ("rotation_rates", VObj "RotationRateType" [("rotation1", VObj "RotationRateComponentType" [("value", VDec (DFin false 8895%N (-8)%Z));
 ("rate", VEnum "AngleRateKeywordType" "Z_RATE" (lit "Z_RATE"));
 ("units", VNone)]);
 ("rotation2", VObj "RotationRateComponentType" [("value", VDec (DFin true 31411%N (-8)%Z));
 ("rate", VEnum "AngleRateKeywordType" "Y_RATE" (lit "Y_RATE"));
 ("units", VNone)]);
 ("rotation3", VObj "RotationRateComponentType" [("value", VDec (DFin false 3118%N (-8)%Z));
 ("rate", VEnum "AngleRateKeywordType" "X_RATE" (lit "X_RATE"));
 ("units", VNone)])])]);
 ("spin", VNone);
 ("spin_nutation", VNone)]; VObj "AttitudeStateType" [("quaternion_state", VNone);
 ("quaternion_derivative", VNone);
 ("quaternion_euler_rate", VNone);
 ("euler_angle", VNone);
 ("euler_angle_rate", VObj "EulerAngleRateType" [("epoch", VStr (lit "2003-03-04T12:00:03.000"));
 ("rotation_angles", VObj "RotationAngleType" [("rotation1", VObj "RotationAngleComponentType" [("value", VDec (DFin false 1626837%N (-8)%Z));
 ("angle", VEnum "AngleKeywordType" "Z_ANGLE" (lit "Z_ANGLE"));
 ("units", VNone)]);
 ("rotation2", VObj "RotationAngleComponentType" [("value", VDec (DFin true 1791320%N (-8)%Z));
 ("angle", VEnum "AngleKeywordType" "Y_ANGLE" (lit "Y_ANGLE"));
 ("units", VNone)]);
 ("rotation3", VObj "RotationAngleComponentType" [("value", VDec (DFin false 943523%N (-8)%Z));
 ("angle", VEnum "AngleKeywordType" "X_ANGLE" (lit "X_ANGLE"));
 ("units", VNone)])]);
 ("rotation_rates", VObj "RotationRateType" [("rotation1", VObj "RotationRateComponentType" [("value", VDec (DFin false 8895%N (-8)%Z));
 ("rate", VEnum "AngleRateKeywordType" "Z_RATE" (lit "Z_RATE"));
 ("units", VNone)]);
 ("rotation2", VObj "RotationRateComponentType" [("value", VDec (DFin true 31414%N (-8)%Z));
 ("rate", VEnum "AngleRateKeywordType" "Y_RATE" (lit "Y_RATE"));
 ("units", VNone)]);
 ("rotation3", VObj "RotationRateComponentType" [("value", VDec (DFin false 3118%N (-8)%Z));
 ("rate", VEnum "AngleRateKeywordType" "X_RATE" (lit "X_RATE"));
 ("units", VNone)])])]);
 ("spin", VNone);
 ("spin_nutation", VNone)]; VObj "AttitudeStateType" [("quaternion_state", VNone);
 ("quaternion_derivative", VNone);
 ("quaternion_euler_rate", VNone);
 ("euler_angle", VNone);
 ("euler_angle_rate", VObj "EulerAngleRateType" [("epoch", VStr (lit "2003-03-04T12:00:03.500"));
 ("rotation_angles", VObj "RotationAngleType" [("rotation1", VObj "RotationAngleComponentType" [("value", VDec (DFin false 1626929%N (-8)%Z));
 ("angle", VEnum "AngleKeywordType" "Z_ANGLE" (lit "Z_ANGLE"));
 ("units", VNone)]);
 ("rotation2", VObj "RotationAngleComponentType" [("value", VDec (DFin true 1791203%N (-8)%Z));
 ("angle", VEnum "AngleKeywordType" "Y_ANGLE" (lit "Y_ANGLE"));
 ("units", VNone)]);
 ("rotation3", VObj "RotationAngleComponentType" [("value", VDec (DFin false 943199%N (-8)%Z));
 ("angle", VEnum "AngleKeywordType" "X_ANGLE" (lit "X_ANGLE"));
 ("units", VNone)])]);
 ("rotation_rates", VObj "RotationRateType" [("rotation1", VObj "RotationRateComponentType" [("value", VDec (DFin false 8985%N (-8)%Z));
 ("rate", VEnum "AngleRateKeywordType" "Z_RATE" (lit "Z_RATE"));
 ("units", VNone)]);
 ("rotation2", VObj "RotationRateComponentType" [("value", VDec (DFin false 57424%N (-8)%Z));
 ("rate", VEnum "AngleRateKeywordType" "Y_RATE" (lit "Y_RATE"));
 ("units", VNone)]);
 ("rotation3", VObj "RotationRateComponentType" [("value", VDec (DFin false 2968%N (-8)%Z));
 ("rate", VEnum "AngleRateKeywordType" "X_RATE" (lit "X_RATE"));
 ("units", VNone)])])]);
 ("spin", VNone);
 ("spin_nutation", VNone)]; VObj "AttitudeStateType" [("quaternion_state", VNone);
 ("quaternion_derivative", VNone);
 ("quaternion_euler_rate", VNone);
 ("euler_angle", VNone);
 ("euler_angle_rate", VObj "EulerAngleRateType" [("epoch", VStr (lit "2003-03-04T12:00:04.000"));
 ("rotation_angles", VObj "RotationAngleType" [("rotation1", VObj "RotationAngleComponentType" [("value", VDec (DFin false 1627023%N (-8)%Z));
 ("angle", VEnum "AngleKeywordType" "Z_ANGLE" (lit "Z_ANGLE"));
 ("units", VNone)]);
 ("rotation2", VObj "RotationAngleComponentType" [("value", VDec (DFin true 1791085%N (-8)%Z));
 ("angle", VEnum "AngleKeywordType" "Y_ANGLE" (lit "Y_ANGLE"));
 ("units", VNone)]);
 ("rotation3", VObj "RotationAngleComponentType" [("value", VDec (DFin false 942871%N (-8)%Z));
 ("angle", VEnum "AngleKeywordType" "X_ANGLE" (lit "X_ANGLE"));
 ("units", VNone)])]);
 ("rotation_rates", VObj "RotationRateType" [("rotation1", VObj "RotationRateComponentType" [("value", VDec (DFin false 8895%N (-8)%Z));
 ("rate", VEnum "AngleRateKeywordType" "Z_RATE" (lit "Z_RATE"));
 ("units", VNone)]);
 ("rotation2", VObj "RotationRateComponentType" [("value", VDec (DFin true 31420%N (-8)%Z));
 ("rate", VEnum "AngleRateKeywordType" "Y_RATE" (lit "Y_RATE"));
 ("units", VNone)]);
 ("rotation3", VObj "RotationRateComponentType" [("value", VDec (DFin false 3118%N (-8)%Z));
 ("rate", VEnum "AngleRateKeywordType" "X_RATE" (lit "X_RATE"));
 ("units", VNone)])])]);
 ("spin", VNone);
 ("spin_nutation", VNone)]; VObj "AttitudeStateType" [("quaternion_state", VNone);
 ("quaternion_derivative", VNone);
 ("quaternion_euler_rate", VNone);
 ("euler_angle", VNone);
 ("euler_angle_rate", VObj "EulerAngleRateType" [("epoch", VStr (lit "2003-03-04T12:00:04.500"));
 ("rotation_angles", VObj "RotationAngleType" [("rotation1", VObj "RotationAngleComponentType" [("value", VDec (DFin false 1627117%N (-8)%Z));
 ("angle", VEnum "AngleKeywordType" "Z_ANGLE" (lit "Z_ANGLE"));
 ("units", VNone)]);
 ("rotation2", VObj "RotationAngleComponentType" [("value", VDec (DFin true 1790968%N (-8)%Z));
 ("angle", VEnum "AngleKeywordType" "Y_ANGLE" (lit "Y_ANGLE"));
 ("units", VNone)]);
 ("rotation3", VObj "RotationAngleComponentType" [("value", VDec (DFin false 942542%N (-8)%Z));
 ("angle", VEnum "AngleKeywordType" "X_ANGLE" (lit "X_ANGLE"));
 ("units", VNone)])]);
 ("rotation_rates", VObj "RotationRateType" [("rotation1", VObj "RotationRateComponentType" [("value", VDec (DFin false 8895%N (-8)%Z));
 ("rate", VEnum "AngleRateKeywordType" "Z_RATE" (lit "Z_RATE"));
 ("units", VNone)]);
 ("rotation2", VObj "RotationRateComponentType" [("value", VDec (DFin true 31442%N (-8)%Z));
 ("rate", VEnum "AngleRateKeywordType" "Y_RATE" (lit "Y_RATE"));
 ("units", VNone)]);
 ("rotation3", VObj "RotationRateComponentType" [("value", VDec (DFin false 3118%N (-8)%Z));
 ("rate", VEnum "AngleRateKeywordType" "X_RATE" (lit "X_RATE"));
 ("units", VNone)])])]);
 ("spin", VNone);
 ("spin_nutation", VNone)]; VObj "AttitudeStateType" [("quaternion_state", VNone);
 ("quaternion_derivative", VNone);
 ("quaternion_euler_rate", VNone);
 ("euler_angle", VNone);
 ("euler_angle_rate", VObj "EulerAngleRateType" [("epoch", VStr (lit "2003-03-04T12:00:05.000"));
 ("rotation_angles", VObj "RotationAngleType" [("rotation1", VObj "RotationAngleComponentType" [("value", VDec (DFin false 1627211%N (-8)%Z));
 ("angle", VEnum "AngleKeywordType" "Z_ANGLE" (lit "Z_ANGLE"));
 ("units", VNone)]);
 ("rotation2", VObj "RotationAngleComponentType" [("value", VDec (DFin true 1790851%N (-8)%Z));
 ("angle", VEnum "AngleKeywordType" "Y_ANGLE" (lit "Y_ANGLE"));
 ("units", VNone)]);
 ("rotation3", VObj "RotationAngleComponentType" [("value", VDec (DFin false 942214%N (-8)%Z));
 ("angle", VEnum "AngleKeywordType" "X_ANGLE" (lit "X_ANGLE"));
 ("units", VNone)])]);
 ("rotation_rates", VObj "RotationRateType" [("rotation1", VObj "RotationRateComponentType" [("value", VDec (DFin false 8895%N (-8)%Z));
 ("rate", VEnum "AngleRateKeywordType" "Z_RATE" (lit "Z_RATE"));
 ("units", VNone)]);
 ("rotation2", VObj "RotationRateComponentType" [("value", VDec (DFin true 31445%N (-8)%Z));
 ("rate", VEnum "AngleRateKeywordType" "Y_RATE" (lit "Y_RATE"));
 ("units", VNone)]);
 ("rotation3", VObj "RotationRateComponentType" [("value", VDec (DFin false 3118%N (-8)%Z));
 ("rate", VEnum "AngleRateKeywordType" "X_RATE" (lit "X_RATE"));
 ("units", VNone)])])]);
 ("spin", VNone);
 ("spin_nutation", VNone)]; VObj "AttitudeStateType" [("quaternion_state", VNone);
 ("quaternion_derivative", VNone);
 ("quaternion_euler_rate", VNone);
 ("euler_angle", VNone);
 ("euler_angle_rate", VObj "EulerAngleRateType" [("epoch", VStr (lit "2003-03-04T12:00:05.500"));
 ("rotation_angles", VObj "RotationAngleType" [("rotation1", VObj "RotationAngleComponentType" [("value", VDec (DFin false 1627305%N (-8)%Z));
 ("angle", VEnum "AngleKeywordType" "Z_ANGLE" (lit "Z_ANGLE"));
 ("units", VNone)]);
 ("rotation2", VObj "RotationAngleComponentType" [("value", VDec (DFin true 1790736%N (-8)%Z));
 ("angle", VEnum "AngleKeywordType" "Y_ANGLE" (lit "Y_ANGLE"));
 ("units", VNone)]);
 ("rotation3", VObj "RotationAngleComponentType" [("value", VDec (DFin false 941886%N (-8)%Z));
 ("angle", VEnum "AngleKeywordType" "X_ANGLE" (lit "X_ANGLE"));
 ("units", VNone)])]);
 ("rotation_rates", VObj "RotationRateType" [("rotation1", VObj "RotationRateComponentType" [("value", VDec (DFin false 8895%N (-8)%Z));
 ("rate", VEnum "AngleRateKeywordType" "Z_RATE" (lit "Z_RATE"));
 ("units", VNone)]);
 ("rotation2", VObj "RotationRateComponentType" [("value", VDec (DFin true 31447%N (-8)%Z));
 ("rate", VEnum "AngleRateKeywordType" "Y_RATE" (lit "Y_RATE"));
 ("units", VNone)]);
 ("rotation3", VObj "RotationRateComponentType" [("value", VDec (DFin false 3118%N (-8)%Z));
 ("rate", VEnum "AngleRateKeywordType" "X_RATE" (lit "X_RATE"));
 ("units", VNone)])])]);
 ("spin", VNone);
 ("spin_nutation", VNone)]; VObj "AttitudeStateType" [("quaternion_state", VNone);
 ("quaternion_derivative", VNone);
 ("quaternion_euler_rate", VNone);
 ("euler_angle", VNone);
 ("euler_angle_rate", VObj "EulerAngleRateType" [("epoch", VStr (lit "2003-03-04T12:00:06.000"));
 ("rotation_angles", VObj "RotationAngleType" [("rotation1", VObj "RotationAngleComponentType" [("value", VDec (DFin false 1627397%N (-8)%Z));
 ("angle", VEnum "AngleKeywordType" "Z_ANGLE" (lit "Z_ANGLE"));
 ("units", VNone)]);
 ("rotation2", VObj "RotationAngleComponentType" [("value", VDec (DFin true 1790623%N (-8)%Z));
 ("angle", VEnum "AngleKeywordType" "Y_ANGLE" (lit "Y_ANGLE"));
 ("units", VNone)]);
 ("rotation3", VObj "RotationAngleComponentType" [("value", VDec (DFin false 941562%N (-8)%Z));
 ("angle", VEnum "AngleKeywordType" "X_ANGLE" (lit "X_ANGLE"));
 ("units", VNone)])]);
 ("rotation_rates", VObj "RotationRateType" [("rotation1", VObj "RotationRateComponentType" [("value", VDec (DFin false 8985%N (-8)%Z));
 ("rate", VEnum "AngleRateKeywordType" "Z_RATE" (lit "Z_RATE"));
 ("units", VNone)]);
 ("rotation2", VObj "RotationRateComponentType" [("value", VDec (DFin false 57392%N (-8)%Z));
 ("rate", VEnum "AngleRateKeywordType" "Y_RATE" (lit "Y_RATE"));
 ("units", VNone)]);
 ("rotation3", VObj "RotationRateComponentType" [("value", VDec (DFin false 2968%N (-8)%Z));
 ("rate", VEnum "AngleRateKeywordType" "X_RATE" (lit "X_RATE"));
 ("units", VNone)])])]);
 ("spin", VNone);
 ("spin_nutation", VNone)]; VObj "AttitudeStateType" [("quaternion_state", VNone);
 ("quaternion_derivative", VNone);
 ("quaternion_euler_rate", VNone);
 ("euler_angle", VNone);
 ("euler_angle_rate", VObj "EulerAngleRateType" [("epoch", VStr (lit "2003-03-04T12:00:06.500"));
 ("rotation_angles", VObj "RotationAngleType" [("rotation1", VObj "RotationAngleComponentType" [("value", VDec (DFin false 1627491%N (-8)%Z));
 ("angle", VEnum "AngleKeywordType" "Z_ANGLE" (lit "Z_ANGLE"));
 ("units", VNone)]);
 ("rotation2", VObj "RotationAngleComponentType" [("value", VDec (DFin true 1790517%N (-8)%Z));
 ("angle", VEnum "AngleKeywordType" "Y_ANGLE" (lit "Y_ANGLE"));
 ("units", VNone)]);
 ("rotation3", VObj "RotationAngleComponentType" [("value", VDec (DFin false 941233%N (-8)%Z));
 ("angle", VEnum "AngleKeywordType" "X_ANGLE" (lit "X_ANGLE"));
 ("units", VNone)])]);
 ("rotation_rates", VObj "RotationRateType" [("rotation1", VObj "RotationRateComponentType" [("value", VDec (DFin false 8955%N (-8)%Z));
 ("rate", VEnum "AngleRateKeywordType" "Z_RATE" (lit "Z_RATE"));
 ("units", VNone)]);
 ("rotation2", VObj "RotationRateComponentType" [("value", VDec (DFin true 31644%N (-8)%Z));
 ("rate", VEnum "AngleRateKeywordType" "Y_RATE" (lit "Y_RATE"));
 ("units", VNone)]);
 ("rotation3", VObj "RotationRateComponentType" [("value", VDec (DFin true 85693%N (-8)%Z));
 ("rate", VEnum "AngleRateKeywordType" "X_RATE" (lit "X_RATE"));
 ("units", VNone)])])]);
 ("spin", VNone);
 ("spin_nutation", VNone)]; VObj "AttitudeStateType" [("quaternion_state", VNone);
 ("quaternion_derivative", VNone);
 ("quaternion_euler_rate", VNone);
 ("euler_angle", VNone);
 ("euler_angle_rate", VObj "EulerAngleRateType" [("epoch", VStr (lit "2003-03-04T12:00:07.000"));
 ("rotation_angles", VObj "RotationAngleType" [("rotation1", VObj "RotationAngleComponentType" [("value", VDec (DFin false 1627585%N (-8)%Z));
 ("angle", VEnum "AngleKeywordType" "Z_ANGLE" (lit "Z_ANGLE"));
 ("units", VNone)]);
 ("rotation2", VObj "RotationAngleComponentType" [("value", VDec (DFin true 1790404%N (-8)%Z));
 ("angle", VEnum "AngleKeywordType" "Y_ANGLE" (lit "Y_ANGLE"));
 ("units", VNone)]);
 ("rotation3", VObj "RotationAngleComponentType" [("value", VDec (DFin false 940904%N (-8)%Z));
 ("angle", VEnum "AngleKeywordType" "X_ANGLE" (lit "X_ANGLE"));
 ("units", VNone)])]);
 ("rotation_rates", VObj "RotationRateType" [("rotation1", VObj "RotationRateComponentType" [("value", VDec (DFin false 8895%N (-8)%Z));
 ("rate", VEnum "AngleRateKeywordType" "Z_RATE" (lit "Z_RATE"));
 ("units", VNone)]);
 ("rotation2", VObj "RotationRateComponentType" [("value", VDec (DFin true 31455%N (-8)%Z));
 ("rate", VEnum "AngleRateKeywordType" "Y_RATE" (lit "Y_RATE"));
 ("units", VNone)]);
 ("rotation3", VObj "RotationRateComponentType" [("value", VDec (DFin false 3118%N (-8)%Z));
 ("rate", VEnum "AngleRateKeywordType" "X_RATE" (lit "X_RATE"));
 ("units", VNone)])])]);
 ("spin", VNone);
 ("spin_nutation", VNone)]; VObj "AttitudeStateType" [("quaternion_state", VNone);
 ("quaternion_derivative", VNone);
 ("quaternion_euler_rate", VNone);
 ("euler_angle", VNone);
 ("euler_angle_rate", VObj "EulerAngleRateType" [("epoch", VStr (lit "2003-03-04T12:00:07.500"));
 ("rotation_angles", VObj "RotationAngleType" [("rotation1", VObj "RotationAngleComponentType" [("value", VDec (DFin false 1627679%N (-8)%Z));
 ("angle", VEnum "AngleKeywordType" "Z_ANGLE" (lit "Z_ANGLE"));
 ("units", VNone)]);
 ("rotation2", VObj "RotationAngleComponentType" [("value", VDec (DFin true 1790292%N (-8)%Z));
 ("angle", VEnum "AngleKeywordType" "Y_ANGLE" (lit "Y_ANGLE"));
 ("units", VNone)]);
 ("rotation3", VObj "RotationAngleComponentType" [("value", VDec (DFin false 940576%N (-8)%Z));
 ("angle", VEnum "AngleKeywordType" "X_ANGLE" (lit "X_ANGLE"));
 ("units", VNone)])]);
 ("rotation_rates", VObj "RotationRateType" [("rotation1", VObj "RotationRateComponentType" [("value", VDec (DFin false 8895%N (-8)%Z));
 ("rate", VEnum "AngleRateKeywordType" "Z_RATE" (lit "Z_RATE"));
 ("units", VNone)]);
 ("rotation2", VObj "RotationRateComponentType" [("value", VDec (DFin true 31457%N (-8)%Z));
 ("rate", VEnum "AngleRateKeywordType" "Y_RATE" (lit "Y_RATE"));
 ("units", VNone)]);
 ("rotation3", VObj "RotationRateComponentType" [("value", VDec (DFin false 3118%N (-8)%Z));
 ("rate", VEnum "AngleRateKeywordType" "X_RATE" (lit "X_RATE"));
 ("units", VNone)])])]);
 ("spin", VNone);
 ("spin_nutation", VNone)]; VObj "AttitudeStateType" [("quaternion_state", VNone);
 ("quaternion_derivative", VNone);
 ("quaternion_euler_rate", VNone);
 ("euler_angle", VNone);
 ("euler_angle_rate", VObj "EulerAngleRateType" [("epoch", VStr (lit "2003-03-04T12:00:08.000"));
 ("rotation_angles", VObj "RotationAngleType" [("rotation1", VObj "RotationAngleComponentType" [("value", VDec (DFin false 1627769%N (-8)%Z));
 ("angle", VEnum "AngleKeywordType" "Z_ANGLE" (lit "Z_ANGLE"));
 ("units", VNone)]);
 ("rotation2", VObj "RotationAngleComponentType" [("value", VDec (DFin true 1790164%N (-8)%Z));
 ("angle", VEnum "AngleKeywordType" "Y_ANGLE" (lit "Y_ANGLE"));
 ("units", VNone)]);
 ("rotation3", VObj "RotationAngleComponentType" [("value", VDec (DFin false 940248%N (-8)%Z));
 ("angle", VEnum "AngleKeywordType" "X_ANGLE" (lit "X_ANGLE"));
 ("units", VNone)])]);
 ("rotation_rates", VObj "RotationRateType" [("rotation1", VObj "RotationRateComponentType" [("value", VDec (DFin false 97745%N (-8)%Z));
 ("rate", VEnum "AngleRateKeywordType" "Z_RATE" (lit "Z_RATE"));
 ("units", VNone)]);
 ("rotation2", VObj "RotationRateComponentType" [("value", VDec (DFin true 31508%N (-8)%Z));
 ("rate", VEnum "AngleRateKeywordType" "Y_RATE" (lit "Y_RATE"));
 ("units", VNone)]);
 ("rotation3", VObj "RotationRateComponentType" [("value", VDec (DFin false 3034%N (-8)%Z));
 ("rate", VEnum "AngleRateKeywordType" "X_RATE" (lit "X_RATE"));
 ("units", VNone)])])]);
 ("spin", VNone);
 ("spin_nutation", VNone)]; VObj "AttitudeStateType" [("quaternion_state", VNone);
 ("quaternion_derivative", VNone);
 ("quaternion_euler_rate", VNone);
 ("euler_angle", VNone);
 ("euler_angle_rate", VObj "EulerAngleRateType" [("epoch", VStr (lit "2003-03-04T12:00:08.500"));
 ("rotation_angles", VObj "RotationAngleType" [("rotation1", VObj "RotationAngleComponentType" [("value", VDec (DFin false 1627863%N (-8)%Z));
 ("angle", VEnum "AngleKeywordType" "Z_ANGLE" (lit "Z_ANGLE"));
 ("units", VNone)]);
 ("rotation2", VObj "RotationAngleComponentType" [("value", VDec (DFin true 1790054%N (-8)%Z));
 ("angle", VEnum "AngleKeywordType" "Y_ANGLE" (lit "Y_ANGLE"));
 ("units", VNone)]);
 ("rotation3", VObj "RotationAngleComponentType" [("value", VDec (DFin false 939920%N (-8)%Z));
 ("angle", VEnum "AngleKeywordType" "X_ANGLE" (lit "X_ANGLE"));
 ("units", VNone)])]);
 ("rotation_rates", VObj "RotationRateType" [("rotation1", VObj "RotationRateComponentType" [("value", VDec (DFin false 8895%N (-8)%Z));
 ("rate", VEnum "AngleRateKeywordType" "Z_RATE" (lit "Z_RATE"));
 ("units", VNone)]);
 ("rotation2", VObj "RotationRateComponentType" [("value", VDec (DFin true 31485%N (-8)%Z));
 ("rate", VEnum "AngleRateKeywordType" "Y_RATE" (lit "Y_RATE"));
 ("units", VNone)]);
 ("rotation3", VObj "RotationRateComponentType" [("value", VDec (DFin false 3118%N (-8)%Z));
 ("rate", VEnum "AngleRateKeywordType" "X_RATE" (lit "X_RATE"));
 ("units", VNone)])])]);
 ("spin", VNone);
 ("spin_nutation", VNone)]; VObj "AttitudeStateType" [("quaternion_state", VNone);
 ("quaternion_derivative", VNone);
 ("quaternion_euler_rate", VNone);
 ("euler_angle", VNone);
 ("euler_angle_rate", VObj "EulerAngleRateType" [("epoch", VStr (lit "2003-03-04T12:00:09.000"));
 ("rotation_angles", VObj "RotationAngleType" [("rotation1", VObj "RotationAngleComponentType" [("value", VDec (DFin false 1627957%N (-8)%Z));
 ("angle", VEnum "AngleKeywordType" "Z_ANGLE" (lit "Z_ANGLE"));
 ("units", VNone)]);
 ("rotation2", VObj "RotationAngleComponentType" [("value", VDec (DFin true 1789944%N (-8)%Z));
 ("angle", VEnum "AngleKeywordType" "Y_ANGLE" (lit "Y_ANGLE"));
 ("units", VNone)]);
 ("rotation3", VObj "RotationAngleComponentType" [("value", VDec (DFin false 939591%N (-8)%Z));
 ("angle", VEnum "AngleKeywordType" "X_ANGLE" (lit "X_ANGLE"));
 ("units", VNone)])]);
 ("rotation_rates", VObj "RotationRateType" [("rotation1", VObj "RotationRateComponentType" [("value", VDec (DFin false 8895%N (-8)%Z));
 ("rate", VEnum "AngleRateKeywordType" "Z_RATE" (lit "Z_RATE"));
 ("units", VNone)]);
 ("rotation2", VObj "RotationRateComponentType" [("value", VDec (DFin true 31488%N (-8)%Z));
 ("rate", VEnum "AngleRateKeywordType" "Y_RATE" (lit "Y_RATE"));
 ("units", VNone)]);
 ("rotation3", VObj "RotationRateComponentType" [("value", VDec (DFin false 3118%N (-8)%Z));
 ("rate", VEnum "AngleRateKeywordType" "X_RATE" (lit "X_RATE"));
 ("units", VNone)])])]);
 ("spin", VNone);
 ("spin_nutation", VNone)]; VObj "AttitudeStateType" [("quaternion_state", VNone);
 ("quaternion_derivative", VNone);
 ("quaternion_euler_rate", VNone);
 ("euler_angle", VNone);
 ("euler_angle_rate", VObj "EulerAngleRateType" [("epoch", VStr (lit "2003-03-04T12:00:09.500"));
 ("rotation_angles", VObj "RotationAngleType" [("rotation1", VObj "RotationAngleComponentType" [("value", VDec (DFin false 1628051%N (-8)%Z));
 ("angle", VEnum "AngleKeywordType" "Z_ANGLE" (lit "Z_ANGLE"));
 ("units", VNone)]);
 ("rotation2", VObj "RotationAngleComponentType" [("value", VDec (DFin true 1789836%N (-8)%Z));
 ("angle", VEnum "AngleKeywordType" "Y_ANGLE" (lit "Y_ANGLE"));
 ("units", VNone)]);
 ("rotation3", VObj "RotationAngleComponentType" [("value", VDec (DFin false 939263%N (-8)%Z));
 ("angle", VEnum "AngleKeywordType" "X_ANGLE" (lit "X_ANGLE"));
 ("units", VNone)])]);
 ("rotation_rates", VObj "RotationRateType" [("rotation1", VObj "RotationRateComponentType" [("value", VDec (DFin false 8895%N (-8)%Z));
 ("rate", VEnum "AngleRateKeywordType" "Z_RATE" (lit "Z_RATE"));
 ("units", VNone)]);
 ("rotation2", VObj "RotationRateComponentType" [("value", VDec (DFin true 31491%N (-8)%Z));
 ("rate", VEnum "AngleRateKeywordType" "Y_RATE" (lit "Y_RATE"));
 ("units", VNone)]);
 ("rotation3", VObj "RotationRateComponentType" [("value", VDec (DFin false 3118%N (-8)%Z));
 ("rate", VEnum "AngleRateKeywordType" "X_RATE" (lit "X_RATE"));
 ("units", VNone)])])]);
 ("spin", VNone);
 ("spin_nutation", VNone)]; VObj "AttitudeStateType" [("quaternion_state", VNone);
 ("quaternion_derivative", VNone);
 ("quaternion_euler_rate", VNone);
 ("euler_angle", VNone);
 ("euler_angle_rate", VObj "EulerAngleRateType" [("epoch", VStr (lit "2003-03-04T12:00:10.000"));
 ("rotation_angles", VObj "RotationAngleType" [("rotation1", VObj "RotationAngleComponentType" [("value", VDec (DFin false 1628145%N (-8)%Z));
 ("angle", VEnum "AngleKeywordType" "Z_ANGLE" (lit "Z_ANGLE"));
 ("units", VNone)]);
 ("rotation2", VObj "RotationAngleComponentType" [("value", VDec (DFin true 1789729%N (-8)%Z));
 ("angle", VEnum "AngleKeywordType" "Y_ANGLE" (lit "Y_ANGLE"));
 ("units", VNone)]);
 ("rotation3", VObj "RotationAngleComponentType" [("value", VDec (DFin false 938935%N (-8)%Z));
 ("angle", VEnum "AngleKeywordType" "X_ANGLE" (lit "X_ANGLE"));
 ("units", VNone)])]);
 ("rotation_rates", VObj "RotationRateType" [("rotation1", VObj "RotationRateComponentType" [("value", VDec (DFin false 8895%N (-8)%Z));
 ("rate", VEnum "AngleRateKeywordType" "Z_RATE" (lit "Z_RATE"));
 ("units", VNone)]);
 ("rotation2", VObj "RotationRateComponentType" [("value", VDec (DFin true 31494%N (-8)%Z));
 ("rate", VEnum "AngleRateKeywordType" "Y_RATE" (lit "Y_RATE"));
 ("units", VNone)]);
 ("rotation3", VObj "RotationRateComponentType" [("value", VDec (DFin false 3118%N (-8)%Z));
 ("rate", VEnum "AngleRateKeywordType" "X_RATE" (lit "X_RATE"));
 ("units", VNone)])])]);
 ("spin", VNone);
 ("spin_nutation", VNone)]; VObj "AttitudeStateType" [("quaternion_state", VNone);
 ("quaternion_derivative", VNone);
 ("quaternion_euler_rate", VNone);
 ("euler_angle", VNone);
 ("euler_angle_rate", VObj "EulerAngleRateType" [("epoch", VStr (lit "2003-03-04T12:00:10.500"));
 ("rotation_angles", VObj "RotationAngleType" [("rotation1", VObj "RotationAngleComponentType" [("value", VDec (DFin false 1628239%N (-8)%Z));
 ("angle", VEnum "AngleKeywordType" "Z_ANGLE" (lit "Z_ANGLE"));
 ("units", VNone)]);
 ("rotation2", VObj "RotationAngleComponentType" [("value", VDec (DFin true 1789622%N (-8)%Z));
 ("angle", VEnum "AngleKeywordType" "Y_ANGLE" (lit "Y_ANGLE"));
 ("units", VNone)]);
 ("rotation3", VObj "RotationAngleComponentType" [("value", VDec (DFin false 938606%N (-8)%Z));
 ("angle", VEnum "AngleKeywordType" "X_ANGLE" (lit "X_ANGLE"));
 ("units", VNone)])]);
 ("rotation_rates", VObj "RotationRateType" [("rotation1", VObj "RotationRateComponentType" [("value", VDec (DFin false 8895%N (-8)%Z));
 ("rate", VEnum "AngleRateKeywordType" "Z_RATE" (lit "Z_RATE"));
 ("units", VNone)]);
 ("rotation2", VObj "RotationRateComponentType" [("value", VDec (DFin true 31496%N (-8)%Z));
 ("rate", VEnum "AngleRateKeywordType" "Y_RATE" (lit "Y_RATE"));
 ("units", VNone)]);
 ("rotation3", VObj "RotationRateComponentType" [("value", VDec (DFin false 3118%N (-8)%Z));
 ("rate", VEnum "AngleRateKeywordType" "X_RATE" (lit "X_RATE"));
 ("units", VNone)])])]);
 ("spin", VNone);
 ("spin_nutation", VNone)]; VObj "AttitudeStateType" [("quaternion_state", VNone);
 ("quaternion_derivative", VNone);
 ("quaternion_euler_rate", VNone);
 ("euler_angle", VNone);
 ("euler_angle_rate", VObj "EulerAngleRateType" [("epoch", VStr (lit "2003-03-04T12:00:11.000"));
 ("rotation_angles", VObj "RotationAngleType" [("rotation1", VObj "RotationAngleComponentType" [("value", VDec (DFin false 1628332%N (-8)%Z));
 ("angle", VEnum "AngleKeywordType" "Z_ANGLE" (lit "Z_ANGLE"));
 ("units", VNone)]);
 ("rotation2", VObj "RotationAngleComponentType" [("value", VDec (DFin true 1789518%N (-8)%Z));
 ("angle", VEnum "AngleKeywordType" "Y_ANGLE" (lit "Y_ANGLE"));
 ("units", VNone)]);
 ("rotation3", VObj "RotationAngleComponentType" [("value", VDec (DFin false 938282%N (-8)%Z));
 ("angle", VEnum "AngleKeywordType" "X_ANGLE" (lit "X_ANGLE"));
 ("units", VNone)])]);
 ("rotation_rates", VObj "RotationRateType" [("rotation1", VObj "RotationRateComponentType" [("value", VDec (DFin false 8985%N (-8)%Z));
 ("rate", VEnum "AngleRateKeywordType" "Z_RATE" (lit "Z_RATE"));
 ("units", VNone)]);
 ("rotation2", VObj "RotationRateComponentType" [("value", VDec (DFin false 57342%N (-8)%Z));
 ("rate", VEnum "AngleRateKeywordType" "Y_RATE" (lit "Y_RATE"));
 ("units", VNone)]);
 ("rotation3", VObj "RotationRateComponentType" [("value", VDec (DFin false 2968%N (-8)%Z));
 ("rate", VEnum "AngleRateKeywordType" "X_RATE" (lit "X_RATE"));
 ("units", VNone)])])]);
 ("spin", VNone);
 ("spin_nutation", VNone)]; VObj "AttitudeStateType" [("quaternion_state", VNone);
 ("quaternion_derivative", VNone);
 ("quaternion_euler_rate", VNone);
 ("euler_angle", VNone);
 ("euler_angle_rate", VObj "EulerAngleRateType" [("epoch", VStr (lit "2003-03-04T12:00:11.500"));
 ("rotation_angles", VObj "RotationAngleType" [("rotation1", VObj "RotationAngleComponentType" [("value", VDec (DFin false 1628426%N (-8)%Z));
 ("angle", VEnum "AngleKeywordType" "Z_ANGLE" (lit "Z_ANGLE"));
 ("units", VNone)]);
 ("rotation2", VObj "RotationAngleComponentType" [("value", VDec (DFin true 1789413%N (-8)%Z));
 ("angle", VEnum "AngleKeywordType" "Y_ANGLE" (lit "Y_ANGLE"));
 ("units", VNone)]);
 ("rotation3", VObj "RotationAngleComponentType" [("value", VDec (DFin false 937954%N (-8)%Z));
 ("angle", VEnum "AngleKeywordType" "X_ANGLE" (lit "X_ANGLE"));
 ("units", VNone)])]);
 ("rotation_rates", VObj "RotationRateType" [("rotation1", VObj "RotationRateComponentType" [("value", VDec (DFin false 8895%N (-8)%Z));
 ("rate", VEnum "AngleRateKeywordType" "Z_RATE" (lit "Z_RATE"));
 ("units", VNone)]);
 ("rotation2", VObj "RotationRateComponentType" [("value", VDec (DFin true 31502%N (-8)%Z));
 ("rate", VEnum "AngleRateKeywordType" "Y_RATE" (lit "Y_RATE"));
 ("units", VNone)]);
 ("rotation3", VObj "RotationRateComponentType" [("value", VDec (DFin false 3118%N (-8)%Z));
 ("rate", VEnum "AngleRateKeywordType" "X_RATE" (lit "X_RATE"));
 ("units", VNone)])])]);
 ("spin", VNone);
 ("spin_nutation", VNone)]; VObj "AttitudeStateType" [("quaternion_state", VNone);
 ("quaternion_derivative", VNone);
 ("quaternion_euler_rate", VNone);
 ("euler_angle", VNone);
 ("euler_angle_rate", VObj "EulerAngleRateType" [("epoch", VStr (lit "2003-03-04T12:00:12.000"));
 ("rotation_angles", VObj "RotationAngleType" [("rotation1", VObj "RotationAngleComponentType" [("value", VDec (DFin false 1628520%N (-8)%Z));
 ("angle", VEnum "AngleKeywordType" "Z_ANGLE" (lit "Z_ANGLE"));
 ("units", VNone)]);
 ("rotation2", VObj "RotationAngleComponentType" [("value", VDec (DFin true 1789309%N (-8)%Z));
 ("angle", VEnum "AngleKeywordType" "Y_ANGLE" (lit "Y_ANGLE"));
 ("units", VNone)]);
 ("rotation3", VObj "RotationAngleComponentType" [("value", VDec (DFin false 937626%N (-8)%Z));
 ("angle", VEnum "AngleKeywordType" "X_ANGLE" (lit "X_ANGLE"));
 ("units", VNone)])]);
 ("rotation_rates", VObj "RotationRateType" [("rotation1", VObj "RotationRateComponentType" [("value", VDec (DFin false 8895%N (-8)%Z));
 ("rate", VEnum "AngleRateKeywordType" "Z_RATE" (lit "Z_RATE"));
 ("units", VNone)]);
 ("rotation2", VObj "RotationRateComponentType" [("value", VDec (DFin true 31461%N (-8)%Z));
 ("rate", VEnum "AngleRateKeywordType" "Y_RATE" (lit "Y_RATE"));
 ("units", VNone)]);
 ("rotation3", VObj "RotationRateComponentType" [("value", VDec (DFin false 3118%N (-8)%Z));
 ("rate", VEnum "AngleRateKeywordType" "X_RATE" (lit "X_RATE"));
 ("units", VNone)])])]);
 ("spin", VNone);
 ("spin_nutation", VNone)]; VObj "AttitudeStateType" [("quaternion_state", VNone);
 ("quaternion_derivative", VNone);
 ("quaternion_euler_rate", VNone);
 ("euler_angle", VNone);
 ("euler_angle_rate", VObj "EulerAngleRateType" [("epoch", VStr (lit "2003-03-04T12:00:12.500"));
 ("rotation_angles", VObj "RotationAngleType" [("rotation1", VObj "RotationAngleComponentType" [("value", VDec (DFin false 1628614%N (-8)%Z));
 ("angle", VEnum "AngleKeywordType" "Z_ANGLE" (lit "Z_ANGLE"));
 ("units", VNone)]);
 ("rotation2", VObj "RotationAngleComponentType" [("value", VDec (DFin true 1789206%N (-8)%Z));
 ("angle", VEnum "AngleKeywordType" "Y_ANGLE" (lit "Y_ANGLE"));
 ("units", VNone)]);
 ("rotation3", VObj "RotationAngleComponentType" [("value", VDec (DFin false 937297%N (-8)%Z));
 ("angle", VEnum "AngleKeywordType" "X_ANGLE" (lit "X_ANGLE"));
 ("units", VNone)])]);
 ("rotation_rates", VObj "RotationRateType" [("rotation1", VObj "RotationRateComponentType" [("value", VDec (DFin false 8895%N (-8)%Z));
 ("rate", VEnum "AngleRateKeywordType" "Z_RATE" (lit "Z_RATE"));
 ("units", VNone)]);
 ("rotation2", VObj "RotationRateComponentType" [("value", VDec (DFin true 31523%N (-8)%Z));
 ("rate", VEnum "AngleRateKeywordType" "Y_RATE" (lit "Y_RATE"));
 ("units", VNone)]);
 ("rotation3", VObj "RotationRateComponentType" [("value", VDec (DFin false 3118%N (-8)%Z));
 ("rate", VEnum "AngleRateKeywordType" "X_RATE" (lit "X_RATE"));
 ("units", VNone)])])]);
 ("spin", VNone);
 ("spin_nutation", VNone)]; VObj "AttitudeStateType" [("quaternion_state", VNone);
 ("quaternion_derivative", VNone);
 ("quaternion_euler_rate", VNone);
 ("euler_angle", VNone);
 ("euler_angle_rate", VObj "EulerAngleRateType" [("epoch", VStr (lit "2003-03-04T12:00:13.000"));
 ("rotation_angles", VObj "RotationAngleType" [("rotation1", VObj "RotationAngleComponentType" [("value", VDec (DFin false 1628708%N (-8)%Z));
 ("angle", VEnum "AngleKeywordType" "Z_ANGLE" (lit "Z_ANGLE"));
 ("units", VNone)]);
 ("rotation2", VObj "RotationAngleComponentType" [("value", VDec (DFin true 1789104%N (-8)%Z));
 ("angle", VEnum "AngleKeywordType" "Y_ANGLE" (lit "Y_ANGLE"));
 ("units", VNone)]);
 ("rotation3", VObj "RotationAngleComponentType" [("value", VDec (DFin false 936969%N (-8)%Z));
 ("angle", VEnum "AngleKeywordType" "X_ANGLE" (lit "X_ANGLE"));
 ("units", VNone)])]);
 ("rotation_rates", VObj "RotationRateType" [("rotation1", VObj "RotationRateComponentType" [("value", VDec (DFin false 8895%N (-8)%Z));
 ("rate", VEnum "AngleRateKeywordType" "Z_RATE" (lit "Z_RATE"));
 ("units", VNone)]);
 ("rotation2", VObj "RotationRateComponentType" [("value", VDec (DFin true 31525%N (-8)%Z));
 ("rate", VEnum "AngleRateKeywordType" "Y_RATE" (lit "Y_RATE"));
 ("units", VNone)]);
 ("rotation3", VObj "RotationRateComponentType" [("value", VDec (DFin false 3118%N (-8)%Z));
 ("rate", VEnum "AngleRateKeywordType" "X_RATE" (lit "X_RATE"));
 ("units", VNone)])])]);
 ("spin", VNone);
 ("spin_nutation", VNone)]; VObj "AttitudeStateType" [("quaternion_state", VNone);
 ("quaternion_derivative", VNone);
 ("quaternion_euler_rate", VNone);
 ("euler_angle", VNone);
 ("euler_angle_rate", VObj "EulerAngleRateType" [("epoch", VStr (lit "2003-03-04T12:00:13.500"));
 ("rotation_angles", VObj "RotationAngleType" [("rotation1", VObj "RotationAngleComponentType" [("value", VDec (DFin false 1628802%N (-8)%Z));
 ("angle", VEnum "AngleKeywordType" "Z_ANGLE" (lit "Z_ANGLE"));
 ("units", VNone)]);
 ("rotation2", VObj "RotationAngleComponentType" [("value", VDec (DFin true 1789003%N (-8)%Z));
 ("angle", VEnum "AngleKeywordType" "Y_ANGLE" (lit "Y_ANGLE"));
 ("units", VNone)]);
 ("rotation3", VObj "RotationAngleComponentType" [("value", VDec (DFin false 936640%N (-8)%Z));
 ("angle", VEnum "AngleKeywordType" "X_ANGLE" (lit "X_ANGLE"));
 ("units", VNone)])]);
 ("rotation_rates", VObj "RotationRateType" [("rotation1", VObj "RotationRateComponentType" [("value", VDec (DFin false 8895%N (-8)%Z));
 ("rate", VEnum "AngleRateKeywordType" "Z_RATE" (lit "Z_RATE"));
 ("units", VNone)]);
 ("rotation2", VObj "RotationRateComponentType" [("value", VDec (DFin true 31528%N (-8)%Z));
 ("rate", VEnum "AngleRateKeywordType" "Y_RATE" (lit "Y_RATE"));
 ("units", VNone)]);
 ("rotation3", VObj "RotationRateComponentType" [("value", VDec (DFin false 3118%N (-8)%Z));
 ("rate", VEnum "AngleRateKeywordType" "X_RATE" (lit "X_RATE"));
 ("units", VNone)])])]);
 ("spin", VNone);
 ("spin_nutation", VNone)]; VObj "AttitudeStateType" [("quaternion_state", VNone);
 ("quaternion_derivative", VNone);
 ("quaternion_euler_rate", VNone);
 ("euler_angle", VNone);
 ("euler_angle_rate", VObj "EulerAngleRateType" [("epoch", VStr (lit "2003-03-04T12:00:14.000"));
 ("rotation_angles", VObj "RotationAngleType" [("rotation1", VObj "RotationAngleComponentType" [("value", VDec (DFin false 1628896%N (-8)%Z));
 ("angle", VEnum "AngleKeywordType" "Z_ANGLE" (lit "Z_ANGLE"));
 ("units", VNone)]);
 ("rotation2", VObj "RotationAngleComponentType" [("value", VDec (DFin true 1788903%N (-8)%Z));
 ("angle", VEnum "AngleKeywordType" "Y_ANGLE" (lit "Y_ANGLE"));
 ("units", VNone)]);
 ("rotation3", VObj "RotationAngleComponentType" [("value", VDec (DFin false 936312%N (-8)%Z));
 ("angle", VEnum "AngleKeywordType" "X_ANGLE" (lit "X_ANGLE"));
 ("units", VNone)])]);
 ("rotation_rates", VObj "RotationRateType" [("rotation1", VObj "RotationRateComponentType" [("value", VDec (DFin false 8895%N (-8)%Z));
 ("rate", VEnum "AngleRateKeywordType" "Z_RATE" (lit "Z_RATE"));
 ("units", VNone)]);
 ("rotation2", VObj "RotationRateComponentType" [("value", VDec (DFin true 31530%N (-8)%Z));
 ("rate", VEnum "AngleRateKeywordType" "Y_RATE" (lit "Y_RATE"));
 ("units", VNone)]);
 ("rotation3", VObj "RotationRateComponentType" [("value", VDec (DFin false 3118%N (-8)%Z));
 ("rate", VEnum "AngleRateKeywordType" "X_RATE" (lit "X_RATE"));
 ("units", VNone)])])]);
 ("spin", VNone);
 ("spin_nutation", VNone)]; VObj "AttitudeStateType" [("quaternion_state", VNone);
 ("quaternion_derivative", VNone);
 ("quaternion_euler_rate", VNone);
 ("euler_angle", VNone);
 ("euler_angle_rate", VObj "EulerAngleRateType" [("epoch", VStr (lit "2003-03-04T12:00:14.500"));
 ("rotation_angles", VObj "RotationAngleType" [("rotation1", VObj "RotationAngleComponentType" [("value", VDec (DFin false 1628989%N (-8)%Z));
 ("angle", VEnum "AngleKeywordType" "Z_ANGLE" (lit "Z_ANGLE"));
 ("units", VNone)]);
 ("rotation2", VObj "RotationAngleComponentType" [("value", VDec (DFin true 1788804%N (-8)%Z));
 ("angle", VEnum "AngleKeywordType" "Y_ANGLE" (lit "Y_ANGLE"));
 ("units", VNone)]);
 ("rotation3", VObj "RotationAngleComponentType" [("value", VDec (DFin false 935988%N (-8)%Z));
 ("angle", VEnum "AngleKeywordType" "X_ANGLE" (lit "X_ANGLE"));
 ("units", VNone)])]);
 ("rotation_rates", VObj "RotationRateType" [("rotation1", VObj "RotationRateComponentType" [("value", VDec (DFin false 8985%N (-8)%Z));
 ("rate", VEnum "AngleRateKeywordType" "Z_RATE" (lit "Z_RATE"));
 ("units", VNone)]);
 ("rotation2", VObj "RotationRateComponentType" [("value", VDec (DFin false 57309%N (-8)%Z));
 ("rate", VEnum "AngleRateKeywordType" "Y_RATE" (lit "Y_RATE"));
 ("units", VNone)]);
 ("rotation3", VObj "RotationRateComponentType" [("value", VDec (DFin false 2968%N (-8)%Z));
 ("rate", VEnum "AngleRateKeywordType" "X_RATE" (lit "X_RATE"));
 ("units", VNone)])])]);
 ("spin", VNone);
 ("spin_nutation", VNone)]; VObj "AttitudeStateType" [("quaternion_state", VNone);
 ("quaternion_derivative", VNone);
 ("quaternion_euler_rate", VNone);
 ("euler_angle", VNone);
 ("euler_angle_rate", VObj "EulerAngleRateType" [("epoch", VStr (lit "2003-03-04T12:00:15.000"));
 ("rotation_angles", VObj "RotationAngleType" [("rotation1", VObj "RotationAngleComponentType" [("value", VDec (DFin false 1629083%N (-8)%Z));
 ("angle", VEnum "AngleKeywordType" "Z_ANGLE" (lit "Z_ANGLE"));
 ("units", VNone)]);
 ("rotation2", VObj "RotationAngleComponentType" [("value", VDec (DFin true 1788706%N (-8)%Z));
 ("angle", VEnum "AngleKeywordType" "Y_ANGLE" (lit "Y_ANGLE"));
 ("units", VNone)]);
 ("rotation3", VObj "RotationAngleComponentType" [("value", VDec (DFin false 935660%N (-8)%Z));
 ("angle", VEnum "AngleKeywordType" "X_ANGLE" (lit "X_ANGLE"));
 ("units", VNone)])]);
 ("rotation_rates", VObj "RotationRateType" [("rotation1", VObj "RotationRateComponentType" [("value", VDec (DFin false 8895%N (-8)%Z));
 ("rate", VEnum "AngleRateKeywordType" "Z_RATE" (lit "Z_RATE"));
 ("units", VNone)]);
 ("rotation2", VObj "RotationRateComponentType" [("value", VDec (DFin true 31535%N (-8)%Z));
 ("rate", VEnum "AngleRateKeywordType" "Y_RATE" (lit "Y_RATE"));
 ("units", VNone)]);
 ("rotation3", VObj "RotationRateComponentType" [("value", VDec (DFin false 3118%N (-8)%Z));
 ("rate", VEnum "AngleRateKeywordType" "X_RATE" (lit "X_RATE"));
 ("units", VNone)])])]);
 ("spin", VNone);
 ("spin_nutation", VNone)]; VObj "AttitudeStateType" [("quaternion_state", VNone);
 ("quaternion_derivative", VNone);
 ("quaternion_euler_rate", VNone);
 ("euler_angle", VNone);
 ("euler_angle_rate", VObj "EulerAngleRateType" [("epoch", VStr (lit "2003-03-04T12:00:15.500"));
 ("rotation_angles", VObj "RotationAngleType" [("rotation1", VObj "RotationAngleComponentType" [("value", VDec (DFin false 1629177%N (-8)%Z));
 ("angle", VEnum "AngleKeywordType" "Z_ANGLE" (lit "Z_ANGLE"));
 ("units", VNone)]);
 ("rotation2", VObj "RotationAngleComponentType" [("value", VDec (DFin true 1788608%N (-8)%Z));
 ("angle", VEnum "AngleKeywordType" "Y_ANGLE" (lit "Y_ANGLE"));
 ("units", VNone)]);
 ("rotation3", VObj "RotationAngleComponentType" [("value", VDec (DFin false 935332%N (-8)%Z));
 ("angle", VEnum "AngleKeywordType" "X_ANGLE" (lit "X_ANGLE"));
 ("units", VNone)])]);
 ("rotation_rates", VObj "RotationRateType" [("rotation1", VObj "RotationRateComponentType" [("value", VDec (DFin false 8895%N (-8)%Z));
 ("rate", VEnum "AngleRateKeywordType" "Z_RATE" (lit "Z_RATE"));
 ("units", VNone)]);
 ("rotation2", VObj "RotationRateComponentType" [("value", VDec (DFin true 31538%N (-8)%Z));
 ("rate", VEnum "AngleRateKeywordType" "Y_RATE" (lit "Y_RATE"));
 ("units", VNone)]);
 ("rotation3", VObj "RotationRateComponentType" [("value", VDec (DFin false 3118%N (-8)%Z));
 ("rate", VEnum "AngleRateKeywordType" "X_RATE" (lit "X_RATE"));
 ("units", VNone)])])]);
 ("spin", VNone);
 ("spin_nutation", VNone)]; VObj "AttitudeStateType" [("quaternion_state", VNone);
 ("quaternion_derivative", VNone);
 ("quaternion_euler_rate", VNone);
 ("euler_angle", VNone);
 ("euler_angle_rate", VObj "EulerAngleRateType" [("epoch", VStr (lit "2003-03-04T12:00:16.000"));
 ("rotation_angles", VObj "RotationAngleType" [("rotation1", VObj "RotationAngleComponentType" [("value", VDec (DFin false 1629267%N (-8)%Z));
 ("angle", VEnum "AngleKeywordType" "Z_ANGLE" (lit "Z_ANGLE"));
 ("units", VNone)]);
 ("rotation2", VObj "RotationAngleComponentType" [("value", VDec (DFin true 1788494%N (-8)%Z));
 ("angle", VEnum "AngleKeywordType" "Y_ANGLE" (lit "Y_ANGLE"));
 ("units", VNone)]);
 ("rotation3", VObj "RotationAngleComponentType" [("value", VDec (DFin false 935004%N (-8)%Z));
 ("angle", VEnum "AngleKeywordType" "X_ANGLE" (lit "X_ANGLE"));
 ("units", VNone)])]);
 ("rotation_rates", VObj "RotationRateType" [("rotation1", VObj "RotationRateComponentType" [("value", VDec (DFin false 97745%N (-8)%Z));
 ("rate", VEnum "AngleRateKeywordType" "Z_RATE" (lit "Z_RATE"));
 ("units", VNone)]);
 ("rotation2", VObj "RotationRateComponentType" [("value", VDec (DFin true 31549%N (-8)%Z));
 ("rate", VEnum "AngleRateKeywordType" "Y_RATE" (lit "Y_RATE"));
 ("units", VNone)]);
 ("rotation3", VObj "RotationRateComponentType" [("value", VDec (DFin false 3034%N (-8)%Z));
 ("rate", VEnum "AngleRateKeywordType" "X_RATE" (lit "X_RATE"));
 ("units", VNone)])])]);
 ("spin", VNone);
 ("spin_nutation", VNone)]; VObj "AttitudeStateType" [("quaternion_state", VNone);
 ("quaternion_derivative", VNone);
 ("quaternion_euler_rate", VNone);
 ("euler_angle", VNone);
 ("euler_angle_rate", VObj "EulerAngleRateType" [("epoch", VStr (lit "2003-03-04T12:00:16.500"));
 ("rotation_angles", VObj "RotationAngleType" [("rotation1", VObj "RotationAngleComponentType" [("value", VDec (DFin false 1629362%N (-8)%Z));
 ("angle", VEnum "AngleKeywordType" "Z_ANGLE" (lit "Z_ANGLE"));
 ("units", VNone)]);
 ("rotation2", VObj "RotationAngleComponentType" [("value", VDec (DFin true 1788398%N (-8)%Z));
 ("angle", VEnum "AngleKeywordType" "Y_ANGLE" (lit "Y_ANGLE"));
 ("units", VNone)]);
 ("rotation3", VObj "RotationAngleComponentType" [("value", VDec (DFin false 934676%N (-8)%Z));
 ("angle", VEnum "AngleKeywordType" "X_ANGLE" (lit "X_ANGLE"));
 ("units", VNone)])]);
 ("rotation_rates", VObj "RotationRateType" [("rotation1", VObj "RotationRateComponentType" [("value", VDec (DFin false 8895%N (-8)%Z));
 ("rate", VEnum "AngleRateKeywordType" "Z_RATE" (lit "Z_RATE"));
 ("units", VNone)]);
 ("rotation2", VObj "RotationRateComponentType" [("value", VDec (DFin true 31562%N (-8)%Z));
 ("rate", VEnum "AngleRateKeywordType" "Y_RATE" (lit "Y_RATE"));
 ("units", VNone)]);
 ("rotation3", VObj "RotationRateComponentType" [("value", VDec (DFin false 3118%N (-8)%Z));
 ("rate", VEnum "AngleRateKeywordType" "X_RATE" (lit "X_RATE"));
 ("units", VNone)])])]);
 ("spin", VNone);
 ("spin_nutation", VNone)]; VObj "AttitudeStateType" [("quaternion_state", VNone);
 ("quaternion_derivative", VNone);
 ("quaternion_euler_rate", VNone);
 ("euler_angle", VNone);
 ("euler_angle_rate", VObj "EulerAngleRateType" [("epoch", VStr (lit "2003-03-04T12:00:17.000"));
 ("rotation_angles", VObj "RotationAngleType" [("rotation1", VObj "RotationAngleComponentType" [("value", VDec (DFin false 1629456%N (-8)%Z));
 ("angle", VEnum "AngleKeywordType" "Z_ANGLE" (lit "Z_ANGLE"));
 ("units", VNone)]);
 ("rotation2", VObj "RotationAngleComponentType" [("value", VDec (DFin true 1788302%N (-8)%Z));
 ("angle", VEnum "AngleKeywordType" "Y_ANGLE" (lit "Y_ANGLE"));
 ("units", VNone)]);
 ("rotation3", VObj "RotationAngleComponentType" [("value", VDec (DFin false 934348%N (-8)%Z));
 ("angle", VEnum "AngleKeywordType" "X_ANGLE" (lit "X_ANGLE"));
 ("units", VNone)])]);
 ("rotation_rates", VObj "RotationRateType" [("rotation1", VObj "RotationRateComponentType" [("value", VDec (DFin false 8895%N (-8)%Z));
 ("rate", VEnum "AngleRateKeywordType" "Z_RATE" (lit "Z_RATE"));
 ("units", VNone)]);
 ("rotation2", VObj "RotationRateComponentType" [("value", VDec (DFin true 31565%N (-8)%Z));
 ("rate", VEnum "AngleRateKeywordType" "Y_RATE" (lit "Y_RATE"));
 ("units", VNone)]);
 ("rotation3", VObj "RotationRateComponentType" [("value", VDec (DFin false 3118%N (-8)%Z));
 ("rate", VEnum "AngleRateKeywordType" "X_RATE" (lit "X_RATE"));
 ("units", VNone)])])]);
 ("spin", VNone);
 ("spin_nutation", VNone)]; VObj "AttitudeStateType" [("quaternion_state", VNone);
 ("quaternion_derivative", VNone);
 ("quaternion_euler_rate", VNone);
 ("euler_angle", VNone);
 ("euler_angle_rate", VObj "EulerAngleRateType" [("epoch", VStr (lit "2003-03-04T12:00:17.500"));
 ("rotation_angles", VObj "RotationAngleType" [("rotation1", VObj "RotationAngleComponentType" [("value", VDec (DFin false 1629550%N (-8)%Z));
 ("angle", VEnum "AngleKeywordType" "Z_ANGLE" (lit "Z_ANGLE"));
 ("units", VNone)]);
 ("rotation2", VObj "RotationAngleComponentType" [("value", VDec (DFin true 1788208%N (-8)%Z));
 ("angle", VEnum "AngleKeywordType" "Y_ANGLE" (lit "Y_ANGLE"));
 ("units", VNone)]);
 ("rotation3", VObj "RotationAngleComponentType" [("value", VDec (DFin false 934019%N (-8)%Z));
 ("angle", VEnum "AngleKeywordType" "X_ANGLE" (lit "X_ANGLE"));
 ("units", VNone)])]);
 ("rotation_rates", VObj "RotationRateType" [("rotation1", VObj "RotationRateComponentType" [("value", VDec (DFin false 8895%N (-8)%Z));
 ("rate", VEnum "AngleRateKeywordType" "Z_RATE" (lit "Z_RATE"));
 ("units", VNone)]);
 ("rotation2", VObj "RotationRateComponentType" [("value", VDec (DFin true 31567%N (-8)%Z));
 ("rate", VEnum "AngleRateKeywordType" "Y_RATE" (lit "Y_RATE"));
 ("units", VNone)]);
 ("rotation3", VObj "RotationRateComponentType" [("value", VDec (DFin false 3118%N (-8)%Z));
 ("rate", VEnum "AngleRateKeywordType" "X_RATE" (lit "X_RATE"));
 ("units", VNone)])])]);
 ("spin", VNone);
 ("spin_nutation", VNone)]; VObj "AttitudeStateType" [("quaternion_state", VNone);
 ("quaternion_derivative", VNone);
 ("quaternion_euler_rate", VNone);
 ("euler_angle", VNone);
 ("euler_angle_rate", VObj "EulerAngleRateType" [("epoch", VStr (lit "2003-03-04T12:00:18.000"));
 ("rotation_angles", VObj "RotationAngleType" [("rotation1", VObj "RotationAngleComponentType" [("value", VDec (DFin false 1629644%N (-8)%Z));
 ("angle", VEnum "AngleKeywordType" "Z_ANGLE" (lit "Z_ANGLE"));
 ("units", VNone)]);
 ("rotation2", VObj "RotationAngleComponentType" [("value", VDec (DFin true 1788115%N (-8)%Z));
 ("angle", VEnum "AngleKeywordType" "Y_ANGLE" (lit "Y_ANGLE"));
 ("units", VNone)]);
 ("rotation3", VObj "RotationAngleComponentType" [("value", VDec (DFin false 933691%N (-8)%Z));
 ("angle", VEnum "AngleKeywordType" "X_ANGLE" (lit "X_ANGLE"));
 ("units", VNone)])]);
 ("rotation_rates", VObj "RotationRateType" [("rotation1", VObj "RotationRateComponentType" [("value", VDec (DFin false 8895%N (-8)%Z));
 ("rate", VEnum "AngleRateKeywordType" "Z_RATE" (lit "Z_RATE"));
 ("units", VNone)]);
 ("rotation2", VObj "RotationRateComponentType" [("value", VDec (DFin true 31570%N (-8)%Z));
 ("rate", VEnum "AngleRateKeywordType" "Y_RATE" (lit "Y_RATE"));
 ("units", VNone)]);
 ("rotation3", VObj "RotationRateComponentType" [("value", VDec (DFin false 3118%N (-8)%Z));
 ("rate", VEnum "AngleRateKeywordType" "X_RATE" (lit "X_RATE"));
 ("units", VNone)])])]);
 ("spin", VNone);
 ("spin_nutation", VNone)]; VObj "AttitudeStateType" [("quaternion_state", VNone);
 ("quaternion_derivative", VNone);
 ("quaternion_euler_rate", VNone);
 ("euler_angle", VNone);
 ("euler_angle_rate", VObj "EulerAngleRateType" [("epoch", VStr (lit "2003-03-04T12:00:18.500"));
 ("rotation_angles", VObj "RotationAngleType" [("rotation1", VObj "RotationAngleComponentType" [("value", VDec (DFin false 1629738%N (-8)%Z));
 ("angle", VEnum "AngleKeywordType" "Z_ANGLE" (lit "Z_ANGLE"));
 ("units", VNone)]);
 ("rotation2", VObj "RotationAngleComponentType" [("value", VDec (DFin true 1788022%N (-8)%Z));
 ("angle", VEnum "AngleKeywordType" "Y_ANGLE" (lit "Y_ANGLE"));
 ("units", VNone)]);
 ("rotation3", VObj "RotationAngleComponentType" [("value", VDec (DFin false 933363%N (-8)%Z));
 ("angle", VEnum "AngleKeywordType" "X_ANGLE" (lit "X_ANGLE"));
 ("units", VNone)])]);
 ("rotation_rates", VObj "RotationRateType" [("rotation1", VObj "RotationRateComponentType" [("value", VDec (DFin false 8895%N (-8)%Z));
 ("rate", VEnum "AngleRateKeywordType" "Z_RATE" (lit "Z_RATE"));
 ("units", VNone)]);
 ("rotation2", VObj "RotationRateComponentType" [("value", VDec (DFin true 31572%N (-8)%Z));
 ("rate", VEnum "AngleRateKeywordType" "Y_RATE" (lit "Y_RATE"));
 ("units", VNone)]);
 ("rotation3", VObj "RotationRateComponentType" [("value", VDec (DFin false 3118%N (-8)%Z));
 ("rate", VEnum "AngleRateKeywordType" "X_RATE" (lit "X_RATE"));
 ("units", VNone)])])]);
 ("spin", VNone);
 ("spin_nutation", VNone)]; VObj "AttitudeStateType" [("quaternion_state", VNone);
 ("quaternion_derivative", VNone);
 ("quaternion_euler_rate", VNone);
 ("euler_angle", VNone);
 ("euler_angle_rate", VObj "EulerAngleRateType" [("epoch", VStr (lit "2003-03-04T12:00:19.000"));
 ("rotation_angles", VObj "RotationAngleType" [("rotation1", VObj "RotationAngleComponentType" [("value", VDec (DFin false 1629831%N (-8)%Z));
 ("angle", VEnum "AngleKeywordType" "Z_ANGLE" (lit "Z_ANGLE"));
 ("units", VNone)]);
 ("rotation2", VObj "RotationAngleComponentType" [("value", VDec (DFin true 1787932%N (-8)%Z));
 ("angle", VEnum "AngleKeywordType" "Y_ANGLE" (lit "Y_ANGLE"));
 ("units", VNone)]);
 ("rotation3", VObj "RotationAngleComponentType" [("value", VDec (DFin false 933039%N (-8)%Z));
 ("angle", VEnum "AngleKeywordType" "X_ANGLE" (lit "X_ANGLE"));
 ("units", VNone)])]);
 ("rotation_rates", VObj "RotationRateType" [("rotation1", VObj "RotationRateComponentType" [("value", VDec (DFin false 8985%N (-8)%Z));
 ("rate", VEnum "AngleRateKeywordType" "Z_RATE" (lit "Z_RATE"));
 ("units", VNone)]);
 ("rotation2", VObj "RotationRateComponentType" [("value", VDec (DFin false 57267%N (-8)%Z));
 ("rate", VEnum "AngleRateKeywordType" "Y_RATE" (lit "Y_RATE"));
 ("units", VNone)]);
 ("rotation3", VObj "RotationRateComponentType" [("value", VDec (DFin false 2968%N (-8)%Z));
 ("rate", VEnum "AngleRateKeywordType" "X_RATE" (lit "X_RATE"));
 ("units", VNone)])])]);
 ("spin", VNone);
 ("spin_nutation", VNone)]; VObj "AttitudeStateType" [("quaternion_state", VNone);
 ("quaternion_derivative", VNone);
 ("quaternion_euler_rate", VNone);
 ("euler_angle", VNone);
 ("euler_angle_rate", VObj "EulerAngleRateType" [("epoch", VStr (lit "2003-03-04T12:00:19.500"));
 ("rotation_angles", VObj "RotationAngleType" [("rotation1", VObj "RotationAngleComponentType" [("value", VDec (DFin false 1629925%N (-8)%Z));
 ("angle", VEnum "AngleKeywordType" "Z_ANGLE" (lit "Z_ANGLE"));
 ("units", VNone)]);
 ("rotation2", VObj "RotationAngleComponentType" [("value", VDec (DFin true 1787841%N (-8)%Z));
 ("angle", VEnum "AngleKeywordType" "Y_ANGLE" (lit "Y_ANGLE"));
 ("units", VNone)]);
 ("rotation3", VObj "RotationAngleComponentType" [("value", VDec (DFin false 932711%N (-8)%Z));
 ("angle", VEnum "AngleKeywordType" "X_ANGLE" (lit "X_ANGLE"));
 ("units", VNone)])]);
 ("rotation_rates", VObj "RotationRateType" [("rotation1", VObj "RotationRateComponentType" [("value", VDec (DFin false 8895%N (-8)%Z));
 ("rate", VEnum "AngleRateKeywordType" "Z_RATE" (lit "Z_RATE"));
 ("units", VNone)]);
 ("rotation2", VObj "RotationRateComponentType" [("value", VDec (DFin true 31577%N (-8)%Z));
 ("rate", VEnum "AngleRateKeywordType" "Y_RATE" (lit "Y_RATE"));
 ("units", VNone)]);
 ("rotation3", VObj "RotationRateComponentType" [("value", VDec (DFin false 3118%N (-8)%Z));
 ("rate", VEnum "AngleRateKeywordType" "X_RATE" (lit "X_RATE"));
 ("units", VNone)])])]);
 ("spin", VNone);
 ("spin_nutation", VNone)]; VObj "AttitudeStateType" [("quaternion_state", VNone);
 ("quaternion_derivative", VNone);
 ("quaternion_euler_rate", VNone);
 ("euler_angle", VNone);
 ("euler_angle_rate", VObj "EulerAngleRateType" [("epoch", VStr (lit "2003-03-04T12:00:20.000"));
 ("rotation_angles", VObj "RotationAngleType" [("rotation1", VObj "RotationAngleComponentType" [("value", VDec (DFin false 1630020%N (-8)%Z));
 ("angle", VEnum "AngleKeywordType" "Z_ANGLE" (lit "Z_ANGLE"));
 ("units", VNone)]);
 ("rotation2", VObj "RotationAngleComponentType" [("value", VDec (DFin true 1787752%N (-8)%Z));
 ("angle", VEnum "AngleKeywordType" "Y_ANGLE" (lit "Y_ANGLE"));
 ("units", VNone)]);
 ("rotation3", VObj "RotationAngleComponentType" [("value", VDec (DFin false 932383%N (-8)%Z));
 ("angle", VEnum "AngleKeywordType" "X_ANGLE" (lit "X_ANGLE"));
 ("units", VNone)])]);
 ("rotation_rates", VObj "RotationRateType" [("rotation1", VObj "RotationRateComponentType" [("value", VDec (DFin false 8895%N (-8)%Z));
 ("rate", VEnum "AngleRateKeywordType" "Z_RATE" (lit "Z_RATE"));
 ("units", VNone)]);
 ("rotation2", VObj "RotationRateComponentType" [("value", VDec (DFin true 31501%N (-8)%Z));
 ("rate", VEnum "AngleRateKeywordType" "Y_RATE" (lit "Y_RATE"));
 ("units", VNone)]);
 ("rotation3", VObj "RotationRateComponentType" [("value", VDec (DFin false 3118%N (-8)%Z));
 ("rate", VEnum "AngleRateKeywordType" "X_RATE" (lit "X_RATE"));
 ("units", VNone)])])]);
 ("spin", VNone);
 ("spin_nutation", VNone)]; VObj "AttitudeStateType" [("quaternion_state", VNone);
 ("quaternion_derivative", VNone);
 ("quaternion_euler_rate", VNone);
 ("euler_angle", VNone);
 ("euler_angle_rate", VObj "EulerAngleRateType" [("epoch", VStr (lit "2003-03-04T12:00:20.500"));
 ("rotation_angles", VObj "RotationAngleType" [("rotation1", VObj "RotationAngleComponentType" [("value", VDec (DFin false 1630114%N (-8)%Z));
 ("angle", VEnum "AngleKeywordType" "Z_ANGLE" (lit "Z_ANGLE"));
 ("units", VNone)]);
 ("rotation2", VObj "RotationAngleComponentType" [("value", VDec (DFin true 1787663%N (-8)%Z));
 ("angle", VEnum "AngleKeywordType" "Y_ANGLE" (lit "Y_ANGLE"));
 ("units", VNone)]);
 ("rotation3", VObj "RotationAngleComponentType" [("value", VDec (DFin false 932054%N (-8)%Z));
 ("angle", VEnum "AngleKeywordType" "X_ANGLE" (lit "X_ANGLE"));
 ("units", VNone)])]);
 ("rotation_rates", VObj "RotationRateType" [("rotation1", VObj "RotationRateComponentType" [("value", VDec (DFin false 8895%N (-8)%Z));
 ("rate", VEnum "AngleRateKeywordType" "Z_RATE" (lit "Z_RATE"));
 ("units", VNone)]);
 ("rotation2", VObj "RotationRateComponentType" [("value", VDec (DFin true 31606%N (-8)%Z));
 ("rate", VEnum "AngleRateKeywordType" "Y_RATE" (lit "Y_RATE"));
 ("units", VNone)]);
 ("rotation3", VObj "RotationRateComponentType" [("value", VDec (DFin false 3118%N (-8)%Z));
 ("rate", VEnum "AngleRateKeywordType" "X_RATE" (lit "X_RATE"));
 ("units", VNone)])])]);
 ("spin", VNone);
 ("spin_nutation", VNone)]; VObj "AttitudeStateType" [("quaternion_state", VNone);
 ("quaternion_derivative", VNone);
 ("quaternion_euler_rate", VNone);
 ("euler_angle", VNone);
 ("euler_angle_rate", VObj "EulerAngleRateType" [("epoch", VStr (lit "2003-03-04T12:00:21.000"));
 ("rotation_angles", VObj "RotationAngleType" [("rotation1", VObj "RotationAngleComponentType" [("value", VDec (DFin false 1630208%N (-8)%Z));
 ("angle", VEnum "AngleKeywordType" "Z_ANGLE" (lit "Z_ANGLE"));
 ("units", VNone)]);
 ("rotation2", VObj "RotationAngleComponentType" [("value", VDec (DFin true 1787574%N (-8)%Z));
 ("angle", VEnum "AngleKeywordType" "Y_ANGLE" (lit "Y_ANGLE"));
 ("units", VNone)]);
 ("rotation3", VObj "RotationAngleComponentType" [("value", VDec (DFin false 931726%N (-8)%Z));
 ("angle", VEnum "AngleKeywordType" "X_ANGLE" (lit "X_ANGLE"));
 ("units", VNone)])]);
 ("rotation_rates", VObj "RotationRateType" [("rotation1", VObj "RotationRateComponentType" [("value", VDec (DFin false 8895%N (-8)%Z));
 ("rate", VEnum "AngleRateKeywordType" "Z_RATE" (lit "Z_RATE"));
 ("units", VNone)]);
 ("rotation2", VObj "RotationRateComponentType" [("value", VDec (DFin true 31609%N (-8)%Z));
 ("rate", VEnum "AngleRateKeywordType" "Y_RATE" (lit "Y_RATE"));
 ("units", VNone)]);
 ("rotation3", VObj "RotationRateComponentType" [("value", VDec (DFin false 3118%N (-8)%Z));
 ("rate", VEnum "AngleRateKeywordType" "X_RATE" (lit "X_RATE"));
 ("units", VNone)])])]);
 ("spin", VNone);
 ("spin_nutation", VNone)]; VObj "AttitudeStateType" [("quaternion_state", VNone);
 ("quaternion_derivative", VNone);
 ("quaternion_euler_rate", VNone);
 ("euler_angle", VNone);
 ("euler_angle_rate", VObj "EulerAngleRateType" [("epoch", VStr (lit "2003-03-04T12:00:21.500"));
 ("rotation_angles", VObj "RotationAngleType" [("rotation1", VObj "RotationAngleComponentType" [("value", VDec (DFin false 1630301%N (-8)%Z));
 ("angle", VEnum "AngleKeywordType" "Z_ANGLE" (lit "Z_ANGLE"));
 ("units", VNone)]);
 ("rotation2", VObj "RotationAngleComponentType" [("value", VDec (DFin true 1787488%N (-8)%Z));
 ("angle", VEnum "AngleKeywordType" "Y_ANGLE" (lit "Y_ANGLE"));
 ("units", VNone)]);
 ("rotation3", VObj "RotationAngleComponentType" [("value", VDec (DFin false 931402%N (-8)%Z));
 ("angle", VEnum "AngleKeywordType" "X_ANGLE" (lit "X_ANGLE"));
 ("units", VNone)])]);
 ("rotation_rates", VObj "RotationRateType" [("rotation1", VObj "RotationRateComponentType" [("value", VDec (DFin false 8985%N (-8)%Z));
 ("rate", VEnum "AngleRateKeywordType" "Z_RATE" (lit "Z_RATE"));
 ("units", VNone)]);
 ("rotation2", VObj "RotationRateComponentType" [("value", VDec (DFin false 57230%N (-8)%Z));
 ("rate", VEnum "AngleRateKeywordType" "Y_RATE" (lit "Y_RATE"));
 ("units", VNone)]);
 ("rotation3", VObj "RotationRateComponentType" [("value", VDec (DFin false 2968%N (-8)%Z));
 ("rate", VEnum "AngleRateKeywordType" "X_RATE" (lit "X_RATE"));
 ("units", VNone)])])]);
 ("spin", VNone);
 ("spin_nutation", VNone)]; VObj "AttitudeStateType" [("quaternion_state", VNone);
 ("quaternion_derivative", VNone);
 ("quaternion_euler_rate", VNone);
 ("euler_angle", VNone);
 ("euler_angle_rate", VObj "EulerAngleRateType" [("epoch", VStr (lit "2003-03-04T12:00:22.000"));
 ("rotation_angles", VObj "RotationAngleType" [("rotation1", VObj "RotationAngleComponentType" [("value", VDec (DFin false 1630395%N (-8)%Z));
 ("angle", VEnum "AngleKeywordType" "Z_ANGLE" (lit "Z_ANGLE"));
 ("units", VNone)]);
 ("rotation2", VObj "RotationAngleComponentType" [("value", VDec (DFin true 1787402%N (-8)%Z));
 ("angle", VEnum "AngleKeywordType" "Y_ANGLE" (lit "Y_ANGLE"));
 ("units", VNone)]);
 ("rotation3", VObj "RotationAngleComponentType" [("value", VDec (DFin false 931074%N (-8)%Z));
 ("angle", VEnum "AngleKeywordType" "X_ANGLE" (lit "X_ANGLE"));
 ("units", VNone)])]);
 ("rotation_rates", VObj "RotationRateType" [("rotation1", VObj "RotationRateComponentType" [("value", VDec (DFin false 8895%N (-8)%Z));
 ("rate", VEnum "AngleRateKeywordType" "Z_RATE" (lit "Z_RATE"));
 ("units", VNone)]);
 ("rotation2", VObj "RotationRateComponentType" [("value", VDec (DFin true 31614%N (-8)%Z));
 ("rate", VEnum "AngleRateKeywordType" "Y_RATE" (lit "Y_RATE"));
 ("units", VNone)]);
 ("rotation3", VObj "RotationRateComponentType" [("value", VDec (DFin false 3118%N (-8)%Z));
 ("rate", VEnum "AngleRateKeywordType" "X_RATE" (lit "X_RATE"));
 ("units", VNone)])])]);
 ("spin", VNone);
 ("spin_nutation", VNone)]; VObj "AttitudeStateType" [("quaternion_state", VNone);
 ("quaternion_derivative", VNone);
 ("quaternion_euler_rate", VNone);
 ("euler_angle", VNone);
 ("euler_angle_rate", VObj "EulerAngleRateType" [("epoch", VStr (lit "2003-03-04T12:00:22.500"));
 ("rotation_angles", VObj "RotationAngleType" [("rotation1", VObj "RotationAngleComponentType" [("value", VDec (DFin false 1630490%N (-8)%Z));
 ("angle", VEnum "AngleKeywordType" "Z_ANGLE" (lit "Z_ANGLE"));
 ("units", VNone)]);
 ("rotation2", VObj "RotationAngleComponentType" [("value", VDec (DFin true 1787317%N (-8)%Z));
 ("angle", VEnum "AngleKeywordType" "Y_ANGLE" (lit "Y_ANGLE"));
 ("units", VNone)]);
 ("rotation3", VObj "RotationAngleComponentType" [("value", VDec (DFin false 930746%N (-8)%Z));
 ("angle", VEnum "AngleKeywordType" "X_ANGLE" (lit "X_ANGLE"));
 ("units", VNone)])]);
 ("rotation_rates", VObj "RotationRateType" [("rotation1", VObj "RotationRateComponentType" [("value", VDec (DFin false 8895%N (-8)%Z));
 ("rate", VEnum "AngleRateKeywordType" "Z_RATE" (lit "Z_RATE"));
 ("units", VNone)]);
 ("rotation2", VObj "RotationRateComponentType" [("value", VDec (DFin true 31617%N (-8)%Z));
 ("rate", VEnum "AngleRateKeywordType" "Y_RATE" (lit "Y_RATE"));
 ("units", VNone)]);
 ("rotation3", VObj "RotationRateComponentType" [("value", VDec (DFin false 3118%N (-8)%Z));
 ("rate", VEnum "AngleRateKeywordType" "X_RATE" (lit "X_RATE"));
 ("units", VNone)])])]);
 ("spin", VNone);
 ("spin_nutation", VNone)]; VObj "AttitudeStateType" [("quaternion_state", VNone);
 ("quaternion_derivative", VNone);
 ("quaternion_euler_rate", VNone);
 ("euler_angle", VNone);
 ("euler_angle_rate", VObj "EulerAngleRateType" [("epoch", VStr (lit "2003-03-04T12:00:23.000"));
 ("rotation_angles", VObj "RotationAngleType" [("rotation1", VObj "RotationAngleComponentType" [("value", VDec (DFin false 1630584%N (-8)%Z));
 ("angle", VEnum "AngleKeywordType" "Z_ANGLE" (lit "Z_ANGLE"));
 ("units", VNone)]);
 ("rotation2", VObj "RotationAngleComponentType" [("value", VDec (DFin true 1787232%N (-8)%Z));
 ("angle", VEnum "AngleKeywordType" "Y_ANGLE" (lit "Y_ANGLE"));
 ("units", VNone)]);
 ("rotation3", VObj "RotationAngleComponentType" [("value", VDec (DFin false 930418%N (-8)%Z));
 ("angle", VEnum "AngleKeywordType" "X_ANGLE" (lit "X_ANGLE"));
 ("units", VNone)])]);
 ("rotation_rates", VObj "RotationRateType" [("rotation1", VObj "RotationRateComponentType" [("value", VDec (DFin false 8895%N (-8)%Z));
 ("rate", VEnum "AngleRateKeywordType" "Z_RATE" (lit "Z_RATE"));
 ("units", VNone)]);
 ("rotation2", VObj "RotationRateComponentType" [("value", VDec (DFin true 31619%N (-8)%Z));
 ("rate", VEnum "AngleRateKeywordType" "Y_RATE" (lit "Y_RATE"));
 ("units", VNone)]);
 ("rotation3", VObj "RotationRateComponentType" [("value", VDec (DFin false 3118%N (-8)%Z));
 ("rate", VEnum "AngleRateKeywordType" "X_RATE" (lit "X_RATE"));
 ("units", VNone)])])]);
 ("spin", VNone);
 ("spin_nutation", VNone)]; VObj "AttitudeStateType" [("quaternion_state", VNone);
 ("quaternion_derivative", VNone);
 ("quaternion_euler_rate", VNone);
 ("euler_angle", VNone);
 ("euler_angle_rate", VObj "EulerAngleRateType" [("epoch", VStr (lit "2003-03-04T12:00:23.500"));
 ("rotation_angles", VObj "RotationAngleType" [("rotation1", VObj "RotationAngleComponentType" [("value", VDec (DFin false 1630678%N (-8)%Z));
 ("angle", VEnum "AngleKeywordType" "Z_ANGLE" (lit "Z_ANGLE"));
 ("units", VNone)]);
 ("rotation2", VObj "RotationAngleComponentType" [("value", VDec (DFin true 1787148%N (-8)%Z));
 ("angle", VEnum "AngleKeywordType" "Y_ANGLE" (lit "Y_ANGLE"));
 ("units", VNone)]);
 ("rotation3", VObj "RotationAngleComponentType" [("value", VDec (DFin false 930090%N (-8)%Z));
 ("angle", VEnum "AngleKeywordType" "X_ANGLE" (lit "X_ANGLE"));
 ("units", VNone)])]);
 ("rotation_rates", VObj "RotationRateType" [("rotation1", VObj "RotationRateComponentType" [("value", VDec (DFin false 8895%N (-8)%Z));
 ("rate", VEnum "AngleRateKeywordType" "Z_RATE" (lit "Z_RATE"));
 ("units", VNone)]);
 ("rotation2", VObj "RotationRateComponentType" [("value", VDec (DFin true 31622%N (-8)%Z));
 ("rate", VEnum "AngleRateKeywordType" "Y_RATE" (lit "Y_RATE"));
 ("units", VNone)]);
 ("rotation3", VObj "RotationRateComponentType" [("value", VDec (DFin false 3118%N (-8)%Z));
 ("rate", VEnum "AngleRateKeywordType" "X_RATE" (lit "X_RATE"));
 ("units", VNone)])])]);
 ("spin", VNone);
 ("spin_nutation", VNone)]; VObj "AttitudeStateType" [("quaternion_state", VNone);
 ("quaternion_derivative", VNone);
 ("quaternion_euler_rate", VNone);
 ("euler_angle", VNone);
 ("euler_angle_rate", VObj "EulerAngleRateType" [("epoch", VStr (lit "2003-03-04T12:00:24.000"));
 ("rotation_angles", VObj "RotationAngleType" [("rotation1", VObj "RotationAngleComponentType" [("value", VDec (DFin false 1630772%N (-8)%Z));
 ("angle", VEnum "AngleKeywordType" "Z_ANGLE" (lit "Z_ANGLE"));
 ("units", VNone)]);
 ("rotation2", VObj "RotationAngleComponentType" [("value", VDec (DFin true 1787065%N (-8)%Z));
 ("angle", VEnum "AngleKeywordType" "Y_ANGLE" (lit "Y_ANGLE"));
 ("units", VNone)]);
 ("rotation3", VObj "RotationAngleComponentType" [("value", VDec (DFin false 929762%N (-8)%Z));
 ("angle", VEnum "AngleKeywordType" "X_ANGLE" (lit "X_ANGLE"));
 ("units", VNone)])]);
 ("rotation_rates", VObj "RotationRateType" [("rotation1", VObj "RotationRateComponentType" [("value", VDec (DFin false 8895%N (-8)%Z));
 ("rate", VEnum "AngleRateKeywordType" "Z_RATE" (lit "Z_RATE"));
 ("units", VNone)]);
 ("rotation2", VObj "RotationRateComponentType" [("value", VDec (DFin true 31521%N (-8)%Z));
 ("rate", VEnum "AngleRateKeywordType" "Y_RATE" (lit "Y_RATE"));
 ("units", VNone)]);
 ("rotation3", VObj "RotationRateComponentType" [("value", VDec (DFin false 3118%N (-8)%Z));
 ("rate", VEnum "AngleRateKeywordType" "X_RATE" (lit "X_RATE"));
 ("units", VNone)])])]);
 ("spin", VNone);
 ("spin_nutation", VNone)]; VObj "AttitudeStateType" [("quaternion_state", VNone);
 ("quaternion_derivative", VNone);
 ("quaternion_euler_rate", VNone);
 ("euler_angle", VNone);
 ("euler_angle_rate", VObj "EulerAngleRateType" [("epoch", VStr (lit "2003-03-04T12:00:24.500"));
 ("rotation_angles", VObj "RotationAngleType" [("rotation1", VObj "RotationAngleComponentType" [("value", VDec (DFin false 1630863%N (-8)%Z));
 ("angle", VEnum "AngleKeywordType" "Z_ANGLE" (lit "Z_ANGLE"));
 ("units", VNone)]);
 ("rotation2", VObj "RotationAngleComponentType" [("value", VDec (DFin true 1786966%N (-8)%Z));
 ("angle", VEnum "AngleKeywordType" "Y_ANGLE" (lit "Y_ANGLE"));
 ("units", VNone)]);
 ("rotation3", VObj "RotationAngleComponentType" [("value", VDec (DFin false 929434%N (-8)%Z));
 ("angle", VEnum "AngleKeywordType" "X_ANGLE" (lit "X_ANGLE"));
 ("units", VNone)])]);
 ("rotation_rates", VObj "RotationRateType" [("rotation1", VObj "RotationRateComponentType" [("value", VDec (DFin false 97745%N (-8)%Z));
 ("rate", VEnum "AngleRateKeywordType" "Z_RATE" (lit "Z_RATE"));
 ("units", VNone)]);
 ("rotation2", VObj "RotationRateComponentType" [("value", VDec (DFin true 31708%N (-8)%Z));
 ("rate", VEnum "AngleRateKeywordType" "Y_RATE" (lit "Y_RATE"));
 ("units", VNone)]);
 ("rotation3", VObj "RotationRateComponentType" [("value", VDec (DFin false 3034%N (-8)%Z));
 ("rate", VEnum "AngleRateKeywordType" "X_RATE" (lit "X_RATE"));
 ("units", VNone)])])]);
 ("spin", VNone);
 ("spin_nutation", VNone)]; VObj "AttitudeStateType" [("quaternion_state", VNone);
 ("quaternion_derivative", VNone);
 ("quaternion_euler_rate", VNone);
 ("euler_angle", VNone);
 ("euler_angle_rate", VObj "EulerAngleRateType" [("epoch", VStr (lit "2003-03-04T12:00:25.000"));
 ("rotation_angles", VObj "RotationAngleType" [("rotation1", VObj "RotationAngleComponentType" [("value", VDec (DFin false 1630958%N (-8)%Z));
 ("angle", VEnum "AngleKeywordType" "Z_ANGLE" (lit "Z_ANGLE"));
 ("units", VNone)]);
 ("rotation2", VObj "RotationAngleComponentType" [("value", VDec (DFin true 1786885%N (-8)%Z));
 ("angle", VEnum "AngleKeywordType" "Y_ANGLE" (lit "Y_ANGLE"));
 ("units", VNone)]);
 ("rotation3", VObj "RotationAngleComponentType" [("value", VDec (DFin false 929106%N (-8)%Z));
 ("angle", VEnum "AngleKeywordType" "X_ANGLE" (lit "X_ANGLE"));
 ("units", VNone)])]);
 ("rotation_rates", VObj "RotationRateType" [("rotation1", VObj "RotationRateComponentType" [("value", VDec (DFin false 8895%N (-8)%Z));
 ("rate", VEnum "AngleRateKeywordType" "Z_RATE" (lit "Z_RATE"));
 ("units", VNone)]);
 ("rotation2", VObj "RotationRateComponentType" [("value", VDec (DFin true 31643%N (-8)%Z));
 ("rate", VEnum "AngleRateKeywordType" "Y_RATE" (lit "Y_RATE"));
 ("units", VNone)]);
 ("rotation3", VObj "RotationRateComponentType" [("value", VDec (DFin false 3118%N (-8)%Z));
 ("rate", VEnum "AngleRateKeywordType" "X_RATE" (lit "X_RATE"));
 ("units", VNone)])])]);
 ("spin", VNone);
 ("spin_nutation", VNone)]; VObj "AttitudeStateType" [("quaternion_state", VNone);
 ("quaternion_derivative", VNone);
 ("quaternion_euler_rate", VNone);
 ("euler_angle", VNone);
 ("euler_angle_rate", VObj "EulerAngleRateType" [("epoch", VStr (lit "2003-03-04T12:00:25.500"));
 ("rotation_angles", VObj "RotationAngleType" [("rotation1", VObj "RotationAngleComponentType" [("value", VDec (DFin false 1631052%N (-8)%Z));
 ("angle", VEnum "AngleKeywordType" "Z_ANGLE" (lit "Z_ANGLE"));
 ("units", VNone)]);
 ("rotation2", VObj "RotationAngleComponentType" [("value", VDec (DFin true 1786804%N (-8)%Z));
 ("angle", VEnum "AngleKeywordType" "Y_ANGLE" (lit "Y_ANGLE"));
 ("units", VNone)]);
 ("rotation3", VObj "RotationAngleComponentType" [("value", VDec (DFin false 928778%N (-8)%Z));
 ("angle", VEnum "AngleKeywordType" "X_ANGLE" (lit "X_ANGLE"));
 ("units", VNone)])]);
 ("rotation_rates", VObj "RotationRateType" [("rotation1", VObj "RotationRateComponentType" [("value", VDec (DFin false 8895%N (-8)%Z));
 ("rate", VEnum "AngleRateKeywordType" "Z_RATE" (lit "Z_RATE"));
 ("units", VNone)]);
 ("rotation2", VObj "RotationRateComponentType" [("value", VDec (DFin true 31645%N (-8)%Z));
 ("rate", VEnum "AngleRateKeywordType" "Y_RATE" (lit "Y_RATE"));
 ("units", VNone)]);
 ("rotation3", VObj "RotationRateComponentType" [("value", VDec (DFin false 3118%N (-8)%Z));
 ("rate", VEnum "AngleRateKeywordType" "X_RATE" (lit "X_RATE"));
 ("units", VNone)])])]);
 ("spin", VNone);
 ("spin_nutation", VNone)]; VObj "AttitudeStateType" [("quaternion_state", VNone);
 ("quaternion_derivative", VNone);
 ("quaternion_euler_rate", VNone);
 ("euler_angle", VNone);
 ("euler_angle_rate", VObj "EulerAngleRateType" [("epoch", VStr (lit "2003-03-04T12:00:26.000"));
 ("rotation_angles", VObj "RotationAngleType" [("rotation1", VObj "RotationAngleComponentType" [("value", VDec (DFin false 1631146%N (-8)%Z));
 ("angle", VEnum "AngleKeywordType" "Z_ANGLE" (lit "Z_ANGLE"));
 ("units", VNone)]);
 ("rotation2", VObj "RotationAngleComponentType" [("value", VDec (DFin true 1786725%N (-8)%Z));
 ("angle", VEnum "AngleKeywordType" "Y_ANGLE" (lit "Y_ANGLE"));
 ("units", VNone)]);
 ("rotation3", VObj "RotationAngleComponentType" [("value", VDec (DFin false 928450%N (-8)%Z));
 ("angle", VEnum "AngleKeywordType" "X_ANGLE" (lit "X_ANGLE"));
 ("units", VNone)])]);
 ("rotation_rates", VObj "RotationRateType" [("rotation1", VObj "RotationRateComponentType" [("value", VDec (DFin false 8895%N (-8)%Z));
 ("rate", VEnum "AngleRateKeywordType" "Z_RATE" (lit "Z_RATE"));
 ("units", VNone)]);
 ("rotation2", VObj "RotationRateComponentType" [("value", VDec (DFin true 31648%N (-8)%Z));
 ("rate", VEnum "AngleRateKeywordType" "Y_RATE" (lit "Y_RATE"));
 ("units", VNone)]);
 ("rotation3", VObj "RotationRateComponentType" [("value", VDec (DFin false 3118%N (-8)%Z));
 ("rate", VEnum "AngleRateKeywordType" "X_RATE" (lit "X_RATE"));
 ("units", VNone)])])]);
 ("spin", VNone);
 ("spin_nutation", VNone)]; VObj "AttitudeStateType" [("quaternion_state", VNone);
 ("quaternion_derivative", VNone);
 ("quaternion_euler_rate", VNone);
 ("euler_angle", VNone);
 ("euler_angle_rate", VObj "EulerAngleRateType" [("epoch", VStr (lit "2003-03-04T12:00:26.500"));
 ("rotation_angles", VObj "RotationAngleType" [("rotation1", VObj "RotationAngleComponentType" [("value", VDec (DFin false 1631239%N (-8)%Z));
 ("angle", VEnum "AngleKeywordType" "Z_ANGLE" (lit "Z_ANGLE"));
 ("units", VNone)]);
 ("rotation2", VObj "RotationAngleComponentType" [("value", VDec (DFin true 1786648%N (-8)%Z));
 ("angle", VEnum "AngleKeywordType" "Y_ANGLE" (lit "Y_ANGLE"));
 ("units", VNone)]);
 ("rotation3", VObj "RotationAngleComponentType" [("value", VDec (DFin false 928126%N (-8)%Z));
 ("angle", VEnum "AngleKeywordType" "X_ANGLE" (lit "X_ANGLE"));
 ("units", VNone)])]);
 ("rotation_rates", VObj "RotationRateType" [("rotation1", VObj "RotationRateComponentType" [("value", VDec (DFin false 8985%N (-8)%Z));
 ("rate", VEnum "AngleRateKeywordType" "Z_RATE" (lit "Z_RATE"));
 ("units", VNone)]);
 ("rotation2", VObj "RotationRateComponentType" [("value", VDec (DFin false 57191%N (-8)%Z));
 ("rate", VEnum "AngleRateKeywordType" "Y_RATE" (lit "Y_RATE"));
 ("units", VNone)]);
 ("rotation3", VObj "RotationRateComponentType" [("value", VDec (DFin false 2968%N (-8)%Z));
 ("rate", VEnum "AngleRateKeywordType" "X_RATE" (lit "X_RATE"));
 ("units", VNone)])])]);
 ("spin", VNone);
 ("spin_nutation", VNone)]; VObj "AttitudeStateType" [("quaternion_state", VNone);
 ("quaternion_derivative", VNone);
 ("quaternion_euler_rate", VNone);
 ("euler_angle", VNone);
 ("euler_angle_rate", VObj "EulerAngleRateType" [("epoch", VStr (lit "2003-03-04T12:00:27.000"));
 ("rotation_angles", VObj "RotationAngleType" [("rotation1", VObj "RotationAngleComponentType" [("value", VDec (DFin false 1631334%N (-8)%Z));
 ("angle", VEnum "AngleKeywordType" "Z_ANGLE" (lit "Z_ANGLE"));
 ("units", VNone)]);
 ("rotation2", VObj "RotationAngleComponentType" [("value", VDec (DFin true 1786570%N (-8)%Z));
 ("angle", VEnum "AngleKeywordType" "Y_ANGLE" (lit "Y_ANGLE"));
 ("units", VNone)]);
 ("rotation3", VObj "RotationAngleComponentType" [("value", VDec (DFin false 927798%N (-8)%Z));
 ("angle", VEnum "AngleKeywordType" "X_ANGLE" (lit "X_ANGLE"));
 ("units", VNone)])]);
 ("rotation_rates", VObj "RotationRateType" [("rotation1", VObj "RotationRateComponentType" [("value", VDec (DFin false 8895%N (-8)%Z));
 ("rate", VEnum "AngleRateKeywordType" "Z_RATE" (lit "Z_RATE"));
 ("units", VNone)]);
 ("rotation2", VObj "RotationRateComponentType" [("value", VDec (DFin true 31653%N (-8)%Z));
 ("rate", VEnum "AngleRateKeywordType" "Y_RATE" (lit "Y_RATE"));
 ("units", VNone)]);
 ("rotation3", VObj "RotationRateComponentType" [("value", VDec (DFin false 3118%N (-8)%Z));
 ("rate", VEnum "AngleRateKeywordType" "X_RATE" (lit "X_RATE"));
 ("units", VNone)])])]);
 ("spin", VNone);
 ("spin_nutation", VNone)]; VObj "AttitudeStateType" [("quaternion_state", VNone);
 ("quaternion_derivative", VNone);
 ("quaternion_euler_rate", VNone);
 ("euler_angle", VNone);
 ("euler_angle_rate", VObj "EulerAngleRateType" [("epoch", VStr (lit "2003-03-04T12:00:27.500"));
 ("rotation_angles", VObj "RotationAngleType" [("rotation1", VObj "RotationAngleComponentType" [("value", VDec (DFin false 1631428%N (-8)%Z));
 ("angle", VEnum "AngleKeywordType" "Z_ANGLE" (lit "Z_ANGLE"));
 ("units", VNone)]);
 ("rotation2", VObj "RotationAngleComponentType" [("value", VDec (DFin true 1786493%N (-8)%Z));
 ("angle", VEnum "AngleKeywordType" "Y_ANGLE" (lit "Y_ANGLE"));
 ("units", VNone)]);
 ("rotation3", VObj "RotationAngleComponentType" [("value", VDec (DFin false 927470%N (-8)%Z));
 ("angle", VEnum "AngleKeywordType" "X_ANGLE" (lit "X_ANGLE"));
 ("units", VNone)])]);
 ("rotation_rates", VObj "RotationRateType" [("rotation1", VObj "RotationRateComponentType" [("value", VDec (DFin false 8895%N (-8)%Z));
 ("rate", VEnum "AngleRateKeywordType" "Z_RATE" (lit "Z_RATE"));
 ("units", VNone)]);
 ("rotation2", VObj "RotationRateComponentType" [("value", VDec (DFin true 31655%N (-8)%Z));
 ("rate", VEnum "AngleRateKeywordType" "Y_RATE" (lit "Y_RATE"));
 ("units", VNone)]);
 ("rotation3", VObj "RotationRateComponentType" [("value", VDec (DFin false 3118%N (-8)%Z));
 ("rate", VEnum "AngleRateKeywordType" "X_RATE" (lit "X_RATE"));
 ("units", VNone)])])]);
 ("spin", VNone);
 ("spin_nutation", VNone)]; VObj "AttitudeStateType" [("quaternion_state", VNone);
 ("quaternion_derivative", VNone);
 ("quaternion_euler_rate", VNone);
 ("euler_angle", VNone);
 ("euler_angle_rate", VObj "EulerAngleRateType" [("epoch", VStr (lit "2003-03-04T12:00:28.000"));
 ("rotation_angles", VObj "RotationAngleType" [("rotation1", VObj "RotationAngleComponentType" [("value", VDec (DFin false 1631523%N (-8)%Z));
 ("angle", VEnum "AngleKeywordType" "Z_ANGLE" (lit "Z_ANGLE"));
 ("units", VNone)]);
 ("rotation2", VObj "RotationAngleComponentType" [("value", VDec (DFin true 1786418%N (-8)%Z));
 ("angle", VEnum "AngleKeywordType" "Y_ANGLE" (lit "Y_ANGLE"));
 ("units", VNone)]);
 ("rotation3", VObj "RotationAngleComponentType" [("value", VDec (DFin false 927142%N (-8)%Z));
 ("angle", VEnum "AngleKeywordType" "X_ANGLE" (lit "X_ANGLE"));
 ("units", VNone)])]);
 ("rotation_rates", VObj "RotationRateType" [("rotation1", VObj "RotationRateComponentType" [("value", VDec (DFin false 8895%N (-8)%Z));
 ("rate", VEnum "AngleRateKeywordType" "Z_RATE" (lit "Z_RATE"));
 ("units", VNone)]);
 ("rotation2", VObj "RotationRateComponentType" [("value", VDec (DFin true 31541%N (-8)%Z));
 ("rate", VEnum "AngleRateKeywordType" "Y_RATE" (lit "Y_RATE"));
 ("units", VNone)]);
 ("rotation3", VObj "RotationRateComponentType" [("value", VDec (DFin false 3118%N (-8)%Z));
 ("rate", VEnum "AngleRateKeywordType" "X_RATE" (lit "X_RATE"));
 ("units", VNone)])])]);
 ("spin", VNone);
 ("spin_nutation", VNone)]; VObj "AttitudeStateType" [("quaternion_state", VNone);
 ("quaternion_derivative", VNone);
 ("quaternion_euler_rate", VNone);
 ("euler_angle", VNone);
 ("euler_angle_rate", VObj "EulerAngleRateType" [("epoch", VStr (lit "2003-03-04T12:00:28.500"));
 ("rotation_angles", VObj "RotationAngleType" [("rotation1", VObj "RotationAngleComponentType" [("value", VDec (DFin false 1631617%N (-8)%Z));
 ("angle", VEnum "AngleKeywordType" "Z_ANGLE" (lit "Z_ANGLE"));
 ("units", VNone)]);
 ("rotation2", VObj "RotationAngleComponentType" [("value", VDec (DFin true 1786343%N (-8)%Z));
 ("angle", VEnum "AngleKeywordType" "Y_ANGLE" (lit "Y_ANGLE"));
 ("units", VNone)]);
 ("rotation3", VObj "RotationAngleComponentType" [("value", VDec (DFin false 926814%N (-8)%Z));
 ("angle", VEnum "AngleKeywordType" "X_ANGLE" (lit "X_ANGLE"));
 ("units", VNone)])]);
 ("rotation_rates", VObj "RotationRateType" [("rotation1", VObj "RotationRateComponentType" [("value", VDec (DFin false 8895%N (-8)%Z));
 ("rate", VEnum "AngleRateKeywordType" "Z_RATE" (lit "Z_RATE"));
 ("units", VNone)]);
 ("rotation2", VObj "RotationRateComponentType" [("value", VDec (DFin true 31675%N (-8)%Z));
 ("rate", VEnum "AngleRateKeywordType" "Y_RATE" (lit "Y_RATE"));
 ("units", VNone)]);
 ("rotation3", VObj "RotationRateComponentType" [("value", VDec (DFin false 3118%N (-8)%Z));
 ("rate", VEnum "AngleRateKeywordType" "X_RATE" (lit "X_RATE"));
 ("units", VNone)])])]);
 ("spin", VNone);
 ("spin_nutation", VNone)]; VObj "AttitudeStateType" [("quaternion_state", VNone);
 ("quaternion_derivative", VNone);
 ("quaternion_euler_rate", VNone);
 ("euler_angle", VNone);
 ("euler_angle_rate", VObj "EulerAngleRateType" [("epoch", VStr (lit "2003-03-04T12:00:29.000"));
 ("rotation_angles", VObj "RotationAngleType" [("rotation1", VObj "RotationAngleComponentType" [("value", VDec (DFin false 1631711%N (-8)%Z));
 ("angle", VEnum "AngleKeywordType" "Z_ANGLE" (lit "Z_ANGLE"));
 ("units", VNone)]);
 ("rotation2", VObj "RotationAngleComponentType" [("value", VDec (DFin true 1786269%N (-8)%Z));
 ("angle", VEnum "AngleKeywordType" "Y_ANGLE" (lit "Y_ANGLE"));
 ("units", VNone)]);
 ("rotation3", VObj "RotationAngleComponentType" [("value", VDec (DFin false 926486%N (-8)%Z));
 ("angle", VEnum "AngleKeywordType" "X_ANGLE" (lit "X_ANGLE"));
 ("units", VNone)])]);
 ("rotation_rates", VObj "RotationRateType" [("rotation1", VObj "RotationRateComponentType" [("value", VDec (DFin false 8895%N (-8)%Z));
 ("rate", VEnum "AngleRateKeywordType" "Z_RATE" (lit "Z_RATE"));
 ("units", VNone)]);
 ("rotation2", VObj "RotationRateComponentType" [("value", VDec (DFin true 31677%N (-8)%Z));
 ("rate", VEnum "AngleRateKeywordType" "Y_RATE" (lit "Y_RATE"));
 ("units", VNone)]);
 ("rotation3", VObj "RotationRateComponentType" [("value", VDec (DFin false 3118%N (-8)%Z));
 ("rate", VEnum "AngleRateKeywordType" "X_RATE" (lit "X_RATE"));
 ("units", VNone)])])]);
 ("spin", VNone);
 ("spin_nutation", VNone)]; VObj "AttitudeStateType" [("quaternion_state", VNone);
 ("quaternion_derivative", VNone);
 ("quaternion_euler_rate", VNone);
 ("euler_angle", VNone);
 ("euler_angle_rate", VObj "EulerAngleRateType" [("epoch", VStr (lit "2003-03-04T12:00:29.500"));
 ("rotation_angles", VObj "RotationAngleType" [("rotation1", VObj "RotationAngleComponentType" [("value", VDec (DFin false 1631806%N (-8)%Z));
 ("angle", VEnum "AngleKeywordType" "Z_ANGLE" (lit "Z_ANGLE"));
 ("units", VNone)]);
 ("rotation2", VObj "RotationAngleComponentType" [("value", VDec (DFin true 1786195%N (-8)%Z));
 ("angle", VEnum "AngleKeywordType" "Y_ANGLE" (lit "Y_ANGLE"));
 ("units", VNone)]);
 ("rotation3", VObj "RotationAngleComponentType" [("value", VDec (DFin false 926158%N (-8)%Z));
 ("angle", VEnum "AngleKeywordType" "X_ANGLE" (lit "X_ANGLE"));
 ("units", VNone)])]);
 ("rotation_rates", VObj "RotationRateType" [("rotation1", VObj "RotationRateComponentType" [("value", VDec (DFin false 8895%N (-8)%Z));
 ("rate", VEnum "AngleRateKeywordType" "Z_RATE" (lit "Z_RATE"));
 ("units", VNone)]);
 ("rotation2", VObj "RotationRateComponentType" [("value", VDec (DFin true 31679%N (-8)%Z));
 ("rate", VEnum "AngleRateKeywordType" "Y_RATE" (lit "Y_RATE"));
 ("units", VNone)]);
 ("rotation3", VObj "RotationRateComponentType" [("value", VDec (DFin false 3118%N (-8)%Z));
 ("rate", VEnum "AngleRateKeywordType" "X_RATE" (lit "X_RATE"));
 ("units", VNone)])])]);
 ("spin", VNone);
 ("spin_nutation", VNone)]; VObj "AttitudeStateType" [("quaternion_state", VNone);
 ("quaternion_derivative", VNone);
 ("quaternion_euler_rate", VNone);
 ("euler_angle", VNone);
 ("euler_angle_rate", VObj "EulerAngleRateType" [("epoch", VStr (lit "2003-03-04T12:00:30.000"));
 ("rotation_angles", VObj "RotationAngleType" [("rotation1", VObj "RotationAngleComponentType" [("value", VDec (DFin false 1631900%N (-8)%Z));
 ("angle", VEnum "AngleKeywordType" "Z_ANGLE" (lit "Z_ANGLE"));
 ("units", VNone)]);
 ("rotation2", VObj "RotationAngleComponentType" [("value", VDec (DFin true 1786123%N (-8)%Z));
 ("angle", VEnum "AngleKeywordType" "Y_ANGLE" (lit "Y_ANGLE"));
 ("units", VNone)]);
 ("rotation3", VObj "RotationAngleComponentType" [("value", VDec (DFin false 925830%N (-8)%Z));
 ("angle", VEnum "AngleKeywordType" "X_ANGLE" (lit "X_ANGLE"));
 ("units", VNone)])]);
 ("rotation_rates", VObj "RotationRateType" [("rotation1", VObj "RotationRateComponentType" [("value", VDec (DFin false 8895%N (-8)%Z));
 ("rate", VEnum "AngleRateKeywordType" "Z_RATE" (lit "Z_RATE"));
 ("units", VNone)]);
 ("rotation2", VObj "RotationRateComponentType" [("value", VDec (DFin true 31682%N (-8)%Z));
 ("rate", VEnum "AngleRateKeywordType" "Y_RATE" (lit "Y_RATE"));
 ("units", VNone)]);
 ("rotation3", VObj "RotationRateComponentType" [("value", VDec (DFin false 3118%N (-8)%Z));
 ("rate", VEnum "AngleRateKeywordType" "X_RATE" (lit "X_RATE"));
 ("units", VNone)])])]);
 ("spin", VNone);
 ("spin_nutation", VNone)]; VObj "AttitudeStateType" [("quaternion_state", VNone);
 ("quaternion_derivative", VNone);
 ("quaternion_euler_rate", VNone);
 ("euler_angle", VNone);
 ("euler_angle_rate", VObj "EulerAngleRateType" [("epoch", VStr (lit "2003-03-04T12:00:30.500"));
 ("rotation_angles", VObj "RotationAngleType" [("rotation1", VObj "RotationAngleComponentType" [("value", VDec (DFin false 1631994%N (-8)%Z));
 ("angle", VEnum "AngleKeywordType" "Z_ANGLE" (lit "Z_ANGLE"));
 ("units", VNone)]);
 ("rotation2", VObj "RotationAngleComponentType" [("value", VDec (DFin true 1786052%N (-8)%Z));
 ("angle", VEnum "AngleKeywordType" "Y_ANGLE" (lit "Y_ANGLE"));
 ("units", VNone)]);
 ("rotation3", VObj "RotationAngleComponentType" [("value", VDec (DFin false 925507%N (-8)%Z));
 ("angle", VEnum "AngleKeywordType" "X_ANGLE" (lit "X_ANGLE"));
 ("units", VNone)])]);
 ("rotation_rates", VObj "RotationRateType" [("rotation1", VObj "RotationRateComponentType" [("value", VDec (DFin false 8985%N (-8)%Z));
 ("rate", VEnum "AngleRateKeywordType" "Z_RATE" (lit "Z_RATE"));
 ("units", VNone)]);
 ("rotation2", VObj "RotationRateComponentType" [("value", VDec (DFin false 57157%N (-8)%Z));
 ("rate", VEnum "AngleRateKeywordType" "Y_RATE" (lit "Y_RATE"));
 ("units", VNone)]);
 ("rotation3", VObj "RotationRateComponentType" [("value", VDec (DFin false 2968%N (-8)%Z));
 ("rate", VEnum "AngleRateKeywordType" "X_RATE" (lit "X_RATE"));
 ("units", VNone)])])]);
 ("spin", VNone);
 ("spin_nutation", VNone)]; VObj "AttitudeStateType" [("quaternion_state", VNone);
 ("quaternion_derivative", VNone);
 ("quaternion_euler_rate", VNone);
 ("euler_angle", VNone);
 ("euler_angle_rate", VObj "EulerAngleRateType" [("epoch", VStr (lit "2003-03-04T12:00:31.000"));
 ("rotation_angles", VObj "RotationAngleType" [("rotation1", VObj "RotationAngleComponentType" [("value", VDec (DFin false 1632088%N (-8)%Z));
 ("angle", VEnum "AngleKeywordType" "Z_ANGLE" (lit "Z_ANGLE"));
 ("units", VNone)]);
 ("rotation2", VObj "RotationAngleComponentType" [("value", VDec (DFin true 1785982%N (-8)%Z));
 ("angle", VEnum "AngleKeywordType" "Y_ANGLE" (lit "Y_ANGLE"));
 ("units", VNone)]);
 ("rotation3", VObj "RotationAngleComponentType" [("value", VDec (DFin false 925179%N (-8)%Z));
 ("angle", VEnum "AngleKeywordType" "X_ANGLE" (lit "X_ANGLE"));
 ("units", VNone)])]);
 ("rotation_rates", VObj "RotationRateType" [("rotation1", VObj "RotationRateComponentType" [("value", VDec (DFin false 8895%N (-8)%Z));
 ("rate", VEnum "AngleRateKeywordType" "Z_RATE" (lit "Z_RATE"));
 ("units", VNone)]);
 ("rotation2", VObj "RotationRateComponentType" [("value", VDec (DFin true 31686%N (-8)%Z));
 ("rate", VEnum "AngleRateKeywordType" "Y_RATE" (lit "Y_RATE"));
 ("units", VNone)]);
 ("rotation3", VObj "RotationRateComponentType" [("value", VDec (DFin false 3118%N (-8)%Z));
 ("rate", VEnum "AngleRateKeywordType" "X_RATE" (lit "X_RATE"));
 ("units", VNone)])])]);
 ("spin", VNone);
 ("spin_nutation", VNone)]; VObj "AttitudeStateType" [("quaternion_state", VNone);
 ("quaternion_derivative", VNone);
 ("quaternion_euler_rate", VNone);
 ("euler_angle", VNone);
 ("euler_angle_rate", VObj "EulerAngleRateType" [("epoch", VStr (lit "2003-03-04T12:00:31.500"));
 ("rotation_angles", VObj "RotationAngleType" [("rotation1", VObj "RotationAngleComponentType" [("value", VDec (DFin false 1632182%N (-8)%Z));
 ("angle", VEnum "AngleKeywordType" "Z_ANGLE" (lit "Z_ANGLE"));
 ("units", VNone)]);
 ("rotation2", VObj "RotationAngleComponentType" [("value", VDec (DFin true 1785912%N (-8)%Z));
 ("angle", VEnum "AngleKeywordType" "Y_ANGLE" (lit "Y_ANGLE"));
 ("units", VNone)]);
 ("rotation3", VObj "RotationAngleComponentType" [("value", VDec (DFin false 924851%N (-8)%Z));
 ("angle", VEnum "AngleKeywordType" "X_ANGLE" (lit "X_ANGLE"));
 ("units", VNone)])]);
 ("rotation_rates", VObj "RotationRateType" [("rotation1", VObj "RotationRateComponentType" [("value", VDec (DFin false 8895%N (-8)%Z));
 ("rate", VEnum "AngleRateKeywordType" "Z_RATE" (lit "Z_RATE"));
 ("units", VNone)]);
 ("rotation2", VObj "RotationRateComponentType" [("value", VDec (DFin true 31689%N (-8)%Z));
 ("rate", VEnum "AngleRateKeywordType" "Y_RATE" (lit "Y_RATE"));
 ("units", VNone)]);
 ("rotation3", VObj "RotationRateComponentType" [("value", VDec (DFin false 3118%N (-8)%Z));
 ("rate", VEnum "AngleRateKeywordType" "X_RATE" (lit "X_RATE"));
 ("units", VNone)])])]);
 ("spin", VNone);
 ("spin_nutation", VNone)]; VObj "AttitudeStateType" [("quaternion_state", VNone);
 ("quaternion_derivative", VNone);
 ("quaternion_euler_rate", VNone);
 ("euler_angle", VNone);
 ("euler_angle_rate", VObj "EulerAngleRateType" [("epoch", VStr (lit "2003-03-04T12:00:32.000"));
 ("rotation_angles", VObj "RotationAngleType" [("rotation1", VObj "RotationAngleComponentType" [("value", VDec (DFin false 1632277%N (-8)%Z));
 ("angle", VEnum "AngleKeywordType" "Z_ANGLE" (lit "Z_ANGLE"));
 ("units", VNone)]);
 ("rotation2", VObj "RotationAngleComponentType" [("value", VDec (DFin true 1785843%N (-8)%Z));
 ("angle", VEnum "AngleKeywordType" "Y_ANGLE" (lit "Y_ANGLE"));
 ("units", VNone)]);
 ("rotation3", VObj "RotationAngleComponentType" [("value", VDec (DFin false 924523%N (-8)%Z));
 ("angle", VEnum "AngleKeywordType" "X_ANGLE" (lit "X_ANGLE"));
 ("units", VNone)])]);
 ("rotation_rates", VObj "RotationRateType" [("rotation1", VObj "RotationRateComponentType" [("value", VDec (DFin false 8895%N (-8)%Z));
 ("rate", VEnum "AngleRateKeywordType" "Z_RATE" (lit "Z_RATE"));
 ("units", VNone)]);
 ("rotation2", VObj "RotationRateComponentType" [("value", VDec (DFin true 31560%N (-8)%Z));
 ("rate", VEnum "AngleRateKeywordType" "Y_RATE" (lit "Y_RATE"));
 ("units", VNone)]);
 ("rotation3", VObj "RotationRateComponentType" [("value", VDec (DFin false 3118%N (-8)%Z));
 ("rate", VEnum "AngleRateKeywordType" "X_RATE" (lit "X_RATE"));
 ("units", VNone)])])]);
 ("spin", VNone);
 ("spin_nutation", VNone)]; VObj "AttitudeStateType" [("quaternion_state", VNone);
 ("quaternion_derivative", VNone);
 ("quaternion_euler_rate", VNone);
 ("euler_angle", VNone);
 ("euler_angle_rate", VObj "EulerAngleRateType" [("epoch", VStr (lit "2003-03-04T12:00:32.500"));
 ("rotation_angles", VObj "RotationAngleType" [("rotation1", VObj "RotationAngleComponentType" [("value", VDec (DFin false 1632368%N (-8)%Z));
 ("angle", VEnum "AngleKeywordType" "Z_ANGLE" (lit "Z_ANGLE"));
 ("units", VNone)]);
 ("rotation2", VObj "RotationAngleComponentType" [("value", VDec (DFin true 1785764%N (-8)%Z));
 ("angle", VEnum "AngleKeywordType" "Y_ANGLE" (lit "Y_ANGLE"));
 ("units", VNone)]);
 ("rotation3", VObj "RotationAngleComponentType" [("value", VDec (DFin false 924195%N (-8)%Z));
 ("angle", VEnum "AngleKeywordType" "X_ANGLE" (lit "X_ANGLE"));
 ("units", VNone)])]);
 ("rotation_rates", VObj "RotationRateType" [("rotation1", VObj "RotationRateComponentType" [("value", VDec (DFin false 97804%N (-8)%Z));
 ("rate", VEnum "AngleRateKeywordType" "Z_RATE" (lit "Z_RATE"));
 ("units", VNone)]);
 ("rotation2", VObj "RotationRateComponentType" [("value", VDec (DFin true 31973%N (-8)%Z));
 ("rate", VEnum "AngleRateKeywordType" "Y_RATE" (lit "Y_RATE"));
 ("units", VNone)]);
 ("rotation3", VObj "RotationRateComponentType" [("value", VDec (DFin true 85776%N (-8)%Z));
 ("rate", VEnum "AngleRateKeywordType" "X_RATE" (lit "X_RATE"));
 ("units", VNone)])])]);
 ("spin", VNone);
 ("spin_nutation", VNone)]; VObj "AttitudeStateType" [("quaternion_state", VNone);
 ("quaternion_derivative", VNone);
 ("quaternion_euler_rate", VNone);
 ("euler_angle", VNone);
 ("euler_angle_rate", VObj "EulerAngleRateType" [("epoch", VStr (lit "2003-03-04T12:00:33.000"));
 ("rotation_angles", VObj "RotationAngleType" [("rotation1", VObj "RotationAngleComponentType" [("value", VDec (DFin false 1632462%N (-8)%Z));
 ("angle", VEnum "AngleKeywordType" "Z_ANGLE" (lit "Z_ANGLE"));
 ("units", VNone)]);
 ("rotation2", VObj "RotationAngleComponentType" [("value", VDec (DFin true 1785697%N (-8)%Z));
 ("angle", VEnum "AngleKeywordType" "Y_ANGLE" (lit "Y_ANGLE"));
 ("units", VNone)]);
 ("rotation3", VObj "RotationAngleComponentType" [("value", VDec (DFin false 923868%N (-8)%Z));
 ("angle", VEnum "AngleKeywordType" "X_ANGLE" (lit "X_ANGLE"));
 ("units", VNone)])]);
 ("rotation_rates", VObj "RotationRateType" [("rotation1", VObj "RotationRateComponentType" [("value", VDec (DFin false 8895%N (-8)%Z));
 ("rate", VEnum "AngleRateKeywordType" "Z_RATE" (lit "Z_RATE"));
 ("units", VNone)]);
 ("rotation2", VObj "RotationRateComponentType" [("value", VDec (DFin true 31716%N (-8)%Z));
 ("rate", VEnum "AngleRateKeywordType" "Y_RATE" (lit "Y_RATE"));
 ("units", VNone)]);
 ("rotation3", VObj "RotationRateComponentType" [("value", VDec (DFin false 3118%N (-8)%Z));
 ("rate", VEnum "AngleRateKeywordType" "X_RATE" (lit "X_RATE"));
 ("units", VNone)])])]);
 ("spin", VNone);
 ("spin_nutation", VNone)]; VObj "AttitudeStateType" [("quaternion_state", VNone);
 ("quaternion_derivative", VNone);
 ("quaternion_euler_rate", VNone);
 ("euler_angle", VNone);
 ("euler_angle_rate", VObj "EulerAngleRateType" [("epoch", VStr (lit "2003-03-04T12:00:33.500"));
 ("rotation_angles", VObj "RotationAngleType" [("rotation1", VObj "RotationAngleComponentType" [("value", VDec (DFin false 1632557%N (-8)%Z));
 ("angle", VEnum "AngleKeywordType" "Z_ANGLE" (lit "Z_ANGLE"));
 ("units", VNone)]);
 ("rotation2", VObj "RotationAngleComponentType" [("value", VDec (DFin true 1785631%N (-8)%Z));
 ("angle", VEnum "AngleKeywordType" "Y_ANGLE" (lit "Y_ANGLE"));
 ("units", VNone)]);
 ("rotation3", VObj "RotationAngleComponentType" [("value", VDec (DFin false 923540%N (-8)%Z));
 ("angle", VEnum "AngleKeywordType" "X_ANGLE" (lit "X_ANGLE"));
 ("units", VNone)])]);
 ("rotation_rates", VObj "RotationRateType" [("rotation1", VObj "RotationRateComponentType" [("value", VDec (DFin false 8895%N (-8)%Z));
 ("rate", VEnum "AngleRateKeywordType" "Z_RATE" (lit "Z_RATE"));
 ("units", VNone)]);
 ("rotation2", VObj "RotationRateComponentType" [("value", VDec (DFin true 31718%N (-8)%Z));
 ("rate", VEnum "AngleRateKeywordType" "Y_RATE" (lit "Y_RATE"));
 ("units", VNone)]);
 ("rotation3", VObj "RotationRateComponentType" [("value", VDec (DFin false 3118%N (-8)%Z));
 ("rate", VEnum "AngleRateKeywordType" "X_RATE" (lit "X_RATE"));
 ("units", VNone)])])]);
 ("spin", VNone);
 ("spin_nutation", VNone)]; VObj "AttitudeStateType" [("quaternion_state", VNone);
 ("quaternion_derivative", VNone);
 ("quaternion_euler_rate", VNone);
 ("euler_angle", VNone);
 ("euler_angle_rate", VObj "EulerAngleRateType" [("epoch", VStr (lit "2003-03-04T12:00:34.000"));
 ("rotation_angles", VObj "RotationAngleType" [("rotation1", VObj "RotationAngleComponentType" [("value", VDec (DFin false 1632651%N (-8)%Z));
 ("angle", VEnum "AngleKeywordType" "Z_ANGLE" (lit "Z_ANGLE"));
 ("units", VNone)]);
 ("rotation2", VObj "RotationAngleComponentType" [("value", VDec (DFin true 1785566%N (-8)%Z));
 ("angle", VEnum "AngleKeywordType" "Y_ANGLE" (lit "Y_ANGLE"));
 ("units", VNone)]);
 ("rotation3", VObj "RotationAngleComponentType" [("value", VDec (DFin false 923212%N (-8)%Z));
 ("angle", VEnum "AngleKeywordType" "X_ANGLE" (lit "X_ANGLE"));
 ("units", VNone)])]);
 ("rotation_rates", VObj "RotationRateType" [("rotation1", VObj "RotationRateComponentType" [("value", VDec (DFin false 8895%N (-8)%Z));
 ("rate", VEnum "AngleRateKeywordType" "Z_RATE" (lit "Z_RATE"));
 ("units", VNone)]);
 ("rotation2", VObj "RotationRateComponentType" [("value", VDec (DFin true 31720%N (-8)%Z));
 ("rate", VEnum "AngleRateKeywordType" "Y_RATE" (lit "Y_RATE"));
 ("units", VNone)]);
 ("rotation3", VObj "RotationRateComponentType" [("value", VDec (DFin false 3118%N (-8)%Z));
 ("rate", VEnum "AngleRateKeywordType" "X_RATE" (lit "X_RATE"));
 ("units", VNone)])])]);
 ("spin", VNone);
 ("spin_nutation", VNone)]; VObj "AttitudeStateType" [("quaternion_state", VNone);
 ("quaternion_derivative", VNone);
 ("quaternion_euler_rate", VNone);
 ("euler_angle", VNone);
 ("euler_angle_rate", VObj "EulerAngleRateType" [("epoch", VStr (lit "2003-03-04T12:00:34.500"));
 ("rotation_angles", VObj "RotationAngleType" [("rotation1", VObj "RotationAngleComponentType" [("value", VDec (DFin false 1632745%N (-8)%Z));
 ("angle", VEnum "AngleKeywordType" "Z_ANGLE" (lit "Z_ANGLE"));
 ("units", VNone)]);
 ("rotation2", VObj "RotationAngleComponentType" [("value", VDec (DFin true 1785502%N (-8)%Z));
 ("angle", VEnum "AngleKeywordType" "Y_ANGLE" (lit "Y_ANGLE"));
 ("units", VNone)]);
 ("rotation3", VObj "RotationAngleComponentType" [("value", VDec (DFin false 922888%N (-8)%Z));
 ("angle", VEnum "AngleKeywordType" "X_ANGLE" (lit "X_ANGLE"));
 ("units", VNone)])]);
 ("rotation_rates", VObj "RotationRateType" [("rotation1", VObj "RotationRateComponentType" [("value", VDec (DFin false 8985%N (-8)%Z));
 ("rate", VEnum "AngleRateKeywordType" "Z_RATE" (lit "Z_RATE"));
 ("units", VNone)]);
 ("rotation2", VObj "RotationRateComponentType" [("value", VDec (DFin false 57119%N (-8)%Z));
 ("rate", VEnum "AngleRateKeywordType" "Y_RATE" (lit "Y_RATE"));
 ("units", VNone)]);
 ("rotation3", VObj "RotationRateComponentType" [("value", VDec (DFin false 2968%N (-8)%Z));
 ("rate", VEnum "AngleRateKeywordType" "X_RATE" (lit "X_RATE"));
 ("units", VNone)])])]);
 ("spin", VNone);
 ("spin_nutation", VNone)]; VObj "AttitudeStateType" [("quaternion_state", VNone);
 ("quaternion_derivative", VNone);
 ("quaternion_euler_rate", VNone);
 ("euler_angle", VNone);
 ("euler_angle_rate", VObj "EulerAngleRateType" [("epoch", VStr (lit "2003-03-04T12:00:35.000"));
 ("rotation_angles", VObj "RotationAngleType" [("rotation1", VObj "RotationAngleComponentType" [("value", VDec (DFin false 1632839%N (-8)%Z));
 ("angle", VEnum "AngleKeywordType" "Z_ANGLE" (lit "Z_ANGLE"));
 ("units", VNone)]);
 ("rotation2", VObj "RotationAngleComponentType" [("value", VDec (DFin true 1785439%N (-8)%Z));
 ("angle", VEnum "AngleKeywordType" "Y_ANGLE" (lit "Y_ANGLE"));
 ("units", VNone)]);
 ("rotation3", VObj "RotationAngleComponentType" [("value", VDec (DFin false 922561%N (-8)%Z));
 ("angle", VEnum "AngleKeywordType" "X_ANGLE" (lit "X_ANGLE"));
 ("units", VNone)])]);
 ("rotation_rates", VObj "RotationRateType" [("rotation1", VObj "RotationRateComponentType" [("value", VDec (DFin false 8895%N (-8)%Z));
 ("rate", VEnum "AngleRateKeywordType" "Z_RATE" (lit "Z_RATE"));
 ("units", VNone)]);
 ("rotation2", VObj "RotationRateComponentType" [("value", VDec (DFin true 31725%N (-8)%Z));
 ("rate", VEnum "AngleRateKeywordType" "Y_RATE" (lit "Y_RATE"));
 ("units", VNone)]);
 ("rotation3", VObj "RotationRateComponentType" [("value", VDec (DFin false 3118%N (-8)%Z));
 ("rate", VEnum "AngleRateKeywordType" "X_RATE" (lit "X_RATE"));
 ("units", VNone)])])]);
 ("spin", VNone);
 ("spin_nutation", VNone)]; VObj "AttitudeStateType" [("quaternion_state", VNone);
 ("quaternion_derivative", VNone);
 ("quaternion_euler_rate", VNone);
 ("euler_angle", VNone);
 ("euler_angle_rate", VObj "EulerAngleRateType" [("epoch", VStr (lit "2003-03-04T12:00:35.500"));
 ("rotation_angles", VObj "RotationAngleType" [("rotation1", VObj "RotationAngleComponentType" [("value", VDec (DFin false 1632934%N (-8)%Z));
 ("angle", VEnum "AngleKeywordType" "Z_ANGLE" (lit "Z_ANGLE"));
 ("units", VNone)]);
 ("rotation2", VObj "RotationAngleComponentType" [("value", VDec (DFin true 1785376%N (-8)%Z));
 ("angle", VEnum "AngleKeywordType" "Y_ANGLE" (lit "Y_ANGLE"));
 ("units", VNone)]);
 ("rotation3", VObj "RotationAngleComponentType" [("value", VDec (DFin false 922233%N (-8)%Z));
 ("angle", VEnum "AngleKeywordType" "X_ANGLE" (lit "X_ANGLE"));
 ("units", VNone)])]);
 ("rotation_rates", VObj "RotationRateType" [("rotation1", VObj "RotationRateComponentType" [("value", VDec (DFin false 8895%N (-8)%Z));
 ("rate", VEnum "AngleRateKeywordType" "Z_RATE" (lit "Z_RATE"));
 ("units", VNone)]);
 ("rotation2", VObj "RotationRateComponentType" [("value", VDec (DFin true 31727%N (-8)%Z));
 ("rate", VEnum "AngleRateKeywordType" "Y_RATE" (lit "Y_RATE"));
 ("units", VNone)]);
 ("rotation3", VObj "RotationRateComponentType" [("value", VDec (DFin false 3118%N (-8)%Z));
 ("rate", VEnum "AngleRateKeywordType" "X_RATE" (lit "X_RATE"));
 ("units", VNone)])])]);
 ("spin", VNone);
 ("spin_nutation", VNone)]; VObj "AttitudeStateType" [("quaternion_state", VNone);
 ("quaternion_derivative", VNone);
 ("quaternion_euler_rate", VNone);
 ("euler_angle", VNone);
 ("euler_angle_rate", VObj "EulerAngleRateType" [("epoch", VStr (lit "2003-03-04T12:00:36.000"));
 ("rotation_angles", VObj "RotationAngleType" [("rotation1", VObj "RotationAngleComponentType" [("value", VDec (DFin false 1633028%N (-8)%Z));
 ("angle", VEnum "AngleKeywordType" "Z_ANGLE" (lit "Z_ANGLE"));
 ("units", VNone)]);
 ("rotation2", VObj "RotationAngleComponentType" [("value", VDec (DFin true 1785314%N (-8)%Z));
 ("angle", VEnum "AngleKeywordType" "Y_ANGLE" (lit "Y_ANGLE"));
 ("units", VNone)]);
 ("rotation3", VObj "RotationAngleComponentType" [("value", VDec (DFin false 921905%N (-8)%Z));
 ("angle", VEnum "AngleKeywordType" "X_ANGLE" (lit "X_ANGLE"));
 ("units", VNone)])]);
 ("rotation_rates", VObj "RotationRateType" [("rotation1", VObj "RotationRateComponentType" [("value", VDec (DFin false 8895%N (-8)%Z));
 ("rate", VEnum "AngleRateKeywordType" "Z_RATE" (lit "Z_RATE"));
 ("units", VNone)]);
 ("rotation2", VObj "RotationRateComponentType" [("value", VDec (DFin true 31578%N (-8)%Z));
 ("rate", VEnum "AngleRateKeywordType" "Y_RATE" (lit "Y_RATE"));
 ("units", VNone)]);
 ("rotation3", VObj "RotationRateComponentType" [("value", VDec (DFin false 3118%N (-8)%Z));
 ("rate", VEnum "AngleRateKeywordType" "X_RATE" (lit "X_RATE"));
 ("units", VNone)])])]);
 ("spin", VNone);
 ("spin_nutation", VNone)]; VObj "AttitudeStateType" [("quaternion_state", VNone);
 ("quaternion_derivative", VNone);
 ("quaternion_euler_rate", VNone);
 ("euler_angle", VNone);
 ("euler_angle_rate", VObj "EulerAngleRateType" [("epoch", VStr (lit "2003-03-04T12:00:36.500"));
 ("rotation_angles", VObj "RotationAngleType" [("rotation1", VObj "RotationAngleComponentType" [("value", VDec (DFin false 1633123%N (-8)%Z));
 ("angle", VEnum "AngleKeywordType" "Z_ANGLE" (lit "Z_ANGLE"));
 ("units", VNone)]);
 ("rotation2", VObj "RotationAngleComponentType" [("value", VDec (DFin true 1785253%N (-8)%Z));
 ("angle", VEnum "AngleKeywordType" "Y_ANGLE" (lit "Y_ANGLE"));
 ("units", VNone)]);
 ("rotation3", VObj "RotationAngleComponentType" [("value", VDec (DFin false 921577%N (-8)%Z));
 ("angle", VEnum "AngleKeywordType" "X_ANGLE" (lit "X_ANGLE"));
 ("units", VNone)])]);
 ("rotation_rates", VObj "RotationRateType" [("rotation1", VObj "RotationRateComponentType" [("value", VDec (DFin false 8895%N (-8)%Z));
 ("rate", VEnum "AngleRateKeywordType" "Z_RATE" (lit "Z_RATE"));
 ("units", VNone)]);
 ("rotation2", VObj "RotationRateComponentType" [("value", VDec (DFin true 31740%N (-8)%Z));
 ("rate", VEnum "AngleRateKeywordType" "Y_RATE" (lit "Y_RATE"));
 ("units", VNone)]);
 ("rotation3", VObj "RotationRateComponentType" [("value", VDec (DFin false 3118%N (-8)%Z));
 ("rate", VEnum "AngleRateKeywordType" "X_RATE" (lit "X_RATE"));
 ("units", VNone)])])]);
 ("spin", VNone);
 ("spin_nutation", VNone)]; VObj "AttitudeStateType" [("quaternion_state", VNone);
 ("quaternion_derivative", VNone);
 ("quaternion_euler_rate", VNone);
 ("euler_angle", VNone);
 ("euler_angle_rate", VObj "EulerAngleRateType" [("epoch", VStr (lit "2003-03-04T12:00:37.000"));
 ("rotation_angles", VObj "RotationAngleType" [("rotation1", VObj "RotationAngleComponentType" [("value", VDec (DFin false 1633218%N (-8)%Z));
 ("angle", VEnum "AngleKeywordType" "Z_ANGLE" (lit "Z_ANGLE"));
 ("units", VNone)]);
 ("rotation2", VObj "RotationAngleComponentType" [("value", VDec (DFin true 1785193%N (-8)%Z));
 ("angle", VEnum "AngleKeywordType" "Y_ANGLE" (lit "Y_ANGLE"));
 ("units", VNone)]);
 ("rotation3", VObj "RotationAngleComponentType" [("value", VDec (DFin false 921249%N (-8)%Z));
 ("angle", VEnum "AngleKeywordType" "X_ANGLE" (lit "X_ANGLE"));
 ("units", VNone)])]);
 ("rotation_rates", VObj "RotationRateType" [("rotation1", VObj "RotationRateComponentType" [("value", VDec (DFin false 8895%N (-8)%Z));
 ("rate", VEnum "AngleRateKeywordType" "Z_RATE" (lit "Z_RATE"));
 ("units", VNone)]);
 ("rotation2", VObj "RotationRateComponentType" [("value", VDec (DFin true 31742%N (-8)%Z));
 ("rate", VEnum "AngleRateKeywordType" "Y_RATE" (lit "Y_RATE"));
 ("units", VNone)]);
 ("rotation3", VObj "RotationRateComponentType" [("value", VDec (DFin false 3118%N (-8)%Z));
 ("rate", VEnum "AngleRateKeywordType" "X_RATE" (lit "X_RATE"));
 ("units", VNone)])])]);
 ("spin", VNone);
 ("spin_nutation", VNone)]; VObj "AttitudeStateType" [("quaternion_state", VNone);
 ("quaternion_derivative", VNone);
 ("quaternion_euler_rate", VNone);
 ("euler_angle", VNone);
 ("euler_angle_rate", VObj "EulerAngleRateType" [("epoch", VStr (lit "2003-03-04T12:00:37.500"));
 ("rotation_angles", VObj "RotationAngleType" [("rotation1", VObj "RotationAngleComponentType" [("value", VDec (DFin false 1633312%N (-8)%Z));
 ("angle", VEnum "AngleKeywordType" "Z_ANGLE" (lit "Z_ANGLE"));
 ("units", VNone)]);
 ("rotation2", VObj "RotationAngleComponentType" [("value", VDec (DFin true 1785133%N (-8)%Z));
 ("angle", VEnum "AngleKeywordType" "Y_ANGLE" (lit "Y_ANGLE"));
 ("units", VNone)]);
 ("rotation3", VObj "RotationAngleComponentType" [("value", VDec (DFin false 920922%N (-8)%Z));
 ("angle", VEnum "AngleKeywordType" "X_ANGLE" (lit "X_ANGLE"));
 ("units", VNone)])]);
 ("rotation_rates", VObj "RotationRateType" [("rotation1", VObj "RotationRateComponentType" [("value", VDec (DFin false 8895%N (-8)%Z));
 ("rate", VEnum "AngleRateKeywordType" "Z_RATE" (lit "Z_RATE"));
 ("units", VNone)]);
 ("rotation2", VObj "RotationRateComponentType" [("value", VDec (DFin true 31744%N (-8)%Z));
 ("rate", VEnum "AngleRateKeywordType" "Y_RATE" (lit "Y_RATE"));
 ("units", VNone)]);
 ("rotation3", VObj "RotationRateComponentType" [("value", VDec (DFin false 3118%N (-8)%Z));
 ("rate", VEnum "AngleRateKeywordType" "X_RATE" (lit "X_RATE"));
 ("units", VNone)])])]);
 ("spin", VNone);
 ("spin_nutation", VNone)]; VObj "AttitudeStateType" [("quaternion_state", VNone);
 ("quaternion_derivative", VNone);
 ("quaternion_euler_rate", VNone);
 ("euler_angle", VNone);
 ("euler_angle_rate", VObj "EulerAngleRateType" [("epoch", VStr (lit "2003-03-04T12:00:38.000"));
 ("rotation_angles", VObj "RotationAngleType" [("rotation1", VObj "RotationAngleComponentType" [("value", VDec (DFin false 1633405%N (-8)%Z));
 ("angle", VEnum "AngleKeywordType" "Z_ANGLE" (lit "Z_ANGLE"));
 ("units", VNone)]);
 ("rotation2", VObj "RotationAngleComponentType" [("value", VDec (DFin true 1785083%N (-8)%Z));
 ("angle", VEnum "AngleKeywordType" "Y_ANGLE" (lit "Y_ANGLE"));
 ("units", VNone)]);
 ("rotation3", VObj "RotationAngleComponentType" [("value", VDec (DFin false 920598%N (-8)%Z));
 ("angle", VEnum "AngleKeywordType" "X_ANGLE" (lit "X_ANGLE"));
 ("units", VNone)])]);
 ("rotation_rates", VObj "RotationRateType" [("rotation1", VObj "RotationRateComponentType" [("value", VDec (DFin false 9045%N (-8)%Z));
 ("rate", VEnum "AngleRateKeywordType" "Z_RATE" (lit "Z_RATE"));
 ("units", VNone)]);
 ("rotation2", VObj "RotationRateComponentType" [("value", VDec (DFin false 56903%N (-8)%Z));
 ("rate", VEnum "AngleRateKeywordType" "Y_RATE" (lit "Y_RATE"));
 ("units", VNone)]);
 ("rotation3", VObj "RotationRateComponentType" [("value", VDec (DFin true 85842%N (-8)%Z));
 ("rate", VEnum "AngleRateKeywordType" "X_RATE" (lit "X_RATE"));
 ("units", VNone)])])]);
 ("spin", VNone);
 ("spin_nutation", VNone)]; VObj "AttitudeStateType" [("quaternion_state", VNone);
 ("quaternion_derivative", VNone);
 ("quaternion_euler_rate", VNone);
 ("euler_angle", VNone);
 ("euler_angle_rate", VObj "EulerAngleRateType" [("epoch", VStr (lit "2003-03-04T12:00:38.500"));
 ("rotation_angles", VObj "RotationAngleType" [("rotation1", VObj "RotationAngleComponentType" [("value", VDec (DFin false 1633500%N (-8)%Z));
 ("angle", VEnum "AngleKeywordType" "Z_ANGLE" (lit "Z_ANGLE"));
 ("units", VNone)]);
 ("rotation2", VObj "RotationAngleComponentType" [("value", VDec (DFin true 1785025%N (-8)%Z));
 ("angle", VEnum "AngleKeywordType" "Y_ANGLE" (lit "Y_ANGLE"));
 ("units", VNone)]);
 ("rotation3", VObj "RotationAngleComponentType" [("value", VDec (DFin false 920270%N (-8)%Z));
 ("angle", VEnum "AngleKeywordType" "X_ANGLE" (lit "X_ANGLE"));
 ("units", VNone)])]);
 ("rotation_rates", VObj "RotationRateType" [("rotation1", VObj "RotationRateComponentType" [("value", VDec (DFin false 8895%N (-8)%Z));
 ("rate", VEnum "AngleRateKeywordType" "Z_RATE" (lit "Z_RATE"));
 ("units", VNone)]);
 ("rotation2", VObj "RotationRateComponentType" [("value", VDec (DFin true 31749%N (-8)%Z));
 ("rate", VEnum "AngleRateKeywordType" "Y_RATE" (lit "Y_RATE"));
 ("units", VNone)]);
 ("rotation3", VObj "RotationRateComponentType" [("value", VDec (DFin false 3118%N (-8)%Z));
 ("rate", VEnum "AngleRateKeywordType" "X_RATE" (lit "X_RATE"));
 ("units", VNone)])])]);
 ("spin", VNone);
 ("spin_nutation", VNone)]; VObj "AttitudeStateType" [("quaternion_state", VNone);
 ("quaternion_derivative", VNone);
 ("quaternion_euler_rate", VNone);
 ("euler_angle", VNone);
 ("euler_angle_rate", VObj "EulerAngleRateType" [("epoch", VStr (lit "2003-03-04T12:00:39.000"));
 ("rotation_angles", VObj "RotationAngleType" [("rotation1", VObj "RotationAngleComponentType" [("value", VDec (DFin false 1633595%N (-8)%Z));
 ("angle", VEnum "AngleKeywordType" "Z_ANGLE" (lit "Z_ANGLE"));
 ("units", VNone)]);
 ("rotation2", VObj "RotationAngleComponentType" [("value", VDec (DFin true 1784969%N (-8)%Z));
 ("angle", VEnum "AngleKeywordType" "Y_ANGLE" (lit "Y_ANGLE"));
 ("units", VNone)]);
 ("rotation3", VObj "RotationAngleComponentType" [("value", VDec (DFin false 919942%N (-8)%Z));
 ("angle", VEnum "AngleKeywordType" "X_ANGLE" (lit "X_ANGLE"));
 ("units", VNone)])]);
 ("rotation_rates", VObj "RotationRateType" [("rotation1", VObj "RotationRateComponentType" [("value", VDec (DFin false 8895%N (-8)%Z));
 ("rate", VEnum "AngleRateKeywordType" "Z_RATE" (lit "Z_RATE"));
 ("units", VNone)]);
 ("rotation2", VObj "RotationRateComponentType" [("value", VDec (DFin true 31751%N (-8)%Z));
 ("rate", VEnum "AngleRateKeywordType" "Y_RATE" (lit "Y_RATE"));
 ("units", VNone)]);
 ("rotation3", VObj "RotationRateComponentType" [("value", VDec (DFin false 3118%N (-8)%Z));
 ("rate", VEnum "AngleRateKeywordType" "X_RATE" (lit "X_RATE"));
 ("units", VNone)])])]);
 ("spin", VNone);
 ("spin_nutation", VNone)]; VObj "AttitudeStateType" [("quaternion_state", VNone);
 ("quaternion_derivative", VNone);
 ("quaternion_euler_rate", VNone);
 ("euler_angle", VNone);
 ("euler_angle_rate", VObj "EulerAngleRateType" [("epoch", VStr (lit "2003-03-04T12:00:39.500"));
 ("rotation_angles", VObj "RotationAngleType" [("rotation1", VObj "RotationAngleComponentType" [("value", VDec (DFin false 1633689%N (-8)%Z));
 ("angle", VEnum "AngleKeywordType" "Z_ANGLE" (lit "Z_ANGLE"));
 ("units", VNone)]);
 ("rotation2", VObj "RotationAngleComponentType" [("value", VDec (DFin true 1784913%N (-8)%Z));
 ("angle", VEnum "AngleKeywordType" "Y_ANGLE" (lit "Y_ANGLE"));
 ("units", VNone)]);
 ("rotation3", VObj "RotationAngleComponentType" [("value", VDec (DFin false 919615%N (-8)%Z));
 ("angle", VEnum "AngleKeywordType" "X_ANGLE" (lit "X_ANGLE"));
 ("units", VNone)])]);
 ("rotation_rates", VObj "RotationRateType" [("rotation1", VObj "RotationRateComponentType" [("value", VDec (DFin false 8895%N (-8)%Z));
 ("rate", VEnum "AngleRateKeywordType" "Z_RATE" (lit "Z_RATE"));
 ("units", VNone)]);
 ("rotation2", VObj "RotationRateComponentType" [("value", VDec (DFin true 31753%N (-8)%Z));
 ("rate", VEnum "AngleRateKeywordType" "Y_RATE" (lit "Y_RATE"));
 ("units", VNone)]);
 ("rotation3", VObj "RotationRateComponentType" [("value", VDec (DFin false 3118%N (-8)%Z));
 ("rate", VEnum "AngleRateKeywordType" "X_RATE" (lit "X_RATE"));
 ("units", VNone)])])]);
 ("spin", VNone);
 ("spin_nutation", VNone)]; VObj "AttitudeStateType" [("quaternion_state", VNone);
 ("quaternion_derivative", VNone);
 ("quaternion_euler_rate", VNone);
 ("euler_angle", VNone);
 ("euler_angle_rate", VObj "EulerAngleRateType" [("epoch", VStr (lit "2003-03-04T12:00:40.000"));
 ("rotation_angles", VObj "RotationAngleType" [("rotation1", VObj "RotationAngleComponentType" [("value", VDec (DFin false 1633784%N (-8)%Z));
 ("angle", VEnum "AngleKeywordType" "Z_ANGLE" (lit "Z_ANGLE"));
 ("units", VNone)]);
 ("rotation2", VObj "RotationAngleComponentType" [("value", VDec (DFin true 1784858%N (-8)%Z));
 ("angle", VEnum "AngleKeywordType" "Y_ANGLE" (lit "Y_ANGLE"));
 ("units", VNone)]);
 ("rotation3", VObj "RotationAngleComponentType" [("value", VDec (DFin false 919287%N (-8)%Z));
 ("angle", VEnum "AngleKeywordType" "X_ANGLE" (lit "X_ANGLE"));
 ("units", VNone)])]);
 ("rotation_rates", VObj "RotationRateType" [("rotation1", VObj "RotationRateComponentType" [("value", VDec (DFin false 8895%N (-8)%Z));
 ("rate", VEnum "AngleRateKeywordType" "Z_RATE" (lit "Z_RATE"));
 ("units", VNone)]);
 ("rotation2", VObj "RotationRateComponentType" [("value", VDec (DFin true 31596%N (-8)%Z));
 ("rate", VEnum "AngleRateKeywordType" "Y_RATE" (lit "Y_RATE"));
 ("units", VNone)]);
 ("rotation3", VObj "RotationRateComponentType" [("value", VDec (DFin false 3118%N (-8)%Z));
 ("rate", VEnum "AngleRateKeywordType" "X_RATE" (lit "X_RATE"));
 ("units", VNone)])])]);
 ("spin", VNone);
 ("spin_nutation", VNone)]; VObj "AttitudeStateType" [("quaternion_state", VNone);
 ("quaternion_derivative", VNone);
 ("quaternion_euler_rate", VNone);
 ("euler_angle", VNone);
 ("euler_angle_rate", VObj "EulerAngleRateType" [("epoch", VStr (lit "2003-03-04T12:00:40.500"));
 ("rotation_angles", VObj "RotationAngleType" [("rotation1", VObj "RotationAngleComponentType" [("value", VDec (DFin false 1633879%N (-8)%Z));
 ("angle", VEnum "AngleKeywordType" "Z_ANGLE" (lit "Z_ANGLE"));
 ("units", VNone)]);
 ("rotation2", VObj "RotationAngleComponentType" [("value", VDec (DFin true 1784804%N (-8)%Z));
 ("angle", VEnum "AngleKeywordType" "Y_ANGLE" (lit "Y_ANGLE"));
 ("units", VNone)]);
 ("rotation3", VObj "RotationAngleComponentType" [("value", VDec (DFin false 918959%N (-8)%Z));
 ("angle", VEnum "AngleKeywordType" "X_ANGLE" (lit "X_ANGLE"));
 ("units", VNone)])]);
 ("rotation_rates", VObj "RotationRateType" [("rotation1", VObj "RotationRateComponentType" [("value", VDec (DFin false 8895%N (-8)%Z));
 ("rate", VEnum "AngleRateKeywordType" "Z_RATE" (lit "Z_RATE"));
 ("units", VNone)]);
 ("rotation2", VObj "RotationRateComponentType" [("value", VDec (DFin true 31788%N (-8)%Z));
 ("rate", VEnum "AngleRateKeywordType" "Y_RATE" (lit "Y_RATE"));
 ("units", VNone)]);
 ("rotation3", VObj "RotationRateComponentType" [("value", VDec (DFin false 3118%N (-8)%Z));
 ("rate", VEnum "AngleRateKeywordType" "X_RATE" (lit "X_RATE"));
 ("units", VNone)])])]);
 ("spin", VNone);
 ("spin_nutation", VNone)]; VObj "AttitudeStateType" [("quaternion_state", VNone);
 ("quaternion_derivative", VNone);
 ("quaternion_euler_rate", VNone);
 ("euler_angle", VNone);
 ("euler_angle_rate", VObj "EulerAngleRateType" [("epoch", VStr (lit "2003-03-04T12:00:41.000"));
 ("rotation_angles", VObj "RotationAngleType" [("rotation1", VObj "RotationAngleComponentType" [("value", VDec (DFin false 1633973%N (-8)%Z));
 ("angle", VEnum "AngleKeywordType" "Z_ANGLE" (lit "Z_ANGLE"));
 ("units", VNone)]);
 ("rotation2", VObj "RotationAngleComponentType" [("value", VDec (DFin true 1784751%N (-8)%Z));
 ("angle", VEnum "AngleKeywordType" "Y_ANGLE" (lit "Y_ANGLE"));
 ("units", VNone)]);
 ("rotation3", VObj "RotationAngleComponentType" [("value", VDec (DFin false 918632%N (-8)%Z));
 ("angle", VEnum "AngleKeywordType" "X_ANGLE" (lit "X_ANGLE"));
 ("units", VNone)])]);
 ("rotation_rates", VObj "RotationRateType" [("rotation1", VObj "RotationRateComponentType" [("value", VDec (DFin false 8895%N (-8)%Z));
 ("rate", VEnum "AngleRateKeywordType" "Z_RATE" (lit "Z_RATE"));
 ("units", VNone)]);
 ("rotation2", VObj "RotationRateComponentType" [("value", VDec (DFin true 31791%N (-8)%Z));
 ("rate", VEnum "AngleRateKeywordType" "Y_RATE" (lit "Y_RATE"));
 ("units", VNone)]);
 ("rotation3", VObj "RotationRateComponentType" [("value", VDec (DFin false 3118%N (-8)%Z));
 ("rate", VEnum "AngleRateKeywordType" "X_RATE" (lit "X_RATE"));
 ("units", VNone)])])]);
 ("spin", VNone);
 ("spin_nutation", VNone)]; VObj "AttitudeStateType" [("quaternion_state", VNone);
 ("quaternion_derivative", VNone);
 ("quaternion_euler_rate", VNone);
 ("euler_angle", VNone);
 ("euler_angle_rate", VObj "EulerAngleRateType" [("epoch", VStr (lit "2003-03-04T12:00:41.500"));
 ("rotation_angles", VObj "RotationAngleType" [("rotation1", VObj "RotationAngleComponentType" [("value", VDec (DFin false 1634064%N (-8)%Z));
 ("angle", VEnum "AngleKeywordType" "Z_ANGLE" (lit "Z_ANGLE"));
 ("units", VNone)]);
 ("rotation2", VObj "RotationAngleComponentType" [("value", VDec (DFin true 1784681%N (-8)%Z));
 ("angle", VEnum "AngleKeywordType" "Y_ANGLE" (lit "Y_ANGLE"));
 ("units", VNone)]);
 ("rotation3", VObj "RotationAngleComponentType" [("value", VDec (DFin false 918305%N (-8)%Z));
 ("angle", VEnum "AngleKeywordType" "X_ANGLE" (lit "X_ANGLE"));
 ("units", VNone)])]);
 ("rotation_rates", VObj "RotationRateType" [("rotation1", VObj "RotationRateComponentType" [("value", VDec (DFin false 97745%N (-8)%Z));
 ("rate", VEnum "AngleRateKeywordType" "Z_RATE" (lit "Z_RATE"));
 ("units", VNone)]);
 ("rotation2", VObj "RotationRateComponentType" [("value", VDec (DFin true 31861%N (-8)%Z));
 ("rate", VEnum "AngleRateKeywordType" "Y_RATE" (lit "Y_RATE"));
 ("units", VNone)]);
 ("rotation3", VObj "RotationRateComponentType" [("value", VDec (DFin false 3034%N (-8)%Z));
 ("rate", VEnum "AngleRateKeywordType" "X_RATE" (lit "X_RATE"));
 ("units", VNone)])])]);
 ("spin", VNone);
 ("spin_nutation", VNone)]; VObj "AttitudeStateType" [("quaternion_state", VNone);
 ("quaternion_derivative", VNone);
 ("quaternion_euler_rate", VNone);
 ("euler_angle", VNone);
 ("euler_angle_rate", VObj "EulerAngleRateType" [("epoch", VStr (lit "2003-03-04T12:00:42.000"));
 ("rotation_angles", VObj "RotationAngleType" [("rotation1", VObj "RotationAngleComponentType" [("value", VDec (DFin false 1634159%N (-8)%Z));
 ("angle", VEnum "AngleKeywordType" "Z_ANGLE" (lit "Z_ANGLE"));
 ("units", VNone)]);
 ("rotation2", VObj "RotationAngleComponentType" [("value", VDec (DFin true 1784629%N (-8)%Z));
 ("angle", VEnum "AngleKeywordType" "Y_ANGLE" (lit "Y_ANGLE"));
 ("units", VNone)]);
 ("rotation3", VObj "RotationAngleComponentType" [("value", VDec (DFin false 917977%N (-8)%Z));
 ("angle", VEnum "AngleKeywordType" "X_ANGLE" (lit "X_ANGLE"));
 ("units", VNone)])]);
 ("rotation_rates", VObj "RotationRateType" [("rotation1", VObj "RotationRateComponentType" [("value", VDec (DFin false 8895%N (-8)%Z));
 ("rate", VEnum "AngleRateKeywordType" "Z_RATE" (lit "Z_RATE"));
 ("units", VNone)]);
 ("rotation2", VObj "RotationRateComponentType" [("value", VDec (DFin true 31795%N (-8)%Z));
 ("rate", VEnum "AngleRateKeywordType" "Y_RATE" (lit "Y_RATE"));
 ("units", VNone)]);
 ("rotation3", VObj "RotationRateComponentType" [("value", VDec (DFin false 3118%N (-8)%Z));
 ("rate", VEnum "AngleRateKeywordType" "X_RATE" (lit "X_RATE"));
 ("units", VNone)])])]);
 ("spin", VNone);
 ("spin_nutation", VNone)]; VObj "AttitudeStateType" [("quaternion_state", VNone);
 ("quaternion_derivative", VNone);
 ("quaternion_euler_rate", VNone);
 ("euler_angle", VNone);
 ("euler_angle_rate", VObj "EulerAngleRateType" [("epoch", VStr (lit "2003-03-04T12:00:42.500"));
 ("rotation_angles", VObj "RotationAngleType" [("rotation1", VObj "RotationAngleComponentType" [("value", VDec (DFin false 1634254%N (-8)%Z));
 ("angle", VEnum "AngleKeywordType" "Z_ANGLE" (lit "Z_ANGLE"));
 ("units", VNone)]);
 ("rotation2", VObj "RotationAngleComponentType" [("value", VDec (DFin true 1784579%N (-8)%Z));
 ("angle", VEnum "AngleKeywordType" "Y_ANGLE" (lit "Y_ANGLE"));
 ("units", VNone)]);
 ("rotation3", VObj "RotationAngleComponentType" [("value", VDec (DFin false 917650%N (-8)%Z));
 ("angle", VEnum "AngleKeywordType" "X_ANGLE" (lit "X_ANGLE"));
 ("units", VNone)])]);
 ("rotation_rates", VObj "RotationRateType" [("rotation1", VObj "RotationRateComponentType" [("value", VDec (DFin false 8895%N (-8)%Z));
 ("rate", VEnum "AngleRateKeywordType" "Z_RATE" (lit "Z_RATE"));
 ("units", VNone)]);
 ("rotation2", VObj "RotationRateComponentType" [("value", VDec (DFin true 31798%N (-8)%Z));
 ("rate", VEnum "AngleRateKeywordType" "Y_RATE" (lit "Y_RATE"));
 ("units", VNone)]);
 ("rotation3", VObj "RotationRateComponentType" [("value", VDec (DFin false 3118%N (-8)%Z));
 ("rate", VEnum "AngleRateKeywordType" "X_RATE" (lit "X_RATE"));
 ("units", VNone)])])]);
 ("spin", VNone);
 ("spin_nutation", VNone)]; VObj "AttitudeStateType" [("quaternion_state", VNone);
 ("quaternion_derivative", VNone);
 ("quaternion_euler_rate", VNone);
 ("euler_angle", VNone);
 ("euler_angle_rate", VObj "EulerAngleRateType" [("epoch", VStr (lit "2003-03-04T12:00:43.000"));
 ("rotation_angles", VObj "RotationAngleType" [("rotation1", VObj "RotationAngleComponentType" [("value", VDec (DFin false 1634347%N (-8)%Z));
 ("angle", VEnum "AngleKeywordType" "Z_ANGLE" (lit "Z_ANGLE"));
 ("units", VNone)]);
 ("rotation2", VObj "RotationAngleComponentType" [("value", VDec (DFin true 1784530%N (-8)%Z));
 ("angle", VEnum "AngleKeywordType" "Y_ANGLE" (lit "Y_ANGLE"));
 ("units", VNone)]);
 ("rotation3", VObj "RotationAngleComponentType" [("value", VDec (DFin false 917327%N (-8)%Z));
 ("angle", VEnum "AngleKeywordType" "X_ANGLE" (lit "X_ANGLE"));
 ("units", VNone)])]);
 ("rotation_rates", VObj "RotationRateType" [("rotation1", VObj "RotationRateComponentType" [("value", VDec (DFin false 8985%N (-8)%Z));
 ("rate", VEnum "AngleRateKeywordType" "Z_RATE" (lit "Z_RATE"));
 ("units", VNone)]);
 ("rotation2", VObj "RotationRateComponentType" [("value", VDec (DFin false 57041%N (-8)%Z));
 ("rate", VEnum "AngleRateKeywordType" "Y_RATE" (lit "Y_RATE"));
 ("units", VNone)]);
 ("rotation3", VObj "RotationRateComponentType" [("value", VDec (DFin false 2968%N (-8)%Z));
 ("rate", VEnum "AngleRateKeywordType" "X_RATE" (lit "X_RATE"));
 ("units", VNone)])])]);
 ("spin", VNone);
 ("spin_nutation", VNone)]; VObj "AttitudeStateType" [("quaternion_state", VNone);
 ("quaternion_derivative", VNone);
 ("quaternion_euler_rate", VNone);
 ("euler_angle", VNone);
 ("euler_angle_rate", VObj "EulerAngleRateType" [("epoch", VStr (lit "2003-03-04T12:00:43.500"));
 ("rotation_angles", VObj "RotationAngleType" [("rotation1", VObj "RotationAngleComponentType" [("value", VDec (DFin false 1634442%N (-8)%Z));
 ("angle", VEnum "AngleKeywordType" "Z_ANGLE" (lit "Z_ANGLE"));
 ("units", VNone)]);
 ("rotation2", VObj "RotationAngleComponentType" [("value", VDec (DFin true 1784481%N (-8)%Z));
 ("angle", VEnum "AngleKeywordType" "Y_ANGLE" (lit "Y_ANGLE"));
 ("units", VNone)]);
 ("rotation3", VObj "RotationAngleComponentType" [("value", VDec (DFin false 916999%N (-8)%Z));
 ("angle", VEnum "AngleKeywordType" "X_ANGLE" (lit "X_ANGLE"));
 ("units", VNone)])]);
 ("rotation_rates", VObj "RotationRateType" [("rotation1", VObj "RotationRateComponentType" [("value", VDec (DFin false 8895%N (-8)%Z));
 ("rate", VEnum "AngleRateKeywordType" "Z_RATE" (lit "Z_RATE"));
 ("units", VNone)]);
 ("rotation2", VObj "RotationRateComponentType" [("value", VDec (DFin true 31802%N (-8)%Z));
 ("rate", VEnum "AngleRateKeywordType" "Y_RATE" (lit "Y_RATE"));
 ("units", VNone)]);
 ("rotation3", VObj "RotationRateComponentType" [("value", VDec (DFin false 3118%N (-8)%Z));
 ("rate", VEnum "AngleRateKeywordType" "X_RATE" (lit "X_RATE"));
 ("units", VNone)])])]);
 ("spin", VNone);
 ("spin_nutation", VNone)]; VObj "AttitudeStateType" [("quaternion_state", VNone);
 ("quaternion_derivative", VNone);
 ("quaternion_euler_rate", VNone);
 ("euler_angle", VNone);
 ("euler_angle_rate", VObj "EulerAngleRateType" [("epoch", VStr (lit "2003-03-04T12:00:44.000"));
 ("rotation_angles", VObj "RotationAngleType" [("rotation1", VObj "RotationAngleComponentType" [("value", VDec (DFin false 1634537%N (-8)%Z));
 ("angle", VEnum "AngleKeywordType" "Z_ANGLE" (lit "Z_ANGLE"));
 ("units", VNone)]);
 ("rotation2", VObj "RotationAngleComponentType" [("value", VDec (DFin true 1784433%N (-8)%Z));
 ("angle", VEnum "AngleKeywordType" "Y_ANGLE" (lit "Y_ANGLE"));
 ("units", VNone)]);
 ("rotation3", VObj "RotationAngleComponentType" [("value", VDec (DFin false 916672%N (-8)%Z));
 ("angle", VEnum "AngleKeywordType" "X_ANGLE" (lit "X_ANGLE"));
 ("units", VNone)])]);
 ("rotation_rates", VObj "RotationRateType" [("rotation1", VObj "RotationRateComponentType" [("value", VDec (DFin false 8895%N (-8)%Z));
 ("rate", VEnum "AngleRateKeywordType" "Z_RATE" (lit "Z_RATE"));
 ("units", VNone)]);
 ("rotation2", VObj "RotationRateComponentType" [("value", VDec (DFin true 31615%N (-8)%Z));
 ("rate", VEnum "AngleRateKeywordType" "Y_RATE" (lit "Y_RATE"));
 ("units", VNone)]);
 ("rotation3", VObj "RotationRateComponentType" [("value", VDec (DFin false 3118%N (-8)%Z));
 ("rate", VEnum "AngleRateKeywordType" "X_RATE" (lit "X_RATE"));
 ("units", VNone)])])]);
 ("spin", VNone);
 ("spin_nutation", VNone)]; VObj "AttitudeStateType" [("quaternion_state", VNone);
 ("quaternion_derivative", VNone);
 ("quaternion_euler_rate", VNone);
 ("euler_angle", VNone);
 ("euler_angle_rate", VObj "EulerAngleRateType" [("epoch", VStr (lit "2003-03-04T12:00:44.500"));
 ("rotation_angles", VObj "RotationAngleType" [("rotation1", VObj "RotationAngleComponentType" [("value", VDec (DFin false 1634632%N (-8)%Z));
 ("angle", VEnum "AngleKeywordType" "Z_ANGLE" (lit "Z_ANGLE"));
 ("units", VNone)]);
 ("rotation2", VObj "RotationAngleComponentType" [("value", VDec (DFin true 1784386%N (-8)%Z));
 ("angle", VEnum "AngleKeywordType" "Y_ANGLE" (lit "Y_ANGLE"));
 ("units", VNone)]);
 ("rotation3", VObj "RotationAngleComponentType" [("value", VDec (DFin false 916344%N (-8)%Z));
 ("angle", VEnum "AngleKeywordType" "X_ANGLE" (lit "X_ANGLE"));
 ("units", VNone)])]);
 ("rotation_rates", VObj "RotationRateType" [("rotation1", VObj "RotationRateComponentType" [("value", VDec (DFin false 8895%N (-8)%Z));
 ("rate", VEnum "AngleRateKeywordType" "Z_RATE" (lit "Z_RATE"));
 ("units", VNone)]);
 ("rotation2", VObj "RotationRateComponentType" [("value", VDec (DFin true 31808%N (-8)%Z));
 ("rate", VEnum "AngleRateKeywordType" "Y_RATE" (lit "Y_RATE"));
 ("units", VNone)]);
 ("rotation3", VObj "RotationRateComponentType" [("value", VDec (DFin false 3118%N (-8)%Z));
 ("rate", VEnum "AngleRateKeywordType" "X_RATE" (lit "X_RATE"));
 ("units", VNone)])])]);
 ("spin", VNone);
 ("spin_nutation", VNone)]; VObj "AttitudeStateType" [("quaternion_state", VNone);
 ("quaternion_derivative", VNone);
 ("quaternion_euler_rate", VNone);
 ("euler_angle", VNone);
 ("euler_angle_rate", VObj "EulerAngleRateType" [("epoch", VStr (lit "2003-03-04T12:00:45.000"));
 ("rotation_angles", VObj "RotationAngleType" [("rotation1", VObj "RotationAngleComponentType" [("value", VDec (DFin false 1634726%N (-8)%Z));
 ("angle", VEnum "AngleKeywordType" "Z_ANGLE" (lit "Z_ANGLE"));
 ("units", VNone)]);
 ("rotation2", VObj "RotationAngleComponentType" [("value", VDec (DFin true 1784340%N (-8)%Z));
 ("angle", VEnum "AngleKeywordType" "Y_ANGLE" (lit "Y_ANGLE"));
 ("units", VNone)]);
 ("rotation3", VObj "RotationAngleComponentType" [("value", VDec (DFin false 916017%N (-8)%Z));
 ("angle", VEnum "AngleKeywordType" "X_ANGLE" (lit "X_ANGLE"));
 ("units", VNone)])]);
 ("rotation_rates", VObj "RotationRateType" [("rotation1", VObj "RotationRateComponentType" [("value", VDec (DFin false 8895%N (-8)%Z));
 ("rate", VEnum "AngleRateKeywordType" "Z_RATE" (lit "Z_RATE"));
 ("units", VNone)]);
 ("rotation2", VObj "RotationRateComponentType" [("value", VDec (DFin true 31810%N (-8)%Z));
 ("rate", VEnum "AngleRateKeywordType" "Y_RATE" (lit "Y_RATE"));
 ("units", VNone)]);
 ("rotation3", VObj "RotationRateComponentType" [("value", VDec (DFin false 3118%N (-8)%Z));
 ("rate", VEnum "AngleRateKeywordType" "X_RATE" (lit "X_RATE"));
 ("units", VNone)])])]);
 ("spin", VNone);
 ("spin_nutation", VNone)]; VObj "AttitudeStateType" [("quaternion_state", VNone);
 ("quaternion_derivative", VNone);
 ("quaternion_euler_rate", VNone);
 ("euler_angle", VNone);
 ("euler_angle_rate", VObj "EulerAngleRateType" [("epoch", VStr (lit "2003-03-04T12:00:45.500"));
 ("rotation_angles", VObj "RotationAngleType" [("rotation1", VObj "RotationAngleComponentType" [("value", VDec (DFin false 1634821%N (-8)%Z));
 ("angle", VEnum "AngleKeywordType" "Z_ANGLE" (lit "Z_ANGLE"));
 ("units", VNone)]);
 ("rotation2", VObj "RotationAngleComponentType" [("value", VDec (DFin true 1784294%N (-8)%Z));
 ("angle", VEnum "AngleKeywordType" "Y_ANGLE" (lit "Y_ANGLE"));
 ("units", VNone)]);
 ("rotation3", VObj "RotationAngleComponentType" [("value", VDec (DFin false 915689%N (-8)%Z));
 ("angle", VEnum "AngleKeywordType" "X_ANGLE" (lit "X_ANGLE"));
 ("units", VNone)])]);
 ("rotation_rates", VObj "RotationRateType" [("rotation1", VObj "RotationRateComponentType" [("value", VDec (DFin false 8895%N (-8)%Z));
 ("rate", VEnum "AngleRateKeywordType" "Z_RATE" (lit "Z_RATE"));
 ("units", VNone)]);
 ("rotation2", VObj "RotationRateComponentType" [("value", VDec (DFin true 31812%N (-8)%Z));
 ("rate", VEnum "AngleRateKeywordType" "Y_RATE" (lit "Y_RATE"));
 ("units", VNone)]);
 ("rotation3", VObj "RotationRateComponentType" [("value", VDec (DFin false 3118%N (-8)%Z));
 ("rate", VEnum "AngleRateKeywordType" "X_RATE" (lit "X_RATE"));
 ("units", VNone)])])]);
 ("spin", VNone);
 ("spin_nutation", VNone)]; VObj "AttitudeStateType" [("quaternion_state", VNone);
 ("quaternion_derivative", VNone);
 ("quaternion_euler_rate", VNone);
 ("euler_angle", VNone);
 ("euler_angle_rate", VObj "EulerAngleRateType" [("epoch", VStr (lit "2003-03-04T12:00:46.000"));
 ("rotation_angles", VObj "RotationAngleType" [("rotation1", VObj "RotationAngleComponentType" [("value", VDec (DFin false 1634915%N (-8)%Z));
 ("angle", VEnum "AngleKeywordType" "Z_ANGLE" (lit "Z_ANGLE"));
 ("units", VNone)]);
 ("rotation2", VObj "RotationAngleComponentType" [("value", VDec (DFin true 1784250%N (-8)%Z));
 ("angle", VEnum "AngleKeywordType" "Y_ANGLE" (lit "Y_ANGLE"));
 ("units", VNone)]);
 ("rotation3", VObj "RotationAngleComponentType" [("value", VDec (DFin false 915366%N (-8)%Z));
 ("angle", VEnum "AngleKeywordType" "X_ANGLE" (lit "X_ANGLE"));
 ("units", VNone)])]);
 ("rotation_rates", VObj "RotationRateType" [("rotation1", VObj "RotationRateComponentType" [("value", VDec (DFin false 8985%N (-8)%Z));
 ("rate", VEnum "AngleRateKeywordType" "Z_RATE" (lit "Z_RATE"));
 ("units", VNone)]);
 ("rotation2", VObj "RotationRateComponentType" [("value", VDec (DFin false 57027%N (-8)%Z));
 ("rate", VEnum "AngleRateKeywordType" "Y_RATE" (lit "Y_RATE"));
 ("units", VNone)]);
 ("rotation3", VObj "RotationRateComponentType" [("value", VDec (DFin false 2968%N (-8)%Z));
 ("rate", VEnum "AngleRateKeywordType" "X_RATE" (lit "X_RATE"));
 ("units", VNone)])])]);
 ("spin", VNone);
 ("spin_nutation", VNone)]; VObj "AttitudeStateType" [("quaternion_state", VNone);
 ("quaternion_derivative", VNone);
 ("quaternion_euler_rate", VNone);
 ("euler_angle", VNone);
 ("euler_angle_rate", VObj "EulerAngleRateType" [("epoch", VStr (lit "2003-03-04T12:00:46.500"));
 ("rotation_angles", VObj "RotationAngleType" [("rotation1", VObj "RotationAngleComponentType" [("value", VDec (DFin false 1635009%N (-8)%Z));
 ("angle", VEnum "AngleKeywordType" "Z_ANGLE" (lit "Z_ANGLE"));
 ("units", VNone)]);
 ("rotation2", VObj "RotationAngleComponentType" [("value", VDec (DFin true 1784207%N (-8)%Z));
 ("angle", VEnum "AngleKeywordType" "Y_ANGLE" (lit "Y_ANGLE"));
 ("units", VNone)]);
 ("rotation3", VObj "RotationAngleComponentType" [("value", VDec (DFin false 915039%N (-8)%Z));
 ("angle", VEnum "AngleKeywordType" "X_ANGLE" (lit "X_ANGLE"));
 ("units", VNone)])]);
 ("rotation_rates", VObj "RotationRateType" [("rotation1", VObj "RotationRateComponentType" [("value", VDec (DFin false 8895%N (-8)%Z));
 ("rate", VEnum "AngleRateKeywordType" "Z_RATE" (lit "Z_RATE"));
 ("units", VNone)]);
 ("rotation2", VObj "RotationRateComponentType" [("value", VDec (DFin true 31816%N (-8)%Z));
 ("rate", VEnum "AngleRateKeywordType" "Y_RATE" (lit "Y_RATE"));
 ("units", VNone)]);
 ("rotation3", VObj "RotationRateComponentType" [("value", VDec (DFin false 3118%N (-8)%Z));
 ("rate", VEnum "AngleRateKeywordType" "X_RATE" (lit "X_RATE"));
 ("units", VNone)])])]);
 ("spin", VNone);
 ("spin_nutation", VNone)]; VObj "AttitudeStateType" [("quaternion_state", VNone);
 ("quaternion_derivative", VNone);
 ("quaternion_euler_rate", VNone);
 ("euler_angle", VNone);
 ("euler_angle_rate", VObj "EulerAngleRateType" [("epoch", VStr (lit "2003-03-04T12:00:47.000"));
 ("rotation_angles", VObj "RotationAngleType" [("rotation1", VObj "RotationAngleComponentType" [("value", VDec (DFin false 1635104%N (-8)%Z));
 ("angle", VEnum "AngleKeywordType" "Z_ANGLE" (lit "Z_ANGLE"));
 ("units", VNone)]);
 ("rotation2", VObj "RotationAngleComponentType" [("value", VDec (DFin true 1784164%N (-8)%Z));
 ("angle", VEnum "AngleKeywordType" "Y_ANGLE" (lit "Y_ANGLE"));
 ("units", VNone)]);
 ("rotation3", VObj "RotationAngleComponentType" [("value", VDec (DFin false 914711%N (-8)%Z));
 ("angle", VEnum "AngleKeywordType" "X_ANGLE" (lit "X_ANGLE"));
 ("units", VNone)])]);
 ("rotation_rates", VObj "RotationRateType" [("rotation1", VObj "RotationRateComponentType" [("value", VDec (DFin false 8895%N (-8)%Z));
 ("rate", VEnum "AngleRateKeywordType" "Z_RATE" (lit "Z_RATE"));
 ("units", VNone)]);
 ("rotation2", VObj "RotationRateComponentType" [("value", VDec (DFin true 31818%N (-8)%Z));
 ("rate", VEnum "AngleRateKeywordType" "Y_RATE" (lit "Y_RATE"));
 ("units", VNone)]);
 ("rotation3", VObj "RotationRateComponentType" [("value", VDec (DFin false 3118%N (-8)%Z));
 ("rate", VEnum "AngleRateKeywordType" "X_RATE" (lit "X_RATE"));
 ("units", VNone)])])]);
 ("spin", VNone);
 ("spin_nutation", VNone)]; VObj "AttitudeStateType" [("quaternion_state", VNone);
 ("quaternion_derivative", VNone);
 ("quaternion_euler_rate", VNone);
 ("euler_angle", VNone);
 ("euler_angle_rate", VObj "EulerAngleRateType" [("epoch", VStr (lit "2003-03-04T12:00:47.500"));
 ("rotation_angles", VObj "RotationAngleType" [("rotation1", VObj "RotationAngleComponentType" [("value", VDec (DFin false 1635199%N (-8)%Z));
 ("angle", VEnum "AngleKeywordType" "Z_ANGLE" (lit "Z_ANGLE"));
 ("units", VNone)]);
 ("rotation2", VObj "RotationAngleComponentType" [("value", VDec (DFin true 1784122%N (-8)%Z));
 ("angle", VEnum "AngleKeywordType" "Y_ANGLE" (lit "Y_ANGLE"));
 ("units", VNone)]);
 ("rotation3", VObj "RotationAngleComponentType" [("value", VDec (DFin false 914384%N (-8)%Z));
 ("angle", VEnum "AngleKeywordType" "X_ANGLE" (lit "X_ANGLE"));
 ("units", VNone)])]);
 ("rotation_rates", VObj "RotationRateType" [("rotation1", VObj "RotationRateComponentType" [("value", VDec (DFin false 8895%N (-8)%Z));
 ("rate", VEnum "AngleRateKeywordType" "Z_RATE" (lit "Z_RATE"));
 ("units", VNone)]);
 ("rotation2", VObj "RotationRateComponentType" [("value", VDec (DFin true 31821%N (-8)%Z));
 ("rate", VEnum "AngleRateKeywordType" "Y_RATE" (lit "Y_RATE"));
 ("units", VNone)]);
 ("rotation3", VObj "RotationRateComponentType" [("value", VDec (DFin false 3118%N (-8)%Z));
 ("rate", VEnum "AngleRateKeywordType" "X_RATE" (lit "X_RATE"));
 ("units", VNone)])])]);
 ("spin", VNone);
 ("spin_nutation", VNone)]])])]])])].
(* ccsds_ndm/tests/data/kvn/adm-testcase04a_multi.kvn *)
Definition kvn_adm_testcase04a_multi : string := "CCSDS_AEM_VERS	= 1.0
COMMENT   AEM Implementation Test - Attempt 2
COMMENT   Euler angle rates have been corrected
CREATION_DATE	= 2007-10-03T13:25:00
ORIGINATOR	= GSFC

META_START
COMMENT	TRMM Attitude history beginning at 2003-03-04T12:00:00
COMMENT	Attitude requires an OEM for full processing
COMMENT	OEM provided for this message is trmm_oem_20030304_1200_1305.txt
OBJECT_NAME		= TRMM
OBJECT_ID		= 1997-009A
CENTER_NAME		= EARTH
REF_FRAME_A		= SC_BODY
REF_FRAME_B		= LVLH
ATTITUDE_DIR		= B2A
TIME_SYSTEM		= TOD
START_TIME		= 2003-03-04T12:00:00.0
STOP_TIME		= 2003-03-04T12:00:21.000
ATTITUDE_TYPE		= EULER_ANGLE/RATE
EULER_ROT_SEQ		= 321
RATE_FRAME		= REF_FRAME_A
META_STOP

DATA_START

2003-03-04T12:00:00.500  0.01626368 -0.01791928  0.00945166  0.00008895 -0.00031400  0.00003118
2003-03-04T12:00:01.000  0.01626462 -0.01791804  0.00944837  0.00008895 -0.00031403  0.00003118
2003-03-04T12:00:01.500  0.01626556 -0.01791682  0.00944509  0.00008895 -0.00031406  0.00003118
2003-03-04T12:00:02.000  0.01626649 -0.01791560  0.00944180  0.00008895 -0.00031408  0.00003118
2003-03-04T12:00:02.500  0.01626743 -0.01791440  0.00943852  0.00008895 -0.00031411  0.00003118
2003-03-04T12:00:03.000  0.01626837 -0.01791320  0.00943523  0.00008895 -0.00031414  0.00003118
2003-03-04T12:00:03.500  0.01626929 -0.01791203  0.00943199  0.00008985  0.00057424  0.00002968
2003-03-04T12:00:04.000  0.01627023 -0.01791085  0.00942871  0.00008895 -0.00031420  0.00003118
2003-03-04T12:00:04.500  0.01627117 -0.01790968  0.00942542  0.00008895 -0.00031442  0.00003118
2003-03-04T12:00:05.000  0.01627211 -0.01790851  0.00942214  0.00008895 -0.00031445  0.00003118
2003-03-04T12:00:05.500  0.01627305 -0.01790736  0.00941886  0.00008895 -0.00031447  0.00003118
2003-03-04T12:00:06.000  0.01627397 -0.01790623  0.00941562  0.00008985  0.00057392  0.00002968
2003-03-04T12:00:06.500  0.01627491 -0.01790517  0.00941233  0.00008955 -0.00031644 -0.00085693
2003-03-04T12:00:07.000  0.01627585 -0.01790404  0.00940904  0.00008895 -0.00031455  0.00003118
2003-03-04T12:00:07.500  0.01627679 -0.01790292  0.00940576  0.00008895 -0.00031457  0.00003118
2003-03-04T12:00:08.000  0.01627769 -0.01790164  0.00940248  0.00097745 -0.00031508  0.00003034
2003-03-04T12:00:08.500  0.01627863 -0.01790054  0.00939920  0.00008895 -0.00031485  0.00003118
2003-03-04T12:00:09.000  0.01627957 -0.01789944  0.00939591  0.00008895 -0.00031488  0.00003118
2003-03-04T12:00:09.500  0.01628051 -0.01789836  0.00939263  0.00008895 -0.00031491  0.00003118
2003-03-04T12:00:10.000  0.01628145 -0.01789729  0.00938935  0.00008895 -0.00031494  0.00003118
2003-03-04T12:00:10.500  0.01628239 -0.01789622  0.00938606  0.00008895 -0.00031496  0.00003118
2003-03-04T12:00:11.000  0.01628332 -0.01789518  0.00938282  0.00008985  0.00057342  0.00002968
2003-03-04T12:00:11.500  0.01628426 -0.01789413  0.00937954  0.00008895 -0.00031502  0.00003118
2003-03-04T12:00:12.000  0.01628520 -0.01789309  0.00937626  0.00008895 -0.00031461  0.00003118
2003-03-04T12:00:12.500  0.01628614 -0.01789206  0.00937297  0.00008895 -0.00031523  0.00003118
2003-03-04T12:00:13.000  0.01628708 -0.01789104  0.00936969  0.00008895 -0.00031525  0.00003118
2003-03-04T12:00:13.500  0.01628802 -0.01789003  0.00936640  0.00008895 -0.00031528  0.00003118
2003-03-04T12:00:14.000  0.01628896 -0.01788903  0.00936312  0.00008895 -0.00031530  0.00003118
2003-03-04T12:00:14.500  0.01628989 -0.01788804  0.00935988  0.00008985  0.00057309  0.00002968
2003-03-04T12:00:15.000  0.01629083 -0.01788706  0.00935660  0.00008895 -0.00031535  0.00003118
2003-03-04T12:00:15.500  0.01629177 -0.01788608  0.00935332  0.00008895 -0.00031538  0.00003118
2003-03-04T12:00:16.000  0.01629267 -0.01788494  0.00935004  0.00097745 -0.00031549  0.00003034
2003-03-04T12:00:16.500  0.01629362 -0.01788398  0.00934676  0.00008895 -0.00031562  0.00003118
2003-03-04T12:00:17.000  0.01629456 -0.01788302  0.00934348  0.00008895 -0.00031565  0.00003118
2003-03-04T12:00:17.500  0.01629550 -0.01788208  0.00934019  0.00008895 -0.00031567  0.00003118
2003-03-04T12:00:18.000  0.01629644 -0.01788115  0.00933691  0.00008895 -0.00031570  0.00003118
2003-03-04T12:00:18.500  0.01629738 -0.01788022  0.00933363  0.00008895 -0.00031572  0.00003118
2003-03-04T12:00:19.000  0.01629831 -0.01787932  0.00933039  0.00008985  0.00057267  0.00002968
2003-03-04T12:00:19.500  0.01629925 -0.01787841  0.00932711  0.00008895 -0.00031577  0.00003118
2003-03-04T12:00:20.000  0.01630020 -0.01787752  0.00932383  0.00008895 -0.00031501  0.00003118
2003-03-04T12:00:20.500  0.01630114 -0.01787663  0.00932054  0.00008895 -0.00031606  0.00003118
2003-03-04T12:00:21.000  0.01630208 -0.01787574  0.00931726  0.00008895 -0.00031609  0.00003118

DATA_STOP


META_START
COMMENT	TRMM Attitude history beginning at 2003-03-04T12:00:00
COMMENT	Attitude requires an OEM for full processing
COMMENT	OEM provided for this message is trmm_oem_20030304_1200_1305.txt
OBJECT_NAME		= TRMM
OBJECT_ID		= 1997-009A
CENTER_NAME		= EARTH
REF_FRAME_A		= SC_BODY
REF_FRAME_B		= LVLH
ATTITUDE_DIR		= B2A
TIME_SYSTEM		= TOD
START_TIME		= 2003-03-04T12:00:21.00
STOP_TIME		= 2003-03-04T12:00:47.500
ATTITUDE_TYPE		= QUATERNION/RATE
QUATERNION_TYPE  = LAST
EULER_ROT_SEQ		= 212
RATE_FRAME		= REF_FRAME_A
META_STOP

DATA_START

2003-03-04T12:00:21.000  0.01630208 -0.01787574  0.00931726  0.00008895 -0.00031609  0.00003118 -0.01787574
2003-03-04T12:00:21.500  0.01630301 -0.01787488  0.00931402  0.00008985  0.00057230  0.00002968 -0.01787488
2003-03-04T12:00:22.000  0.01630395 -0.01787402  0.00931074  0.00008895 -0.00031614  0.00003118 -0.01787402
2003-03-04T12:00:22.500  0.01630490 -0.01787317  0.00930746  0.00008895 -0.00031617  0.00003118 -0.01787317
2003-03-04T12:00:23.000  0.01630584 -0.01787232  0.00930418  0.00008895 -0.00031619  0.00003118 -0.01787232
2003-03-04T12:00:23.500  0.01630678 -0.01787148  0.00930090  0.00008895 -0.00031622  0.00003118 -0.01787148
2003-03-04T12:00:24.000  0.01630772 -0.01787065  0.00929762  0.00008895 -0.00031521  0.00003118 -0.01787065
2003-03-04T12:00:24.500  0.01630863 -0.01786966  0.00929434  0.00097745 -0.00031708  0.00003034 -0.01786966
2003-03-04T12:00:25.000  0.01630958 -0.01786885  0.00929106  0.00008895 -0.00031643  0.00003118 -0.01786885
2003-03-04T12:00:25.500  0.01631052 -0.01786804  0.00928778  0.00008895 -0.00031645  0.00003118 -0.01786804
2003-03-04T12:00:26.000  0.01631146 -0.01786725  0.00928450  0.00008895 -0.00031648  0.00003118 -0.01786725
2003-03-04T12:00:26.500  0.01631239 -0.01786648  0.00928126  0.00008985  0.00057191  0.00002968 -0.01786648
2003-03-04T12:00:27.000  0.01631334 -0.01786570  0.00927798  0.00008895 -0.00031653  0.00003118 -0.01786570
2003-03-04T12:00:27.500  0.01631428 -0.01786493  0.00927470  0.00008895 -0.00031655  0.00003118 -0.01786493
2003-03-04T12:00:28.000  0.01631523 -0.01786418  0.00927142  0.00008895 -0.00031541  0.00003118 -0.01786418
2003-03-04T12:00:28.500  0.01631617 -0.01786343  0.00926814  0.00008895 -0.00031675  0.00003118 -0.01786343
2003-03-04T12:00:29.000  0.01631711 -0.01786269  0.00926486  0.00008895 -0.00031677  0.00003118 -0.01786269
2003-03-04T12:00:29.500  0.01631806 -0.01786195  0.00926158  0.00008895 -0.00031679  0.00003118 -0.01786195
2003-03-04T12:00:30.000  0.01631900 -0.01786123  0.00925830  0.00008895 -0.00031682  0.00003118 -0.01786123
2003-03-04T12:00:30.500  0.01631994 -0.01786052  0.00925507  0.00008985  0.00057157  0.00002968 -0.01786052
2003-03-04T12:00:31.000  0.01632088 -0.01785982  0.00925179  0.00008895 -0.00031686  0.00003118 -0.01785982
2003-03-04T12:00:31.500  0.01632182 -0.01785912  0.00924851  0.00008895 -0.00031689  0.00003118 -0.01785912
2003-03-04T12:00:32.000  0.01632277 -0.01785843  0.00924523  0.00008895 -0.00031560  0.00003118 -0.01785843
2003-03-04T12:00:32.500  0.01632368 -0.01785764  0.00924195  0.00097804 -0.00031973 -0.00085776 -0.01785764
2003-03-04T12:00:33.000  0.01632462 -0.01785697  0.00923868  0.00008895 -0.00031716  0.00003118 -0.01785697
2003-03-04T12:00:33.500  0.01632557 -0.01785631  0.00923540  0.00008895 -0.00031718  0.00003118 -0.01785631
2003-03-04T12:00:34.000  0.01632651 -0.01785566  0.00923212  0.00008895 -0.00031720  0.00003118 -0.01785566
2003-03-04T12:00:34.500  0.01632745 -0.01785502  0.00922888  0.00008985  0.00057119  0.00002968 -0.01785502
2003-03-04T12:00:35.000  0.01632839 -0.01785439  0.00922561  0.00008895 -0.00031725  0.00003118 -0.01785439
2003-03-04T12:00:35.500  0.01632934 -0.01785376  0.00922233  0.00008895 -0.00031727  0.00003118 -0.01785376
2003-03-04T12:00:36.000  0.01633028 -0.01785314  0.00921905  0.00008895 -0.00031578  0.00003118 -0.01785314
2003-03-04T12:00:36.500  0.01633123 -0.01785253  0.00921577  0.00008895 -0.00031740  0.00003118 -0.01785253
2003-03-04T12:00:37.000  0.01633218 -0.01785193  0.00921249  0.00008895 -0.00031742  0.00003118 -0.01785193
2003-03-04T12:00:37.500  0.01633312 -0.01785133  0.00920922  0.00008895 -0.00031744  0.00003118 -0.01785133
2003-03-04T12:00:38.000  0.01633405 -0.01785083  0.00920598  0.00009045  0.00056903 -0.00085842 -0.01785083
2003-03-04T12:00:38.500  0.01633500 -0.01785025  0.00920270  0.00008895 -0.00031749  0.00003118 -0.01785025
2003-03-04T12:00:39.000  0.01633595 -0.01784969  0.00919942  0.00008895 -0.00031751  0.00003118 -0.01784969
2003-03-04T12:00:39.500  0.01633689 -0.01784913  0.00919615  0.00008895 -0.00031753  0.00003118 -0.01784913
2003-03-04T12:00:40.000  0.01633784 -0.01784858  0.00919287  0.00008895 -0.00031596  0.00003118 -0.01784858
2003-03-04T12:00:40.500  0.01633879 -0.01784804  0.00918959  0.00008895 -0.00031788  0.00003118 -0.01784804
2003-03-04T12:00:41.000  0.01633973 -0.01784751  0.00918632  0.00008895 -0.00031791  0.00003118 -0.01784751
2003-03-04T12:00:41.500  0.01634064 -0.01784681  0.00918305  0.00097745 -0.00031861  0.00003034 -0.01784681
2003-03-04T12:00:42.000  0.01634159 -0.01784629  0.00917977  0.00008895 -0.00031795  0.00003118 -0.01784629
2003-03-04T12:00:42.500  0.01634254 -0.01784579  0.00917650  0.00008895 -0.00031798  0.00003118 -0.01784579
2003-03-04T12:00:43.000  0.01634347 -0.01784530  0.00917327  0.00008985  0.00057041  0.00002968 -0.01784530
2003-03-04T12:00:43.500  0.01634442 -0.01784481  0.00916999  0.00008895 -0.00031802  0.00003118 -0.01784481
2003-03-04T12:00:44.000  0.01634537 -0.01784433  0.00916672  0.00008895 -0.00031615  0.00003118 -0.01784433
2003-03-04T12:00:44.500  0.01634632 -0.01784386  0.00916344  0.00008895 -0.00031808  0.00003118 -0.01784386
2003-03-04T12:00:45.000  0.01634726 -0.01784340  0.00916017  0.00008895 -0.00031810  0.00003118 -0.01784340
2003-03-04T12:00:45.500  0.01634821 -0.01784294  0.00915689  0.00008895 -0.00031812  0.00003118 -0.01784294
2003-03-04T12:00:46.000  0.01634915 -0.01784250  0.00915366  0.00008985  0.00057027  0.00002968 -0.01784250
2003-03-04T12:00:46.500  0.01635009 -0.01784207  0.00915039  0.00008895 -0.00031816  0.00003118 -0.01784207
2003-03-04T12:00:47.000  0.01635104 -0.01784164  0.00914711  0.00008895 -0.00031818  0.00003118 -0.01784164
2003-03-04T12:00:47.500  0.01635199 -0.01784122  0.00914384  0.00008895 -0.00031821  0.00003118 -0.01784122
DATA_STOP
".
(* ccsds_ndm/tests/data/kvn/adm-testcase04a_multi.xml *)
Definition obj_adm_testcase04a_multi : pyval :=
 VObj "Aem" [("header", VObj "NdmHeader" [("comment", VList [VStr (lit "AEM Implementation Test - Attempt 2"); VStr (lit "Euler angle rates have been corrected")]);
 ("creation_date", VStr (lit "2007-10-03T13:25:00"));
 ("originator", VStr (lit "GSFC"))]);
 ("body", VObj "AemBody" [("segment", VList [VObj "AemSegment" [("metadata", VObj "AemMetadata" [("comment", VList [VStr (lit "TRMM Attitude history beginning at 2003-03-04T12:00:00"); VStr (lit "Attitude requires an OEM for full processing"); VStr (lit "OEM provided for this message is trmm_oem_20030304_1200_1305.txt")]);
 ("object_name", VStr (lit "TRMM"));
 ("object_id", VStr (lit "1997-009A"));
 ("center_name", VStr (lit "EARTH"));
 ("ref_frame_a", VStr (lit "SC_BODY"));
 ("ref_frame_b", VStr (lit "LVLH"));
 ("attitude_dir", VEnum "RotDirectionType" "B2_A" (lit "B2A"));
 ("time_system", VEnum "TimeSystemType" "TOD" (lit "TOD"));
 ("start_time", VStr (lit "2003-03-04T12:00:00.0"));
 ("useable_start_time", VNone);
 ("useable_stop_time", VNone);
 ("stop_time", VStr (lit "2003-03-04T12:00:21.000"));
 ("attitude_type", VEnum "AttitudeTypeType" "EULER_ANGLE_RATE_1" (lit "EULER_ANGLE/RATE"));
 ("quaternion_type", VNone);
 ("euler_rot_seq", VEnum "RotseqType" "VALUE_321" (lit "321"));
 ("rate_frame", VEnum "AemRateFrameType" "REF_FRAME_A_1" (lit "REF_FRAME_A"));
 ("interpolation_method", VNone);
 ("interpolation_degree", VNone)]);
 ("data", VObj "AemData" [("comment", VList []);
 ("attitude_state", VList [VObj "AttitudeStateType" [("quaternion_state", VNone);
 ("quaternion_derivative", VNone);
 ("quaternion_euler_rate", VNone);
 ("euler_angle", VNone);
 ("euler_angle_rate", VObj "EulerAngleRateType" [("epoch", VStr (lit "2003-03-04T12:00:00.500"));
 ("rotation_angles", VObj "RotationAngleType" [("rotation1", VObj "RotationAngleComponentType" [("value", VDec (DFin false 1626368%N (-8)%Z));
 ("angle", VEnum "AngleKeywordType" "Z_ANGLE" (lit "Z_ANGLE"));
 ("units", VNone)]);
 ("rotation2", VObj "RotationAngleComponentType" [("value", VDec (DFin true 1791928%N (-8)%Z));
 ("angle", VEnum "AngleKeywordType" "Y_ANGLE" (lit "Y_ANGLE"));
 ("units", VNone)]);
 ("rotation3", VObj "RotationAngleComponentType" [("value", VDec (DFin false 945166%N (-8)%Z));
 ("angle", VEnum "AngleKeywordType" "X_ANGLE" (lit "X_ANGLE"));
 ("units", VNone)])]);
 ("rotation_rates", VObj "RotationRateType" [("rotation1", VObj "RotationRateComponentType" [("value", VDec (DFin false 8895%N (-8)%Z));
 ("rate", VEnum "AngleRateKeywordType" "Z_RATE" (lit "Z_RATE"));
 ("units", VNone)]);
 ("rotation2", VObj "RotationRateComponentType" [("value", VDec (DFin true 31400%N (-8)%Z));
 ("rate", VEnum "AngleRateKeywordType" "Y_RATE" (lit "Y_RATE"));
 ("units", VNone)]);
 ("rotation3", VObj "RotationRateComponentType" [("value", VDec (DFin false 3118%N (-8)%Z));
 ("rate", VEnum "AngleRateKeywordType" "X_RATE" (lit "X_RATE"));
 ("units", VNone)])])]);
 ("spin", VNone);
 ("spin_nutation", VNone)]; VObj "AttitudeStateType" [("quaternion_state", VNone);
 ("quaternion_derivative", VNone);
 ("quaternion_euler_rate", VNone);
 ("euler_angle", VNone);
 ("euler_angle_rate", VObj "EulerAngleRateType" [("epoch", VStr (lit "2003-03-04T12:00:01.000"));
 ("rotation_angles", VObj "RotationAngleType" [("rotation1", VObj "RotationAngleComponentType" [("value", VDec (DFin false 1626462%N (-8)%Z));
 ("angle", VEnum "AngleKeywordType" "Z_ANGLE" (lit "Z_ANGLE"));
 ("units", VNone)]);
 ("rotation2", VObj "RotationAngleComponentType" [("value", VDec (DFin true 1791804%N (-8)%Z));
 ("angle", VEnum "AngleKeywordType" "Y_ANGLE" (lit "Y_ANGLE"));
 ("units", VNone)]);
 ("rotation3", VObj "RotationAngleComponentType" [("value", VDec (DFin false 944837%N (-8)%Z));
 ("angle", VEnum "AngleKeywordType" "X_ANGLE" (lit "X_ANGLE"));
 ("units", VNone)])]);
 ("rotation_rates", VObj "RotationRateType" [("rotation1", VObj "RotationRateComponentType" [("value", VDec (DFin false 8895%N (-8)%Z));
 ("rate", VEnum "AngleRateKeywordType" "Z_RATE" (lit "Z_RATE"));
 ("units", VNone)]);
 ("rotation2", VObj "RotationRateComponentType" [("value", VDec (DFin true 31403%N (-8)%Z));
 ("rate", VEnum "AngleRateKeywordType" "Y_RATE" (lit "Y_RATE"));
 ("units", VNone)]);
 ("rotation3", VObj "RotationRateComponentType" [("value", VDec (DFin false 3118%N (-8)%Z));
 ("rate", VEnum "AngleRateKeywordType" "X_RATE" (lit "X_RATE"));
 ("units", VNone)])])]);
 ("spin", VNone);
 ("spin_nutation", VNone)]; VObj "AttitudeStateType" [("quaternion_state", VNone);
 ("quaternion_derivative", VNone);
 ("quaternion_euler_rate", VNone);
 ("euler_angle", VNone);
 ("euler_angle_rate", VObj "EulerAngleRateType" [("epoch", VStr (lit "2003-03-04T12:00:01.500"));
 ("rotation_angles", VObj "RotationAngleType" [("rotation1", VObj "RotationAngleComponentType" [("value", VDec (DFin false 1626556%N (-8)%Z));
 ("angle", VEnum "AngleKeywordType" "Z_ANGLE" (lit "Z_ANGLE"));
 ("units", VNone)]);
 ("rotation2", VObj "RotationAngleComponentType" [("value", VDec (DFin true 1791682%N (-8)%Z));
 ("angle", VEnum "AngleKeywordType" "Y_ANGLE" (lit "Y_ANGLE"));
 ("units", VNone)]);
 ("rotation3", VObj "RotationAngleComponentType" [("value", VDec (DFin false 944509%N (-8)%Z));
 ("angle", VEnum "AngleKeywordType" "X_ANGLE" (lit "X_ANGLE"));
 ("units", VNone)])]);
 ("rotation_rates", VObj "RotationRateType" [("rotation1", VObj "RotationRateComponentType" [("value", VDec (DFin false 8895%N (-8)%Z));
 ("rate", VEnum "AngleRateKeywordType" "Z_RATE" (lit "Z_RATE"));
 ("units", VNone)]);
 ("rotation2", VObj "RotationRateComponentType" [("value", VDec (DFin true 31406%N (-8)%Z));
 ("rate", VEnum "AngleRateKeywordType" "Y_RATE" (lit "Y_RATE"));
 ("units", VNone)]);
 ("rotation3", VObj "RotationRateComponentType" [("value", VDec (DFin false 3118%N (-8)%Z));
 ("rate", VEnum "AngleRateKeywordType" "X_RATE" (lit "X_RATE"));
 ("units", VNone)])])]);
 ("spin", VNone);
 ("spin_nutation", VNone)]; VObj "AttitudeStateType" [("quaternion_state", VNone);
 ("quaternion_derivative", VNone);
 ("quaternion_euler_rate", VNone);
 ("euler_angle", VNone);
 ("euler_angle_rate", VObj "EulerAngleRateType" [("epoch", VStr (lit "2003-03-04T12:00:02.000"));
 ("rotation_angles", VObj "RotationAngleType" [("rotation1", VObj "RotationAngleComponentType" [("value", VDec (DFin false 1626649%N (-8)%Z));
 ("angle", VEnum "AngleKeywordType" "Z_ANGLE" (lit "Z_ANGLE"));
 ("units", VNone)]);
 ("rotation2", VObj "RotationAngleComponentType" [("value", VDec (DFin true 1791560%N (-8)%Z));
 ("angle", VEnum "AngleKeywordType" "Y_ANGLE" (lit "Y_ANGLE"));
 ("units", VNone)]);
 ("rotation3", VObj "RotationAngleComponentType" [("value", VDec (DFin false 944180%N (-8)%Z));
 ("angle", VEnum "AngleKeywordType" "X_ANGLE" (lit "X_ANGLE"));
 ("units", VNone)])]);
 ("rotation_rates", VObj "RotationRateType" [("rotation1", VObj "RotationRateComponentType" [("value", VDec (DFin false 8895%N (-8)%Z));
 ("rate", VEnum "AngleRateKeywordType" "Z_RATE" (lit "Z_RATE"));
 ("units", VNone)]);
 ("rotation2", VObj "RotationRateComponentType" [("value", VDec (DFin true 31408%N (-8)%Z));
 ("rate", VEnum "AngleRateKeywordType" "Y_RATE" (lit "Y_RATE"));
 ("units", VNone)]);
 ("rotation3", VObj "RotationRateComponentType" [("value", VDec (DFin false 3118%N (-8)%Z));
 ("rate", VEnum "AngleRateKeywordType" "X_RATE" (lit "X_RATE"));
 ("units", VNone)])])]);
 ("spin", VNone);
 ("spin_nutation", VNone)]; VObj "AttitudeStateType" [("quaternion_state", VNone);
 ("quaternion_derivative", VNone);
 ("quaternion_euler_rate", VNone);
 ("euler_angle", VNone);
 ("euler_angle_rate", VObj "EulerAngleRateType" [("epoch", VStr (lit "2003-03-04T12:00:02.500"));
 ("rotation_angles", VObj "RotationAngleType" [("rotation1", VObj "RotationAngleComponentType" [("value", VDec (DFin false 1626743%N (-8)%Z));
 ("angle", VEnum "AngleKeywordType" "Z_ANGLE" (lit "Z_ANGLE"));
 ("units", VNone)]);
 ("rotation2", VObj "RotationAngleComponentType" [("value", VDec (DFin true 1791440%N (-8)%Z));
 ("angle", VEnum "AngleKeywordType" "Y_ANGLE" (lit "Y_ANGLE"));
 ("units", VNone)]);
 ("rotation3", VObj "RotationAngleComponentType" [("value", VDec (DFin false 943852%N (-8)%Z));
 ("angle", VEnum "AngleKeywordType" "X_ANGLE" (lit "X_ANGLE"));
 ("units", VNone)])]);
 ("rotation_rates", VObj "RotationRateType" [("rotation1", VObj "RotationRateComponentType" [("value", VDec (DFin false 8895%N (-8)%Z));
 ("rate", VEnum "AngleRateKeywordType" "Z_RATE" (lit "Z_RATE"));
 ("units", VNone)]);
 ("rotation2", VObj "RotationRateComponentType" [("value", VDec (DFin true 31411%N (-8)%Z));
 ("rate", VEnum "AngleRateKeywordType" "Y_RATE" (lit "Y_RATE"));
 ("units", VNone)]);
 ("rotation3", VObj "RotationRateComponentType" [("value", VDec (DFin false 3118%N (-8)%Z));
 ("rate", VEnum "AngleRateKeywordType" "X_RATE" (lit "X_RATE"));
 ("units", VNone)])])]);
 ("spin", VNone);
 ("spin_nutation", VNone)]; VObj "AttitudeStateType" [("quaternion_state", VNone);
 ("quaternion_derivative", VNone);
 ("quaternion_euler_rate", VNone);
 ("euler_angle", VNone);
 ("euler_angle_rate", VObj "EulerAngleRateType" [("epoch", VStr (lit "2003-03-04T12:00:03.000"));
 ("rotation_angles", VObj "RotationAngleType" [("rotation1", VObj "RotationAngleComponentType" [("value", VDec (DFin false 1626837%N (-8)%Z));
 ("angle", VEnum "AngleKeywordType" "Z_ANGLE" (lit "Z_ANGLE"));
 ("units", VNone)]);
 ("rotation2", VObj "RotationAngleComponentType" [("value", VDec (DFin true 1791320%N (-8)%Z));
 ("angle", VEnum "AngleKeywordType" "Y_ANGLE" (lit "Y_ANGLE"));
 ("units", VNone)]);
 ("rotation3", VObj "RotationAngleComponentType" [("value", VDec (DFin false 943523%N (-8)%Z));
 ("angle", VEnum "AngleKeywordType" "X_ANGLE" (lit "X_ANGLE"));
 ("units", VNone)])]);
 ("rotation_rates", VObj "RotationRateType" [("rotation1", VObj "RotationRateComponentType" [("value", VDec (DFin false 8895%N (-8)%Z));
 ("rate", VEnum "AngleRateKeywordType" "Z_RATE" (lit "Z_RATE"));
 ("units", VNone)]);
 ("rotation2", VObj "RotationRateComponentType" [("value", VDec (DFin true 31414%N (-8)%Z));
 ("rate", VEnum "AngleRateKeywordType" "Y_RATE" (lit "Y_RATE"));
 ("units", VNone)]);
 ("rotation3", VObj "RotationRateComponentType" [("value", VDec (DFin false 3118%N (-8)%Z));
 ("rate", VEnum "AngleRateKeywordType" "X_RATE" (lit "X_RATE"));
 ("units", VNone)])])]);
 ("spin", VNone);
 ("spin_nutation", VNone)]; VObj "AttitudeStateType" [("quaternion_state", VNone);
 ("quaternion_derivative", VNone);
 ("quaternion_euler_rate", VNone);
 ("euler_angle", VNone);
 ("euler_angle_rate", VObj "EulerAngleRateType" [("epoch", VStr (lit "2003-03-04T12:00:03.500"));
 ("rotation_angles", VObj "RotationAngleType" [("rotation1", VObj "RotationAngleComponentType" [("value", VDec (DFin false 1626929%N (-8)%Z));
 ("angle", VEnum "AngleKeywordType" "Z_ANGLE" (lit "Z_ANGLE"));
 ("units", VNone)]);
 ("rotation2", VObj "RotationAngleComponentType" [("value", VDec (DFin true 1791203%N (-8)%Z));
 ("angle", VEnum "AngleKeywordType" "Y_ANGLE" (lit "Y_ANGLE"));
 ("units", VNone)]);
 ("rotation3", VObj "RotationAngleComponentType" [("value", VDec (DFin false 943199%N (-8)%Z));
 ("angle", VEnum "AngleKeywordType" "X_ANGLE" (lit "X_ANGLE"));
 ("units", VNone)])]);
 ("rotation_rates", VObj "RotationRateType" [("rotation1", VObj "RotationRateComponentType" [("value", VDec (DFin false 8985%N (-8)%Z));
 ("rate", VEnum "AngleRateKeywordType" "Z_RATE" (lit "Z_RATE"));
 ("units", VNone)]);
 ("rotation2", VObj "RotationRateComponentType" [("value", VDec (DFin false 57424%N (-8)%Z));
 ("rate", VEnum "AngleRateKeywordType" "Y_RATE" (lit "Y_RATE"));
 ("units", VNone)]);
 ("rotation3", VObj "RotationRateComponentType" [("value", VDec (DFin false 2968%N (-8)%Z));
 ("rate", VEnum "AngleRateKeywordType" "X_RATE" (lit "X_RATE"));
 ("units", VNone)])])]);
 ("spin", VNone);
 ("spin_nutation", VNone)]; VObj "AttitudeStateType" [("quaternion_state", VNone);
 ("quaternion_derivative", VNone);
 ("quaternion_euler_rate", VNone);
 ("euler_angle", VNone);
 ("euler_angle_rate", VObj "EulerAngleRateType" [("epoch", VStr (lit "2003-03-04T12:00:04.000"));
 ("rotation_angles", VObj "RotationAngleType" [("rotation1", VObj "RotationAngleComponentType" [("value", VDec (DFin false 1627023%N (-8)%Z));
 ("angle", VEnum "AngleKeywordType" "Z_ANGLE" (lit "Z_ANGLE"));
 ("units", VNone)]);
 ("rotation2", VObj "RotationAngleComponentType" [("value", VDec (DFin true 1791085%N (-8)%Z));
 ("angle", VEnum "AngleKeywordType" "Y_ANGLE" (lit "Y_ANGLE"));
 ("units", VNone)]);
 ("rotation3", VObj "RotationAngleComponentType" [("value", VDec (DFin false 942871%N (-8)%Z));
 ("angle", VEnum "AngleKeywordType" "X_ANGLE" (lit "X_ANGLE"));
 ("units", VNone)])]);
 ("rotation_rates", VObj "RotationRateType" [("rotation1", VObj "RotationRateComponentType" [("value", VDec (DFin false 8895%N (-8)%Z));
 ("rate", VEnum "AngleRateKeywordType" "Z_RATE" (lit "Z_RATE"));
 ("units", VNone)]);
 ("rotation2", VObj "RotationRateComponentType" [("value", VDec (DFin true 31420%N (-8)%Z));
 ("rate", VEnum "AngleRateKeywordType" "Y_RATE" (lit "Y_RATE"));
 ("units", VNone)]);
 ("rotation3", VObj "RotationRateComponentType" [("value", VDec (DFin false 3118%N (-8)%Z));
 ("rate", VEnum "AngleRateKeywordType" "X_RATE" (lit "X_RATE"));
 ("units", VNone)])])]);
 ("spin", VNone);
 ("spin_nutation", VNone)]; VObj "AttitudeStateType" [("quaternion_state", VNone);
 ("quaternion_derivative", VNone);
 ("quaternion_euler_rate", VNone);
 ("euler_angle", VNone);
 ("euler_angle_rate", VObj "EulerAngleRateType" [("epoch", VStr (lit "2003-03-04T12:00:04.500"));
 ("rotation_angles", VObj "RotationAngleType" [("rotation1", VObj "RotationAngleComponentType" [("value", VDec (DFin false 1627117%N (-8)%Z));
 ("angle", VEnum "AngleKeywordType" "Z_ANGLE" (lit "Z_ANGLE"));
 ("units", VNone)]);
 ("rotation2", VObj "RotationAngleComponentType" [("value", VDec (DFin true 1790968%N (-8)%Z));
 ("angle", VEnum "AngleKeywordType" "Y_ANGLE" (lit "Y_ANGLE"));
 ("units", VNone)]);
 ("rotation3", VObj "RotationAngleComponentType" [("value", VDec (DFin false 942542%N (-8)%Z));
 ("angle", VEnum "AngleKeywordType" "X_ANGLE" (lit "X_ANGLE"));
 ("units", VNone)])]);
 ("rotation_rates", VObj "RotationRateType" [("rotation1", VObj "RotationRateComponentType" [("value", VDec (DFin false 8895%N (-8)%Z));
 ("rate", VEnum "AngleRateKeywordType" "Z_RATE" (lit "Z_RATE"));
 ("units", VNone)]);
 ("rotation2", VObj "RotationRateComponentType" [("value", VDec (DFin true 31442%N (-8)%Z));
 ("rate", VEnum "AngleRateKeywordType" "Y_RATE" (lit "Y_RATE"));
 ("units", VNone)]);
 ("rotation3", VObj "RotationRateComponentType" [("value", VDec (DFin false 3118%N (-8)%Z));
 ("rate", VEnum "AngleRateKeywordType" "X_RATE" (lit "X_RATE"));
 ("units", VNone)])])]);
 ("spin", VNone);
 ("spin_nutation", VNone)]; VObj "AttitudeStateType" [("quaternion_state", VNone);
 ("quaternion_derivative", VNone);
 ("quaternion_euler_rate", VNone);
 ("euler_angle", VNone);
 ("euler_angle_rate", VObj "EulerAngleRateType" [("epoch", VStr (lit "2003-03-04T12:00:05.000"));
 ("rotation_angles", VObj "RotationAngleType" [("rotation1", VObj "RotationAngleComponentType" [("value", VDec (DFin false 1627211%N (-8)%Z));
 ("angle", VEnum "AngleKeywordType" "Z_ANGLE" (lit "Z_ANGLE"));
 ("units", VNone)]);
 ("rotation2", VObj "RotationAngleComponentType" [("value", VDec (DFin true 1790851%N (-8)%Z));
 ("angle", VEnum "AngleKeywordType" "Y_ANGLE" (lit "Y_ANGLE"));
 ("units", VNone)]);
 ("rotation3", VObj "RotationAngleComponentType" [("value", VDec (DFin false 942214%N (-8)%Z));
 ("angle", VEnum "AngleKeywordType" "X_ANGLE" (lit "X_ANGLE"));
 ("units", VNone)])]);
 ("rotation_rates", VObj "RotationRateType" [("rotation1", VObj "RotationRateComponentType" [("value", VDec (DFin false 8895%N (-8)%Z));
 ("rate", VEnum "AngleRateKeywordType" "Z_RATE" (lit "Z_RATE"));
 ("units", VNone)]);
 ("rotation2", VObj "RotationRateComponentType" [("value", VDec (DFin true 31445%N (-8)%Z));
 ("rate", VEnum "AngleRateKeywordType" "Y_RATE" (lit "Y_RATE"));
 ("units", VNone)]);
 ("rotation3", VObj "RotationRateComponentType" [("value", VDec (DFin false 3118%N (-8)%Z));
 ("rate", VEnum "AngleRateKeywordType" "X_RATE" (lit "X_RATE"));
 ("units", VNone)])])]);
 ("spin", VNone);
 ("spin_nutation", VNone)]; VObj "AttitudeStateType" [("quaternion_state", VNone);
 ("quaternion_derivative", VNone);
 ("quaternion_euler_rate", VNone);
 ("euler_angle", VNone);
 ("euler_angle_rate", VObj "EulerAngleRateType" [("epoch", VStr (lit "2003-03-04T12:00:05.500"));
 ("rotation_angles", VObj "RotationAngleType" [("rotation1", VObj "RotationAngleComponentType" [("value", VDec (DFin false 1627305%N (-8)%Z));
 ("angle", VEnum "AngleKeywordType" "Z_ANGLE" (lit "Z_ANGLE"));
 ("units", VNone)]);
 ("rotation2", VObj "RotationAngleComponentType" [("value", VDec (DFin true 1790736%N (-8)%Z));
 ("angle", VEnum "AngleKeywordType" "Y_ANGLE" (lit "Y_ANGLE"));
 ("units", VNone)]);
 ("rotation3", VObj "RotationAngleComponentType" [("value", VDec (DFin false 941886%N (-8)%Z));
 ("angle", VEnum "AngleKeywordType" "X_ANGLE" (lit "X_ANGLE"));
 ("units", VNone)])]);
 ("rotation_rates", VObj "RotationRateType" [("rotation1", VObj "RotationRateComponentType" [("value", VDec (DFin false 8895%N (-8)%Z));
 ("rate", VEnum "AngleRateKeywordType" "Z_RATE" (lit "Z_RATE"));
 ("units", VNone)]);
 ("rotation2", VObj "RotationRateComponentType" [("value", VDec (DFin true 31447%N (-8)%Z));
 ("rate", VEnum "AngleRateKeywordType" "Y_RATE" (lit "Y_RATE"));
 ("units", VNone)]);
 ("rotation3", VObj "RotationRateComponentType" [("value", VDec (DFin false 3118%N (-8)%Z));
 ("rate", VEnum "AngleRateKeywordType" "X_RATE" (lit "X_RATE"));
 ("units", VNone)])])]);
 ("spin", VNone);
 ("spin_nutation", VNone)]; VObj "AttitudeStateType" [("quaternion_state", VNone);
 ("quaternion_derivative", VNone);
 ("quaternion_euler_rate", VNone);
 ("euler_angle", VNone);
 ("euler_angle_rate", VObj "EulerAngleRateType" [("epoch", VStr (lit "2003-03-04T12:00:06.000"));
 ("rotation_angles", VObj "RotationAngleType" [("rotation1", VObj "RotationAngleComponentType" [("value", VDec (DFin false 1627397%N (-8)%Z));
 ("angle", VEnum "AngleKeywordType" "Z_ANGLE" (lit "Z_ANGLE"));
 ("units", VNone)]);
 ("rotation2", VObj "RotationAngleComponentType" [("value", VDec (DFin true 1790623%N (-8)%Z));
 ("angle", VEnum "AngleKeywordType" "Y_ANGLE" (lit "Y_ANGLE"));
 ("units", VNone)]);
 ("rotation3", VObj "RotationAngleComponentType" [("value", VDec (DFin false 941562%N (-8)%Z));
 ("angle", VEnum "AngleKeywordType" "X_ANGLE" (lit "X_ANGLE"));
 ("units", VNone)])]);
 ("rotation_rates", VObj "RotationRateType" [("rotation1", VObj "RotationRateComponentType" [("value", VDec (DFin false 8985%N (-8)%Z));
 ("rate", VEnum "AngleRateKeywordType" "Z_RATE" (lit "Z_RATE"));
 ("units", VNone)]);
 ("rotation2", VObj "RotationRateComponentType" [("value", VDec (DFin false 57392%N (-8)%Z));
 ("rate", VEnum "AngleRateKeywordType" "Y_RATE" (lit "Y_RATE"));
 ("units", VNone)]);
 ("rotation3", VObj "RotationRateComponentType" [("value", VDec (DFin false 2968%N (-8)%Z));
 ("rate", VEnum "AngleRateKeywordType" "X_RATE" (lit "X_RATE"));
 ("units", VNone)])])]);
 ("spin", VNone);
 ("spin_nutation", VNone)]; VObj "AttitudeStateType" [("quaternion_state", VNone);
 ("quaternion_derivative", VNone);
 ("quaternion_euler_rate", VNone);
 ("euler_angle", VNone);
 ("euler_angle_rate", VObj "EulerAngleRateType" [("epoch", VStr (lit "2003-03-04T12:00:06.500"));
 ("rotation_angles", VObj "RotationAngleType" [("rotation1", VObj "RotationAngleComponentType" [("value", VDec (DFin false 1627491%N (-8)%Z));
 ("angle", VEnum "AngleKeywordType" "Z_ANGLE" (lit "Z_ANGLE"));
 ("units", VNone)]);
 ("rotation2", VObj "RotationAngleComponentType" [("value", VDec (DFin true 1790517%N (-8)%Z));
 ("angle", VEnum "AngleKeywordType" "Y_ANGLE" (lit "Y_ANGLE"));
 ("units", VNone)]);
 ("rotation3", VObj "RotationAngleComponentType" [("value", VDec (DFin false 941233%N (-8)%Z));
 ("angle", VEnum "AngleKeywordType" "X_ANGLE" (lit "X_ANGLE"));
 ("units", VNone)])]);
 ("rotation_rates", VObj "RotationRateType" [("rotation1", VObj "RotationRateComponentType" [("value", VDec (DFin false 8955%N (-8)%Z));
 ("rate", VEnum "AngleRateKeywordType" "Z_RATE" (lit "Z_RATE"));
 ("units", VNone)]);
 ("rotation2", VObj "RotationRateComponentType" [("value", VDec (DFin true 31644%N (-8)%Z));
 ("rate", VEnum "AngleRateKeywordType" "Y_RATE" (lit "Y_RATE"));
 ("units", VNone)]);
 ("rotation3", VObj "RotationRateComponentType" [("value", VDec (DFin true 85693%N (-8)%Z));
 ("rate", VEnum "AngleRateKeywordType" "X_RATE" (lit "X_RATE"));
 ("units", VNone)])])]);
 ("spin", VNone);
 ("spin_nutation", VNone)]; VObj "AttitudeStateType" [("quaternion_state", VNone);
 ("quaternion_derivative", VNone);
 ("quaternion_euler_rate", VNone);
 ("euler_angle", VNone);
 ("euler_angle_rate", VObj "EulerAngleRateType" [("epoch", VStr (lit "2003-03-04T12:00:07.000"));
 ("rotation_angles", VObj "RotationAngleType" [("rotation1", VObj "RotationAngleComponentType" [("value", VDec (DFin false 1627585%N (-8)%Z));
 ("angle", VEnum "AngleKeywordType" "Z_ANGLE" (lit "Z_ANGLE"));
 ("units", VNone)]);
 ("rotation2", VObj "RotationAngleComponentType" [("value", VDec (DFin true 1790404%N (-8)%Z));
 ("angle", VEnum "AngleKeywordType" "Y_ANGLE" (lit "Y_ANGLE"));
 ("units", VNone)]);
 ("rotation3", VObj "RotationAngleComponentType" [("value", VDec (DFin false 940904%N (-8)%Z));
 ("angle", VEnum "AngleKeywordType" "X_ANGLE" (lit "X_ANGLE"));
 ("units", VNone)])]);
 ("rotation_rates", VObj "RotationRateType" [("rotation1", VObj "RotationRateComponentType" [("value", VDec (DFin false 8895%N (-8)%Z));
 ("rate", VEnum "AngleRateKeywordType" "Z_RATE" (lit "Z_RATE"));
 ("units", VNone)]);
 ("rotation2", VObj "RotationRateComponentType" [("value", VDec (DFin true 31455%N (-8)%Z));
 ("rate", VEnum "AngleRateKeywordType" "Y_RATE" (lit "Y_RATE"));
 ("units", VNone)]);
 ("rotation3", VObj "RotationRateComponentType" [("value", VDec (DFin false 3118%N (-8)%Z));
 ("rate", VEnum "AngleRateKeywordType" "X_RATE" (lit "X_RATE"));
 ("units", VNone)])])]);
 ("spin", VNone);
 ("spin_nutation", VNone)]; VObj "AttitudeStateType" [("quaternion_state", VNone);
 ("quaternion_derivative", VNone);
 ("quaternion_euler_rate", VNone);
 ("euler_angle", VNone);
 ("euler_angle_rate", VObj "EulerAngleRateType" [("epoch", VStr (lit "2003-03-04T12:00:07.500"));
 ("rotation_angles", VObj "RotationAngleType" [("rotation1", VObj "RotationAngleComponentType" [("value", VDec (DFin false 1627679%N (-8)%Z));
 ("angle", VEnum "AngleKeywordType" "Z_ANGLE" (lit "Z_ANGLE"));
 ("units", VNone)]);
 ("rotation2", VObj "RotationAngleComponentType" [("value", VDec (DFin true 1790292%N (-8)%Z));
 ("angle", VEnum "AngleKeywordType" "Y_ANGLE" (lit "Y_ANGLE"));
 ("units", VNone)]);
 ("rotation3", VObj "RotationAngleComponentType" [("value", VDec (DFin false 940576%N (-8)%Z));
 ("angle", VEnum "AngleKeywordType" "X_ANGLE" (lit "X_ANGLE"));
 ("units", VNone)])]);
 ("rotation_rates", VObj "RotationRateType" [("rotation1", VObj "RotationRateComponentType" [("value", VDec (DFin false 8895%N (-8)%Z));
 ("rate", VEnum "AngleRateKeywordType" "Z_RATE" (lit "Z_RATE"));
 ("units", VNone)]);
 ("rotation2", VObj "RotationRateComponentType" [("value", VDec (DFin true 31457%N (-8)%Z));
 ("rate", VEnum "AngleRateKeywordType" "Y_RATE" (lit "Y_RATE"));
 ("units", VNone)]);
 ("rotation3", VObj "RotationRateComponentType" [("value", VDec (DFin false 3118%N (-8)%Z));
 ("rate", VEnum "AngleRateKeywordType" "X_RATE" (lit "X_RATE"));
 ("units", VNone)])])]);
 ("spin", VNone);
 ("spin_nutation", VNone)]; VObj "AttitudeStateType" [("quaternion_state", VNone);
 ("quaternion_derivative", VNone);
 ("quaternion_euler_rate", VNone);
 ("euler_angle", VNone);
 ("euler_angle_rate", VObj "EulerAngleRateType" [("epoch", VStr (lit "2003-03-04T12:00:08.000"));
 ("rotation_angles", VObj "RotationAngleType" [("rotation1", VObj "RotationAngleComponentType" [("value", VDec (DFin false 1627769%N (-8)%Z));
 ("angle", VEnum "AngleKeywordType" "Z_ANGLE" (lit "Z_ANGLE"));
 ("units", VNone)]);
 ("rotation2", VObj "RotationAngleComponentType" [("value", VDec (DFin true 1790164%N (-8)%Z));
 ("angle", VEnum "AngleKeywordType" "Y_ANGLE" (lit "Y_ANGLE"));
 ("units", VNone)]);
 ("rotation3", VObj "RotationAngleComponentType" [("value", VDec (DFin false 940248%N (-8)%Z));
 ("angle", VEnum "AngleKeywordType" "X_ANGLE" (lit "X_ANGLE"));
 ("units", VNone)])]);
 ("rotation_rates", VObj "RotationRateType" [("rotation1", VObj "RotationRateComponentType" [("value", VDec (DFin false 97745%N (-8)%Z));
 ("rate", VEnum "AngleRateKeywordType" "Z_RATE" (lit "Z_RATE"));
 ("units", VNone)]);
 ("rotation2", VObj "RotationRateComponentType" [("value", VDec (DFin true 31508%N (-8)%Z));
 ("rate", VEnum "AngleRateKeywordType" "Y_RATE" (lit "Y_RATE"));
 ("units", VNone)]);
 ("rotation3", VObj "RotationRateComponentType" [("value", VDec (DFin false 3034%N (-8)%Z));
 ("rate", VEnum "AngleRateKeywordType" "X_RATE" (lit "X_RATE"));
 ("units", VNone)])])]);
 ("spin", VNone);
 ("spin_nutation", VNone)]; VObj "AttitudeStateType" [("quaternion_state", VNone);
 ("quaternion_derivative", VNone);
 ("quaternion_euler_rate", VNone);
 ("euler_angle", VNone);
 ("euler_angle_rate", VObj "EulerAngleRateType" [("epoch", VStr (lit "2003-03-04T12:00:08.500"));
 ("rotation_angles", VObj "RotationAngleType" [("rotation1", VObj "RotationAngleComponentType" [("value", VDec (DFin false 1627863%N (-8)%Z));
 ("angle", VEnum "AngleKeywordType" "Z_ANGLE" (lit "Z_ANGLE"));
 ("units", VNone)]);
 ("rotation2", VObj "RotationAngleComponentType" [("value", VDec (DFin true 1790054%N (-8)%Z));
 ("angle", VEnum "AngleKeywordType" "Y_ANGLE" (lit "Y_ANGLE"));
 ("units", VNone)]);
 ("rotation3", VObj "RotationAngleComponentType" [("value", VDec (DFin false 939920%N (-8)%Z));
 ("angle", VEnum "AngleKeywordType" "X_ANGLE" (lit "X_ANGLE"));
 ("units", VNone)])]);
 ("rotation_rates", VObj "RotationRateType" [("rotation1", VObj "RotationRateComponentType" [("value", VDec (DFin false 8895%N (-8)%Z));
 ("rate", VEnum "AngleRateKeywordType" "Z_RATE" (lit "Z_RATE"));
 ("units", VNone)]);
 ("rotation2", VObj "RotationRateComponentType" [("value", VDec (DFin true 31485%N (-8)%Z));
 ("rate", VEnum "AngleRateKeywordType" "Y_RATE" (lit "Y_RATE"));
 ("units", VNone)]);
 ("rotation3", VObj "RotationRateComponentType" [("value", VDec (DFin false 3118%N (-8)%Z));
 ("rate", VEnum "AngleRateKeywordType" "X_RATE" (lit "X_RATE"));
 ("units", VNone)])])]);
 ("spin", VNone);
 ("spin_nutation", VNone)]; VObj "AttitudeStateType" [("quaternion_state", VNone);
 ("quaternion_derivative", VNone);
 ("quaternion_euler_rate", VNone);
 ("euler_angle", VNone);
 ("euler_angle_rate", VObj "EulerAngleRateType" [("epoch", VStr (lit "2003-03-04T12:00:09.000"));
 ("rotation_angles", VObj "RotationAngleType" [("rotation1", VObj "RotationAngleComponentType" [("value", VDec (DFin false 1627957%N (-8)%Z));
 ("angle", VEnum "AngleKeywordType" "Z_ANGLE" (lit "Z_ANGLE"));
 ("units", VNone)]);
 ("rotation2", VObj "RotationAngleComponentType" [("value", VDec (DFin true 1789944%N (-8)%Z));
 ("angle", VEnum "AngleKeywordType" "Y_ANGLE" (lit "Y_ANGLE"));
 ("units", VNone)]);
 ("rotation3", VObj "RotationAngleComponentType" [("value", VDec (DFin false 939591%N (-8)%Z));
 ("angle", VEnum "AngleKeywordType" "X_ANGLE" (lit "X_ANGLE"));
 ("units", VNone)])]);
 ("rotation_rates", VObj "RotationRateType" [("rotation1", VObj "RotationRateComponentType" [("value", VDec (DFin false 8895%N (-8)%Z));
 ("rate", VEnum "AngleRateKeywordType" "Z_RATE" (lit "Z_RATE"));
 ("units", VNone)]);
 ("rotation2", VObj "RotationRateComponentType" [("value", VDec (DFin true 31488%N (-8)%Z));
 ("rate", VEnum "AngleRateKeywordType" "Y_RATE" (lit "Y_RATE"));
 ("units", VNone)]);
 ("rotation3", VObj "RotationRateComponentType" [("value", VDec (DFin false 3118%N (-8)%Z));
 ("rate", VEnum "AngleRateKeywordType" "X_RATE" (lit "X_RATE"));
 ("units", VNone)])])]);
 ("spin", VNone);
 ("spin_nutation", VNone)]; VObj "AttitudeStateType" [("quaternion_state", VNone);
 ("quaternion_derivative", VNone);
 ("quaternion_euler_rate", VNone);
 ("euler_angle", VNone);
 ("euler_angle_rate", VObj "EulerAngleRateType" [("epoch", VStr (lit "2003-03-04T12:00:09.500"));
 ("rotation_angles", VObj "RotationAngleType" [("rotation1", VObj "RotationAngleComponentType" [("value", VDec (DFin false 1628051%N (-8)%Z));
 ("angle", VEnum "AngleKeywordType" "Z_ANGLE" (lit "Z_ANGLE"));
 ("units", VNone)]);
 ("rotation2", VObj "RotationAngleComponentType" [("value", VDec (DFin true 1789836%N (-8)%Z));
 ("angle", VEnum "AngleKeywordType" "Y_ANGLE" (lit "Y_ANGLE"));
 ("units", VNone)]);
 ("rotation3", VObj "RotationAngleComponentType" [("value", VDec (DFin false 939263%N (-8)%Z));
 ("angle", VEnum "AngleKeywordType" "X_ANGLE" (lit "X_ANGLE"));
 ("units", VNone)])]);
 ("rotation_rates", VObj "RotationRateType" [("rotation1", VObj "RotationRateComponentType" [("value", VDec (DFin false 8895%N (-8)%Z));
 ("rate", VEnum "AngleRateKeywordType" "Z_RATE" (lit "Z_RATE"));
 ("units", VNone)]);
 ("rotation2", VObj "RotationRateComponentType" [("value", VDec (DFin true 31491%N (-8)%Z));
 ("rate", VEnum "AngleRateKeywordType" "Y_RATE" (lit "Y_RATE"));
 ("units", VNone)]);
 ("rotation3", VObj "RotationRateComponentType" [("value", VDec (DFin false 3118%N (-8)%Z));
 ("rate", VEnum "AngleRateKeywordType" "X_RATE" (lit "X_RATE"));
 ("units", VNone)])])]);
 ("spin", VNone);
 ("spin_nutation", VNone)]; VObj "AttitudeStateType" [("quaternion_state", VNone);
 ("quaternion_derivative", VNone);
 ("quaternion_euler_rate", VNone);
 ("euler_angle", VNone);
 ("euler_angle_rate", VObj "EulerAngleRateType" [("epoch", VStr (lit "2003-03-04T12:00:10.000"));
 ("rotation_angles", VObj "RotationAngleType" [("rotation1", VObj "RotationAngleComponentType" [("value", VDec (DFin false 1628145%N (-8)%Z));
 ("angle", VEnum "AngleKeywordType" "Z_ANGLE" (lit "Z_ANGLE"));
 ("units", VNone)]);
 ("rotation2", VObj "RotationAngleComponentType" [("value", VDec (DFin true 1789729%N (-8)%Z));
 ("angle", VEnum "AngleKeywordType" "Y_ANGLE" (lit "Y_ANGLE"));
 ("units", VNone)]);
 ("rotation3", VObj "RotationAngleComponentType" [("value", VDec (DFin false 938935%N (-8)%Z));
 ("angle", VEnum "AngleKeywordType" "X_ANGLE" (lit "X_ANGLE"));
 ("units", VNone)])]);
 ("rotation_rates", VObj "RotationRateType" [("rotation1", VObj "RotationRateComponentType" [("value", VDec (DFin false 8895%N (-8)%Z));
 ("rate", VEnum "AngleRateKeywordType" "Z_RATE" (lit "Z_RATE"));
 ("units", VNone)]);
 ("rotation2", VObj "RotationRateComponentType" [("value", VDec (DFin true 31494%N (-8)%Z));
 ("rate", VEnum "AngleRateKeywordType" "Y_RATE" (lit "Y_RATE"));
 ("units", VNone)]);
 ("rotation3", VObj "RotationRateComponentType" [("value", VDec (DFin false 3118%N (-8)%Z));
 ("rate", VEnum "AngleRateKeywordType" "X_RATE" (lit "X_RATE"));
 ("units", VNone)])])]);
 ("spin", VNone);
 ("spin_nutation", VNone)]; VObj "AttitudeStateType" [("quaternion_state", VNone);
 ("quaternion_derivative", VNone);
 ("quaternion_euler_rate", VNone);
 ("euler_angle", VNone);
 ("euler_angle_rate", VObj "EulerAngleRateType" [("epoch", VStr (lit "2003-03-04T12:00:10.500"));
 ("rotation_angles", VObj "RotationAngleType" [("rotation1", VObj "RotationAngleComponentType" [("value", VDec (DFin false 1628239%N (-8)%Z));
 ("angle", VEnum "AngleKeywordType" "Z_ANGLE" (lit "Z_ANGLE"));
 ("units", VNone)]);
 ("rotation2", VObj "RotationAngleComponentType" [("value", VDec (DFin true 1789622%N (-8)%Z));
 ("angle", VEnum "AngleKeywordType" "Y_ANGLE" (lit "Y_ANGLE"));
 ("units", VNone)]);
 ("rotation3", VObj "RotationAngleComponentType" [("value", VDec (DFin false 938606%N (-8)%Z));
 ("angle", VEnum "AngleKeywordType" "X_ANGLE" (lit "X_ANGLE"));
 ("units", VNone)])]);
 ("rotation_rates", VObj "RotationRateType" [("rotation1", VObj "RotationRateComponentType" [("value", VDec (DFin false 8895%N (-8)%Z));
 ("rate", VEnum "AngleRateKeywordType" "Z_RATE" (lit "Z_RATE"));
 ("units", VNone)]);
 ("rotation2", VObj "RotationRateComponentType" [("value", VDec (DFin true 31496%N (-8)%Z));
 ("rate", VEnum "AngleRateKeywordType" "Y_RATE" (lit "Y_RATE"));
 ("units", VNone)]);
 ("rotation3", VObj "RotationRateComponentType" [("value", VDec (DFin false 3118%N (-8)%Z));
 ("rate", VEnum "AngleRateKeywordType" "X_RATE" (lit "X_RATE"));
 ("units", VNone)])])]);
 ("spin", VNone);
 ("spin_nutation", VNone)]; VObj "AttitudeStateType" [("quaternion_state", VNone);
 ("quaternion_derivative", VNone);
 ("quaternion_euler_rate", VNone);
 ("euler_angle", VNone);
 ("euler_angle_rate", VObj "EulerAngleRateType" [("epoch", VStr (lit "2003-03-04T12:00:11.000"));
 ("rotation_angles", VObj "RotationAngleType" [("rotation1", VObj "RotationAngleComponentType" [("value", VDec (DFin false 1628332%N (-8)%Z));
 ("angle", VEnum "AngleKeywordType" "Z_ANGLE" (lit "Z_ANGLE"));
 ("units", VNone)]);
 ("rotation2", VObj "RotationAngleComponentType" [("value", VDec (DFin true 1789518%N (-8)%Z));
 ("angle", VEnum "AngleKeywordType" "Y_ANGLE" (lit "Y_ANGLE"));
 ("units", VNone)]);
 ("rotation3", VObj "RotationAngleComponentType" [("value", VDec (DFin false 938282%N (-8)%Z));
 ("angle", VEnum "AngleKeywordType" "X_ANGLE" (lit "X_ANGLE"));
 ("units", VNone)])]);
 ("rotation_rates", VObj "RotationRateType" [("rotation1", VObj "RotationRateComponentType" [("value", VDec (DFin false 8985%N (-8)%Z));
 ("rate", VEnum "AngleRateKeywordType" "Z_RATE" (lit "Z_RATE"));
 ("units", VNone)]);
 ("rotation2", VObj "RotationRateComponentType" [("value", VDec (DFin false 57342%N (-8)%Z));
 ("rate", VEnum "AngleRateKeywordType" "Y_RATE" (lit "Y_RATE"));
 ("units", VNone)]);
 ("rotation3", VObj "RotationRateComponentType" [("value", VDec (DFin false 2968%N (-8)%Z));
 ("rate", VEnum "AngleRateKeywordType" "X_RATE" (lit "X_RATE"));
 ("units", VNone)])])]);
 ("spin", VNone);
 ("spin_nutation", VNone)]; VObj "AttitudeStateType" [("quaternion_state", VNone);
 ("quaternion_derivative", VNone);
 ("quaternion_euler_rate", VNone);
 ("euler_angle", VNone);
 ("euler_angle_rate", VObj "EulerAngleRateType" [("epoch", VStr (lit "2003-03-04T12:00:11.500"));
 ("rotation_angles", VObj "RotationAngleType" [("rotation1", VObj "RotationAngleComponentType" [("value", VDec (DFin false 1628426%N (-8)%Z));
 ("angle", VEnum "AngleKeywordType" "Z_ANGLE" (lit "Z_ANGLE"));
 ("units", VNone)]);
 ("rotation2", VObj "RotationAngleComponentType" [("value", VDec (DFin true 1789413%N (-8)%Z));
 ("angle", VEnum "AngleKeywordType" "Y_ANGLE" (lit "Y_ANGLE"));
 ("units", VNone)]);
 ("rotation3", VObj "RotationAngleComponentType" [("value", VDec (DFin false 937954%N (-8)%Z));
 ("angle", VEnum "AngleKeywordType" "X_ANGLE" (lit "X_ANGLE"));
 ("units", VNone)])]);
 ("rotation_rates", VObj "RotationRateType" [("rotation1", VObj "RotationRateComponentType" [("value", VDec (DFin false 8895%N (-8)%Z));
 ("rate", VEnum "AngleRateKeywordType" "Z_RATE" (lit "Z_RATE"));
 ("units", VNone)]);
 ("rotation2", VObj "RotationRateComponentType" [("value", VDec (DFin true 31502%N (-8)%Z));
 ("rate", VEnum "AngleRateKeywordType" "Y_RATE" (lit "Y_RATE"));
 ("units", VNone)]);
 ("rotation3", VObj "RotationRateComponentType" [("value", VDec (DFin false 3118%N (-8)%Z));
 ("rate", VEnum "AngleRateKeywordType" "X_RATE" (lit "X_RATE"));
 ("units", VNone)])])]);
 ("spin", VNone);
 ("spin_nutation", VNone)]; VObj "AttitudeStateType" [("quaternion_state", VNone);
 ("quaternion_derivative", VNone);
 ("quaternion_euler_rate", VNone);
 ("euler_angle", VNone);
 ("euler_angle_rate", VObj "EulerAngleRateType" [("epoch", VStr (lit "2003-03-04T12:00:12.000"));
 ("rotation_angles", VObj "RotationAngleType" [("rotation1", VObj "RotationAngleComponentType" [("value", VDec (DFin false 1628520%N (-8)%Z));
 ("angle", VEnum "AngleKeywordType" "Z_ANGLE" (lit "Z_ANGLE"));
 ("units", VNone)]);
 ("rotation2", VObj "RotationAngleComponentType" [("value", VDec (DFin true 1789309%N (-8)%Z));
 ("angle", VEnum "AngleKeywordType" "Y_ANGLE" (lit "Y_ANGLE"));
 ("units", VNone)]);
 ("rotation3", VObj "RotationAngleComponentType" [("value", VDec (DFin false 937626%N (-8)%Z));
 ("angle", VEnum "AngleKeywordType" "X_ANGLE" (lit "X_ANGLE"));
 ("units", VNone)])]);
 ("rotation_rates", VObj "RotationRateType" [("rotation1", VObj "RotationRateComponentType" [("value", VDec (DFin false 8895%N (-8)%Z));
 ("rate", VEnum "AngleRateKeywordType" "Z_RATE" (lit "Z_RATE"));
 ("units", VNone)]);
 ("rotation2", VObj "RotationRateComponentType" [("value", VDec (DFin true 31461%N (-8)%Z));
 ("rate", VEnum "AngleRateKeywordType" "Y_RATE" (lit "Y_RATE"));
 ("units", VNone)]);
 ("rotation3", VObj "RotationRateComponentType" [("value", VDec (DFin false 3118%N (-8)%Z));
 ("rate", VEnum "AngleRateKeywordType" "X_RATE" (lit "X_RATE"));
 ("units", VNone)])])]);
 ("spin", VNone);
 ("spin_nutation", VNone)]; VObj "AttitudeStateType" [("quaternion_state", VNone);
 ("quaternion_derivative", VNone);
 ("quaternion_euler_rate", VNone);
 ("euler_angle", VNone);
 ("euler_angle_rate", VObj "EulerAngleRateType" [("epoch", VStr (lit "2003-03-04T12:00:12.500"));
 ("rotation_angles", VObj "RotationAngleType" [("rotation1", VObj "RotationAngleComponentType" [("value", VDec (DFin false 1628614%N (-8)%Z));
 ("angle", VEnum "AngleKeywordType" "Z_ANGLE" (lit "Z_ANGLE"));
 ("units", VNone)]);
 ("rotation2", VObj "RotationAngleComponentType" [("value", VDec (DFin true 1789206%N (-8)%Z));
 ("angle", VEnum "AngleKeywordType" "Y_ANGLE" (lit "Y_ANGLE"));
 ("units", VNone)]);
 ("rotation3", VObj "RotationAngleComponentType" [("value", VDec (DFin false 937297%N (-8)%Z));
 ("angle", VEnum "AngleKeywordType" "X_ANGLE" (lit "X_ANGLE"));
 ("units", VNone)])]);
 ("rotation_rates", VObj "RotationRateType" [("rotation1", VObj "RotationRateComponentType" [("value", VDec (DFin false 8895%N (-8)%Z));
 ("rate", VEnum "AngleRateKeywordType" "Z_RATE" (lit "Z_RATE"));
 ("units", VNone)]);
 ("rotation2", VObj "RotationRateComponentType" [("value", VDec (DFin true 31523%N (-8)%Z));
 ("rate", VEnum "AngleRateKeywordType" "Y_RATE" (lit "Y_RATE"));
 ("units", VNone)]);
 ("rotation3", VObj "RotationRateComponentType" [("value", VDec (DFin false 3118%N (-8)%Z));
 ("rate", VEnum "AngleRateKeywordType" "X_RATE" (lit "X_RATE"));
 ("units", VNone)])])]);
 ("spin", VNone);
 ("spin_nutation", VNone)]; VObj "AttitudeStateType" [("quaternion_state", VNone);
 ("quaternion_derivative", VNone);
 ("quaternion_euler_rate", VNone);
 ("euler_angle", VNone);
 ("euler_angle_rate", VObj "EulerAngleRateType" [("epoch", VStr (lit "2003-03-04T12:00:13.000"));
 ("rotation_angles", VObj "RotationAngleType" [("rotation1", VObj "RotationAngleComponentType" [("value", VDec (DFin false 1628708%N (-8)%Z));
 ("angle", VEnum "AngleKeywordType" "Z_ANGLE" (lit "Z_ANGLE"));
 ("units", VNone)]);
 ("rotation2", VObj "RotationAngleComponentType" [("value", VDec (DFin true 1789104%N (-8)%Z));
 ("angle", VEnum "AngleKeywordType" "Y_ANGLE" (lit "Y_ANGLE"));
 ("units", VNone)]);
 ("rotation3", VObj "RotationAngleComponentType" [("value", VDec (DFin false 936969%N (-8)%Z));
 ("angle", VEnum "AngleKeywordType" "X_ANGLE" (lit "X_ANGLE"));
 ("units", VNone)])]);
 ("rotation_rates", VObj "RotationRateType" [("rotation1", VObj "RotationRateComponentType" [("value", VDec (DFin false 8895%N (-8)%Z));
 ("rate", VEnum "AngleRateKeywordType" "Z_RATE" (lit "Z_RATE"));
 ("units", VNone)]);
 ("rotation2", VObj "RotationRateComponentType" [("value", VDec (DFin true 31525%N (-8)%Z));
 ("rate", VEnum "AngleRateKeywordType" "Y_RATE" (lit "Y_RATE"));
 ("units", VNone)]);
 ("rotation3", VObj "RotationRateComponentType" [("value", VDec (DFin false 3118%N (-8)%Z));
 ("rate", VEnum "AngleRateKeywordType" "X_RATE" (lit "X_RATE"));
 ("units", VNone)])])]);
 ("spin", VNone);
 ("spin_nutation", VNone)]; VObj "AttitudeStateType" [("quaternion_state", VNone);
 ("quaternion_derivative", VNone);
 ("quaternion_euler_rate", VNone);
 ("euler_angle", VNone);
 ("euler_angle_rate", VObj "EulerAngleRateType" [("epoch", VStr (lit "2003-03-04T12:00:13.500"));
 ("rotation_angles", VObj "RotationAngleType" [("rotation1", VObj "RotationAngleComponentType" [("value", VDec (DFin false 1628802%N (-8)%Z));
 ("angle", VEnum "AngleKeywordType" "Z_ANGLE" (lit "Z_ANGLE"));
 ("units", VNone)]);
 ("rotation2", VObj "RotationAngleComponentType" [("value", VDec (DFin true 1789003%N (-8)%Z));
 ("angle", VEnum "AngleKeywordType" "Y_ANGLE" (lit "Y_ANGLE"));
 ("units", VNone)]);
 ("rotation3", VObj "RotationAngleComponentType" [("value", VDec (DFin false 936640%N (-8)%Z));
 ("angle", VEnum "AngleKeywordType" "X_ANGLE" (lit "X_ANGLE"));
 ("units", VNone)])]);
 ("rotation_rates", VObj "RotationRateType" [("rotation1", VObj "RotationRateComponentType" [("value", VDec (DFin false 8895%N (-8)%Z));
 ("rate", VEnum "AngleRateKeywordType" "Z_RATE" (lit "Z_RATE"));
 ("units", VNone)]);
 ("rotation2", VObj "RotationRateComponentType" [("value", VDec (DFin true 31528%N (-8)%Z));
 ("rate", VEnum "AngleRateKeywordType" "Y_RATE" (lit "Y_RATE"));
 ("units", VNone)]);
 ("rotation3", VObj "RotationRateComponentType" [("value", VDec (DFin false 3118%N (-8)%Z));
 ("rate", VEnum "AngleRateKeywordType" "X_RATE" (lit "X_RATE"));
 ("units", VNone)])])]);
 ("spin", VNone);
 ("spin_nutation", VNone)]; VObj "AttitudeStateType" [("quaternion_state", VNone);
 ("quaternion_derivative", VNone);
 ("quaternion_euler_rate", VNone);
 ("euler_angle", VNone);
 ("euler_angle_rate", VObj "EulerAngleRateType" [("epoch", VStr (lit "2003-03-04T12:00:14.000"));
 ("rotation_angles", VObj "RotationAngleType" [("rotation1", VObj "RotationAngleComponentType" [("value", VDec (DFin false 1628896%N (-8)%Z));
 ("angle", VEnum "AngleKeywordType" "Z_ANGLE" (lit "Z_ANGLE"));
 ("units", VNone)]);
 ("rotation2", VObj "RotationAngleComponentType" [("value", VDec (DFin true 1788903%N (-8)%Z));
 ("angle", VEnum "AngleKeywordType" "Y_ANGLE" (lit "Y_ANGLE"));
 ("units", VNone)]);
 ("rotation3", VObj "RotationAngleComponentType" [("value", VDec (DFin false 936312%N (-8)%Z));
 ("angle", VEnum "AngleKeywordType" "X_ANGLE" (lit "X_ANGLE"));
 ("units", VNone)])]);
 ("rotation_rates", VObj "RotationRateType" [("rotation1", VObj "RotationRateComponentType" [("value", VDec (DFin false 8895%N (-8)%Z));
 ("rate", VEnum "AngleRateKeywordType" "Z_RATE" (lit "Z_RATE"));
 ("units", VNone)]);
 ("rotation2", VObj "RotationRateComponentType" [("value", VDec (DFin true 31530%N (-8)%Z));
 ("rate", VEnum "AngleRateKeywordType" "Y_RATE" (lit "Y_RATE"));
 ("units", VNone)]);
 ("rotation3", VObj "RotationRateComponentType" [("value", VDec (DFin false 3118%N (-8)%Z));
 ("rate", VEnum "AngleRateKeywordType" "X_RATE" (lit "X_RATE"));
 ("units", VNone)])])]);
 ("spin", VNone);
 ("spin_nutation", VNone)]; VObj "AttitudeStateType" [("quaternion_state", VNone);
 ("quaternion_derivative", VNone);
 ("quaternion_euler_rate", VNone);
 ("euler_angle", VNone);
 ("euler_angle_rate", VObj "EulerAngleRateType" [("epoch", VStr (lit "2003-03-04T12:00:14.500"));
 ("rotation_angles", VObj "RotationAngleType" [("rotation1", VObj "RotationAngleComponentType" [("value", VDec (DFin false 1628989%N (-8)%Z));
 ("angle", VEnum "AngleKeywordType" "Z_ANGLE" (lit "Z_ANGLE"));
 ("units", VNone)]);
 ("rotation2", VObj "RotationAngleComponentType" [("value", VDec (DFin true 1788804%N (-8)%Z));
 ("angle", VEnum "AngleKeywordType" "Y_ANGLE" (lit "Y_ANGLE"));
 ("units", VNone)]);
 ("rotation3", VObj "RotationAngleComponentType" [("value", VDec (DFin false 935988%N (-8)%Z));
 ("angle", VEnum "AngleKeywordType" "X_ANGLE" (lit "X_ANGLE"));
 ("units", VNone)])]);
 ("rotation_rates", VObj "RotationRateType" [("rotation1", VObj "RotationRateComponentType" [("value", VDec (DFin false 8985%N (-8)%Z));
 ("rate", VEnum "AngleRateKeywordType" "Z_RATE" (lit "Z_RATE"));
 ("units", VNone)]);
 ("rotation2", VObj "RotationRateComponentType" [("value", VDec (DFin false 57309%N (-8)%Z));
 ("rate", VEnum "AngleRateKeywordType" "Y_RATE" (lit "Y_RATE"));
 ("units", VNone)]);
 ("rotation3", VObj "RotationRateComponentType" [("value", VDec (DFin false 2968%N (-8)%Z));
 ("rate", VEnum "AngleRateKeywordType" "X_RATE" (lit "X_RATE"));
 ("units", VNone)])])]);
 ("spin", VNone);
 ("spin_nutation", VNone)]; VObj "AttitudeStateType" [("quaternion_state", VNone);
 ("quaternion_derivative", VNone);
 ("quaternion_euler_rate", VNone);
 ("euler_angle", VNone);
 ("euler_angle_rate", VObj "EulerAngleRateType" [("epoch", VStr (lit "2003-03-04T12:00:15.000"));
 ("rotation_angles", VObj "RotationAngleType" [("rotation1", VObj "RotationAngleComponentType" [("value", VDec (DFin false 1629083%N (-8)%Z));
 ("angle", VEnum "AngleKeywordType" "Z_ANGLE" (lit "Z_ANGLE"));
 ("units", VNone)]);
 ("rotation2", VObj "RotationAngleComponentType" [("value", VDec (DFin true 1788706%N (-8)%Z));
 ("angle", VEnum "AngleKeywordType" "Y_ANGLE" (lit "Y_ANGLE"));
 ("units", VNone)]);
 ("rotation3", VObj "RotationAngleComponentType" [("value", VDec (DFin false 935660%N (-8)%Z));
 ("angle", VEnum "AngleKeywordType" "X_ANGLE" (lit "X_ANGLE"));
 ("units", VNone)])]);
 ("rotation_rates", VObj "RotationRateType" [("rotation1", VObj "RotationRateComponentType" [("value", VDec (DFin false 8895%N (-8)%Z));
 ("rate", VEnum "AngleRateKeywordType" "Z_RATE" (lit "Z_RATE"));
 ("units", VNone)]);
 ("rotation2", VObj "RotationRateComponentType" [("value", VDec (DFin true 31535%N (-8)%Z));
 ("rate", VEnum "AngleRateKeywordType" "Y_RATE" (lit "Y_RATE"));
 ("units", VNone)]);
 ("rotation3", VObj "RotationRateComponentType" [("value", VDec (DFin false 3118%N (-8)%Z));
 ("rate", VEnum "AngleRateKeywordType" "X_RATE" (lit "X_RATE"));
 ("units", VNone)])])]);
 ("spin", VNone);
 ("spin_nutation", VNone)]; VObj "AttitudeStateType" [("quaternion_state", VNone);
 ("quaternion_derivative", VNone);
 ("quaternion_euler_rate", VNone);
 ("euler_angle", VNone);
 ("euler_angle_rate", VObj "EulerAngleRateType" [("epoch", VStr (lit "2003-03-04T12:00:15.500"));
 ("rotation_angles", VObj "RotationAngleType" [("rotation1", VObj "RotationAngleComponentType" [("value", VDec (DFin false 1629177%N (-8)%Z));
 ("angle", VEnum "AngleKeywordType" "Z_ANGLE" (lit "Z_ANGLE"));
 ("units", VNone)]);
 ("rotation2", VObj "RotationAngleComponentType" [("value", VDec (DFin true 1788608%N (-8)%Z));
 ("angle", VEnum "AngleKeywordType" "Y_ANGLE" (lit "Y_ANGLE"));
 ("units", VNone)]);
 ("rotation3", VObj "RotationAngleComponentType" [("value", VDec (DFin false 935332%N (-8)%Z));
 ("angle", VEnum "AngleKeywordType" "X_ANGLE" (lit "X_ANGLE"));
 ("units", VNone)])]);
 ("rotation_rates", VObj "RotationRateType" [("rotation1", VObj "RotationRateComponentType" [("value", VDec (DFin false 8895%N (-8)%Z));
 ("rate", VEnum "AngleRateKeywordType" "Z_RATE" (lit "Z_RATE"));
 ("units", VNone)]);
 ("rotation2", VObj "RotationRateComponentType" [("value", VDec (DFin true 31538%N (-8)%Z));
 ("rate", VEnum "AngleRateKeywordType" "Y_RATE" (lit "Y_RATE"));
 ("units", VNone)]);
 ("rotation3", VObj "RotationRateComponentType" [("value", VDec (DFin false 3118%N (-8)%Z));
 ("rate", VEnum "AngleRateKeywordType" "X_RATE" (lit "X_RATE"));
 ("units", VNone)])])]);
 ("spin", VNone);
 ("spin_nutation", VNone)]; VObj "AttitudeStateType" [("quaternion_state", VNone);
 ("quaternion_derivative", VNone);
 ("quaternion_euler_rate", VNone);
 ("euler_angle", VNone);
 ("euler_angle_rate", VObj "EulerAngleRateType" [("epoch", VStr (lit "2003-03-04T12:00:16.000"));
 ("rotation_angles", VObj "RotationAngleType" [("rotation1", VObj "RotationAngleComponentType" [("value", VDec (DFin false 1629267%N (-8)%Z));
 ("angle", VEnum "AngleKeywordType" "Z_ANGLE" (lit "Z_ANGLE"));
 ("units", VNone)]);
 ("rotation2", VObj "RotationAngleComponentType" [("value", VDec (DFin true 1788494%N (-8)%Z));
 ("angle", VEnum "AngleKeywordType" "Y_ANGLE" (lit "Y_ANGLE"));
 ("units", VNone)]);
 ("rotation3", VObj "RotationAngleComponentType" [("value", VDec (DFin false 935004%N (-8)%Z));
 ("angle", VEnum "AngleKeywordType" "X_ANGLE" (lit "X_ANGLE"));
 ("units", VNone)])]);
 ("rotation_rates", VObj "RotationRateType" [("rotation1", VObj "RotationRateComponentType" [("value", VDec (DFin false 97745%N (-8)%Z));
 ("rate", VEnum "AngleRateKeywordType" "Z_RATE" (lit "Z_RATE"));
 ("units", VNone)]);
 ("rotation2", VObj "RotationRateComponentType" [("value", VDec (DFin true 31549%N (-8)%Z));
 ("rate", VEnum "AngleRateKeywordType" "Y_RATE" (lit "Y_RATE"));
 ("units", VNone)]);
 ("rotation3", VObj "RotationRateComponentType" [("value", VDec (DFin false 3034%N (-8)%Z));
 ("rate", VEnum "AngleRateKeywordType" "X_RATE" (lit "X_RATE"));
 ("units", VNone)])])]);
 ("spin", VNone);
 ("spin_nutation", VNone)]; VObj "AttitudeStateType" [("quaternion_state", VNone);
 ("quaternion_derivative", VNone);
 ("quaternion_euler_rate", VNone);
 ("euler_angle", VNone);
 ("euler_angle_rate", VObj "EulerAngleRateType" [("epoch", VStr (lit "2003-03-04T12:00:16.500"));
 ("rotation_angles", VObj "RotationAngleType" [("rotation1", VObj "RotationAngleComponentType" [("value", VDec (DFin false 1629362%N (-8)%Z));
 ("angle", VEnum "AngleKeywordType" "Z_ANGLE" (lit "Z_ANGLE"));
 ("units", VNone)]);
 ("rotation2", VObj "RotationAngleComponentType" [("value", VDec (DFin true 1788398%N (-8)%Z));
 ("angle", VEnum "AngleKeywordType" "Y_ANGLE" (lit "Y_ANGLE"));
 ("units", VNone)]);
 ("rotation3", VObj "RotationAngleComponentType" [("value", VDec (DFin false 934676%N (-8)%Z));
 ("angle", VEnum "AngleKeywordType" "X_ANGLE" (lit "X_ANGLE"));
 ("units", VNone)])]);
 ("rotation_rates", VObj "RotationRateType" [("rotation1", VObj "RotationRateComponentType" [("value", VDec (DFin false 8895%N (-8)%Z));
 ("rate", VEnum "AngleRateKeywordType" "Z_RATE" (lit "Z_RATE"));
 ("units", VNone)]);
 ("rotation2", VObj "RotationRateComponentType" [("value", VDec (DFin true 31562%N (-8)%Z));
 ("rate", VEnum "AngleRateKeywordType" "Y_RATE" (lit "Y_RATE"));
 ("units", VNone)]);
 ("rotation3", VObj "RotationRateComponentType" [("value", VDec (DFin false 3118%N (-8)%Z));
 ("rate", VEnum "AngleRateKeywordType" "X_RATE" (lit "X_RATE"));
 ("units", VNone)])])]);
 ("spin", VNone);
 ("spin_nutation", VNone)]; VObj "AttitudeStateType" [("quaternion_state", VNone);
 ("quaternion_derivative", VNone);
 ("quaternion_euler_rate", VNone);
 ("euler_angle", VNone);
 ("euler_angle_rate", VObj "EulerAngleRateType" [("epoch", VStr (lit "2003-03-04T12:00:17.000"));
 ("rotation_angles", VObj "RotationAngleType" [("rotation1", VObj "RotationAngleComponentType" [("value", VDec (DFin false 1629456%N (-8)%Z));
 ("angle", VEnum "AngleKeywordType" "Z_ANGLE" (lit "Z_ANGLE"));
 ("units", VNone)]);
 ("rotation2", VObj "RotationAngleComponentType" [("value", VDec (DFin true 1788302%N (-8)%Z));
 ("angle", VEnum "AngleKeywordType" "Y_ANGLE" (lit "Y_ANGLE"));
 ("units", VNone)]);
 ("rotation3", VObj "RotationAngleComponentType" [("value", VDec (DFin false 934348%N (-8)%Z));
 ("angle", VEnum "AngleKeywordType" "X_ANGLE" (lit "X_ANGLE"));
 ("units", VNone)])]);
 ("rotation_rates", VObj "RotationRateType" [("rotation1", VObj "RotationRateComponentType" [("value", VDec (DFin false 8895%N (-8)%Z));
 ("rate", VEnum "AngleRateKeywordType" "Z_RATE" (lit "Z_RATE"));
 ("units", VNone)]);
 ("rotation2", VObj "RotationRateComponentType" [("value", VDec (DFin true 31565%N (-8)%Z));
 ("rate", VEnum "AngleRateKeywordType" "Y_RATE" (lit "Y_RATE"));
 ("units", VNone)]);
 ("rotation3", VObj "RotationRateComponentType" [("value", VDec (DFin false 3118%N (-8)%Z));
 ("rate", VEnum "AngleRateKeywordType" "X_RATE" (lit "X_RATE"));
 ("units", VNone)])])]);
 ("spin", VNone);
 ("spin_nutation", VNone)]; VObj "AttitudeStateType" [("quaternion_state", VNone);
 ("quaternion_derivative", VNone);
 ("quaternion_euler_rate", VNone);
 ("euler_angle", VNone);
 ("euler_angle_rate", VObj "EulerAngleRateType" [("epoch", VStr (lit "2003-03-04T12:00:17.500"));
 ("rotation_angles", VObj "RotationAngleType" [("rotation1", VObj "RotationAngleComponentType" [("value", VDec (DFin false 1629550%N (-8)%Z));
 ("angle", VEnum "AngleKeywordType" "Z_ANGLE" (lit "Z_ANGLE"));
 ("units", VNone)]);
 ("rotation2", VObj "RotationAngleComponentType" [("value", VDec (DFin true 1788208%N (-8)%Z));
 ("angle", VEnum "AngleKeywordType" "Y_ANGLE" (lit "Y_ANGLE"));
 ("units", VNone)]);
 ("rotation3", VObj "RotationAngleComponentType" [("value", VDec (DFin false 934019%N (-8)%Z));
 ("angle", VEnum "AngleKeywordType" "X_ANGLE" (lit "X_ANGLE"));
 ("units", VNone)])]);
 ("rotation_rates", VObj "RotationRateType" [("rotation1", VObj "RotationRateComponentType" [("value", VDec (DFin false 8895%N (-8)%Z));
 ("rate", VEnum "AngleRateKeywordType" "Z_RATE" (lit "Z_RATE"));
 ("units", VNone)]);
 ("rotation2", VObj "RotationRateComponentType" [("value", VDec (DFin true 31567%N (-8)%Z));
 ("rate", VEnum "AngleRateKeywordType" "Y_RATE" (lit "Y_RATE"));
 ("units", VNone)]);
 ("rotation3", VObj "RotationRateComponentType" [("value", VDec (DFin false 3118%N (-8)%Z));
 ("rate", VEnum "AngleRateKeywordType" "X_RATE" (lit "X_RATE"));
 ("units", VNone)])])]);
 ("spin", VNone);
 ("spin_nutation", VNone)]; VObj "AttitudeStateType" [("quaternion_state", VNone);
 ("quaternion_derivative", VNone);
 ("quaternion_euler_rate", VNone);
 ("euler_angle", VNone);
 ("euler_angle_rate", VObj "EulerAngleRateType" [("epoch", VStr (lit "2003-03-04T12:00:18.000"));
 ("rotation_angles", VObj "RotationAngleType" [("rotation1", VObj "RotationAngleComponentType" [("value", VDec (DFin false 1629644%N (-8)%Z));
 ("angle", VEnum "AngleKeywordType" "Z_ANGLE" (lit "Z_ANGLE"));
 ("units", VNone)]);
 ("rotation2", VObj "RotationAngleComponentType" [("value", VDec (DFin true 1788115%N (-8)%Z));
 ("angle", VEnum "AngleKeywordType" "Y_ANGLE" (lit "Y_ANGLE"));
 ("units", VNone)]);
 ("rotation3", VObj "RotationAngleComponentType" [("value", VDec (DFin false 933691%N (-8)%Z));
 ("angle", VEnum "AngleKeywordType" "X_ANGLE" (lit "X_ANGLE"));
 ("units", VNone)])]);
 ("rotation_rates", VObj "RotationRateType" [("rotation1", VObj "RotationRateComponentType" [("value", VDec (DFin false 8895%N (-8)%Z));
 ("rate", VEnum "AngleRateKeywordType" "Z_RATE" (lit "Z_RATE"));
 ("units", VNone)]);
 ("rotation2", VObj "RotationRateComponentType" [("value", VDec (DFin true 31570%N (-8)%Z));
 ("rate", VEnum "AngleRateKeywordType" "Y_RATE" (lit "Y_RATE"));
 ("units", VNone)]);
 ("rotation3", VObj "RotationRateComponentType" [("value", VDec (DFin false 3118%N (-8)%Z));
 ("rate", VEnum "AngleRateKeywordType" "X_RATE" (lit "X_RATE"));
 ("units", VNone)])])]);
 ("spin", VNone);
 ("spin_nutation", VNone)]; VObj "AttitudeStateType" [("quaternion_state", VNone);
 ("quaternion_derivative", VNone);
 ("quaternion_euler_rate", VNone);
 ("euler_angle", VNone);
 ("euler_angle_rate", VObj "EulerAngleRateType" [("epoch", VStr (lit "2003-03-04T12:00:18.500"));
 ("rotation_angles", VObj "RotationAngleType" [("rotation1", VObj "RotationAngleComponentType" [("value", VDec (DFin false 1629738%N (-8)%Z));
 ("angle", VEnum "AngleKeywordType" "Z_ANGLE" (lit "Z_ANGLE"));
 ("units", VNone)]);
 ("rotation2", VObj "RotationAngleComponentType" [("value", VDec (DFin true 1788022%N (-8)%Z));
 ("angle", VEnum "AngleKeywordType" "Y_ANGLE" (lit "Y_ANGLE"));
 ("units", VNone)]);
 ("rotation3", VObj "RotationAngleComponentType" [("value", VDec (DFin false 933363%N (-8)%Z));
 ("angle", VEnum "AngleKeywordType" "X_ANGLE" (lit "X_ANGLE"));
 ("units", VNone)])]);
 ("rotation_rates", VObj "RotationRateType" [("rotation1", VObj "RotationRateComponentType" [("value", VDec (DFin false 8895%N (-8)%Z));
 ("rate", VEnum "AngleRateKeywordType" "Z_RATE" (lit "Z_RATE"));
 ("units", VNone)]);
 ("rotation2", VObj "RotationRateComponentType" [("value", VDec (DFin true 31572%N (-8)%Z));
 ("rate", VEnum "AngleRateKeywordType" "Y_RATE" (lit "Y_RATE"));
 ("units", VNone)]);
 ("rotation3", VObj "RotationRateComponentType" [("value", VDec (DFin false 3118%N (-8)%Z));
 ("rate", VEnum "AngleRateKeywordType" "X_RATE" (lit "X_RATE"));
 ("units", VNone)])])]);
 ("spin", VNone);
 ("spin_nutation", VNone)]; VObj "AttitudeStateType" [("quaternion_state", VNone);
 ("quaternion_derivative", VNone);
 ("quaternion_euler_rate", VNone);
 ("euler_angle", VNone);
 ("euler_angle_rate", VObj "EulerAngleRateType" [("epoch", VStr (lit "2003-03-04T12:00:19.000"));
 ("rotation_angles", VObj "RotationAngleType" [("rotation1", VObj "RotationAngleComponentType" [("value", VDec (DFin false 1629831%N (-8)%Z));
 ("angle", VEnum "AngleKeywordType" "Z_ANGLE" (lit "Z_ANGLE"));
 ("units", VNone)]);
 ("rotation2", VObj "RotationAngleComponentType" [("value", VDec (DFin true 1787932%N (-8)%Z));
 ("angle", VEnum "AngleKeywordType" "Y_ANGLE" (lit "Y_ANGLE"));
 ("units", VNone)]);
 ("rotation3", VObj "RotationAngleComponentType" [("value", VDec (DFin false 933039%N (-8)%Z));
 ("angle", VEnum "AngleKeywordType" "X_ANGLE" (lit "X_ANGLE"));
 ("units", VNone)])]);
 ("rotation_rates", VObj "RotationRateType" [("rotation1", VObj "RotationRateComponentType" [("value", VDec (DFin false 8985%N (-8)%Z));
 ("rate", VEnum "AngleRateKeywordType" "Z_RATE" (lit "Z_RATE"));
 ("units", VNone)]);
 ("rotation2", VObj "RotationRateComponentType" [("value", VDec (DFin false 57267%N (-8)%Z));
 ("rate", VEnum "AngleRateKeywordType" "Y_RATE" (lit "Y_RATE"));
 ("units", VNone)]);
 ("rotation3", VObj "RotationRateComponentType" [("value", VDec (DFin false 2968%N (-8)%Z));
 ("rate", VEnum "AngleRateKeywordType" "X_RATE" (lit "X_RATE"));
 ("units", VNone)])])]);
 ("spin", VNone);
 ("spin_nutation", VNone)]; VObj "AttitudeStateType" [("quaternion_state", VNone);
 ("quaternion_derivative", VNone);
 ("quaternion_euler_rate", VNone);
 ("euler_angle", VNone);
 ("euler_angle_rate", VObj "EulerAngleRateType" [("epoch", VStr (lit "2003-03-04T12:00:19.500"));
 ("rotation_angles", VObj "RotationAngleType" [("rotation1", VObj "RotationAngleComponentType" [("value", VDec (DFin false 1629925%N (-8)%Z));
 ("angle", VEnum "AngleKeywordType" "Z_ANGLE" (lit "Z_ANGLE"));
 ("units", VNone)]);
 ("rotation2", VObj "RotationAngleComponentType" [("value", VDec (DFin true 1787841%N (-8)%Z));
 ("angle", VEnum "AngleKeywordType" "Y_ANGLE" (lit "Y_ANGLE"));
 ("units", VNone)]);
 ("rotation3", VObj "RotationAngleComponentType" [("value", VDec (DFin false 932711%N (-8)%Z));
 ("angle", VEnum "AngleKeywordType" "X_ANGLE" (lit "X_ANGLE"));
 ("units", VNone)])]);
 ("rotation_rates", VObj "RotationRateType" [("rotation1", VObj "RotationRateComponentType" [("value", VDec (DFin false 8895%N (-8)%Z));
 ("rate", VEnum "AngleRateKeywordType" "Z_RATE" (lit "Z_RATE"));
 ("units", VNone)]);
 ("rotation2", VObj "RotationRateComponentType" [("value", VDec (DFin true 31577%N (-8)%Z));
 ("rate", VEnum "AngleRateKeywordType" "Y_RATE" (lit "Y_RATE"));
 ("units", VNone)]);
 ("rotation3", VObj "RotationRateComponentType" [("value", VDec (DFin false 3118%N (-8)%Z));
 ("rate", VEnum "AngleRateKeywordType" "X_RATE" (lit "X_RATE"));
 ("units", VNone)])])]);
 ("spin", VNone);
 ("spin_nutation", VNone)]; VObj "AttitudeStateType" [("quaternion_state", VNone);
 ("quaternion_derivative", VNone);
 ("quaternion_euler_rate", VNone);
 ("euler_angle", VNone);
 ("euler_angle_rate", VObj "EulerAngleRateType" [("epoch", VStr (lit "2003-03-04T12:00:20.000"));
 ("rotation_angles", VObj "RotationAngleType" [("rotation1", VObj "RotationAngleComponentType" [("value", VDec (DFin false 1630020%N (-8)%Z));
 ("angle", VEnum "AngleKeywordType" "Z_ANGLE" (lit "Z_ANGLE"));
 ("units", VNone)]);
 ("rotation2", VObj "RotationAngleComponentType" [("value", VDec (DFin true 1787752%N (-8)%Z));
 ("angle", VEnum "AngleKeywordType" "Y_ANGLE" (lit "Y_ANGLE"));
 ("units", VNone)]);
 ("rotation3", VObj "RotationAngleComponentType" [("value", VDec (DFin false 932383%N (-8)%Z));
 ("angle", VEnum "AngleKeywordType" "X_ANGLE" (lit "X_ANGLE"));
 ("units", VNone)])]);
 ("rotation_rates", VObj "RotationRateType" [("rotation1", VObj "RotationRateComponentType" [("value", VDec (DFin false 8895%N (-8)%Z));
 ("rate", VEnum "AngleRateKeywordType" "Z_RATE" (lit "Z_RATE"));
 ("units", VNone)]);
 ("rotation2", VObj "RotationRateComponentType" [("value", VDec (DFin true 31501%N (-8)%Z));
 ("rate", VEnum "AngleRateKeywordType" "Y_RATE" (lit "Y_RATE"));
 ("units", VNone)]);
 ("rotation3", VObj "RotationRateComponentType" [("value", VDec (DFin false 3118%N (-8)%Z));
 ("rate", VEnum "AngleRateKeywordType" "X_RATE" (lit "X_RATE"));
 ("units", VNone)])])]);
 ("spin", VNone);
 ("spin_nutation", VNone)]; VObj "AttitudeStateType" [("quaternion_state", VNone);
 ("quaternion_derivative", VNone);
 ("quaternion_euler_rate", VNone);
 ("euler_angle", VNone);
 ("euler_angle_rate", VObj "EulerAngleRateType" [("epoch", VStr (lit "2003-03-04T12:00:20.500"));
 ("rotation_angles", VObj "RotationAngleType" [("rotation1", VObj "RotationAngleComponentType" [("value", VDec (DFin false 1630114%N (-8)%Z));
 ("angle", VEnum "AngleKeywordType" "Z_ANGLE" (lit "Z_ANGLE"));
 ("units", VNone)]);
 ("rotation2", VObj "RotationAngleComponentType" [("value", VDec (DFin true 1787663%N (-8)%Z));
 ("angle", VEnum "AngleKeywordType" "Y_ANGLE" (lit "Y_ANGLE"));
 ("units", VNone)]);
 ("rotation3", VObj "RotationAngleComponentType" [("value", VDec (DFin false 932054%N (-8)%Z));
 ("angle", VEnum "AngleKeywordType" "X_ANGLE" (lit "X_ANGLE"));
 ("units", VNone)])]);
 ("rotation_rates", VObj "RotationRateType" [("rotation1", VObj "RotationRateComponentType" [("value", VDec (DFin false 8895%N (-8)%Z));
 ("rate", VEnum "AngleRateKeywordType" "Z_RATE" (lit "Z_RATE"));
 ("units", VNone)]);
 ("rotation2", VObj "RotationRateComponentType" [("value", VDec (DFin true 31606%N (-8)%Z));
 ("rate", VEnum "AngleRateKeywordType" "Y_RATE" (lit "Y_RATE"));
 ("units", VNone)]);
 ("rotation3", VObj "RotationRateComponentType" [("value", VDec (DFin false 3118%N (-8)%Z));
 ("rate", VEnum "AngleRateKeywordType" "X_RATE" (lit "X_RATE"));
 ("units", VNone)])])]);
 ("spin", VNone);
 ("spin_nutation", VNone)]; VObj "AttitudeStateType" [("quaternion_state", VNone);
 ("quaternion_derivative", VNone);
 ("quaternion_euler_rate", VNone);
 ("euler_angle", VNone);
 ("euler_angle_rate", VObj "EulerAngleRateType" [("epoch", VStr (lit "2003-03-04T12:00:21.000"));
 ("rotation_angles", VObj "RotationAngleType" [("rotation1", VObj "RotationAngleComponentType" [("value", VDec (DFin false 1630208%N (-8)%Z));
 ("angle", VEnum "AngleKeywordType" "Z_ANGLE" (lit "Z_ANGLE"));
 ("units", VNone)]);
 ("rotation2", VObj "RotationAngleComponentType" [("value", VDec (DFin true 1787574%N (-8)%Z));
 ("angle", VEnum "AngleKeywordType" "Y_ANGLE" (lit "Y_ANGLE"));
 ("units", VNone)]);
 ("rotation3", VObj "RotationAngleComponentType" [("value", VDec (DFin false 931726%N (-8)%Z));
 ("angle", VEnum "AngleKeywordType" "X_ANGLE" (lit "X_ANGLE"));
 ("units", VNone)])]);
 ("rotation_rates", VObj "RotationRateType" [("rotation1", VObj "RotationRateComponentType" [("value", VDec (DFin false 8895%N (-8)%Z));
 ("rate", VEnum "AngleRateKeywordType" "Z_RATE" (lit "Z_RATE"));
 ("units", VNone)]);
 ("rotation2", VObj "RotationRateComponentType" [("value", VDec (DFin true 31609%N (-8)%Z));
 ("rate", VEnum "AngleRateKeywordType" "Y_RATE" (lit "Y_RATE"));
 ("units", VNone)]);
 ("rotation3", VObj "RotationRateComponentType" [("value", VDec (DFin false 3118%N (-8)%Z));
 ("rate", VEnum "AngleRateKeywordType" "X_RATE" (lit "X_RATE"));
 ("units", VNone)])])]);
 ("spin", VNone);
 ("spin_nutation", VNone)]])])]; VObj "AemSegment" [("metadata", VObj "AemMetadata" [("comment", VList [VStr (lit "TRMM Attitude history beginning at 2003-03-04T12:00:00"); VStr (lit "Attitude requires an OEM for full processing"); VStr (lit "OEM provided for this message is trmm_oem_20030304_1200_1305.txt")]);
 ("object_name", VStr (lit "TRMM"));
 ("object_id", VStr (lit "1997-009A"));
 ("center_name", VStr (lit "EARTH"));
 ("ref_frame_a", VStr (lit "SC_BODY"));
 ("ref_frame_b", VStr (lit "LVLH"));
 ("attitude_dir", VEnum "RotDirectionType" "B2_A" (lit "B2A"));
 ("time_system", VEnum "TimeSystemType" "TOD" (lit "TOD"));
 ("start_time", VStr (lit "2003-03-04T12:00:21.00"));
 ("useable_start_time", VNone);
 ("useable_stop_time", VNone);
 ("stop_time", VStr (lit "2003-03-04T12:00:47.500"));
 ("attitude_type", VEnum "AttitudeTypeType" "QUATERNION_RATE_1" (lit "QUATERNION/RATE"));
 ("quaternion_type", VEnum "QuaternionTypeType" "LAST_1" (lit "LAST"));
 ("euler_rot_seq", VEnum "RotseqType" "VALUE_212" (lit "212"));
 ("rate_frame", VEnum "AemRateFrameType" "REF_FRAME_A_1" (lit "REF_FRAME_A"));
 ("interpolation_method", VNone);
 ("interpolation_degree", VNone)]);
 ("data", VObj "AemData" [("comment", VList []);
 ("attitude_state", VList [VObj "AttitudeStateType" [("quaternion_state", VNone);
 ("quaternion_derivative", VNone);
 ("quaternion_euler_rate", VObj "QuaternionEulerRateType" [("epoch", VStr (lit "2003-03-04T12:00:21.000"));
 ("quaternion", VObj "QuaternionType" [("qc", VDec (DFin false 8895%N (-8)%Z));
 ("q1", VDec (DFin false 1630208%N (-8)%Z));
 ("q2", VDec (DFin true 1787574%N (-8)%Z));
 ("q3", VDec (DFin false 931726%N (-8)%Z))]);
 ("rotation_rates", VObj "RotationRateType" [("rotation1", VObj "RotationRateComponentType" [("value", VDec (DFin true 31609%N (-8)%Z));
 ("rate", VEnum "AngleRateKeywordType" "Y_RATE" (lit "Y_RATE"));
 ("units", VNone)]);
 ("rotation2", VObj "RotationRateComponentType" [("value", VDec (DFin false 3118%N (-8)%Z));
 ("rate", VEnum "AngleRateKeywordType" "X_RATE" (lit "X_RATE"));
 ("units", VNone)]);
 ("rotation3", VObj "RotationRateComponentType" [("value", VDec (DFin true 1787574%N (-8)%Z));
 ("rate", VEnum "AngleRateKeywordType" "Y_RATE" (lit "Y_RATE"));
 ("units", VNone)])])]);
 ("euler_angle", VNone);
 ("euler_angle_rate", VNone);
 ("spin", VNone);
 ("spin_nutation", VNone)]; VObj "AttitudeStateType" [("quaternion_state", VNone);
 ("quaternion_derivative", VNone);
 ("quaternion_euler_rate", VObj "QuaternionEulerRateType" [("epoch", VStr (lit "2003-03-04T12:00:21.500"));
 ("quaternion", VObj "QuaternionType" [("qc", VDec (DFin false 8985%N (-8)%Z));
 ("q1", VDec (DFin false 1630301%N (-8)%Z));
 ("q2", VDec (DFin true 1787488%N (-8)%Z));
 ("q3", VDec (DFin false 931402%N (-8)%Z))]);
 ("rotation_rates", VObj "RotationRateType" [("rotation1", VObj "RotationRateComponentType" [("value", VDec (DFin false 57230%N (-8)%Z));
 ("rate", VEnum "AngleRateKeywordType" "Y_RATE" (lit "Y_RATE"));
 ("units", VNone)]);
 ("rotation2", VObj "RotationRateComponentType" [("value", VDec (DFin false 2968%N (-8)%Z));
 ("rate", VEnum "AngleRateKeywordType" "X_RATE" (lit "X_RATE"));
 ("units", VNone)]);
 ("rotation3", VObj "RotationRateComponentType" [("value", VDec (DFin true 1787488%N (-8)%Z));
 ("rate", VEnum "AngleRateKeywordType" "Y_RATE" (lit "Y_RATE"));
 ("units", VNone)])])]);
 ("euler_angle", VNone);
 ("euler_angle_rate", VNone);
 ("spin", VNone);
 ("spin_nutation", VNone)]; VObj "AttitudeStateType" [("quaternion_state", VNone);
 ("quaternion_derivative", VNone);
 ("quaternion_euler_rate", VObj "QuaternionEulerRateType" [("epoch", VStr (lit "2003-03-04T12:00:22.000"));
 ("quaternion", VObj "QuaternionType" [("qc", VDec (DFin false 8895%N (-8)%Z));
 ("q1", VDec (DFin false 1630395%N (-8)%Z));
 ("q2", VDec (DFin true 1787402%N (-8)%Z));
 ("q3", VDec (DFin false 931074%N (-8)%Z))]);
 ("rotation_rates", VObj "RotationRateType" [("rotation1", VObj "RotationRateComponentType" [("value", VDec (DFin true 31614%N (-8)%Z));
 ("rate", VEnum "AngleRateKeywordType" "Y_RATE" (lit "Y_RATE"));
 ("units", VNone)]);
 ("rotation2", VObj "RotationRateComponentType" [("value", VDec (DFin false 3118%N (-8)%Z));
 ("rate", VEnum "AngleRateKeywordType" "X_RATE" (lit "X_RATE"));
 ("units", VNone)]);
 ("rotation3", VObj "RotationRateComponentType" [("value", VDec (DFin true 1787402%N (-8)%Z));
 ("rate", VEnum "AngleRateKeywordType" "Y_RATE" (lit "Y_RATE"));
 ("units", VNone)])])]);
 ("euler_angle", VNone);
 ("euler_angle_rate", VNone);
 ("spin", VNone);
 ("spin_nutation", VNone)]; VObj "AttitudeStateType" [("quaternion_state", VNone);
 ("quaternion_derivative", VNone);
 ("quaternion_euler_rate", VObj "QuaternionEulerRateType" [("epoch", VStr (lit "2003-03-04T12:00:22.500"));
 ("quaternion", VObj "QuaternionType" [("qc", VDec (DFin false 8895%N (-8)%Z));
 ("q1", VDec (DFin false 1630490%N (-8)%Z));
 ("q2", VDec (DFin true 1787317%N (-8)%Z));
 ("q3", VDec (DFin false 930746%N (-8)%Z))]);
 ("rotation_rates", VObj "RotationRateType" [("rotation1", VObj "RotationRateComponentType" [("value", VDec (DFin true 31617%N (-8)%Z));
 ("rate", VEnum "AngleRateKeywordType" "Y_RATE" (lit "Y_RATE"));
 ("units", VNone)]);
 ("rotation2", VObj "RotationRateComponentType" [("value", VDec (DFin false 3118%N (-8)%Z));
 ("rate", VEnum "AngleRateKeywordType" "X_RATE" (lit "X_RATE"));
 ("units", VNone)]);
 ("rotation3", VObj "RotationRateComponentType" [("value", VDec (DFin true 1787317%N (-8)%Z));
 ("rate", VEnum "AngleRateKeywordType" "Y_RATE" (lit "Y_RATE"));
 ("units", VNone)])])]);
 ("euler_angle", VNone);
 ("euler_angle_rate", VNone);
 ("spin", VNone);
 ("spin_nutation", VNone)]; VObj "AttitudeStateType" [("quaternion_state", VNone);
 ("quaternion_derivative", VNone);
 ("quaternion_euler_rate", VObj "QuaternionEulerRateType" [("epoch", VStr (lit "2003-03-04T12:00:23.000"));
 ("quaternion", VObj "QuaternionType" [("qc", VDec (DFin false 8895%N (-8)%Z));
 ("q1", VDec (DFin false 1630584%N (-8)%Z));
 ("q2", VDec (DFin true 1787232%N (-8)%Z));
 ("q3", VDec (DFin false 930418%N (-8)%Z))]);
 ("rotation_rates", VObj "RotationRateType" [("rotation1", VObj "RotationRateComponentType" [("value", VDec (DFin true 31619%N (-8)%Z));
 ("rate", VEnum "AngleRateKeywordType" "Y_RATE" (lit "Y_RATE"));
 ("units", VNone)]);
 ("rotation2", VObj "RotationRateComponentType" [("value", VDec (DFin false 3118%N (-8)%Z));
 ("rate", VEnum "AngleRateKeywordType" "X_RATE" (lit "X_RATE"));
 ("units", VNone)]);
 ("rotation3", VObj "RotationRateComponentType" [("value", VDec (DFin true 1787232%N (-8)%Z));
 ("rate", VEnum "AngleRateKeywordType" "Y_RATE" (lit "Y_RATE"));
 ("units", VNone)])])]);
 ("euler_angle", VNone);
 ("euler_angle_rate", VNone);
 ("spin", VNone);
 ("spin_nutation", VNone)]; VObj "AttitudeStateType" [("quaternion_state", VNone);
 ("quaternion_derivative", VNone);
 ("quaternion_euler_rate", VObj "QuaternionEulerRateType" [("epoch", VStr (lit "2003-03-04T12:00:23.500"));
 ("quaternion", VObj "QuaternionType" [("qc", VDec (DFin false 8895%N (-8)%Z));
 ("q1", VDec (DFin false 1630678%N (-8)%Z));
 ("q2", VDec (DFin true 1787148%N (-8)%Z));
 ("q3", VDec (DFin false 930090%N (-8)%Z))]);
 ("rotation_rates", VObj "RotationRateType" [("rotation1", VObj "RotationRateComponentType" [("value", VDec (DFin true 31622%N (-8)%Z));
 ("rate", VEnum "AngleRateKeywordType" "Y_RATE" (lit "Y_RATE"));
 ("units", VNone)]);
 ("rotation2", VObj "RotationRateComponentType" [("value", VDec (DFin false 3118%N (-8)%Z));
 ("rate", VEnum "AngleRateKeywordType" "X_RATE" (lit "X_RATE"));
 ("units", VNone)]);
 ("rotation3", VObj "RotationRateComponentType" [("value", VDec (DFin true 1787148%N (-8)%Z));
 ("rate", VEnum "AngleRateKeywordType" "Y_RATE" (lit "Y_RATE"));
 ("units", VNone)])])]);
 ("euler_angle", VNone);
 ("euler_angle_rate", VNone);
 ("spin", VNone);
 ("spin_nutation", VNone)]; VObj "AttitudeStateType" [("quaternion_state", VNone);
 ("quaternion_derivative", VNone);
 ("quaternion_euler_rate", VObj "QuaternionEulerRateType" [("epoch", VStr (lit "2003-03-04T12:00:24.000"));
 ("quaternion", VObj "QuaternionType" [("qc", VDec (DFin false 8895%N (-8)%Z));
 ("q1", VDec (DFin false 1630772%N (-8)%Z));
 ("q2", VDec (DFin true 1787065%N (-8)%Z));
 ("q3", VDec (DFin false 929762%N (-8)%Z))]);
 ("rotation_rates", VObj "RotationRateType" [("rotation1", VObj "RotationRateComponentType" [("value", VDec (DFin true 31521%N (-8)%Z));
 ("rate", VEnum "AngleRateKeywordType" "Y_RATE" (lit "Y_RATE"));
 ("units", VNone)]);
 ("rotation2", VObj "RotationRateComponentType" [("value", VDec (DFin false 3118%N (-8)%Z));
 ("rate", VEnum "AngleRateKeywordType" "X_RATE" (lit "X_RATE"));
 ("units", VNone)]);
 ("rotation3", VObj "RotationRateComponentType" [("value", VDec (DFin true 1787065%N (-8)%Z));
 ("rate", VEnum "AngleRateKeywordType" "Y_RATE" (lit "Y_RATE"));
 ("units", VNone)])])]);
 ("euler_angle", VNone);
 ("euler_angle_rate", VNone);
 ("spin", VNone);
 ("spin_nutation", VNone)]; VObj "AttitudeStateType" [("quaternion_state", VNone);
 ("quaternion_derivative", VNone);
 ("quaternion_euler_rate", VObj "QuaternionEulerRateType" [("epoch", VStr (lit "2003-03-04T12:00:24.500"));
 ("quaternion", VObj "QuaternionType" [("qc", VDec (DFin false 97745%N (-8)%Z));
 ("q1", VDec (DFin false 1630863%N (-8)%Z));
 ("q2", VDec (DFin true 1786966%N (-8)%Z));
 ("q3", VDec (DFin false 929434%N (-8)%Z))]);
 ("rotation_rates", VObj "RotationRateType" [("rotation1", VObj "RotationRateComponentType" [("value", VDec (DFin true 31708%N (-8)%Z));
 ("rate", VEnum "AngleRateKeywordType" "Y_RATE" (lit "Y_RATE"));
 ("units", VNone)]);
 ("rotation2", VObj "RotationRateComponentType" [("value", VDec (DFin false 3034%N (-8)%Z));
 ("rate", VEnum "AngleRateKeywordType" "X_RATE" (lit "X_RATE"));
 ("units", VNone)]);
 ("rotation3", VObj "RotationRateComponentType" [("value", VDec (DFin true 1786966%N (-8)%Z));
 ("rate", VEnum "AngleRateKeywordType" "Y_RATE" (lit "Y_RATE"));
 ("units", VNone)])])]);
 ("euler_angle", VNone);
 ("euler_angle_rate", VNone);
 ("spin", VNone);
 ("spin_nutation", VNone)]; VObj "AttitudeStateType" [("quaternion_state", VNone);
 ("quaternion_derivative", VNone);
 ("quaternion_euler_rate", VObj "QuaternionEulerRateType" [("epoch", VStr (lit "2003-03-04T12:00:25.000"));
 ("quaternion", VObj "QuaternionType" [("qc", VDec (DFin false 8895%N (-8)%Z));
 ("q1", VDec (DFin false 1630958%N (-8)%Z));
 ("q2", VDec (DFin true 1786885%N (-8)%Z));
 ("q3", VDec (DFin false 929106%N (-8)%Z))]);
 ("rotation_rates", VObj "RotationRateType" [("rotation1", VObj "RotationRateComponentType" [("value", VDec (DFin true 31643%N (-8)%Z));
 ("rate", VEnum "AngleRateKeywordType" "Y_RATE" (lit "Y_RATE"));
 ("units", VNone)]);
 ("rotation2", VObj "RotationRateComponentType" [("value", VDec (DFin false 3118%N (-8)%Z));
 ("rate", VEnum "AngleRateKeywordType" "X_RATE" (lit "X_RATE"));
 ("units", VNone)]);
 ("rotation3", VObj "RotationRateComponentType" [("value", VDec (DFin true 1786885%N (-8)%Z));
 ("rate", VEnum "AngleRateKeywordType" "Y_RATE" (lit "Y_RATE"));
 ("units", VNone)])])]);
 ("euler_angle", VNone);
 ("euler_angle_rate", VNone);
 ("spin", VNone);
 ("spin_nutation", VNone)]; VObj "AttitudeStateType" [("quaternion_state", VNone);
 ("quaternion_derivative", VNone);
 ("quaternion_euler_rate", VObj "QuaternionEulerRateType" [("epoch", VStr (lit "2003-03-04T12:00:25.500"));
 ("quaternion", VObj "QuaternionType" [("qc", VDec (DFin false 8895%N (-8)%Z));
 ("q1", VDec (DFin false 1631052%N (-8)%Z));
 ("q2", VDec (DFin true 1786804%N (-8)%Z));
 ("q3", VDec (DFin false 928778%N (-8)%Z))]);
 ("rotation_rates", VObj "RotationRateType" [("rotation1", VObj "RotationRateComponentType" [("value", VDec (DFin true 31645%N (-8)%Z));
 ("rate", VEnum "AngleRateKeywordType" "Y_RATE" (lit "Y_RATE"));
 ("units", VNone)]);
 ("rotation2", VObj "RotationRateComponentType" [("value", VDec (DFin false 3118%N (-8)%Z));
 ("rate", VEnum "AngleRateKeywordType" "X_RATE" (lit "X_RATE"));
 ("units", VNone)]);
 ("rotation3", VObj "RotationRateComponentType" [("value", VDec (DFin true 1786804%N (-8)%Z));
 ("rate", VEnum "AngleRateKeywordType" "Y_RATE" (lit "Y_RATE"));
 ("units", VNone)])])]);
 ("euler_angle", VNone);
 ("euler_angle_rate", VNone);
 ("spin", VNone);
 ("spin_nutation", VNone)]; VObj "AttitudeStateType" [("quaternion_state", VNone);
 ("quaternion_derivative", VNone);
 ("quaternion_euler_rate", VObj "QuaternionEulerRateType" [("epoch", VStr (lit "2003-03-04T12:00:26.000"));
 ("quaternion", VObj "QuaternionType" [("qc", VDec (DFin false 8895%N (-8)%Z));
 ("q1", VDec (DFin false 1631146%N (-8)%Z));
 ("q2", VDec (DFin true 1786725%N (-8)%Z));
 ("q3", VDec (DFin false 928450%N (-8)%Z))]);
 ("rotation_rates", VObj "RotationRateType" [("rotation1", VObj "RotationRateComponentType" [("value", VDec (DFin true 31648%N (-8)%Z));
 ("rate", VEnum "AngleRateKeywordType" "Y_RATE" (lit "Y_RATE"));
 ("units", VNone)]);
 ("rotation2", VObj "RotationRateComponentType" [("value", VDec (DFin false 3118%N (-8)%Z));
 ("rate", VEnum "AngleRateKeywordType" "X_RATE" (lit "X_RATE"));
 ("units", VNone)]);
 ("rotation3", VObj "RotationRateComponentType" [("value", VDec (DFin true 1786725%N (-8)%Z));
 ("rate", VEnum "AngleRateKeywordType" "Y_RATE" (lit "Y_RATE"));
 ("units", VNone)])])]);
 ("euler_angle", VNone);
 ("euler_angle_rate", VNone);
 ("spin", VNone);
 ("spin_nutation", VNone)]; VObj "AttitudeStateType" [("quaternion_state", VNone);
 ("quaternion_derivative", VNone);
 ("quaternion_euler_rate", VObj "QuaternionEulerRateType" [("epoch", VStr (lit "2003-03-04T12:00:26.500"));
 ("quaternion", VObj "QuaternionType" [("qc", VDec (DFin false 8985%N (-8)%Z));
 ("q1", VDec (DFin false 1631239%N (-8)%Z));
 ("q2", VDec (DFin true 1786648%N (-8)%Z));
 ("q3", VDec (DFin false 928126%N (-8)%Z))]);
 ("rotation_rates", VObj "RotationRateType" [("rotation1", VObj "RotationRateComponentType" [("value", VDec (DFin false 57191%N (-8)%Z));
 ("rate", VEnum "AngleRateKeywordType" "Y_RATE" (lit "Y_RATE"));
 ("units", VNone)]);
 ("rotation2", VObj "RotationRateComponentType" [("value", VDec (DFin false 2968%N (-8)%Z));
 ("rate", VEnum "AngleRateKeywordType" "X_RATE" (lit "X_RATE"));
 ("units", VNone)]);
 ("rotation3", VObj "RotationRateComponentType" [("value", VDec (DFin true 1786648%N (-8)%Z));
 ("rate", VEnum "AngleRateKeywordType" "Y_RATE" (lit "Y_RATE"));
 ("units", VNone)])])]);
 ("euler_angle", VNone);
 ("euler_angle_rate", VNone);
 ("spin", VNone);
 ("spin_nutation", VNone)]; VObj "AttitudeStateType" [("quaternion_state", VNone);
 ("quaternion_derivative", VNone);
 ("quaternion_euler_rate", VObj "QuaternionEulerRateType" [("epoch", VStr (lit "2003-03-04T12:00:27.000"));
 ("quaternion", VObj "QuaternionType" [("qc", VDec (DFin false 8895%N (-8)%Z));
 ("q1", VDec (DFin false 1631334%N (-8)%Z));
 ("q2", VDec (DFin true 1786570%N (-8)%Z));
 ("q3", VDec (DFin false 927798%N (-8)%Z))]);
 ("rotation_rates", VObj "RotationRateType" [("rotation1", VObj "RotationRateComponentType" [("value", VDec (DFin true 31653%N (-8)%Z));
 ("rate", VEnum "AngleRateKeywordType" "Y_RATE" (lit "Y_RATE"));
 ("units", VNone)]);
 ("rotation2", VObj "RotationRateComponentType" [("value", VDec (DFin false 3118%N (-8)%Z));
 ("rate", VEnum "AngleRateKeywordType" "X_RATE" (lit "X_RATE"));
 ("units", VNone)]);
 ("rotation3", VObj "RotationRateComponentType" [("value", VDec (DFin true 1786570%N (-8)%Z));
 ("rate", VEnum "AngleRateKeywordType" "Y_RATE" (lit "Y_RATE"));
 ("units", VNone)])])]);
 ("euler_angle", VNone);
 ("euler_angle_rate", VNone);
 ("spin", VNone);
 ("spin_nutation", VNone)]; VObj "AttitudeStateType" [("quaternion_state", VNone);
 ("quaternion_derivative", VNone);
 ("quaternion_euler_rate", VObj "QuaternionEulerRateType" [("epoch", VStr (lit "2003-03-04T12:00:27.500"));
 ("quaternion", VObj "QuaternionType" [("qc", VDec (DFin false 8895%N (-8)%Z));
 ("q1", VDec (DFin false 1631428%N (-8)%Z));
 ("q2", VDec (DFin true 1786493%N (-8)%Z));
 ("q3", VDec (DFin false 927470%N (-8)%Z))]);
 ("rotation_rates", VObj "RotationRateType" [("rotation1", VObj "RotationRateComponentType" [("value", VDec (DFin true 31655%N (-8)%Z));
 ("rate", VEnum "AngleRateKeywordType" "Y_RATE" (lit "Y_RATE"));
 ("units", VNone)]);
 ("rotation2", VObj "RotationRateComponentType" [("value", VDec (DFin false 3118%N (-8)%Z));
 ("rate", VEnum "AngleRateKeywordType" "X_RATE" (lit "X_RATE"));
 ("units", VNone)]);
 ("rotation3", VObj "RotationRateComponentType" [("value", VDec (DFin true 1786493%N (-8)%Z));
 ("rate", VEnum "AngleRateKeywordType" "Y_RATE" (lit "Y_RATE"));
 ("units", VNone)])])]);
 ("euler_angle", VNone);
 ("euler_angle_rate", VNone);
 ("spin", VNone);
 ("spin_nutation", VNone)]; VObj "AttitudeStateType" [("quaternion_state", VNone);
 ("quaternion_derivative", VNone);
 ("quaternion_euler_rate", VObj "QuaternionEulerRateType" [("epoch", VStr (lit "2003-03-04T12:00:28.000"));
 ("quaternion", VObj "QuaternionType" [("qc", VDec (DFin false 8895%N (-8)%Z));
 ("q1", VDec (DFin false 1631523%N (-8)%Z));
 ("q2", VDec (DFin true 1786418%N (-8)%Z));
 ("q3", VDec (DFin false 927142%N (-8)%Z))]);
 ("rotation_rates", VObj "RotationRateType" [("rotation1", VObj "RotationRateComponentType" [("value", VDec (DFin true 31541%N (-8)%Z));
 ("rate", VEnum "AngleRateKeywordType" "Y_RATE" (lit "Y_RATE"));
 ("units", VNone)]);
 ("rotation2", VObj "RotationRateComponentType" [("value", VDec (DFin false 3118%N (-8)%Z));
 ("rate", VEnum "AngleRateKeywordType" "X_RATE" (lit "X_RATE"));
 ("units", VNone)]);
 ("rotation3", VObj "RotationRateComponentType" [("value", VDec (DFin true 1786418%N (-8)%Z));
 ("rate", VEnum "AngleRateKeywordType" "Y_RATE" (lit "Y_RATE"));
 ("units", VNone)])])]);
 ("euler_angle", VNone);
 ("euler_angle_rate", VNone);
 ("spin", VNone);
 ("spin_nutation", VNone)]; VObj "AttitudeStateType" [("quaternion_state", VNone);
 ("quaternion_derivative", VNone);
 ("quaternion_euler_rate", VObj "QuaternionEulerRateType" [("epoch", VStr (lit "2003-03-04T12:00:28.500"));
 ("quaternion", VObj "QuaternionType" [("qc", VDec (DFin false 8895%N (-8)%Z));
 ("q1", VDec (DFin false 1631617%N (-8)%Z));
 ("q2", VDec (DFin true 1786343%N (-8)%Z));
 ("q3", VDec (DFin false 926814%N (-8)%Z))]);
 ("rotation_rates", VObj "RotationRateType" [("rotation1", VObj "RotationRateComponentType" [("value", VDec (DFin true 31675%N (-8)%Z));
 ("rate", VEnum "AngleRateKeywordType" "Y_RATE" (lit "Y_RATE"));
 ("units", VNone)]);
 ("rotation2", VObj "RotationRateComponentType" [("value", VDec (DFin false 3118%N (-8)%Z));
 ("rate", VEnum "AngleRateKeywordType" "X_RATE" (lit "X_RATE"));
 ("units", VNone)]);
 ("rotation3", VObj "RotationRateComponentType" [("value", VDec (DFin true 1786343%N (-8)%Z));
 ("rate", VEnum "AngleRateKeywordType" "Y_RATE" (lit "Y_RATE"));
 ("units", VNone)])])]);
 ("euler_angle", VNone);
 ("euler_angle_rate", VNone);
 ("spin", VNone);
 ("spin_nutation", VNone)]; VObj "AttitudeStateType" [("quaternion_state", VNone);
 ("quaternion_derivative", VNone);
 ("quaternion_euler_rate", VObj "QuaternionEulerRateType" [("epoch", VStr (lit "2003-03-04T12:00:29.000"));
 ("quaternion", VObj "QuaternionType" [("qc", VDec (DFin false 8895%N (-8)%Z));
 ("q1", VDec (DFin false 1631711%N (-8)%Z));
 ("q2", VDec (DFin true 1786269%N (-8)%Z));
 ("q3", VDec (DFin false 926486%N (-8)%Z))]);
 ("rotation_rates", VObj "RotationRateType" [("rotation1", VObj "RotationRateComponentType" [("value", VDec (DFin true 31677%N (-8)%Z));
 ("rate", VEnum "AngleRateKeywordType" "Y_RATE" (lit "Y_RATE"));
 ("units", VNone)]);
 ("rotation2", VObj "RotationRateComponentType" [("value", VDec (DFin false 3118%N (-8)%Z));
 ("rate", VEnum "AngleRateKeywordType" "X_RATE" (lit "X_RATE"));
 ("units", VNone)]);
 ("rotation3", VObj "RotationRateComponentType" [("value", VDec (DFin true 1786269%N (-8)%Z));
 ("rate", VEnum "AngleRateKeywordType" "Y_RATE" (lit "Y_RATE"));
 ("units", VNone)])])]);
 ("euler_angle", VNone);
 ("euler_angle_rate", VNone);
 ("spin", VNone);
 ("spin_nutation", VNone)]; VObj "AttitudeStateType" [("quaternion_state", VNone);
 ("quaternion_derivative", VNone);
 ("quaternion_euler_rate", VObj "QuaternionEulerRateType" [("epoch", VStr (lit "2003-03-04T12:00:29.500"));
 ("quaternion", VObj "QuaternionType" [("qc", VDec (DFin false 8895%N (-8)%Z));
 ("q1", VDec (DFin false 1631806%N (-8)%Z));
 ("q2", VDec (DFin true 1786195%N (-8)%Z));
 ("q3", VDec (DFin false 926158%N (-8)%Z))]);
 ("rotation_rates", VObj "RotationRateType" [("rotation1", VObj "RotationRateComponentType" [("value", VDec (DFin true 31679%N (-8)%Z));
 ("rate", VEnum "AngleRateKeywordType" "Y_RATE" (lit "Y_RATE"));
 ("units", VNone)]);
 ("rotation2", VObj "RotationRateComponentType" [("value", VDec (DFin false 3118%N (-8)%Z));
 ("rate", VEnum "AngleRateKeywordType" "X_RATE" (lit "X_RATE"));
 ("units", VNone)]);
 ("rotation3", VObj "RotationRateComponentType" [("value", VDec (DFin true 1786195%N (-8)%Z));
 ("rate", VEnum "AngleRateKeywordType" "Y_RATE" (lit "Y_RATE"));
 ("units", VNone)])])]);
 ("euler_angle", VNone);
 ("euler_angle_rate", VNone);
 ("spin", VNone);
 ("spin_nutation", VNone)]; VObj "AttitudeStateType" [("quaternion_state", VNone);
 ("quaternion_derivative", VNone);
 ("quaternion_euler_rate", VObj "QuaternionEulerRateType" [("epoch", VStr (lit "2003-03-04T12:00:30.000"));
 ("quaternion", VObj "QuaternionType" [("qc", VDec (DFin false 8895%N (-8)%Z));
 ("q1", VDec (DFin false 1631900%N (-8)%Z));
 ("q2", VDec (DFin true 1786123%N (-8)%Z));
 ("q3", VDec (DFin false 925830%N (-8)%Z))]);
 ("rotation_rates", VObj "RotationRateType" [("rotation1", VObj "RotationRateComponentType" [("value", VDec (DFin true 31682%N (-8)%Z));
 ("rate", VEnum "AngleRateKeywordType" "Y_RATE" (lit "Y_RATE"));
 ("units", VNone)]);
 ("rotation2", VObj "RotationRateComponentType" [("value", VDec (DFin false 3118%N (-8)%Z));
 ("rate", VEnum "AngleRateKeywordType" "X_RATE" (lit "X_RATE"));
 ("units", VNone)]);
 ("rotation3", VObj "RotationRateComponentType" [("value", VDec (DFin true 1786123%N (-8)%Z));
 ("rate", VEnum "AngleRateKeywordType" "Y_RATE" (lit "Y_RATE"));
 ("units", VNone)])])]);
 ("euler_angle", VNone);
 ("euler_angle_rate", VNone);
 ("spin", VNone);
 ("spin_nutation", VNone)]; VObj "AttitudeStateType" [("quaternion_state", VNone);
 ("quaternion_derivative", VNone);
 ("quaternion_euler_rate", VObj "QuaternionEulerRateType" [("epoch", VStr (lit "2003-03-04T12:00:30.500"));
 ("quaternion", VObj "QuaternionType" [("qc", VDec (DFin false 8985%N (-8)%Z));
 ("q1", VDec (DFin false 1631994%N (-8)%Z));
 ("q2", VDec (DFin true 1786052%N (-8)%Z));
 ("q3", VDec (DFin false 925507%N (-8)%Z))]);
 ("rotation_rates", VObj "RotationRateType" [("rotation1", VObj "RotationRateComponentType" [("value", VDec (DFin false 57157%N (-8)%Z));
 ("rate", VEnum "AngleRateKeywordType" "Y_RATE" (lit "Y_RATE"));
 ("units", VNone)]);
 ("rotation2", VObj "RotationRateComponentType" [("value", VDec (DFin false 2968%N (-8)%Z));
 ("rate", VEnum "AngleRateKeywordType" "X_RATE" (lit "X_RATE"));
 ("units", VNone)]);
 ("rotation3", VObj "RotationRateComponentType" [("value", VDec (DFin true 1786052%N (-8)%Z));
 ("rate", VEnum "AngleRateKeywordType" "Y_RATE" (lit "Y_RATE"));
 ("units", VNone)])])]);
 ("euler_angle", VNone);
 ("euler_angle_rate", VNone);
 ("spin", VNone);
 ("spin_nutation", VNone)]; VObj "AttitudeStateType" [("quaternion_state", VNone);
 ("quaternion_derivative", VNone);
 ("quaternion_euler_rate", VObj "QuaternionEulerRateType" [("epoch", VStr (lit "2003-03-04T12:00:31.000"));
 ("quaternion", VObj "QuaternionType" [("qc", VDec (DFin false 8895%N (-8)%Z));
 ("q1", VDec (DFin false 1632088%N (-8)%Z));
 ("q2", VDec (DFin true 1785982%N (-8)%Z));
 ("q3", VDec (DFin false 925179%N (-8)%Z))]);
 ("rotation_rates", VObj "RotationRateType" [("rotation1", VObj "RotationRateComponentType" [("value", VDec (DFin true 31686%N (-8)%Z));
 ("rate", VEnum "AngleRateKeywordType" "Y_RATE" (lit "Y_RATE"));
 ("units", VNone)]);
 ("rotation2", VObj "RotationRateComponentType" [("value", VDec (DFin false 3118%N (-8)%Z));
 ("rate", VEnum "AngleRateKeywordType" "X_RATE" (lit "X_RATE"));
 ("units", VNone)]);
 ("rotation3", VObj "RotationRateComponentType" [("value", VDec (DFin true 1785982%N (-8)%Z));
 ("rate", VEnum "AngleRateKeywordType" "Y_RATE" (lit "Y_RATE"));
 ("units", VNone)])])]);
 ("euler_angle", VNone);
 ("euler_angle_rate", VNone);
 ("spin", VNone);
 ("spin_nutation", VNone)]; VObj "AttitudeStateType" [("quaternion_state", VNone);
 ("quaternion_derivative", VNone);
 ("quaternion_euler_rate", VObj "QuaternionEulerRateType" [("epoch", VStr (lit "2003-03-04T12:00:31.500"));
 ("quaternion", VObj "QuaternionType" [("qc", VDec (DFin false 8895%N (-8)%Z));
 ("q1", VDec (DFin false 1632182%N (-8)%Z));
 ("q2", VDec (DFin true 1785912%N (-8)%Z));
 ("q3", VDec (DFin false 924851%N (-8)%Z))]);
 ("rotation_rates", VObj "RotationRateType" [("rotation1", VObj "RotationRateComponentType" [("value", VDec (DFin true 31689%N (-8)%Z));
 ("rate", VEnum "AngleRateKeywordType" "Y_RATE" (lit "Y_RATE"));
 ("units", VNone)]);
 ("rotation2", VObj "RotationRateComponentType" [("value", VDec (DFin false 3118%N (-8)%Z));
 ("rate", VEnum "AngleRateKeywordType" "X_RATE" (lit "X_RATE"));
 ("units", VNone)]);
 ("rotation3", VObj "RotationRateComponentType" [("value", VDec (DFin true 1785912%N (-8)%Z));
 ("rate", VEnum "AngleRateKeywordType" "Y_RATE" (lit "Y_RATE"));
 ("units", VNone)])])]);
 ("euler_angle", VNone);
 ("euler_angle_rate", VNone);
 ("spin", VNone);
 ("spin_nutation", VNone)]; VObj "AttitudeStateType" [("quaternion_state", VNone);
 ("quaternion_derivative", VNone);
 ("quaternion_euler_rate", VObj "QuaternionEulerRateType" [("epoch", VStr (lit "2003-03-04T12:00:32.000"));
 ("quaternion", VObj "QuaternionType" [("qc", VDec (DFin false 8895%N (-8)%Z));
 ("q1", VDec (DFin false 1632277%N (-8)%Z));
 ("q2", VDec (DFin true 1785843%N (-8)%Z));
 ("q3", VDec (DFin false 924523%N (-8)%Z))]);
 ("rotation_rates", VObj "RotationRateType" [("rotation1", VObj "RotationRateComponentType" [("value", VDec (DFin true 31560%N (-8)%Z));
 ("rate", VEnum "AngleRateKeywordType" "Y_RATE" (lit "Y_RATE"));
 ("units", VNone)]);
 ("rotation2", VObj "RotationRateComponentType" [("value", VDec (DFin false 3118%N (-8)%Z));
 ("rate", VEnum "AngleRateKeywordType" "X_RATE" (lit "X_RATE"));
 ("units", VNone)]);
 ("rotation3", VObj "RotationRateComponentType" [("value", VDec (DFin true 1785843%N (-8)%Z));
 ("rate", VEnum "AngleRateKeywordType" "Y_RATE" (lit "Y_RATE"));
 ("units", VNone)])])]);
 ("euler_angle", VNone);
 ("euler_angle_rate", VNone);
 ("spin", VNone);
 ("spin_nutation", VNone)]; VObj "AttitudeStateType" [("quaternion_state", VNone);
 ("quaternion_derivative", VNone);
 ("quaternion_euler_rate", VObj "QuaternionEulerRateType" [("epoch", VStr (lit "2003-03-04T12:00:32.500"));
 ("quaternion", VObj "QuaternionType" [("qc", VDec (DFin false 97804%N (-8)%Z));
 ("q1", VDec (DFin false 1632368%N (-8)%Z));
 ("q2", VDec (DFin true 1785764%N (-8)%Z));
 ("q3", VDec (DFin false 924195%N (-8)%Z))]);
 ("rotation_rates", VObj "RotationRateType" [("rotation1", VObj "RotationRateComponentType" [("value", VDec (DFin true 31973%N (-8)%Z));
 ("rate", VEnum "AngleRateKeywordType" "Y_RATE" (lit "Y_RATE"));
 ("units", VNone)]);
 ("rotation2", VObj "RotationRateComponentType" [("value", VDec (DFin true 85776%N (-8)%Z));
 ("rate", VEnum "AngleRateKeywordType" "X_RATE" (lit "X_RATE"));
 ("units", VNone)]);
 ("rotation3", VObj "RotationRateComponentType" [("value", VDec (DFin true 1785764%N (-8)%Z));
 ("rate", VEnum "AngleRateKeywordType" "Y_RATE" (lit "Y_RATE"));
 ("units", VNone)])])]);
 ("euler_angle", VNone);
 ("euler_angle_rate", VNone);
 ("spin", VNone);
 ("spin_nutation", VNone)]; VObj "AttitudeStateType" [("quaternion_state", VNone);
 ("quaternion_derivative", VNone);
 ("quaternion_euler_rate", VObj "QuaternionEulerRateType" [("epoch", VStr (lit "2003-03-04T12:00:33.000"));
 ("quaternion", VObj "QuaternionType" [("qc", VDec (DFin false 8895%N (-8)%Z));
 ("q1", VDec (DFin false 1632462%N (-8)%Z));
 ("q2", VDec (DFin true 1785697%N (-8)%Z));
 ("q3", VDec (DFin false 923868%N (-8)%Z))]);
 ("rotation_rates", VObj "RotationRateType" [("rotation1", VObj "RotationRateComponentType" [("value", VDec (DFin true 31716%N (-8)%Z));
 ("rate", VEnum "AngleRateKeywordType" "Y_RATE" (lit "Y_RATE"));
 ("units", VNone)]);
 ("rotation2", VObj "RotationRateComponentType" [("value", VDec (DFin false 3118%N (-8)%Z));
 ("rate", VEnum "AngleRateKeywordType" "X_RATE" (lit "X_RATE"));
 ("units", VNone)]);
 ("rotation3", VObj "RotationRateComponentType" [("value", VDec (DFin true 1785697%N (-8)%Z));
 ("rate", VEnum "AngleRateKeywordType" "Y_RATE" (lit "Y_RATE"));
 ("units", VNone)])])]);
 ("euler_angle", VNone);
 ("euler_angle_rate", VNone);
 ("spin", VNone);
 ("spin_nutation", VNone)]; VObj "AttitudeStateType" [("quaternion_state", VNone);
 ("quaternion_derivative", VNone);
 ("quaternion_euler_rate", VObj "QuaternionEulerRateType" [("epoch", VStr (lit "2003-03-04T12:00:33.500"));
 ("quaternion", VObj "QuaternionType" [("qc", VDec (DFin false 8895%N (-8)%Z));
 ("q1", VDec (DFin false 1632557%N (-8)%Z));
 ("q2", VDec (DFin true 1785631%N (-8)%Z));
 ("q3", VDec (DFin false 923540%N (-8)%Z))]);
 ("rotation_rates", VObj "RotationRateType" [("rotation1", VObj "RotationRateComponentType" [("value", VDec (DFin true 31718%N (-8)%Z));
 ("rate", VEnum "AngleRateKeywordType" "Y_RATE" (lit "Y_RATE"));
 ("units", VNone)]);
 ("rotation2", VObj "RotationRateComponentType" [("value", VDec (DFin false 3118%N (-8)%Z));
 ("rate", VEnum "AngleRateKeywordType" "X_RATE" (lit "X_RATE"));
 ("units", VNone)]);
 ("rotation3", VObj "RotationRateComponentType" [("value", VDec (DFin true 1785631%N (-8)%Z));
 ("rate", VEnum "AngleRateKeywordType" "Y_RATE" (lit "Y_RATE"));
 ("units", VNone)])])]);
 ("euler_angle", VNone);
 ("euler_angle_rate", VNone);
 ("spin", VNone);
 ("spin_nutation", VNone)]; VObj "AttitudeStateType" [("quaternion_state", VNone);
 ("quaternion_derivative", VNone);
 ("quaternion_euler_rate", VObj "QuaternionEulerRateType" [("epoch", VStr (lit "2003-03-04T12:00:34.000"));
 ("quaternion", VObj "QuaternionType" [("qc", VDec (DFin false 8895%N (-8)%Z));
 ("q1", VDec (DFin false 1632651%N (-8)%Z));
 ("q2", VDec (DFin true 1785566%N (-8)%Z));
 ("q3", VDec (DFin false 923212%N (-8)%Z))]);
 ("rotation_rates", VObj "RotationRateType" [("rotation1", VObj "RotationRateComponentType" [("value", VDec (DFin true 31720%N (-8)%Z));
 ("rate", VEnum "AngleRateKeywordType" "Y_RATE" (lit "Y_RATE"));
 ("units", VNone)]);
 ("rotation2", VObj "RotationRateComponentType" [("value", VDec (DFin false 3118%N (-8)%Z));
 ("rate", VEnum "AngleRateKeywordType" "X_RATE" (lit "X_RATE"));
 ("units", VNone)]);
 ("rotation3", VObj "RotationRateComponentType" [("value", VDec (DFin true 1785566%N (-8)%Z));
 ("rate", VEnum "AngleRateKeywordType" "Y_RATE" (lit "Y_RATE"));
 ("units", VNone)])])]);
 ("euler_angle", VNone);
 ("euler_angle_rate", VNone);
 ("spin", VNone);
 ("spin_nutation", VNone)]; VObj "AttitudeStateType" [("quaternion_state", VNone);
 ("quaternion_derivative", VNone);
 ("quaternion_euler_rate", VObj "QuaternionEulerRateType" [("epoch", VStr (lit "2003-03-04T12:00:34.500"));
 ("quaternion", VObj "QuaternionType" [("qc", VDec (DFin false 8985%N (-8)%Z));
 ("q1", VDec (DFin false 1632745%N (-8)%Z));
 ("q2", VDec (DFin true 1785502%N (-8)%Z));
 ("q3", VDec (DFin false 922888%N (-8)%Z))]);
 ("rotation_rates", VObj "RotationRateType" [("rotation1", VObj "RotationRateComponentType" [("value", VDec (DFin false 57119%N (-8)%Z));
 ("rate", VEnum "AngleRateKeywordType" "Y_RATE" (lit "Y_RATE"));
 ("units", VNone)]);
 ("rotation2", VObj "RotationRateComponentType" [("value", VDec (DFin false 2968%N (-8)%Z));
 ("rate", VEnum "AngleRateKeywordType" "X_RATE" (lit "X_RATE"));
 ("units", VNone)]);
 ("rotation3", VObj "RotationRateComponentType" [("value", VDec (DFin true 1785502%N (-8)%Z));
 ("rate", VEnum "AngleRateKeywordType" "Y_RATE" (lit "Y_RATE"));
 ("units", VNone)])])]);
 ("euler_angle", VNone);
 ("euler_angle_rate", VNone);
 ("spin", VNone);
 ("spin_nutation", VNone)]; VObj "AttitudeStateType" [("quaternion_state", VNone);
 ("quaternion_derivative", VNone);
 ("quaternion_euler_rate", VObj "QuaternionEulerRateType" [("epoch", VStr (lit "2003-03-04T12:00:35.000"));
 ("quaternion", VObj "QuaternionType" [("qc", VDec (DFin false 8895%N (-8)%Z));
 ("q1", VDec (DFin false 1632839%N (-8)%Z));
 ("q2", VDec (DFin true 1785439%N (-8)%Z));
 ("q3", VDec (DFin false 922561%N (-8)%Z))]);
 ("rotation_rates", VObj "RotationRateType" [("rotation1", VObj "RotationRateComponentType" [("value", VDec (DFin true 31725%N (-8)%Z));
 ("rate", VEnum "AngleRateKeywordType" "Y_RATE" (lit "Y_RATE"));
 ("units", VNone)]);
 ("rotation2", VObj "RotationRateComponentType" [("value", VDec (DFin false 3118%N (-8)%Z));
 ("rate", VEnum "AngleRateKeywordType" "X_RATE" (lit "X_RATE"));
 ("units", VNone)]);
 ("rotation3", VObj "RotationRateComponentType" [("value", VDec (DFin true 1785439%N (-8)%Z));
 ("rate", VEnum "AngleRateKeywordType" "Y_RATE" (lit "Y_RATE"));
 ("units", VNone)])])]);
 ("euler_angle", VNone);
 ("euler_angle_rate", VNone);
 ("spin", VNone);
 ("spin_nutation", VNone)]; VObj "AttitudeStateType" [("quaternion_state", VNone);
 ("quaternion_derivative", VNone);
 ("quaternion_euler_rate", VObj "QuaternionEulerRateType" [("epoch", VStr (lit "2003-03-04T12:00:35.500"));
 ("quaternion", VObj "QuaternionType" [("qc", VDec (DFin false 8895%N (-8)%Z));
 ("q1", VDec (DFin false 1632934%N (-8)%Z));
 ("q2", VDec (DFin true 1785376%N (-8)%Z));
 ("q3", VDec (DFin false 922233%N (-8)%Z))]);
 ("rotation_rates", VObj "RotationRateType" [("rotation1", VObj "RotationRateComponentType" [("value", VDec (DFin true 31727%N (-8)%Z));
 ("rate", VEnum "AngleRateKeywordType" "Y_RATE" (lit "Y_RATE"));
 ("units", VNone)]);
 ("rotation2", VObj "RotationRateComponentType" [("value", VDec (DFin false 3118%N (-8)%Z));
 ("rate", VEnum "AngleRateKeywordType" "X_RATE" (lit "X_RATE"));
 ("units", VNone)]);
 ("rotation3", VObj "RotationRateComponentType" [("value", VDec (DFin true 1785376%N (-8)%Z));
 ("rate", VEnum "AngleRateKeywordType" "Y_RATE" (lit "Y_RATE"));
 ("units", VNone)])])]);
 ("euler_angle", VNone);
 ("euler_angle_rate", VNone);
 ("spin", VNone);
 ("spin_nutation", VNone)]; VObj "AttitudeStateType" [("quaternion_state", VNone);
 ("quaternion_derivative", VNone);
 ("quaternion_euler_rate", VObj "QuaternionEulerRateType" [("epoch", VStr (lit "2003-03-04T12:00:36.000"));
 ("quaternion", VObj "QuaternionType" [("qc", VDec (DFin false 8895%N (-8)%Z));
 ("q1", VDec (DFin false 1633028%N (-8)%Z));
 ("q2", VDec (DFin true 1785314%N (-8)%Z));
 ("q3", VDec (DFin false 921905%N (-8)%Z))]);
 ("rotation_rates", VObj "RotationRateType" [("rotation1", VObj "RotationRateComponentType" [("value", VDec (DFin true 31578%N (-8)%Z));
 ("rate", VEnum "AngleRateKeywordType" "Y_RATE" (lit "Y_RATE"));
 ("units", VNone)]);
 ("rotation2", VObj "RotationRateComponentType" [("value", VDec (DFin false 3118%N (-8)%Z));
 ("rate", VEnum "AngleRateKeywordType" "X_RATE" (lit "X_RATE"));
 ("units", VNone)]);
 ("rotation3", VObj "RotationRateComponentType" [("value", VDec (DFin true 1785314%N (-8)%Z));
 ("rate", VEnum "AngleRateKeywordType" "Y_RATE" (lit "Y_RATE"));
 ("units", VNone)])])]);
 ("euler_angle", VNone);
 ("euler_angle_rate", VNone);
 ("spin", VNone);
 ("spin_nutation", VNone)]; VObj "AttitudeStateType" [("quaternion_state", VNone);
 ("quaternion_derivative", VNone);
 ("quaternion_euler_rate", VObj "QuaternionEulerRateType" [("epoch", VStr (lit "2003-03-04T12:00:36.500"));
 ("quaternion", VObj "QuaternionType" [("qc", VDec (DFin false 8895%N (-8)%Z));
 ("q1", VDec (DFin false 1633123%N (-8)%Z));
 ("q2", VDec (DFin true 1785253%N (-8)%Z));
 ("q3", VDec (DFin false 921577%N (-8)%Z))]);
 ("rotation_rates", VObj "RotationRateType" [("rotation1", VObj "RotationRateComponentType" [("value", VDec (DFin true 31740%N (-8)%Z));
 ("rate", VEnum "AngleRateKeywordType" "Y_RATE" (lit "Y_RATE"));
 ("units", VNone)]);
 ("rotation2", VObj "RotationRateComponentType" [("value", VDec (DFin false 3118%N (-8)%Z));
 ("rate", VEnum "AngleRateKeywordType" "X_RATE" (lit "X_RATE"));
 ("units", VNone)]);
 ("rotation3", VObj "RotationRateComponentType" [("value", VDec (DFin true 1785253%N (-8)%Z));
 ("rate", VEnum "AngleRateKeywordType" "Y_RATE" (lit "Y_RATE"));
 ("units", VNone)])])]);
 ("euler_angle", VNone);
 ("euler_angle_rate", VNone);
 ("spin", VNone);
 ("spin_nutation", VNone)]; VObj "AttitudeStateType" [("quaternion_state", VNone);
 ("quaternion_derivative", VNone);
 ("quaternion_euler_rate", VObj "QuaternionEulerRateType" [("epoch", VStr (lit "2003-03-04T12:00:37.000"));
 ("quaternion", VObj "QuaternionType" [("qc", VDec (DFin false 8895%N (-8)%Z));
 ("q1", VDec (DFin false 1633218%N (-8)%Z));
 ("q2", VDec (DFin true 1785193%N (-8)%Z));
 ("q3", VDec (DFin false 921249%N (-8)%Z))]);
 ("rotation_rates", VObj "RotationRateType" [("rotation1", VObj "RotationRateComponentType" [("value", VDec (DFin true 31742%N (-8)%Z));
 ("rate", VEnum "AngleRateKeywordType" "Y_RATE" (lit "Y_RATE"));
 ("units", VNone)]);
 ("rotation2", VObj "RotationRateComponentType" [("value", VDec (DFin false 3118%N (-8)%Z));
 ("rate", VEnum "AngleRateKeywordType" "X_RATE" (lit "X_RATE"));
 ("units", VNone)]);
 ("rotation3", VObj "RotationRateComponentType" [("value", VDec (DFin true 1785193%N (-8)%Z));
 ("rate", VEnum "AngleRateKeywordType" "Y_RATE" (lit "Y_RATE"));
 ("units", VNone)])])]);
 ("euler_angle", VNone);
 ("euler_angle_rate", VNone);
 ("spin", VNone);
 ("spin_nutation", VNone)]; VObj "AttitudeStateType" [("quaternion_state", VNone);
 ("quaternion_derivative", VNone);
 ("quaternion_euler_rate", VObj "QuaternionEulerRateType" [("epoch", VStr (lit "2003-03-04T12:00:37.500"));
 ("quaternion", VObj "QuaternionType" [("qc", VDec (DFin false 8895%N (-8)%Z));
 ("q1", VDec (DFin false 1633312%N (-8)%Z));
 ("q2", VDec (DFin true 1785133%N (-8)%Z));
 ("q3", VDec (DFin false 920922%N (-8)%Z))]);
 ("rotation_rates", VObj "RotationRateType" [("rotation1", VObj "RotationRateComponentType" [("value", VDec (DFin true 31744%N (-8)%Z));
 ("rate", VEnum "AngleRateKeywordType" "Y_RATE" (lit "Y_RATE"));
 ("units", VNone)]);
 ("rotation2", VObj "RotationRateComponentType" [("value", VDec (DFin false 3118%N (-8)%Z));
 ("rate", VEnum "AngleRateKeywordType" "X_RATE" (lit "X_RATE"));
 ("units", VNone)]);
 ("rotation3", VObj "RotationRateComponentType" [("value", VDec (DFin true 1785133%N (-8)%Z));
 ("rate", VEnum "AngleRateKeywordType" "Y_RATE" (lit "Y_RATE"));
 ("units", VNone)])])]);
 ("euler_angle", VNone);
 ("euler_angle_rate", VNone);
 ("spin", VNone);
 ("spin_nutation", VNone)]; VObj "AttitudeStateType" [("quaternion_state", VNone);
 ("quaternion_derivative", VNone);
 ("quaternion_euler_rate", VObj "QuaternionEulerRateType" [("epoch", VStr (lit "2003-03-04T12:00:38.000"));
 ("quaternion", VObj "QuaternionType" [("qc", VDec (DFin false 9045%N (-8)%Z));
 ("q1", VDec (DFin false 1633405%N (-8)%Z));
 ("q2", VDec (DFin true 1785083%N (-8)%Z));
 ("q3", VDec (DFin false 920598%N (-8)%Z))]);
 ("rotation_rates", VObj "RotationRateType" [("rotation1", VObj "RotationRateComponentType" [("value", VDec (DFin false 56903%N (-8)%Z));
 ("rate", VEnum "AngleRateKeywordType" "Y_RATE" (lit "Y_RATE"));
 ("units", VNone)]);
 ("rotation2", VObj "RotationRateComponentType" [("value", VDec (DFin true 85842%N (-8)%Z));
 ("rate", VEnum "AngleRateKeywordType" "X_RATE" (lit "X_RATE"));
 ("units", VNone)]);
 ("rotation3", VObj "RotationRateComponentType" [("value", VDec (DFin true 1785083%N (-8)%Z));
 ("rate", VEnum "AngleRateKeywordType" "Y_RATE" (lit "Y_RATE"));
 ("units", VNone)])])]);
 ("euler_angle", VNone);
 ("euler_angle_rate", VNone);
 ("spin", VNone);
 ("spin_nutation", VNone)]; VObj "AttitudeStateType" [("quaternion_state", VNone);
 ("quaternion_derivative", VNone);
 ("quaternion_euler_rate", VObj "QuaternionEulerRateType" [("epoch", VStr (lit "2003-03-04T12:00:38.500"));
 ("quaternion", VObj "QuaternionType" [("qc", VDec (DFin false 8895%N (-8)%Z));
 ("q1", VDec (DFin false 1633500%N (-8)%Z));
 ("q2", VDec (DFin true 1785025%N (-8)%Z));
 ("q3", VDec (DFin false 920270%N (-8)%Z))]);
 ("rotation_rates", VObj "RotationRateType" [("rotation1", VObj "RotationRateComponentType" [("value", VDec (DFin true 31749%N (-8)%Z));
 ("rate", VEnum "AngleRateKeywordType" "Y_RATE" (lit "Y_RATE"));
 ("units", VNone)]);
 ("rotation2", VObj "RotationRateComponentType" [("value", VDec (DFin false 3118%N (-8)%Z));
 ("rate", VEnum "AngleRateKeywordType" "X_RATE" (lit "X_RATE"));
 ("units", VNone)]);
 ("rotation3", VObj "RotationRateComponentType" [("value", VDec (DFin true 1785025%N (-8)%Z));
 ("rate", VEnum "AngleRateKeywordType" "Y_RATE" (lit "Y_RATE"));
 ("units", VNone)])])]);
 ("euler_angle", VNone);
 ("euler_angle_rate", VNone);
 ("spin", VNone);
 ("spin_nutation", VNone)]; VObj "AttitudeStateType" [("quaternion_state", VNone);
 ("quaternion_derivative", VNone);
 ("quaternion_euler_rate", VObj "QuaternionEulerRateType" [("epoch", VStr (lit "2003-03-04T12:00:39.000"));
 ("quaternion", VObj "QuaternionType" [("qc", VDec (DFin false 8895%N (-8)%Z));
 ("q1", VDec (DFin false 1633595%N (-8)%Z));
 ("q2", VDec (DFin true 1784969%N (-8)%Z));
 ("q3", VDec (DFin false 919942%N (-8)%Z))]);
 ("rotation_rates", VObj "RotationRateType" [("rotation1", VObj "RotationRateComponentType" [("value", VDec (DFin true 31751%N (-8)%Z));
 ("rate", VEnum "AngleRateKeywordType" "Y_RATE" (lit "Y_RATE"));
 ("units", VNone)]);
 ("rotation2", VObj "RotationRateComponentType" [("value", VDec (DFin false 3118%N (-8)%Z));
 ("rate", VEnum "AngleRateKeywordType" "X_RATE" (lit "X_RATE"));
 ("units", VNone)]);
 ("rotation3", VObj "RotationRateComponentType" [("value", VDec (DFin true 1784969%N (-8)%Z));
 ("rate", VEnum "AngleRateKeywordType" "Y_RATE" (lit "Y_RATE"));
 ("units", VNone)])])]);
 ("euler_angle", VNone);
 ("euler_angle_rate", VNone);
 ("spin", VNone);
 ("spin_nutation", VNone)]; VObj "AttitudeStateType" [("quaternion_state", VNone);
 ("quaternion_derivative", VNone);
 ("quaternion_euler_rate", VObj "QuaternionEulerRateType" [("epoch", VStr (lit "2003-03-04T12:00:39.500"));
 ("quaternion", VObj "QuaternionType" [("qc", VDec (DFin false 8895%N (-8)%Z));
 ("q1", VDec (DFin false 1633689%N (-8)%Z));
 ("q2", VDec (DFin true 1784913%N (-8)%Z));
 ("q3", VDec (DFin false 919615%N (-8)%Z))]);
 ("rotation_rates", VObj "RotationRateType" [("rotation1", VObj "RotationRateComponentType" [("value", VDec (DFin true 31753%N (-8)%Z));
 ("rate", VEnum "AngleRateKeywordType" "Y_RATE" (lit "Y_RATE"));
 ("units", VNone)]);
 ("rotation2", VObj "RotationRateComponentType" [("value", VDec (DFin false 3118%N (-8)%Z));
 ("rate", VEnum "AngleRateKeywordType" "X_RATE" (lit "X_RATE"));
 ("units", VNone)]);
 ("rotation3", VObj "RotationRateComponentType" [("value", VDec (DFin true 1784913%N (-8)%Z));
 ("rate", VEnum "AngleRateKeywordType" "Y_RATE" (lit "Y_RATE"));
 ("units", VNone)])])]);
 ("euler_angle", VNone);
 ("euler_angle_rate", VNone);
 ("spin", VNone);
 ("spin_nutation", VNone)]; VObj "AttitudeStateType" [("quaternion_state", VNone);
 ("quaternion_derivative", VNone);
 ("quaternion_euler_rate", VObj "QuaternionEulerRateType" [("epoch", VStr (lit "2003-03-04T12:00:40.000"));
 ("quaternion", VObj "QuaternionType" [("qc", VDec (DFin false 8895%N (-8)%Z));
 ("q1", VDec (DFin false 1633784%N (-8)%Z));
 ("q2", VDec (DFin true 1784858%N (-8)%Z));
 ("q3", VDec (DFin false 919287%N (-8)%Z))]);
 ("rotation_rates", VObj "RotationRateType" [("rotation1", VObj "RotationRateComponentType" [("value", VDec (DFin true 31596%N (-8)%Z));
 ("rate", VEnum "AngleRateKeywordType" "Y_RATE" (lit "Y_RATE"));
 ("units", VNone)]);
 ("rotation2", VObj "RotationRateComponentType" [("value", VDec (DFin false 3118%N (-8)%Z));
 ("rate", VEnum "AngleRateKeywordType" "X_RATE" (lit "X_RATE"));
 ("units", VNone)]);
 ("rotation3", VObj "RotationRateComponentType" [("value", VDec (DFin true 1784858%N (-8)%Z));
 ("rate", VEnum "AngleRateKeywordType" "Y_RATE" (lit "Y_RATE"));
 ("units", VNone)])])]);
 ("euler_angle", VNone);
 ("euler_angle_rate", VNone);
 ("spin", VNone);
 ("spin_nutation", VNone)]; VObj "AttitudeStateType" [("quaternion_state", VNone);
 ("quaternion_derivative", VNone);
 ("quaternion_euler_rate", VObj "QuaternionEulerRateType" [("epoch", VStr (lit "2003-03-04T12:00:40.500"));
 ("quaternion", VObj "QuaternionType" [("qc", VDec (DFin false 8895%N (-8)%Z));
 ("q1", VDec (DFin false 1633879%N (-8)%Z));
 ("q2", VDec (DFin true 1784804%N (-8)%Z));
 ("q3", VDec (DFin false 918959%N (-8)%Z))]);
 ("rotation_rates", VObj "RotationRateType" [("rotation1", VObj "RotationRateComponentType" [("value", VDec (DFin true 31788%N (-8)%Z));
 ("rate", VEnum "AngleRateKeywordType" "Y_RATE" (lit "Y_RATE"));
 ("units", VNone)]);
 ("rotation2", VObj "RotationRateComponentType" [("value", VDec (DFin false 3118%N (-8)%Z));
 ("rate", VEnum "AngleRateKeywordType" "X_RATE" (lit "X_RATE"));
 ("units", VNone)]);
 ("rotation3", VObj "RotationRateComponentType" [("value", VDec (DFin true 1784804%N (-8)%Z));
 ("rate", VEnum "AngleRateKeywordType" "Y_RATE" (lit "Y_RATE"));
 ("units", VNone)])])]);
 ("euler_angle", VNone);
 ("euler_angle_rate", VNone);
 ("spin", VNone);
 ("spin_nutation", VNone)]; VObj "AttitudeStateType" [("quaternion_state", VNone);
 ("quaternion_derivative", VNone);
 ("quaternion_euler_rate", VObj "QuaternionEulerRateType" [("epoch", VStr (lit "2003-03-04T12:00:41.000"));
 ("quaternion", VObj "QuaternionType" [("qc", VDec (DFin false 8895%N (-8)%Z));
 ("q1", VDec (DFin false 1633973%N (-8)%Z));
 ("q2", VDec (DFin true 1784751%N (-8)%Z));
 ("q3", VDec (DFin false 918632%N (-8)%Z))]);
 ("rotation_rates", VObj "RotationRateType" [("rotation1", VObj "RotationRateComponentType" [("value", VDec (DFin true 31791%N (-8)%Z));
 ("rate", VEnum "AngleRateKeywordType" "Y_RATE" (lit "Y_RATE"));
 ("units", VNone)]);
 ("rotation2", VObj "RotationRateComponentType" [("value", VDec (DFin false 3118%N (-8)%Z));
 ("rate", VEnum "AngleRateKeywordType" "X_RATE" (lit "X_RATE"));
 ("units", VNone)]);
 ("rotation3", VObj "RotationRateComponentType" [("value", VDec (DFin true 1784751%N (-8)%Z));
 ("rate", VEnum "AngleRateKeywordType" "Y_RATE" (lit "Y_RATE"));
 ("units", VNone)])])]);
 ("euler_angle", VNone);
 ("euler_angle_rate", VNone);
 ("spin", VNone);
 ("spin_nutation", VNone)]; VObj "AttitudeStateType" [("quaternion_state", VNone);
 ("quaternion_derivative", VNone);
 ("quaternion_euler_rate", VObj "QuaternionEulerRateType" [("epoch", VStr (lit "2003-03-04T12:00:41.500"));
 ("quaternion", VObj "QuaternionType" [("qc", VDec (DFin false 97745%N (-8)%Z));
 ("q1", VDec (DFin false 1634064%N (-8)%Z));
 ("q2", VDec (DFin true 1784681%N (-8)%Z));
 ("q3", VDec (DFin false 918305%N (-8)%Z))]);
 ("rotation_rates", VObj "RotationRateType" [("rotation1", VObj "RotationRateComponentType" [("value", VDec (DFin true 31861%N (-8)%Z));
 ("rate", VEnum "AngleRateKeywordType" "Y_RATE" (lit "Y_RATE"));
 ("units", VNone)]);
 ("rotation2", VObj "RotationRateComponentType" [("value", VDec (DFin false 3034%N (-8)%Z));
 ("rate", VEnum "AngleRateKeywordType" "X_RATE" (lit "X_RATE"));
 ("units", VNone)]);
 ("rotation3", VObj "RotationRateComponentType" [("value", VDec (DFin true 1784681%N (-8)%Z));
 ("rate", VEnum "AngleRateKeywordType" "Y_RATE" (lit "Y_RATE"));
 ("units", VNone)])])]);
 ("euler_angle", VNone);
 ("euler_angle_rate", VNone);
 ("spin", VNone);
 ("spin_nutation", VNone)]; VObj "AttitudeStateType" [("quaternion_state", VNone);
 ("quaternion_derivative", VNone);
 ("quaternion_euler_rate", VObj "QuaternionEulerRateType" [("epoch", VStr (lit "2003-03-04T12:00:42.000"));
 ("quaternion", VObj "QuaternionType" [("qc", VDec (DFin false 8895%N (-8)%Z));
 ("q1", VDec (DFin false 1634159%N (-8)%Z));
 ("q2", VDec (DFin true 1784629%N (-8)%Z));
 ("q3", VDec (DFin false 917977%N (-8)%Z))]);
 ("rotation_rates", VObj "RotationRateType" [("rotation1", VObj "RotationRateComponentType" [("value", VDec (DFin true 31795%N (-8)%Z));
 ("rate", VEnum "AngleRateKeywordType" "Y_RATE" (lit "Y_RATE"));
 ("units", VNone)]);
 ("rotation2", VObj "RotationRateComponentType" [("value", VDec (DFin false 3118%N (-8)%Z));
 ("rate", VEnum "AngleRateKeywordType" "X_RATE" (lit "X_RATE"));
 ("units", VNone)]);
 ("rotation3", VObj "RotationRateComponentType" [("value", VDec (DFin true 1784629%N (-8)%Z));
 ("rate", VEnum "AngleRateKeywordType" "Y_RATE" (lit "Y_RATE"));
 ("units", VNone)])])]);
 ("euler_angle", VNone);
 ("euler_angle_rate", VNone);
 ("spin", VNone);
 ("spin_nutation", VNone)]; VObj "AttitudeStateType" [("quaternion_state", VNone);
 ("quaternion_derivative", VNone);
 ("quaternion_euler_rate", VObj "QuaternionEulerRateType" [("epoch", VStr (lit "2003-03-04T12:00:42.500"));
 ("quaternion", VObj "QuaternionType" [("qc", VDec (DFin false 8895%N (-8)%Z));
 ("q1", VDec (DFin false 1634254%N (-8)%Z));
 ("q2", VDec (DFin true 1784579%N (-8)%Z));
 ("q3", VDec (DFin false 917650%N (-8)%Z))]);
 ("rotation_rates", VObj "RotationRateType" [("rotation1", VObj "RotationRateComponentType" [("value", VDec (DFin true 31798%N (-8)%Z));
 ("rate", VEnum "AngleRateKeywordType" "Y_RATE" (lit "Y_RATE"));
 ("units", VNone)]);
 ("rotation2", VObj "RotationRateComponentType" [("value", VDec (DFin false 3118%N (-8)%Z));
 ("rate", VEnum "AngleRateKeywordType" "X_RATE" (lit "X_RATE"));
 ("units", VNone)]);
 ("rotation3", VObj "RotationRateComponentType" [("value", VDec (DFin true 1784579%N (-8)%Z));
 ("rate", VEnum "AngleRateKeywordType" "Y_RATE" (lit "Y_RATE"));
 ("units", VNone)])])]);
 ("euler_angle", VNone);
 ("euler_angle_rate", VNone);
 ("spin", VNone);
 ("spin_nutation", VNone)]; VObj "AttitudeStateType" [("quaternion_state", VNone);
 ("quaternion_derivative", VNone);
 ("quaternion_euler_rate", VObj "QuaternionEulerRateType" [("epoch", VStr (lit "2003-03-04T12:00:43.000"));
 ("quaternion", VObj "QuaternionType" [("qc", VDec (DFin false 8985%N (-8)%Z));
 ("q1", VDec (DFin false 1634347%N (-8)%Z));
 ("q2", VDec (DFin true 1784530%N (-8)%Z));
 ("q3", VDec (DFin false 917327%N (-8)%Z))]);
 ("rotation_rates", VObj "RotationRateType" [("rotation1", VObj "RotationRateComponentType" [("value", VDec (DFin false 57041%N (-8)%Z));
 ("rate", VEnum "AngleRateKeywordType" "Y_RATE" (lit "Y_RATE"));
 ("units", VNone)]);
 ("rotation2", VObj "RotationRateComponentType" [("value", VDec (DFin false 2968%N (-8)%Z));
 ("rate", VEnum "AngleRateKeywordType" "X_RATE" (lit "X_RATE"));
 ("units", VNone)]);
 ("rotation3", VObj "RotationRateComponentType" [("value", VDec (DFin true 1784530%N (-8)%Z));
 ("rate", VEnum "AngleRateKeywordType" "Y_RATE" (lit "Y_RATE"));
 ("units", VNone)])])]);
 ("euler_angle", VNone);
 ("euler_angle_rate", VNone);
 ("spin", VNone);
 ("spin_nutation", VNone)]; VObj "AttitudeStateType" [("quaternion_state", VNone);
 ("quaternion_derivative", VNone);
 ("quaternion_euler_rate", VObj "QuaternionEulerRateType" [("epoch", VStr (lit "2003-03-04T12:00:43.500"));
 ("quaternion", VObj "QuaternionType" [("qc", VDec (DFin false 8895%N (-8)%Z));
 ("q1", VDec (DFin false 1634442%N (-8)%Z));
 ("q2", VDec (DFin true 1784481%N (-8)%Z));
 ("q3", VDec (DFin false 916999%N (-8)%Z))]);
 ("rotation_rates", VObj "RotationRateType" [("rotation1", VObj "RotationRateComponentType" [("value", VDec (DFin true 31802%N (-8)%Z));
 ("rate", VEnum "AngleRateKeywordType" "Y_RATE" (lit "Y_RATE"));
 ("units", VNone)]);
 ("rotation2", VObj "RotationRateComponentType" [("value", VDec (DFin false 3118%N (-8)%Z));
 ("rate", VEnum "AngleRateKeywordType" "X_RATE" (lit "X_RATE"));
 ("units", VNone)]);
 ("rotation3", VObj "RotationRateComponentType" [("value", VDec (DFin true 1784481%N (-8)%Z));
 ("rate", VEnum "AngleRateKeywordType" "Y_RATE" (lit "Y_RATE"));
 ("units", VNone)])])]);
 ("euler_angle", VNone);
 ("euler_angle_rate", VNone);
 ("spin", VNone);
 ("spin_nutation", VNone)]; VObj "AttitudeStateType" [("quaternion_state", VNone);
 ("quaternion_derivative", VNone);
 ("quaternion_euler_rate", VObj "QuaternionEulerRateType" [("epoch", VStr (lit "2003-03-04T12:00:44.000"));
 ("quaternion", VObj "QuaternionType" [("qc", VDec (DFin false 8895%N (-8)%Z));
 ("q1", VDec (DFin false 1634537%N (-8)%Z));
 ("q2", VDec (DFin true 1784433%N (-8)%Z));
 ("q3", VDec (DFin false 916672%N (-8)%Z))]);
 ("rotation_rates", VObj "RotationRateType" [("rotation1", VObj "RotationRateComponentType" [("value", VDec (DFin true 31615%N (-8)%Z));
 ("rate", VEnum "AngleRateKeywordType" "Y_RATE" (lit "Y_RATE"));
 ("units", VNone)]);
 ("rotation2", VObj "RotationRateComponentType" [("value", VDec (DFin false 3118%N (-8)%Z));
 ("rate", VEnum "AngleRateKeywordType" "X_RATE" (lit "X_RATE"));
 ("units", VNone)]);
 ("rotation3", VObj "RotationRateComponentType" [("value", VDec (DFin true 1784433%N (-8)%Z));
 ("rate", VEnum "AngleRateKeywordType" "Y_RATE" (lit "Y_RATE"));
 ("units", VNone)])])]);
 ("euler_angle", VNone);
 ("euler_angle_rate", VNone);
 ("spin", VNone);
 ("spin_nutation", VNone)]; VObj "AttitudeStateType" [("quaternion_state", VNone);
 ("quaternion_derivative", VNone);
 ("quaternion_euler_rate", VObj "QuaternionEulerRateType" [("epoch", VStr (lit "2003-03-04T12:00:44.500"));
 ("quaternion", VObj "QuaternionType" [("qc", VDec (DFin false 8895%N (-8)%Z));
 ("q1", VDec (DFin false 1634632%N (-8)%Z));
 ("q2", VDec (DFin true 1784386%N (-8)%Z));
 ("q3", VDec (DFin false 916344%N (-8)%Z))]);
 ("rotation_rates", VObj "RotationRateType" [("rotation1", VObj "RotationRateComponentType" [("value", VDec (DFin true 31808%N (-8)%Z));
 ("rate", VEnum "AngleRateKeywordType" "Y_RATE" (lit "Y_RATE"));
 ("units", VNone)]);
 ("rotation2", VObj "RotationRateComponentType" [("value", VDec (DFin false 3118%N (-8)%Z));
 ("rate", VEnum "AngleRateKeywordType" "X_RATE" (lit "X_RATE"));
 ("units", VNone)]);
 ("rotation3", VObj "RotationRateComponentType" [("value", VDec (DFin true 1784386%N (-8)%Z));
 ("rate", VEnum "AngleRateKeywordType" "Y_RATE" (lit "Y_RATE"));
 ("units", VNone)])])]);
 ("euler_angle", VNone);
 ("euler_angle_rate", VNone);
 ("spin", VNone);
 ("spin_nutation", VNone)]; VObj "AttitudeStateType" [("quaternion_state", VNone);
 ("quaternion_derivative", VNone);
 ("quaternion_euler_rate", VObj "QuaternionEulerRateType" [("epoch", VStr (lit "2003-03-04T12:00:45.000"));
 ("quaternion", VObj "QuaternionType" [("qc", VDec (DFin false 8895%N (-8)%Z));
 ("q1", VDec (DFin false 1634726%N (-8)%Z));
 ("q2", VDec (DFin true 1784340%N (-8)%Z));
 ("q3", VDec (DFin false 916017%N (-8)%Z))]);
 ("rotation_rates", VObj "RotationRateType" [("rotation1", VObj "RotationRateComponentType" [("value", VDec (DFin true 31810%N (-8)%Z));
 ("rate", VEnum "AngleRateKeywordType" "Y_RATE" (lit "Y_RATE"));
 ("units", VNone)]);
 ("rotation2", VObj "RotationRateComponentType" [("value", VDec (DFin false 3118%N (-8)%Z));
 ("rate", VEnum "AngleRateKeywordType" "X_RATE" (lit "X_RATE"));
 ("units", VNone)]);
 ("rotation3", VObj "RotationRateComponentType" [("value", VDec (DFin true 1784340%N (-8)%Z));
 ("rate", VEnum "AngleRateKeywordType" "Y_RATE" (lit "Y_RATE"));
 ("units", VNone)])])]);
 ("euler_angle", VNone);
 ("euler_angle_rate", VNone);
 ("spin", VNone);
 ("spin_nutation", VNone)]; VObj "AttitudeStateType" [("quaternion_state", VNone);
 ("quaternion_derivative", VNone);
 ("quaternion_euler_rate", VObj "QuaternionEulerRateType" [("epoch", VStr (lit "2003-03-04T12:00:45.500"));
 ("quaternion", VObj "QuaternionType" [("qc", VDec (DFin false 8895%N (-8)%Z));
 ("q1", VDec (DFin false 1634821%N (-8)%Z));
 ("q2", VDec (DFin true 1784294%N (-8)%Z));
 ("q3", VDec (DFin false 915689%N (-8)%Z))]);
 ("rotation_rates", VObj "RotationRateType" [("rotation1", VObj "RotationRateComponentType" [("value", VDec (DFin true 31812%N (-8)%Z));
 ("rate", VEnum "AngleRateKeywordType" "Y_RATE" (lit "Y_RATE"));
 ("units", VNone)]);
 ("rotation2", VObj "RotationRateComponentType" [("value", VDec (DFin false 3118%N (-8)%Z));
 ("rate", VEnum "AngleRateKeywordType" "X_RATE" (lit "X_RATE"));
 ("units", VNone)]);
 ("rotation3", VObj "RotationRateComponentType" [("value", VDec (DFin true 1784294%N (-8)%Z));
 ("rate", VEnum "AngleRateKeywordType" "Y_RATE" (lit "Y_RATE"));
 ("units", VNone)])])]);
 ("euler_angle", VNone);
 ("euler_angle_rate", VNone);
 ("spin", VNone);
 ("spin_nutation", VNone)]; VObj "AttitudeStateType" [("quaternion_state", VNone);
 ("quaternion_derivative", VNone);
 ("quaternion_euler_rate", VObj "QuaternionEulerRateType" [("epoch", VStr (lit "2003-03-04T12:00:46.000"));
 ("quaternion", VObj "QuaternionType" [("qc", VDec (DFin false 8985%N (-8)%Z));
 ("q1", VDec (DFin false 1634915%N (-8)%Z));
 ("q2", VDec (DFin true 1784250%N (-8)%Z));
 ("q3", VDec (DFin false 915366%N (-8)%Z))]);
 ("rotation_rates", VObj "RotationRateType" [("rotation1", VObj "RotationRateComponentType" [("value", VDec (DFin false 57027%N (-8)%Z));
 ("rate", VEnum "AngleRateKeywordType" "Y_RATE" (lit "Y_RATE"));
 ("units", VNone)]);
 ("rotation2", VObj "RotationRateComponentType" [("value", VDec (DFin false 2968%N (-8)%Z));
 ("rate", VEnum "AngleRateKeywordType" "X_RATE" (lit "X_RATE"));
 ("units", VNone)]);
 ("rotation3", VObj "RotationRateComponentType" [("value", VDec (DFin true 1784250%N (-8)%Z));
 ("rate", VEnum "AngleRateKeywordType" "Y_RATE" (lit "Y_RATE"));
 ("units", VNone)])])]);
 ("euler_angle", VNone);
 ("euler_angle_rate", VNone);
 ("spin", VNone);
 ("spin_nutation", VNone)]; VObj "AttitudeStateType" [("quaternion_state", VNone);
 ("quaternion_derivative", VNone);
 ("quaternion_euler_rate", VObj "QuaternionEulerRateType" [("epoch", VStr (lit "2003-03-04T12:00:46.500"));
 ("quaternion", VObj "QuaternionType" [("qc", VDec (DFin false 8895%N (-8)%Z));
 ("q1", VDec (DFin false 1635009%N (-8)%Z));
 ("q2", VDec (DFin true 1784207%N (-8)%Z));
 ("q3", VDec (DFin false 915039%N (-8)%Z))]);
 ("rotation_rates", VObj "RotationRateType" [("rotation1", VObj "RotationRateComponentType" [("value", VDec (DFin true 31816%N (-8)%Z));
 ("rate", VEnum "AngleRateKeywordType" "Y_RATE" (lit "Y_RATE"));
 ("units", VNone)]);
 ("rotation2", VObj "RotationRateComponentType" [("value", VDec (DFin false 3118%N (-8)%Z));
 ("rate", VEnum "AngleRateKeywordType" "X_RATE" (lit "X_RATE"));
 ("units", VNone)]);
 ("rotation3", VObj "RotationRateComponentType" [("value", VDec (DFin true 1784207%N (-8)%Z));
 ("rate", VEnum "AngleRateKeywordType" "Y_RATE" (lit "Y_RATE"));
 ("units", VNone)])])]);
 ("euler_angle", VNone);
 ("euler_angle_rate", VNone);
 ("spin", VNone);
 ("spin_nutation", VNone)]; VObj "AttitudeStateType" [("quaternion_state", VNone);
 ("quaternion_derivative", VNone);
 ("quaternion_euler_rate", VObj "QuaternionEulerRateType" [("epoch", VStr (lit "2003-03-04T12:00:47.000"));
 ("quaternion", VObj "QuaternionType" [("qc", VDec (DFin false 8895%N (-8)%Z));
 ("q1", VDec (DFin false 1635104%N (-8)%Z));
 ("q2", VDec (DFin true 1784164%N (-8)%Z));
 ("q3", VDec (DFin false 914711%N (-8)%Z))]);
 ("rotation_rates", VObj "RotationRateType" [("rotation1", VObj "RotationRateComponentType" [("value", VDec (DFin true 31818%N (-8)%Z));
 ("rate", VEnum "AngleRateKeywordType" "Y_RATE" (lit "Y_RATE"));
 ("units", VNone)]);
 ("rotation2", VObj "RotationRateComponentType" [("value", VDec (DFin false 3118%N (-8)%Z));
 ("rate", VEnum "AngleRateKeywordType" "X_RATE" (lit "X_RATE"));
 ("units", VNone)]);
 ("rotation3", VObj "RotationRateComponentType" [("value", VDec (DFin true 1784164%N (-8)%Z));
 ("rate", VEnum "AngleRateKeywordType" "Y_RATE" (lit "Y_RATE"));
 ("units", VNone)])])]);
 ("euler_angle", VNone);
 ("euler_angle_rate", VNone);
 ("spin", VNone);
 ("spin_nutation", VNone)]; VObj "AttitudeStateType" [("quaternion_state", VNone);
 ("quaternion_derivative", VNone);
 ("quaternion_euler_rate", VObj "QuaternionEulerRateType" [("epoch", VStr (lit "2003-03-04T12:00:47.500"));
 ("quaternion", VObj "QuaternionType" [("qc", VDec (DFin false 8895%N (-8)%Z));
 ("q1", VDec (DFin false 1635199%N (-8)%Z));
 ("q2", VDec (DFin true 1784122%N (-8)%Z));
 ("q3", VDec (DFin false 914384%N (-8)%Z))]);
 ("rotation_rates", VObj "RotationRateType" [("rotation1", VObj "RotationRateComponentType" [("value", VDec (DFin true 31821%N (-8)%Z));
 ("rate", VEnum "AngleRateKeywordType" "Y_RATE" (lit "Y_RATE"));
 ("units", VNone)]);
 ("rotation2", VObj "RotationRateComponentType" [("value", VDec (DFin false 3118%N (-8)%Z));
 ("rate", VEnum "AngleRateKeywordType" "X_RATE" (lit "X_RATE"));
 ("units", VNone)]);
 ("rotation3", VObj "RotationRateComponentType" [("value", VDec (DFin true 1784122%N (-8)%Z));
 ("rate", VEnum "AngleRateKeywordType" "Y_RATE" (lit "Y_RATE"));
 ("units", VNone)])])]);
 ("euler_angle", VNone);
 ("euler_angle_rate", VNone);
 ("spin", VNone);
 ("spin_nutation", VNone)]])])]])])].
(* ccsds_ndm/tests/data/kvn/cdm_example_section4.kvn *)
Definition kvn_cdm_example_section4 : string := "CCSDS_CDM_VERS = 1.0

  COMMENT Sample CDM - XML version
CREATION_DATE = 2010-03-12T22:31:12.000
ORIGINATOR = JSPOC
MESSAGE_FOR = SATELLITE A
MESSAGE_ID = 20111371985
  
COMMENT Relative Metadata/Data
TCA = 2010-03-13T22:37:52.618
MISS_DISTANCE = 715 [m]
RELATIVE_SPEED = 14762 [m/s]
RELATIVE_POSITION_R = 27.4 [m]
RELATIVE_POSITION_T = -70.2 [m]
RELATIVE_POSITION_N = 711.8 [m] 
RELATIVE_VELOCITY_R = -7.2 [m/s]
RELATIVE_VELOCITY_T = -14692.0 [m/s]
RELATIVE_VELOCITY_N = -1437.2 [m/s]
START_SCREEN_PERIOD = 2010-03-12T18:29:32.212
STOP_SCREEN_PERIOD = 2010-03-15T18:29:32.212
SCREEN_VOLUME_FRAME = RTN
SCREEN_VOLUME_SHAPE = ELLIPSOID
SCREEN_VOLUME_X = 200 [m]
SCREEN_VOLUME_Y = 1000 [m]
SCREEN_VOLUME_Z = 1000 [m]
SCREEN_ENTRY_TIME = 2010-03-13T20:25:43.222
SCREEN_EXIT_TIME = 2010-03-13T23:44:29.324
COLLISION_PROBABILITY = 4.835E-05
COLLISION_PROBABILITY_METHOD = FOSTER-1992
      
COMMENT Object1 Metadata
OBJECT = OBJECT1
OBJECT_DESIGNATOR = 12345
CATALOG_NAME = SATCAT
OBJECT_NAME = SATELLITE A
INTERNATIONAL_DESIGNATOR = 1997-030E
OBJECT_TYPE = PAYLOAD
OPERATOR_CONTACT_POSITION = OSA
OPERATOR_ORGANIZATION = EUMETSAT
OPERATOR_PHONE = +49615130312
OPERATOR_EMAIL = JOHN.DOE@SOMEWHERE>NET
EPHEMERIS_NAME = EPHEMERIS SATELLITE A
COVARIANCE_METHOD = CALCULATED
MANEUVERABLE = YES
REF_FRAME = EME2000
GRAVITY_MODEL = EGM-96: 36D 36O
ATMOSPHERIC_MODEL = JACCHIA 70 DCA
N_BODY_PERTURBATIONS = MOON,SUN
SOLAR_RAD_PRESSURE = NO
EARTH_TIDES = NO
INTRACK_THRUST = NO
      

COMMENT Object1 Data
COMMENT Object1 OD Parameters
TIME_LASTOB_START = 2010-03-12T02:14:12.746
TIME_LASTOB_END = 2010-03-12T02:14:12.746
RECOMMENDED_OD_SPAN = 7.88 [d]
ACTUAL_OD_SPAN = 5.50 [d]
OBS_AVAILABLE = 592
OBS_USED = 59
TRACKS_AVAILABLE = 123
TRACKS_USED = 119
RESIDUALS_ACCEPTED = 97.8 [%]
WEIGHTED_RMS = 0.864
COMMENT Object 1 Additional Parameters
AREA_PC = 5.2 [m**2]
MASS = 2516 [kg]
CD_AREA_OVER_MASS = 0.045663 [m**2/kg]
CR_AREA_OVER_MASS = 0.000000 [m**2/kg]
THRUST_ACCELERATION = 0.0 [m/s**2]
SEDR = 4.54570E-05 [W/kg]

COMMENT Object1 State Vector
X = 2570.097065 [km]
Y = 2244.654904 [km]
Z = 6281.497978 [km]
X_DOT = 4.418769571 [km/s]
Y_DOT = 4.833547743 [km/s]
Z_DOT = -3.526774282 [km/s]

COMMENT Object1 Covariance in the RTN Coordinate Frame 
CR_R = 4.142E+01 [m**2]
CT_R = -8.579E+00 [m**2]
CT_T = 2.533E+03 [m**2]
CN_R = -2.313E+01 [m**2]
CN_T = 1.336E+01 [m**2]
CN_N = 7.098E+01 [m**2]
CRDOT_R = 2.520E-03 [m**2/s]
CRDOT_T = -5.476E+00 [m**2/s]
CRDOT_N = 8.626E-04 [m**2/s]
CRDOT_RDOT = 5.744E-03 [m**2/s**2]
CTDOT_R = -1.006E-02 [m**2/s]
CTDOT_T = 4.041E-03 [m**2/s]
CTDOT_N = -1.359E-03 [m**2/s]
CTDOT_RDOT = -1.502E-05 [m**2/s**2]
CTDOT_TDOT = 1.049E-05 [m**2/s**2]
CNDOT_R = 1.053E-03 [m**2/s]
CNDOT_T = -3.412E-03 [m**2/s]
CNDOT_N = 1.213E-02 [m**2/s]
CNDOT_RDOT = -3.004E-06 [m**2/s**2]
CNDOT_TDOT = -1.091E-06 [m**2/s**2]
CNDOT_NDOT = 5.529E-05 [m**2/s**2]

    
      
COMMENT Object2 Metadata
OBJECT = OBJECT2
OBJECT_DESIGNATOR = 30337
CATALOG_NAME = SATCAT
OBJECT_NAME = FENGYUN 1C DEB
INTERNATIONAL_DESIGNATOR = 1999-025AA
OBJECT_TYPE = DEBRIS
EPHEMERIS_NAME = NONE
COVARIANCE_METHOD = CALCULATED
MANEUVERABLE = NO
REF_FRAME = EME2000
GRAVITY_MODEL = EGM-96: 36D 36O
ATMOSPHERIC_MODEL = JACCHIA 70 DCA
N_BODY_PERTURBATIONS = MOON,SUN
SOLAR_RAD_PRESSURE = YES
EARTH_TIDES = NO
INTRACK_THRUST = NO
      

COMMENT Object2 Data
COMMENT Object2 OD Parameters
TIME_LASTOB_START = 2010-03-12T01:14:12.746
TIME_LASTOB_END = 2010-03-12T03:14:12.746
RECOMMENDED_OD_SPAN = 2.63 [d]
ACTUAL_OD_SPAN = 2.63 [d]
OBS_AVAILABLE = 59
OBS_USED = 58
TRACKS_AVAILABLE = 15
TRACKS_USED = 15
RESIDUALS_ACCEPTED = 97.8 [%]
WEIGHTED_RMS = 0.864
COMMENT Object2 Additional Parameters
COMMENT Apogee Altitude=768 km
COMMENT Perigee Altitude=414 km
COMMENT Inclination=98.8 deg
AREA_PC = 0.9 [m**2]
CD_AREA_OVER_MASS = 0.118668 [m**2/kg]
CR_AREA_OVER_MASS = 0.075204 [m**2/kg]
THRUST_ACCELERATION = 0.0 [m/s**2]
SEDR = 5.40900E-03 [W/kg]

COMMENT Object2 State Vector
X = 2569.540800 [km]
Y = 2245.093614 [km]
Z = 6281.599946 [km]
X_DOT = -2.888612500 [km/s]
Y_DOT = -6.007247516 [km/s]
Z_DOT = 3.328770172 [km/s]

COMMENT Object2 Covariance in the RTN Coordinate Frame
CR_R = 1.337E+03 [m**2]
CT_R = -4.806E+04 [m**2]
CT_T = 2.492E+06 [m**2]
CN_R = -3.298E+01 [m**2]
CN_T = -7.5888E+02 [m**2]
CN_N = 7.105E+01 [m**2]
CRDOT_R = 2.591E-03 [m**2/s]
CRDOT_T = -4.152E-02 [m**2/s]
CRDOT_N = -1.784E-06 [m**2/s]
CRDOT_RDOT = 6.886E-05 [m**2/s**2]
CTDOT_R = -1.016E-02 [m**2/s]
CTDOT_T = -1.506E-04 [m**2/s]
CTDOT_N = 1.637E-03 [m**2/s]
CTDOT_RDOT = -2.987E-06 [m**2/s**2]
CTDOT_TDOT = 1.059E-05 [m**2/s**2]
CNDOT_R = 4.400E-03 [m**2/s]
CNDOT_T = 8.482E-03 [m**2/s]
CNDOT_N = 8.633E-05 [m**2/s]
CNDOT_RDOT = -1.903E-06 [m**2/s**2]
CNDOT_TDOT = -4.594E-06 [m**2/s**2]
CNDOT_NDOT = 5.178E-05 [m**2/s**2]

    
".
(* ccsds_ndm/tests/data/kvn/cdm_example_section4.xml *)
Definition obj_cdm_example_section4 : pyval :=
 VObj "Cdm" [("header", VObj "CdmHeader" [("comment", VList [VStr (lit "Sample CDM - XML version")]);
 ("creation_date", VStr (lit "2010-03-12T22:31:12.000"));
 ("originator", VStr (lit "JSPOC"));
 ("message_for", VStr (lit "SATELLITE A"));
 ("message_id", VStr (lit "20111371985"))]);
 ("body", VObj "CdmBody" [("relative_metadata_data", VObj "RelativeMetadataData" [("comment", VList [VStr (lit "Relative Metadata/Data")]);
 ("tca", VStr (lit "2010-03-13T22:37:52.618"));
 ("miss_distance", VObj "LengthType" [("value", VDec (DFin false 715%N (0)%Z));
 ("units", VEnum "LengthUnits" "M" (lit "m"))]);
 ("relative_speed", VObj "DvType" [("value", VDec (DFin false 14762%N (0)%Z));
 ("units", VEnum "DvUnits" "M_S" (lit "m/s"))]);
 ("relative_state_vector", VObj "RelativeStateVectorType" [("relative_position_r", VObj "LengthType" [("value", VDec (DFin false 274%N (-1)%Z));
 ("units", VEnum "LengthUnits" "M" (lit "m"))]);
 ("relative_position_t", VObj "LengthType" [("value", VDec (DFin true 702%N (-1)%Z));
 ("units", VEnum "LengthUnits" "M" (lit "m"))]);
 ("relative_position_n", VObj "LengthType" [("value", VDec (DFin false 7118%N (-1)%Z));
 ("units", VEnum "LengthUnits" "M" (lit "m"))]);
 ("relative_velocity_r", VObj "DvType" [("value", VDec (DFin true 72%N (-1)%Z));
 ("units", VEnum "DvUnits" "M_S" (lit "m/s"))]);
 ("relative_velocity_t", VObj "DvType" [("value", VDec (DFin true 146920%N (-1)%Z));
 ("units", VEnum "DvUnits" "M_S" (lit "m/s"))]);
 ("relative_velocity_n", VObj "DvType" [("value", VDec (DFin true 14372%N (-1)%Z));
 ("units", VEnum "DvUnits" "M_S" (lit "m/s"))])]);
 ("start_screen_period", VStr (lit "2010-03-12T18:29:32.212"));
 ("stop_screen_period", VStr (lit "2010-03-15T18:29:32.212"));
 ("screen_volume_frame", VEnum "ScreenVolumeFrameType" "RTN" (lit "RTN"));
 ("screen_volume_shape", VEnum "ScreenVolumeShapeType" "ELLIPSOID" (lit "ELLIPSOID"));
 ("screen_volume_x", VObj "LengthType" [("value", VDec (DFin false 200%N (0)%Z));
 ("units", VEnum "LengthUnits" "M" (lit "m"))]);
 ("screen_volume_y", VObj "LengthType" [("value", VDec (DFin false 1000%N (0)%Z));
 ("units", VEnum "LengthUnits" "M" (lit "m"))]);
 ("screen_volume_z", VObj "LengthType" [("value", VDec (DFin false 1000%N (0)%Z));
 ("units", VEnum "LengthUnits" "M" (lit "m"))]);
 ("screen_entry_time", VStr (lit "2010-03-13T20:25:43.222"));
 ("screen_exit_time", VStr (lit "2010-03-13T23:44:29.324"));
 ("collision_probability", VDec (DFin false 4835%N (-8)%Z));
 ("collision_probability_method", VStr (lit "FOSTER-1992"))]);
 ("segment", VList [VObj "CdmSegment" [("metadata", VObj "CdmMetadata" [("comment", VList [VStr (lit "Object1 Metadata")]);
 ("object", VEnum "ObjectType" "OBJECT1" (lit "OBJECT1"));
 ("object_designator", VStr (lit "12345"));
 ("catalog_name", VStr (lit "SATCAT"));
 ("object_name", VStr (lit "SATELLITE A"));
 ("international_designator", VStr (lit "1997-030E"));
 ("object_type", VEnum "ObjectDescriptionType" "PAYLOAD" (lit "PAYLOAD"));
 ("operator_contact_position", VStr (lit "OSA"));
 ("operator_organization", VStr (lit "EUMETSAT"));
 ("operator_phone", VStr (lit "+49615130312"));
 ("operator_email", VStr (lit "JOHN.DOE@SOMEWHERE>NET"));
 ("ephemeris_name", VStr (lit "EPHEMERIS SATELLITE A"));
 ("covariance_method", VEnum "CovarianceMethodType" "CALCULATED" (lit "CALCULATED"));
 ("maneuverable", VEnum "ManeuverableType" "YES" (lit "YES"));
 ("orbit_center", VNone);
 ("ref_frame", VEnum "ReferenceFrameType" "EME2000" (lit "EME2000"));
 ("gravity_model", VStr (lit "EGM-96: 36D 36O"));
 ("atmospheric_model", VStr (lit "JACCHIA 70 DCA"));
 ("n_body_perturbations", VStr (lit "MOON,SUN"));
 ("solar_rad_pressure", VEnum "YesNoType" "NO" (lit "NO"));
 ("earth_tides", VEnum "YesNoType" "NO" (lit "NO"));
 ("intrack_thrust", VEnum "YesNoType" "NO" (lit "NO"))]);
 ("data", VObj "CdmData" [("comment", VList [VStr (lit "Object1 Data")]);
 ("od_parameters", VObj "OdParametersType" [("comment", VList [VStr (lit "Object1 OD Parameters")]);
 ("time_lastob_start", VStr (lit "2010-03-12T02:14:12.746"));
 ("time_lastob_end", VStr (lit "2010-03-12T02:14:12.746"));
 ("recommended_od_span", VObj "DayIntervalType" [("value", VDec (DFin false 788%N (-2)%Z));
 ("units", VEnum "DayIntervalUnits" "D" (lit "d"))]);
 ("actual_od_span", VObj "DayIntervalType" [("value", VDec (DFin false 550%N (-2)%Z));
 ("units", VEnum "DayIntervalUnits" "D" (lit "d"))]);
 ("obs_available", VInt (592)%Z);
 ("obs_used", VInt (59)%Z);
 ("tracks_available", VInt (123)%Z);
 ("tracks_used", VInt (119)%Z);
 ("residuals_accepted", VObj "PercentageType" [("value", VDec (DFin false 978%N (-1)%Z));
 ("units", VEnum "PercentageUnits" "VALUE" (lit "%"))]);
 ("weighted_rms", VDec (DFin false 864%N (-3)%Z))]);
 ("additional_parameters", VObj "AdditionalParametersType" [("comment", VList [VStr (lit "Object 1 Additional Parameters")]);
 ("area_pc", VObj "AreaType" [("value", VDec (DFin false 52%N (-1)%Z));
 ("units", VEnum "AreaUnits" "M_2" (lit "m**2"))]);
 ("area_drg", VNone);
 ("area_srp", VNone);
 ("mass", VObj "MassType" [("value", VDec (DFin false 2516%N (0)%Z));
 ("units", VEnum "MassUnits" "KG" (lit "kg"))]);
 ("cd_area_over_mass", VObj "M2KgType" [("value", VDec (DFin false 45663%N (-6)%Z));
 ("units", VEnum "M2KgUnits" "M_2_KG" (lit "m**2/kg"))]);
 ("cr_area_over_mass", VObj "M2KgType" [("value", VDec (DFin false 0%N (-6)%Z));
 ("units", VEnum "M2KgUnits" "M_2_KG" (lit "m**2/kg"))]);
 ("thrust_acceleration", VObj "Ms2Type" [("value", VDec (DFin false 0%N (-1)%Z));
 ("units", VEnum "Ms2Units" "M_S_2" (lit "m/s**2"))]);
 ("sedr", VObj "WkgType" [("value", VDec (DFin false 454570%N (-10)%Z));
 ("units", VEnum "WkgUnits" "W_KG" (lit "W/kg"))])]);
 ("state_vector", VObj "CdmStateVectorType" [("comment", VList [VStr (lit "Object1 State Vector")]);
 ("x", VObj "CdmPositionType" [("value", VDec (DFin false 2570097065%N (-6)%Z));
 ("units", VEnum "PositionUnits" "KM" (lit "km"))]);
 ("y", VObj "CdmPositionType" [("value", VDec (DFin false 2244654904%N (-6)%Z));
 ("units", VEnum "PositionUnits" "KM" (lit "km"))]);
 ("z", VObj "CdmPositionType" [("value", VDec (DFin false 6281497978%N (-6)%Z));
 ("units", VEnum "PositionUnits" "KM" (lit "km"))]);
 ("x_dot", VObj "CdmVelocityType" [("value", VDec (DFin false 4418769571%N (-9)%Z));
 ("units", VEnum "VelocityUnits" "KM_S" (lit "km/s"))]);
 ("y_dot", VObj "CdmVelocityType" [("value", VDec (DFin false 4833547743%N (-9)%Z));
 ("units", VEnum "VelocityUnits" "KM_S" (lit "km/s"))]);
 ("z_dot", VObj "CdmVelocityType" [("value", VDec (DFin true 3526774282%N (-9)%Z));
 ("units", VEnum "VelocityUnits" "KM_S" (lit "km/s"))])]);
 ("covariance_matrix", VObj "CdmCovarianceMatrixType" [("comment", VList [VStr (lit "Object1 Covariance in the RTN Coordinate Frame")]);
 ("cr_r", VObj "M2Type" [("value", VDec (DFin false 4142%N (-2)%Z));
 ("units", VEnum "M2Units" "M_2" (lit "m**2"))]);
 ("ct_r", VObj "M2Type" [("value", VDec (DFin true 8579%N (-3)%Z));
 ("units", VEnum "M2Units" "M_2" (lit "m**2"))]);
 ("ct_t", VObj "M2Type" [("value", VDec (DFin false 2533%N (0)%Z));
 ("units", VEnum "M2Units" "M_2" (lit "m**2"))]);
 ("cn_r", VObj "M2Type" [("value", VDec (DFin true 2313%N (-2)%Z));
 ("units", VEnum "M2Units" "M_2" (lit "m**2"))]);
 ("cn_t", VObj "M2Type" [("value", VDec (DFin false 1336%N (-2)%Z));
 ("units", VEnum "M2Units" "M_2" (lit "m**2"))]);
 ("cn_n", VObj "M2Type" [("value", VDec (DFin false 7098%N (-2)%Z));
 ("units", VEnum "M2Units" "M_2" (lit "m**2"))]);
 ("crdot_r", VObj "M2SType" [("value", VDec (DFin false 2520%N (-6)%Z));
 ("units", VEnum "M2SUnits" "M_2_S" (lit "m**2/s"))]);
 ("crdot_t", VObj "M2SType" [("value", VDec (DFin true 5476%N (-3)%Z));
 ("units", VEnum "M2SUnits" "M_2_S" (lit "m**2/s"))]);
 ("crdot_n", VObj "M2SType" [("value", VDec (DFin false 8626%N (-7)%Z));
 ("units", VEnum "M2SUnits" "M_2_S" (lit "m**2/s"))]);
 ("crdot_rdot", VObj "M2S2Type" [("value", VDec (DFin false 5744%N (-6)%Z));
 ("units", VEnum "M2S2Units" "M_2_S_2" (lit "m**2/s**2"))]);
 ("ctdot_r", VObj "M2SType" [("value", VDec (DFin true 1006%N (-5)%Z));
 ("units", VEnum "M2SUnits" "M_2_S" (lit "m**2/s"))]);
 ("ctdot_t", VObj "M2SType" [("value", VDec (DFin false 4041%N (-6)%Z));
 ("units", VEnum "M2SUnits" "M_2_S" (lit "m**2/s"))]);
 ("ctdot_n", VObj "M2SType" [("value", VDec (DFin true 1359%N (-6)%Z));
 ("units", VEnum "M2SUnits" "M_2_S" (lit "m**2/s"))]);
 ("ctdot_rdot", VObj "M2S2Type" [("value", VDec (DFin true 1502%N (-8)%Z));
 ("units", VEnum "M2S2Units" "M_2_S_2" (lit "m**2/s**2"))]);
 ("ctdot_tdot", VObj "M2S2Type" [("value", VDec (DFin false 1049%N (-8)%Z));
 ("units", VEnum "M2S2Units" "M_2_S_2" (lit "m**2/s**2"))]);
 ("cndot_r", VObj "M2SType" [("value", VDec (DFin false 1053%N (-6)%Z));
 ("units", VEnum "M2SUnits" "M_2_S" (lit "m**2/s"))]);
 ("cndot_t", VObj "M2SType" [("value", VDec (DFin true 3412%N (-6)%Z));
 ("units", VEnum "M2SUnits" "M_2_S" (lit "m**2/s"))]);
 ("cndot_n", VObj "M2SType" [("value", VDec (DFin false 1213%N (-5)%Z));
 ("units", VEnum "M2SUnits" "M_2_S" (lit "m**2/s"))]);
 ("cndot_rdot", VObj "M2S2Type" [("value", VDec (DFin true 3004%N (-9)%Z));
 ("units", VEnum "M2S2Units" "M_2_S_2" (lit "m**2/s**2"))]);
 ("cndot_tdot", VObj "M2S2Type" [("value", VDec (DFin true 1091%N (-9)%Z));
 ("units", VEnum "M2S2Units" "M_2_S_2" (lit "m**2/s**2"))]);
 ("cndot_ndot", VObj "M2S2Type" [("value", VDec (DFin false 5529%N (-8)%Z));
 ("units", VEnum "M2S2Units" "M_2_S_2" (lit "m**2/s**2"))]);
 ("cdrg_r", VNone);
 ("cdrg_t", VNone);
 ("cdrg_n", VNone);
 ("cdrg_rdot", VNone);
 ("cdrg_tdot", VNone);
 ("cdrg_ndot", VNone);
 ("cdrg_drg", VNone);
 ("csrp_r", VNone);
 ("csrp_t", VNone);
 ("csrp_n", VNone);
 ("csrp_rdot", VNone);
 ("csrp_tdot", VNone);
 ("csrp_ndot", VNone);
 ("csrp_drg", VNone);
 ("csrp_srp", VNone);
 ("cthr_r", VNone);
 ("cthr_t", VNone);
 ("cthr_n", VNone);
 ("cthr_rdot", VNone);
 ("cthr_tdot", VNone);
 ("cthr_ndot", VNone);
 ("cthr_drg", VNone);
 ("cthr_srp", VNone);
 ("cthr_thr", VNone)])])]; VObj "CdmSegment" [("metadata", VObj "CdmMetadata" [("comment", VList [VStr (lit "Object2 Metadata")]);
 ("object", VEnum "ObjectType" "OBJECT2" (lit "OBJECT2"));
 ("object_designator", VStr (lit "30337"));
 ("catalog_name", VStr (lit "SATCAT"));
 ("object_name", VStr (lit "FENGYUN 1C DEB"));
 ("international_designator", VStr (lit "1999-025AA"));
 ("object_type", VEnum "ObjectDescriptionType" "DEBRIS" (lit "DEBRIS"));
 ("operator_contact_position", VNone);
 ("operator_organization", VNone);
 ("operator_phone", VNone);
 ("operator_email", VNone);
 ("ephemeris_name", VStr (lit "NONE"));
 ("covariance_method", VEnum "CovarianceMethodType" "CALCULATED" (lit "CALCULATED"));
 ("maneuverable", VEnum "ManeuverableType" "NO" (lit "NO"));
 ("orbit_center", VNone);
 ("ref_frame", VEnum "ReferenceFrameType" "EME2000" (lit "EME2000"));
 ("gravity_model", VStr (lit "EGM-96: 36D 36O"));
 ("atmospheric_model", VStr (lit "JACCHIA 70 DCA"));
 ("n_body_perturbations", VStr (lit "MOON,SUN"));
 ("solar_rad_pressure", VEnum "YesNoType" "YES" (lit "YES"));
 ("earth_tides", VEnum "YesNoType" "NO" (lit "NO"));
 ("intrack_thrust", VEnum "YesNoType" "NO" (lit "NO"))]);
 ("data", VObj "CdmData" [("comment", VList [VStr (lit "Object2 Data")]);
 ("od_parameters", VObj "OdParametersType" [("comment", VList [VStr (lit "Object2 OD Parameters")]);
 ("time_lastob_start", VStr (lit "2010-03-12T01:14:12.746"));
 ("time_lastob_end", VStr (lit "2010-03-12T03:14:12.746"));
 ("recommended_od_span", VObj "DayIntervalType" [("value", VDec (DFin false 263%N (-2)%Z));
 ("units", VEnum "DayIntervalUnits" "D" (lit "d"))]);
 ("actual_od_span", VObj "DayIntervalType" [("value", VDec (DFin false 263%N (-2)%Z));
 ("units", VEnum "DayIntervalUnits" "D" (lit "d"))]);
 ("obs_available", VInt (59)%Z);
 ("obs_used", VInt (58)%Z);
 ("tracks_available", VInt (15)%Z);
 ("tracks_used", VInt (15)%Z);
 ("residuals_accepted", VObj "PercentageType" [("value", VDec (DFin false 978%N (-1)%Z));
 ("units", VEnum "PercentageUnits" "VALUE" (lit "%"))]);
 ("weighted_rms", VDec (DFin false 864%N (-3)%Z))]);
 ("additional_parameters", VObj "AdditionalParametersType" [("comment", VList [VStr (lit "Object2 Additional Parameters"); VStr (lit "Apogee Altitude=768 km"); VStr (lit "Perigee Altitude=414 km"); VStr (lit "Inclination=98.8 deg")]);
 ("area_pc", VObj "AreaType" [("value", VDec (DFin false 9%N (-1)%Z));
 ("units", VEnum "AreaUnits" "M_2" (lit "m**2"))]);
 ("area_drg", VNone);
 ("area_srp", VNone);
 ("mass", VNone);
 ("cd_area_over_mass", VObj "M2KgType" [("value", VDec (DFin false 118668%N (-6)%Z));
 ("units", VEnum "M2KgUnits" "M_2_KG" (lit "m**2/kg"))]);
 ("cr_area_over_mass", VObj "M2KgType" [("value", VDec (DFin false 75204%N (-6)%Z));
 ("units", VEnum "M2KgUnits" "M_2_KG" (lit "m**2/kg"))]);
 ("thrust_acceleration", VObj "Ms2Type" [("value", VDec (DFin false 0%N (-1)%Z));
 ("units", VEnum "Ms2Units" "M_S_2" (lit "m/s**2"))]);
 ("sedr", VObj "WkgType" [("value", VDec (DFin false 540900%N (-8)%Z));
 ("units", VEnum "WkgUnits" "W_KG" (lit "W/kg"))])]);
 ("state_vector", VObj "CdmStateVectorType" [("comment", VList [VStr (lit "Object2 State Vector")]);
 ("x", VObj "CdmPositionType" [("value", VDec (DFin false 2569540800%N (-6)%Z));
 ("units", VEnum "PositionUnits" "KM" (lit "km"))]);
 ("y", VObj "CdmPositionType" [("value", VDec (DFin false 2245093614%N (-6)%Z));
 ("units", VEnum "PositionUnits" "KM" (lit "km"))]);
 ("z", VObj "CdmPositionType" [("value", VDec (DFin false 6281599946%N (-6)%Z));
 ("units", VEnum "PositionUnits" "KM" (lit "km"))]);
 ("x_dot", VObj "CdmVelocityType" [("value", VDec (DFin true 2888612500%N (-9)%Z));
 ("units", VEnum "VelocityUnits" "KM_S" (lit "km/s"))]);
 ("y_dot", VObj "CdmVelocityType" [("value", VDec (DFin true 6007247516%N (-9)%Z));
 ("units", VEnum "VelocityUnits" "KM_S" (lit "km/s"))]);
 ("z_dot", VObj "CdmVelocityType" [("value", VDec (DFin false 3328770172%N (-9)%Z));
 ("units", VEnum "VelocityUnits" "KM_S" (lit "km/s"))])]);
 ("covariance_matrix", VObj "CdmCovarianceMatrixType" [("comment", VList [VStr (lit "Object2 Covariance in the RTN Coordinate Frame")]);
 ("cr_r", VObj "M2Type" [("value", VDec (DFin false 1337%N (0)%Z));
 ("units", VEnum "M2Units" "M_2" (lit "m**2"))]);
 ("ct_r", VObj "M2Type" [("value", VDec (DFin true 4806%N (1)%Z));
 ("units", VEnum "M2Units" "M_2" (lit "m**2"))]);
 ("ct_t", VObj "M2Type" [("value", VDec (DFin false 2492%N (3)%Z));
 ("units", VEnum "M2Units" "M_2" (lit "m**2"))]);
 ("cn_r", VObj "M2Type" [("value", VDec (DFin true 3298%N (-2)%Z));
 ("units", VEnum "M2Units" "M_2" (lit "m**2"))]);
 ("cn_t", VObj "M2Type" [("value", VDec (DFin true 75888%N (-2)%Z));
 ("units", VEnum "M2Units" "M_2" (lit "m**2"))]);
 ("cn_n", VObj "M2Type" [("value", VDec (DFin false 7105%N (-2)%Z));
 ("units", VEnum "M2Units" "M_2" (lit "m**2"))]);
 ("crdot_r", VObj "M2SType" [("value", VDec (DFin false 2591%N (-6)%Z));
 ("units", VEnum "M2SUnits" "M_2_S" (lit "m**2/s"))]);
 ("crdot_t", VObj "M2SType" [("value", VDec (DFin true 4152%N (-5)%Z));
 ("units", VEnum "M2SUnits" "M_2_S" (lit "m**2/s"))]);
 ("crdot_n", VObj "M2SType" [("value", VDec (DFin true 1784%N (-9)%Z));
 ("units", VEnum "M2SUnits" "M_2_S" (lit "m**2/s"))]);
 ("crdot_rdot", VObj "M2S2Type" [("value", VDec (DFin false 6886%N (-8)%Z));
 ("units", VEnum "M2S2Units" "M_2_S_2" (lit "m**2/s**2"))]);
 ("ctdot_r", VObj "M2SType" [("value", VDec (DFin true 1016%N (-5)%Z));
 ("units", VEnum "M2SUnits" "M_2_S" (lit "m**2/s"))]);
 ("ctdot_t", VObj "M2SType" [("value", VDec (DFin true 1506%N (-7)%Z));
 ("units", VEnum "M2SUnits" "M_2_S" (lit "m**2/s"))]);
 ("ctdot_n", VObj "M2SType" [("value", VDec (DFin false 1637%N (-6)%Z));
 ("units", VEnum "M2SUnits" "M_2_S" (lit "m**2/s"))]);
 ("ctdot_rdot", VObj "M2S2Type" [("value", VDec (DFin true 2987%N (-9)%Z));
 ("units", VEnum "M2S2Units" "M_2_S_2" (lit "m**2/s**2"))]);
 ("ctdot_tdot", VObj "M2S2Type" [("value", VDec (DFin false 1059%N (-8)%Z));
 ("units", VEnum "M2S2Units" "M_2_S_2" (lit "m**2/s**2"))]);
 ("cndot_r", VObj "M2SType" [("value", VDec (DFin false 4400%N (-6)%Z));
 ("units", VEnum "M2SUnits" "M_2_S" (lit "m**2/s"))]);
 ("cndot_t", VObj "M2SType" [("value", VDec (DFin false 8482%N (-6)%Z));
 ("units", VEnum "M2SUnits" "M_2_S" (lit "m**2/s"))]);
 ("cndot_n", VObj "M2SType" [("value", VDec (DFin false 8633%N (-8)%Z));
 ("units", VEnum "M2SUnits" "M_2_S" (lit "m**2/s"))]);
 ("cndot_rdot", VObj "M2S2Type" [("value", VDec (DFin true 1903%N (-9)%Z));
 ("units", VEnum "M2S2Units" "M_2_S_2" (lit "m**2/s**2"))]);
 ("cndot_tdot", VObj "M2S2Type" [("value", VDec (DFin true 4594%N (-9)%Z));
 ("units", VEnum "M2S2Units" "M_2_S_2" (lit "m**2/s**2"))]);
 ("cndot_ndot", VObj "M2S2Type" [("value", VDec (DFin false 5178%N (-8)%Z));
 ("units", VEnum "M2S2Units" "M_2_S_2" (lit "m**2/s**2"))]);
 ("cdrg_r", VNone);
 ("cdrg_t", VNone);
 ("cdrg_n", VNone);
 ("cdrg_rdot", VNone);
 ("cdrg_tdot", VNone);
 ("cdrg_ndot", VNone);
 ("cdrg_drg", VNone);
 ("csrp_r", VNone);
 ("csrp_t", VNone);
 ("csrp_n", VNone);
 ("csrp_rdot", VNone);
 ("csrp_tdot", VNone);
 ("csrp_ndot", VNone);
 ("csrp_drg", VNone);
 ("csrp_srp", VNone);
 ("cthr_r", VNone);
 ("cthr_t", VNone);
 ("cthr_n", VNone);
 ("cthr_rdot", VNone);
 ("cthr_tdot", VNone);
 ("cthr_ndot", VNone);
 ("cthr_drg", VNone);
 ("cthr_srp", VNone);
 ("cthr_thr", VNone)])])]])])].
(* ccsds_ndm/tests/data/kvn/odmv2-testcase6_abbrev.kvn *)
Definition kvn_odmv2_testcase6_abbrev : string := "CCSDS_OEM_VERS = 2.0
CREATION_DATE = 2009-02-05T10:09:12
ORIGINATOR = JAXA

META_START
OBJECT_NAME = SELENE              
OBJECT_ID = 131       
CENTER_NAME = EARTH
REF_FRAME = EME2000
TIME_SYSTEM = UTC
START_TIME = 2007-09-14T10:43:00.000000
STOP_TIME = 2007-09-15T00:00:00.000000
INTERPOLATION = Hermite
INTERPOLATION_DEGREE = 7
META_STOP
2007-09-14T10:43:00.000000  1.336886031675458E+03  9.480146566872711E+04  3.266088528177066E+04 -6.305293974707967E-01  1.848864859994888E+00  9.377640352829226E-01
2007-09-14T10:44:00.000000  1.299053338219702E+03  9.491233015399727E+04  3.271712789822781E+04 -6.305602161673365E-01  1.846618917569059E+00  9.369900978163187E-01
2007-09-14T10:45:00.000000  1.261218825877070E+03  9.502306005072314E+04  3.277332412355368E+04 -6.305900282238581E-01  1.844378570838882E+00  9.362176632629805E-01


COVARIANCE_START
EPOCH = 2007-09-14T10:43:00.000000
 11
 21   22
 31   32  33
 41   42  43   44
 51   52  53   54   55
 61   62  63   64   65  66


EPOCH = 2007-09-15T00:00:00.000000
 6.023550580475148E-02
-5.303823832442239E-01   8.131125239698378E+00
 1.692985781123953E+00  -2.594387304475676E+01   8.278013851798794E+01
 1.899585339691058E-05  -2.739203713783577E-04   8.741529586701989E-04   9.337069105488550E-09
-2.491780204561419E-05   3.755784234116975E-04  -1.198502962098313E-03  -1.270792663640218E-08   1.738477654632604E-08
 5.869621506662873E-05  -8.665799394197293E-04   2.765628830415862E-03   2.941783977902133E-08  -4.017580005088106E-08   9.297767481547017E-08
COVARIANCE_STOP


META_START
OBJECT_NAME = SELENE
OBJECT_ID = 131
CENTER_NAME = EARTH
REF_FRAME = EME2000
TIME_SYSTEM = UTC
START_TIME = 2007-09-15T10:43:00.000000
STOP_TIME = 2007-09-16T00:00:00.000000
INTERPOLATION = Hermite
INTERPOLATION_DEGREE = 7
META_STOP
2007-09-15T10:43:00.000000  1.336886031675458E+03  9.480146566872711E+04  3.266088528177066E+04 -6.305293974707967E-01  1.848864859994888E+00  9.377640352829226E-01
2007-09-15T10:44:00.000000  1.299053338219702E+03  9.491233015399727E+04  3.271712789822781E+04 -6.305602161673365E-01  1.846618917569059E+00  9.369900978163187E-01
2007-09-15T10:45:00.000000  1.261218825877070E+03  9.502306005072314E+04  3.277332412355368E+04 -6.305900282238581E-01  1.844378570838882E+00  9.362176632629805E-01


COVARIANCE_START
EPOCH = 2007-09-15T10:43:00.000000
 6.023550580475148E-02
-5.303823832442239E-01   8.131125239698378E+00
 1.692985781123953E+00  -2.594387304475676E+01   8.278013851798794E+01
 1.899585339691058E-05  -2.739203713783577E-04   8.741529586701989E-04   9.337069105488550E-09
-2.491780204561419E-05   3.755784234116975E-04  -1.198502962098313E-03  -1.270792663640218E-08   1.738477654632604E-08
 5.869621506662873E-05  -8.665799394197293E-04   2.765628830415862E-03   2.941783977902133E-08  -4.017580005088106E-08   9.297767481547017E-08

EPOCH = 2007-09-16T00:00:00.000000
 3.266088528126741E+01
-3.547065632325138E+01   6.293245565237864E+01
 9.282114227544881E+01  -1.643887842962043E+02   4.297088322158573E+02
 3.657664254586662E-04  -6.444800157747117E-04   1.685457847341212E-03   6.635422060524108E-09
-6.305900286465505E-04   6.860671191818287E-04  -1.792623768377453E-03  -7.033874338507087E-09   7.481549541173892E-09
 8.801128305671555E-04  -1.552203789106341E-03   4.063125065557708E-03   1.596374470157680E-08  -1.694018192348004E-08   3.853819786763772E-08
COVARIANCE_STOP


".
(* ccsds_ndm/tests/data/kvn/odmv2-testcase6_abbrev.xml *)
Definition obj_odmv2_testcase6_abbrev : pyval :=
 VObj "Oem" [("header", VObj "NdmHeader" [("comment", VList []);
 ("creation_date", VStr (lit "2009-02-05T10:09:12"));
 ("originator", VStr (lit "JAXA"))]);
 ("body", VObj "OemBody" [("segment", VList [VObj "OemSegment" [("metadata", VObj "OemMetadata" [("comment", VList []);
 ("object_name", VStr (lit "SELENE"));
 ("object_id", VStr (lit "131"));
 ("center_name", VStr (lit "EARTH"));
 ("ref_frame", VStr (lit "EME2000"));
 ("ref_frame_epoch", VNone);
 ("time_system", VStr (lit "UTC"));
 ("start_time", VStr (lit "2007-09-14T10:43:00.000000"));
 ("useable_start_time", VNone);
 ("useable_stop_time", VNone);
 ("stop_time", VStr (lit "2007-09-15T00:00:00.000000"));
 ("interpolation", VStr (lit "Hermite"));
 ("interpolation_degree", VInt (7)%Z)]);
 ("data", VObj "OemData" [("comment", VList []);
 ("state_vector", VList [VObj "StateVectorAccType" [("epoch", VStr (lit "2007-09-14T10:43:00.000000"));
 ("x", VObj "PositionType" [("value", VDec (DFin false 1336886031675458%N (-12)%Z));
 ("units", VNone)]);
 ("y", VObj "PositionType" [("value", VDec (DFin false 9480146566872711%N (-11)%Z));
 ("units", VNone)]);
 ("z", VObj "PositionType" [("value", VDec (DFin false 3266088528177066%N (-11)%Z));
 ("units", VNone)]);
 ("x_dot", VObj "VelocityType" [("value", VDec (DFin true 6305293974707967%N (-16)%Z));
 ("units", VNone)]);
 ("y_dot", VObj "VelocityType" [("value", VDec (DFin false 1848864859994888%N (-15)%Z));
 ("units", VNone)]);
 ("z_dot", VObj "VelocityType" [("value", VDec (DFin false 9377640352829226%N (-16)%Z));
 ("units", VNone)]);
 ("x_ddot", VNone);
 ("y_ddot", VNone);
 ("z_ddot", VNone)]; VObj "StateVectorAccType" [("epoch", VStr (lit "2007-09-14T10:44:00.000000"));
 ("x", VObj "PositionType" [("value", VDec (DFin false 1299053338219702%N (-12)%Z));
 ("units", VNone)]);
 ("y", VObj "PositionType" [("value", VDec (DFin false 9491233015399727%N (-11)%Z));
 ("units", VNone)]);
 ("z", VObj "PositionType" [("value", VDec (DFin false 3271712789822781%N (-11)%Z));
 ("units", VNone)]);
 ("x_dot", VObj "VelocityType" [("value", VDec (DFin true 6305602161673365%N (-16)%Z));
 ("units", VNone)]);
 ("y_dot", VObj "VelocityType" [("value", VDec (DFin false 1846618917569059%N (-15)%Z));
 ("units", VNone)]);
 ("z_dot", VObj "VelocityType" [("value", VDec (DFin false 9369900978163187%N (-16)%Z));
 ("units", VNone)]);
 ("x_ddot", VNone);
 ("y_ddot", VNone);
 ("z_ddot", VNone)]; VObj "StateVectorAccType" [("epoch", VStr (lit "2007-09-14T10:45:00.000000"));
 ("x", VObj "PositionType" [("value", VDec (DFin false 1261218825877070%N (-12)%Z));
 ("units", VNone)]);
 ("y", VObj "PositionType" [("value", VDec (DFin false 9502306005072314%N (-11)%Z));
 ("units", VNone)]);
 ("z", VObj "PositionType" [("value", VDec (DFin false 3277332412355368%N (-11)%Z));
 ("units", VNone)]);
 ("x_dot", VObj "VelocityType" [("value", VDec (DFin true 6305900282238581%N (-16)%Z));
 ("units", VNone)]);
 ("y_dot", VObj "VelocityType" [("value", VDec (DFin false 1844378570838882%N (-15)%Z));
 ("units", VNone)]);
 ("z_dot", VObj "VelocityType" [("value", VDec (DFin false 9362176632629805%N (-16)%Z));
 ("units", VNone)]);
 ("x_ddot", VNone);
 ("y_ddot", VNone);
 ("z_ddot", VNone)]]);
 ("covariance_matrix", VList [VObj "OemCovarianceMatrixType" [("comment", VList []);
 ("epoch", VStr (lit "2007-09-14T10:43:00.000000"));
 ("cov_ref_frame", VNone);
 ("cx_x", VObj "PositionCovarianceType" [("value", VDec (DFin false 11%N (0)%Z));
 ("units", VNone)]);
 ("cy_x", VObj "PositionCovarianceType" [("value", VDec (DFin false 21%N (0)%Z));
 ("units", VNone)]);
 ("cy_y", VObj "PositionCovarianceType" [("value", VDec (DFin false 22%N (0)%Z));
 ("units", VNone)]);
 ("cz_x", VObj "PositionCovarianceType" [("value", VDec (DFin false 31%N (0)%Z));
 ("units", VNone)]);
 ("cz_y", VObj "PositionCovarianceType" [("value", VDec (DFin false 32%N (0)%Z));
 ("units", VNone)]);
 ("cz_z", VObj "PositionCovarianceType" [("value", VDec (DFin false 33%N (0)%Z));
 ("units", VNone)]);
 ("cx_dot_x", VObj "PositionVelocityCovarianceType" [("value", VDec (DFin false 41%N (0)%Z));
 ("units", VNone)]);
 ("cx_dot_y", VObj "PositionVelocityCovarianceType" [("value", VDec (DFin false 42%N (0)%Z));
 ("units", VNone)]);
 ("cx_dot_z", VObj "PositionVelocityCovarianceType" [("value", VDec (DFin false 43%N (0)%Z));
 ("units", VNone)]);
 ("cx_dot_x_dot", VObj "VelocityCovarianceType" [("value", VDec (DFin false 44%N (0)%Z));
 ("units", VNone)]);
 ("cy_dot_x", VObj "PositionVelocityCovarianceType" [("value", VDec (DFin false 51%N (0)%Z));
 ("units", VNone)]);
 ("cy_dot_y", VObj "PositionVelocityCovarianceType" [("value", VDec (DFin false 52%N (0)%Z));
 ("units", VNone)]);
 ("cy_dot_z", VObj "PositionVelocityCovarianceType" [("value", VDec (DFin false 53%N (0)%Z));
 ("units", VNone)]);
 ("cy_dot_x_dot", VObj "VelocityCovarianceType" [("value", VDec (DFin false 54%N (0)%Z));
 ("units", VNone)]);
 ("cy_dot_y_dot", VObj "VelocityCovarianceType" [("value", VDec (DFin false 55%N (0)%Z));
 ("units", VNone)]);
 ("cz_dot_x", VObj "PositionVelocityCovarianceType" [("value", VDec (DFin false 61%N (0)%Z));
 ("units", VNone)]);
 ("cz_dot_y", VObj "PositionVelocityCovarianceType" [("value", VDec (DFin false 62%N (0)%Z));
 ("units", VNone)]);
 ("cz_dot_z", VObj "PositionVelocityCovarianceType" [("value", VDec (DFin false 63%N (0)%Z));
 ("units", VNone)]);
 ("cz_dot_x_dot", VObj "VelocityCovarianceType" [("value", VDec (DFin false 64%N (0)%Z));
 ("units", VNone)]);
 ("cz_dot_y_dot", VObj "VelocityCovarianceType" [("value", VDec (DFin false 65%N (0)%Z));
 ("units", VNone)]);
 ("cz_dot_z_dot", VObj "VelocityCovarianceType" [("value", VDec (DFin false 66%N (0)%Z));
 ("units", VNone)])]; VObj "OemCovarianceMatrixType" [("comment", VList []);
 ("epoch", VStr (lit "2007-09-15T00:00:00.000000"));
 ("cov_ref_frame", VNone);
 ("cx_x", VObj "PositionCovarianceType" [("value", VDec (DFin false 6023550580475148%N (-17)%Z));
 ("units", VNone)]);
 ("cy_x", VObj "PositionCovarianceType" [("value", VDec (DFin true 5303823832442239%N (-16)%Z));
 ("units", VNone)]);
 ("cy_y", VObj "PositionCovarianceType" [("value", VDec (DFin false 8131125239698378%N (-15)%Z));
 ("units", VNone)]);
 ("cz_x", VObj "PositionCovarianceType" [("value", VDec (DFin false 1692985781123953%N (-15)%Z));
 ("units", VNone)]);
 ("cz_y", VObj "PositionCovarianceType" [("value", VDec (DFin true 2594387304475676%N (-14)%Z));
 ("units", VNone)]);
 ("cz_z", VObj "PositionCovarianceType" [("value", VDec (DFin false 8278013851798794%N (-14)%Z));
 ("units", VNone)]);
 ("cx_dot_x", VObj "PositionVelocityCovarianceType" [("value", VDec (DFin false 1899585339691058%N (-20)%Z));
 ("units", VNone)]);
 ("cx_dot_y", VObj "PositionVelocityCovarianceType" [("value", VDec (DFin true 2739203713783577%N (-19)%Z));
 ("units", VNone)]);
 ("cx_dot_z", VObj "PositionVelocityCovarianceType" [("value", VDec (DFin false 8741529586701989%N (-19)%Z));
 ("units", VNone)]);
 ("cx_dot_x_dot", VObj "VelocityCovarianceType" [("value", VDec (DFin false 9337069105488550%N (-24)%Z));
 ("units", VNone)]);
 ("cy_dot_x", VObj "PositionVelocityCovarianceType" [("value", VDec (DFin true 2491780204561419%N (-20)%Z));
 ("units", VNone)]);
 ("cy_dot_y", VObj "PositionVelocityCovarianceType" [("value", VDec (DFin false 3755784234116975%N (-19)%Z));
 ("units", VNone)]);
 ("cy_dot_z", VObj "PositionVelocityCovarianceType" [("value", VDec (DFin true 1198502962098313%N (-18)%Z));
 ("units", VNone)]);
 ("cy_dot_x_dot", VObj "VelocityCovarianceType" [("value", VDec (DFin true 1270792663640218%N (-23)%Z));
 ("units", VNone)]);
 ("cy_dot_y_dot", VObj "VelocityCovarianceType" [("value", VDec (DFin false 1738477654632604%N (-23)%Z));
 ("units", VNone)]);
 ("cz_dot_x", VObj "PositionVelocityCovarianceType" [("value", VDec (DFin false 5869621506662873%N (-20)%Z));
 ("units", VNone)]);
 ("cz_dot_y", VObj "PositionVelocityCovarianceType" [("value", VDec (DFin true 8665799394197293%N (-19)%Z));
 ("units", VNone)]);
 ("cz_dot_z", VObj "PositionVelocityCovarianceType" [("value", VDec (DFin false 2765628830415862%N (-18)%Z));
 ("units", VNone)]);
 ("cz_dot_x_dot", VObj "VelocityCovarianceType" [("value", VDec (DFin false 2941783977902133%N (-23)%Z));
 ("units", VNone)]);
 ("cz_dot_y_dot", VObj "VelocityCovarianceType" [("value", VDec (DFin true 4017580005088106%N (-23)%Z));
 ("units", VNone)]);
 ("cz_dot_z_dot", VObj "VelocityCovarianceType" [("value", VDec (DFin false 9297767481547017%N (-23)%Z));
 ("units", VNone)])]])])]; VObj "OemSegment" [("metadata", VObj "OemMetadata" [("comment", VList []);
 ("object_name", VStr (lit "SELENE"));
 ("object_id", VStr (lit "131"));
 ("center_name", VStr (lit "EARTH"));
 ("ref_frame", VStr (lit "EME2000"));
 ("ref_frame_epoch", VNone);
 ("time_system", VStr (lit "UTC"));
 ("start_time", VStr (lit "2007-09-15T10:43:00.000000"));
 ("useable_start_time", VNone);
 ("useable_stop_time", VNone);
 ("stop_time", VStr (lit "2007-09-16T00:00:00.000000"));
 ("interpolation", VStr (lit "Hermite"));
 ("interpolation_degree", VInt (7)%Z)]);
 ("data", VObj "OemData" [("comment", VList []);
 ("state_vector", VList [VObj "StateVectorAccType" [("epoch", VStr (lit "2007-09-15T10:43:00.000000"));
 ("x", VObj "PositionType" [("value", VDec (DFin false 1336886031675458%N (-12)%Z));
 ("units", VNone)]);
 ("y", VObj "PositionType" [("value", VDec (DFin false 9480146566872711%N (-11)%Z));
 ("units", VNone)]);
 ("z", VObj "PositionType" [("value", VDec (DFin false 3266088528177066%N (-11)%Z));
 ("units", VNone)]);
 ("x_dot", VObj "VelocityType" [("value", VDec (DFin true 6305293974707967%N (-16)%Z));
 ("units", VNone)]);
 ("y_dot", VObj "VelocityType" [("value", VDec (DFin false 1848864859994888%N (-15)%Z));
 ("units", VNone)]);
 ("z_dot", VObj "VelocityType" [("value", VDec (DFin false 9377640352829226%N (-16)%Z));
 ("units", VNone)]);
 ("x_ddot", VNone);
 ("y_ddot", VNone);
 ("z_ddot", VNone)]; VObj "StateVectorAccType" [("epoch", VStr (lit "2007-09-15T10:44:00.000000"));
 ("x", VObj "PositionType" [("value", VDec (DFin false 1299053338219702%N (-12)%Z));
 ("units", VNone)]);
 ("y", VObj "PositionType" [("value", VDec (DFin false 9491233015399727%N (-11)%Z));
 ("units", VNone)]);
 ("z", VObj "PositionType" [("value", VDec (DFin false 3271712789822781%N (-11)%Z));
 ("units", VNone)]);
 ("x_dot", VObj "VelocityType" [("value", VDec (DFin true 6305602161673365%N (-16)%Z));
 ("units", VNone)]);
 ("y_dot", VObj "VelocityType" [("value", VDec (DFin false 1846618917569059%N (-15)%Z));
 ("units", VNone)]);
 ("z_dot", VObj "VelocityType" [("value", VDec (DFin false 9369900978163187%N (-16)%Z));
 ("units", VNone)]);
 ("x_ddot", VNone);
 ("y_ddot", VNone);
 ("z_ddot", VNone)]; VObj "StateVectorAccType" [("epoch", VStr (lit "2007-09-15T10:45:00.000000"));
 ("x", VObj "PositionType" [("value", VDec (DFin false 1261218825877070%N (-12)%Z));
 ("units", VNone)]);
 ("y", VObj "PositionType" [("value", VDec (DFin false 9502306005072314%N (-11)%Z));
 ("units", VNone)]);
 ("z", VObj "PositionType" [("value", VDec (DFin false 3277332412355368%N (-11)%Z));
 ("units", VNone)]);
 ("x_dot", VObj "VelocityType" [("value", VDec (DFin true 6305900282238581%N (-16)%Z));
 ("units", VNone)]);
 ("y_dot", VObj "VelocityType" [("value", VDec (DFin false 1844378570838882%N (-15)%Z));
 ("units", VNone)]);
 ("z_dot", VObj "VelocityType" [("value", VDec (DFin false 9362176632629805%N (-16)%Z));
 ("units", VNone)]);
 ("x_ddot", VNone);
 ("y_ddot", VNone);
 ("z_ddot", VNone)]]);
 ("covariance_matrix", VList [VObj "OemCovarianceMatrixType" [("comment", VList []);
 ("epoch", VStr (lit "2007-09-15T10:43:00.000000"));
 ("cov_ref_frame", VNone);
 ("cx_x", VObj "PositionCovarianceType" [("value", VDec (DFin false 6023550580475148%N (-17)%Z));
 ("units", VNone)]);
 ("cy_x", VObj "PositionCovarianceType" [("value", VDec (DFin true 5303823832442239%N (-16)%Z));
 ("units", VNone)]);
 ("cy_y", VObj "PositionCovarianceType" [("value", VDec (DFin false 8131125239698378%N (-15)%Z));
 ("units", VNone)]);
 ("cz_x", VObj "PositionCovarianceType" [("value", VDec (DFin false 1692985781123953%N (-15)%Z));
 ("units", VNone)]);
 ("cz_y", VObj "PositionCovarianceType" [("value", VDec (DFin true 2594387304475676%N (-14)%Z));
 ("units", VNone)]);
 ("cz_z", VObj "PositionCovarianceType" [("value", VDec (DFin false 8278013851798794%N (-14)%Z));
 ("units", VNone)]);
 ("cx_dot_x", VObj "PositionVelocityCovarianceType" [("value", VDec (DFin false 1899585339691058%N (-20)%Z));
 ("units", VNone)]);
 ("cx_dot_y", VObj "PositionVelocityCovarianceType" [("value", VDec (DFin true 2739203713783577%N (-19)%Z));
 ("units", VNone)]);
 ("cx_dot_z", VObj "PositionVelocityCovarianceType" [("value", VDec (DFin false 8741529586701989%N (-19)%Z));
 ("units", VNone)]);
 ("cx_dot_x_dot", VObj "VelocityCovarianceType" [("value", VDec (DFin false 9337069105488550%N (-24)%Z));
 ("units", VNone)]);
 ("cy_dot_x", VObj "PositionVelocityCovarianceType" [("value", VDec (DFin true 2491780204561419%N (-20)%Z));
 ("units", VNone)]);
 ("cy_dot_y", VObj "PositionVelocityCovarianceType" [("value", VDec (DFin false 3755784234116975%N (-19)%Z));
 ("units", VNone)]);
 ("cy_dot_z", VObj "PositionVelocityCovarianceType" [("value", VDec (DFin true 1198502962098313%N (-18)%Z));
 ("units", VNone)]);
 ("cy_dot_x_dot", VObj "VelocityCovarianceType" [("value", VDec (DFin true 1270792663640218%N (-23)%Z));
 ("units", VNone)]);
 ("cy_dot_y_dot", VObj "VelocityCovarianceType" [("value", VDec (DFin false 1738477654632604%N (-23)%Z));
 ("units", VNone)]);
 ("cz_dot_x", VObj "PositionVelocityCovarianceType" [("value", VDec (DFin false 5869621506662873%N (-20)%Z));
 ("units", VNone)]);
 ("cz_dot_y", VObj "PositionVelocityCovarianceType" [("value", VDec (DFin true 8665799394197293%N (-19)%Z));
 ("units", VNone)]);
 ("cz_dot_z", VObj "PositionVelocityCovarianceType" [("value", VDec (DFin false 2765628830415862%N (-18)%Z));
 ("units", VNone)]);
 ("cz_dot_x_dot", VObj "VelocityCovarianceType" [("value", VDec (DFin false 2941783977902133%N (-23)%Z));
 ("units", VNone)]);
 ("cz_dot_y_dot", VObj "VelocityCovarianceType" [("value", VDec (DFin true 4017580005088106%N (-23)%Z));
 ("units", VNone)]);
 ("cz_dot_z_dot", VObj "VelocityCovarianceType" [("value", VDec (DFin false 9297767481547017%N (-23)%Z));
 ("units", VNone)])]; VObj "OemCovarianceMatrixType" [("comment", VList []);
 ("epoch", VStr (lit "2007-09-16T00:00:00.000000"));
 ("cov_ref_frame", VNone);
 ("cx_x", VObj "PositionCovarianceType" [("value", VDec (DFin false 3266088528126741%N (-14)%Z));
 ("units", VNone)]);
 ("cy_x", VObj "PositionCovarianceType" [("value", VDec (DFin true 3547065632325138%N (-14)%Z));
 ("units", VNone)]);
 ("cy_y", VObj "PositionCovarianceType" [("value", VDec (DFin false 6293245565237864%N (-14)%Z));
 ("units", VNone)]);
 ("cz_x", VObj "PositionCovarianceType" [("value", VDec (DFin false 9282114227544881%N (-14)%Z));
 ("units", VNone)]);
 ("cz_y", VObj "PositionCovarianceType" [("value", VDec (DFin true 1643887842962043%N (-13)%Z));
 ("units", VNone)]);
 ("cz_z", VObj "PositionCovarianceType" [("value", VDec (DFin false 4297088322158573%N (-13)%Z));
 ("units", VNone)]);
 ("cx_dot_x", VObj "PositionVelocityCovarianceType" [("value", VDec (DFin false 3657664254586662%N (-19)%Z));
 ("units", VNone)]);
 ("cx_dot_y", VObj "PositionVelocityCovarianceType" [("value", VDec (DFin true 6444800157747117%N (-19)%Z));
 ("units", VNone)]);
 ("cx_dot_z", VObj "PositionVelocityCovarianceType" [("value", VDec (DFin false 1685457847341212%N (-18)%Z));
 ("units", VNone)]);
 ("cx_dot_x_dot", VObj "VelocityCovarianceType" [("value", VDec (DFin false 6635422060524108%N (-24)%Z));
 ("units", VNone)]);
 ("cy_dot_x", VObj "PositionVelocityCovarianceType" [("value", VDec (DFin true 6305900286465505%N (-19)%Z));
 ("units", VNone)]);
 ("cy_dot_y", VObj "PositionVelocityCovarianceType" [("value", VDec (DFin false 6860671191818287%N (-19)%Z));
 ("units", VNone)]);
 ("cy_dot_z", VObj "PositionVelocityCovarianceType" [("value", VDec (DFin true 1792623768377453%N (-18)%Z));
 ("units", VNone)]);
 ("cy_dot_x_dot", VObj "VelocityCovarianceType" [("value", VDec (DFin true 7033874338507087%N (-24)%Z));
 ("units", VNone)]);
 ("cy_dot_y_dot", VObj "VelocityCovarianceType" [("value", VDec (DFin false 7481549541173892%N (-24)%Z));
 ("units", VNone)]);
 ("cz_dot_x", VObj "PositionVelocityCovarianceType" [("value", VDec (DFin false 8801128305671555%N (-19)%Z));
 ("units", VNone)]);
 ("cz_dot_y", VObj "PositionVelocityCovarianceType" [("value", VDec (DFin true 1552203789106341%N (-18)%Z));
 ("units", VNone)]);
 ("cz_dot_z", VObj "PositionVelocityCovarianceType" [("value", VDec (DFin false 4063125065557708%N (-18)%Z));
 ("units", VNone)]);
 ("cz_dot_x_dot", VObj "VelocityCovarianceType" [("value", VDec (DFin false 1596374470157680%N (-23)%Z));
 ("units", VNone)]);
 ("cz_dot_y_dot", VObj "VelocityCovarianceType" [("value", VDec (DFin true 1694018192348004%N (-23)%Z));
 ("units", VNone)]);
 ("cz_dot_z_dot", VObj "VelocityCovarianceType" [("value", VDec (DFin false 3853819786763772%N (-23)%Z));
 ("units", VNone)])]])])]])])].
(* ccsds_ndm/tests/data/kvn/odmv2-testcase7a_xxx.kvn *)
Definition kvn_odmv2_testcase7a_xxx : string := "CCSDS_OEM_VERS = 2.0  
COMMENT Orbit data are consistent with planetary ephemeris DE-405
COMMENT This file is modified for test purposes
CREATION_DATE  = 2009-03-11T13:58:24
ORIGINATOR     = ESOC                                    



META_START
OBJECT_NAME          = MARS EXPRESS                            
OBJECT_ID            = 41                                      
CENTER_NAME          = MARS                    
REF_FRAME            = EME2000 
TIME_SYSTEM          = TDB
START_TIME           = 2009-02-28T01:12:34.24599999            
STOP_TIME            = 2009-02-28T01:13:06.50800003            
INTERPOLATION        = HERMITE                                 
INTERPOLATION_DEGREE = 6
META_STOP
 
2009-02-28T01:12:34.24599999        6772.304461       -6299.615593        -388.914357   -0.861916    0.943711   -1.649613   -0.000366    0.000340    0.000021
2009-02-28T01:12:37.47219998        6769.521844       -6296.569222        -394.236229   -0.863096    0.944809   -1.649545   -0.000366    0.000340    0.000021
2009-02-28T01:12:40.69839998        6766.735419       -6293.519309        -399.557882   -0.864277    0.945907   -1.649477   -0.000366    0.000341    0.000021
2009-02-28T01:12:43.92459993        6763.945182       -6290.465851        -404.879311   -0.865459    0.947006   -1.649407   -0.000367    0.000341    0.000022
2009-02-28T01:12:47.15079992        6761.151129       -6287.408846        -410.200514   -0.866642    0.948106   -1.649336   -0.000367    0.000341    0.000022
2009-02-28T01:12:50.37699991        6758.353258       -6284.348289        -415.521487   -0.867826    0.949207   -1.649264   -0.000367    0.000341    0.000022
2009-02-28T01:12:53.60319991        6755.551566       -6281.284180        -420.842227   -0.869011    0.950309   -1.649192   -0.000367    0.000342    0.000023
2009-02-28T01:12:56.82939990        6752.746049       -6278.216514        -426.162730   -0.870197    0.951412   -1.649118   -0.000368    0.000342    0.000023
2009-02-28T01:13:00.05559985        6749.936703       -6275.145290        -431.482994   -0.871385    0.952515   -1.649043   -0.000368    0.000342    0.000023
2009-02-28T01:13:03.28179984        6747.123526       -6272.070504        -436.803015   -0.872573    0.953620   -1.648967   -0.000368    0.000342    0.000024
2009-02-28T01:13:06.50800003        6744.306514       -6268.992153        -442.122790   -0.873762    0.954725   -1.648890   -0.000369    0.000343    0.000024
  

META_START
OBJECT_NAME          = MARS EXPRESS                            
OBJECT_ID            = 41                                      
CENTER_NAME          = MARS                    
REF_FRAME            = EME2000 
TIME_SYSTEM          = TDB
START_TIME           = 2009-02-28T01:13:06.50800003            
STOP_TIME            = 2009-02-28T01:20:04.71258863
INTERPOLATION        = HERMITE                                 
INTERPOLATION_DEGREE = 6
META_STOP
 
2009-02-28T01:13:06.50800003        6744.306514       -6268.992153        -442.122790   -0.873762    0.954725   -1.648890   -0.000369    0.000343    0.000024
2009-02-28T01:13:54.81731707        6701.663561       -6222.468563        -521.749682   -0.891690    0.971379   -1.647614   -0.000373    0.000347    0.000029
2009-02-28T01:14:42.63603598        6658.595255       -6175.620482        -600.501542   -0.909664    0.988057   -1.646113   -0.000378    0.000351    0.000034
2009-02-28T01:15:29.99757929        6615.086059       -6128.429569        -678.424026   -0.927696    1.004770   -1.644384   -0.000383    0.000355    0.000039
2009-02-28T01:16:16.90448986        6571.147412       -6080.906940        -755.512075   -0.945783    1.021515   -1.642427   -0.000388    0.000359    0.000044
2009-02-28T01:17:03.35937011        6526.790684       -6033.063621        -831.760929   -0.963925    1.038293   -1.640237   -0.000393    0.000363    0.000050
2009-02-28T01:17:49.36487936        6482.027175       -5984.910553        -907.166121   -0.982120    1.055100   -1.637814   -0.000398    0.000367    0.000055
2009-02-28T01:18:34.92373210        6436.868114       -5936.458582        -981.723476   -1.000368    1.071937   -1.635155   -0.000403    0.000372    0.000061
2009-02-28T01:19:20.03869576        6391.324652       -5887.718458       -1055.429104   -1.018666    1.088802   -1.632259   -0.000408    0.000376    0.000067
2009-02-28T01:20:04.71258863        6345.407863       -5838.700835       -1128.279398   -1.037015    1.105694   -1.629122   -0.000413    0.000380    0.000073


META_START
OBJECT_NAME          = MARS EXPRESS
OBJECT_ID            = 41
CENTER_NAME          = MARS
REF_FRAME            = EME2000
TIME_SYSTEM          = TDB
START_TIME           = 2009-02-28T01:20:04.71258863
STOP_TIME            = 2009-02-28T01:27:47.86555845
INTERPOLATION        = HERMITE
INTERPOLATION_DEGREE = 6
META_STOP

2009-02-28T01:20:04.71258863        6345.407863       -5838.700835       -1128.279398   -1.037015    1.105694   -1.629122   -0.000413    0.000380    0.000073
2009-02-28T01:20:48.94827766        6299.128734       -5789.416264       -1200.271026   -1.055412    1.122610   -1.625744   -0.000418    0.000385    0.000080
2009-02-28T01:21:32.74867667        6252.498171       -5739.875196       -1271.400931   -1.073856    1.139550   -1.622121   -0.000424    0.000389    0.000086
2009-02-28T01:22:16.11674404        6205.526989       -5690.087975       -1341.666324   -1.092346    1.156513   -1.618252   -0.000429    0.000393    0.000093
2009-02-28T01:22:59.05548103        6158.225914       -5640.064839       -1411.064680   -1.110881    1.173496   -1.614135   -0.000434    0.000398    0.000099
2009-02-28T01:23:41.56792945        6110.605575       -5589.815916       -1479.593732   -1.129458    1.190498   -1.609768   -0.000440    0.000402    0.000106
2009-02-28T01:24:23.65717007        6062.676508       -5539.351223       -1547.251468   -1.148077    1.207518   -1.605148   -0.000445    0.000407    0.000113
2009-02-28T01:25:05.32632046        6014.449150       -5488.680665       -1614.036125   -1.166736    1.224555   -1.600274   -0.000451    0.000411    0.000121
2009-02-28T01:25:46.57853330        5965.933837       -5437.814031       -1679.946188   -1.185433    1.241605   -1.595143   -0.000456    0.000416    0.000128
2009-02-28T01:26:27.41699428        5917.140802       -5386.760996       -1744.980379   -1.204167    1.258668   -1.589753   -0.000461    0.000420    0.000136
2009-02-28T01:27:07.84492046        5868.080173       -5335.531114       -1809.137656   -1.222936    1.275743   -1.584103   -0.000467    0.000425    0.000144
2009-02-28T01:27:47.86555845        5818.761973       -5284.133823       -1872.417208   -1.241739    1.292827   -1.578189   -0.000473    0.000429    0.000152
".
(* ccsds_ndm/tests/data/kvn/odmv2-testcase7a_xxx.xml *)
Definition obj_odmv2_testcase7a_xxx : pyval :=
 VObj "Oem" [("header", VObj "NdmHeader" [("comment", VList [VStr (lit "Orbit data are consistent with planetary ephemeris DE-405"); VStr (lit "This file is modified for test purposes")]);
 ("creation_date", VStr (lit "2009-03-11T13:58:24"));
 ("originator", VStr (lit "ESOC"))]);
 ("body", VObj "OemBody" [("segment", VList [VObj "OemSegment" [("metadata", VObj "OemMetadata" [("comment", VList []);
 ("object_name", VStr (lit "MARS EXPRESS"));
 ("object_id", VStr (lit "41"));
 ("center_name", VStr (lit "MARS"));
 ("ref_frame", VStr (lit "EME2000"));
 ("ref_frame_epoch", VNone);
 ("time_system", VStr (lit "TDB"));
 ("start_time", VStr (lit "2009-02-28T01:12:34.24599999"));
 ("useable_start_time", VNone);
 ("useable_stop_time", VNone);
 ("stop_time", VStr (lit "2009-02-28T01:13:06.50800003"));
 ("interpolation", VStr (lit "HERMITE"));
 ("interpolation_degree", VInt (6)%Z)]);
 ("data", VObj "OemData" [("comment", VList []);
 ("state_vector", VList [VObj "StateVectorAccType" [("epoch", VStr (lit "2009-02-28T01:12:34.24599999"));
 ("x", VObj "PositionType" [("value", VDec (DFin false 6772304461%N (-6)%Z));
 ("units", VNone)]);
 ("y", VObj "PositionType" [("value", VDec (DFin true 6299615593%N (-6)%Z));
 ("units", VNone)]);
 ("z", VObj "PositionType" [("value", VDec (DFin true 388914357%N (-6)%Z));
 ("units", VNone)]);
 ("x_dot", VObj "VelocityType" [("value", VDec (DFin true 861916%N (-6)%Z));
 ("units", VNone)]);
 ("y_dot", VObj "VelocityType" [("value", VDec (DFin false 943711%N (-6)%Z));
 ("units", VNone)]);
 ("z_dot", VObj "VelocityType" [("value", VDec (DFin true 1649613%N (-6)%Z));
 ("units", VNone)]);
 ("x_ddot", VObj "AccType" [("value", VDec (DFin true 366%N (-6)%Z));
 ("units", VNone)]);
 ("y_ddot", VObj "AccType" [("value", VDec (DFin false 340%N (-6)%Z));
 ("units", VNone)]);
 ("z_ddot", VObj "AccType" [("value", VDec (DFin false 21%N (-6)%Z));
 ("units", VNone)])]; VObj "StateVectorAccType" [("epoch", VStr (lit "2009-02-28T01:12:37.47219998"));
 ("x", VObj "PositionType" [("value", VDec (DFin false 6769521844%N (-6)%Z));
 ("units", VNone)]);
 ("y", VObj "PositionType" [("value", VDec (DFin true 6296569222%N (-6)%Z));
 ("units", VNone)]);
 ("z", VObj "PositionType" [("value", VDec (DFin true 394236229%N (-6)%Z));
 ("units", VNone)]);
 ("x_dot", VObj "VelocityType" [("value", VDec (DFin true 863096%N (-6)%Z));
 ("units", VNone)]);
 ("y_dot", VObj "VelocityType" [("value", VDec (DFin false 944809%N (-6)%Z));
 ("units", VNone)]);
 ("z_dot", VObj "VelocityType" [("value", VDec (DFin true 1649545%N (-6)%Z));
 ("units", VNone)]);
 ("x_ddot", VObj "AccType" [("value", VDec (DFin true 366%N (-6)%Z));
 ("units", VNone)]);
 ("y_ddot", VObj "AccType" [("value", VDec (DFin false 340%N (-6)%Z));
 ("units", VNone)]);
 ("z_ddot", VObj "AccType" [("value", VDec (DFin false 21%N (-6)%Z));
 ("units", VNone)])]; VObj "StateVectorAccType" [("epoch", VStr (lit "2009-02-28T01:12:40.69839998"));
 ("x", VObj "PositionType" [("value", VDec (DFin false 6766735419%N (-6)%Z));
 ("units", VNone)]);
 ("y", VObj "PositionType" [("value", VDec (DFin true 6293519309%N (-6)%Z));
 ("units", VNone)]);
 ("z", VObj "PositionType" [("value", VDec (DFin true 399557882%N (-6)%Z));
 ("units", VNone)]);
 ("x_dot", VObj "VelocityType" [("value", VDec (DFin true 864277%N (-6)%Z));
 ("units", VNone)]);
 ("y_dot", VObj "VelocityType" [("value", VDec (DFin false 945907%N (-6)%Z));
 ("units", VNone)]);
 ("z_dot", VObj "VelocityType" [("value", VDec (DFin true 1649477%N (-6)%Z));
 ("units", VNone)]);
 ("x_ddot", VObj "AccType" [("value", VDec (DFin true 366%N (-6)%Z));
 ("units", VNone)]);
 ("y_ddot", VObj "AccType" [("value", VDec (DFin false 341%N (-6)%Z));
 ("units", VNone)]);
 ("z_ddot", VObj "AccType" [("value", VDec (DFin false 21%N (-6)%Z));
 ("units", VNone)])]; VObj "StateVectorAccType" [("epoch", VStr (lit "2009-02-28T01:12:43.92459993"));
 ("x", VObj "PositionType" [("value", VDec (DFin false 6763945182%N (-6)%Z));
 ("units", VNone)]);
 ("y", VObj "PositionType" [("value", VDec (DFin true 6290465851%N (-6)%Z));
 ("units", VNone)]);
 ("z", VObj "PositionType" [("value", VDec (DFin true 404879311%N (-6)%Z));
 ("units", VNone)]);
 ("x_dot", VObj "VelocityType" [("value", VDec (DFin true 865459%N (-6)%Z));
 ("units", VNone)]);
 ("y_dot", VObj "VelocityType" [("value", VDec (DFin false 947006%N (-6)%Z));
 ("units", VNone)]);
 ("z_dot", VObj "VelocityType" [("value", VDec (DFin true 1649407%N (-6)%Z));
 ("units", VNone)]);
 ("x_ddot", VObj "AccType" [("value", VDec (DFin true 367%N (-6)%Z));
 ("units", VNone)]);
 ("y_ddot", VObj "AccType" [("value", VDec (DFin false 341%N (-6)%Z));
 ("units", VNone)]);
 ("z_ddot", VObj "AccType" [("value", VDec (DFin false 22%N (-6)%Z));
 ("units", VNone)])]; VObj "StateVectorAccType" [("epoch", VStr (lit "2009-02-28T01:12:47.15079992"));
 ("x", VObj "PositionType" [("value", VDec (DFin false 6761151129%N (-6)%Z));
 ("units", VNone)]);
 ("y", VObj "PositionType" [("value", VDec (DFin true 6287408846%N (-6)%Z));
 ("units", VNone)]);
 ("z", VObj "PositionType" [("value", VDec (DFin true 410200514%N (-6)%Z));
 ("units", VNone)]);
 ("x_dot", VObj "VelocityType" [("value", VDec (DFin true 866642%N (-6)%Z));
 ("units", VNone)]);
 ("y_dot", VObj "VelocityType" [("value", VDec (DFin false 948106%N (-6)%Z));
 ("units", VNone)]);
 ("z_dot", VObj "VelocityType" [("value", VDec (DFin true 1649336%N (-6)%Z));
 ("units", VNone)]);
 ("x_ddot", VObj "AccType" [("value", VDec (DFin true 367%N (-6)%Z));
 ("units", VNone)]);
 ("y_ddot", VObj "AccType" [("value", VDec (DFin false 341%N (-6)%Z));
 ("units", VNone)]);
 ("z_ddot", VObj "AccType" [("value", VDec (DFin false 22%N (-6)%Z));
 ("units", VNone)])]; VObj "StateVectorAccType" [("epoch", VStr (lit "2009-02-28T01:12:50.37699991"));
 ("x", VObj "PositionType" [("value", VDec (DFin false 6758353258%N (-6)%Z));
 ("units", VNone)]);
 ("y", VObj "PositionType" [("value", VDec (DFin true 6284348289%N (-6)%Z));
 ("units", VNone)]);
 ("z", VObj "PositionType" [("value", VDec (DFin true 415521487%N (-6)%Z));
 ("units", VNone)]);
 ("x_dot", VObj "VelocityType" [("value", VDec (DFin true 867826%N (-6)%Z));
 ("units", VNone)]);
 ("y_dot", VObj "VelocityType" [("value", VDec (DFin false 949207%N (-6)%Z));
 ("units", VNone)]);
 ("z_dot", VObj "VelocityType" [("value", VDec (DFin true 1649264%N (-6)%Z));
 ("units", VNone)]);
 ("x_ddot", VObj "AccType" [("value", VDec (DFin true 367%N (-6)%Z));
 ("units", VNone)]);
 ("y_ddot", VObj "AccType" [("value", VDec (DFin false 341%N (-6)%Z));
 ("units", VNone)]);
 ("z_ddot", VObj "AccType" [("value", VDec (DFin false 22%N (-6)%Z));
 ("units", VNone)])]; VObj "StateVectorAccType" [("epoch", VStr (lit "2009-02-28T01:12:53.60319991"));
 ("x", VObj "PositionType" [("value", VDec (DFin false 6755551566%N (-6)%Z));
 ("units", VNone)]);
 ("y", VObj "PositionType" [("value", VDec (DFin true 6281284180%N (-6)%Z));
 ("units", VNone)]);
 ("z", VObj "PositionType" [("value", VDec (DFin true 420842227%N (-6)%Z));
 ("units", VNone)]);
 ("x_dot", VObj "VelocityType" [("value", VDec (DFin true 869011%N (-6)%Z));
 ("units", VNone)]);
 ("y_dot", VObj "VelocityType" [("value", VDec (DFin false 950309%N (-6)%Z));
 ("units", VNone)]);
 ("z_dot", VObj "VelocityType" [("value", VDec (DFin true 1649192%N (-6)%Z));
 ("units", VNone)]);
 ("x_ddot", VObj "AccType" [("value", VDec (DFin true 367%N (-6)%Z));
 ("units", VNone)]);
 ("y_ddot", VObj "AccType" [("value", VDec (DFin false 342%N (-6)%Z));
 ("units", VNone)]);
 ("z_ddot", VObj "AccType" [("value", VDec (DFin false 23%N (-6)%Z));
 ("units", VNone)])]; VObj "StateVectorAccType" [("epoch", VStr (lit "2009-02-28T01:12:56.82939990"));
 ("x", VObj "PositionType" [("value", VDec (DFin false 6752746049%N (-6)%Z));
 ("units", VNone)]);
 ("y", VObj "PositionType" [("value", VDec (DFin true 6278216514%N (-6)%Z));
 ("units", VNone)]);
 ("z", VObj "PositionType" [("value", VDec (DFin true 426162730%N (-6)%Z));
 ("units", VNone)]);
 ("x_dot", VObj "VelocityType" [("value", VDec (DFin true 870197%N (-6)%Z));
 ("units", VNone)]);
 ("y_dot", VObj "VelocityType" [("value", VDec (DFin false 951412%N (-6)%Z));
 ("units", VNone)]);
 ("z_dot", VObj "VelocityType" [("value", VDec (DFin true 1649118%N (-6)%Z));
 ("units", VNone)]);
 ("x_ddot", VObj "AccType" [("value", VDec (DFin true 368%N (-6)%Z));
 ("units", VNone)]);
 ("y_ddot", VObj "AccType" [("value", VDec (DFin false 342%N (-6)%Z));
 ("units", VNone)]);
 ("z_ddot", VObj "AccType" [("value", VDec (DFin false 23%N (-6)%Z));
 ("units", VNone)])]; VObj "StateVectorAccType" [("epoch", VStr (lit "2009-02-28T01:13:00.05559985"));
 ("x", VObj "PositionType" [("value", VDec (DFin false 6749936703%N (-6)%Z));
 ("units", VNone)]);
 ("y", VObj "PositionType" [("value", VDec (DFin true 6275145290%N (-6)%Z));
 ("units", VNone)]);
 ("z", VObj "PositionType" [("value", VDec (DFin true 431482994%N (-6)%Z));
 ("units", VNone)]);
 ("x_dot", VObj "VelocityType" [("value", VDec (DFin true 871385%N (-6)%Z));
 ("units", VNone)]);
 ("y_dot", VObj "VelocityType" [("value", VDec (DFin false 952515%N (-6)%Z));
 ("units", VNone)]);
 ("z_dot", VObj "VelocityType" [("value", VDec (DFin true 1649043%N (-6)%Z));
 ("units", VNone)]);
 ("x_ddot", VObj "AccType" [("value", VDec (DFin true 368%N (-6)%Z));
 ("units", VNone)]);
 ("y_ddot", VObj "AccType" [("value", VDec (DFin false 342%N (-6)%Z));
 ("units", VNone)]);
 ("z_ddot", VObj "AccType" [("value", VDec (DFin false 23%N (-6)%Z));
 ("units", VNone)])]; VObj "StateVectorAccType" [("epoch", VStr (lit "2009-02-28T01:13:03.28179984"));
 ("x", VObj "PositionType" [("value", VDec (DFin false 6747123526%N (-6)%Z));
 ("units", VNone)]);
 ("y", VObj "PositionType" [("value", VDec (DFin true 6272070504%N (-6)%Z));
 ("units", VNone)]);
 ("z", VObj "PositionType" [("value", VDec (DFin true 436803015%N (-6)%Z));
 ("units", VNone)]);
 ("x_dot", VObj "VelocityType" [("value", VDec (DFin true 872573%N (-6)%Z));
 ("units", VNone)]);
 ("y_dot", VObj "VelocityType" [("value", VDec (DFin false 953620%N (-6)%Z));
 ("units", VNone)]);
 ("z_dot", VObj "VelocityType" [("value", VDec (DFin true 1648967%N (-6)%Z));
 ("units", VNone)]);
 ("x_ddot", VObj "AccType" [("value", VDec (DFin true 368%N (-6)%Z));
 ("units", VNone)]);
 ("y_ddot", VObj "AccType" [("value", VDec (DFin false 342%N (-6)%Z));
 ("units", VNone)]);
 ("z_ddot", VObj "AccType" [("value", VDec (DFin false 24%N (-6)%Z));
 ("units", VNone)])]; VObj "StateVectorAccType" [("epoch", VStr (lit "2009-02-28T01:13:06.50800003"));
 ("x", VObj "PositionType" [("value", VDec (DFin false 6744306514%N (-6)%Z));
 ("units", VNone)]);
 ("y", VObj "PositionType" [("value", VDec (DFin true 6268992153%N (-6)%Z));
 ("units", VNone)]);
 ("z", VObj "PositionType" [("value", VDec (DFin true 442122790%N (-6)%Z));
 ("units", VNone)]);
 ("x_dot", VObj "VelocityType" [("value", VDec (DFin true 873762%N (-6)%Z));
 ("units", VNone)]);
 ("y_dot", VObj "VelocityType" [("value", VDec (DFin false 954725%N (-6)%Z));
 ("units", VNone)]);
 ("z_dot", VObj "VelocityType" [("value", VDec (DFin true 1648890%N (-6)%Z));
 ("units", VNone)]);
 ("x_ddot", VObj "AccType" [("value", VDec (DFin true 369%N (-6)%Z));
 ("units", VNone)]);
 ("y_ddot", VObj "AccType" [("value", VDec (DFin false 343%N (-6)%Z));
 ("units", VNone)]);
 ("z_ddot", VObj "AccType" [("value", VDec (DFin false 24%N (-6)%Z));
 ("units", VNone)])]]);
 ("covariance_matrix", VList [])])]; VObj "OemSegment" [("metadata", VObj "OemMetadata" [("comment", VList []);
 ("object_name", VStr (lit "MARS EXPRESS"));
 ("object_id", VStr (lit "41"));
 ("center_name", VStr (lit "MARS"));
 ("ref_frame", VStr (lit "EME2000"));
 ("ref_frame_epoch", VNone);
 ("time_system", VStr (lit "TDB"));
 ("start_time", VStr (lit "2009-02-28T01:13:06.50800003"));
 ("useable_start_time", VNone);
 ("useable_stop_time", VNone);
 ("stop_time", VStr (lit "2009-02-28T01:20:04.71258863"));
 ("interpolation", VStr (lit "HERMITE"));
 ("interpolation_degree", VInt (6)%Z)]);
 ("data", VObj "OemData" [("comment", VList []);
 ("state_vector", VList [VObj "StateVectorAccType" [("epoch", VStr (lit "2009-02-28T01:13:06.50800003"));
 ("x", VObj "PositionType" [("value", VDec (DFin false 6744306514%N (-6)%Z));
 ("units", VNone)]);
 ("y", VObj "PositionType" [("value", VDec (DFin true 6268992153%N (-6)%Z));
 ("units", VNone)]);
 ("z", VObj "PositionType" [("value", VDec (DFin true 442122790%N (-6)%Z));
 ("units", VNone)]);
 ("x_dot", VObj "VelocityType" [("value", VDec (DFin true 873762%N (-6)%Z));
 ("units", VNone)]);
 ("y_dot", VObj "VelocityType" [("value", VDec (DFin false 954725%N (-6)%Z));
 ("units", VNone)]);
 ("z_dot", VObj "VelocityType" [("value", VDec (DFin true 1648890%N (-6)%Z));
 ("units", VNone)]);
 ("x_ddot", VObj "AccType" [("value", VDec (DFin true 369%N (-6)%Z));
 ("units", VNone)]);
 ("y_ddot", VObj "AccType" [("value", VDec (DFin false 343%N (-6)%Z));
 ("units", VNone)]);
 ("z_ddot", VObj "AccType" [("value", VDec (DFin false 24%N (-6)%Z));
 ("units", VNone)])]; VObj "StateVectorAccType" [("epoch", VStr (lit "2009-02-28T01:13:54.81731707"));
 ("x", VObj "PositionType" [("value", VDec (DFin false 6701663561%N (-6)%Z));
 ("units", VNone)]);
 ("y", VObj "PositionType" [("value", VDec (DFin true 6222468563%N (-6)%Z));
 ("units", VNone)]);
 ("z", VObj "PositionType" [("value", VDec (DFin true 521749682%N (-6)%Z));
 ("units", VNone)]);
 ("x_dot", VObj "VelocityType" [("value", VDec (DFin true 891690%N (-6)%Z));
 ("units", VNone)]);
 ("y_dot", VObj "VelocityType" [("value", VDec (DFin false 971379%N (-6)%Z));
 ("units", VNone)]);
 ("z_dot", VObj "VelocityType" [("value", VDec (DFin true 1647614%N (-6)%Z));
 ("units", VNone)]);
 ("x_ddot", VObj "AccType" [("value", VDec (DFin true 373%N (-6)%Z));
 ("units", VNone)]);
 ("y_ddot", VObj "AccType" [("value", VDec (DFin false 347%N (-6)%Z));
 ("units", VNone)]);
 ("z_ddot", VObj "AccType" [("value", VDec (DFin false 29%N (-6)%Z));
 ("units", VNone)])]; VObj "StateVectorAccType" [("epoch", VStr (lit "2009-02-28T01:14:42.63603598"));
 ("x", VObj "PositionType" [("value", VDec (DFin false 6658595255%N (-6)%Z));
 ("units", VNone)]);
 ("y", VObj "PositionType" [("value", VDec (DFin true 6175620482%N (-6)%Z));
 ("units", VNone)]);
 ("z", VObj "PositionType" [("value", VDec (DFin true 600501542%N (-6)%Z));
 ("units", VNone)]);
 ("x_dot", VObj "VelocityType" [("value", VDec (DFin true 909664%N (-6)%Z));
 ("units", VNone)]);
 ("y_dot", VObj "VelocityType" [("value", VDec (DFin false 988057%N (-6)%Z));
 ("units", VNone)]);
 ("z_dot", VObj "VelocityType" [("value", VDec (DFin true 1646113%N (-6)%Z));
 ("units", VNone)]);
 ("x_ddot", VObj "AccType" [("value", VDec (DFin true 378%N (-6)%Z));
 ("units", VNone)]);
 ("y_ddot", VObj "AccType" [("value", VDec (DFin false 351%N (-6)%Z));
 ("units", VNone)]);
 ("z_ddot", VObj "AccType" [("value", VDec (DFin false 34%N (-6)%Z));
 ("units", VNone)])]; VObj "StateVectorAccType" [("epoch", VStr (lit "2009-02-28T01:15:29.99757929"));
 ("x", VObj "PositionType" [("value", VDec (DFin false 6615086059%N (-6)%Z));
 ("units", VNone)]);
 ("y", VObj "PositionType" [("value", VDec (DFin true 6128429569%N (-6)%Z));
 ("units", VNone)]);
 ("z", VObj "PositionType" [("value", VDec (DFin true 678424026%N (-6)%Z));
 ("units", VNone)]);
 ("x_dot", VObj "VelocityType" [("value", VDec (DFin true 927696%N (-6)%Z));
 ("units", VNone)]);
 ("y_dot", VObj "VelocityType" [("value", VDec (DFin false 1004770%N (-6)%Z));
 ("units", VNone)]);
 ("z_dot", VObj "VelocityType" [("value", VDec (DFin true 1644384%N (-6)%Z));
 ("units", VNone)]);
 ("x_ddot", VObj "AccType" [("value", VDec (DFin true 383%N (-6)%Z));
 ("units", VNone)]);
 ("y_ddot", VObj "AccType" [("value", VDec (DFin false 355%N (-6)%Z));
 ("units", VNone)]);
 ("z_ddot", VObj "AccType" [("value", VDec (DFin false 39%N (-6)%Z));
 ("units", VNone)])]; VObj "StateVectorAccType" [("epoch", VStr (lit "2009-02-28T01:16:16.90448986"));
 ("x", VObj "PositionType" [("value", VDec (DFin false 6571147412%N (-6)%Z));
 ("units", VNone)]);
 ("y", VObj "PositionType" [("value", VDec (DFin true 6080906940%N (-6)%Z));
 ("units", VNone)]);
 ("z", VObj "PositionType" [("value", VDec (DFin true 755512075%N (-6)%Z));
 ("units", VNone)]);
 ("x_dot", VObj "VelocityType" [("value", VDec (DFin true 945783%N (-6)%Z));
 ("units", VNone)]);
 ("y_dot", VObj "VelocityType" [("value", VDec (DFin false 1021515%N (-6)%Z));
 ("units", VNone)]);
 ("z_dot", VObj "VelocityType" [("value", VDec (DFin true 1642427%N (-6)%Z));
 ("units", VNone)]);
 ("x_ddot", VObj "AccType" [("value", VDec (DFin true 388%N (-6)%Z));
 ("units", VNone)]);
 ("y_ddot", VObj "AccType" [("value", VDec (DFin false 359%N (-6)%Z));
 ("units", VNone)]);
 ("z_ddot", VObj "AccType" [("value", VDec (DFin false 44%N (-6)%Z));
 ("units", VNone)])]; VObj "StateVectorAccType" [("epoch", VStr (lit "2009-02-28T01:17:03.35937011"));
 ("x", VObj "PositionType" [("value", VDec (DFin false 6526790684%N (-6)%Z));
 ("units", VNone)]);
 ("y", VObj "PositionType" [("value", VDec (DFin true 6033063621%N (-6)%Z));
 ("units", VNone)]);
 ("z", VObj "PositionType" [("value", VDec (DFin true 831760929%N (-6)%Z));
 ("units", VNone)]);
 ("x_dot", VObj "VelocityType" [("value", VDec (DFin true 963925%N (-6)%Z));
 ("units", VNone)]);
 ("y_dot", VObj "VelocityType" [("value", VDec (DFin false 1038293%N (-6)%Z));
 ("units", VNone)]);
 ("z_dot", VObj "VelocityType" [("value", VDec (DFin true 1640237%N (-6)%Z));
 ("units", VNone)]);
 ("x_ddot", VObj "AccType" [("value", VDec (DFin true 393%N (-6)%Z));
 ("units", VNone)]);
 ("y_ddot", VObj "AccType" [("value", VDec (DFin false 363%N (-6)%Z));
 ("units", VNone)]);
 ("z_ddot", VObj "AccType" [("value", VDec (DFin false 50%N (-6)%Z));
 ("units", VNone)])]; VObj "StateVectorAccType" [("epoch", VStr (lit "2009-02-28T01:17:49.36487936"));
 ("x", VObj "PositionType" [("value", VDec (DFin false 6482027175%N (-6)%Z));
 ("units", VNone)]);
 ("y", VObj "PositionType" [("value", VDec (DFin true 5984910553%N (-6)%Z));
 ("units", VNone)]);
 ("z", VObj "PositionType" [("value", VDec (DFin true 907166121%N (-6)%Z));
 ("units", VNone)]);
 ("x_dot", VObj "VelocityType" [("value", VDec (DFin true 982120%N (-6)%Z));
 ("units", VNone)]);
 ("y_dot", VObj "VelocityType" [("value", VDec (DFin false 1055100%N (-6)%Z));
 ("units", VNone)]);
 ("z_dot", VObj "VelocityType" [("value", VDec (DFin true 1637814%N (-6)%Z));
 ("units", VNone)]);
 ("x_ddot", VObj "AccType" [("value", VDec (DFin true 398%N (-6)%Z));
 ("units", VNone)]);
 ("y_ddot", VObj "AccType" [("value", VDec (DFin false 367%N (-6)%Z));
 ("units", VNone)]);
 ("z_ddot", VObj "AccType" [("value", VDec (DFin false 55%N (-6)%Z));
 ("units", VNone)])]; VObj "StateVectorAccType" [("epoch", VStr (lit "2009-02-28T01:18:34.92373210"));
 ("x", VObj "PositionType" [("value", VDec (DFin false 6436868114%N (-6)%Z));
 ("units", VNone)]);
 ("y", VObj "PositionType" [("value", VDec (DFin true 5936458582%N (-6)%Z));
 ("units", VNone)]);
 ("z", VObj "PositionType" [("value", VDec (DFin true 981723476%N (-6)%Z));
 ("units", VNone)]);
 ("x_dot", VObj "VelocityType" [("value", VDec (DFin true 1000368%N (-6)%Z));
 ("units", VNone)]);
 ("y_dot", VObj "VelocityType" [("value", VDec (DFin false 1071937%N (-6)%Z));
 ("units", VNone)]);
 ("z_dot", VObj "VelocityType" [("value", VDec (DFin true 1635155%N (-6)%Z));
 ("units", VNone)]);
 ("x_ddot", VObj "AccType" [("value", VDec (DFin true 403%N (-6)%Z));
 ("units", VNone)]);
 ("y_ddot", VObj "AccType" [("value", VDec (DFin false 372%N (-6)%Z));
 ("units", VNone)]);
 ("z_ddot", VObj "AccType" [("value", VDec (DFin false 61%N (-6)%Z));
 ("units", VNone)])]; VObj "StateVectorAccType" [("epoch", VStr (lit "2009-02-28T01:19:20.03869576"));
 ("x", VObj "PositionType" [("value", VDec (DFin false 6391324652%N (-6)%Z));
 ("units", VNone)]);
 ("y", VObj "PositionType" [("value", VDec (DFin true 5887718458%N (-6)%Z));
 ("units", VNone)]);
 ("z", VObj "PositionType" [("value", VDec (DFin true 1055429104%N (-6)%Z));
 ("units", VNone)]);
 ("x_dot", VObj "VelocityType" [("value", VDec (DFin true 1018666%N (-6)%Z));
 ("units", VNone)]);
 ("y_dot", VObj "VelocityType" [("value", VDec (DFin false 1088802%N (-6)%Z));
 ("units", VNone)]);
 ("z_dot", VObj "VelocityType" [("value", VDec (DFin true 1632259%N (-6)%Z));
 ("units", VNone)]);
 ("x_ddot", VObj "AccType" [("value", VDec (DFin true 408%N (-6)%Z));
 ("units", VNone)]);
 ("y_ddot", VObj "AccType" [("value", VDec (DFin false 376%N (-6)%Z));
 ("units", VNone)]);
 ("z_ddot", VObj "AccType" [("value", VDec (DFin false 67%N (-6)%Z));
 ("units", VNone)])]; VObj "StateVectorAccType" [("epoch", VStr (lit "2009-02-28T01:20:04.71258863"));
 ("x", VObj "PositionType" [("value", VDec (DFin false 6345407863%N (-6)%Z));
 ("units", VNone)]);
 ("y", VObj "PositionType" [("value", VDec (DFin true 5838700835%N (-6)%Z));
 ("units", VNone)]);
 ("z", VObj "PositionType" [("value", VDec (DFin true 1128279398%N (-6)%Z));
 ("units", VNone)]);
 ("x_dot", VObj "VelocityType" [("value", VDec (DFin true 1037015%N (-6)%Z));
 ("units", VNone)]);
 ("y_dot", VObj "VelocityType" [("value", VDec (DFin false 1105694%N (-6)%Z));
 ("units", VNone)]);
 ("z_dot", VObj "VelocityType" [("value", VDec (DFin true 1629122%N (-6)%Z));
 ("units", VNone)]);
 ("x_ddot", VObj "AccType" [("value", VDec (DFin true 413%N (-6)%Z));
 ("units", VNone)]);
 ("y_ddot", VObj "AccType" [("value", VDec (DFin false 380%N (-6)%Z));
 ("units", VNone)]);
 ("z_ddot", VObj "AccType" [("value", VDec (DFin false 73%N (-6)%Z));
 ("units", VNone)])]]);
 ("covariance_matrix", VList [])])]; VObj "OemSegment" [("metadata", VObj "OemMetadata" [("comment", VList []);
 ("object_name", VStr (lit "MARS EXPRESS"));
 ("object_id", VStr (lit "41"));
 ("center_name", VStr (lit "MARS"));
 ("ref_frame", VStr (lit "EME2000"));
 ("ref_frame_epoch", VNone);
 ("time_system", VStr (lit "TDB"));
 ("start_time", VStr (lit "2009-02-28T01:20:04.71258863"));
 ("useable_start_time", VNone);
 ("useable_stop_time", VNone);
 ("stop_time", VStr (lit "2009-02-28T01:27:47.86555845"));
 ("interpolation", VStr (lit "HERMITE"));
 ("interpolation_degree", VInt (6)%Z)]);
 ("data", VObj "OemData" [("comment", VList []);
 ("state_vector", VList [VObj "StateVectorAccType" [("epoch", VStr (lit "2009-02-28T01:20:04.71258863"));
 ("x", VObj "PositionType" [("value", VDec (DFin false 6345407863%N (-6)%Z));
 ("units", VNone)]);
 ("y", VObj "PositionType" [("value", VDec (DFin true 5838700835%N (-6)%Z));
 ("units", VNone)]);
 ("z", VObj "PositionType" [("value", VDec (DFin true 1128279398%N (-6)%Z));
 ("units", VNone)]);
 ("x_dot", VObj "VelocityType" [("value", VDec (DFin true 1037015%N (-6)%Z));
 ("units", VNone)]);
 ("y_dot", VObj "VelocityType" [("value", VDec (DFin false 1105694%N (-6)%Z));
 ("units", VNone)]);
 ("z_dot", VObj "VelocityType" [("value", VDec (DFin true 1629122%N (-6)%Z));
 ("units", VNone)]);
 ("x_ddot", VObj "AccType" [("value", VDec (DFin true 413%N (-6)%Z));
 ("units", VNone)]);
 ("y_ddot", VObj "AccType" [("value", VDec (DFin false 380%N (-6)%Z));
 ("units", VNone)]);
 ("z_ddot", VObj "AccType" [("value", VDec (DFin false 73%N (-6)%Z));
 ("units", VNone)])]; VObj "StateVectorAccType" [("epoch", VStr (lit "2009-02-28T01:20:48.94827766"));
 ("x", VObj "PositionType" [("value", VDec (DFin false 6299128734%N (-6)%Z));
 ("units", VNone)]);
 ("y", VObj "PositionType" [("value", VDec (DFin true 5789416264%N (-6)%Z));
 ("units", VNone)]);
 ("z", VObj "PositionType" [("value", VDec (DFin true 1200271026%N (-6)%Z));
 ("units", VNone)]);
 ("x_dot", VObj "VelocityType" [("value", VDec (DFin true 1055412%N (-6)%Z));
 ("units", VNone)]);
 ("y_dot", VObj "VelocityType" [("value", VDec (DFin false 1122610%N (-6)%Z));
 ("units", VNone)]);
 ("z_dot", VObj "VelocityType" [("value", VDec (DFin true 1625744%N (-6)%Z));
 ("units", VNone)]);
 ("x_ddot", VObj "AccType" [("value", VDec (DFin true 418%N (-6)%Z));
 ("units", VNone)]);
 ("y_ddot", VObj "AccType" [("value", VDec (DFin false 385%N (-6)%Z));
 ("units", VNone)]);
 ("z_ddot", VObj "AccType" [("value", VDec (DFin false 80%N (-6)%Z));
 ("units", VNone)])]; VObj "StateVectorAccType" [("epoch", VStr (lit "2009-02-28T01:21:32.74867667"));
 ("x", VObj "PositionType" [("value", VDec (DFin false 6252498171%N (-6)%Z));
 ("units", VNone)]);
 ("y", VObj "PositionType" [("value", VDec (DFin true 5739875196%N (-6)%Z));
 ("units", VNone)]);
 ("z", VObj "PositionType" [("value", VDec (DFin true 1271400931%N (-6)%Z));
 ("units", VNone)]);
 ("x_dot", VObj "VelocityType" [("value", VDec (DFin true 1073856%N (-6)%Z));
 ("units", VNone)]);
 ("y_dot", VObj "VelocityType" [("value", VDec (DFin false 1139550%N (-6)%Z));
 ("units", VNone)]);
 ("z_dot", VObj "VelocityType" [("value", VDec (DFin true 1622121%N (-6)%Z));
 ("units", VNone)]);
 ("x_ddot", VObj "AccType" [("value", VDec (DFin true 424%N (-6)%Z));
 ("units", VNone)]);
 ("y_ddot", VObj "AccType" [("value", VDec (DFin false 389%N (-6)%Z));
 ("units", VNone)]);
 ("z_ddot", VObj "AccType" [("value", VDec (DFin false 86%N (-6)%Z));
 ("units", VNone)])]; VObj "StateVectorAccType" [("epoch", VStr (lit "2009-02-28T01:22:16.11674404"));
 ("x", VObj "PositionType" [("value", VDec (DFin false 6205526989%N (-6)%Z));
 ("units", VNone)]);
 ("y", VObj "PositionType" [("value", VDec (DFin true 5690087975%N (-6)%Z));
 ("units", VNone)]);
 ("z", VObj "PositionType" [("value", VDec (DFin true 1341666324%N (-6)%Z));
 ("units", VNone)]);
 ("x_dot", VObj "VelocityType" [("value", VDec (DFin true 1092346%N (-6)%Z));
 ("units", VNone)]);
 ("y_dot", VObj "VelocityType" [("value", VDec (DFin false 1156513%N (-6)%Z));
 ("units", VNone)]);
 ("z_dot", VObj "VelocityType" [("value", VDec (DFin true 1618252%N (-6)%Z));
 ("units", VNone)]);
 ("x_ddot", VObj "AccType" [("value", VDec (DFin true 429%N (-6)%Z));
 ("units", VNone)]);
 ("y_ddot", VObj "AccType" [("value", VDec (DFin false 393%N (-6)%Z));
 ("units", VNone)]);
 ("z_ddot", VObj "AccType" [("value", VDec (DFin false 93%N (-6)%Z));
 ("units", VNone)])]; VObj "StateVectorAccType" [("epoch", VStr (lit "2009-02-28T01:22:59.05548103"));
 ("x", VObj "PositionType" [("value", VDec (DFin false 6158225914%N (-6)%Z));
 ("units", VNone)]);
 ("y", VObj "PositionType" [("value", VDec (DFin true 5640064839%N (-6)%Z));
 ("units", VNone)]);
 ("z", VObj "PositionType" [("value", VDec (DFin true 1411064680%N (-6)%Z));
 ("units", VNone)]);
 ("x_dot", VObj "VelocityType" [("value", VDec (DFin true 1110881%N (-6)%Z));
 ("units", VNone)]);
 ("y_dot", VObj "VelocityType" [("value", VDec (DFin false 1173496%N (-6)%Z));
 ("units", VNone)]);
 ("z_dot", VObj "VelocityType" [("value", VDec (DFin true 1614135%N (-6)%Z));
 ("units", VNone)]);
 ("x_ddot", VObj "AccType" [("value", VDec (DFin true 434%N (-6)%Z));
 ("units", VNone)]);
 ("y_ddot", VObj "AccType" [("value", VDec (DFin false 398%N (-6)%Z));
 ("units", VNone)]);
 ("z_ddot", VObj "AccType" [("value", VDec (DFin false 99%N (-6)%Z));
 ("units", VNone)])]; VObj "StateVectorAccType" [("epoch", VStr (lit "2009-02-28T01:23:41.56792945"));
 ("x", VObj "PositionType" [("value", VDec (DFin false 6110605575%N (-6)%Z));
 ("units", VNone)]);
 ("y", VObj "PositionType" [("value", VDec (DFin true 5589815916%N (-6)%Z));
 ("units", VNone)]);
 ("z", VObj "PositionType" [("value", VDec (DFin true 1479593732%N (-6)%Z));
 ("units", VNone)]);
 ("x_dot", VObj "VelocityType" [("value", VDec (DFin true 1129458%N (-6)%Z));
 ("units", VNone)]);
 ("y_dot", VObj "VelocityType" [("value", VDec (DFin false 1190498%N (-6)%Z));
 ("units", VNone)]);
 ("z_dot", VObj "VelocityType" [("value", VDec (DFin true 1609768%N (-6)%Z));
 ("units", VNone)]);
 ("x_ddot", VObj "AccType" [("value", VDec (DFin true 440%N (-6)%Z));
 ("units", VNone)]);
 ("y_ddot", VObj "AccType" [("value", VDec (DFin false 402%N (-6)%Z));
 ("units", VNone)]);
 ("z_ddot", VObj "AccType" [("value", VDec (DFin false 106%N (-6)%Z));
 ("units", VNone)])]; VObj "StateVectorAccType" [("epoch", VStr (lit "2009-02-28T01:24:23.65717007"));
 ("x", VObj "PositionType" [("value", VDec (DFin false 6062676508%N (-6)%Z));
 ("units", VNone)]);
 ("y", VObj "PositionType" [("value", VDec (DFin true 5539351223%N (-6)%Z));
 ("units", VNone)]);
 ("z", VObj "PositionType" [("value", VDec (DFin true 1547251468%N (-6)%Z));
 ("units", VNone)]);
 ("x_dot", VObj "VelocityType" [("value", VDec (DFin true 1148077%N (-6)%Z));
 ("units", VNone)]);
 ("y_dot", VObj "VelocityType" [("value", VDec (DFin false 1207518%N (-6)%Z));
 ("units", VNone)]);
 ("z_dot", VObj "VelocityType" [("value", VDec (DFin true 1605148%N (-6)%Z));
 ("units", VNone)]);
 ("x_ddot", VObj "AccType" [("value", VDec (DFin true 445%N (-6)%Z));
 ("units", VNone)]);
 ("y_ddot", VObj "AccType" [("value", VDec (DFin false 407%N (-6)%Z));
 ("units", VNone)]);
 ("z_ddot", VObj "AccType" [("value", VDec (DFin false 113%N (-6)%Z));
 ("units", VNone)])]; VObj "StateVectorAccType" [("epoch", VStr (lit "2009-02-28T01:25:05.32632046"));
 ("x", VObj "PositionType" [("value", VDec (DFin false 6014449150%N (-6)%Z));
 ("units", VNone)]);
 ("y", VObj "PositionType" [("value", VDec (DFin true 5488680665%N (-6)%Z));
 ("units", VNone)]);
 ("z", VObj "PositionType" [("value", VDec (DFin true 1614036125%N (-6)%Z));
 ("units", VNone)]);
 ("x_dot", VObj "VelocityType" [("value", VDec (DFin true 1166736%N (-6)%Z));
 ("units", VNone)]);
 ("y_dot", VObj "VelocityType" [("value", VDec (DFin false 1224555%N (-6)%Z));
 ("units", VNone)]);
 ("z_dot", VObj "VelocityType" [("value", VDec (DFin true 1600274%N (-6)%Z));
 ("units", VNone)]);
 ("x_ddot", VObj "AccType" [("value", VDec (DFin true 451%N (-6)%Z));
 ("units", VNone)]);
 ("y_ddot", VObj "AccType" [("value", VDec (DFin false 411%N (-6)%Z));
 ("units", VNone)]);
 ("z_ddot", VObj "AccType" [("value", VDec (DFin false 121%N (-6)%Z));
 ("units", VNone)])]; VObj "StateVectorAccType" [("epoch", VStr (lit "2009-02-28T01:25:46.57853330"));
 ("x", VObj "PositionType" [("value", VDec (DFin false 5965933837%N (-6)%Z));
 ("units", VNone)]);
 ("y", VObj "PositionType" [("value", VDec (DFin true 5437814031%N (-6)%Z));
 ("units", VNone)]);
 ("z", VObj "PositionType" [("value", VDec (DFin true 1679946188%N (-6)%Z));
 ("units", VNone)]);
 ("x_dot", VObj "VelocityType" [("value", VDec (DFin true 1185433%N (-6)%Z));
 ("units", VNone)]);
 ("y_dot", VObj "VelocityType" [("value", VDec (DFin false 1241605%N (-6)%Z));
 ("units", VNone)]);
 ("z_dot", VObj "VelocityType" [("value", VDec (DFin true 1595143%N (-6)%Z));
 ("units", VNone)]);
 ("x_ddot", VObj "AccType" [("value", VDec (DFin true 456%N (-6)%Z));
 ("units", VNone)]);
 ("y_ddot", VObj "AccType" [("value", VDec (DFin false 416%N (-6)%Z));
 ("units", VNone)]);
 ("z_ddot", VObj "AccType" [("value", VDec (DFin false 128%N (-6)%Z));
 ("units", VNone)])]; VObj "StateVectorAccType" [("epoch", VStr (lit "2009-02-28T01:26:27.41699428"));
 ("x", VObj "PositionType" [("value", VDec (DFin false 5917140802%N (-6)%Z));
 ("units", VNone)]);
 ("y", VObj "PositionType" [("value", VDec (DFin true 5386760996%N (-6)%Z));
 ("units", VNone)]);
 ("z", VObj "PositionType" [("value", VDec (DFin true 1744980379%N (-6)%Z));
 ("units", VNone)]);
 ("x_dot", VObj "VelocityType" [("value", VDec (DFin true 1204167%N (-6)%Z));
 ("units", VNone)]);
 ("y_dot", VObj "VelocityType" [("value", VDec (DFin false 1258668%N (-6)%Z));
 ("units", VNone)]);
 ("z_dot", VObj "VelocityType" [("value", VDec (DFin true 1589753%N (-6)%Z));
 ("units", VNone)]);
 ("x_ddot", VObj "AccType" [("value", VDec (DFin true 461%N (-6)%Z));
 ("units", VNone)]);
 ("y_ddot", VObj "AccType" [("value", VDec (DFin false 420%N (-6)%Z));
 ("units", VNone)]);
 ("z_ddot", VObj "AccType" [("value", VDec (DFin false 136%N (-6)%Z));
 ("units", VNone)])]; VObj "StateVectorAccType" [("epoch", VStr (lit "2009-02-28T01:27:07.84492046"));
 ("x", VObj "PositionType" [("value", VDec (DFin false 5868080173%N (-6)%Z));
 ("units", VNone)]);
 ("y", VObj "PositionType" [("value", VDec (DFin true 5335531114%N (-6)%Z));
 ("units", VNone)]);
 ("z", VObj "PositionType" [("value", VDec (DFin true 1809137656%N (-6)%Z));
 ("units", VNone)]);
 ("x_dot", VObj "VelocityType" [("value", VDec (DFin true 1222936%N (-6)%Z));
 ("units", VNone)]);
 ("y_dot", VObj "VelocityType" [("value", VDec (DFin false 1275743%N (-6)%Z));
 ("units", VNone)]);
 ("z_dot", VObj "VelocityType" [("value", VDec (DFin true 1584103%N (-6)%Z));
 ("units", VNone)]);
 ("x_ddot", VObj "AccType" [("value", VDec (DFin true 467%N (-6)%Z));
 ("units", VNone)]);
 ("y_ddot", VObj "AccType" [("value", VDec (DFin false 425%N (-6)%Z));
 ("units", VNone)]);
 ("z_ddot", VObj "AccType" [("value", VDec (DFin false 144%N (-6)%Z));
 ("units", VNone)])]; VObj "StateVectorAccType" [("epoch", VStr (lit "2009-02-28T01:27:47.86555845"));
 ("x", VObj "PositionType" [("value", VDec (DFin false 5818761973%N (-6)%Z));
 ("units", VNone)]);
 ("y", VObj "PositionType" [("value", VDec (DFin true 5284133823%N (-6)%Z));
 ("units", VNone)]);
 ("z", VObj "PositionType" [("value", VDec (DFin true 1872417208%N (-6)%Z));
 ("units", VNone)]);
 ("x_dot", VObj "VelocityType" [("value", VDec (DFin true 1241739%N (-6)%Z));
 ("units", VNone)]);
 ("y_dot", VObj "VelocityType" [("value", VDec (DFin false 1292827%N (-6)%Z));
 ("units", VNone)]);
 ("z_dot", VObj "VelocityType" [("value", VDec (DFin true 1578189%N (-6)%Z));
 ("units", VNone)]);
 ("x_ddot", VObj "AccType" [("value", VDec (DFin true 473%N (-6)%Z));
 ("units", VNone)]);
 ("y_ddot", VObj "AccType" [("value", VDec (DFin false 429%N (-6)%Z));
 ("units", VNone)]);
 ("z_ddot", VObj "AccType" [("value", VDec (DFin false 152%N (-6)%Z));
 ("units", VNone)])]]);
 ("covariance_matrix", VList [])])]])])].
(* ccsds_ndm/tests/data/kvn/omm1_ct.kvn *)
Definition kvn_omm1_ct : string := "CCSDS_OMM_VERS = 2.0
CREATION_DATE  =
ORIGINATOR     =

OBJECT_NAME    = NUSAT-8 (MARIE)
OBJECT_ID      = 2020-003C
CENTER_NAME    = EARTH
REF_FRAME      = TEME
TIME_SYSTEM    = UTC
MEAN_ELEMENT_THEORY = SGP4

EPOCH          = 2020-12-29T11:59:56.951808
MEAN_MOTION    = 15.27990594
ECCENTRICITY   = .0013363
INCLINATION    = 97.2970
RA_OF_ASC_NODE = 66.7438
ARG_OF_PERICENTER = 109.4976
MEAN_ANOMALY   = 15.7307

EPHEMERIS_TYPE = 0
CLASSIFICATION_TYPE = U
NORAD_CAT_ID   = 45018
ELEMENT_SET_NO = 999
REV_AT_EPOCH   = 5332
BSTAR          = .83483E-4
MEAN_MOTION_DOT = .2212E-4
MEAN_MOTION_DDOT = 0

".
(* ccsds_ndm/tests/data/kvn/omm1_ct.xml *)
Definition obj_omm1_ct : pyval :=
 VObj "Omm" [("header", VObj "NdmHeader" [("comment", VList []);
 ("creation_date", VStr []);
 ("originator", VStr [])]);
 ("body", VObj "OmmBody" [("segment", VObj "OmmSegment" [("metadata", VObj "OmmMetadata" [("comment", VList []);
 ("object_name", VStr (lit "NUSAT-8 (MARIE)"));
 ("object_id", VStr (lit "2020-003C"));
 ("center_name", VStr (lit "EARTH"));
 ("ref_frame", VStr (lit "TEME"));
 ("ref_frame_epoch", VNone);
 ("time_system", VStr (lit "UTC"));
 ("mean_element_theory", VStr (lit "SGP4"))]);
 ("data", VObj "OmmData" [("comment", VList []);
 ("mean_elements", VObj "MeanElementsType" [("comment", VList []);
 ("epoch", VStr (lit "2020-12-29T11:59:56.951808"));
 ("semi_major_axis", VNone);
 ("mean_motion", VObj "RevType" [("value", VDec (DFin false 1527990594%N (-8)%Z));
 ("units", VNone)]);
 ("eccentricity", VDec (DFin false 13363%N (-7)%Z));
 ("inclination", VObj "InclinationType" [("value", VDec (DFin false 972970%N (-4)%Z));
 ("units", VNone)]);
 ("ra_of_asc_node", VObj "AngleType" [("value", VDec (DFin false 667438%N (-4)%Z));
 ("units", VNone)]);
 ("arg_of_pericenter", VObj "AngleType" [("value", VDec (DFin false 1094976%N (-4)%Z));
 ("units", VNone)]);
 ("mean_anomaly", VObj "AngleType" [("value", VDec (DFin false 157307%N (-4)%Z));
 ("units", VNone)]);
 ("gm", VNone)]);
 ("spacecraft_parameters", VNone);
 ("tle_parameters", VObj "TleParametersType" [("comment", VList []);
 ("ephemeris_type", VInt (0)%Z);
 ("classification_type", VStr (lit "U"));
 ("norad_cat_id", VInt (45018)%Z);
 ("element_set_no", VInt (999)%Z);
 ("rev_at_epoch", VInt (5332)%Z);
 ("bstar", VObj "BStarType" [("value", VDec (DFin false 83483%N (-9)%Z));
 ("units", VNone)]);
 ("mean_motion_dot", VObj "DRevType" [("value", VDec (DFin false 2212%N (-8)%Z));
 ("units", VNone)]);
 ("mean_motion_ddot", VObj "DdRevType" [("value", VDec (DFin false 0%N (0)%Z));
 ("units", VNone)])]);
 ("covariance_matrix", VNone);
 ("user_defined_parameters", VNone)])])])].
(* ccsds_ndm/tests/data/kvn/omm1_st.kvn *)
Definition kvn_omm1_st : string := "CCSDS_OMM_VERS                     =2.0
COMMENT                            =GENERATED VIA SPACE-TRACK.ORG API
COMMENT                            =Test second comment line
CREATION_DATE                      =2020-12-29T06:26:10
ORIGINATOR                         =18 SPCS
OBJECT_NAME                        =NUSAT-8 (MARIE)
OBJECT_ID                          =2020-003C
CENTER_NAME                        =EARTH
REF_FRAME                          =TEME
TIME_SYSTEM                        =UTC
MEAN_ELEMENT_THEORY                =SGP4
EPOCH                              =2020-12-29T03:57:59.406624
MEAN_MOTION                        =15.27989249
ECCENTRICITY                       =0.00133560
INCLINATION                        =97.2970
RA_OF_ASC_NODE                     =66.4161
ARG_OF_PERICENTER                  =110.6345
MEAN_ANOMALY                       =334.7107
EPHEMERIS_TYPE                     =0
CLASSIFICATION_TYPE                =U
NORAD_CAT_ID                       =45018
ELEMENT_SET_NO                     =999
REV_AT_EPOCH                       =5327
BSTAR                              =0.00008455300000
MEAN_MOTION_DOT                    =0.00002241
MEAN_MOTION_DDOT                   =0.0000000000000
USER_DEFINED_SEMIMAJOR_AXIS        =6859.961
USER_DEFINED_PERIOD                =94.242
USER_DEFINED_APOAPSIS              =490.988
USER_DEFINED_PERIAPSIS             =472.664
USER_DEFINED_OBJECT_TYPE           =PAYLOAD
USER_DEFINED_RCS_SIZE              =MEDIUM
USER_DEFINED_COUNTRY_CODE          =ARGN
USER_DEFINED_LAUNCH_DATE           =2020-01-15
USER_DEFINED_SITE                  =TSC
USER_DEFINED_DECAY_DATE            =
USER_DEFINED_FILE                  =2911831
USER_DEFINED_GP_ID                 =168552672".
(* ccsds_ndm/tests/data/kvn/omm1_st.xml *)
Definition obj_omm1_st : pyval :=
 VObj "Omm" [("header", VObj "NdmHeader" [("comment", VList [VStr (lit "GENERATED VIA SPACE-TRACK.ORG API"); VStr (lit "Test second comment line")]);
 ("creation_date", VStr (lit "2020-12-29T06:26:10"));
 ("originator", VStr (lit "18 SPCS"))]);
 ("body", VObj "OmmBody" [("segment", VObj "OmmSegment" [("metadata", VObj "OmmMetadata" [("comment", VList []);
 ("object_name", VStr (lit "NUSAT-8 (MARIE)"));
 ("object_id", VStr (lit "2020-003C"));
 ("center_name", VStr (lit "EARTH"));
 ("ref_frame", VStr (lit "TEME"));
 ("ref_frame_epoch", VNone);
 ("time_system", VStr (lit "UTC"));
 ("mean_element_theory", VStr (lit "SGP4"))]);
 ("data", VObj "OmmData" [("comment", VList []);
 ("mean_elements", VObj "MeanElementsType" [("comment", VList []);
 ("epoch", VStr (lit "2020-12-29T03:57:59.406624"));
 ("semi_major_axis", VNone);
 ("mean_motion", VObj "RevType" [("value", VDec (DFin false 1527989249%N (-8)%Z));
 ("units", VNone)]);
 ("eccentricity", VDec (DFin false 133560%N (-8)%Z));
 ("inclination", VObj "InclinationType" [("value", VDec (DFin false 972970%N (-4)%Z));
 ("units", VNone)]);
 ("ra_of_asc_node", VObj "AngleType" [("value", VDec (DFin false 664161%N (-4)%Z));
 ("units", VNone)]);
 ("arg_of_pericenter", VObj "AngleType" [("value", VDec (DFin false 1106345%N (-4)%Z));
 ("units", VNone)]);
 ("mean_anomaly", VObj "AngleType" [("value", VDec (DFin false 3347107%N (-4)%Z));
 ("units", VNone)]);
 ("gm", VNone)]);
 ("spacecraft_parameters", VNone);
 ("tle_parameters", VObj "TleParametersType" [("comment", VList []);
 ("ephemeris_type", VInt (0)%Z);
 ("classification_type", VStr (lit "U"));
 ("norad_cat_id", VInt (45018)%Z);
 ("element_set_no", VInt (999)%Z);
 ("rev_at_epoch", VInt (5327)%Z);
 ("bstar", VObj "BStarType" [("value", VDec (DFin false 8455300000%N (-14)%Z));
 ("units", VNone)]);
 ("mean_motion_dot", VObj "DRevType" [("value", VDec (DFin false 2241%N (-8)%Z));
 ("units", VNone)]);
 ("mean_motion_ddot", VObj "DdRevType" [("value", VDec (DFin false 0%N (-13)%Z));
 ("units", VNone)])]);
 ("covariance_matrix", VNone);
 ("user_defined_parameters", VObj "UserDefinedType" [("comment", VList []);
 ("user_defined", VList [VObj "UserDefinedParameterType" [("value", VStr (lit "6859.961"));
 ("parameter", VStr (lit "SEMIMAJOR_AXIS"))]; VObj "UserDefinedParameterType" [("value", VStr (lit "94.242"));
 ("parameter", VStr (lit "PERIOD"))]; VObj "UserDefinedParameterType" [("value", VStr (lit "490.988"));
 ("parameter", VStr (lit "APOAPSIS"))]; VObj "UserDefinedParameterType" [("value", VStr (lit "472.664"));
 ("parameter", VStr (lit "PERIAPSIS"))]; VObj "UserDefinedParameterType" [("value", VStr (lit "PAYLOAD"));
 ("parameter", VStr (lit "OBJECT_TYPE"))]; VObj "UserDefinedParameterType" [("value", VStr (lit "MEDIUM"));
 ("parameter", VStr (lit "RCS_SIZE"))]; VObj "UserDefinedParameterType" [("value", VStr (lit "ARGN"));
 ("parameter", VStr (lit "COUNTRY_CODE"))]; VObj "UserDefinedParameterType" [("value", VStr (lit "2020-01-15"));
 ("parameter", VStr (lit "LAUNCH_DATE"))]; VObj "UserDefinedParameterType" [("value", VStr (lit "TSC"));
 ("parameter", VStr (lit "SITE"))]; VObj "UserDefinedParameterType" [("value", VStr []);
 ("parameter", VStr (lit "DECAY_DATE"))]; VObj "UserDefinedParameterType" [("value", VStr (lit "2911831"));
 ("parameter", VStr (lit "FILE"))]; VObj "UserDefinedParameterType" [("value", VStr (lit "168552672"));
 ("parameter", VStr (lit "GP_ID"))]])])])])])].
(* ccsds_ndm/tests/data/kvn/tdm-testcase01b.kvn *)
Definition kvn_tdm_testcase01b : string := "CCSDS_TDM_VERS = 1.0

CREATION_DATE = 2007-183T23:04:11.014
ORIGINATOR = JPL

META_START
TIME_SYSTEM          = UTC
PARTICIPANT_1        = 'DSS-26'
PARTICIPANT_2        = ROSETTA
MODE                 = SEQUENTIAL
PATH                 = 1,2
TRANSMIT_BAND        = X
META_STOP

DATA_START
TRANSMIT_FREQ_1        = 2007-075T11:50:43.000         7175510611.700343
TRANSMIT_FREQ_RATE_1   = 2007-075T11:50:43.000                       0.0
TRANSMIT_FREQ_1        = 2007-075T11:50:54.000              7167916384.0
TRANSMIT_FREQ_RATE_1   = 2007-075T11:50:54.000                       0.0
TRANSMIT_FREQ_1        = 2007-075T12:18:05.000              7167916384.0
TRANSMIT_FREQ_RATE_1   = 2007-075T12:18:05.000                       0.0
TRANSMIT_FREQ_1        = 2007-075T12:18:06.000              7167916384.0
TRANSMIT_FREQ_RATE_1   = 2007-075T12:18:06.000                       0.0
TRANSMIT_FREQ_1        = 2007-075T12:19:30.000              7167916384.0
TRANSMIT_FREQ_RATE_1   = 2007-075T12:19:30.000                       0.0
TRANSMIT_FREQ_1        = 2007-075T12:25:54.000              7167916384.0
TRANSMIT_FREQ_RATE_1   = 2007-075T12:25:54.000                       0.0
TRANSMIT_FREQ_1        = 2007-075T12:27:39.000              7167916384.0
TRANSMIT_FREQ_RATE_1   = 2007-075T12:27:39.000                       0.0
TRANSMIT_FREQ_1        = 2007-075T12:27:47.000              7167916384.0
TRANSMIT_FREQ_RATE_1   = 2007-075T12:27:47.000                       0.0
TRANSMIT_FREQ_1        = 2007-075T13:14:45.000              7167916384.0
TRANSMIT_FREQ_RATE_1   = 2007-075T13:14:45.000                   -1000.0
TRANSMIT_FREQ_1        = 2007-075T13:14:55.000              7167906384.0
TRANSMIT_FREQ_RATE_1   = 2007-075T13:14:55.000                       0.0
TRANSMIT_FREQ_1        = 2007-075T13:15:00.000              7167906384.0
TRANSMIT_FREQ_RATE_1   = 2007-075T13:15:00.000                       0.0
TRANSMIT_FREQ_1        = 2007-075T13:15:04.000              7167906384.0
TRANSMIT_FREQ_RATE_1   = 2007-075T13:15:04.000                       0.0
TRANSMIT_FREQ_1        = 2007-075T13:15:05.000              7167906384.0
TRANSMIT_FREQ_RATE_1   = 2007-075T13:15:05.000                     500.0
TRANSMIT_FREQ_1        = 2007-075T13:15:45.000              7167926384.0
TRANSMIT_FREQ_RATE_1   = 2007-075T13:15:45.000                    -500.0
TRANSMIT_FREQ_1        = 2007-075T13:16:25.000              7167906384.0
TRANSMIT_FREQ_RATE_1   = 2007-075T13:16:25.000                     500.0
TRANSMIT_FREQ_1        = 2007-075T13:16:45.000              7167916384.0
TRANSMIT_FREQ_RATE_1   = 2007-075T13:16:45.000                       0.0
TRANSMIT_FREQ_1        = 2007-075T17:08:03.000              7167916384.0
TRANSMIT_FREQ_RATE_1   = 2007-075T17:08:03.000                       0.0
DATA_STOP

META_START
TIME_SYSTEM          = UTC
PARTICIPANT_1        = 'DSS-26'
PARTICIPANT_2        = ROSETTA
MODE                 = SEQUENTIAL
PATH                 = 1,2,1
TRANSMIT_BAND        = X
RECEIVE_BAND         = X
TIMETAG_REF          = RECEIVE
INTEGRATION_INTERVAL =                     60.0
INTEGRATION_REF      = MIDDLE
FREQ_OFFSET          =        8421936160.000001
TRANSMIT_DELAY_1     =                  7.7e-05
RECEIVE_DELAY_1      =                  7.7e-05
META_STOP

DATA_START
RECEIVE_FREQ           = 2007-075T13:51:27.000           68842.365682601
RECEIVE_FREQ           = 2007-075T13:52:27.000           68796.946814536
RECEIVE_FREQ           = 2007-075T13:53:27.000           68751.219775199
RECEIVE_FREQ           = 2007-075T13:54:27.000           68705.182645797
RECEIVE_FREQ           = 2007-075T13:55:27.000           68658.838166236
RECEIVE_FREQ           = 2007-075T13:56:27.000           68612.187274932
RECEIVE_FREQ           = 2007-075T13:57:27.000           68565.232152938
RECEIVE_FREQ           = 2007-075T13:58:27.000           68517.971839904
RECEIVE_FREQ           = 2007-075T13:59:27.000         68470.40883159501
RECEIVE_FREQ           = 2007-075T14:00:27.000         68422.54217529199
RECEIVE_FREQ           = 2007-075T14:01:27.000         68374.37411785001
RECEIVE_FREQ           = 2007-075T14:02:27.000           68325.907925605
RECEIVE_FREQ           = 2007-075T14:03:27.000           68277.140977858
RECEIVE_FREQ           = 2007-075T14:04:27.000         68228.07545566501
RECEIVE_FREQ           = 2007-075T14:05:27.000         68178.71414756701
RECEIVE_FREQ           = 2007-075T14:06:27.000         68129.05606746599
RECEIVE_FREQ           = 2007-075T14:07:27.000           68079.101774215
RECEIVE_FREQ           = 2007-075T14:08:27.000           68028.856128692
RECEIVE_FREQ           = 2007-075T14:09:27.000           67978.316852569
RECEIVE_FREQ           = 2007-075T14:10:27.000         67927.48550224199
RECEIVE_FREQ           = 2007-075T14:11:27.000           67876.363224029
RECEIVE_FREQ           = 2007-075T14:12:27.000           67824.952335357
RECEIVE_FREQ           = 2007-075T14:13:27.000           67773.251962661
RECEIVE_FREQ           = 2007-075T14:14:27.000           67721.265878676
RECEIVE_FREQ           = 2007-075T14:15:27.000         67668.99217986999
RECEIVE_FREQ           = 2007-075T14:16:27.000           67616.433268546
RECEIVE_FREQ           = 2007-075T14:17:27.000           67563.590857505
RECEIVE_FREQ           = 2007-075T14:18:27.000         67510.46577548901
RECEIVE_FREQ           = 2007-075T14:19:27.000           67457.060118674
RECEIVE_FREQ           = 2007-075T14:20:27.000           67403.373022078
RECEIVE_FREQ           = 2007-075T14:21:27.000           67349.406810759
RECEIVE_FREQ           = 2007-075T14:22:27.000           67295.161800384
RECEIVE_FREQ           = 2007-075T14:23:27.000           67240.639277457
RECEIVE_FREQ           = 2007-075T14:24:27.000           67185.843270301
RECEIVE_FREQ           = 2007-075T14:25:27.000           67130.772119521
RECEIVE_FREQ           = 2007-075T14:26:27.000           67075.425816535
RECEIVE_FREQ           = 2007-075T14:27:27.000           67019.809102057
RECEIVE_FREQ           = 2007-075T14:28:27.000         66963.92136669101
RECEIVE_FREQ           = 2007-075T14:29:27.000           66907.762114524
RECEIVE_FREQ           = 2007-075T14:30:27.000           66851.335167884
RECEIVE_FREQ           = 2007-075T14:31:27.000         66794.63946628501
RECEIVE_FREQ           = 2007-075T14:32:27.000           66737.677620887
RECEIVE_FREQ           = 2007-075T14:33:27.000         66680.45045947901
RECEIVE_FREQ           = 2007-075T14:34:27.000           66622.961338996
RECEIVE_FREQ           = 2007-075T14:35:27.000           66565.207820891
RECEIVE_FREQ           = 2007-075T14:36:27.000           66507.194423675
RECEIVE_FREQ           = 2007-075T14:37:27.000           66448.919474601
RECEIVE_FREQ           = 2007-075T14:38:27.000           66390.385575293
RECEIVE_FREQ           = 2007-075T14:39:27.000           66331.594535827
RECEIVE_FREQ           = 2007-075T14:40:27.000         66272.54776859201
RECEIVE_FREQ           = 2007-075T14:41:27.000           66213.244307517
RECEIVE_FREQ           = 2007-075T14:42:27.000           66153.688301085
RECEIVE_FREQ           = 2007-075T14:43:27.000         66093.87924766399
RECEIVE_FREQ           = 2007-075T14:44:27.000           66033.818778991
RECEIVE_FREQ           = 2007-075T14:45:27.000           65973.507959365
RECEIVE_FREQ           = 2007-075T14:46:27.000           65912.948547362
RECEIVE_FREQ           = 2007-075T14:47:27.000         65852.13988590099
RECEIVE_FREQ           = 2007-075T14:48:27.000         65791.08690357101
RECEIVE_FREQ           = 2007-075T14:49:27.000           65729.787591933
RECEIVE_FREQ           = 2007-075T14:50:27.000            65668.24644184
RECEIVE_FREQ           = 2007-075T14:51:27.000           65606.461252212
RECEIVE_FREQ           = 2007-075T14:52:27.000            65544.43606758
RECEIVE_FREQ           = 2007-075T14:53:27.000           65482.171468734
RECEIVE_FREQ           = 2007-075T14:54:27.000           65419.665871619
RECEIVE_FREQ           = 2007-075T14:55:27.000           65356.924378394
RECEIVE_FREQ           = 2007-075T14:56:27.000           65293.948550223
RECEIVE_FREQ           = 2007-075T14:57:27.000           65230.737554549
RECEIVE_FREQ           = 2007-075T14:58:27.000           65167.293406486
RECEIVE_FREQ           = 2007-075T14:59:27.000           65103.616531372
RECEIVE_FREQ           = 2007-075T15:00:27.000           65039.710349083
RECEIVE_FREQ           = 2007-075T15:01:27.000           64975.574463844
RECEIVE_FREQ           = 2007-075T15:02:27.000           64911.210938454
RECEIVE_FREQ           = 2007-075T15:03:27.000           64846.620881081
RECEIVE_FREQ           = 2007-075T15:04:27.000           64781.805646896
RECEIVE_FREQ           = 2007-075T15:05:27.000           64716.766915321
RECEIVE_FREQ           = 2007-075T15:06:27.000           64651.504798889
RECEIVE_FREQ           = 2007-075T15:07:27.000           64586.022469521
RECEIVE_FREQ           = 2007-075T15:08:27.000           64520.321739197
RECEIVE_FREQ           = 2007-075T15:09:27.000           64454.402581215
RECEIVE_FREQ           = 2007-075T15:10:27.000           64388.266628265
RECEIVE_FREQ           = 2007-075T15:11:27.000           64321.913907051
RECEIVE_FREQ           = 2007-075T15:12:27.000           64255.348347664
RECEIVE_FREQ           = 2007-075T15:13:27.000           64188.569881439
RECEIVE_FREQ           = 2007-075T15:14:27.000           64121.579611778
RECEIVE_FREQ           = 2007-075T15:15:27.000           64054.380387306
RECEIVE_FREQ           = 2007-075T15:16:27.000           63986.972198486
RECEIVE_FREQ           = 2007-075T15:17:27.000           63919.357762337
RECEIVE_FREQ           = 2007-075T15:18:27.000           63851.536486626
RECEIVE_FREQ           = 2007-075T15:19:27.000           63783.512669563
RECEIVE_FREQ           = 2007-075T15:20:27.000           63715.284499168
RECEIVE_FREQ           = 2007-075T15:21:27.000           63646.856268883
RECEIVE_FREQ           = 2007-075T15:22:27.000           63578.228726387
RECEIVE_FREQ           = 2007-075T15:23:27.000           63509.399887085
RECEIVE_FREQ           = 2007-075T15:24:27.000           63440.376836777
RECEIVE_FREQ           = 2007-075T15:25:27.000            63371.15724659
RECEIVE_FREQ           = 2007-075T15:26:27.000           63301.744392395
RECEIVE_FREQ           = 2007-075T15:27:27.000           63232.138154984
RECEIVE_FREQ           = 2007-075T15:28:27.000           63162.340608597
RECEIVE_FREQ           = 2007-075T15:29:27.000           63092.354640961
RECEIVE_FREQ           = 2007-075T15:30:27.000           63022.179726601
RECEIVE_FREQ           = 2007-075T15:31:27.000           62951.817217827
RECEIVE_FREQ           = 2007-075T15:32:27.000           62881.270871162
RECEIVE_FREQ           = 2007-075T15:33:27.000           62810.539628983
RECEIVE_FREQ           = 2007-075T15:34:27.000           62739.625454903
RECEIVE_FREQ           = 2007-075T15:35:27.000           62668.531074524
RECEIVE_FREQ           = 2007-075T15:36:27.000           62597.258071899
RECEIVE_FREQ           = 2007-075T15:37:27.000           62525.805926323
RECEIVE_FREQ           = 2007-075T15:38:27.000           62454.178201675
RECEIVE_FREQ           = 2007-075T15:39:27.000           62382.375440598
RECEIVE_FREQ           = 2007-075T15:40:27.000            62310.39836216
RECEIVE_FREQ           = 2007-075T15:41:27.000            62238.24995327
RECEIVE_FREQ           = 2007-075T15:42:27.000           62165.931548119
RECEIVE_FREQ           = 2007-075T15:43:27.000           62093.443515778
RECEIVE_FREQ           = 2007-075T15:44:27.000           62020.788931847
RECEIVE_FREQ           = 2007-075T15:45:27.000           61947.967720032
RECEIVE_FREQ           = 2007-075T15:46:27.000           61874.981918335
RECEIVE_FREQ           = 2007-075T15:47:27.000           61801.834079742
RECEIVE_FREQ           = 2007-075T15:48:27.000           61728.526369095
RECEIVE_FREQ           = 2007-075T15:49:27.000           61655.056928635
RECEIVE_FREQ           = 2007-075T15:50:27.000           61581.429994583
RECEIVE_FREQ           = 2007-075T15:51:27.000           61507.645316123
RECEIVE_FREQ           = 2007-075T15:52:27.000           61433.705576896
RECEIVE_FREQ           = 2007-075T15:53:27.000           61359.613296508
RECEIVE_FREQ           = 2007-075T15:54:27.000           61285.367755889
RECEIVE_FREQ           = 2007-075T15:55:27.000           61210.972376822
RECEIVE_FREQ           = 2007-075T15:56:27.000            61136.42734146
RECEIVE_FREQ           = 2007-075T15:57:27.000           61061.735322951
RECEIVE_FREQ           = 2007-075T15:58:27.000           60986.897679328
RECEIVE_FREQ           = 2007-075T15:59:27.000           60911.915056228
RECEIVE_FREQ           = 2007-075T16:00:27.000           60836.790554046
RECEIVE_FREQ           = 2007-075T16:01:27.000           60761.524376868
RECEIVE_FREQ           = 2007-075T16:02:27.000           60686.117636681
RECEIVE_FREQ           = 2007-075T16:03:27.000           60610.574287415
RECEIVE_FREQ           = 2007-075T16:04:27.000           60534.892094612
RECEIVE_FREQ           = 2007-075T16:05:27.000           60459.077399254
RECEIVE_FREQ           = 2007-075T16:06:27.000           60383.127887726
RECEIVE_FREQ           = 2007-075T16:07:27.000           60307.046922684
RECEIVE_FREQ           = 2007-075T16:08:27.000           60230.835643768
RECEIVE_FREQ           = 2007-075T16:09:27.000           60154.496395111
RECEIVE_FREQ           = 2007-075T16:10:27.000            60078.02926445
RECEIVE_FREQ           = 2007-075T16:11:27.000            60001.43738842
RECEIVE_FREQ           = 2007-075T16:12:27.000            59924.72129631
RECEIVE_FREQ           = 2007-075T16:13:27.000           59847.882581711
RECEIVE_FREQ           = 2007-075T16:14:27.000           59770.923981667
RECEIVE_FREQ           = 2007-075T16:15:27.000           59693.845624924
RECEIVE_FREQ           = 2007-075T16:16:27.000           59616.650050163
RECEIVE_FREQ           = 2007-075T16:17:27.000           59539.337769508
RECEIVE_FREQ           = 2007-075T16:18:27.000            59461.91204834
RECEIVE_FREQ           = 2007-075T16:19:27.000           59384.373176575
RECEIVE_FREQ           = 2007-075T16:20:27.000            59306.72349453
RECEIVE_FREQ           = 2007-075T16:21:27.000           59228.964792252
RECEIVE_FREQ           = 2007-075T16:22:27.000           59151.098890305
RECEIVE_FREQ           = 2007-075T16:23:27.000            59073.12512207
RECEIVE_FREQ           = 2007-075T16:24:27.000             58995.0467453
RECEIVE_FREQ           = 2007-075T16:25:27.000           58916.865996361
RECEIVE_FREQ           = 2007-075T16:26:27.000           58838.584891319
RECEIVE_FREQ           = 2007-075T16:27:27.000           58760.201879501
RECEIVE_FREQ           = 2007-075T16:28:27.000           58681.720947266
RECEIVE_FREQ           = 2007-075T16:29:27.000           58603.143963814
RECEIVE_FREQ           = 2007-075T16:30:27.000           58524.472222328
RECEIVE_FREQ           = 2007-075T16:31:27.000            58445.70712471
RECEIVE_FREQ           = 2007-075T16:32:27.000           58366.850589752
RECEIVE_FREQ           = 2007-075T16:33:27.000           58287.903629303
RECEIVE_FREQ           = 2007-075T16:34:27.000           58208.868685722
RECEIVE_FREQ           = 2007-075T16:35:27.000           58129.747063637
RECEIVE_FREQ           = 2007-075T16:36:27.000           58050.540581703
RECEIVE_FREQ           = 2007-075T16:37:27.000           57971.250295639
RECEIVE_FREQ           = 2007-075T16:38:27.000            57891.87872982
RECEIVE_FREQ           = 2007-075T16:39:27.000           57812.426887512
RECEIVE_FREQ           = 2007-075T16:40:27.000           57732.895645142
RECEIVE_FREQ           = 2007-075T16:41:27.000           57653.288560867
RECEIVE_FREQ           = 2007-075T16:42:27.000           57573.605575562
RECEIVE_FREQ           = 2007-075T16:43:27.000           57493.847225189
RECEIVE_FREQ           = 2007-075T16:44:27.000           57414.019731522
RECEIVE_FREQ           = 2007-075T16:45:27.000           57334.121713638
RECEIVE_FREQ           = 2007-075T16:46:27.000           57254.154493332
RECEIVE_FREQ           = 2007-075T16:47:27.000            57174.12025547
RECEIVE_FREQ           = 2007-075T16:48:27.000           57094.020050049
RECEIVE_FREQ           = 2007-075T16:49:27.000           57013.856649399
RECEIVE_FREQ           = 2007-075T16:50:27.000           56933.631643295
RECEIVE_FREQ           = 2007-075T16:51:27.000           56853.345460891
RECEIVE_FREQ           = 2007-075T16:52:27.000           56773.001462935
RECEIVE_FREQ           = 2007-075T16:53:27.000           56692.600300788
RECEIVE_FREQ           = 2007-075T16:54:27.000           56612.143706321
RECEIVE_FREQ           = 2007-075T16:55:27.000           56531.632609366
RECEIVE_FREQ           = 2007-075T16:56:27.000           56451.069800376
RECEIVE_FREQ           = 2007-075T16:57:27.000           56370.457195281
RECEIVE_FREQ           = 2007-075T16:58:27.000           56289.795226097
RECEIVE_FREQ           = 2007-075T16:59:27.000           56209.087947845
RECEIVE_FREQ           = 2007-075T17:00:27.000           56128.334118843
RECEIVE_FREQ           = 2007-075T17:01:27.000           56047.536489487
RECEIVE_FREQ           = 2007-075T17:02:27.000           55966.696544647
RECEIVE_FREQ           = 2007-075T17:03:27.000           55885.815768242
RECEIVE_FREQ           = 2007-075T17:04:27.000           55804.896491051
RECEIVE_FREQ           = 2007-075T17:05:27.000           55723.942260742
RECEIVE_FREQ           = 2007-075T17:06:27.000           55642.950587273
RECEIVE_FREQ           = 2007-075T17:07:27.000           55561.925067902
RECEIVE_FREQ           = 2007-075T17:08:27.000           55480.868617058
RECEIVE_FREQ           = 2007-075T17:09:27.000           55399.782920837
RECEIVE_FREQ           = 2007-075T17:10:27.000           55318.665945053
RECEIVE_FREQ           = 2007-075T17:11:27.000           55237.523112297
RECEIVE_FREQ           = 2007-075T17:12:27.000           55156.355063438
RECEIVE_FREQ           = 2007-075T17:13:27.000           55075.163572311
RECEIVE_FREQ           = 2007-075T17:14:27.000           54993.950745583
DATA_STOP

META_START
TIME_SYSTEM          = UTC
PARTICIPANT_1        = 'DSS-26'
PARTICIPANT_2        = ROSETTA
MODE                 = SEQUENTIAL
PATH                 = 1,2,1
TRANSMIT_BAND        = X
RECEIVE_BAND         = X
TIMETAG_REF          = RECEIVE
INTEGRATION_REF      = START
RANGE_MODE           = COHERENT
RANGE_MODULUS        =               67108864.0
RANGE_UNITS          = RU
TRANSMIT_DELAY_1     =                  7.7e-05
RECEIVE_DELAY_1      =                  7.7e-05
META_STOP

DATA_START
RANGE                  = 2007-075T13:54:04.000         53162345.57472809
RANGE                  = 2007-075T13:57:31.000         42224650.17848034
RANGE                  = 2007-075T14:00:58.000         31291177.30436838
RANGE                  = 2007-075T14:04:25.000         20362025.11610581
RANGE                  = 2007-075T14:07:52.000         9437287.682150703
RANGE                  = 2007-075T14:11:19.000         65625914.60094181
RANGE                  = 2007-075T14:14:46.000          54710271.4560774
RANGE                  = 2007-075T14:18:13.000         43799311.75173865
RANGE                  = 2007-075T14:21:40.000         32893123.59439699
RANGE                  = 2007-075T14:25:07.000         21991793.72274652
RANGE                  = 2007-075T14:28:34.000         11095406.36398933
RANGE                  = 2007-075T14:32:01.000          204040.150579172
RANGE                  = 2007-075T14:35:28.000          56426649.9168988
RANGE                  = 2007-075T14:38:55.000         45545588.53511675
RANGE                  = 2007-075T14:42:22.000         34669798.40457717
RANGE                  = 2007-075T14:45:49.000         23799357.54212843
RANGE                  = 2007-075T14:49:16.000         12934345.23742387
RANGE                  = 2007-075T14:52:43.000         2074835.246438581
RANGE                  = 2007-075T14:56:10.000         58329766.64525063
RANGE                  = 2007-075T14:59:37.000         47481487.82737921
RANGE                  = 2007-075T15:03:04.000         36638935.81917384
RANGE                  = 2007-075T15:06:31.000         25802172.12577452
RANGE                  = 2007-075T15:09:58.000         14971272.38367737
RANGE                  = 2007-075T15:13:25.000         4146304.961927752
RANGE                  = 2007-075T15:16:52.000         60436198.33518554
RANGE                  = 2007-075T15:20:19.000         49623292.75291978
RANGE                  = 2007-075T15:23:46.000         38816508.81467222
RANGE                  = 2007-075T15:27:13.000         28015914.29607745
RANGE                  = 2007-075T15:30:40.000         17221564.90460124
RANGE                  = 2007-075T15:34:07.000         6433517.121633555
RANGE                  = 2007-075T15:37:34.000         62760699.35121135
RANGE                  = 2007-075T15:41:01.000         51985430.51638965
RANGE                  = 2007-075T15:44:28.000         41216633.05383415
RANGE                  = 2007-075T15:47:55.000         30454361.19664619
RANGE                  = 2007-075T15:51:22.000         19698658.09796753
RANGE                  = 2007-075T15:54:49.000         8949582.236537676
RANGE                  = 2007-075T15:58:16.000         65316038.19208451
RANGE                  = 2007-075T16:01:43.000         54580346.28388138
RANGE                  = 2007-075T16:05:10.000          43851410.8163697
RANGE                  = 2007-075T16:08:37.000         33129278.07933323
RANGE                  = 2007-075T16:12:04.000         22413988.27323407
RANGE                  = 2007-075T16:15:31.000         11705578.30439278
RANGE                  = 2007-075T16:18:58.000         1004085.315467331
RANGE                  = 2007-075T16:22:25.000         57418408.44275727
RANGE                  = 2007-075T16:25:52.000         46730857.90093651
RANGE                  = 2007-075T16:29:19.000         36050322.41804484
RANGE                  = 2007-075T16:32:46.000         25376839.73296935
RANGE                  = 2007-075T16:36:13.000         14710434.24168174
RANGE                  = 2007-075T16:39:40.000         4051130.231203194
RANGE                  = 2007-075T16:43:07.000         60507825.56850527
RANGE                  = 2007-075T16:46:34.000         49862804.34773263
RANGE                  = 2007-075T16:50:01.000         39224958.54960792
RANGE                  = 2007-075T16:53:28.000          28594311.3704516
RANGE                  = 2007-075T16:56:55.000         17970873.86514912
RANGE                  = 2007-075T17:00:22.000         7354666.377532947
RANGE                  = 2007-075T17:03:49.000         63854567.17344048
RANGE                  = 2007-075T17:07:16.000         53252858.07842831
RANGE                  = 2007-075T17:10:43.000         42658413.71862719
DATA_STOP

".
(* ccsds_ndm/tests/data/kvn/tdm-testcase01b.xml *)
Definition obj_tdm_testcase01b : pyval :=
 VObj "Tdm" [("header", VObj "TdmHeader" [("comment", VList []);
 ("creation_date", VStr (lit "2007-183T23:04:11.014"));
 ("originator", VStr (lit "JPL"));
 ("message_id", VNone)]);
 ("body", VObj "TdmBody" [("segment", VList [VObj "TdmSegment" [("metadata", VObj "TdmMetadata" [("comment", VList []);
 ("track_id", VNone);
 ("data_types", VNone);
 ("time_system", VEnum "TimeSystemType" "UTC" (lit "UTC"));
 ("start_time", VNone);
 ("stop_time", VNone);
 ("participant_1", VStr (lit "'DSS-26'"));
 ("participant_2", VStr (lit "ROSETTA"));
 ("participant_3", VNone);
 ("participant_4", VNone);
 ("participant_5", VNone);
 ("mode", VEnum "ModeType" "SEQUENTIAL" (lit "SEQUENTIAL"));
 ("path", VStr (lit "1,2"));
 ("path_1", VNone);
 ("path_2", VNone);
 ("ephemeris_name_1", VNone);
 ("ephemeris_name_2", VNone);
 ("ephemeris_name_3", VNone);
 ("ephemeris_name_4", VNone);
 ("ephemeris_name_5", VNone);
 ("transmit_band", VStr (lit "X"));
 ("receive_band", VNone);
 ("turnaround_numerator", VNone);
 ("turnaround_denominator", VNone);
 ("timetag_ref", VNone);
 ("integration_interval", VNone);
 ("integration_ref", VNone);
 ("freq_offset", VNone);
 ("range_mode", VNone);
 ("range_modulus", VNone);
 ("range_units", VNone);
 ("angle_type", VNone);
 ("reference_frame", VNone);
 ("interpolation", VNone);
 ("interpolation_degree", VNone);
 ("doppler_count_bias", VNone);
 ("doppler_count_scale", VNone);
 ("doppler_count_rollover", VNone);
 ("transmit_delay_1", VNone);
 ("transmit_delay_2", VNone);
 ("transmit_delay_3", VNone);
 ("transmit_delay_4", VNone);
 ("transmit_delay_5", VNone);
 ("receive_delay_1", VNone);
 ("receive_delay_2", VNone);
 ("receive_delay_3", VNone);
 ("receive_delay_4", VNone);
 ("receive_delay_5", VNone);
 ("data_quality", VNone);
 ("correction_angle_1", VNone);
 ("correction_angle_2", VNone);
 ("correction_doppler", VNone);
 ("correction_mag", VNone);
 ("correction_range", VNone);
 ("correction_rcs", VNone);
 ("correction_receive", VNone);
 ("correction_transmit", VNone);
 ("correction_aberration_yearly", VNone);
 ("correction_aberration_diurnal", VNone);
 ("corrections_applied", VNone)]);
 ("data", VObj "TdmData" [("comment", VList []);
 ("observation", VList [VObj "TrackingDataObservationType" [("epoch", VStr (lit "2007-075T11:50:43.000"));
 ("angle_1", VNone);
 ("angle_2", VNone);
 ("carrier_power", VNone);
 ("clock_bias", VNone);
 ("clock_drift", VNone);
 ("doppler_count", VNone);
 ("doppler_instantaneous", VNone);
 ("doppler_integrated", VNone);
 ("dor", VNone);
 ("mag", VNone);
 ("pc_n0", VNone);
 ("pr_n0", VNone);
 ("pressure", VNone);
 ("range", VNone);
 ("rcs", VNone);
 ("receive_freq", VNone);
 ("receive_freq_1", VNone);
 ("receive_freq_2", VNone);
 ("receive_freq_3", VNone);
 ("receive_freq_4", VNone);
 ("receive_freq_5", VNone);
 ("receive_phase_ct_1", VNone);
 ("receive_phase_ct_2", VNone);
 ("receive_phase_ct_3", VNone);
 ("receive_phase_ct_4", VNone);
 ("receive_phase_ct_5", VNone);
 ("rhumidity", VNone);
 ("stec", VNone);
 ("temperature", VNone);
 ("transmit_freq_1", VDec (DFin false 7175510611700343%N (-6)%Z));
 ("transmit_freq_2", VNone);
 ("transmit_freq_3", VNone);
 ("transmit_freq_4", VNone);
 ("transmit_freq_5", VNone);
 ("transmit_freq_rate_1", VNone);
 ("transmit_freq_rate_2", VNone);
 ("transmit_freq_rate_3", VNone);
 ("transmit_freq_rate_4", VNone);
 ("transmit_freq_rate_5", VNone);
 ("transmit_phase_ct_1", VNone);
 ("transmit_phase_ct_2", VNone);
 ("transmit_phase_ct_3", VNone);
 ("transmit_phase_ct_4", VNone);
 ("transmit_phase_ct_5", VNone);
 ("tropo_dry", VNone);
 ("tropo_wet", VNone);
 ("vlbi_delay", VNone)]; VObj "TrackingDataObservationType" [("epoch", VStr (lit "2007-075T11:50:43.000"));
 ("angle_1", VNone);
 ("angle_2", VNone);
 ("carrier_power", VNone);
 ("clock_bias", VNone);
 ("clock_drift", VNone);
 ("doppler_count", VNone);
 ("doppler_instantaneous", VNone);
 ("doppler_integrated", VNone);
 ("dor", VNone);
 ("mag", VNone);
 ("pc_n0", VNone);
 ("pr_n0", VNone);
 ("pressure", VNone);
 ("range", VNone);
 ("rcs", VNone);
 ("receive_freq", VNone);
 ("receive_freq_1", VNone);
 ("receive_freq_2", VNone);
 ("receive_freq_3", VNone);
 ("receive_freq_4", VNone);
 ("receive_freq_5", VNone);
 ("receive_phase_ct_1", VNone);
 ("receive_phase_ct_2", VNone);
 ("receive_phase_ct_3", VNone);
 ("receive_phase_ct_4", VNone);
 ("receive_phase_ct_5", VNone);
 ("rhumidity", VNone);
 ("stec", VNone);
 ("temperature", VNone);
 ("transmit_freq_1", VNone);
 ("transmit_freq_2", VNone);
 ("transmit_freq_3", VNone);
 ("transmit_freq_4", VNone);
 ("transmit_freq_5", VNone);
 ("transmit_freq_rate_1", VDec (DFin false 0%N (-1)%Z));
 ("transmit_freq_rate_2", VNone);
 ("transmit_freq_rate_3", VNone);
 ("transmit_freq_rate_4", VNone);
 ("transmit_freq_rate_5", VNone);
 ("transmit_phase_ct_1", VNone);
 ("transmit_phase_ct_2", VNone);
 ("transmit_phase_ct_3", VNone);
 ("transmit_phase_ct_4", VNone);
 ("transmit_phase_ct_5", VNone);
 ("tropo_dry", VNone);
 ("tropo_wet", VNone);
 ("vlbi_delay", VNone)]; VObj "TrackingDataObservationType" [("epoch", VStr (lit "2007-075T11:50:54.000"));
 ("angle_1", VNone);
 ("angle_2", VNone);
 ("carrier_power", VNone);
 ("clock_bias", VNone);
 ("clock_drift", VNone);
 ("doppler_count", VNone);
 ("doppler_instantaneous", VNone);
 ("doppler_integrated", VNone);
 ("dor", VNone);
 ("mag", VNone);
 ("pc_n0", VNone);
 ("pr_n0", VNone);
 ("pressure", VNone);
 ("range", VNone);
 ("rcs", VNone);
 ("receive_freq", VNone);
 ("receive_freq_1", VNone);
 ("receive_freq_2", VNone);
 ("receive_freq_3", VNone);
 ("receive_freq_4", VNone);
 ("receive_freq_5", VNone);
 ("receive_phase_ct_1", VNone);
 ("receive_phase_ct_2", VNone);
 ("receive_phase_ct_3", VNone);
 ("receive_phase_ct_4", VNone);
 ("receive_phase_ct_5", VNone);
 ("rhumidity", VNone);
 ("stec", VNone);
 ("temperature", VNone);
 ("transmit_freq_1", VDec (DFin false 71679163840%N (-1)%Z));
 ("transmit_freq_2", VNone);
 ("transmit_freq_3", VNone);
 ("transmit_freq_4", VNone);
 ("transmit_freq_5", VNone);
 ("transmit_freq_rate_1", VNone);
 ("transmit_freq_rate_2", VNone);
 ("transmit_freq_rate_3", VNone);
 ("transmit_freq_rate_4", VNone);
 ("transmit_freq_rate_5", VNone);
 ("transmit_phase_ct_1", VNone);
 ("transmit_phase_ct_2", VNone);
 ("transmit_phase_ct_3", VNone);
 ("transmit_phase_ct_4", VNone);
 ("transmit_phase_ct_5", VNone);
 ("tropo_dry", VNone);
 ("tropo_wet", VNone);
 ("vlbi_delay", VNone)]; VObj "TrackingDataObservationType" [("epoch", VStr (lit "2007-075T11:50:54.000"));
 ("angle_1", VNone);
 ("angle_2", VNone);
 ("carrier_power", VNone);
 ("clock_bias", VNone);
 ("clock_drift", VNone);
 ("doppler_count", VNone);
 ("doppler_instantaneous", VNone);
 ("doppler_integrated", VNone);
 ("dor", VNone);
 ("mag", VNone);
 ("pc_n0", VNone);
 ("pr_n0", VNone);
 ("pressure", VNone);
 ("range", VNone);
 ("rcs", VNone);
 ("receive_freq", VNone);
 ("receive_freq_1", VNone);
 ("receive_freq_2", VNone);
 ("receive_freq_3", VNone);
 ("receive_freq_4", VNone);
 ("receive_freq_5", VNone);
 ("receive_phase_ct_1", VNone);
 ("receive_phase_ct_2", VNone);
 ("receive_phase_ct_3", VNone);
 ("receive_phase_ct_4", VNone);
 ("receive_phase_ct_5", VNone);
 ("rhumidity", VNone);
 ("stec", VNone);
 ("temperature", VNone);
 ("transmit_freq_1", VNone);
 ("transmit_freq_2", VNone);
 ("transmit_freq_3", VNone);
 ("transmit_freq_4", VNone);
 ("transmit_freq_5", VNone);
 ("transmit_freq_rate_1", VDec (DFin false 0%N (-1)%Z));
 ("transmit_freq_rate_2", VNone);
 ("transmit_freq_rate_3", VNone);
 ("transmit_freq_rate_4", VNone);
 ("transmit_freq_rate_5", VNone);
 ("transmit_phase_ct_1", VNone);
 ("transmit_phase_ct_2", VNone);
 ("transmit_phase_ct_3", VNone);
 ("transmit_phase_ct_4", VNone);
 ("transmit_phase_ct_5", VNone);
 ("tropo_dry", VNone);
 ("tropo_wet", VNone);
 ("vlbi_delay", VNone)]; VObj "TrackingDataObservationType" [("epoch", VStr (lit "2007-075T12:18:05.000"));
 ("angle_1", VNone);
 ("angle_2", VNone);
 ("carrier_power", VNone);
 ("clock_bias", VNone);
 ("clock_drift", VNone);
 ("doppler_count", VNone);
 ("doppler_instantaneous", VNone);
 ("doppler_integrated", VNone);
 ("dor", VNone);
 ("mag", VNone);
 ("pc_n0", VNone);
 ("pr_n0", VNone);
 ("pressure", VNone);
 ("range", VNone);
 ("rcs", VNone);
 ("receive_freq", VNone);
 ("receive_freq_1", VNone);
 ("receive_freq_2", VNone);
 ("receive_freq_3", VNone);
 ("receive_freq_4", VNone);
 ("receive_freq_5", VNone);
 ("receive_phase_ct_1", VNone);
 ("receive_phase_ct_2", VNone);
 ("receive_phase_ct_3", VNone);
 ("receive_phase_ct_4", VNone);
 ("receive_phase_ct_5", VNone);
 ("rhumidity", VNone);
 ("stec", VNone);
 ("temperature", VNone);
 ("transmit_freq_1", VDec (DFin false 71679163840%N (-1)%Z));
 ("transmit_freq_2", VNone);
 ("transmit_freq_3", VNone);
 ("transmit_freq_4", VNone);
 ("transmit_freq_5", VNone);
 ("transmit_freq_rate_1", VNone);
 ("transmit_freq_rate_2", VNone);
 ("transmit_freq_rate_3", VNone);
 ("transmit_freq_rate_4", VNone);
 ("transmit_freq_rate_5", VNone);
 ("transmit_phase_ct_1", VNone);
 ("transmit_phase_ct_2", VNone);
 ("transmit_phase_ct_3", VNone);
 ("transmit_phase_ct_4", VNone);
 ("transmit_phase_ct_5", VNone);
 ("tropo_dry", VNone);
 ("tropo_wet", VNone);
 ("vlbi_delay", VNone)]; VObj "TrackingDataObservationType" [("epoch", VStr (lit "2007-075T12:18:05.000"));
 ("angle_1", VNone);
 ("angle_2", VNone);
 ("carrier_power", VNone);
 ("clock_bias", VNone);
 ("clock_drift", VNone);
 ("doppler_count", VNone);
 ("doppler_instantaneous", VNone);
 ("doppler_integrated", VNone);
 ("dor", VNone);
 ("mag", VNone);
 ("pc_n0", VNone);
 ("pr_n0", VNone);
 ("pressure", VNone);
 ("range", VNone);
 ("rcs", VNone);
 ("receive_freq", VNone);
 ("receive_freq_1", VNone);
 ("receive_freq_2", VNone);
 ("receive_freq_3", VNone);
 ("receive_freq_4", VNone);
 ("receive_freq_5", VNone);
 ("receive_phase_ct_1", VNone);
 ("receive_phase_ct_2", VNone);
 ("receive_phase_ct_3", VNone);
 ("receive_phase_ct_4", VNone);
 ("receive_phase_ct_5", VNone);
 ("rhumidity", VNone);
 ("stec", VNone);
 ("temperature", VNone);
 ("transmit_freq_1", VNone);
 ("transmit_freq_2", VNone);
 ("transmit_freq_3", VNone);
 ("transmit_freq_4", VNone);
 ("transmit_freq_5", VNone);
 ("transmit_freq_rate_1", VDec (DFin false 0%N (-1)%Z));
 ("transmit_freq_rate_2", VNone);
 ("transmit_freq_rate_3", VNone);
 ("transmit_freq_rate_4", VNone);
 ("transmit_freq_rate_5", VNone);
 ("transmit_phase_ct_1", VNone);
 ("transmit_phase_ct_2", VNone);
 ("transmit_phase_ct_3", VNone);
 ("transmit_phase_ct_4", VNone);
 ("transmit_phase_ct_5", VNone);
 ("tropo_dry", VNone);
 ("tropo_wet", VNone);
 ("vlbi_delay", VNone)]; VObj "TrackingDataObservationType" [("epoch", VStr (lit "2007-075T12:18:06.000"));
 ("angle_1", VNone);
 ("angle_2", VNone);
 ("carrier_power", VNone);
 ("clock_bias", VNone);
 ("clock_drift", VNone);
 ("doppler_count", VNone);
 ("doppler_instantaneous", VNone);
 ("doppler_integrated", VNone);
 ("dor", VNone);
 ("mag", VNone);
 ("pc_n0", VNone);
 ("pr_n0", VNone);
 ("pressure", VNone);
 ("range", VNone);
 ("rcs", VNone);
 ("receive_freq", VNone);
 ("receive_freq_1", VNone);
 ("receive_freq_2", VNone);
 ("receive_freq_3", VNone);
 ("receive_freq_4", VNone);
 ("receive_freq_5", VNone);
 ("receive_phase_ct_1", VNone);
 ("receive_phase_ct_2", VNone);
 ("receive_phase_ct_3", VNone);
 ("receive_phase_ct_4", VNone);
 ("receive_phase_ct_5", VNone);
 ("rhumidity", VNone);
 ("stec", VNone);
 ("temperature", VNone);
 ("transmit_freq_1", VDec (DFin false 71679163840%N (-1)%Z));
 ("transmit_freq_2", VNone);
 ("transmit_freq_3", VNone);
 ("transmit_freq_4", VNone);
 ("transmit_freq_5", VNone);
 ("transmit_freq_rate_1", VNone);
 ("transmit_freq_rate_2", VNone);
 ("transmit_freq_rate_3", VNone);
 ("transmit_freq_rate_4", VNone);
 ("transmit_freq_rate_5", VNone);
 ("transmit_phase_ct_1", VNone);
 ("transmit_phase_ct_2", VNone);
 ("transmit_phase_ct_3", VNone);
 ("transmit_phase_ct_4", VNone);
 ("transmit_phase_ct_5", VNone);
 ("tropo_dry", VNone);
 ("tropo_wet", VNone);
 ("vlbi_delay", VNone)]; VObj "TrackingDataObservationType" [("epoch", VStr (lit "2007-075T12:18:06.000"));
 ("angle_1", VNone);
 ("angle_2", VNone);
 ("carrier_power", VNone);
 ("clock_bias", VNone);
 ("clock_drift", VNone);
 ("doppler_count", VNone);
 ("doppler_instantaneous", VNone);
 ("doppler_integrated", VNone);
 ("dor", VNone);
 ("mag", VNone);
 ("pc_n0", VNone);
 ("pr_n0", VNone);
 ("pressure", VNone);
 ("range", VNone);
 ("rcs", VNone);
 ("receive_freq", VNone);
 ("receive_freq_1", VNone);
 ("receive_freq_2", VNone);
 ("receive_freq_3", VNone);
 ("receive_freq_4", VNone);
 ("receive_freq_5", VNone);
 ("receive_phase_ct_1", VNone);
 ("receive_phase_ct_2", VNone);
 ("receive_phase_ct_3", VNone);
 ("receive_phase_ct_4", VNone);
 ("receive_phase_ct_5", VNone);
 ("rhumidity", VNone);
 ("stec", VNone);
 ("temperature", VNone);
 ("transmit_freq_1", VNone);
 ("transmit_freq_2", VNone);
 ("transmit_freq_3", VNone);
 ("transmit_freq_4", VNone);
 ("transmit_freq_5", VNone);
 ("transmit_freq_rate_1", VDec (DFin false 0%N (-1)%Z));
 ("transmit_freq_rate_2", VNone);
 ("transmit_freq_rate_3", VNone);
 ("transmit_freq_rate_4", VNone);
 ("transmit_freq_rate_5", VNone);
 ("transmit_phase_ct_1", VNone);
 ("transmit_phase_ct_2", VNone);
 ("transmit_phase_ct_3", VNone);
 ("transmit_phase_ct_4", VNone);
 ("transmit_phase_ct_5", VNone);
 ("tropo_dry", VNone);
 ("tropo_wet", VNone);
 ("vlbi_delay", VNone)]; VObj "TrackingDataObservationType" [("epoch", VStr (lit "2007-075T12:19:30.000"));
 ("angle_1", VNone);
 ("angle_2", VNone);
 ("carrier_power", VNone);
 ("clock_bias", VNone);
 ("clock_drift", VNone);
 ("doppler_count", VNone);
 ("doppler_instantaneous", VNone);
 ("doppler_integrated", VNone);
 ("dor", VNone);
 ("mag", VNone);
 ("pc_n0", VNone);
 ("pr_n0", VNone);
 ("pressure", VNone);
 ("range", VNone);
 ("rcs", VNone);
 ("receive_freq", VNone);
 ("receive_freq_1", VNone);
 ("receive_freq_2", VNone);
 ("receive_freq_3", VNone);
 ("receive_freq_4", VNone);
 ("receive_freq_5", VNone);
 ("receive_phase_ct_1", VNone);
 ("receive_phase_ct_2", VNone);
 ("receive_phase_ct_3", VNone);
 ("receive_phase_ct_4", VNone);
 ("receive_phase_ct_5", VNone);
 ("rhumidity", VNone);
 ("stec", VNone);
 ("temperature", VNone);
 ("transmit_freq_1", VDec (DFin false 71679163840%N (-1)%Z));
 ("transmit_freq_2", VNone);
 ("transmit_freq_3", VNone);
 ("transmit_freq_4", VNone);
 ("transmit_freq_5", VNone);
 ("transmit_freq_rate_1", VNone);
 ("transmit_freq_rate_2", VNone);
 ("transmit_freq_rate_3", VNone);
 ("transmit_freq_rate_4", VNone);
 ("transmit_freq_rate_5", VNone);
 ("transmit_phase_ct_1", VNone);
 ("transmit_phase_ct_2", VNone);
 ("transmit_phase_ct_3", VNone);
 ("transmit_phase_ct_4", VNone);
 ("transmit_phase_ct_5", VNone);
 ("tropo_dry", VNone);
 ("tropo_wet", VNone);
 ("vlbi_delay", VNone)]; VObj "TrackingDataObservationType" [("epoch", VStr (lit "2007-075T12:19:30.000"));
 ("angle_1", VNone);
 ("angle_2", VNone);
 ("carrier_power", VNone);
 ("clock_bias", VNone);
 ("clock_drift", VNone);
 ("doppler_count", VNone);
 ("doppler_instantaneous", VNone);
 ("doppler_integrated", VNone);
 ("dor", VNone);
 ("mag", VNone);
 ("pc_n0", VNone);
 ("pr_n0", VNone);
 ("pressure", VNone);
 ("range", VNone);
 ("rcs", VNone);
 ("receive_freq", VNone);
 ("receive_freq_1", VNone);
 ("receive_freq_2", VNone);
 ("receive_freq_3", VNone);
 ("receive_freq_4", VNone);
 ("receive_freq_5", VNone);
 ("receive_phase_ct_1", VNone);
 ("receive_phase_ct_2", VNone);
 ("receive_phase_ct_3", VNone);
 ("receive_phase_ct_4", VNone);
 ("receive_phase_ct_5", VNone);
 ("rhumidity", VNone);
 ("stec", VNone);
 ("temperature", VNone);
 ("transmit_freq_1", VNone);
 ("transmit_freq_2", VNone);
 ("transmit_freq_3", VNone);
 ("transmit_freq_4", VNone);
 ("transmit_freq_5", VNone);
 ("transmit_freq_rate_1", VDec (DFin false 0%N (-1)%Z));
 ("transmit_freq_rate_2", VNone);
 ("transmit_freq_rate_3", VNone);
 ("transmit_freq_rate_4", VNone);
 ("transmit_freq_rate_5", VNone);
 ("transmit_phase_ct_1", VNone);
 ("transmit_phase_ct_2", VNone);
 ("transmit_phase_ct_3", VNone);
 ("transmit_phase_ct_4", VNone);
 ("transmit_phase_ct_5", VNone);
 ("tropo_dry", VNone);
 ("tropo_wet", VNone);
 ("vlbi_delay", VNone)]; VObj "TrackingDataObservationType" [("epoch", VStr (lit "2007-075T12:25:54.000"));
 ("angle_1", VNone);
 ("angle_2", VNone);
 ("carrier_power", VNone);
 ("clock_bias", VNone);
 ("clock_drift", VNone);
 ("doppler_count", VNone);
 ("doppler_instantaneous", VNone);
 ("doppler_integrated", VNone);
 ("dor", VNone);
 ("mag", VNone);
 ("pc_n0", VNone);
 ("pr_n0", VNone);
 ("pressure", VNone);
 ("range", VNone);
 ("rcs", VNone);
 ("receive_freq", VNone);
 ("receive_freq_1", VNone);
 ("receive_freq_2", VNone);
 ("receive_freq_3", VNone);
 ("receive_freq_4", VNone);
 ("receive_freq_5", VNone);
 ("receive_phase_ct_1", VNone);
 ("receive_phase_ct_2", VNone);
 ("receive_phase_ct_3", VNone);
 ("receive_phase_ct_4", VNone);
 ("receive_phase_ct_5", VNone);
 ("rhumidity", VNone);
 ("stec", VNone);
 ("temperature", VNone);
 ("transmit_freq_1", VDec (DFin false 71679163840%N (-1)%Z));
 ("transmit_freq_2", VNone);
 ("transmit_freq_3", VNone);
 ("transmit_freq_4", VNone);
 ("transmit_freq_5", VNone);
 ("transmit_freq_rate_1", VNone);
 ("transmit_freq_rate_2", VNone);
 ("transmit_freq_rate_3", VNone);
 ("transmit_freq_rate_4", VNone);
 ("transmit_freq_rate_5", VNone);
 ("transmit_phase_ct_1", VNone);
 ("transmit_phase_ct_2", VNone);
 ("transmit_phase_ct_3", VNone);
 ("transmit_phase_ct_4", VNone);
 ("transmit_phase_ct_5", VNone);
 ("tropo_dry", VNone);
 ("tropo_wet", VNone);
 ("vlbi_delay", VNone)]; VObj "TrackingDataObservationType" [("epoch", VStr (lit "2007-075T12:25:54.000"));
 ("angle_1", VNone);
 ("angle_2", VNone);
 ("carrier_power", VNone);
 ("clock_bias", VNone);
 ("clock_drift", VNone);
 ("doppler_count", VNone);
 ("doppler_instantaneous", VNone);
 ("doppler_integrated", VNone);
 ("dor", VNone);
 ("mag", VNone);
 ("pc_n0", VNone);
 ("pr_n0", VNone);
 ("pressure", VNone);
 ("range", VNone);
 ("rcs", VNone);
 ("receive_freq", VNone);
 ("receive_freq_1", VNone);
 ("receive_freq_2", VNone);
 ("receive_freq_3", VNone);
 ("receive_freq_4", VNone);
 ("receive_freq_5", VNone);
 ("receive_phase_ct_1", VNone);
 ("receive_phase_ct_2", VNone);
 ("receive_phase_ct_3", VNone);
 ("receive_phase_ct_4", VNone);
 ("receive_phase_ct_5", VNone);
 ("rhumidity", VNone);
 ("stec", VNone);
 ("temperature", VNone);
 ("transmit_freq_1", VNone);
 ("transmit_freq_2", VNone);
 ("transmit_freq_3", VNone);
 ("transmit_freq_4", VNone);
 ("transmit_freq_5", VNone);
 ("transmit_freq_rate_1", VDec (DFin false 0%N (-1)%Z));
 ("transmit_freq_rate_2", VNone);
 ("transmit_freq_rate_3", VNone);
 ("transmit_freq_rate_4", VNone);
 ("transmit_freq_rate_5", VNone);
 ("transmit_phase_ct_1", VNone);
 ("transmit_phase_ct_2", VNone);
 ("transmit_phase_ct_3", VNone);
 ("transmit_phase_ct_4", VNone);
 ("transmit_phase_ct_5", VNone);
 ("tropo_dry", VNone);
 ("tropo_wet", VNone);
 ("vlbi_delay", VNone)]; VObj "TrackingDataObservationType" [("epoch", VStr (lit "2007-075T12:27:39.000"));
 ("angle_1", VNone);
 ("angle_2", VNone);
 ("carrier_power", VNone);
 ("clock_bias", VNone);
 ("clock_drift", VNone);
 ("doppler_count", VNone);
 ("doppler_instantaneous", VNone);
 ("doppler_integrated", VNone);
 ("dor", VNone);
 ("mag", VNone);
 ("pc_n0", VNone);
 ("pr_n0", VNone);
 ("pressure", VNone);
 ("range", VNone);
 ("rcs", VNone);
 ("receive_freq", VNone);
 ("receive_freq_1", VNone);
 ("receive_freq_2", VNone);
 ("receive_freq_3", VNone);
 ("receive_freq_4", VNone);
 ("receive_freq_5", VNone);
 ("receive_phase_ct_1", VNone);
 ("receive_phase_ct_2", VNone);
 ("receive_phase_ct_3", VNone);
 ("receive_phase_ct_4", VNone);
 ("receive_phase_ct_5", VNone);
 ("rhumidity", VNone);
 ("stec", VNone);
 ("temperature", VNone);
 ("transmit_freq_1", VDec (DFin false 71679163840%N (-1)%Z));
 ("transmit_freq_2", VNone);
 ("transmit_freq_3", VNone);
 ("transmit_freq_4", VNone);
 ("transmit_freq_5", VNone);
 ("transmit_freq_rate_1", VNone);
 ("transmit_freq_rate_2", VNone);
 ("transmit_freq_rate_3", VNone);
 ("transmit_freq_rate_4", VNone);
 ("transmit_freq_rate_5", VNone);
 ("transmit_phase_ct_1", VNone);
 ("transmit_phase_ct_2", VNone);
 ("transmit_phase_ct_3", VNone);
 ("transmit_phase_ct_4", VNone);
 ("transmit_phase_ct_5", VNone);
 ("tropo_dry", VNone);
 ("tropo_wet", VNone);
 ("vlbi_delay", VNone)]; VObj "TrackingDataObservationType" [("epoch", VStr (lit "2007-075T12:27:39.000"));
 ("angle_1", VNone);
 ("angle_2", VNone);
 ("carrier_power", VNone);
 ("clock_bias", VNone);
 ("clock_drift", VNone);
 ("doppler_count", VNone);
 ("doppler_instantaneous", VNone);
 ("doppler_integrated", VNone);
 ("dor", VNone);
 ("mag", VNone);
 ("pc_n0", VNone);
 ("pr_n0", VNone);
 ("pressure", VNone);
 ("range", VNone);
 ("rcs", VNone);
 ("receive_freq", VNone);
 ("receive_freq_1", VNone);
 ("receive_freq_2", VNone);
 ("receive_freq_3", VNone);
 ("receive_freq_4", VNone);
 ("receive_freq_5", VNone);
 ("receive_phase_ct_1", VNone);
 ("receive_phase_ct_2", VNone);
 ("receive_phase_ct_3", VNone);
 ("receive_phase_ct_4", VNone);
 ("receive_phase_ct_5", VNone);
 ("rhumidity", VNone);
 ("stec", VNone);
 ("temperature", VNone);
 ("transmit_freq_1", VNone);
 ("transmit_freq_2", VNone);
 ("transmit_freq_3", VNone);
 ("transmit_freq_4", VNone);
 ("transmit_freq_5", VNone);
 ("transmit_freq_rate_1", VDec (DFin false 0%N (-1)%Z));
 ("transmit_freq_rate_2", VNone);
 ("transmit_freq_rate_3", VNone);
 ("transmit_freq_rate_4", VNone);
 ("transmit_freq_rate_5", VNone);
 ("transmit_phase_ct_1", VNone);
 ("transmit_phase_ct_2", VNone);
 ("transmit_phase_ct_3", VNone);
 ("transmit_phase_ct_4", VNone);
 ("transmit_phase_ct_5", VNone);
 ("tropo_dry", VNone);
 ("tropo_wet", VNone);
 ("vlbi_delay", VNone)]; VObj "TrackingDataObservationType" [("epoch", VStr (lit "2007-075T12:27:47.000"));
 ("angle_1", VNone);
 ("angle_2", VNone);
 ("carrier_power", VNone);
 ("clock_bias", VNone);
 ("clock_drift", VNone);
 ("doppler_count", VNone);
 ("doppler_instantaneous", VNone);
 ("doppler_integrated", VNone);
 ("dor", VNone);
 ("mag", VNone);
 ("pc_n0", VNone);
 ("pr_n0", VNone);
 ("pressure", VNone);
 ("range", VNone);
 ("rcs", VNone);
 ("receive_freq", VNone);
 ("receive_freq_1", VNone);
 ("receive_freq_2", VNone);
 ("receive_freq_3", VNone);
 ("receive_freq_4", VNone);
 ("receive_freq_5", VNone);
 ("receive_phase_ct_1", VNone);
 ("receive_phase_ct_2", VNone);
 ("receive_phase_ct_3", VNone);
 ("receive_phase_ct_4", VNone);
 ("receive_phase_ct_5", VNone);
 ("rhumidity", VNone);
 ("stec", VNone);
 ("temperature", VNone);
 ("transmit_freq_1", VDec (DFin false 71679163840%N (-1)%Z));
 ("transmit_freq_2", VNone);
 ("transmit_freq_3", VNone);
 ("transmit_freq_4", VNone);
 ("transmit_freq_5", VNone);
 ("transmit_freq_rate_1", VNone);
 ("transmit_freq_rate_2", VNone);
 ("transmit_freq_rate_3", VNone);
 ("transmit_freq_rate_4", VNone);
 ("transmit_freq_rate_5", VNone);
 ("transmit_phase_ct_1", VNone);
 ("transmit_phase_ct_2", VNone);
 ("transmit_phase_ct_3", VNone);
 ("transmit_phase_ct_4", VNone);
 ("transmit_phase_ct_5", VNone);
 ("tropo_dry", VNone);
 ("tropo_wet", VNone);
 ("vlbi_delay", VNone)]; VObj "TrackingDataObservationType" [("epoch", VStr (lit "2007-075T12:27:47.000"));
 ("angle_1", VNone);
 ("angle_2", VNone);
 ("carrier_power", VNone);
 ("clock_bias", VNone);
 ("clock_drift", VNone);
 ("doppler_count", VNone);
 ("doppler_instantaneous", VNone);
 ("doppler_integrated", VNone);
 ("dor", VNone);
 ("mag", VNone);
 ("pc_n0", VNone);
 ("pr_n0", VNone);
 ("pressure", VNone);
 ("range", VNone);
 ("rcs", VNone);
 ("receive_freq", VNone);
 ("receive_freq_1", VNone);
 ("receive_freq_2", VNone);
 ("receive_freq_3", VNone);
 ("receive_freq_4", VNone);
 ("receive_freq_5", VNone);
 ("receive_phase_ct_1", VNone);
 ("receive_phase_ct_2", VNone);
 ("receive_phase_ct_3", VNone);
 ("receive_phase_ct_4", VNone);
 ("receive_phase_ct_5", VNone);
 ("rhumidity", VNone);
 ("stec", VNone);
 ("temperature", VNone);
 ("transmit_freq_1", VNone);
 ("transmit_freq_2", VNone);
 ("transmit_freq_3", VNone);
 ("transmit_freq_4", VNone);
 ("transmit_freq_5", VNone);
 ("transmit_freq_rate_1", VDec (DFin false 0%N (-1)%Z));
 ("transmit_freq_rate_2", VNone);
 ("transmit_freq_rate_3", VNone);
 ("transmit_freq_rate_4", VNone);
 ("transmit_freq_rate_5", VNone);
 ("transmit_phase_ct_1", VNone);
 ("transmit_phase_ct_2", VNone);
 ("transmit_phase_ct_3", VNone);
 ("transmit_phase_ct_4", VNone);
 ("transmit_phase_ct_5", VNone);
 ("tropo_dry", VNone);
 ("tropo_wet", VNone);
 ("vlbi_delay", VNone)]; VObj "TrackingDataObservationType" [("epoch", VStr (lit "2007-075T13:14:45.000"));
 ("angle_1", VNone);
 ("angle_2", VNone);
 ("carrier_power", VNone);
 ("clock_bias", VNone);
 ("clock_drift", VNone);
 ("doppler_count", VNone);
 ("doppler_instantaneous", VNone);
 ("doppler_integrated", VNone);
 ("dor", VNone);
 ("mag", VNone);
 ("pc_n0", VNone);
 ("pr_n0", VNone);
 ("pressure", VNone);
 ("range", VNone);
 ("rcs", VNone);
 ("receive_freq", VNone);
 ("receive_freq_1", VNone);
 ("receive_freq_2", VNone);
 ("receive_freq_3", VNone);
 ("receive_freq_4", VNone);
 ("receive_freq_5", VNone);
 ("receive_phase_ct_1", VNone);
 ("receive_phase_ct_2", VNone);
 ("receive_phase_ct_3", VNone);
 ("receive_phase_ct_4", VNone);
 ("receive_phase_ct_5", VNone);
 ("rhumidity", VNone);
 ("stec", VNone);
 ("temperature", VNone);
 ("transmit_freq_1", VDec (DFin false 71679163840%N (-1)%Z));
 ("transmit_freq_2", VNone);
 ("transmit_freq_3", VNone);
 ("transmit_freq_4", VNone);
 ("transmit_freq_5", VNone);
 ("transmit_freq_rate_1", VNone);
 ("transmit_freq_rate_2", VNone);
 ("transmit_freq_rate_3", VNone);
 ("transmit_freq_rate_4", VNone);
 ("transmit_freq_rate_5", VNone);
 ("transmit_phase_ct_1", VNone);
 ("transmit_phase_ct_2", VNone);
 ("transmit_phase_ct_3", VNone);
 ("transmit_phase_ct_4", VNone);
 ("transmit_phase_ct_5", VNone);
 ("tropo_dry", VNone);
 ("tropo_wet", VNone);
 ("vlbi_delay", VNone)]; VObj "TrackingDataObservationType" [("epoch", VStr (lit "2007-075T13:14:45.000"));
 ("angle_1", VNone);
 ("angle_2", VNone);
 ("carrier_power", VNone);
 ("clock_bias", VNone);
 ("clock_drift", VNone);
 ("doppler_count", VNone);
 ("doppler_instantaneous", VNone);
 ("doppler_integrated", VNone);
 ("dor", VNone);
 ("mag", VNone);
 ("pc_n0", VNone);
 ("pr_n0", VNone);
 ("pressure", VNone);
 ("range", VNone);
 ("rcs", VNone);
 ("receive_freq", VNone);
 ("receive_freq_1", VNone);
 ("receive_freq_2", VNone);
 ("receive_freq_3", VNone);
 ("receive_freq_4", VNone);
 ("receive_freq_5", VNone);
 ("receive_phase_ct_1", VNone);
 ("receive_phase_ct_2", VNone);
 ("receive_phase_ct_3", VNone);
 ("receive_phase_ct_4", VNone);
 ("receive_phase_ct_5", VNone);
 ("rhumidity", VNone);
 ("stec", VNone);
 ("temperature", VNone);
 ("transmit_freq_1", VNone);
 ("transmit_freq_2", VNone);
 ("transmit_freq_3", VNone);
 ("transmit_freq_4", VNone);
 ("transmit_freq_5", VNone);
 ("transmit_freq_rate_1", VDec (DFin true 10000%N (-1)%Z));
 ("transmit_freq_rate_2", VNone);
 ("transmit_freq_rate_3", VNone);
 ("transmit_freq_rate_4", VNone);
 ("transmit_freq_rate_5", VNone);
 ("transmit_phase_ct_1", VNone);
 ("transmit_phase_ct_2", VNone);
 ("transmit_phase_ct_3", VNone);
 ("transmit_phase_ct_4", VNone);
 ("transmit_phase_ct_5", VNone);
 ("tropo_dry", VNone);
 ("tropo_wet", VNone);
 ("vlbi_delay", VNone)]; VObj "TrackingDataObservationType" [("epoch", VStr (lit "2007-075T13:14:55.000"));
 ("angle_1", VNone);
 ("angle_2", VNone);
 ("carrier_power", VNone);
 ("clock_bias", VNone);
 ("clock_drift", VNone);
 ("doppler_count", VNone);
 ("doppler_instantaneous", VNone);
 ("doppler_integrated", VNone);
 ("dor", VNone);
 ("mag", VNone);
 ("pc_n0", VNone);
 ("pr_n0", VNone);
 ("pressure", VNone);
 ("range", VNone);
 ("rcs", VNone);
 ("receive_freq", VNone);
 ("receive_freq_1", VNone);
 ("receive_freq_2", VNone);
 ("receive_freq_3", VNone);
 ("receive_freq_4", VNone);
 ("receive_freq_5", VNone);
 ("receive_phase_ct_1", VNone);
 ("receive_phase_ct_2", VNone);
 ("receive_phase_ct_3", VNone);
 ("receive_phase_ct_4", VNone);
 ("receive_phase_ct_5", VNone);
 ("rhumidity", VNone);
 ("stec", VNone);
 ("temperature", VNone);
 ("transmit_freq_1", VDec (DFin false 71679063840%N (-1)%Z));
 ("transmit_freq_2", VNone);
 ("transmit_freq_3", VNone);
 ("transmit_freq_4", VNone);
 ("transmit_freq_5", VNone);
 ("transmit_freq_rate_1", VNone);
 ("transmit_freq_rate_2", VNone);
 ("transmit_freq_rate_3", VNone);
 ("transmit_freq_rate_4", VNone);
 ("transmit_freq_rate_5", VNone);
 ("transmit_phase_ct_1", VNone);
 ("transmit_phase_ct_2", VNone);
 ("transmit_phase_ct_3", VNone);
 ("transmit_phase_ct_4", VNone);
 ("transmit_phase_ct_5", VNone);
 ("tropo_dry", VNone);
 ("tropo_wet", VNone);
 ("vlbi_delay", VNone)]; VObj "TrackingDataObservationType" [("epoch", VStr (lit "2007-075T13:14:55.000"));
 ("angle_1", VNone);
 ("angle_2", VNone);
 ("carrier_power", VNone);
 ("clock_bias", VNone);
 ("clock_drift", VNone);
 ("doppler_count", VNone);
 ("doppler_instantaneous", VNone);
 ("doppler_integrated", VNone);
 ("dor", VNone);
 ("mag", VNone);
 ("pc_n0", VNone);
 ("pr_n0", VNone);
 ("pressure", VNone);
 ("range", VNone);
 ("rcs", VNone);
 ("receive_freq", VNone);
 ("receive_freq_1", VNone);
 ("receive_freq_2", VNone);
 ("receive_freq_3", VNone);
 ("receive_freq_4", VNone);
 ("receive_freq_5", VNone);
 ("receive_phase_ct_1", VNone);
 ("receive_phase_ct_2", VNone);
 ("receive_phase_ct_3", VNone);
 ("receive_phase_ct_4", VNone);
 ("receive_phase_ct_5", VNone);
 ("rhumidity", VNone);
 ("stec", VNone);
 ("temperature", VNone);
 ("transmit_freq_1", VNone);
 ("transmit_freq_2", VNone);
 ("transmit_freq_3", VNone);
 ("transmit_freq_4", VNone);
 ("transmit_freq_5", VNone);
 ("transmit_freq_rate_1", VDec (DFin false 0%N (-1)%Z));
 ("transmit_freq_rate_2", VNone);
 ("transmit_freq_rate_3", VNone);
 ("transmit_freq_rate_4", VNone);
 ("transmit_freq_rate_5", VNone);
 ("transmit_phase_ct_1", VNone);
 ("transmit_phase_ct_2", VNone);
 ("transmit_phase_ct_3", VNone);
 ("transmit_phase_ct_4", VNone);
 ("transmit_phase_ct_5", VNone);
 ("tropo_dry", VNone);
 ("tropo_wet", VNone);
 ("vlbi_delay", VNone)]; VObj "TrackingDataObservationType" [("epoch", VStr (lit "2007-075T13:15:00.000"));
 ("angle_1", VNone);
 ("angle_2", VNone);
 ("carrier_power", VNone);
 ("clock_bias", VNone);
 ("clock_drift", VNone);
 ("doppler_count", VNone);
 ("doppler_instantaneous", VNone);
 ("doppler_integrated", VNone);
 ("dor", VNone);
 ("mag", VNone);
 ("pc_n0", VNone);
 ("pr_n0", VNone);
 ("pressure", VNone);
 ("range", VNone);
 ("rcs", VNone);
 ("receive_freq", VNone);
 ("receive_freq_1", VNone);
 ("receive_freq_2", VNone);
 ("receive_freq_3", VNone);
 ("receive_freq_4", VNone);
 ("receive_freq_5", VNone);
 ("receive_phase_ct_1", VNone);
 ("receive_phase_ct_2", VNone);
 ("receive_phase_ct_3", VNone);
 ("receive_phase_ct_4", VNone);
 ("receive_phase_ct_5", VNone);
 ("rhumidity", VNone);
 ("stec", VNone);
 ("temperature", VNone);
 ("transmit_freq_1", VDec (DFin false 71679063840%N (-1)%Z));
 ("transmit_freq_2", VNone);
 ("transmit_freq_3", VNone);
 ("transmit_freq_4", VNone);
 ("transmit_freq_5", VNone);
 ("transmit_freq_rate_1", VNone);
 ("transmit_freq_rate_2", VNone);
 ("transmit_freq_rate_3", VNone);
 ("transmit_freq_rate_4", VNone);
 ("transmit_freq_rate_5", VNone);
 ("transmit_phase_ct_1", VNone);
 ("transmit_phase_ct_2", VNone);
 ("transmit_phase_ct_3", VNone);
 ("transmit_phase_ct_4", VNone);
 ("transmit_phase_ct_5", VNone);
 ("tropo_dry", VNone);
 ("tropo_wet", VNone);
 ("vlbi_delay", VNone)]; VObj "TrackingDataObservationType" [("epoch", VStr (lit "2007-075T13:15:00.000"));
 ("angle_1", VNone);
 ("angle_2", VNone);
 ("carrier_power", VNone);
 ("clock_bias", VNone);
 ("clock_drift", VNone);
 ("doppler_count", VNone);
 ("doppler_instantaneous", VNone);
 ("doppler_integrated", VNone);
 ("dor", VNone);
 ("mag", VNone);
 ("pc_n0", VNone);
 ("pr_n0", VNone);
 ("pressure", VNone);
 ("range", VNone);
 ("rcs", VNone);
 ("receive_freq", VNone);
 ("receive_freq_1", VNone);
 ("receive_freq_2", VNone);
 ("receive_freq_3", VNone);
 ("receive_freq_4", VNone);
 ("receive_freq_5", VNone);
 ("receive_phase_ct_1", VNone);
 ("receive_phase_ct_2", VNone);
 ("receive_phase_ct_3", VNone);
 ("receive_phase_ct_4", VNone);
 ("receive_phase_ct_5", VNone);
 ("rhumidity", VNone);
 ("stec", VNone);
 ("temperature", VNone);
 ("transmit_freq_1", VNone);
 ("transmit_freq_2", VNone);
 ("transmit_freq_3", VNone);
 ("transmit_freq_4", VNone);
 ("transmit_freq_5", VNone);
 ("transmit_freq_rate_1", VDec (DFin false 0%N (-1)%Z));
 ("transmit_freq_rate_2", VNone);
 ("transmit_freq_rate_3", VNone);
 ("transmit_freq_rate_4", VNone);
 ("transmit_freq_rate_5", VNone);
 ("transmit_phase_ct_1", VNone);
 ("transmit_phase_ct_2", VNone);
 ("transmit_phase_ct_3", VNone);
 ("transmit_phase_ct_4", VNone);
 ("transmit_phase_ct_5", VNone);
 ("tropo_dry", VNone);
 ("tropo_wet", VNone);
 ("vlbi_delay", VNone)]; VObj "TrackingDataObservationType" [("epoch", VStr (lit "2007-075T13:15:04.000"));
 ("angle_1", VNone);
 ("angle_2", VNone);
 ("carrier_power", VNone);
 ("clock_bias", VNone);
 ("clock_drift", VNone);
 ("doppler_count", VNone);
 ("doppler_instantaneous", VNone);
 ("doppler_integrated", VNone);
 ("dor", VNone);
 ("mag", VNone);
 ("pc_n0", VNone);
 ("pr_n0", VNone);
 ("pressure", VNone);
 ("range", VNone);
 ("rcs", VNone);
 ("receive_freq", VNone);
 ("receive_freq_1", VNone);
 ("receive_freq_2", VNone);
 ("receive_freq_3", VNone);
 ("receive_freq_4", VNone);
 ("receive_freq_5", VNone);
 ("receive_phase_ct_1", VNone);
 ("receive_phase_ct_2", VNone);
 ("receive_phase_ct_3", VNone);
 ("receive_phase_ct_4", VNone);
 ("receive_phase_ct_5", VNone);
 ("rhumidity", VNone);
 ("stec", VNone);
 ("temperature", VNone);
 ("transmit_freq_1", VDec (DFin false 71679063840%N (-1)%Z));
 ("transmit_freq_2", VNone);
 ("transmit_freq_3", VNone);
 ("transmit_freq_4", VNone);
 ("transmit_freq_5", VNone);
 ("transmit_freq_rate_1", VNone);
 ("transmit_freq_rate_2", VNone);
 ("transmit_freq_rate_3", VNone);
 ("transmit_freq_rate_4", VNone);
 ("transmit_freq_rate_5", VNone);
 ("transmit_phase_ct_1", VNone);
 ("transmit_phase_ct_2", VNone);
 ("transmit_phase_ct_3", VNone);
 ("transmit_phase_ct_4", VNone);
 ("transmit_phase_ct_5", VNone);
 ("tropo_dry", VNone);
 ("tropo_wet", VNone);
 ("vlbi_delay", VNone)]; VObj "TrackingDataObservationType" [("epoch", VStr (lit "2007-075T13:15:04.000"));
 ("angle_1", VNone);
 ("angle_2", VNone);
 ("carrier_power", VNone);
 ("clock_bias", VNone);
 ("clock_drift", VNone);
 ("doppler_count", VNone);
 ("doppler_instantaneous", VNone);
 ("doppler_integrated", VNone);
 ("dor", VNone);
 ("mag", VNone);
 ("pc_n0", VNone);
 ("pr_n0", VNone);
 ("pressure", VNone);
 ("range", VNone);
 ("rcs", VNone);
 ("receive_freq", VNone);
 ("receive_freq_1", VNone);
 ("receive_freq_2", VNone);
 ("receive_freq_3", VNone);
 ("receive_freq_4", VNone);
 ("receive_freq_5", VNone);
 ("receive_phase_ct_1", VNone);
 ("receive_phase_ct_2", VNone);
 ("receive_phase_ct_3", VNone);
 ("receive_phase_ct_4", VNone);
 ("receive_phase_ct_5", VNone);
 ("rhumidity", VNone);
 ("stec", VNone);
 ("temperature", VNone);
 ("transmit_freq_1", VNone);
 ("transmit_freq_2", VNone);
 ("transmit_freq_3", VNone);
 ("transmit_freq_4", VNone);
 ("transmit_freq_5", VNone);
 ("transmit_freq_rate_1", VDec (DFin false 0%N (-1)%Z));
 ("transmit_freq_rate_2", VNone);
 ("transmit_freq_rate_3", VNone);
 ("transmit_freq_rate_4", VNone);
 ("transmit_freq_rate_5", VNone);
 ("transmit_phase_ct_1", VNone);
 ("transmit_phase_ct_2", VNone);
 ("transmit_phase_ct_3", VNone);
 ("transmit_phase_ct_4", VNone);
 ("transmit_phase_ct_5", VNone);
 ("tropo_dry", VNone);
 ("tropo_wet", VNone);
 ("vlbi_delay", VNone)]; VObj "TrackingDataObservationType" [("epoch", VStr (lit "2007-075T13:15:05.000"));
 ("angle_1", VNone);
 ("angle_2", VNone);
 ("carrier_power", VNone);
 ("clock_bias", VNone);
 ("clock_drift", VNone);
 ("doppler_count", VNone);
 ("doppler_instantaneous", VNone);
 ("doppler_integrated", VNone);
 ("dor", VNone);
 ("mag", VNone);
 ("pc_n0", VNone);
 ("pr_n0", VNone);
 ("pressure", VNone);
 ("range", VNone);
 ("rcs", VNone);
 ("receive_freq", VNone);
 ("receive_freq_1", VNone);
 ("receive_freq_2", VNone);
 ("receive_freq_3", VNone);
 ("receive_freq_4", VNone);
 ("receive_freq_5", VNone);
 ("receive_phase_ct_1", VNone);
 ("receive_phase_ct_2", VNone);
 ("receive_phase_ct_3", VNone);
 ("receive_phase_ct_4", VNone);
 ("receive_phase_ct_5", VNone);
 ("rhumidity", VNone);
 ("stec", VNone);
 ("temperature", VNone);
 ("transmit_freq_1", VDec (DFin false 71679063840%N (-1)%Z));
 ("transmit_freq_2", VNone);
 ("transmit_freq_3", VNone);
 ("transmit_freq_4", VNone);
 ("transmit_freq_5", VNone);
 ("transmit_freq_rate_1", VNone);
 ("transmit_freq_rate_2", VNone);
 ("transmit_freq_rate_3", VNone);
 ("transmit_freq_rate_4", VNone);
 ("transmit_freq_rate_5", VNone);
 ("transmit_phase_ct_1", VNone);
 ("transmit_phase_ct_2", VNone);
 ("transmit_phase_ct_3", VNone);
 ("transmit_phase_ct_4", VNone);
 ("transmit_phase_ct_5", VNone);
 ("tropo_dry", VNone);
 ("tropo_wet", VNone);
 ("vlbi_delay", VNone)]; VObj "TrackingDataObservationType" [("epoch", VStr (lit "2007-075T13:15:05.000"));
 ("angle_1", VNone);
 ("angle_2", VNone);
 ("carrier_power", VNone);
 ("clock_bias", VNone);
 ("clock_drift", VNone);
 ("doppler_count", VNone);
 ("doppler_instantaneous", VNone);
 ("doppler_integrated", VNone);
 ("dor", VNone);
 ("mag", VNone);
 ("pc_n0", VNone);
 ("pr_n0", VNone);
 ("pressure", VNone);
 ("range", VNone);
 ("rcs", VNone);
 ("receive_freq", VNone);
 ("receive_freq_1", VNone);
 ("receive_freq_2", VNone);
 ("receive_freq_3", VNone);
 ("receive_freq_4", VNone);
 ("receive_freq_5", VNone);
 ("receive_phase_ct_1", VNone);
 ("receive_phase_ct_2", VNone);
 ("receive_phase_ct_3", VNone);
 ("receive_phase_ct_4", VNone);
 ("receive_phase_ct_5", VNone);
 ("rhumidity", VNone);
 ("stec", VNone);
 ("temperature", VNone);
 ("transmit_freq_1", VNone);
 ("transmit_freq_2", VNone);
 ("transmit_freq_3", VNone);
 ("transmit_freq_4", VNone);
 ("transmit_freq_5", VNone);
 ("transmit_freq_rate_1", VDec (DFin false 5000%N (-1)%Z));
 ("transmit_freq_rate_2", VNone);
 ("transmit_freq_rate_3", VNone);
 ("transmit_freq_rate_4", VNone);
 ("transmit_freq_rate_5", VNone);
 ("transmit_phase_ct_1", VNone);
 ("transmit_phase_ct_2", VNone);
 ("transmit_phase_ct_3", VNone);
 ("transmit_phase_ct_4", VNone);
 ("transmit_phase_ct_5", VNone);
 ("tropo_dry", VNone);
 ("tropo_wet", VNone);
 ("vlbi_delay", VNone)]; VObj "TrackingDataObservationType" [("epoch", VStr (lit "2007-075T13:15:45.000"));
 ("angle_1", VNone);
 ("angle_2", VNone);
 ("carrier_power", VNone);
 ("clock_bias", VNone);
 ("clock_drift", VNone);
 ("doppler_count", VNone);
 ("doppler_instantaneous", VNone);
 ("doppler_integrated", VNone);
 ("dor", VNone);
 ("mag", VNone);
 ("pc_n0", VNone);
 ("pr_n0", VNone);
 ("pressure", VNone);
 ("range", VNone);
 ("rcs", VNone);
 ("receive_freq", VNone);
 ("receive_freq_1", VNone);
 ("receive_freq_2", VNone);
 ("receive_freq_3", VNone);
 ("receive_freq_4", VNone);
 ("receive_freq_5", VNone);
 ("receive_phase_ct_1", VNone);
 ("receive_phase_ct_2", VNone);
 ("receive_phase_ct_3", VNone);
 ("receive_phase_ct_4", VNone);
 ("receive_phase_ct_5", VNone);
 ("rhumidity", VNone);
 ("stec", VNone);
 ("temperature", VNone);
 ("transmit_freq_1", VDec (DFin false 71679263840%N (-1)%Z));
 ("transmit_freq_2", VNone);
 ("transmit_freq_3", VNone);
 ("transmit_freq_4", VNone);
 ("transmit_freq_5", VNone);
 ("transmit_freq_rate_1", VNone);
 ("transmit_freq_rate_2", VNone);
 ("transmit_freq_rate_3", VNone);
 ("transmit_freq_rate_4", VNone);
 ("transmit_freq_rate_5", VNone);
 ("transmit_phase_ct_1", VNone);
 ("transmit_phase_ct_2", VNone);
 ("transmit_phase_ct_3", VNone);
 ("transmit_phase_ct_4", VNone);
 ("transmit_phase_ct_5", VNone);
 ("tropo_dry", VNone);
 ("tropo_wet", VNone);
 ("vlbi_delay", VNone)]; VObj "TrackingDataObservationType" [("epoch", VStr (lit "2007-075T13:15:45.000"));
 ("angle_1", VNone);
 ("angle_2", VNone);
 ("carrier_power", VNone);
 ("clock_bias", VNone);
 ("clock_drift", VNone);
 ("doppler_count", VNone);
 ("doppler_instantaneous", VNone);
 ("doppler_integrated", VNone);
 ("dor", VNone);
 ("mag", VNone);
 ("pc_n0", VNone);
 ("pr_n0", VNone);
 ("pressure", VNone);
 ("range", VNone);
 ("rcs", VNone);
 ("receive_freq", VNone);
 ("receive_freq_1", VNone);
 ("receive_freq_2", VNone);
 ("receive_freq_3", VNone);
 ("receive_freq_4", VNone);
 ("receive_freq_5", VNone);
 ("receive_phase_ct_1", VNone);
 ("receive_phase_ct_2", VNone);
 ("receive_phase_ct_3", VNone);
 ("receive_phase_ct_4", VNone);
 ("receive_phase_ct_5", VNone);
 ("rhumidity", VNone);
 ("stec", VNone);
 ("temperature", VNone);
 ("transmit_freq_1", VNone);
 ("transmit_freq_2", VNone);
 ("transmit_freq_3", VNone);
 ("transmit_freq_4", VNone);
 ("transmit_freq_5", VNone);
 ("transmit_freq_rate_1", VDec (DFin true 5000%N (-1)%Z));
 ("transmit_freq_rate_2", VNone);
 ("transmit_freq_rate_3", VNone);
 ("transmit_freq_rate_4", VNone);
 ("transmit_freq_rate_5", VNone);
 ("transmit_phase_ct_1", VNone);
 ("transmit_phase_ct_2", VNone);
 ("transmit_phase_ct_3", VNone);
 ("transmit_phase_ct_4", VNone);
 ("transmit_phase_ct_5", VNone);
 ("tropo_dry", VNone);
 ("tropo_wet", VNone);
 ("vlbi_delay", VNone)]; VObj "TrackingDataObservationType" [("epoch", VStr (lit "2007-075T13:16:25.000"));
 ("angle_1", VNone);
 ("angle_2", VNone);
 ("carrier_power", VNone);
 ("clock_bias", VNone);
 ("clock_drift", VNone);
 ("doppler_count", VNone);
 ("doppler_instantaneous", VNone);
 ("doppler_integrated", VNone);
 ("dor", VNone);
 ("mag", VNone);
 ("pc_n0", VNone);
 ("pr_n0", VNone);
 ("pressure", VNone);
 ("range", VNone);
 ("rcs", VNone);
 ("receive_freq", VNone);
 ("receive_freq_1", VNone);
 ("receive_freq_2", VNone);
 ("receive_freq_3", VNone);
 ("receive_freq_4", VNone);
 ("receive_freq_5", VNone);
 ("receive_phase_ct_1", VNone);
 ("receive_phase_ct_2", VNone);
 ("receive_phase_ct_3", VNone);
 ("receive_phase_ct_4", VNone);
 ("receive_phase_ct_5", VNone);
 ("rhumidity", VNone);
 ("stec", VNone);
 ("temperature", VNone);
 ("transmit_freq_1", VDec (DFin false 71679063840%N (-1)%Z));
 ("transmit_freq_2", VNone);
 ("transmit_freq_3", VNone);
 ("transmit_freq_4", VNone);
 ("transmit_freq_5", VNone);
 ("transmit_freq_rate_1", VNone);
 ("transmit_freq_rate_2", VNone);
 ("transmit_freq_rate_3", VNone);
 ("transmit_freq_rate_4", VNone);
 ("transmit_freq_rate_5", VNone);
 ("transmit_phase_ct_1", VNone);
 ("transmit_phase_ct_2", VNone);
 ("transmit_phase_ct_3", VNone);
 ("transmit_phase_ct_4", VNone);
 ("transmit_phase_ct_5", VNone);
 ("tropo_dry", VNone);
 ("tropo_wet", VNone);
 ("vlbi_delay", VNone)]; VObj "TrackingDataObservationType" [("epoch", VStr (lit "2007-075T13:16:25.000"));
 ("angle_1", VNone);
 ("angle_2", VNone);
 ("carrier_power", VNone);
 ("clock_bias", VNone);
 ("clock_drift", VNone);
 ("doppler_count", VNone);
 ("doppler_instantaneous", VNone);
 ("doppler_integrated", VNone);
 ("dor", VNone);
 ("mag", VNone);
 ("pc_n0", VNone);
 ("pr_n0", VNone);
 ("pressure", VNone);
 ("range", VNone);
 ("rcs", VNone);
 ("receive_freq", VNone);
 ("receive_freq_1", VNone);
 ("receive_freq_2", VNone);
 ("receive_freq_3", VNone);
 ("receive_freq_4", VNone);
 ("receive_freq_5", VNone);
 ("receive_phase_ct_1", VNone);
 ("receive_phase_ct_2", VNone);
 ("receive_phase_ct_3", VNone);
 ("receive_phase_ct_4", VNone);
 ("receive_phase_ct_5", VNone);
 ("rhumidity", VNone);
 ("stec", VNone);
 ("temperature", VNone);
 ("transmit_freq_1", VNone);
 ("transmit_freq_2", VNone);
 ("transmit_freq_3", VNone);
 ("transmit_freq_4", VNone);
 ("transmit_freq_5", VNone);
 ("transmit_freq_rate_1", VDec (DFin false 5000%N (-1)%Z));
 ("transmit_freq_rate_2", VNone);
 ("transmit_freq_rate_3", VNone);
 ("transmit_freq_rate_4", VNone);
 ("transmit_freq_rate_5", VNone);
 ("transmit_phase_ct_1", VNone);
 ("transmit_phase_ct_2", VNone);
 ("transmit_phase_ct_3", VNone);
 ("transmit_phase_ct_4", VNone);
 ("transmit_phase_ct_5", VNone);
 ("tropo_dry", VNone);
 ("tropo_wet", VNone);
 ("vlbi_delay", VNone)]; VObj "TrackingDataObservationType" [("epoch", VStr (lit "2007-075T13:16:45.000"));
 ("angle_1", VNone);
 ("angle_2", VNone);
 ("carrier_power", VNone);
 ("clock_bias", VNone);
 ("clock_drift", VNone);
 ("doppler_count", VNone);
 ("doppler_instantaneous", VNone);
 ("doppler_integrated", VNone);
 ("dor", VNone);
 ("mag", VNone);
 ("pc_n0", VNone);
 ("pr_n0", VNone);
 ("pressure", VNone);
 ("range", VNone);
 ("rcs", VNone);
 ("receive_freq", VNone);
 ("receive_freq_1", VNone);
 ("receive_freq_2", VNone);
 ("receive_freq_3", VNone);
 ("receive_freq_4", VNone);
 ("receive_freq_5", VNone);
 ("receive_phase_ct_1", VNone);
 ("receive_phase_ct_2", VNone);
 ("receive_phase_ct_3", VNone);
 ("receive_phase_ct_4", VNone);
 ("receive_phase_ct_5", VNone);
 ("rhumidity", VNone);
 ("stec", VNone);
 ("temperature", VNone);
 ("transmit_freq_1", VDec (DFin false 71679163840%N (-1)%Z));
 ("transmit_freq_2", VNone);
 ("transmit_freq_3", VNone);
 ("transmit_freq_4", VNone);
 ("transmit_freq_5", VNone);
 ("transmit_freq_rate_1", VNone);
 ("transmit_freq_rate_2", VNone);
 ("transmit_freq_rate_3", VNone);
 ("transmit_freq_rate_4", VNone);
 ("transmit_freq_rate_5", VNone);
 ("transmit_phase_ct_1", VNone);
 ("transmit_phase_ct_2", VNone);
 ("transmit_phase_ct_3", VNone);
 ("transmit_phase_ct_4", VNone);
 ("transmit_phase_ct_5", VNone);
 ("tropo_dry", VNone);
 ("tropo_wet", VNone);
 ("vlbi_delay", VNone)]; VObj "TrackingDataObservationType" [("epoch", VStr (lit "2007-075T13:16:45.000"));
 ("angle_1", VNone);
 ("angle_2", VNone);
 ("carrier_power", VNone);
 ("clock_bias", VNone);
 ("clock_drift", VNone);
 ("doppler_count", VNone);
 ("doppler_instantaneous", VNone);
 ("doppler_integrated", VNone);
 ("dor", VNone);
 ("mag", VNone);
 ("pc_n0", VNone);
 ("pr_n0", VNone);
 ("pressure", VNone);
 ("range", VNone);
 ("rcs", VNone);
 ("receive_freq", VNone);
 ("receive_freq_1", VNone);
 ("receive_freq_2", VNone);
 ("receive_freq_3", VNone);
 ("receive_freq_4", VNone);
 ("receive_freq_5", VNone);
 ("receive_phase_ct_1", VNone);
 ("receive_phase_ct_2", VNone);
 ("receive_phase_ct_3", VNone);
 ("receive_phase_ct_4", VNone);
 ("receive_phase_ct_5", VNone);
 ("rhumidity", VNone);
 ("stec", VNone);
 ("temperature", VNone);
 ("transmit_freq_1", VNone);
 ("transmit_freq_2", VNone);
 ("transmit_freq_3", VNone);
 ("transmit_freq_4", VNone);
 ("transmit_freq_5", VNone);
 ("transmit_freq_rate_1", VDec (DFin false 0%N (-1)%Z));
 ("transmit_freq_rate_2", VNone);
 ("transmit_freq_rate_3", VNone);
 ("transmit_freq_rate_4", VNone);
 ("transmit_freq_rate_5", VNone);
 ("transmit_phase_ct_1", VNone);
 ("transmit_phase_ct_2", VNone);
 ("transmit_phase_ct_3", VNone);
 ("transmit_phase_ct_4", VNone);
 ("transmit_phase_ct_5", VNone);
 ("tropo_dry", VNone);
 ("tropo_wet", VNone);
 ("vlbi_delay", VNone)]; VObj "TrackingDataObservationType" [("epoch", VStr (lit "2007-075T17:08:03.000"));
 ("angle_1", VNone);
 ("angle_2", VNone);
 ("carrier_power", VNone);
 ("clock_bias", VNone);
 ("clock_drift", VNone);
 ("doppler_count", VNone);
 ("doppler_instantaneous", VNone);
 ("doppler_integrated", VNone);
 ("dor", VNone);
 ("mag", VNone);
 ("pc_n0", VNone);
 ("pr_n0", VNone);
 ("pressure", VNone);
 ("range", VNone);
 ("rcs", VNone);
 ("receive_freq", VNone);
 ("receive_freq_1", VNone);
 ("receive_freq_2", VNone);
 ("receive_freq_3", VNone);
 ("receive_freq_4", VNone);
 ("receive_freq_5", VNone);
 ("receive_phase_ct_1", VNone);
 ("receive_phase_ct_2", VNone);
 ("receive_phase_ct_3", VNone);
 ("receive_phase_ct_4", VNone);
 ("receive_phase_ct_5", VNone);
 ("rhumidity", VNone);
 ("stec", VNone);
 ("temperature", VNone);
 ("transmit_freq_1", VDec (DFin false 71679163840%N (-1)%Z));
 ("transmit_freq_2", VNone);
 ("transmit_freq_3", VNone);
 ("transmit_freq_4", VNone);
 ("transmit_freq_5", VNone);
 ("transmit_freq_rate_1", VNone);
 ("transmit_freq_rate_2", VNone);
 ("transmit_freq_rate_3", VNone);
 ("transmit_freq_rate_4", VNone);
 ("transmit_freq_rate_5", VNone);
 ("transmit_phase_ct_1", VNone);
 ("transmit_phase_ct_2", VNone);
 ("transmit_phase_ct_3", VNone);
 ("transmit_phase_ct_4", VNone);
 ("transmit_phase_ct_5", VNone);
 ("tropo_dry", VNone);
 ("tropo_wet", VNone);
 ("vlbi_delay", VNone)]; VObj "TrackingDataObservationType" [("epoch", VStr (lit "2007-075T17:08:03.000"));
 ("angle_1", VNone);
 ("angle_2", VNone);
 ("carrier_power", VNone);
 ("clock_bias", VNone);
 ("clock_drift", VNone);
 ("doppler_count", VNone);
 ("doppler_instantaneous", VNone);
 ("doppler_integrated", VNone);
 ("dor", VNone);
 ("mag", VNone);
 ("pc_n0", VNone);
 ("pr_n0", VNone);
 ("pressure", VNone);
 ("range", VNone);
 ("rcs", VNone);
 ("receive_freq", VNone);
 ("receive_freq_1", VNone);
 ("receive_freq_2", VNone);
 ("receive_freq_3", VNone);
 ("receive_freq_4", VNone);
 ("receive_freq_5", VNone);
 ("receive_phase_ct_1", VNone);
 ("receive_phase_ct_2", VNone);
 ("receive_phase_ct_3", VNone);
 ("receive_phase_ct_4", VNone);
 ("receive_phase_ct_5", VNone);
 ("rhumidity", VNone);
 ("stec", VNone);
 ("temperature", VNone);
 ("transmit_freq_1", VNone);
 ("transmit_freq_2", VNone);
 ("transmit_freq_3", VNone);
 ("transmit_freq_4", VNone);
 ("transmit_freq_5", VNone);
 ("transmit_freq_rate_1", VDec (DFin false 0%N (-1)%Z));
 ("transmit_freq_rate_2", VNone);
 ("transmit_freq_rate_3", VNone);
 ("transmit_freq_rate_4", VNone);
 ("transmit_freq_rate_5", VNone);
 ("transmit_phase_ct_1", VNone);
 ("transmit_phase_ct_2", VNone);
 ("transmit_phase_ct_3", VNone);
 ("transmit_phase_ct_4", VNone);
 ("transmit_phase_ct_5", VNone);
 ("tropo_dry", VNone);
 ("tropo_wet", VNone);
 ("vlbi_delay", VNone)]])])]; VObj "TdmSegment" [("metadata", VObj "TdmMetadata" [("comment", VList []);
 ("track_id", VNone);
 ("data_types", VNone);
 ("time_system", VEnum "TimeSystemType" "UTC" (lit "UTC"));
 ("start_time", VNone);
 ("stop_time", VNone);
 ("participant_1", VStr (lit "'DSS-26'"));
 ("participant_2", VStr (lit "ROSETTA"));
 ("participant_3", VNone);
 ("participant_4", VNone);
 ("participant_5", VNone);
 ("mode", VEnum "ModeType" "SEQUENTIAL" (lit "SEQUENTIAL"));
 ("path", VStr (lit "1,2,1"));
 ("path_1", VNone);
 ("path_2", VNone);
 ("ephemeris_name_1", VNone);
 ("ephemeris_name_2", VNone);
 ("ephemeris_name_3", VNone);
 ("ephemeris_name_4", VNone);
 ("ephemeris_name_5", VNone);
 ("transmit_band", VStr (lit "X"));
 ("receive_band", VStr (lit "X"));
 ("turnaround_numerator", VNone);
 ("turnaround_denominator", VNone);
 ("timetag_ref", VEnum "TimetagRefType" "RECEIVE" (lit "RECEIVE"));
 ("integration_interval", VDec (DFin false 600%N (-1)%Z));
 ("integration_ref", VEnum "IntegrationRefType" "MIDDLE" (lit "MIDDLE"));
 ("freq_offset", VDec (DFin false 8421936160000001%N (-6)%Z));
 ("range_mode", VNone);
 ("range_modulus", VNone);
 ("range_units", VNone);
 ("angle_type", VNone);
 ("reference_frame", VNone);
 ("interpolation", VNone);
 ("interpolation_degree", VNone);
 ("doppler_count_bias", VNone);
 ("doppler_count_scale", VNone);
 ("doppler_count_rollover", VNone);
 ("transmit_delay_1", VDec (DFin false 77%N (-6)%Z));
 ("transmit_delay_2", VNone);
 ("transmit_delay_3", VNone);
 ("transmit_delay_4", VNone);
 ("transmit_delay_5", VNone);
 ("receive_delay_1", VDec (DFin false 77%N (-6)%Z));
 ("receive_delay_2", VNone);
 ("receive_delay_3", VNone);
 ("receive_delay_4", VNone);
 ("receive_delay_5", VNone);
 ("data_quality", VNone);
 ("correction_angle_1", VNone);
 ("correction_angle_2", VNone);
 ("correction_doppler", VNone);
 ("correction_mag", VNone);
 ("correction_range", VNone);
 ("correction_rcs", VNone);
 ("correction_receive", VNone);
 ("correction_transmit", VNone);
 ("correction_aberration_yearly", VNone);
 ("correction_aberration_diurnal", VNone);
 ("corrections_applied", VNone)]);
 ("data", VObj "TdmData" [("comment", VList []);
 ("observation", VList [VObj "TrackingDataObservationType" [("epoch", VStr (lit "2007-075T13:51:27.000"));
 ("angle_1", VNone);
 ("angle_2", VNone);
 ("carrier_power", VNone);
 ("clock_bias", VNone);
 ("clock_drift", VNone);
 ("doppler_count", VNone);
 ("doppler_instantaneous", VNone);
 ("doppler_integrated", VNone);
 ("dor", VNone);
 ("mag", VNone);
 ("pc_n0", VNone);
 ("pr_n0", VNone);
 ("pressure", VNone);
 ("range", VNone);
 ("rcs", VNone);
 ("receive_freq", VDec (DFin false 68842365682601%N (-9)%Z));
 ("receive_freq_1", VNone);
 ("receive_freq_2", VNone);
 ("receive_freq_3", VNone);
 ("receive_freq_4", VNone);
 ("receive_freq_5", VNone);
 ("receive_phase_ct_1", VNone);
 ("receive_phase_ct_2", VNone);
 ("receive_phase_ct_3", VNone);
 ("receive_phase_ct_4", VNone);
 ("receive_phase_ct_5", VNone);
 ("rhumidity", VNone);
 ("stec", VNone);
 ("temperature", VNone);
 ("transmit_freq_1", VNone);
 ("transmit_freq_2", VNone);
 ("transmit_freq_3", VNone);
 ("transmit_freq_4", VNone);
 ("transmit_freq_5", VNone);
 ("transmit_freq_rate_1", VNone);
 ("transmit_freq_rate_2", VNone);
 ("transmit_freq_rate_3", VNone);
 ("transmit_freq_rate_4", VNone);
 ("transmit_freq_rate_5", VNone);
 ("transmit_phase_ct_1", VNone);
 ("transmit_phase_ct_2", VNone);
 ("transmit_phase_ct_3", VNone);
 ("transmit_phase_ct_4", VNone);
 ("transmit_phase_ct_5", VNone);
 ("tropo_dry", VNone);
 ("tropo_wet", VNone);
 ("vlbi_delay", VNone)]; VObj "TrackingDataObservationType" [("epoch", VStr (lit "2007-075T13:52:27.000"));
 ("angle_1", VNone);
 ("angle_2", VNone);
 ("carrier_power", VNone);
 ("clock_bias", VNone);
 ("clock_drift", VNone);
 ("doppler_count", VNone);
 ("doppler_instantaneous", VNone);
 ("doppler_integrated", VNone);
 ("dor", VNone);
 ("mag", VNone);
 ("pc_n0", VNone);
 ("pr_n0", VNone);
 ("pressure", VNone);
 ("range", VNone);
 ("rcs", VNone);
 ("receive_freq", VDec (DFin false 68796946814536%N (-9)%Z));
 ("receive_freq_1", VNone);
 ("receive_freq_2", VNone);
 ("receive_freq_3", VNone);
 ("receive_freq_4", VNone);
 ("receive_freq_5", VNone);
 ("receive_phase_ct_1", VNone);
 ("receive_phase_ct_2", VNone);
 ("receive_phase_ct_3", VNone);
 ("receive_phase_ct_4", VNone);
 ("receive_phase_ct_5", VNone);
 ("rhumidity", VNone);
 ("stec", VNone);
 ("temperature", VNone);
 ("transmit_freq_1", VNone);
 ("transmit_freq_2", VNone);
 ("transmit_freq_3", VNone);
 ("transmit_freq_4", VNone);
 ("transmit_freq_5", VNone);
 ("transmit_freq_rate_1", VNone);
 ("transmit_freq_rate_2", VNone);
 ("transmit_freq_rate_3", VNone);
 ("transmit_freq_rate_4", VNone);
 ("transmit_freq_rate_5", VNone);
 ("transmit_phase_ct_1", VNone);
 ("transmit_phase_ct_2", VNone);
 ("transmit_phase_ct_3", VNone);
 ("transmit_phase_ct_4", VNone);
 ("transmit_phase_ct_5", VNone);
 ("tropo_dry", VNone);
 ("tropo_wet", VNone);
 ("vlbi_delay", VNone)]; VObj "TrackingDataObservationType" [("epoch", VStr (lit "2007-075T13:53:27.000"));
 ("angle_1", VNone);
 ("angle_2", VNone);
 ("carrier_power", VNone);
 ("clock_bias", VNone);
 ("clock_drift", VNone);
 ("doppler_count", VNone);
 ("doppler_instantaneous", VNone);
 ("doppler_integrated", VNone);
 ("dor", VNone);
 ("mag", VNone);
 ("pc_n0", VNone);
 ("pr_n0", VNone);
 ("pressure", VNone);
 ("range", VNone);
 ("rcs", VNone);
 ("receive_freq", VDec (DFin false 68751219775199%N (-9)%Z));
 ("receive_freq_1", VNone);
 ("receive_freq_2", VNone);
 ("receive_freq_3", VNone);
 ("receive_freq_4", VNone);
 ("receive_freq_5", VNone);
 ("receive_phase_ct_1", VNone);
 ("receive_phase_ct_2", VNone);
 ("receive_phase_ct_3", VNone);
 ("receive_phase_ct_4", VNone);
 ("receive_phase_ct_5", VNone);
 ("rhumidity", VNone);
 ("stec", VNone);
 ("temperature", VNone);
 ("transmit_freq_1", VNone);
 ("transmit_freq_2", VNone);
 ("transmit_freq_3", VNone);
 ("transmit_freq_4", VNone);
 ("transmit_freq_5", VNone);
 ("transmit_freq_rate_1", VNone);
 ("transmit_freq_rate_2", VNone);
 ("transmit_freq_rate_3", VNone);
 ("transmit_freq_rate_4", VNone);
 ("transmit_freq_rate_5", VNone);
 ("transmit_phase_ct_1", VNone);
 ("transmit_phase_ct_2", VNone);
 ("transmit_phase_ct_3", VNone);
 ("transmit_phase_ct_4", VNone);
 ("transmit_phase_ct_5", VNone);
 ("tropo_dry", VNone);
 ("tropo_wet", VNone);
 ("vlbi_delay", VNone)]; VObj "TrackingDataObservationType" [("epoch", VStr (lit "2007-075T13:54:27.000"));
 ("angle_1", VNone);
 ("angle_2", VNone);
 ("carrier_power", VNone);
 ("clock_bias", VNone);
 ("clock_drift", VNone);
 ("doppler_count", VNone);
 ("doppler_instantaneous", VNone);
 ("doppler_integrated", VNone);
 ("dor", VNone);
 ("mag", VNone);
 ("pc_n0", VNone);
 ("pr_n0", VNone);
 ("pressure", VNone);
 ("range", VNone);
 ("rcs", VNone);
 ("receive_freq", VDec (DFin false 68705182645797%N (-9)%Z));
 ("receive_freq_1", VNone);
 ("receive_freq_2", VNone);
 ("receive_freq_3", VNone);
 ("receive_freq_4", VNone);
 ("receive_freq_5", VNone);
 ("receive_phase_ct_1", VNone);
 ("receive_phase_ct_2", VNone);
 ("receive_phase_ct_3", VNone);
 ("receive_phase_ct_4", VNone);
 ("receive_phase_ct_5", VNone);
 ("rhumidity", VNone);
 ("stec", VNone);
 ("temperature", VNone);
 ("transmit_freq_1", VNone);
 ("transmit_freq_2", VNone);
 ("transmit_freq_3", VNone);
 ("transmit_freq_4", VNone);
 ("transmit_freq_5", VNone);
 ("transmit_freq_rate_1", VNone);
 ("transmit_freq_rate_2", VNone);
 ("transmit_freq_rate_3", VNone);
 ("transmit_freq_rate_4", VNone);
 ("transmit_freq_rate_5", VNone);
 ("transmit_phase_ct_1", VNone);
 ("transmit_phase_ct_2", VNone);
 ("transmit_phase_ct_3", VNone);
 ("transmit_phase_ct_4", VNone);
 ("transmit_phase_ct_5", VNone);
 ("tropo_dry", VNone);
 ("tropo_wet", VNone);
 ("vlbi_delay", VNone)]; VObj "TrackingDataObservationType" [("epoch", VStr (lit "2007-075T13:55:27.000"));
 ("angle_1", VNone);
 ("angle_2", VNone);
 ("carrier_power", VNone);
 ("clock_bias", VNone);
 ("clock_drift", VNone);
 ("doppler_count", VNone);
 ("doppler_instantaneous", VNone);
 ("doppler_integrated", VNone);
 ("dor", VNone);
 ("mag", VNone);
 ("pc_n0", VNone);
 ("pr_n0", VNone);
 ("pressure", VNone);
 ("range", VNone);
 ("rcs", VNone);
 ("receive_freq", VDec (DFin false 68658838166236%N (-9)%Z));
 ("receive_freq_1", VNone);
 ("receive_freq_2", VNone);
 ("receive_freq_3", VNone);
 ("receive_freq_4", VNone);
 ("receive_freq_5", VNone);
 ("receive_phase_ct_1", VNone);
 ("receive_phase_ct_2", VNone);
 ("receive_phase_ct_3", VNone);
 ("receive_phase_ct_4", VNone);
 ("receive_phase_ct_5", VNone);
 ("rhumidity", VNone);
 ("stec", VNone);
 ("temperature", VNone);
 ("transmit_freq_1", VNone);
 ("transmit_freq_2", VNone);
 ("transmit_freq_3", VNone);
 ("transmit_freq_4", VNone);
 ("transmit_freq_5", VNone);
 ("transmit_freq_rate_1", VNone);
 ("transmit_freq_rate_2", VNone);
 ("transmit_freq_rate_3", VNone);
 ("transmit_freq_rate_4", VNone);
 ("transmit_freq_rate_5", VNone);
 ("transmit_phase_ct_1", VNone);
 ("transmit_phase_ct_2", VNone);
 ("transmit_phase_ct_3", VNone);
 ("transmit_phase_ct_4", VNone);
 ("transmit_phase_ct_5", VNone);
 ("tropo_dry", VNone);
 ("tropo_wet", VNone);
 ("vlbi_delay", VNone)]; VObj "TrackingDataObservationType" [("epoch", VStr (lit "2007-075T13:56:27.000"));
 ("angle_1", VNone);
 ("angle_2", VNone);
 ("carrier_power", VNone);
 ("clock_bias", VNone);
 ("clock_drift", VNone);
 ("doppler_count", VNone);
 ("doppler_instantaneous", VNone);
 ("doppler_integrated", VNone);
 ("dor", VNone);
 ("mag", VNone);
 ("pc_n0", VNone);
 ("pr_n0", VNone);
 ("pressure", VNone);
 ("range", VNone);
 ("rcs", VNone);
 ("receive_freq", VDec (DFin false 68612187274932%N (-9)%Z));
 ("receive_freq_1", VNone);
 ("receive_freq_2", VNone);
 ("receive_freq_3", VNone);
 ("receive_freq_4", VNone);
 ("receive_freq_5", VNone);
 ("receive_phase_ct_1", VNone);
 ("receive_phase_ct_2", VNone);
 ("receive_phase_ct_3", VNone);
 ("receive_phase_ct_4", VNone);
 ("receive_phase_ct_5", VNone);
 ("rhumidity", VNone);
 ("stec", VNone);
 ("temperature", VNone);
 ("transmit_freq_1", VNone);
 ("transmit_freq_2", VNone);
 ("transmit_freq_3", VNone);
 ("transmit_freq_4", VNone);
 ("transmit_freq_5", VNone);
 ("transmit_freq_rate_1", VNone);
 ("transmit_freq_rate_2", VNone);
 ("transmit_freq_rate_3", VNone);
 ("transmit_freq_rate_4", VNone);
 ("transmit_freq_rate_5", VNone);
 ("transmit_phase_ct_1", VNone);
 ("transmit_phase_ct_2", VNone);
 ("transmit_phase_ct_3", VNone);
 ("transmit_phase_ct_4", VNone);
 ("transmit_phase_ct_5", VNone);
 ("tropo_dry", VNone);
 ("tropo_wet", VNone);
 ("vlbi_delay", VNone)]; VObj "TrackingDataObservationType" [("epoch", VStr (lit "2007-075T13:57:27.000"));
 ("angle_1", VNone);
 ("angle_2", VNone);
 ("carrier_power", VNone);
 ("clock_bias", VNone);
 ("clock_drift", VNone);
 ("doppler_count", VNone);
 ("doppler_instantaneous", VNone);
 ("doppler_integrated", VNone);
 ("dor", VNone);
 ("mag", VNone);
 ("pc_n0", VNone);
 ("pr_n0", VNone);
 ("pressure", VNone);
 ("range", VNone);
 ("rcs", VNone);
 ("receive_freq", VDec (DFin false 68565232152938%N (-9)%Z));
 ("receive_freq_1", VNone);
 ("receive_freq_2", VNone);
 ("receive_freq_3", VNone);
 ("receive_freq_4", VNone);
 ("receive_freq_5", VNone);
 ("receive_phase_ct_1", VNone);
 ("receive_phase_ct_2", VNone);
 ("receive_phase_ct_3", VNone);
 ("receive_phase_ct_4", VNone);
 ("receive_phase_ct_5", VNone);
 ("rhumidity", VNone);
 ("stec", VNone);
 ("temperature", VNone);
 ("transmit_freq_1", VNone);
 ("transmit_freq_2", VNone);
 ("transmit_freq_3", VNone);
 ("transmit_freq_4", VNone);
 ("transmit_freq_5", VNone);
 ("transmit_freq_rate_1", VNone);
 ("transmit_freq_rate_2", VNone);
 ("transmit_freq_rate_3", VNone);
 ("transmit_freq_rate_4", VNone);
 ("transmit_freq_rate_5", VNone);
 ("transmit_phase_ct_1", VNone);
 ("transmit_phase_ct_2", VNone);
 ("transmit_phase_ct_3", VNone);
 ("transmit_phase_ct_4", VNone);
 ("transmit_phase_ct_5", VNone);
 ("tropo_dry", VNone);
 ("tropo_wet", VNone);
 ("vlbi_delay", VNone)]; VObj "TrackingDataObservationType" [("epoch", VStr (lit "2007-075T13:58:27.000"));
 ("angle_1", VNone);
 ("angle_2", VNone);
 ("carrier_power", VNone);
 ("clock_bias", VNone);
 ("clock_drift", VNone);
 ("doppler_count", VNone);
 ("doppler_instantaneous", VNone);
 ("doppler_integrated", VNone);
 ("dor", VNone);
 ("mag", VNone);
 ("pc_n0", VNone);
 ("pr_n0", VNone);
 ("pressure", VNone);
 ("range", VNone);
 ("rcs", VNone);
 ("receive_freq", VDec (DFin false 68517971839904%N (-9)%Z));
 ("receive_freq_1", VNone);
 ("receive_freq_2", VNone);
 ("receive_freq_3", VNone);
 ("receive_freq_4", VNone);
 ("receive_freq_5", VNone);
 ("receive_phase_ct_1", VNone);
 ("receive_phase_ct_2", VNone);
 ("receive_phase_ct_3", VNone);
 ("receive_phase_ct_4", VNone);
 ("receive_phase_ct_5", VNone);
 ("rhumidity", VNone);
 ("stec", VNone);
 ("temperature", VNone);
 ("transmit_freq_1", VNone);
 ("transmit_freq_2", VNone);
 ("transmit_freq_3", VNone);
 ("transmit_freq_4", VNone);
 ("transmit_freq_5", VNone);
 ("transmit_freq_rate_1", VNone);
 ("transmit_freq_rate_2", VNone);
 ("transmit_freq_rate_3", VNone);
 ("transmit_freq_rate_4", VNone);
 ("transmit_freq_rate_5", VNone);
 ("transmit_phase_ct_1", VNone);
 ("transmit_phase_ct_2", VNone);
 ("transmit_phase_ct_3", VNone);
 ("transmit_phase_ct_4", VNone);
 ("transmit_phase_ct_5", VNone);
 ("tropo_dry", VNone);
 ("tropo_wet", VNone);
 ("vlbi_delay", VNone)]; VObj "TrackingDataObservationType" [("epoch", VStr (lit "2007-075T13:59:27.000"));
 ("angle_1", VNone);
 ("angle_2", VNone);
 ("carrier_power", VNone);
 ("clock_bias", VNone);
 ("clock_drift", VNone);
 ("doppler_count", VNone);
 ("doppler_instantaneous", VNone);
 ("doppler_integrated", VNone);
 ("dor", VNone);
 ("mag", VNone);
 ("pc_n0", VNone);
 ("pr_n0", VNone);
 ("pressure", VNone);
 ("range", VNone);
 ("rcs", VNone);
 ("receive_freq", VDec (DFin false 6847040883159501%N (-11)%Z));
 ("receive_freq_1", VNone);
 ("receive_freq_2", VNone);
 ("receive_freq_3", VNone);
 ("receive_freq_4", VNone);
 ("receive_freq_5", VNone);
 ("receive_phase_ct_1", VNone);
 ("receive_phase_ct_2", VNone);
 ("receive_phase_ct_3", VNone);
 ("receive_phase_ct_4", VNone);
 ("receive_phase_ct_5", VNone);
 ("rhumidity", VNone);
 ("stec", VNone);
 ("temperature", VNone);
 ("transmit_freq_1", VNone);
 ("transmit_freq_2", VNone);
 ("transmit_freq_3", VNone);
 ("transmit_freq_4", VNone);
 ("transmit_freq_5", VNone);
 ("transmit_freq_rate_1", VNone);
 ("transmit_freq_rate_2", VNone);
 ("transmit_freq_rate_3", VNone);
 ("transmit_freq_rate_4", VNone);
 ("transmit_freq_rate_5", VNone);
 ("transmit_phase_ct_1", VNone);
 ("transmit_phase_ct_2", VNone);
 ("transmit_phase_ct_3", VNone);
 ("transmit_phase_ct_4", VNone);
 ("transmit_phase_ct_5", VNone);
 ("tropo_dry", VNone);
 ("tropo_wet", VNone);
 ("vlbi_delay", VNone)]; VObj "TrackingDataObservationType" [("epoch", VStr (lit "2007-075T14:00:27.000"));
 ("angle_1", VNone);
 ("angle_2", VNone);
 ("carrier_power", VNone);
 ("clock_bias", VNone);
 ("clock_drift", VNone);
 ("doppler_count", VNone);
 ("doppler_instantaneous", VNone);
 ("doppler_integrated", VNone);
 ("dor", VNone);
 ("mag", VNone);
 ("pc_n0", VNone);
 ("pr_n0", VNone);
 ("pressure", VNone);
 ("range", VNone);
 ("rcs", VNone);
 ("receive_freq", VDec (DFin false 6842254217529199%N (-11)%Z));
 ("receive_freq_1", VNone);
 ("receive_freq_2", VNone);
 ("receive_freq_3", VNone);
 ("receive_freq_4", VNone);
 ("receive_freq_5", VNone);
 ("receive_phase_ct_1", VNone);
 ("receive_phase_ct_2", VNone);
 ("receive_phase_ct_3", VNone);
 ("receive_phase_ct_4", VNone);
 ("receive_phase_ct_5", VNone);
 ("rhumidity", VNone);
 ("stec", VNone);
 ("temperature", VNone);
 ("transmit_freq_1", VNone);
 ("transmit_freq_2", VNone);
 ("transmit_freq_3", VNone);
 ("transmit_freq_4", VNone);
 ("transmit_freq_5", VNone);
 ("transmit_freq_rate_1", VNone);
 ("transmit_freq_rate_2", VNone);
 ("transmit_freq_rate_3", VNone);
 ("transmit_freq_rate_4", VNone);
 ("transmit_freq_rate_5", VNone);
 ("transmit_phase_ct_1", VNone);
 ("transmit_phase_ct_2", VNone);
 ("transmit_phase_ct_3", VNone);
 ("transmit_phase_ct_4", VNone);
 ("transmit_phase_ct_5", VNone);
 ("tropo_dry", VNone);
 ("tropo_wet", VNone);
 ("vlbi_delay", VNone)]; VObj "TrackingDataObservationType" [("epoch", VStr (lit "2007-075T14:01:27.000"));
 ("angle_1", VNone);
 ("angle_2", VNone);
 ("carrier_power", VNone);
 ("clock_bias", VNone);
 ("clock_drift", VNone);
 ("doppler_count", VNone);
 ("doppler_instantaneous", VNone);
 ("doppler_integrated", VNone);
 ("dor", VNone);
 ("mag", VNone);
 ("pc_n0", VNone);
 ("pr_n0", VNone);
 ("pressure", VNone);
 ("range", VNone);
 ("rcs", VNone);
 ("receive_freq", VDec (DFin false 6837437411785001%N (-11)%Z));
 ("receive_freq_1", VNone);
 ("receive_freq_2", VNone);
 ("receive_freq_3", VNone);
 ("receive_freq_4", VNone);
 ("receive_freq_5", VNone);
 ("receive_phase_ct_1", VNone);
 ("receive_phase_ct_2", VNone);
 ("receive_phase_ct_3", VNone);
 ("receive_phase_ct_4", VNone);
 ("receive_phase_ct_5", VNone);
 ("rhumidity", VNone);
 ("stec", VNone);
 ("temperature", VNone);
 ("transmit_freq_1", VNone);
 ("transmit_freq_2", VNone);
 ("transmit_freq_3", VNone);
 ("transmit_freq_4", VNone);
 ("transmit_freq_5", VNone);
 ("transmit_freq_rate_1", VNone);
 ("transmit_freq_rate_2", VNone);
 ("transmit_freq_rate_3", VNone);
 ("transmit_freq_rate_4", VNone);
 ("transmit_freq_rate_5", VNone);
 ("transmit_phase_ct_1", VNone);
 ("transmit_phase_ct_2", VNone);
 ("transmit_phase_ct_3", VNone);
 ("transmit_phase_ct_4", VNone);
 ("transmit_phase_ct_5", VNone);
 ("tropo_dry", VNone);
 ("tropo_wet", VNone);
 ("vlbi_delay", VNone)]; VObj "TrackingDataObservationType" [("epoch", VStr (lit "2007-075T14:02:27.000"));
 ("angle_1", VNone);
 ("angle_2", VNone);
 ("carrier_power", VNone);
 ("clock_bias", VNone);
 ("clock_drift", VNone);
 ("doppler_count", VNone);
 ("doppler_instantaneous", VNone);
 ("doppler_integrated", VNone);
 ("dor", VNone);
 ("mag", VNone);
 ("pc_n0", VNone);
 ("pr_n0", VNone);
 ("pressure", VNone);
 ("range", VNone);
 ("rcs", VNone);
 ("receive_freq", VDec (DFin false 68325907925605%N (-9)%Z));
 ("receive_freq_1", VNone);
 ("receive_freq_2", VNone);
 ("receive_freq_3", VNone);
 ("receive_freq_4", VNone);
 ("receive_freq_5", VNone);
 ("receive_phase_ct_1", VNone);
 ("receive_phase_ct_2", VNone);
 ("receive_phase_ct_3", VNone);
 ("receive_phase_ct_4", VNone);
 ("receive_phase_ct_5", VNone);
 ("rhumidity", VNone);
 ("stec", VNone);
 ("temperature", VNone);
 ("transmit_freq_1", VNone);
 ("transmit_freq_2", VNone);
 ("transmit_freq_3", VNone);
 ("transmit_freq_4", VNone);
 ("transmit_freq_5", VNone);
 ("transmit_freq_rate_1", VNone);
 ("transmit_freq_rate_2", VNone);
 ("transmit_freq_rate_3", VNone);
 ("transmit_freq_rate_4", VNone);
 ("transmit_freq_rate_5", VNone);
 ("transmit_phase_ct_1", VNone);
 ("transmit_phase_ct_2", VNone);
 ("transmit_phase_ct_3", VNone);
 ("transmit_phase_ct_4", VNone);
 ("transmit_phase_ct_5", VNone);
 ("tropo_dry", VNone);
 ("tropo_wet", VNone);
 ("vlbi_delay", VNone)]; VObj "TrackingDataObservationType" [("epoch", VStr (lit "2007-075T14:03:27.000"));
 ("angle_1", VNone);
 ("angle_2", VNone);
 ("carrier_power", VNone);
 ("clock_bias", VNone);
 ("clock_drift", VNone);
 ("doppler_count", VNone);
 ("doppler_instantaneous", VNone);
 ("doppler_integrated", VNone);
 ("dor", VNone);
 ("mag", VNone);
 ("pc_n0", VNone);
 ("pr_n0", VNone);
 ("pressure", VNone);
 ("range", VNone);
 ("rcs", VNone);
 ("receive_freq", VDec (DFin false 68277140977858%N (-9)%Z));
 ("receive_freq_1", VNone);
 ("receive_freq_2", VNone);
 ("receive_freq_3", VNone);
 ("receive_freq_4", VNone);
 ("receive_freq_5", VNone);
 ("receive_phase_ct_1", VNone);
 ("receive_phase_ct_2", VNone);
 ("receive_phase_ct_3", VNone);
 ("receive_phase_ct_4", VNone);
 ("receive_phase_ct_5", VNone);
 ("rhumidity", VNone);
 ("stec", VNone);
 ("temperature", VNone);
 ("transmit_freq_1", VNone);
 ("transmit_freq_2", VNone);
 ("transmit_freq_3", VNone);
 ("transmit_freq_4", VNone);
 ("transmit_freq_5", VNone);
 ("transmit_freq_rate_1", VNone);
 ("transmit_freq_rate_2", VNone);
 ("transmit_freq_rate_3", VNone);
 ("transmit_freq_rate_4", VNone);
 ("transmit_freq_rate_5", VNone);
 ("transmit_phase_ct_1", VNone);
 ("transmit_phase_ct_2", VNone);
 ("transmit_phase_ct_3", VNone);
 ("transmit_phase_ct_4", VNone);
 ("transmit_phase_ct_5", VNone);
 ("tropo_dry", VNone);
 ("tropo_wet", VNone);
 ("vlbi_delay", VNone)]; VObj "TrackingDataObservationType" [("epoch", VStr (lit "2007-075T14:04:27.000"));
 ("angle_1", VNone);
 ("angle_2", VNone);
 ("carrier_power", VNone);
 ("clock_bias", VNone);
 ("clock_drift", VNone);
 ("doppler_count", VNone);
 ("doppler_instantaneous", VNone);
 ("doppler_integrated", VNone);
 ("dor", VNone);
 ("mag", VNone);
 ("pc_n0", VNone);
 ("pr_n0", VNone);
 ("pressure", VNone);
 ("range", VNone);
 ("rcs", VNone);
 ("receive_freq", VDec (DFin false 6822807545566501%N (-11)%Z));
 ("receive_freq_1", VNone);
 ("receive_freq_2", VNone);
 ("receive_freq_3", VNone);
 ("receive_freq_4", VNone);
 ("receive_freq_5", VNone);
 ("receive_phase_ct_1", VNone);
 ("receive_phase_ct_2", VNone);
 ("receive_phase_ct_3", VNone);
 ("receive_phase_ct_4", VNone);
 ("receive_phase_ct_5", VNone);
 ("rhumidity", VNone);
 ("stec", VNone);
 ("temperature", VNone);
 ("transmit_freq_1", VNone);
 ("transmit_freq_2", VNone);
 ("transmit_freq_3", VNone);
 ("transmit_freq_4", VNone);
 ("transmit_freq_5", VNone);
 ("transmit_freq_rate_1", VNone);
 ("transmit_freq_rate_2", VNone);
 ("transmit_freq_rate_3", VNone);
 ("transmit_freq_rate_4", VNone);
 ("transmit_freq_rate_5", VNone);
 ("transmit_phase_ct_1", VNone);
 ("transmit_phase_ct_2", VNone);
 ("transmit_phase_ct_3", VNone);
 ("transmit_phase_ct_4", VNone);
 ("transmit_phase_ct_5", VNone);
 ("tropo_dry", VNone);
 ("tropo_wet", VNone);
 ("vlbi_delay", VNone)]; VObj "TrackingDataObservationType" [("epoch", VStr (lit "2007-075T14:05:27.000"));
 ("angle_1", VNone);
 ("angle_2", VNone);
 ("carrier_power", VNone);
 ("clock_bias", VNone);
 ("clock_drift", VNone);
 ("doppler_count", VNone);
 ("doppler_instantaneous", VNone);
 ("doppler_integrated", VNone);
 ("dor", VNone);
 ("mag", VNone);
 ("pc_n0", VNone);
 ("pr_n0", VNone);
 ("pressure", VNone);
 ("range", VNone);
 ("rcs", VNone);
 ("receive_freq", VDec (DFin false 6817871414756701%N (-11)%Z));
 ("receive_freq_1", VNone);
 ("receive_freq_2", VNone);
 ("receive_freq_3", VNone);
 ("receive_freq_4", VNone);
 ("receive_freq_5", VNone);
 ("receive_phase_ct_1", VNone);
 ("receive_phase_ct_2", VNone);
 ("receive_phase_ct_3", VNone);
 ("receive_phase_ct_4", VNone);
 ("receive_phase_ct_5", VNone);
 ("rhumidity", VNone);
 ("stec", VNone);
 ("temperature", VNone);
 ("transmit_freq_1", VNone);
 ("transmit_freq_2", VNone);
 ("transmit_freq_3", VNone);
 ("transmit_freq_4", VNone);
 ("transmit_freq_5", VNone);
 ("transmit_freq_rate_1", VNone);
 ("transmit_freq_rate_2", VNone);
 ("transmit_freq_rate_3", VNone);
 ("transmit_freq_rate_4", VNone);
 ("transmit_freq_rate_5", VNone);
 ("transmit_phase_ct_1", VNone);
 ("transmit_phase_ct_2", VNone);
 ("transmit_phase_ct_3", VNone);
 ("transmit_phase_ct_4", VNone);
 ("transmit_phase_ct_5", VNone);
 ("tropo_dry", VNone);
 ("tropo_wet", VNone);
 ("vlbi_delay", VNone)]; VObj "TrackingDataObservationType" [("epoch", VStr (lit "2007-075T14:06:27.000"));
 ("angle_1", VNone);
 ("angle_2", VNone);
 ("carrier_power", VNone);
 ("clock_bias", VNone);
 ("clock_drift", VNone);
 ("doppler_count", VNone);
 ("doppler_instantaneous", VNone);
 ("doppler_integrated", VNone);
 ("dor", VNone);
 ("mag", VNone);
 ("pc_n0", VNone);
 ("pr_n0", VNone);
 ("pressure", VNone);
 ("range", VNone);
 ("rcs", VNone);
 ("receive_freq", VDec (DFin false 6812905606746599%N (-11)%Z));
 ("receive_freq_1", VNone);
 ("receive_freq_2", VNone);
 ("receive_freq_3", VNone);
 ("receive_freq_4", VNone);
 ("receive_freq_5", VNone);
 ("receive_phase_ct_1", VNone);
 ("receive_phase_ct_2", VNone);
 ("receive_phase_ct_3", VNone);
 ("receive_phase_ct_4", VNone);
 ("receive_phase_ct_5", VNone);
 ("rhumidity", VNone);
 ("stec", VNone);
 ("temperature", VNone);
 ("transmit_freq_1", VNone);
 ("transmit_freq_2", VNone);
 ("transmit_freq_3", VNone);
 ("transmit_freq_4", VNone);
 ("transmit_freq_5", VNone);
 ("transmit_freq_rate_1", VNone);
 ("transmit_freq_rate_2", VNone);
 ("transmit_freq_rate_3", VNone);
 ("transmit_freq_rate_4", VNone);
 ("transmit_freq_rate_5", VNone);
 ("transmit_phase_ct_1", VNone);
 ("transmit_phase_ct_2", VNone);
 ("transmit_phase_ct_3", VNone);
 ("transmit_phase_ct_4", VNone);
 ("transmit_phase_ct_5", VNone);
 ("tropo_dry", VNone);
 ("tropo_wet", VNone);
 ("vlbi_delay", VNone)]; VObj "TrackingDataObservationType" [("epoch", VStr (lit "2007-075T14:07:27.000"));
 ("angle_1", VNone);
 ("angle_2", VNone);
 ("carrier_power", VNone);
 ("clock_bias", VNone);
 ("clock_drift", VNone);
 ("doppler_count", VNone);
 ("doppler_instantaneous", VNone);
 ("doppler_integrated", VNone);
 ("dor", VNone);
 ("mag", VNone);
 ("pc_n0", VNone);
 ("pr_n0", VNone);
 ("pressure", VNone);
 ("range", VNone);
 ("rcs", VNone);
 ("receive_freq", VDec (DFin false 68079101774215%N (-9)%Z));
 ("receive_freq_1", VNone);
 ("receive_freq_2", VNone);
 ("receive_freq_3", VNone);
 ("receive_freq_4", VNone);
 ("receive_freq_5", VNone);
 ("receive_phase_ct_1", VNone);
 ("receive_phase_ct_2", VNone);
 ("receive_phase_ct_3", VNone);
 ("receive_phase_ct_4", VNone);
 ("receive_phase_ct_5", VNone);
 ("rhumidity", VNone);
 ("stec", VNone);
 ("temperature", VNone);
 ("transmit_freq_1", VNone);
 ("transmit_freq_2", VNone);
 ("transmit_freq_3", VNone);
 ("transmit_freq_4", VNone);
 ("transmit_freq_5", VNone);
 ("transmit_freq_rate_1", VNone);
 ("transmit_freq_rate_2", VNone);
 ("transmit_freq_rate_3", VNone);
 ("transmit_freq_rate_4", VNone);
 ("transmit_freq_rate_5", VNone);
 ("transmit_phase_ct_1", VNone);
 ("transmit_phase_ct_2", VNone);
 ("transmit_phase_ct_3", VNone);
 ("transmit_phase_ct_4", VNone);
 ("transmit_phase_ct_5", VNone);
 ("tropo_dry", VNone);
 ("tropo_wet", VNone);
 ("vlbi_delay", VNone)]; VObj "TrackingDataObservationType" [("epoch", VStr (lit "2007-075T14:08:27.000"));
 ("angle_1", VNone);
 ("angle_2", VNone);
 ("carrier_power", VNone);
 ("clock_bias", VNone);
 ("clock_drift", VNone);
 ("doppler_count", VNone);
 ("doppler_instantaneous", VNone);
 ("doppler_integrated", VNone);
 ("dor", VNone);
 ("mag", VNone);
 ("pc_n0", VNone);
 ("pr_n0", VNone);
 ("pressure", VNone);
 ("range", VNone);
 ("rcs", VNone);
 ("receive_freq", VDec (DFin false 68028856128692%N (-9)%Z));
 ("receive_freq_1", VNone);
 ("receive_freq_2", VNone);
 ("receive_freq_3", VNone);
 ("receive_freq_4", VNone);
 ("receive_freq_5", VNone);
 ("receive_phase_ct_1", VNone);
 ("receive_phase_ct_2", VNone);
 ("receive_phase_ct_3", VNone);
 ("receive_phase_ct_4", VNone);
 ("receive_phase_ct_5", VNone);
 ("rhumidity", VNone);
 ("stec", VNone);
 ("temperature", VNone);
 ("transmit_freq_1", VNone);
 ("transmit_freq_2", VNone);
 ("transmit_freq_3", VNone);
 ("transmit_freq_4", VNone);
 ("transmit_freq_5", VNone);
 ("transmit_freq_rate_1", VNone);
 ("transmit_freq_rate_2", VNone);
 ("transmit_freq_rate_3", VNone);
 ("transmit_freq_rate_4", VNone);
 ("transmit_freq_rate_5", VNone);
 ("transmit_phase_ct_1", VNone);
 ("transmit_phase_ct_2", VNone);
 ("transmit_phase_ct_3", VNone);
 ("transmit_phase_ct_4", VNone);
 ("transmit_phase_ct_5", VNone);
 ("tropo_dry", VNone);
 ("tropo_wet", VNone);
 ("vlbi_delay", VNone)]; VObj "TrackingDataObservationType" [("epoch", VStr (lit "2007-075T14:09:27.000"));
 ("angle_1", VNone);
 ("angle_2", VNone);
 ("carrier_power", VNone);
 ("clock_bias", VNone);
 ("clock_drift", VNone);
 ("doppler_count", VNone);
 ("doppler_instantaneous", VNone);
 ("doppler_integrated", VNone);
 ("dor", VNone);
 ("mag", VNone);
 ("pc_n0", VNone);
 ("pr_n0", VNone);
 ("pressure", VNone);
 ("range", VNone);
 ("rcs", VNone);
 ("receive_freq", VDec (DFin false 67978316852569%N (-9)%Z));
 ("receive_freq_1", VNone);
 ("receive_freq_2", VNone);
 ("receive_freq_3", VNone);
 ("receive_freq_4", VNone);
 ("receive_freq_5", VNone);
 ("receive_phase_ct_1", VNone);
 ("receive_phase_ct_2", VNone);
 ("receive_phase_ct_3", VNone);
 ("receive_phase_ct_4", VNone);
 ("receive_phase_ct_5", VNone);
 ("rhumidity", VNone);
 ("stec", VNone);
 ("temperature", VNone);
 ("transmit_freq_1", VNone);
 ("transmit_freq_2", VNone);
 ("transmit_freq_3", VNone);
 ("transmit_freq_4", VNone);
 ("transmit_freq_5", VNone);
 ("transmit_freq_rate_1", VNone);
 ("transmit_freq_rate_2", VNone);
 ("transmit_freq_rate_3", VNone);
 ("transmit_freq_rate_4", VNone);
 ("transmit_freq_rate_5", VNone);
 ("transmit_phase_ct_1", VNone);
 ("transmit_phase_ct_2", VNone);
 ("transmit_phase_ct_3", VNone);
 ("transmit_phase_ct_4", VNone);
 ("transmit_phase_ct_5", VNone);
 ("tropo_dry", VNone);
 ("tropo_wet", VNone);
 ("vlbi_delay", VNone)]; VObj "TrackingDataObservationType" [("epoch", VStr (lit "2007-075T14:10:27.000"));
 ("angle_1", VNone);
 ("angle_2", VNone);
 ("carrier_power", VNone);
 ("clock_bias", VNone);
 ("clock_drift", VNone);
 ("doppler_count", VNone);
 ("doppler_instantaneous", VNone);
 ("doppler_integrated", VNone);
 ("dor", VNone);
 ("mag", VNone);
 ("pc_n0", VNone);
 ("pr_n0", VNone);
 ("pressure", VNone);
 ("range", VNone);
 ("rcs", VNone);
 ("receive_freq", VDec (DFin false 6792748550224199%N (-11)%Z));
 ("receive_freq_1", VNone);
 ("receive_freq_2", VNone);
 ("receive_freq_3", VNone);
 ("receive_freq_4", VNone);
 ("receive_freq_5", VNone);
 ("receive_phase_ct_1", VNone);
 ("receive_phase_ct_2", VNone);
 ("receive_phase_ct_3", VNone);
 ("receive_phase_ct_4", VNone);
 ("receive_phase_ct_5", VNone);
 ("rhumidity", VNone);
 ("stec", VNone);
 ("temperature", VNone);
 ("transmit_freq_1", VNone);
 ("transmit_freq_2", VNone);
 ("transmit_freq_3", VNone);
 ("transmit_freq_4", VNone);
 ("transmit_freq_5", VNone);
 ("transmit_freq_rate_1", VNone);
 ("transmit_freq_rate_2", VNone);
 ("transmit_freq_rate_3", VNone);
 ("transmit_freq_rate_4", VNone);
 ("transmit_freq_rate_5", VNone);
 ("transmit_phase_ct_1", VNone);
 ("transmit_phase_ct_2", VNone);
 ("transmit_phase_ct_3", VNone);
 ("transmit_phase_ct_4", VNone);
 ("transmit_phase_ct_5", VNone);
 ("tropo_dry", VNone);
 ("tropo_wet", VNone);
 ("vlbi_delay", VNone)]; VObj "TrackingDataObservationType" [("epoch", VStr (lit "2007-075T14:11:27.000"));
 ("angle_1", VNone);
 ("angle_2", VNone);
 ("carrier_power", VNone);
 ("clock_bias", VNone);
 ("clock_drift", VNone);
 ("doppler_count", VNone);
 ("doppler_instantaneous", VNone);
 ("doppler_integrated", VNone);
 ("dor", VNone);
 ("mag", VNone);
 ("pc_n0", VNone);
 ("pr_n0", VNone);
 ("pressure", VNone);
 ("range", VNone);
 ("rcs", VNone);
 ("receive_freq", VDec (DFin false 67876363224029%N (-9)%Z));
 ("receive_freq_1", VNone);
 ("receive_freq_2", VNone);
 ("receive_freq_3", VNone);
 ("receive_freq_4", VNone);
 ("receive_freq_5", VNone);
 ("receive_phase_ct_1", VNone);
 ("receive_phase_ct_2", VNone);
 ("receive_phase_ct_3", VNone);
 ("receive_phase_ct_4", VNone);
 ("receive_phase_ct_5", VNone);
 ("rhumidity", VNone);
 ("stec", VNone);
 ("temperature", VNone);
 ("transmit_freq_1", VNone);
 ("transmit_freq_2", VNone);
 ("transmit_freq_3", VNone);
 ("transmit_freq_4", VNone);
 ("transmit_freq_5", VNone);
 ("transmit_freq_rate_1", VNone);
 ("transmit_freq_rate_2", VNone);
 ("transmit_freq_rate_3", VNone);
 ("transmit_freq_rate_4", VNone);
 ("transmit_freq_rate_5", VNone);
 ("transmit_phase_ct_1", VNone);
 ("transmit_phase_ct_2", VNone);
 ("transmit_phase_ct_3", VNone);
 ("transmit_phase_ct_4", VNone);
 ("transmit_phase_ct_5", VNone);
 ("tropo_dry", VNone);
 ("tropo_wet", VNone);
 ("vlbi_delay", VNone)]; VObj "TrackingDataObservationType" [("epoch", VStr (lit "2007-075T14:12:27.000"));
 ("angle_1", VNone);
 ("angle_2", VNone);
 ("carrier_power", VNone);
 ("clock_bias", VNone);
 ("clock_drift", VNone);
 ("doppler_count", VNone);
 ("doppler_instantaneous", VNone);
 ("doppler_integrated", VNone);
 ("dor", VNone);
 ("mag", VNone);
 ("pc_n0", VNone);
 ("pr_n0", VNone);
 ("pressure", VNone);
 ("range", VNone);
 ("rcs", VNone);
 ("receive_freq", VDec (DFin false 67824952335357%N (-9)%Z));
 ("receive_freq_1", VNone);
 ("receive_freq_2", VNone);
 ("receive_freq_3", VNone);
 ("receive_freq_4", VNone);
 ("receive_freq_5", VNone);
 ("receive_phase_ct_1", VNone);
 ("receive_phase_ct_2", VNone);
 ("receive_phase_ct_3", VNone);
 ("receive_phase_ct_4", VNone);
 ("receive_phase_ct_5", VNone);
 ("rhumidity", VNone);
 ("stec", VNone);
 ("temperature", VNone);
 ("transmit_freq_1", VNone);
 ("transmit_freq_2", VNone);
 ("transmit_freq_3", VNone);
 ("transmit_freq_4", VNone);
 ("transmit_freq_5", VNone);
 ("transmit_freq_rate_1", VNone);
 ("transmit_freq_rate_2", VNone);
 ("transmit_freq_rate_3", VNone);
 ("transmit_freq_rate_4", VNone);
 ("transmit_freq_rate_5", VNone);
 ("transmit_phase_ct_1", VNone);
 ("transmit_phase_ct_2", VNone);
 ("transmit_phase_ct_3", VNone);
 ("transmit_phase_ct_4", VNone);
 ("transmit_phase_ct_5", VNone);
 ("tropo_dry", VNone);
 ("tropo_wet", VNone);
 ("vlbi_delay", VNone)]; VObj "TrackingDataObservationType" [("epoch", VStr (lit "2007-075T14:13:27.000"));
 ("angle_1", VNone);
 ("angle_2", VNone);
 ("carrier_power", VNone);
 ("clock_bias", VNone);
 ("clock_drift", VNone);
 ("doppler_count", VNone);
 ("doppler_instantaneous", VNone);
 ("doppler_integrated", VNone);
 ("dor", VNone);
 ("mag", VNone);
 ("pc_n0", VNone);
 ("pr_n0", VNone);
 ("pressure", VNone);
 ("range", VNone);
 ("rcs", VNone);
 ("receive_freq", VDec (DFin false 67773251962661%N (-9)%Z));
 ("receive_freq_1", VNone);
 ("receive_freq_2", VNone);
 ("receive_freq_3", VNone);
 ("receive_freq_4", VNone);
 ("receive_freq_5", VNone);
 ("receive_phase_ct_1", VNone);
 ("receive_phase_ct_2", VNone);
 ("receive_phase_ct_3", VNone);
 ("receive_phase_ct_4", VNone);
 ("receive_phase_ct_5", VNone);
 ("rhumidity", VNone);
 ("stec", VNone);
 ("temperature", VNone);
 ("transmit_freq_1", VNone);
 ("transmit_freq_2", VNone);
 ("transmit_freq_3", VNone);
 ("transmit_freq_4", VNone);
 ("transmit_freq_5", VNone);
 ("transmit_freq_rate_1", VNone);
 ("transmit_freq_rate_2", VNone);
 ("transmit_freq_rate_3", VNone);
 ("transmit_freq_rate_4", VNone);
 ("transmit_freq_rate_5", VNone);
 ("transmit_phase_ct_1", VNone);
 ("transmit_phase_ct_2", VNone);
 ("transmit_phase_ct_3", VNone);
 ("transmit_phase_ct_4", VNone);
 ("transmit_phase_ct_5", VNone);
 ("tropo_dry", VNone);
 ("tropo_wet", VNone);
 ("vlbi_delay", VNone)]; VObj "TrackingDataObservationType" [("epoch", VStr (lit "2007-075T14:14:27.000"));
 ("angle_1", VNone);
 ("angle_2", VNone);
 ("carrier_power", VNone);
 ("clock_bias", VNone);
 ("clock_drift", VNone);
 ("doppler_count", VNone);
 ("doppler_instantaneous", VNone);
 ("doppler_integrated", VNone);
 ("dor", VNone);
 ("mag", VNone);
 ("pc_n0", VNone);
 ("pr_n0", VNone);
 ("pressure", VNone);
 ("range", VNone);
 ("rcs", VNone);
 ("receive_freq", VDec (DFin false 67721265878676%N (-9)%Z));
 ("receive_freq_1", VNone);
 ("receive_freq_2", VNone);
 ("receive_freq_3", VNone);
 ("receive_freq_4", VNone);
 ("receive_freq_5", VNone);
 ("receive_phase_ct_1", VNone);
 ("receive_phase_ct_2", VNone);
 ("receive_phase_ct_3", VNone);
 ("receive_phase_ct_4", VNone);
 ("receive_phase_ct_5", VNone);
 ("rhumidity", VNone);
 ("stec", VNone);
 ("temperature", VNone);
 ("transmit_freq_1", VNone);
 ("transmit_freq_2", VNone);
 ("transmit_freq_3", VNone);
 ("transmit_freq_4", VNone);
 ("transmit_freq_5", VNone);
 ("transmit_freq_rate_1", VNone);
 ("transmit_freq_rate_2", VNone);
 ("transmit_freq_rate_3", VNone);
 ("transmit_freq_rate_4", VNone);
 ("transmit_freq_rate_5", VNone);
 ("transmit_phase_ct_1", VNone);
 ("transmit_phase_ct_2", VNone);
 ("transmit_phase_ct_3", VNone);
 ("transmit_phase_ct_4", VNone);
 ("transmit_phase_ct_5", VNone);
 ("tropo_dry", VNone);
 ("tropo_wet", VNone);
 ("vlbi_delay", VNone)]; VObj "TrackingDataObservationType" [("epoch", VStr (lit "2007-075T14:15:27.000"));
 ("angle_1", VNone);
 ("angle_2", VNone);
 ("carrier_power", VNone);
 ("clock_bias", VNone);
 ("clock_drift", VNone);
 ("doppler_count", VNone);
 ("doppler_instantaneous", VNone);
 ("doppler_integrated", VNone);
 ("dor", VNone);
 ("mag", VNone);
 ("pc_n0", VNone);
 ("pr_n0", VNone);
 ("pressure", VNone);
 ("range", VNone);
 ("rcs", VNone);
 ("receive_freq", VDec (DFin false 6766899217986999%N (-11)%Z));
 ("receive_freq_1", VNone);
 ("receive_freq_2", VNone);
 ("receive_freq_3", VNone);
 ("receive_freq_4", VNone);
 ("receive_freq_5", VNone);
 ("receive_phase_ct_1", VNone);
 ("receive_phase_ct_2", VNone);
 ("receive_phase_ct_3", VNone);
 ("receive_phase_ct_4", VNone);
 ("receive_phase_ct_5", VNone);
 ("rhumidity", VNone);
 ("stec", VNone);
 ("temperature", VNone);
 ("transmit_freq_1", VNone);
 ("transmit_freq_2", VNone);
 ("transmit_freq_3", VNone);
 ("transmit_freq_4", VNone);
 ("transmit_freq_5", VNone);
 ("transmit_freq_rate_1", VNone);
 ("transmit_freq_rate_2", VNone);
 ("transmit_freq_rate_3", VNone);
 ("transmit_freq_rate_4", VNone);
 ("transmit_freq_rate_5", VNone);
 ("transmit_phase_ct_1", VNone);
 ("transmit_phase_ct_2", VNone);
 ("transmit_phase_ct_3", VNone);
 ("transmit_phase_ct_4", VNone);
 ("transmit_phase_ct_5", VNone);
 ("tropo_dry", VNone);
 ("tropo_wet", VNone);
 ("vlbi_delay", VNone)]; VObj "TrackingDataObservationType" [("epoch", VStr (lit "2007-075T14:16:27.000"));
 ("angle_1", VNone);
 ("angle_2", VNone);
 ("carrier_power", VNone);
 ("clock_bias", VNone);
 ("clock_drift", VNone);
 ("doppler_count", VNone);
 ("doppler_instantaneous", VNone);
 ("doppler_integrated", VNone);
 ("dor", VNone);
 ("mag", VNone);
 ("pc_n0", VNone);
 ("pr_n0", VNone);
 ("pressure", VNone);
 ("range", VNone);
 ("rcs", VNone);
 ("receive_freq", VDec (DFin false 67616433268546%N (-9)%Z));
 ("receive_freq_1", VNone);
 ("receive_freq_2", VNone);
 ("receive_freq_3", VNone);
 ("receive_freq_4", VNone);
 ("receive_freq_5", VNone);
 ("receive_phase_ct_1", VNone);
 ("receive_phase_ct_2", VNone);
 ("receive_phase_ct_3", VNone);
 ("receive_phase_ct_4", VNone);
 ("receive_phase_ct_5", VNone);
 ("rhumidity", VNone);
 ("stec", VNone);
 ("temperature", VNone);
 ("transmit_freq_1", VNone);
 ("transmit_freq_2", VNone);
 ("transmit_freq_3", VNone);
 ("transmit_freq_4", VNone);
 ("transmit_freq_5", VNone);
 ("transmit_freq_rate_1", VNone);
 ("transmit_freq_rate_2", VNone);
 ("transmit_freq_rate_3", VNone);
 ("transmit_freq_rate_4", VNone);
 ("transmit_freq_rate_5", VNone);
 ("transmit_phase_ct_1", VNone);
 ("transmit_phase_ct_2", VNone);
 ("transmit_phase_ct_3", VNone);
 ("transmit_phase_ct_4", VNone);
 ("transmit_phase_ct_5", VNone);
 ("tropo_dry", VNone);
 ("tropo_wet", VNone);
 ("vlbi_delay", VNone)]; VObj "TrackingDataObservationType" [("epoch", VStr (lit "2007-075T14:17:27.000"));
 ("angle_1", VNone);
 ("angle_2", VNone);
 ("carrier_power", VNone);
 ("clock_bias", VNone);
 ("clock_drift", VNone);
 ("doppler_count", VNone);
 ("doppler_instantaneous", VNone);
 ("doppler_integrated", VNone);
 ("dor", VNone);
 ("mag", VNone);
 ("pc_n0", VNone);
 ("pr_n0", VNone);
 ("pressure", VNone);
 ("range", VNone);
 ("rcs", VNone);
 ("receive_freq", VDec (DFin false 67563590857505%N (-9)%Z));
 ("receive_freq_1", VNone);
 ("receive_freq_2", VNone);
 ("receive_freq_3", VNone);
 ("receive_freq_4", VNone);
 ("receive_freq_5", VNone);
 ("receive_phase_ct_1", VNone);
 ("receive_phase_ct_2", VNone);
 ("receive_phase_ct_3", VNone);
 ("receive_phase_ct_4", VNone);
 ("receive_phase_ct_5", VNone);
 ("rhumidity", VNone);
 ("stec", VNone);
 ("temperature", VNone);
 ("transmit_freq_1", VNone);
 ("transmit_freq_2", VNone);
 ("transmit_freq_3", VNone);
 ("transmit_freq_4", VNone);
 ("transmit_freq_5", VNone);
 ("transmit_freq_rate_1", VNone);
 ("transmit_freq_rate_2", VNone);
 ("transmit_freq_rate_3", VNone);
 ("transmit_freq_rate_4", VNone);
 ("transmit_freq_rate_5", VNone);
 ("transmit_phase_ct_1", VNone);
 ("transmit_phase_ct_2", VNone);
 ("transmit_phase_ct_3", VNone);
 ("transmit_phase_ct_4", VNone);
 ("transmit_phase_ct_5", VNone);
 ("tropo_dry", VNone);
 ("tropo_wet", VNone);
 ("vlbi_delay", VNone)]; VObj "TrackingDataObservationType" [("epoch", VStr (lit "2007-075T14:18:27.000"));
 ("angle_1", VNone);
 ("angle_2", VNone);
 ("carrier_power", VNone);
 ("clock_bias", VNone);
 ("clock_drift", VNone);
 ("doppler_count", VNone);
 ("doppler_instantaneous", VNone);
 ("doppler_integrated", VNone);
 ("dor", VNone);
 ("mag", VNone);
 ("pc_n0", VNone);
 ("pr_n0", VNone);
 ("pressure", VNone);
 ("range", VNone);
 ("rcs", VNone);
 ("receive_freq", VDec (DFin false 6751046577548901%N (-11)%Z));
 ("receive_freq_1", VNone);
 ("receive_freq_2", VNone);
 ("receive_freq_3", VNone);
 ("receive_freq_4", VNone);
 ("receive_freq_5", VNone);
 ("receive_phase_ct_1", VNone);
 ("receive_phase_ct_2", VNone);
 ("receive_phase_ct_3", VNone);
 ("receive_phase_ct_4", VNone);
 ("receive_phase_ct_5", VNone);
 ("rhumidity", VNone);
 ("stec", VNone);
 ("temperature", VNone);
 ("transmit_freq_1", VNone);
 ("transmit_freq_2", VNone);
 ("transmit_freq_3", VNone);
 ("transmit_freq_4", VNone);
 ("transmit_freq_5", VNone);
 ("transmit_freq_rate_1", VNone);
 ("transmit_freq_rate_2", VNone);
 ("transmit_freq_rate_3", VNone);
 ("transmit_freq_rate_4", VNone);
 ("transmit_freq_rate_5", VNone);
 ("transmit_phase_ct_1", VNone);
 ("transmit_phase_ct_2", VNone);
 ("transmit_phase_ct_3", VNone);
 ("transmit_phase_ct_4", VNone);
 ("transmit_phase_ct_5", VNone);
 ("tropo_dry", VNone);
 ("tropo_wet", VNone);
 ("vlbi_delay", VNone)]; VObj "TrackingDataObservationType" [("epoch", VStr (lit "2007-075T14:19:27.000"));
 ("angle_1", VNone);
 ("angle_2", VNone);
 ("carrier_power", VNone);
 ("clock_bias", VNone);
 ("clock_drift", VNone);
 ("doppler_count", VNone);
 ("doppler_instantaneous", VNone);
 ("doppler_integrated", VNone);
 ("dor", VNone);
 ("mag", VNone);
 ("pc_n0", VNone);
 ("pr_n0", VNone);
 ("pressure", VNone);
 ("range", VNone);
 ("rcs", VNone);
 ("receive_freq", VDec (DFin false 67457060118674%N (-9)%Z));
 ("receive_freq_1", VNone);
 ("receive_freq_2", VNone);
 ("receive_freq_3", VNone);
 ("receive_freq_4", VNone);
 ("receive_freq_5", VNone);
 ("receive_phase_ct_1", VNone);
 ("receive_phase_ct_2", VNone);
 ("receive_phase_ct_3", VNone);
 ("receive_phase_ct_4", VNone);
 ("receive_phase_ct_5", VNone);
 ("rhumidity", VNone);
 ("stec", VNone);
 ("temperature", VNone);
 ("transmit_freq_1", VNone);
 ("transmit_freq_2", VNone);
 ("transmit_freq_3", VNone);
 ("transmit_freq_4", VNone);
 ("transmit_freq_5", VNone);
 ("transmit_freq_rate_1", VNone);
 ("transmit_freq_rate_2", VNone);
 ("transmit_freq_rate_3", VNone);
 ("transmit_freq_rate_4", VNone);
 ("transmit_freq_rate_5", VNone);
 ("transmit_phase_ct_1", VNone);
 ("transmit_phase_ct_2", VNone);
 ("transmit_phase_ct_3", VNone);
 ("transmit_phase_ct_4", VNone);
 ("transmit_phase_ct_5", VNone);
 ("tropo_dry", VNone);
 ("tropo_wet", VNone);
 ("vlbi_delay", VNone)]; VObj "TrackingDataObservationType" [("epoch", VStr (lit "2007-075T14:20:27.000"));
 ("angle_1", VNone);
 ("angle_2", VNone);
 ("carrier_power", VNone);
 ("clock_bias", VNone);
 ("clock_drift", VNone);
 ("doppler_count", VNone);
 ("doppler_instantaneous", VNone);
 ("doppler_integrated", VNone);
 ("dor", VNone);
 ("mag", VNone);
 ("pc_n0", VNone);
 ("pr_n0", VNone);
 ("pressure", VNone);
 ("range", VNone);
 ("rcs", VNone);
 ("receive_freq", VDec (DFin false 67403373022078%N (-9)%Z));
 ("receive_freq_1", VNone);
 ("receive_freq_2", VNone);
 ("receive_freq_3", VNone);
 ("receive_freq_4", VNone);
 ("receive_freq_5", VNone);
 ("receive_phase_ct_1", VNone);
 ("receive_phase_ct_2", VNone);
 ("receive_phase_ct_3", VNone);
 ("receive_phase_ct_4", VNone);
 ("receive_phase_ct_5", VNone);
 ("rhumidity", VNone);
 ("stec", VNone);
 ("temperature", VNone);
 ("transmit_freq_1", VNone);
 ("transmit_freq_2", VNone);
 ("transmit_freq_3", VNone);
 ("transmit_freq_4", VNone);
 ("transmit_freq_5", VNone);
 ("transmit_freq_rate_1", VNone);
 ("transmit_freq_rate_2", VNone);
 ("transmit_freq_rate_3", VNone);
 ("transmit_freq_rate_4", VNone);
 ("transmit_freq_rate_5", VNone);
 ("transmit_phase_ct_1", VNone);
 ("transmit_phase_ct_2", VNone);
 ("transmit_phase_ct_3", VNone);
 ("transmit_phase_ct_4", VNone);
 ("transmit_phase_ct_5", VNone);
 ("tropo_dry", VNone);
 ("tropo_wet", VNone);
 ("vlbi_delay", VNone)]; VObj "TrackingDataObservationType" [("epoch", VStr (lit "2007-075T14:21:27.000"));
 ("angle_1", VNone);
 ("angle_2", VNone);
 ("carrier_power", VNone);
 ("clock_bias", VNone);
 ("clock_drift", VNone);
 ("doppler_count", VNone);
 ("doppler_instantaneous", VNone);
 ("doppler_integrated", VNone);
 ("dor", VNone);
 ("mag", VNone);
 ("pc_n0", VNone);
 ("pr_n0", VNone);
 ("pressure", VNone);
 ("range", VNone);
 ("rcs", VNone);
 ("receive_freq", VDec (DFin false 67349406810759%N (-9)%Z));
 ("receive_freq_1", VNone);
 ("receive_freq_2", VNone);
 ("receive_freq_3", VNone);
 ("receive_freq_4", VNone);
 ("receive_freq_5", VNone);
 ("receive_phase_ct_1", VNone);
 ("receive_phase_ct_2", VNone);
 ("receive_phase_ct_3", VNone);
 ("receive_phase_ct_4", VNone);
 ("receive_phase_ct_5", VNone);
 ("rhumidity", VNone);
 ("stec", VNone);
 ("temperature", VNone);
 ("transmit_freq_1", VNone);
 ("transmit_freq_2", VNone);
 ("transmit_freq_3", VNone);
 ("transmit_freq_4", VNone);
 ("transmit_freq_5", VNone);
 ("transmit_freq_rate_1", VNone);
 ("transmit_freq_rate_2", VNone);
 ("transmit_freq_rate_3", VNone);
 ("transmit_freq_rate_4", VNone);
 ("transmit_freq_rate_5", VNone);
 ("transmit_phase_ct_1", VNone);
 ("transmit_phase_ct_2", VNone);
 ("transmit_phase_ct_3", VNone);
 ("transmit_phase_ct_4", VNone);
 ("transmit_phase_ct_5", VNone);
 ("tropo_dry", VNone);
 ("tropo_wet", VNone);
 ("vlbi_delay", VNone)]; VObj "TrackingDataObservationType" [("epoch", VStr (lit "2007-075T14:22:27.000"));
 ("angle_1", VNone);
 ("angle_2", VNone);
 ("carrier_power", VNone);
 ("clock_bias", VNone);
 ("clock_drift", VNone);
 ("doppler_count", VNone);
 ("doppler_instantaneous", VNone);
 ("doppler_integrated", VNone);
 ("dor", VNone);
 ("mag", VNone);
 ("pc_n0", VNone);
 ("pr_n0", VNone);
 ("pressure", VNone);
 ("range", VNone);
 ("rcs", VNone);
 ("receive_freq", VDec (DFin false 67295161800384%N (-9)%Z));
 ("receive_freq_1", VNone);
 ("receive_freq_2", VNone);
 ("receive_freq_3", VNone);
 ("receive_freq_4", VNone);
 ("receive_freq_5", VNone);
 ("receive_phase_ct_1", VNone);
 ("receive_phase_ct_2", VNone);
 ("receive_phase_ct_3", VNone);
 ("receive_phase_ct_4", VNone);
 ("receive_phase_ct_5", VNone);
 ("rhumidity", VNone);
 ("stec", VNone);
 ("temperature", VNone);
 ("transmit_freq_1", VNone);
 ("transmit_freq_2", VNone);
 ("transmit_freq_3", VNone);
 ("transmit_freq_4", VNone);
 ("transmit_freq_5", VNone);
 ("transmit_freq_rate_1", VNone);
 ("transmit_freq_rate_2", VNone);
 ("transmit_freq_rate_3", VNone);
 ("transmit_freq_rate_4", VNone);
 ("transmit_freq_rate_5", VNone);
 ("transmit_phase_ct_1", VNone);
 ("transmit_phase_ct_2", VNone);
 ("transmit_phase_ct_3", VNone);
 ("transmit_phase_ct_4", VNone);
 ("transmit_phase_ct_5", VNone);
 ("tropo_dry", VNone);
 ("tropo_wet", VNone);
 ("vlbi_delay", VNone)]; VObj "TrackingDataObservationType" [("epoch", VStr (lit "2007-075T14:23:27.000"));
 ("angle_1", VNone);
 ("angle_2", VNone);
 ("carrier_power", VNone);
 ("clock_bias", VNone);
 ("clock_drift", VNone);
 ("doppler_count", VNone);
 ("doppler_instantaneous", VNone);
 ("doppler_integrated", VNone);
 ("dor", VNone);
 ("mag", VNone);
 ("pc_n0", VNone);
 ("pr_n0", VNone);
 ("pressure", VNone);
 ("range", VNone);
 ("rcs", VNone);
 ("receive_freq", VDec (DFin false 67240639277457%N (-9)%Z));
 ("receive_freq_1", VNone);
 ("receive_freq_2", VNone);
 ("receive_freq_3", VNone);
 ("receive_freq_4", VNone);
 ("receive_freq_5", VNone);
 ("receive_phase_ct_1", VNone);
 ("receive_phase_ct_2", VNone);
 ("receive_phase_ct_3", VNone);
 ("receive_phase_ct_4", VNone);
 ("receive_phase_ct_5", VNone);
 ("rhumidity", VNone);
 ("stec", VNone);
 ("temperature", VNone);
 ("transmit_freq_1", VNone);
 ("transmit_freq_2", VNone);
 ("transmit_freq_3", VNone);
 ("transmit_freq_4", VNone);
 ("transmit_freq_5", VNone);
 ("transmit_freq_rate_1", VNone);
 ("transmit_freq_rate_2", VNone);
 ("transmit_freq_rate_3", VNone);
 ("transmit_freq_rate_4", VNone);
 ("transmit_freq_rate_5", VNone);
 ("transmit_phase_ct_1", VNone);
 ("transmit_phase_ct_2", VNone);
 ("transmit_phase_ct_3", VNone);
 ("transmit_phase_ct_4", VNone);
 ("transmit_phase_ct_5", VNone);
 ("tropo_dry", VNone);
 ("tropo_wet", VNone);
 ("vlbi_delay", VNone)]; VObj "TrackingDataObservationType" [("epoch", VStr (lit "2007-075T14:24:27.000"));
 ("angle_1", VNone);
 ("angle_2", VNone);
 ("carrier_power", VNone);
 ("clock_bias", VNone);
 ("clock_drift", VNone);
 ("doppler_count", VNone);
 ("doppler_instantaneous", VNone);
 ("doppler_integrated", VNone);
 ("dor", VNone);
 ("mag", VNone);
 ("pc_n0", VNone);
 ("pr_n0", VNone);
 ("pressure", VNone);
 ("range", VNone);
 ("rcs", VNone);
 ("receive_freq", VDec (DFin false 67185843270301%N (-9)%Z));
 ("receive_freq_1", VNone);
 ("receive_freq_2", VNone);
 ("receive_freq_3", VNone);
 ("receive_freq_4", VNone);
 ("receive_freq_5", VNone);
 ("receive_phase_ct_1", VNone);
 ("receive_phase_ct_2", VNone);
 ("receive_phase_ct_3", VNone);
 ("receive_phase_ct_4", VNone);
 ("receive_phase_ct_5", VNone);
 ("rhumidity", VNone);
 ("stec", VNone);
 ("temperature", VNone);
 ("transmit_freq_1", VNone);
 ("transmit_freq_2", VNone);
 ("transmit_freq_3", VNone);
 ("transmit_freq_4", VNone);
 ("transmit_freq_5", VNone);
 ("transmit_freq_rate_1", VNone);
 ("transmit_freq_rate_2", VNone);
 ("transmit_freq_rate_3", VNone);
 ("transmit_freq_rate_4", VNone);
 ("transmit_freq_rate_5", VNone);
 ("transmit_phase_ct_1", VNone);
 ("transmit_phase_ct_2", VNone);
 ("transmit_phase_ct_3", VNone);
 ("transmit_phase_ct_4", VNone);
 ("transmit_phase_ct_5", VNone);
 ("tropo_dry", VNone);
 ("tropo_wet", VNone);
 ("vlbi_delay", VNone)]; VObj "TrackingDataObservationType" [("epoch", VStr (lit "2007-075T14:25:27.000"));
 ("angle_1", VNone);
 ("angle_2", VNone);
 ("carrier_power", VNone);
 ("clock_bias", VNone);
 ("clock_drift", VNone);
 ("doppler_count", VNone);
 ("doppler_instantaneous", VNone);
 ("doppler_integrated", VNone);
 ("dor", VNone);
 ("mag", VNone);
 ("pc_n0", VNone);
 ("pr_n0", VNone);
 ("pressure", VNone);
 ("range", VNone);
 ("rcs", VNone);
 ("receive_freq", VDec (DFin false 67130772119521%N (-9)%Z));
 ("receive_freq_1", VNone);
 ("receive_freq_2", VNone);
 ("receive_freq_3", VNone);
 ("receive_freq_4", VNone);
 ("receive_freq_5", VNone);
 ("receive_phase_ct_1", VNone);
 ("receive_phase_ct_2", VNone);
 ("receive_phase_ct_3", VNone);
 ("receive_phase_ct_4", VNone);
 ("receive_phase_ct_5", VNone);
 ("rhumidity", VNone);
 ("stec", VNone);
 ("temperature", VNone);
 ("transmit_freq_1", VNone);
 ("transmit_freq_2", VNone);
 ("transmit_freq_3", VNone);
 ("transmit_freq_4", VNone);
 ("transmit_freq_5", VNone);
 ("transmit_freq_rate_1", VNone);
 ("transmit_freq_rate_2", VNone);
 ("transmit_freq_rate_3", VNone);
 ("transmit_freq_rate_4", VNone);
 ("transmit_freq_rate_5", VNone);
 ("transmit_phase_ct_1", VNone);
 ("transmit_phase_ct_2", VNone);
 ("transmit_phase_ct_3", VNone);
 ("transmit_phase_ct_4", VNone);
 ("transmit_phase_ct_5", VNone);
 ("tropo_dry", VNone);
 ("tropo_wet", VNone);
 ("vlbi_delay", VNone)]; VObj "TrackingDataObservationType" [("epoch", VStr (lit "2007-075T14:26:27.000"));
 ("angle_1", VNone);
 ("angle_2", VNone);
 ("carrier_power", VNone);
 ("clock_bias", VNone);
 ("clock_drift", VNone);
 ("doppler_count", VNone);
 ("doppler_instantaneous", VNone);
 ("doppler_integrated", VNone);
 ("dor", VNone);
 ("mag", VNone);
 ("pc_n0", VNone);
 ("pr_n0", VNone);
 ("pressure", VNone);
 ("range", VNone);
 ("rcs", VNone);
 ("receive_freq", VDec (DFin false 67075425816535%N (-9)%Z));
 ("receive_freq_1", VNone);
 ("receive_freq_2", VNone);
 ("receive_freq_3", VNone);
 ("receive_freq_4", VNone);
 ("receive_freq_5", VNone);
 ("receive_phase_ct_1", VNone);
 ("receive_phase_ct_2", VNone);
 ("receive_phase_ct_3", VNone);
 ("receive_phase_ct_4", VNone);
 ("receive_phase_ct_5", VNone);
 ("rhumidity", VNone);
 ("stec", VNone);
 ("temperature", VNone);
 ("transmit_freq_1", VNone);
 ("transmit_freq_2", VNone);
 ("transmit_freq_3", VNone);
 ("transmit_freq_4", VNone);
 ("transmit_freq_5", VNone);
 ("transmit_freq_rate_1", VNone);
 ("transmit_freq_rate_2", VNone);
 ("transmit_freq_rate_3", VNone);
 ("transmit_freq_rate_4", VNone);
 ("transmit_freq_rate_5", VNone);
 ("transmit_phase_ct_1", VNone);
 ("transmit_phase_ct_2", VNone);
 ("transmit_phase_ct_3", VNone);
 ("transmit_phase_ct_4", VNone);
 ("transmit_phase_ct_5", VNone);
 ("tropo_dry", VNone);
 ("tropo_wet", VNone);
 ("vlbi_delay", VNone)]; VObj "TrackingDataObservationType" [("epoch", VStr (lit "2007-075T14:27:27.000"));
 ("angle_1", VNone);
 ("angle_2", VNone);
 ("carrier_power", VNone);
 ("clock_bias", VNone);
 ("clock_drift", VNone);
 ("doppler_count", VNone);
 ("doppler_instantaneous", VNone);
 ("doppler_integrated", VNone);
 ("dor", VNone);
 ("mag", VNone);
 ("pc_n0", VNone);
 ("pr_n0", VNone);
 ("pressure", VNone);
 ("range", VNone);
 ("rcs", VNone);
 ("receive_freq", VDec (DFin false 67019809102057%N (-9)%Z));
 ("receive_freq_1", VNone);
 ("receive_freq_2", VNone);
 ("receive_freq_3", VNone);
 ("receive_freq_4", VNone);
 ("receive_freq_5", VNone);
 ("receive_phase_ct_1", VNone);
 ("receive_phase_ct_2", VNone);
 ("receive_phase_ct_3", VNone);
 ("receive_phase_ct_4", VNone);
 ("receive_phase_ct_5", VNone);
 ("rhumidity", VNone);
 ("stec", VNone);
 ("temperature", VNone);
 ("transmit_freq_1", VNone);
 ("transmit_freq_2", VNone);
 ("transmit_freq_3", VNone);
 ("transmit_freq_4", VNone);
 ("transmit_freq_5", VNone);
 ("transmit_freq_rate_1", VNone);
 ("transmit_freq_rate_2", VNone);
 ("transmit_freq_rate_3", VNone);
 ("transmit_freq_rate_4", VNone);
 ("transmit_freq_rate_5", VNone);
 ("transmit_phase_ct_1", VNone);
 ("transmit_phase_ct_2", VNone);
 ("transmit_phase_ct_3", VNone);
 ("transmit_phase_ct_4", VNone);
 ("transmit_phase_ct_5", VNone);
 ("tropo_dry", VNone);
 ("tropo_wet", VNone);
 ("vlbi_delay", VNone)]; VObj "TrackingDataObservationType" [("epoch", VStr (lit "2007-075T14:28:27.000"));
 ("angle_1", VNone);
 ("angle_2", VNone);
 ("carrier_power", VNone);
 ("clock_bias", VNone);
 ("clock_drift", VNone);
 ("doppler_count", VNone);
 ("doppler_instantaneous", VNone);
 ("doppler_integrated", VNone);
 ("dor", VNone);
 ("mag", VNone);
 ("pc_n0", VNone);
 ("pr_n0", VNone);
 ("pressure", VNone);
 ("range", VNone);
 ("rcs", VNone);
 ("receive_freq", VDec (DFin false 6696392136669101%N (-11)%Z));
 ("receive_freq_1", VNone);
 ("receive_freq_2", VNone);
 ("receive_freq_3", VNone);
 ("receive_freq_4", VNone);
 ("receive_freq_5", VNone);
 ("receive_phase_ct_1", VNone);
 ("receive_phase_ct_2", VNone);
 ("receive_phase_ct_3", VNone);
 ("receive_phase_ct_4", VNone);
 ("receive_phase_ct_5", VNone);
 ("rhumidity", VNone);
 ("stec", VNone);
 ("temperature", VNone);
 ("transmit_freq_1", VNone);
 ("transmit_freq_2", VNone);
 ("transmit_freq_3", VNone);
 ("transmit_freq_4", VNone);
 ("transmit_freq_5", VNone);
 ("transmit_freq_rate_1", VNone);
 ("transmit_freq_rate_2", VNone);
 ("transmit_freq_rate_3", VNone);
 ("transmit_freq_rate_4", VNone);
 ("transmit_freq_rate_5", VNone);
 ("transmit_phase_ct_1", VNone);
 ("transmit_phase_ct_2", VNone);
 ("transmit_phase_ct_3", VNone);
 ("transmit_phase_ct_4", VNone);
 ("transmit_phase_ct_5", VNone);
 ("tropo_dry", VNone);
 ("tropo_wet", VNone);
 ("vlbi_delay", VNone)]; VObj "TrackingDataObservationType" [("epoch", VStr (lit "2007-075T14:29:27.000"));
 ("angle_1", VNone);
 ("angle_2", VNone);
 ("carrier_power", VNone);
 ("clock_bias", VNone);
 ("clock_drift", VNone);
 ("doppler_count", VNone);
 ("doppler_instantaneous", VNone);
 ("doppler_integrated", VNone);
 ("dor", VNone);
 ("mag", VNone);
 ("pc_n0", VNone);
 ("pr_n0", VNone);
 ("pressure", VNone);
 ("range", VNone);
 ("rcs", VNone);
 ("receive_freq", VDec (DFin false 66907762114524%N (-9)%Z));
 ("receive_freq_1", VNone);
 ("receive_freq_2", VNone);
 ("receive_freq_3", VNone);
 ("receive_freq_4", VNone);
 ("receive_freq_5", VNone);
 ("receive_phase_ct_1", VNone);
 ("receive_phase_ct_2", VNone);
 ("receive_phase_ct_3", VNone);
 ("receive_phase_ct_4", VNone);
 ("receive_phase_ct_5", VNone);
 ("rhumidity", VNone);
 ("stec", VNone);
 ("temperature", VNone);
 ("transmit_freq_1", VNone);
 ("transmit_freq_2", VNone);
 ("transmit_freq_3", VNone);
 ("transmit_freq_4", VNone);
 ("transmit_freq_5", VNone);
 ("transmit_freq_rate_1", VNone);
 ("transmit_freq_rate_2", VNone);
 ("transmit_freq_rate_3", VNone);
 ("transmit_freq_rate_4", VNone);
 ("transmit_freq_rate_5", VNone);
 ("transmit_phase_ct_1", VNone);
 ("transmit_phase_ct_2", VNone);
 ("transmit_phase_ct_3", VNone);
 ("transmit_phase_ct_4", VNone);
 ("transmit_phase_ct_5", VNone);
 ("tropo_dry", VNone);
 ("tropo_wet", VNone);
 ("vlbi_delay", VNone)]; VObj "TrackingDataObservationType" [("epoch", VStr (lit "2007-075T14:30:27.000"));
 ("angle_1", VNone);
 ("angle_2", VNone);
 ("carrier_power", VNone);
 ("clock_bias", VNone);
 ("clock_drift", VNone);
 ("doppler_count", VNone);
 ("doppler_instantaneous", VNone);
 ("doppler_integrated", VNone);
 ("dor", VNone);
 ("mag", VNone);
 ("pc_n0", VNone);
 ("pr_n0", VNone);
 ("pressure", VNone);
 ("range", VNone);
 ("rcs", VNone);
 ("receive_freq", VDec (DFin false 66851335167884%N (-9)%Z));
 ("receive_freq_1", VNone);
 ("receive_freq_2", VNone);
 ("receive_freq_3", VNone);
 ("receive_freq_4", VNone);
 ("receive_freq_5", VNone);
 ("receive_phase_ct_1", VNone);
 ("receive_phase_ct_2", VNone);
 ("receive_phase_ct_3", VNone);
 ("receive_phase_ct_4", VNone);
 ("receive_phase_ct_5", VNone);
 ("rhumidity", VNone);
 ("stec", VNone);
 ("temperature", VNone);
 ("transmit_freq_1", VNone);
 ("transmit_freq_2", VNone);
 ("transmit_freq_3", VNone);
 ("transmit_freq_4", VNone);
 ("transmit_freq_5", VNone);
 ("transmit_freq_rate_1", VNone);
 ("transmit_freq_rate_2", VNone);
 ("transmit_freq_rate_3", VNone);
 ("transmit_freq_rate_4", VNone);
 ("transmit_freq_rate_5", VNone);
 ("transmit_phase_ct_1", VNone);
 ("transmit_phase_ct_2", VNone);
 ("transmit_phase_ct_3", VNone);
 ("transmit_phase_ct_4", VNone);
 ("transmit_phase_ct_5", VNone);
 ("tropo_dry", VNone);
 ("tropo_wet", VNone);
 ("vlbi_delay", VNone)]; VObj "TrackingDataObservationType" [("epoch", VStr (lit "2007-075T14:31:27.000"));
 ("angle_1", VNone);
 ("angle_2", VNone);
 ("carrier_power", VNone);
 ("clock_bias", VNone);
 ("clock_drift", VNone);
 ("doppler_count", VNone);
 ("doppler_instantaneous", VNone);
 ("doppler_integrated", VNone);
 ("dor", VNone);
 ("mag", VNone);
 ("pc_n0", VNone);
 ("pr_n0", VNone);
 ("pressure", VNone);
 ("range", VNone);
 ("rcs", VNone);
 ("receive_freq", VDec (DFin false 6679463946628501%N (-11)%Z));
 ("receive_freq_1", VNone);
 ("receive_freq_2", VNone);
 ("receive_freq_3", VNone);
 ("receive_freq_4", VNone);
 ("receive_freq_5", VNone);
 ("receive_phase_ct_1", VNone);
 ("receive_phase_ct_2", VNone);
 ("receive_phase_ct_3", VNone);
 ("receive_phase_ct_4", VNone);
 ("receive_phase_ct_5", VNone);
 ("rhumidity", VNone);
 ("stec", VNone);
 ("temperature", VNone);
 ("transmit_freq_1", VNone);
 ("transmit_freq_2", VNone);
 ("transmit_freq_3", VNone);
 ("transmit_freq_4", VNone);
 ("transmit_freq_5", VNone);
 ("transmit_freq_rate_1", VNone);
 ("transmit_freq_rate_2", VNone);
 ("transmit_freq_rate_3", VNone);
 ("transmit_freq_rate_4", VNone);
 ("transmit_freq_rate_5", VNone);
 ("transmit_phase_ct_1", VNone);
 ("transmit_phase_ct_2", VNone);
 ("transmit_phase_ct_3", VNone);
 ("transmit_phase_ct_4", VNone);
 ("transmit_phase_ct_5", VNone);
 ("tropo_dry", VNone);
 ("tropo_wet", VNone);
 ("vlbi_delay", VNone)]; VObj "TrackingDataObservationType" [("epoch", VStr (lit "2007-075T14:32:27.000"));
 ("angle_1", VNone);
 ("angle_2", VNone);
 ("carrier_power", VNone);
 ("clock_bias", VNone);
 ("clock_drift", VNone);
 ("doppler_count", VNone);
 ("doppler_instantaneous", VNone);
 ("doppler_integrated", VNone);
 ("dor", VNone);
 ("mag", VNone);
 ("pc_n0", VNone);
 ("pr_n0", VNone);
 ("pressure", VNone);
 ("range", VNone);
 ("rcs", VNone);
 ("receive_freq", VDec (DFin false 66737677620887%N (-9)%Z));
 ("receive_freq_1", VNone);
 ("receive_freq_2", VNone);
 ("receive_freq_3", VNone);
 ("receive_freq_4", VNone);
 ("receive_freq_5", VNone);
 ("receive_phase_ct_1", VNone);
 ("receive_phase_ct_2", VNone);
 ("receive_phase_ct_3", VNone);
 ("receive_phase_ct_4", VNone);
 ("receive_phase_ct_5", VNone);
 ("rhumidity", VNone);
 ("stec", VNone);
 ("temperature", VNone);
 ("transmit_freq_1", VNone);
 ("transmit_freq_2", VNone);
 ("transmit_freq_3", VNone);
 ("transmit_freq_4", VNone);
 ("transmit_freq_5", VNone);
 ("transmit_freq_rate_1", VNone);
 ("transmit_freq_rate_2", VNone);
 ("transmit_freq_rate_3", VNone);
 ("transmit_freq_rate_4", VNone);
 ("transmit_freq_rate_5", VNone);
 ("transmit_phase_ct_1", VNone);
 ("transmit_phase_ct_2", VNone);
 ("transmit_phase_ct_3", VNone);
 ("transmit_phase_ct_4", VNone);
 ("transmit_phase_ct_5", VNone);
 ("tropo_dry", VNone);
 ("tropo_wet", VNone);
 ("vlbi_delay", VNone)]; VObj "TrackingDataObservationType" [("epoch", VStr (lit "2007-075T14:33:27.000"));
 ("angle_1", VNone);
 ("angle_2", VNone);
 ("carrier_power", VNone);
 ("clock_bias", VNone);
 ("clock_drift", VNone);
 ("doppler_count", VNone);
 ("doppler_instantaneous", VNone);
 ("doppler_integrated", VNone);
 ("dor", VNone);
 ("mag", VNone);
 ("pc_n0", VNone);
 ("pr_n0", VNone);
 ("pressure", VNone);
 ("range", VNone);
 ("rcs", VNone);
 ("receive_freq", VDec (DFin false 6668045045947901%N (-11)%Z));
 ("receive_freq_1", VNone);
 ("receive_freq_2", VNone);
 ("receive_freq_3", VNone);
 ("receive_freq_4", VNone);
 ("receive_freq_5", VNone);
 ("receive_phase_ct_1", VNone);
 ("receive_phase_ct_2", VNone);
 ("receive_phase_ct_3", VNone);
 ("receive_phase_ct_4", VNone);
 ("receive_phase_ct_5", VNone);
 ("rhumidity", VNone);
 ("stec", VNone);
 ("temperature", VNone);
 ("transmit_freq_1", VNone);
 ("transmit_freq_2", VNone);
 ("transmit_freq_3", VNone);
 ("transmit_freq_4", VNone);
 ("transmit_freq_5", VNone);
 ("transmit_freq_rate_1", VNone);
 ("transmit_freq_rate_2", VNone);
 ("transmit_freq_rate_3", VNone);
 ("transmit_freq_rate_4", VNone);
 ("transmit_freq_rate_5", VNone);
 ("transmit_phase_ct_1", VNone);
 ("transmit_phase_ct_2", VNone);
 ("transmit_phase_ct_3", VNone);
 ("transmit_phase_ct_4", VNone);
 ("transmit_phase_ct_5", VNone);
 ("tropo_dry", VNone);
 ("tropo_wet", VNone);
 ("vlbi_delay", VNone)]; VObj "TrackingDataObservationType" [("epoch", VStr (lit "2007-075T14:34:27.000"));
 ("angle_1", VNone);
 ("angle_2", VNone);
 ("carrier_power", VNone);
 ("clock_bias", VNone);
 ("clock_drift", VNone);
 ("doppler_count", VNone);
 ("doppler_instantaneous", VNone);
 ("doppler_integrated", VNone);
 ("dor", VNone);
 ("mag", VNone);
 ("pc_n0", VNone);
 ("pr_n0", VNone);
 ("pressure", VNone);
 ("range", VNone);
 ("rcs", VNone);
 ("receive_freq", VDec (DFin false 66622961338996%N (-9)%Z));
 ("receive_freq_1", VNone);
 ("receive_freq_2", VNone);
 ("receive_freq_3", VNone);
 ("receive_freq_4", VNone);
 ("receive_freq_5", VNone);
 ("receive_phase_ct_1", VNone);
 ("receive_phase_ct_2", VNone);
 ("receive_phase_ct_3", VNone);
 ("receive_phase_ct_4", VNone);
 ("receive_phase_ct_5", VNone);
 ("rhumidity", VNone);
 ("stec", VNone);
 ("temperature", VNone);
 ("transmit_freq_1", VNone);
 ("transmit_freq_2", VNone);
 ("transmit_freq_3", VNone);
 ("transmit_freq_4", VNone);
 ("transmit_freq_5", VNone);
 ("transmit_freq_rate_1", VNone);
 ("transmit_freq_rate_2", VNone);
 ("transmit_freq_rate_3", VNone);
 ("transmit_freq_rate_4", VNone);
 ("transmit_freq_rate_5", VNone);
 ("transmit_phase_ct_1", VNone);
 ("transmit_phase_ct_2", VNone);
 ("transmit_phase_ct_3", VNone);
 ("transmit_phase_ct_4", VNone);
 ("transmit_phase_ct_5", VNone);
 ("tropo_dry", VNone);
 ("tropo_wet", VNone);
 ("vlbi_delay", VNone)]; VObj "TrackingDataObservationType" [("epoch", VStr (lit "2007-075T14:35:27.000"));
 ("angle_1", VNone);
 ("angle_2", VNone);
 ("carrier_power", VNone);
 ("clock_bias", VNone);
 ("clock_drift", VNone);
 ("doppler_count", VNone);
 ("doppler_instantaneous", VNone);
 ("doppler_integrated", VNone);
 ("dor", VNone);
 ("mag", VNone);
 ("pc_n0", VNone);
 ("pr_n0", VNone);
 ("pressure", VNone);
 ("range", VNone);
 ("rcs", VNone);
 ("receive_freq", VDec (DFin false 66565207820891%N (-9)%Z));
 ("receive_freq_1", VNone);
 ("receive_freq_2", VNone);
 ("receive_freq_3", VNone);
 ("receive_freq_4", VNone);
 ("receive_freq_5", VNone);
 ("receive_phase_ct_1", VNone);
 ("receive_phase_ct_2", VNone);
 ("receive_phase_ct_3", VNone);
 ("receive_phase_ct_4", VNone);
 ("receive_phase_ct_5", VNone);
 ("rhumidity", VNone);
 ("stec", VNone);
 ("temperature", VNone);
 ("transmit_freq_1", VNone);
 ("transmit_freq_2", VNone);
 ("transmit_freq_3", VNone);
 ("transmit_freq_4", VNone);
 ("transmit_freq_5", VNone);
 ("transmit_freq_rate_1", VNone);
 ("transmit_freq_rate_2", VNone);
 ("transmit_freq_rate_3", VNone);
 ("transmit_freq_rate_4", VNone);
 ("transmit_freq_rate_5", VNone);
 ("transmit_phase_ct_1", VNone);
 ("transmit_phase_ct_2", VNone);
 ("transmit_phase_ct_3", VNone);
 ("transmit_phase_ct_4", VNone);
 ("transmit_phase_ct_5", VNone);
 ("tropo_dry", VNone);
 ("tropo_wet", VNone);
 ("vlbi_delay", VNone)]; VObj "TrackingDataObservationType" [("epoch", VStr (lit "2007-075T14:36:27.000"));
 ("angle_1", VNone);
 ("angle_2", VNone);
 ("carrier_power", VNone);
 ("clock_bias", VNone);
 ("clock_drift", VNone);
 ("doppler_count", VNone);
 ("doppler_instantaneous", VNone);
 ("doppler_integrated", VNone);
 ("dor", VNone);
 ("mag", VNone);
 ("pc_n0", VNone);
 ("pr_n0", VNone);
 ("pressure", VNone);
 ("range", VNone);
 ("rcs", VNone);
 ("receive_freq", VDec (DFin false 66507194423675%N (-9)%Z));
 ("receive_freq_1", VNone);
 ("receive_freq_2", VNone);
 ("receive_freq_3", VNone);
 ("receive_freq_4", VNone);
 ("receive_freq_5", VNone);
 ("receive_phase_ct_1", VNone);
 ("receive_phase_ct_2", VNone);
 ("receive_phase_ct_3", VNone);
 ("receive_phase_ct_4", VNone);
 ("receive_phase_ct_5", VNone);
 ("rhumidity", VNone);
 ("stec", VNone);
 ("temperature", VNone);
 ("transmit_freq_1", VNone);
 ("transmit_freq_2", VNone);
 ("transmit_freq_3", VNone);
 ("transmit_freq_4", VNone);
 ("transmit_freq_5", VNone);
 ("transmit_freq_rate_1", VNone);
 ("transmit_freq_rate_2", VNone);
 ("transmit_freq_rate_3", VNone);
 ("transmit_freq_rate_4", VNone);
 ("transmit_freq_rate_5", VNone);
 ("transmit_phase_ct_1", VNone);
 ("transmit_phase_ct_2", VNone);
 ("transmit_phase_ct_3", VNone);
 ("transmit_phase_ct_4", VNone);
 ("transmit_phase_ct_5", VNone);
 ("tropo_dry", VNone);
 ("tropo_wet", VNone);
 ("vlbi_delay", VNone)]; VObj "TrackingDataObservationType" [("epoch", VStr (lit "2007-075T14:37:27.000"));
 ("angle_1", VNone);
 ("angle_2", VNone);
 ("carrier_power", VNone);
 ("clock_bias", VNone);
 ("clock_drift", VNone);
 ("doppler_count", VNone);
 ("doppler_instantaneous", VNone);
 ("doppler_integrated", VNone);
 ("dor", VNone);
 ("mag", VNone);
 ("pc_n0", VNone);
 ("pr_n0", VNone);
 ("pressure", VNone);
 ("range", VNone);
 ("rcs", VNone);
 ("receive_freq", VDec (DFin false 66448919474601%N (-9)%Z));
 ("receive_freq_1", VNone);
 ("receive_freq_2", VNone);
 ("receive_freq_3", VNone);
 ("receive_freq_4", VNone);
 ("receive_freq_5", VNone);
 ("receive_phase_ct_1", VNone);
 ("receive_phase_ct_2", VNone);
 ("receive_phase_ct_3", VNone);
 ("receive_phase_ct_4", VNone);
 ("receive_phase_ct_5", VNone);
 ("rhumidity", VNone);
 ("stec", VNone);
 ("temperature", VNone);
 ("transmit_freq_1", VNone);
 ("transmit_freq_2", VNone);
 ("transmit_freq_3", VNone);
 ("transmit_freq_4", VNone);
 ("transmit_freq_5", VNone);
 ("transmit_freq_rate_1", VNone);
 ("transmit_freq_rate_2", VNone);
 ("transmit_freq_rate_3", VNone);
 ("transmit_freq_rate_4", VNone);
 ("transmit_freq_rate_5", VNone);
 ("transmit_phase_ct_1", VNone);
 ("transmit_phase_ct_2", VNone);
 ("transmit_phase_ct_3", VNone);
 ("transmit_phase_ct_4", VNone);
 ("transmit_phase_ct_5", VNone);
 ("tropo_dry", VNone);
 ("tropo_wet", VNone);
 ("vlbi_delay", VNone)]; VObj "TrackingDataObservationType" [("epoch", VStr (lit "2007-075T14:38:27.000"));
 ("angle_1", VNone);
 ("angle_2", VNone);
 ("carrier_power", VNone);
 ("clock_bias", VNone);
 ("clock_drift", VNone);
 ("doppler_count", VNone);
 ("doppler_instantaneous", VNone);
 ("doppler_integrated", VNone);
 ("dor", VNone);
 ("mag", VNone);
 ("pc_n0", VNone);
 ("pr_n0", VNone);
 ("pressure", VNone);
 ("range", VNone);
 ("rcs", VNone);
 ("receive_freq", VDec (DFin false 66390385575293%N (-9)%Z));
 ("receive_freq_1", VNone);
 ("receive_freq_2", VNone);
 ("receive_freq_3", VNone);
 ("receive_freq_4", VNone);
 ("receive_freq_5", VNone);
 ("receive_phase_ct_1", VNone);
 ("receive_phase_ct_2", VNone);
 ("receive_phase_ct_3", VNone);
 ("receive_phase_ct_4", VNone);
 ("receive_phase_ct_5", VNone);
 ("rhumidity", VNone);
 ("stec", VNone);
 ("temperature", VNone);
 ("transmit_freq_1", VNone);
 ("transmit_freq_2", VNone);
 ("transmit_freq_3", VNone);
 ("transmit_freq_4", VNone);
 ("transmit_freq_5", VNone);
 ("transmit_freq_rate_1", VNone);
 ("transmit_freq_rate_2", VNone);
 ("transmit_freq_rate_3", VNone);
 ("transmit_freq_rate_4", VNone);
 ("transmit_freq_rate_5", VNone);
 ("transmit_phase_ct_1", VNone);
 ("transmit_phase_ct_2", VNone);
 ("transmit_phase_ct_3", VNone);
 ("transmit_phase_ct_4", VNone);
 ("transmit_phase_ct_5", VNone);
 ("tropo_dry", VNone);
 ("tropo_wet", VNone);
 ("vlbi_delay", VNone)]; VObj "TrackingDataObservationType" [("epoch", VStr (lit "2007-075T14:39:27.000"));
 ("angle_1", VNone);
 ("angle_2", VNone);
 ("carrier_power", VNone);
 ("clock_bias", VNone);
 ("clock_drift", VNone);
 ("doppler_count", VNone);
 ("doppler_instantaneous", VNone);
 ("doppler_integrated", VNone);
 ("dor", VNone);
 ("mag", VNone);
 ("pc_n0", VNone);
 ("pr_n0", VNone);
 ("pressure", VNone);
 ("range", VNone);
 ("rcs", VNone);
 ("receive_freq", VDec (DFin false 66331594535827%N (-9)%Z));
 ("receive_freq_1", VNone);
 ("receive_freq_2", VNone);
 ("receive_freq_3", VNone);
 ("receive_freq_4", VNone);
 ("receive_freq_5", VNone);
 ("receive_phase_ct_1", VNone);
 ("receive_phase_ct_2", VNone);
 ("receive_phase_ct_3", VNone);
 ("receive_phase_ct_4", VNone);
 ("receive_phase_ct_5", VNone);
 ("rhumidity", VNone);
 ("stec", VNone);
 ("temperature", VNone);
 ("transmit_freq_1", VNone);
 ("transmit_freq_2", VNone);
 ("transmit_freq_3", VNone);
 ("transmit_freq_4", VNone);
 ("transmit_freq_5", VNone);
 ("transmit_freq_rate_1", VNone);
 ("transmit_freq_rate_2", VNone);
 ("transmit_freq_rate_3", VNone);
 ("transmit_freq_rate_4", VNone);
 ("transmit_freq_rate_5", VNone);
 ("transmit_phase_ct_1", VNone);
 ("transmit_phase_ct_2", VNone);
 ("transmit_phase_ct_3", VNone);
 ("transmit_phase_ct_4", VNone);
 ("transmit_phase_ct_5", VNone);
 ("tropo_dry", VNone);
 ("tropo_wet", VNone);
 ("vlbi_delay", VNone)]; VObj "TrackingDataObservationType" [("epoch", VStr (lit "2007-075T14:40:27.000"));
 ("angle_1", VNone);
 ("angle_2", VNone);
 ("carrier_power", VNone);
 ("clock_bias", VNone);
 ("clock_drift", VNone);
 ("doppler_count", VNone);
 ("doppler_instantaneous", VNone);
 ("doppler_integrated", VNone);
 ("dor", VNone);
 ("mag", VNone);
 ("pc_n0", VNone);
 ("pr_n0", VNone);
 ("pressure", VNone);
 ("range", VNone);
 ("rcs", VNone);
 ("receive_freq", VDec (DFin false 6627254776859201%N (-11)%Z));
 ("receive_freq_1", VNone);
 ("receive_freq_2", VNone);
 ("receive_freq_3", VNone);
 ("receive_freq_4", VNone);
 ("receive_freq_5", VNone);
 ("receive_phase_ct_1", VNone);
 ("receive_phase_ct_2", VNone);
 ("receive_phase_ct_3", VNone);
 ("receive_phase_ct_4", VNone);
 ("receive_phase_ct_5", VNone);
 ("rhumidity", VNone);
 ("stec", VNone);
 ("temperature", VNone);
 ("transmit_freq_1", VNone);
 ("transmit_freq_2", VNone);
 ("transmit_freq_3", VNone);
 ("transmit_freq_4", VNone);
 ("transmit_freq_5", VNone);
 ("transmit_freq_rate_1", VNone);
 ("transmit_freq_rate_2", VNone);
 ("transmit_freq_rate_3", VNone);
 ("transmit_freq_rate_4", VNone);
 ("transmit_freq_rate_5", VNone);
 ("transmit_phase_ct_1", VNone);
 ("transmit_phase_ct_2", VNone);
 ("transmit_phase_ct_3", VNone);
 ("transmit_phase_ct_4", VNone);
 ("transmit_phase_ct_5", VNone);
 ("tropo_dry", VNone);
 ("tropo_wet", VNone);
 ("vlbi_delay", VNone)]; VObj "TrackingDataObservationType" [("epoch", VStr (lit "2007-075T14:41:27.000"));
 ("angle_1", VNone);
 ("angle_2", VNone);
 ("carrier_power", VNone);
 ("clock_bias", VNone);
 ("clock_drift", VNone);
 ("doppler_count", VNone);
 ("doppler_instantaneous", VNone);
 ("doppler_integrated", VNone);
 ("dor", VNone);
 ("mag", VNone);
 ("pc_n0", VNone);
 ("pr_n0", VNone);
 ("pressure", VNone);
 ("range", VNone);
 ("rcs", VNone);
 ("receive_freq", VDec (DFin false 66213244307517%N (-9)%Z));
 ("receive_freq_1", VNone);
 ("receive_freq_2", VNone);
 ("receive_freq_3", VNone);
 ("receive_freq_4", VNone);
 ("receive_freq_5", VNone);
 ("receive_phase_ct_1", VNone);
 ("receive_phase_ct_2", VNone);
 ("receive_phase_ct_3", VNone);
 ("receive_phase_ct_4", VNone);
 ("receive_phase_ct_5", VNone);
 ("rhumidity", VNone);
 ("stec", VNone);
 ("temperature", VNone);
 ("transmit_freq_1", VNone);
 ("transmit_freq_2", VNone);
 ("transmit_freq_3", VNone);
 ("transmit_freq_4", VNone);
 ("transmit_freq_5", VNone);
 ("transmit_freq_rate_1", VNone);
 ("transmit_freq_rate_2", VNone);
 ("transmit_freq_rate_3", VNone);
 ("transmit_freq_rate_4", VNone);
 ("transmit_freq_rate_5", VNone);
 ("transmit_phase_ct_1", VNone);
 ("transmit_phase_ct_2", VNone);
 ("transmit_phase_ct_3", VNone);
 ("transmit_phase_ct_4", VNone);
 ("transmit_phase_ct_5", VNone);
 ("tropo_dry", VNone);
 ("tropo_wet", VNone);
 ("vlbi_delay", VNone)]; VObj "TrackingDataObservationType" [("epoch", VStr (lit "2007-075T14:42:27.000"));
 ("angle_1", VNone);
 ("angle_2", VNone);
 ("carrier_power", VNone);
 ("clock_bias", VNone);
 ("clock_drift", VNone);
 ("doppler_count", VNone);
 ("doppler_instantaneous", VNone);
 ("doppler_integrated", VNone);
 ("dor", VNone);
 ("mag", VNone);
 ("pc_n0", VNone);
 ("pr_n0", VNone);
 ("pressure", VNone);
 ("range", VNone);
 ("rcs", VNone);
 ("receive_freq", VDec (DFin false 66153688301085%N (-9)%Z));
 ("receive_freq_1", VNone);
 ("receive_freq_2", VNone);
 ("receive_freq_3", VNone);
 ("receive_freq_4", VNone);
 ("receive_freq_5", VNone);
 ("receive_phase_ct_1", VNone);
 ("receive_phase_ct_2", VNone);
 ("receive_phase_ct_3", VNone);
 ("receive_phase_ct_4", VNone);
 ("receive_phase_ct_5", VNone);
 ("rhumidity", VNone);
 ("stec", VNone);
 ("temperature", VNone);
 ("transmit_freq_1", VNone);
 ("transmit_freq_2", VNone);
 ("transmit_freq_3", VNone);
 ("transmit_freq_4", VNone);
 ("transmit_freq_5", VNone);
 ("transmit_freq_rate_1", VNone);
 ("transmit_freq_rate_2", VNone);
 ("transmit_freq_rate_3", VNone);
 ("transmit_freq_rate_4", VNone);
 ("transmit_freq_rate_5", VNone);
 ("transmit_phase_ct_1", VNone);
 ("transmit_phase_ct_2", VNone);
 ("transmit_phase_ct_3", VNone);
 ("transmit_phase_ct_4", VNone);
 ("transmit_phase_ct_5", VNone);
 ("tropo_dry", VNone);
 ("tropo_wet", VNone);
 ("vlbi_delay", VNone)]; VObj "TrackingDataObservationType" [("epoch", VStr (lit "2007-075T14:43:27.000"));
 ("angle_1", VNone);
 ("angle_2", VNone);
 ("carrier_power", VNone);
 ("clock_bias", VNone);
 ("clock_drift", VNone);
 ("doppler_count", VNone);
 ("doppler_instantaneous", VNone);
 ("doppler_integrated", VNone);
 ("dor", VNone);
 ("mag", VNone);
 ("pc_n0", VNone);
 ("pr_n0", VNone);
 ("pressure", VNone);
 ("range", VNone);
 ("rcs", VNone);
 ("receive_freq", VDec (DFin false 6609387924766399%N (-11)%Z));
 ("receive_freq_1", VNone);
 ("receive_freq_2", VNone);
 ("receive_freq_3", VNone);
 ("receive_freq_4", VNone);
 ("receive_freq_5", VNone);
 ("receive_phase_ct_1", VNone);
 ("receive_phase_ct_2", VNone);
 ("receive_phase_ct_3", VNone);
 ("receive_phase_ct_4", VNone);
 ("receive_phase_ct_5", VNone);
 ("rhumidity", VNone);
 ("stec", VNone);
 ("temperature", VNone);
 ("transmit_freq_1", VNone);
 ("transmit_freq_2", VNone);
 ("transmit_freq_3", VNone);
 ("transmit_freq_4", VNone);
 ("transmit_freq_5", VNone);
 ("transmit_freq_rate_1", VNone);
 ("transmit_freq_rate_2", VNone);
 ("transmit_freq_rate_3", VNone);
 ("transmit_freq_rate_4", VNone);
 ("transmit_freq_rate_5", VNone);
 ("transmit_phase_ct_1", VNone);
 ("transmit_phase_ct_2", VNone);
 ("transmit_phase_ct_3", VNone);
 ("transmit_phase_ct_4", VNone);
 ("transmit_phase_ct_5", VNone);
 ("tropo_dry", VNone);
 ("tropo_wet", VNone);
 ("vlbi_delay", VNone)]; VObj "TrackingDataObservationType" [("epoch", VStr (lit "2007-075T14:44:27.000"));
 ("angle_1", VNone);
 ("angle_2", VNone);
 ("carrier_power", VNone);
 ("clock_bias", VNone);
 ("clock_drift", VNone);
 ("doppler_count", VNone);
 ("doppler_instantaneous", VNone);
 ("doppler_integrated", VNone);
 ("dor", VNone);
 ("mag", VNone);
 ("pc_n0", VNone);
 ("pr_n0", VNone);
 ("pressure", VNone);
 ("range", VNone);
 ("rcs", VNone);
 ("receive_freq", VDec (DFin false 66033818778991%N (-9)%Z));
 ("receive_freq_1", VNone);
 ("receive_freq_2", VNone);
 ("receive_freq_3", VNone);
 ("receive_freq_4", VNone);
 ("receive_freq_5", VNone);
 ("receive_phase_ct_1", VNone);
 ("receive_phase_ct_2", VNone);
 ("receive_phase_ct_3", VNone);
 ("receive_phase_ct_4", VNone);
 ("receive_phase_ct_5", VNone);
 ("rhumidity", VNone);
 ("stec", VNone);
 ("temperature", VNone);
 ("transmit_freq_1", VNone);
 ("transmit_freq_2", VNone);
 ("transmit_freq_3", VNone);
 ("transmit_freq_4", VNone);
 ("transmit_freq_5", VNone);
 ("transmit_freq_rate_1", VNone);
 ("transmit_freq_rate_2", VNone);
 ("transmit_freq_rate_3", VNone);
 ("transmit_freq_rate_4", VNone);
 ("transmit_freq_rate_5", VNone);
 ("transmit_phase_ct_1", VNone);
 ("transmit_phase_ct_2", VNone);
 ("transmit_phase_ct_3", VNone);
 ("transmit_phase_ct_4", VNone);
 ("transmit_phase_ct_5", VNone);
 ("tropo_dry", VNone);
 ("tropo_wet", VNone);
 ("vlbi_delay", VNone)]; VObj "TrackingDataObservationType" [("epoch", VStr (lit "2007-075T14:45:27.000"));
 ("angle_1", VNone);
 ("angle_2", VNone);
 ("carrier_power", VNone);
 ("clock_bias", VNone);
 ("clock_drift", VNone);
 ("doppler_count", VNone);
 ("doppler_instantaneous", VNone);
 ("doppler_integrated", VNone);
 ("dor", VNone);
 ("mag", VNone);
 ("pc_n0", VNone);
 ("pr_n0", VNone);
 ("pressure", VNone);
 ("range", VNone);
 ("rcs", VNone);
 ("receive_freq", VDec (DFin false 65973507959365%N (-9)%Z));
 ("receive_freq_1", VNone);
 ("receive_freq_2", VNone);
 ("receive_freq_3", VNone);
 ("receive_freq_4", VNone);
 ("receive_freq_5", VNone);
 ("receive_phase_ct_1", VNone);
 ("receive_phase_ct_2", VNone);
 ("receive_phase_ct_3", VNone);
 ("receive_phase_ct_4", VNone);
 ("receive_phase_ct_5", VNone);
 ("rhumidity", VNone);
 ("stec", VNone);
 ("temperature", VNone);
 ("transmit_freq_1", VNone);
 ("transmit_freq_2", VNone);
 ("transmit_freq_3", VNone);
 ("transmit_freq_4", VNone);
 ("transmit_freq_5", VNone);
 ("transmit_freq_rate_1", VNone);
 ("transmit_freq_rate_2", VNone);
 ("transmit_freq_rate_3", VNone);
 ("transmit_freq_rate_4", VNone);
 ("transmit_freq_rate_5", VNone);
 ("transmit_phase_ct_1", VNone);
 ("transmit_phase_ct_2", VNone);
 ("transmit_phase_ct_3", VNone);
 ("transmit_phase_ct_4", VNone);
 ("transmit_phase_ct_5", VNone);
 ("tropo_dry", VNone);
 ("tropo_wet", VNone);
 ("vlbi_delay", VNone)]; VObj "TrackingDataObservationType" [("epoch", VStr (lit "2007-075T14:46:27.000"));
 ("angle_1", VNone);
 ("angle_2", VNone);
 ("carrier_power", VNone);
 ("clock_bias", VNone);
 ("clock_drift", VNone);
 ("doppler_count", VNone);
 ("doppler_instantaneous", VNone);
 ("doppler_integrated", VNone);
 ("dor", VNone);
 ("mag", VNone);
 ("pc_n0", VNone);
 ("pr_n0", VNone);
 ("pressure", VNone);
 ("range", VNone);
 ("rcs", VNone);
 ("receive_freq", VDec (DFin false 65912948547362%N (-9)%Z));
 ("receive_freq_1", VNone);
 ("receive_freq_2", VNone);
 ("receive_freq_3", VNone);
 ("receive_freq_4", VNone);
 ("receive_freq_5", VNone);
 ("receive_phase_ct_1", VNone);
 ("receive_phase_ct_2", VNone);
 ("receive_phase_ct_3", VNone);
 ("receive_phase_ct_4", VNone);
 ("receive_phase_ct_5", VNone);
 ("rhumidity", VNone);
 ("stec", VNone);
 ("temperature", VNone);
 ("transmit_freq_1", VNone);
 ("transmit_freq_2", VNone);
 ("transmit_freq_3", VNone);
 ("transmit_freq_4", VNone);
 ("transmit_freq_5", VNone);
 ("transmit_freq_rate_1", VNone);
 ("transmit_freq_rate_2", VNone);
 ("transmit_freq_rate_3", VNone);
 ("transmit_freq_rate_4", VNone);
 ("transmit_freq_rate_5", VNone);
 ("transmit_phase_ct_1", VNone);
 ("transmit_phase_ct_2", VNone);
 ("transmit_phase_ct_3", VNone);
 ("transmit_phase_ct_4", VNone);
 ("transmit_phase_ct_5", VNone);
 ("tropo_dry", VNone);
 ("tropo_wet", VNone);
 ("vlbi_delay", VNone)]; VObj "TrackingDataObservationType" [("epoch", VStr (lit "2007-075T14:47:27.000"));
 ("angle_1", VNone);
 ("angle_2", VNone);
 ("carrier_power", VNone);
 ("clock_bias", VNone);
 ("clock_drift", VNone);
 ("doppler_count", VNone);
 ("doppler_instantaneous", VNone);
 ("doppler_integrated", VNone);
 ("dor", VNone);
 ("mag", VNone);
 ("pc_n0", VNone);
 ("pr_n0", VNone);
 ("pressure", VNone);
 ("range", VNone);
 ("rcs", VNone);
 ("receive_freq", VDec (DFin false 6585213988590099%N (-11)%Z));
 ("receive_freq_1", VNone);
 ("receive_freq_2", VNone);
 ("receive_freq_3", VNone);
 ("receive_freq_4", VNone);
 ("receive_freq_5", VNone);
 ("receive_phase_ct_1", VNone);
 ("receive_phase_ct_2", VNone);
 ("receive_phase_ct_3", VNone);
 ("receive_phase_ct_4", VNone);
 ("receive_phase_ct_5", VNone);
 ("rhumidity", VNone);
 ("stec", VNone);
 ("temperature", VNone);
 ("transmit_freq_1", VNone);
 ("transmit_freq_2", VNone);
 ("transmit_freq_3", VNone);
 ("transmit_freq_4", VNone);
 ("transmit_freq_5", VNone);
 ("transmit_freq_rate_1", VNone);
 ("transmit_freq_rate_2", VNone);
 ("transmit_freq_rate_3", VNone);
 ("transmit_freq_rate_4", VNone);
 ("transmit_freq_rate_5", VNone);
 ("transmit_phase_ct_1", VNone);
 ("transmit_phase_ct_2", VNone);
 ("transmit_phase_ct_3", VNone);
 ("transmit_phase_ct_4", VNone);
 ("transmit_phase_ct_5", VNone);
 ("tropo_dry", VNone);
 ("tropo_wet", VNone);
 ("vlbi_delay", VNone)]; VObj "TrackingDataObservationType" [("epoch", VStr (lit "2007-075T14:48:27.000"));
 ("angle_1", VNone);
 ("angle_2", VNone);
 ("carrier_power", VNone);
 ("clock_bias", VNone);
 ("clock_drift", VNone);
 ("doppler_count", VNone);
 ("doppler_instantaneous", VNone);
 ("doppler_integrated", VNone);
 ("dor", VNone);
 ("mag", VNone);
 ("pc_n0", VNone);
 ("pr_n0", VNone);
 ("pressure", VNone);
 ("range", VNone);
 ("rcs", VNone);
 ("receive_freq", VDec (DFin false 6579108690357101%N (-11)%Z));
 ("receive_freq_1", VNone);
 ("receive_freq_2", VNone);
 ("receive_freq_3", VNone);
 ("receive_freq_4", VNone);
 ("receive_freq_5", VNone);
 ("receive_phase_ct_1", VNone);
 ("receive_phase_ct_2", VNone);
 ("receive_phase_ct_3", VNone);
 ("receive_phase_ct_4", VNone);
 ("receive_phase_ct_5", VNone);
 ("rhumidity", VNone);
 ("stec", VNone);
 ("temperature", VNone);
 ("transmit_freq_1", VNone);
 ("transmit_freq_2", VNone);
 ("transmit_freq_3", VNone);
 ("transmit_freq_4", VNone);
 ("transmit_freq_5", VNone);
 ("transmit_freq_rate_1", VNone);
 ("transmit_freq_rate_2", VNone);
 ("transmit_freq_rate_3", VNone);
 ("transmit_freq_rate_4", VNone);
 ("transmit_freq_rate_5", VNone);
 ("transmit_phase_ct_1", VNone);
 ("transmit_phase_ct_2", VNone);
 ("transmit_phase_ct_3", VNone);
 ("transmit_phase_ct_4", VNone);
 ("transmit_phase_ct_5", VNone);
 ("tropo_dry", VNone);
 ("tropo_wet", VNone);
 ("vlbi_delay", VNone)]; VObj "TrackingDataObservationType" [("epoch", VStr (lit "2007-075T14:49:27.000"));
 ("angle_1", VNone);
 ("angle_2", VNone);
 ("carrier_power", VNone);
 ("clock_bias", VNone);
 ("clock_drift", VNone);
 ("doppler_count", VNone);
 ("doppler_instantaneous", VNone);
 ("doppler_integrated", VNone);
 ("dor", VNone);
 ("mag", VNone);
 ("pc_n0", VNone);
 ("pr_n0", VNone);
 ("pressure", VNone);
 ("range", VNone);
 ("rcs", VNone);
 ("receive_freq", VDec (DFin false 65729787591933%N (-9)%Z));
 ("receive_freq_1", VNone);
 ("receive_freq_2", VNone);
 ("receive_freq_3", VNone);
 ("receive_freq_4", VNone);
 ("receive_freq_5", VNone);
 ("receive_phase_ct_1", VNone);
 ("receive_phase_ct_2", VNone);
 ("receive_phase_ct_3", VNone);
 ("receive_phase_ct_4", VNone);
 ("receive_phase_ct_5", VNone);
 ("rhumidity", VNone);
 ("stec", VNone);
 ("temperature", VNone);
 ("transmit_freq_1", VNone);
 ("transmit_freq_2", VNone);
 ("transmit_freq_3", VNone);
 ("transmit_freq_4", VNone);
 ("transmit_freq_5", VNone);
 ("transmit_freq_rate_1", VNone);
 ("transmit_freq_rate_2", VNone);
 ("transmit_freq_rate_3", VNone);
 ("transmit_freq_rate_4", VNone);
 ("transmit_freq_rate_5", VNone);
 ("transmit_phase_ct_1", VNone);
 ("transmit_phase_ct_2", VNone);
 ("transmit_phase_ct_3", VNone);
 ("transmit_phase_ct_4", VNone);
 ("transmit_phase_ct_5", VNone);
 ("tropo_dry", VNone);
 ("tropo_wet", VNone);
 ("vlbi_delay", VNone)]; VObj "TrackingDataObservationType" [("epoch", VStr (lit "2007-075T14:50:27.000"));
 ("angle_1", VNone);
 ("angle_2", VNone);
 ("carrier_power", VNone);
 ("clock_bias", VNone);
 ("clock_drift", VNone);
 ("doppler_count", VNone);
 ("doppler_instantaneous", VNone);
 ("doppler_integrated", VNone);
 ("dor", VNone);
 ("mag", VNone);
 ("pc_n0", VNone);
 ("pr_n0", VNone);
 ("pressure", VNone);
 ("range", VNone);
 ("rcs", VNone);
 ("receive_freq", VDec (DFin false 6566824644184%N (-8)%Z));
 ("receive_freq_1", VNone);
 ("receive_freq_2", VNone);
 ("receive_freq_3", VNone);
 ("receive_freq_4", VNone);
 ("receive_freq_5", VNone);
 ("receive_phase_ct_1", VNone);
 ("receive_phase_ct_2", VNone);
 ("receive_phase_ct_3", VNone);
 ("receive_phase_ct_4", VNone);
 ("receive_phase_ct_5", VNone);
 ("rhumidity", VNone);
 ("stec", VNone);
 ("temperature", VNone);
 ("transmit_freq_1", VNone);
 ("transmit_freq_2", VNone);
 ("transmit_freq_3", VNone);
 ("transmit_freq_4", VNone);
 ("transmit_freq_5", VNone);
 ("transmit_freq_rate_1", VNone);
 ("transmit_freq_rate_2", VNone);
 ("transmit_freq_rate_3", VNone);
 ("transmit_freq_rate_4", VNone);
 ("transmit_freq_rate_5", VNone);
 ("transmit_phase_ct_1", VNone);
 ("transmit_phase_ct_2", VNone);
 ("transmit_phase_ct_3", VNone);
 ("transmit_phase_ct_4", VNone);
 ("transmit_phase_ct_5", VNone);
 ("tropo_dry", VNone);
 ("tropo_wet", VNone);
 ("vlbi_delay", VNone)]; VObj "TrackingDataObservationType" [("epoch", VStr (lit "2007-075T14:51:27.000"));
 ("angle_1", VNone);
 ("angle_2", VNone);
 ("carrier_power", VNone);
 ("clock_bias", VNone);
 ("clock_drift", VNone);
 ("doppler_count", VNone);
 ("doppler_instantaneous", VNone);
 ("doppler_integrated", VNone);
 ("dor", VNone);
 ("mag", VNone);
 ("pc_n0", VNone);
 ("pr_n0", VNone);
 ("pressure", VNone);
 ("range", VNone);
 ("rcs", VNone);
 ("receive_freq", VDec (DFin false 65606461252212%N (-9)%Z));
 ("receive_freq_1", VNone);
 ("receive_freq_2", VNone);
 ("receive_freq_3", VNone);
 ("receive_freq_4", VNone);
 ("receive_freq_5", VNone);
 ("receive_phase_ct_1", VNone);
 ("receive_phase_ct_2", VNone);
 ("receive_phase_ct_3", VNone);
 ("receive_phase_ct_4", VNone);
 ("receive_phase_ct_5", VNone);
 ("rhumidity", VNone);
 ("stec", VNone);
 ("temperature", VNone);
 ("transmit_freq_1", VNone);
 ("transmit_freq_2", VNone);
 ("transmit_freq_3", VNone);
 ("transmit_freq_4", VNone);
 ("transmit_freq_5", VNone);
 ("transmit_freq_rate_1", VNone);
 ("transmit_freq_rate_2", VNone);
 ("transmit_freq_rate_3", VNone);
 ("transmit_freq_rate_4", VNone);
 ("transmit_freq_rate_5", VNone);
 ("transmit_phase_ct_1", VNone);
 ("transmit_phase_ct_2", VNone);
 ("transmit_phase_ct_3", VNone);
 ("transmit_phase_ct_4", VNone);
 ("transmit_phase_ct_5", VNone);
 ("tropo_dry", VNone);
 ("tropo_wet", VNone);
 ("vlbi_delay", VNone)]; VObj "TrackingDataObservationType" [("epoch", VStr (lit "2007-075T14:52:27.000"));
 ("angle_1", VNone);
 ("angle_2", VNone);
 ("carrier_power", VNone);
 ("clock_bias", VNone);
 ("clock_drift", VNone);
 ("doppler_count", VNone);
 ("doppler_instantaneous", VNone);
 ("doppler_integrated", VNone);
 ("dor", VNone);
 ("mag", VNone);
 ("pc_n0", VNone);
 ("pr_n0", VNone);
 ("pressure", VNone);
 ("range", VNone);
 ("rcs", VNone);
 ("receive_freq", VDec (DFin false 6554443606758%N (-8)%Z));
 ("receive_freq_1", VNone);
 ("receive_freq_2", VNone);
 ("receive_freq_3", VNone);
 ("receive_freq_4", VNone);
 ("receive_freq_5", VNone);
 ("receive_phase_ct_1", VNone);
 ("receive_phase_ct_2", VNone);
 ("receive_phase_ct_3", VNone);
 ("receive_phase_ct_4", VNone);
 ("receive_phase_ct_5", VNone);
 ("rhumidity", VNone);
 ("stec", VNone);
 ("temperature", VNone);
 ("transmit_freq_1", VNone);
 ("transmit_freq_2", VNone);
 ("transmit_freq_3", VNone);
 ("transmit_freq_4", VNone);
 ("transmit_freq_5", VNone);
 ("transmit_freq_rate_1", VNone);
 ("transmit_freq_rate_2", VNone);
 ("transmit_freq_rate_3", VNone);
 ("transmit_freq_rate_4", VNone);
 ("transmit_freq_rate_5", VNone);
 ("transmit_phase_ct_1", VNone);
 ("transmit_phase_ct_2", VNone);
 ("transmit_phase_ct_3", VNone);
 ("transmit_phase_ct_4", VNone);
 ("transmit_phase_ct_5", VNone);
 ("tropo_dry", VNone);
 ("tropo_wet", VNone);
 ("vlbi_delay", VNone)]; VObj "TrackingDataObservationType" [("epoch", VStr (lit "2007-075T14:53:27.000"));
 ("angle_1", VNone);
 ("angle_2", VNone);
 ("carrier_power", VNone);
 ("clock_bias", VNone);
 ("clock_drift", VNone);
 ("doppler_count", VNone);
 ("doppler_instantaneous", VNone);
 ("doppler_integrated", VNone);
 ("dor", VNone);
 ("mag", VNone);
 ("pc_n0", VNone);
 ("pr_n0", VNone);
 ("pressure", VNone);
 ("range", VNone);
 ("rcs", VNone);
 ("receive_freq", VDec (DFin false 65482171468734%N (-9)%Z));
 ("receive_freq_1", VNone);
 ("receive_freq_2", VNone);
 ("receive_freq_3", VNone);
 ("receive_freq_4", VNone);
 ("receive_freq_5", VNone);
 ("receive_phase_ct_1", VNone);
 ("receive_phase_ct_2", VNone);
 ("receive_phase_ct_3", VNone);
 ("receive_phase_ct_4", VNone);
 ("receive_phase_ct_5", VNone);
 ("rhumidity", VNone);
 ("stec", VNone);
 ("temperature", VNone);
 ("transmit_freq_1", VNone);
 ("transmit_freq_2", VNone);
 ("transmit_freq_3", VNone);
 ("transmit_freq_4", VNone);
 ("transmit_freq_5", VNone);
 ("transmit_freq_rate_1", VNone);
 ("transmit_freq_rate_2", VNone);
 ("transmit_freq_rate_3", VNone);
 ("transmit_freq_rate_4", VNone);
 ("transmit_freq_rate_5", VNone);
 ("transmit_phase_ct_1", VNone);
 ("transmit_phase_ct_2", VNone);
 ("transmit_phase_ct_3", VNone);
 ("transmit_phase_ct_4", VNone);
 ("transmit_phase_ct_5", VNone);
 ("tropo_dry", VNone);
 ("tropo_wet", VNone);
 ("vlbi_delay", VNone)]; VObj "TrackingDataObservationType" [("epoch", VStr (lit "2007-075T14:54:27.000"));
 ("angle_1", VNone);
 ("angle_2", VNone);
 ("carrier_power", VNone);
 ("clock_bias", VNone);
 ("clock_drift", VNone);
 ("doppler_count", VNone);
 ("doppler_instantaneous", VNone);
 ("doppler_integrated", VNone);
 ("dor", VNone);
 ("mag", VNone);
 ("pc_n0", VNone);
 ("pr_n0", VNone);
 ("pressure", VNone);
 ("range", VNone);
 ("rcs", VNone);
 ("receive_freq", VDec (DFin false 65419665871619%N (-9)%Z));
 ("receive_freq_1", VNone);
 ("receive_freq_2", VNone);
 ("receive_freq_3", VNone);
 ("receive_freq_4", VNone);
 ("receive_freq_5", VNone);
 ("receive_phase_ct_1", VNone);
 ("receive_phase_ct_2", VNone);
 ("receive_phase_ct_3", VNone);
 ("receive_phase_ct_4", VNone);
 ("receive_phase_ct_5", VNone);
 ("rhumidity", VNone);
 ("stec", VNone);
 ("temperature", VNone);
 ("transmit_freq_1", VNone);
 ("transmit_freq_2", VNone);
 ("transmit_freq_3", VNone);
 ("transmit_freq_4", VNone);
 ("transmit_freq_5", VNone);
 ("transmit_freq_rate_1", VNone);
 ("transmit_freq_rate_2", VNone);
 ("transmit_freq_rate_3", VNone);
 ("transmit_freq_rate_4", VNone);
 ("transmit_freq_rate_5", VNone);
 ("transmit_phase_ct_1", VNone);
 ("transmit_phase_ct_2", VNone);
 ("transmit_phase_ct_3", VNone);
 ("transmit_phase_ct_4", VNone);
 ("transmit_phase_ct_5", VNone);
 ("tropo_dry", VNone);
 ("tropo_wet", VNone);
 ("vlbi_delay", VNone)]; VObj "TrackingDataObservationType" [("epoch", VStr (lit "2007-075T14:55:27.000"));
 ("angle_1", VNone);
 ("angle_2", VNone);
 ("carrier_power", VNone);
 ("clock_bias", VNone);
 ("clock_drift", VNone);
 ("doppler_count", VNone);
 ("doppler_instantaneous", VNone);
 ("doppler_integrated", VNone);
 ("dor", VNone);
 ("mag", VNone);
 ("pc_n0", VNone);
 ("pr_n0", VNone);
 ("pressure", VNone);
 ("range", VNone);
 ("rcs", VNone);
 ("receive_freq", VDec (DFin false 65356924378394%N (-9)%Z));
 ("receive_freq_1", VNone);
 ("receive_freq_2", VNone);
 ("receive_freq_3", VNone);
 ("receive_freq_4", VNone);
 ("receive_freq_5", VNone);
 ("receive_phase_ct_1", VNone);
 ("receive_phase_ct_2", VNone);
 ("receive_phase_ct_3", VNone);
 ("receive_phase_ct_4", VNone);
 ("receive_phase_ct_5", VNone);
 ("rhumidity", VNone);
 ("stec", VNone);
 ("temperature", VNone);
 ("transmit_freq_1", VNone);
 ("transmit_freq_2", VNone);
 ("transmit_freq_3", VNone);
 ("transmit_freq_4", VNone);
 ("transmit_freq_5", VNone);
 ("transmit_freq_rate_1", VNone);
 ("transmit_freq_rate_2", VNone);
 ("transmit_freq_rate_3", VNone);
 ("transmit_freq_rate_4", VNone);
 ("transmit_freq_rate_5", VNone);
 ("transmit_phase_ct_1", VNone);
 ("transmit_phase_ct_2", VNone);
 ("transmit_phase_ct_3", VNone);
 ("transmit_phase_ct_4", VNone);
 ("transmit_phase_ct_5", VNone);
 ("tropo_dry", VNone);
 ("tropo_wet", VNone);
 ("vlbi_delay", VNone)]; VObj "TrackingDataObservationType" [("epoch", VStr (lit "2007-075T14:56:27.000"));
 ("angle_1", VNone);
 ("angle_2", VNone);
 ("carrier_power", VNone);
 ("clock_bias", VNone);
 ("clock_drift", VNone);
 ("doppler_count", VNone);
 ("doppler_instantaneous", VNone);
 ("doppler_integrated", VNone);
 ("dor", VNone);
 ("mag", VNone);
 ("pc_n0", VNone);
 ("pr_n0", VNone);
 ("pressure", VNone);
 ("range", VNone);
 ("rcs", VNone);
 ("receive_freq", VDec (DFin false 65293948550223%N (-9)%Z));
 ("receive_freq_1", VNone);
 ("receive_freq_2", VNone);
 ("receive_freq_3", VNone);
 ("receive_freq_4", VNone);
 ("receive_freq_5", VNone);
 ("receive_phase_ct_1", VNone);
 ("receive_phase_ct_2", VNone);
 ("receive_phase_ct_3", VNone);
 ("receive_phase_ct_4", VNone);
 ("receive_phase_ct_5", VNone);
 ("rhumidity", VNone);
 ("stec", VNone);
 ("temperature", VNone);
 ("transmit_freq_1", VNone);
 ("transmit_freq_2", VNone);
 ("transmit_freq_3", VNone);
 ("transmit_freq_4", VNone);
 ("transmit_freq_5", VNone);
 ("transmit_freq_rate_1", VNone);
 ("transmit_freq_rate_2", VNone);
 ("transmit_freq_rate_3", VNone);
 ("transmit_freq_rate_4", VNone);
 ("transmit_freq_rate_5", VNone);
 ("transmit_phase_ct_1", VNone);
 ("transmit_phase_ct_2", VNone);
 ("transmit_phase_ct_3", VNone);
 ("transmit_phase_ct_4", VNone);
 ("transmit_phase_ct_5", VNone);
 ("tropo_dry", VNone);
 ("tropo_wet", VNone);
 ("vlbi_delay", VNone)]; VObj "TrackingDataObservationType" [("epoch", VStr (lit "2007-075T14:57:27.000"));
 ("angle_1", VNone);
 ("angle_2", VNone);
 ("carrier_power", VNone);
 ("clock_bias", VNone);
 ("clock_drift", VNone);
 ("doppler_count", VNone);
 ("doppler_instantaneous", VNone);
 ("doppler_integrated", VNone);
 ("dor", VNone);
 ("mag", VNone);
 ("pc_n0", VNone);
 ("pr_n0", VNone);
 ("pressure", VNone);
 ("range", VNone);
 ("rcs", VNone);
 ("receive_freq", VDec (DFin false 65230737554549%N (-9)%Z));
 ("receive_freq_1", VNone);
 ("receive_freq_2", VNone);
 ("receive_freq_3", VNone);
 ("receive_freq_4", VNone);
 ("receive_freq_5", VNone);
 ("receive_phase_ct_1", VNone);
 ("receive_phase_ct_2", VNone);
 ("receive_phase_ct_3", VNone);
 ("receive_phase_ct_4", VNone);
 ("receive_phase_ct_5", VNone);
 ("rhumidity", VNone);
 ("stec", VNone);
 ("temperature", VNone);
 ("transmit_freq_1", VNone);
 ("transmit_freq_2", VNone);
 ("transmit_freq_3", VNone);
 ("transmit_freq_4", VNone);
 ("transmit_freq_5", VNone);
 ("transmit_freq_rate_1", VNone);
 ("transmit_freq_rate_2", VNone);
 ("transmit_freq_rate_3", VNone);
 ("transmit_freq_rate_4", VNone);
 ("transmit_freq_rate_5", VNone);
 ("transmit_phase_ct_1", VNone);
 ("transmit_phase_ct_2", VNone);
 ("transmit_phase_ct_3", VNone);
 ("transmit_phase_ct_4", VNone);
 ("transmit_phase_ct_5", VNone);
 ("tropo_dry", VNone);
 ("tropo_wet", VNone);
 ("vlbi_delay", VNone)]; VObj "TrackingDataObservationType" [("epoch", VStr (lit "2007-075T14:58:27.000"));
 ("angle_1", VNone);
 ("angle_2", VNone);
 ("carrier_power", VNone);
 ("clock_bias", VNone);
 ("clock_drift", VNone);
 ("doppler_count", VNone);
 ("doppler_instantaneous", VNone);
 ("doppler_integrated", VNone);
 ("dor", VNone);
 ("mag", VNone);
 ("pc_n0", VNone);
 ("pr_n0", VNone);
 ("pressure", VNone);
 ("range", VNone);
 ("rcs", VNone);
 ("receive_freq", VDec (DFin false 65167293406486%N (-9)%Z));
 ("receive_freq_1", VNone);
 ("receive_freq_2", VNone);
 ("receive_freq_3", VNone);
 ("receive_freq_4", VNone);
 ("receive_freq_5", VNone);
 ("receive_phase_ct_1", VNone);
 ("receive_phase_ct_2", VNone);
 ("receive_phase_ct_3", VNone);
 ("receive_phase_ct_4", VNone);
 ("receive_phase_ct_5", VNone);
 ("rhumidity", VNone);
 ("stec", VNone);
 ("temperature", VNone);
 ("transmit_freq_1", VNone);
 ("transmit_freq_2", VNone);
 ("transmit_freq_3", VNone);
 ("transmit_freq_4", VNone);
 ("transmit_freq_5", VNone);
 ("transmit_freq_rate_1", VNone);
 ("transmit_freq_rate_2", VNone);
 ("transmit_freq_rate_3", VNone);
 ("transmit_freq_rate_4", VNone);
 ("transmit_freq_rate_5", VNone);
 ("transmit_phase_ct_1", VNone);
 ("transmit_phase_ct_2", VNone);
 ("transmit_phase_ct_3", VNone);
 ("transmit_phase_ct_4", VNone);
 ("transmit_phase_ct_5", VNone);
 ("tropo_dry", VNone);
 ("tropo_wet", VNone);
 ("vlbi_delay", VNone)]; VObj "TrackingDataObservationType" [("epoch", VStr (lit "2007-075T14:59:27.000"));
 ("angle_1", VNone);
 ("angle_2", VNone);
 ("carrier_power", VNone);
 ("clock_bias", VNone);
 ("clock_drift", VNone);
 ("doppler_count", VNone);
 ("doppler_instantaneous", VNone);
 ("doppler_integrated", VNone);
 ("dor", VNone);
 ("mag", VNone);
 ("pc_n0", VNone);
 ("pr_n0", VNone);
 ("pressure", VNone);
 ("range", VNone);
 ("rcs", VNone);
 ("receive_freq", VDec (DFin false 65103616531372%N (-9)%Z));
 ("receive_freq_1", VNone);
 ("receive_freq_2", VNone);
 ("receive_freq_3", VNone);
 ("receive_freq_4", VNone);
 ("receive_freq_5", VNone);
 ("receive_phase_ct_1", VNone);
 ("receive_phase_ct_2", VNone);
 ("receive_phase_ct_3", VNone);
 ("receive_phase_ct_4", VNone);
 ("receive_phase_ct_5", VNone);
 ("rhumidity", VNone);
 ("stec", VNone);
 ("temperature", VNone);
 ("transmit_freq_1", VNone);
 ("transmit_freq_2", VNone);
 ("transmit_freq_3", VNone);
 ("transmit_freq_4", VNone);
 ("transmit_freq_5", VNone);
 ("transmit_freq_rate_1", VNone);
 ("transmit_freq_rate_2", VNone);
 ("transmit_freq_rate_3", VNone);
 ("transmit_freq_rate_4", VNone);
 ("transmit_freq_rate_5", VNone);
 ("transmit_phase_ct_1", VNone);
 ("transmit_phase_ct_2", VNone);
 ("transmit_phase_ct_3", VNone);
 ("transmit_phase_ct_4", VNone);
 ("transmit_phase_ct_5", VNone);
 ("tropo_dry", VNone);
 ("tropo_wet", VNone);
 ("vlbi_delay", VNone)]; VObj "TrackingDataObservationType" [("epoch", VStr (lit "2007-075T15:00:27.000"));
 ("angle_1", VNone);
 ("angle_2", VNone);
 ("carrier_power", VNone);
 ("clock_bias", VNone);
 ("clock_drift", VNone);
 ("doppler_count", VNone);
 ("doppler_instantaneous", VNone);
 ("doppler_integrated", VNone);
 ("dor", VNone);
 ("mag", VNone);
 ("pc_n0", VNone);
 ("pr_n0", VNone);
 ("pressure", VNone);
 ("range", VNone);
 ("rcs", VNone);
 ("receive_freq", VDec (DFin false 65039710349083%N (-9)%Z));
 ("receive_freq_1", VNone);
 ("receive_freq_2", VNone);
 ("receive_freq_3", VNone);
 ("receive_freq_4", VNone);
 ("receive_freq_5", VNone);
 ("receive_phase_ct_1", VNone);
 ("receive_phase_ct_2", VNone);
 ("receive_phase_ct_3", VNone);
 ("receive_phase_ct_4", VNone);
 ("receive_phase_ct_5", VNone);
 ("rhumidity", VNone);
 ("stec", VNone);
 ("temperature", VNone);
 ("transmit_freq_1", VNone);
 ("transmit_freq_2", VNone);
 ("transmit_freq_3", VNone);
 ("transmit_freq_4", VNone);
 ("transmit_freq_5", VNone);
 ("transmit_freq_rate_1", VNone);
 ("transmit_freq_rate_2", VNone);
 ("transmit_freq_rate_3", VNone);
 ("transmit_freq_rate_4", VNone);
 ("transmit_freq_rate_5", VNone);
 ("transmit_phase_ct_1", VNone);
 ("transmit_phase_ct_2", VNone);
 ("transmit_phase_ct_3", VNone);
 ("transmit_phase_ct_4", VNone);
 ("transmit_phase_ct_5", VNone);
 ("tropo_dry", VNone);
 ("tropo_wet", VNone);
 ("vlbi_delay", VNone)]; VObj "TrackingDataObservationType" [("epoch", VStr (lit "2007-075T15:01:27.000"));
 ("angle_1", VNone);
 ("angle_2", VNone);
 ("carrier_power", VNone);
 ("clock_bias", VNone);
 ("clock_drift", VNone);
 ("doppler_count", VNone);
 ("doppler_instantaneous", VNone);
 ("doppler_integrated", VNone);
 ("dor", VNone);
 ("mag", VNone);
 ("pc_n0", VNone);
 ("pr_n0", VNone);
 ("pressure", VNone);
 ("range", VNone);
 ("rcs", VNone);
 ("receive_freq", VDec (DFin false 64975574463844%N (-9)%Z));
 ("receive_freq_1", VNone);
 ("receive_freq_2", VNone);
 ("receive_freq_3", VNone);
 ("receive_freq_4", VNone);
 ("receive_freq_5", VNone);
 ("receive_phase_ct_1", VNone);
 ("receive_phase_ct_2", VNone);
 ("receive_phase_ct_3", VNone);
 ("receive_phase_ct_4", VNone);
 ("receive_phase_ct_5", VNone);
 ("rhumidity", VNone);
 ("stec", VNone);
 ("temperature", VNone);
 ("transmit_freq_1", VNone);
 ("transmit_freq_2", VNone);
 ("transmit_freq_3", VNone);
 ("transmit_freq_4", VNone);
 ("transmit_freq_5", VNone);
 ("transmit_freq_rate_1", VNone);
 ("transmit_freq_rate_2", VNone);
 ("transmit_freq_rate_3", VNone);
 ("transmit_freq_rate_4", VNone);
 ("transmit_freq_rate_5", VNone);
 ("transmit_phase_ct_1", VNone);
 ("transmit_phase_ct_2", VNone);
 ("transmit_phase_ct_3", VNone);
 ("transmit_phase_ct_4", VNone);
 ("transmit_phase_ct_5", VNone);
 ("tropo_dry", VNone);
 ("tropo_wet", VNone);
 ("vlbi_delay", VNone)]; VObj "TrackingDataObservationType" [("epoch", VStr (lit "2007-075T15:02:27.000"));
 ("angle_1", VNone);
 ("angle_2", VNone);
 ("carrier_power", VNone);
 ("clock_bias", VNone);
 ("clock_drift", VNone);
 ("doppler_count", VNone);
 ("doppler_instantaneous", VNone);
 ("doppler_integrated", VNone);
 ("dor", VNone);
 ("mag", VNone);
 ("pc_n0", VNone);
 ("pr_n0", VNone);
 ("pressure", VNone);
 ("range", VNone);
 ("rcs", VNone);
 ("receive_freq", VDec (DFin false 64911210938454%N (-9)%Z));
 ("receive_freq_1", VNone);
 ("receive_freq_2", VNone);
 ("receive_freq_3", VNone);
 ("receive_freq_4", VNone);
 ("receive_freq_5", VNone);
 ("receive_phase_ct_1", VNone);
 ("receive_phase_ct_2", VNone);
 ("receive_phase_ct_3", VNone);
 ("receive_phase_ct_4", VNone);
 ("receive_phase_ct_5", VNone);
 ("rhumidity", VNone);
 ("stec", VNone);
 ("temperature", VNone);
 ("transmit_freq_1", VNone);
 ("transmit_freq_2", VNone);
 ("transmit_freq_3", VNone);
 ("transmit_freq_4", VNone);
 ("transmit_freq_5", VNone);
 ("transmit_freq_rate_1", VNone);
 ("transmit_freq_rate_2", VNone);
 ("transmit_freq_rate_3", VNone);
 ("transmit_freq_rate_4", VNone);
 ("transmit_freq_rate_5", VNone);
 ("transmit_phase_ct_1", VNone);
 ("transmit_phase_ct_2", VNone);
 ("transmit_phase_ct_3", VNone);
 ("transmit_phase_ct_4", VNone);
 ("transmit_phase_ct_5", VNone);
 ("tropo_dry", VNone);
 ("tropo_wet", VNone);
 ("vlbi_delay", VNone)]; VObj "TrackingDataObservationType" [("epoch", VStr (lit "2007-075T15:03:27.000"));
 ("angle_1", VNone);
 ("angle_2", VNone);
 ("carrier_power", VNone);
 ("clock_bias", VNone);
 ("clock_drift", VNone);
 ("doppler_count", VNone);
 ("doppler_instantaneous", VNone);
 ("doppler_integrated", VNone);
 ("dor", VNone);
 ("mag", VNone);
 ("pc_n0", VNone);
 ("pr_n0", VNone);
 ("pressure", VNone);
 ("range", VNone);
 ("rcs", VNone);
 ("receive_freq", VDec (DFin false 64846620881081%N (-9)%Z));
 ("receive_freq_1", VNone);
 ("receive_freq_2", VNone);
 ("receive_freq_3", VNone);
 ("receive_freq_4", VNone);
 ("receive_freq_5", VNone);
 ("receive_phase_ct_1", VNone);
 ("receive_phase_ct_2", VNone);
 ("receive_phase_ct_3", VNone);
 ("receive_phase_ct_4", VNone);
 ("receive_phase_ct_5", VNone);
 ("rhumidity", VNone);
 ("stec", VNone);
 ("temperature", VNone);
 ("transmit_freq_1", VNone);
 ("transmit_freq_2", VNone);
 ("transmit_freq_3", VNone);
 ("transmit_freq_4", VNone);
 ("transmit_freq_5", VNone);
 ("transmit_freq_rate_1", VNone);
 ("transmit_freq_rate_2", VNone);
 ("transmit_freq_rate_3", VNone);
 ("transmit_freq_rate_4", VNone);
 ("transmit_freq_rate_5", VNone);
 ("transmit_phase_ct_1", VNone);
 ("transmit_phase_ct_2", VNone);
 ("transmit_phase_ct_3", VNone);
 ("transmit_phase_ct_4", VNone);
 ("transmit_phase_ct_5", VNone);
 ("tropo_dry", VNone);
 ("tropo_wet", VNone);
 ("vlbi_delay", VNone)]; VObj "TrackingDataObservationType" [("epoch", VStr (lit "2007-075T15:04:27.000"));
 ("angle_1", VNone);
 ("angle_2", VNone);
 ("carrier_power", VNone);
 ("clock_bias", VNone);
 ("clock_drift", VNone);
 ("doppler_count", VNone);
 ("doppler_instantaneous", VNone);
 ("doppler_integrated", VNone);
 ("dor", VNone);
 ("mag", VNone);
 ("pc_n0", VNone);
 ("pr_n0", VNone);
 ("pressure", VNone);
 ("range", VNone);
 ("rcs", VNone);
 ("receive_freq", VDec (DFin false 64781805646896%N (-9)%Z));
 ("receive_freq_1", VNone);
 ("receive_freq_2", VNone);
 ("receive_freq_3", VNone);
 ("receive_freq_4", VNone);
 ("receive_freq_5", VNone);
 ("receive_phase_ct_1", VNone);
 ("receive_phase_ct_2", VNone);
 ("receive_phase_ct_3", VNone);
 ("receive_phase_ct_4", VNone);
 ("receive_phase_ct_5", VNone);
 ("rhumidity", VNone);
 ("stec", VNone);
 ("temperature", VNone);
 ("transmit_freq_1", VNone);
 ("transmit_freq_2", VNone);
 ("transmit_freq_3", VNone);
 ("transmit_freq_4", VNone);
 ("transmit_freq_5", VNone);
 ("transmit_freq_rate_1", VNone);
 ("transmit_freq_rate_2", VNone);
 ("transmit_freq_rate_3", VNone);
 ("transmit_freq_rate_4", VNone);
 ("transmit_freq_rate_5", VNone);
 ("transmit_phase_ct_1", VNone);
 ("transmit_phase_ct_2", VNone);
 ("transmit_phase_ct_3", VNone);
 ("transmit_phase_ct_4", VNone);
 ("transmit_phase_ct_5", VNone);
 ("tropo_dry", VNone);
 ("tropo_wet", VNone);
 ("vlbi_delay", VNone)]; VObj "TrackingDataObservationType" [("epoch", VStr (lit "2007-075T15:05:27.000"));
 ("angle_1", VNone);
 ("angle_2", VNone);
 ("carrier_power", VNone);
 ("clock_bias", VNone);
 ("clock_drift", VNone);
 ("doppler_count", VNone);
 ("doppler_instantaneous", VNone);
 ("doppler_integrated", VNone);
 ("dor", VNone);
 ("mag", VNone);
 ("pc_n0", VNone);
 ("pr_n0", VNone);
 ("pressure", VNone);
 ("range", VNone);
 ("rcs", VNone);
 ("receive_freq", VDec (DFin false 64716766915321%N (-9)%Z));
 ("receive_freq_1", VNone);
 ("receive_freq_2", VNone);
 ("receive_freq_3", VNone);
 ("receive_freq_4", VNone);
 ("receive_freq_5", VNone);
 ("receive_phase_ct_1", VNone);
 ("receive_phase_ct_2", VNone);
 ("receive_phase_ct_3", VNone);
 ("receive_phase_ct_4", VNone);
 ("receive_phase_ct_5", VNone);
 ("rhumidity", VNone);
 ("stec", VNone);
 ("temperature", VNone);
 ("transmit_freq_1", VNone);
 ("transmit_freq_2", VNone);
 ("transmit_freq_3", VNone);
 ("transmit_freq_4", VNone);
 ("transmit_freq_5", VNone);
 ("transmit_freq_rate_1", VNone);
 ("transmit_freq_rate_2", VNone);
 ("transmit_freq_rate_3", VNone);
 ("transmit_freq_rate_4", VNone);
 ("transmit_freq_rate_5", VNone);
 ("transmit_phase_ct_1", VNone);
 ("transmit_phase_ct_2", VNone);
 ("transmit_phase_ct_3", VNone);
 ("transmit_phase_ct_4", VNone);
 ("transmit_phase_ct_5", VNone);
 ("tropo_dry", VNone);
 ("tropo_wet", VNone);
 ("vlbi_delay", VNone)]; VObj "TrackingDataObservationType" [("epoch", VStr (lit "2007-075T15:06:27.000"));
 ("angle_1", VNone);
 ("angle_2", VNone);
 ("carrier_power", VNone);
 ("clock_bias", VNone);
 ("clock_drift", VNone);
 ("doppler_count", VNone);
 ("doppler_instantaneous", VNone);
 ("doppler_integrated", VNone);
 ("dor", VNone);
 ("mag", VNone);
 ("pc_n0", VNone);
 ("pr_n0", VNone);
 ("pressure", VNone);
 ("range", VNone);
 ("rcs", VNone);
 ("receive_freq", VDec (DFin false 64651504798889%N (-9)%Z));
 ("receive_freq_1", VNone);
 ("receive_freq_2", VNone);
 ("receive_freq_3", VNone);
 ("receive_freq_4", VNone);
 ("receive_freq_5", VNone);
 ("receive_phase_ct_1", VNone);
 ("receive_phase_ct_2", VNone);
 ("receive_phase_ct_3", VNone);
 ("receive_phase_ct_4", VNone);
 ("receive_phase_ct_5", VNone);
 ("rhumidity", VNone);
 ("stec", VNone);
 ("temperature", VNone);
 ("transmit_freq_1", VNone);
 ("transmit_freq_2", VNone);
 ("transmit_freq_3", VNone);
 ("transmit_freq_4", VNone);
 ("transmit_freq_5", VNone);
 ("transmit_freq_rate_1", VNone);
 ("transmit_freq_rate_2", VNone);
 ("transmit_freq_rate_3", VNone);
 ("transmit_freq_rate_4", VNone);
 ("transmit_freq_rate_5", VNone);
 ("transmit_phase_ct_1", VNone);
 ("transmit_phase_ct_2", VNone);
 ("transmit_phase_ct_3", VNone);
 ("transmit_phase_ct_4", VNone);
 ("transmit_phase_ct_5", VNone);
 ("tropo_dry", VNone);
 ("tropo_wet", VNone);
 ("vlbi_delay", VNone)]; VObj "TrackingDataObservationType" [("epoch", VStr (lit "2007-075T15:07:27.000"));
 ("angle_1", VNone);
 ("angle_2", VNone);
 ("carrier_power", VNone);
 ("clock_bias", VNone);
 ("clock_drift", VNone);
 ("doppler_count", VNone);
 ("doppler_instantaneous", VNone);
 ("doppler_integrated", VNone);
 ("dor", VNone);
 ("mag", VNone);
 ("pc_n0", VNone);
 ("pr_n0", VNone);
 ("pressure", VNone);
 ("range", VNone);
 ("rcs", VNone);
 ("receive_freq", VDec (DFin false 64586022469521%N (-9)%Z));
 ("receive_freq_1", VNone);
 ("receive_freq_2", VNone);
 ("receive_freq_3", VNone);
 ("receive_freq_4", VNone);
 ("receive_freq_5", VNone);
 ("receive_phase_ct_1", VNone);
 ("receive_phase_ct_2", VNone);
 ("receive_phase_ct_3", VNone);
 ("receive_phase_ct_4", VNone);
 ("receive_phase_ct_5", VNone);
 ("rhumidity", VNone);
 ("stec", VNone);
 ("temperature", VNone);
 ("transmit_freq_1", VNone);
 ("transmit_freq_2", VNone);
 ("transmit_freq_3", VNone);
 ("transmit_freq_4", VNone);
 ("transmit_freq_5", VNone);
 ("transmit_freq_rate_1", VNone);
 ("transmit_freq_rate_2", VNone);
 ("transmit_freq_rate_3", VNone);
 ("transmit_freq_rate_4", VNone);
 ("transmit_freq_rate_5", VNone);
 ("transmit_phase_ct_1", VNone);
 ("transmit_phase_ct_2", VNone);
 ("transmit_phase_ct_3", VNone);
 ("transmit_phase_ct_4", VNone);
 ("transmit_phase_ct_5", VNone);
 ("tropo_dry", VNone);
 ("tropo_wet", VNone);
 ("vlbi_delay", VNone)]; VObj "TrackingDataObservationType" [("epoch", VStr (lit "2007-075T15:08:27.000"));
 ("angle_1", VNone);
 ("angle_2", VNone);
 ("carrier_power", VNone);
 ("clock_bias", VNone);
 ("clock_drift", VNone);
 ("doppler_count", VNone);
 ("doppler_instantaneous", VNone);
 ("doppler_integrated", VNone);
 ("dor", VNone);
 ("mag", VNone);
 ("pc_n0", VNone);
 ("pr_n0", VNone);
 ("pressure", VNone);
 ("range", VNone);
 ("rcs", VNone);
 ("receive_freq", VDec (DFin false 64520321739197%N (-9)%Z));
 ("receive_freq_1", VNone);
 ("receive_freq_2", VNone);
 ("receive_freq_3", VNone);
 ("receive_freq_4", VNone);
 ("receive_freq_5", VNone);
 ("receive_phase_ct_1", VNone);
 ("receive_phase_ct_2", VNone);
 ("receive_phase_ct_3", VNone);
 ("receive_phase_ct_4", VNone);
 ("receive_phase_ct_5", VNone);
 ("rhumidity", VNone);
 ("stec", VNone);
 ("temperature", VNone);
 ("transmit_freq_1", VNone);
 ("transmit_freq_2", VNone);
 ("transmit_freq_3", VNone);
 ("transmit_freq_4", VNone);
 ("transmit_freq_5", VNone);
 ("transmit_freq_rate_1", VNone);
 ("transmit_freq_rate_2", VNone);
 ("transmit_freq_rate_3", VNone);
 ("transmit_freq_rate_4", VNone);
 ("transmit_freq_rate_5", VNone);
 ("transmit_phase_ct_1", VNone);
 ("transmit_phase_ct_2", VNone);
 ("transmit_phase_ct_3", VNone);
 ("transmit_phase_ct_4", VNone);
 ("transmit_phase_ct_5", VNone);
 ("tropo_dry", VNone);
 ("tropo_wet", VNone);
 ("vlbi_delay", VNone)]; VObj "TrackingDataObservationType" [("epoch", VStr (lit "2007-075T15:09:27.000"));
 ("angle_1", VNone);
 ("angle_2", VNone);
 ("carrier_power", VNone);
 ("clock_bias", VNone);
 ("clock_drift", VNone);
 ("doppler_count", VNone);
 ("doppler_instantaneous", VNone);
 ("doppler_integrated", VNone);
 ("dor", VNone);
 ("mag", VNone);
 ("pc_n0", VNone);
 ("pr_n0", VNone);
 ("pressure", VNone);
 ("range", VNone);
 ("rcs", VNone);
 ("receive_freq", VDec (DFin false 64454402581215%N (-9)%Z));
 ("receive_freq_1", VNone);
 ("receive_freq_2", VNone);
 ("receive_freq_3", VNone);
 ("receive_freq_4", VNone);
 ("receive_freq_5", VNone);
 ("receive_phase_ct_1", VNone);
 ("receive_phase_ct_2", VNone);
 ("receive_phase_ct_3", VNone);
 ("receive_phase_ct_4", VNone);
 ("receive_phase_ct_5", VNone);
 ("rhumidity", VNone);
 ("stec", VNone);
 ("temperature", VNone);
 ("transmit_freq_1", VNone);
 ("transmit_freq_2", VNone);
 ("transmit_freq_3", VNone);
 ("transmit_freq_4", VNone);
 ("transmit_freq_5", VNone);
 ("transmit_freq_rate_1", VNone);
 ("transmit_freq_rate_2", VNone);
 ("transmit_freq_rate_3", VNone);
 ("transmit_freq_rate_4", VNone);
 ("transmit_freq_rate_5", VNone);
 ("transmit_phase_ct_1", VNone);
 ("transmit_phase_ct_2", VNone);
 ("transmit_phase_ct_3", VNone);
 ("transmit_phase_ct_4", VNone);
 ("transmit_phase_ct_5", VNone);
 ("tropo_dry", VNone);
 ("tropo_wet", VNone);
 ("vlbi_delay", VNone)]; VObj "TrackingDataObservationType" [("epoch", VStr (lit "2007-075T15:10:27.000"));
 ("angle_1", VNone);
 ("angle_2", VNone);
 ("carrier_power", VNone);
 ("clock_bias", VNone);
 ("clock_drift", VNone);
 ("doppler_count", VNone);
 ("doppler_instantaneous", VNone);
 ("doppler_integrated", VNone);
 ("dor", VNone);
 ("mag", VNone);
 ("pc_n0", VNone);
 ("pr_n0", VNone);
 ("pressure", VNone);
 ("range", VNone);
 ("rcs", VNone);
 ("receive_freq", VDec (DFin false 64388266628265%N (-9)%Z));
 ("receive_freq_1", VNone);
 ("receive_freq_2", VNone);
 ("receive_freq_3", VNone);
 ("receive_freq_4", VNone);
 ("receive_freq_5", VNone);
 ("receive_phase_ct_1", VNone);
 ("receive_phase_ct_2", VNone);
 ("receive_phase_ct_3", VNone);
 ("receive_phase_ct_4", VNone);
 ("receive_phase_ct_5", VNone);
 ("rhumidity", VNone);
 ("stec", VNone);
 ("temperature", VNone);
 ("transmit_freq_1", VNone);
 ("transmit_freq_2", VNone);
 ("transmit_freq_3", VNone);
 ("transmit_freq_4", VNone);
 ("transmit_freq_5", VNone);
 ("transmit_freq_rate_1", VNone);
 ("transmit_freq_rate_2", VNone);
 ("transmit_freq_rate_3", VNone);
 ("transmit_freq_rate_4", VNone);
 ("transmit_freq_rate_5", VNone);
 ("transmit_phase_ct_1", VNone);
 ("transmit_phase_ct_2", VNone);
 ("transmit_phase_ct_3", VNone);
 ("transmit_phase_ct_4", VNone);
 ("transmit_phase_ct_5", VNone);
 ("tropo_dry", VNone);
 ("tropo_wet", VNone);
 ("vlbi_delay", VNone)]; VObj "TrackingDataObservationType" [("epoch", VStr (lit "2007-075T15:11:27.000"));
 ("angle_1", VNone);
 ("angle_2", VNone);
 ("carrier_power", VNone);
 ("clock_bias", VNone);
 ("clock_drift", VNone);
 ("doppler_count", VNone);
 ("doppler_instantaneous", VNone);
 ("doppler_integrated", VNone);
 ("dor", VNone);
 ("mag", VNone);
 ("pc_n0", VNone);
 ("pr_n0", VNone);
 ("pressure", VNone);
 ("range", VNone);
 ("rcs", VNone);
 ("receive_freq", VDec (DFin false 64321913907051%N (-9)%Z));
 ("receive_freq_1", VNone);
 ("receive_freq_2", VNone);
 ("receive_freq_3", VNone);
 ("receive_freq_4", VNone);
 ("receive_freq_5", VNone);
 ("receive_phase_ct_1", VNone);
 ("receive_phase_ct_2", VNone);
 ("receive_phase_ct_3", VNone);
 ("receive_phase_ct_4", VNone);
 ("receive_phase_ct_5", VNone);
 ("rhumidity", VNone);
 ("stec", VNone);
 ("temperature", VNone);
 ("transmit_freq_1", VNone);
 ("transmit_freq_2", VNone);
 ("transmit_freq_3", VNone);
 ("transmit_freq_4", VNone);
 ("transmit_freq_5", VNone);
 ("transmit_freq_rate_1", VNone);
 ("transmit_freq_rate_2", VNone);
 ("transmit_freq_rate_3", VNone);
 ("transmit_freq_rate_4", VNone);
 ("transmit_freq_rate_5", VNone);
 ("transmit_phase_ct_1", VNone);
 ("transmit_phase_ct_2", VNone);
 ("transmit_phase_ct_3", VNone);
 ("transmit_phase_ct_4", VNone);
 ("transmit_phase_ct_5", VNone);
 ("tropo_dry", VNone);
 ("tropo_wet", VNone);
 ("vlbi_delay", VNone)]; VObj "TrackingDataObservationType" [("epoch", VStr (lit "2007-075T15:12:27.000"));
 ("angle_1", VNone);
 ("angle_2", VNone);
 ("carrier_power", VNone);
 ("clock_bias", VNone);
 ("clock_drift", VNone);
 ("doppler_count", VNone);
 ("doppler_instantaneous", VNone);
 ("doppler_integrated", VNone);
 ("dor", VNone);
 ("mag", VNone);
 ("pc_n0", VNone);
 ("pr_n0", VNone);
 ("pressure", VNone);
 ("range", VNone);
 ("rcs", VNone);
 ("receive_freq", VDec (DFin false 64255348347664%N (-9)%Z));
 ("receive_freq_1", VNone);
 ("receive_freq_2", VNone);
 ("receive_freq_3", VNone);
 ("receive_freq_4", VNone);
 ("receive_freq_5", VNone);
 ("receive_phase_ct_1", VNone);
 ("receive_phase_ct_2", VNone);
 ("receive_phase_ct_3", VNone);
 ("receive_phase_ct_4", VNone);
 ("receive_phase_ct_5", VNone);
 ("rhumidity", VNone);
 ("stec", VNone);
 ("temperature", VNone);
 ("transmit_freq_1", VNone);
 ("transmit_freq_2", VNone);
 ("transmit_freq_3", VNone);
 ("transmit_freq_4", VNone);
 ("transmit_freq_5", VNone);
 ("transmit_freq_rate_1", VNone);
 ("transmit_freq_rate_2", VNone);
 ("transmit_freq_rate_3", VNone);
 ("transmit_freq_rate_4", VNone);
 ("transmit_freq_rate_5", VNone);
 ("transmit_phase_ct_1", VNone);
 ("transmit_phase_ct_2", VNone);
 ("transmit_phase_ct_3", VNone);
 ("transmit_phase_ct_4", VNone);
 ("transmit_phase_ct_5", VNone);
 ("tropo_dry", VNone);
 ("tropo_wet", VNone);
 ("vlbi_delay", VNone)]; VObj "TrackingDataObservationType" [("epoch", VStr (lit "2007-075T15:13:27.000"));
 ("angle_1", VNone);
 ("angle_2", VNone);
 ("carrier_power", VNone);
 ("clock_bias", VNone);
 ("clock_drift", VNone);
 ("doppler_count", VNone);
 ("doppler_instantaneous", VNone);
 ("doppler_integrated", VNone);
 ("dor", VNone);
 ("mag", VNone);
 ("pc_n0", VNone);
 ("pr_n0", VNone);
 ("pressure", VNone);
 ("range", VNone);
 ("rcs", VNone);
 ("receive_freq", VDec (DFin false 64188569881439%N (-9)%Z));
 ("receive_freq_1", VNone);
 ("receive_freq_2", VNone);
 ("receive_freq_3", VNone);
 ("receive_freq_4", VNone);
 ("receive_freq_5", VNone);
 ("receive_phase_ct_1", VNone);
 ("receive_phase_ct_2", VNone);
 ("receive_phase_ct_3", VNone);
 ("receive_phase_ct_4", VNone);
 ("receive_phase_ct_5", VNone);
 ("rhumidity", VNone);
 ("stec", VNone);
 ("temperature", VNone);
 ("transmit_freq_1", VNone);
 ("transmit_freq_2", VNone);
 ("transmit_freq_3", VNone);
 ("transmit_freq_4", VNone);
 ("transmit_freq_5", VNone);
 ("transmit_freq_rate_1", VNone);
 ("transmit_freq_rate_2", VNone);
 ("transmit_freq_rate_3", VNone);
 ("transmit_freq_rate_4", VNone);
 ("transmit_freq_rate_5", VNone);
 ("transmit_phase_ct_1", VNone);
 ("transmit_phase_ct_2", VNone);
 ("transmit_phase_ct_3", VNone);
 ("transmit_phase_ct_4", VNone);
 ("transmit_phase_ct_5", VNone);
 ("tropo_dry", VNone);
 ("tropo_wet", VNone);
 ("vlbi_delay", VNone)]; VObj "TrackingDataObservationType" [("epoch", VStr (lit "2007-075T15:14:27.000"));
 ("angle_1", VNone);
 ("angle_2", VNone);
 ("carrier_power", VNone);
 ("clock_bias", VNone);
 ("clock_drift", VNone);
 ("doppler_count", VNone);
 ("doppler_instantaneous", VNone);
 ("doppler_integrated", VNone);
 ("dor", VNone);
 ("mag", VNone);
 ("pc_n0", VNone);
 ("pr_n0", VNone);
 ("pressure", VNone);
 ("range", VNone);
 ("rcs", VNone);
 ("receive_freq", VDec (DFin false 64121579611778%N (-9)%Z));
 ("receive_freq_1", VNone);
 ("receive_freq_2", VNone);
 ("receive_freq_3", VNone);
 ("receive_freq_4", VNone);
 ("receive_freq_5", VNone);
 ("receive_phase_ct_1", VNone);
 ("receive_phase_ct_2", VNone);
 ("receive_phase_ct_3", VNone);
 ("receive_phase_ct_4", VNone);
 ("receive_phase_ct_5", VNone);
 ("rhumidity", VNone);
 ("stec", VNone);
 ("temperature", VNone);
 ("transmit_freq_1", VNone);
 ("transmit_freq_2", VNone);
 ("transmit_freq_3", VNone);
 ("transmit_freq_4", VNone);
 ("transmit_freq_5", VNone);
 ("transmit_freq_rate_1", VNone);
 ("transmit_freq_rate_2", VNone);
 ("transmit_freq_rate_3", VNone);
 ("transmit_freq_rate_4", VNone);
 ("transmit_freq_rate_5", VNone);
 ("transmit_phase_ct_1", VNone);
 ("transmit_phase_ct_2", VNone);
 ("transmit_phase_ct_3", VNone);
 ("transmit_phase_ct_4", VNone);
 ("transmit_phase_ct_5", VNone);
 ("tropo_dry", VNone);
 ("tropo_wet", VNone);
 ("vlbi_delay", VNone)]; VObj "TrackingDataObservationType" [("epoch", VStr (lit "2007-075T15:15:27.000"));
 ("angle_1", VNone);
 ("angle_2", VNone);
 ("carrier_power", VNone);
 ("clock_bias", VNone);
 ("clock_drift", VNone);
 ("doppler_count", VNone);
 ("doppler_instantaneous", VNone);
 ("doppler_integrated", VNone);
 ("dor", VNone);
 ("mag", VNone);
 ("pc_n0", VNone);
 ("pr_n0", VNone);
 ("pressure", VNone);
 ("range", VNone);
 ("rcs", VNone);
 ("receive_freq", VDec (DFin false 64054380387306%N (-9)%Z));
 ("receive_freq_1", VNone);
 ("receive_freq_2", VNone);
 ("receive_freq_3", VNone);
 ("receive_freq_4", VNone);
 ("receive_freq_5", VNone);
 ("receive_phase_ct_1", VNone);
 ("receive_phase_ct_2", VNone);
 ("receive_phase_ct_3", VNone);
 ("receive_phase_ct_4", VNone);
 ("receive_phase_ct_5", VNone);
 ("rhumidity", VNone);
 ("stec", VNone);
 ("temperature", VNone);
 ("transmit_freq_1", VNone);
 ("transmit_freq_2", VNone);
 ("transmit_freq_3", VNone);
 ("transmit_freq_4", VNone);
 ("transmit_freq_5", VNone);
 ("transmit_freq_rate_1", VNone);
 ("transmit_freq_rate_2", VNone);
 ("transmit_freq_rate_3", VNone);
 ("transmit_freq_rate_4", VNone);
 ("transmit_freq_rate_5", VNone);
 ("transmit_phase_ct_1", VNone);
 ("transmit_phase_ct_2", VNone);
 ("transmit_phase_ct_3", VNone);
 ("transmit_phase_ct_4", VNone);
 ("transmit_phase_ct_5", VNone);
 ("tropo_dry", VNone);
 ("tropo_wet", VNone);
 ("vlbi_delay", VNone)]; VObj "TrackingDataObservationType" [("epoch", VStr (lit "2007-075T15:16:27.000"));
 ("angle_1", VNone);
 ("angle_2", VNone);
 ("carrier_power", VNone);
 ("clock_bias", VNone);
 ("clock_drift", VNone);
 ("doppler_count", VNone);
 ("doppler_instantaneous", VNone);
 ("doppler_integrated", VNone);
 ("dor", VNone);
 ("mag", VNone);
 ("pc_n0", VNone);
 ("pr_n0", VNone);
 ("pressure", VNone);
 ("range", VNone);
 ("rcs", VNone);
 ("receive_freq", VDec (DFin false 63986972198486%N (-9)%Z));
 ("receive_freq_1", VNone);
 ("receive_freq_2", VNone);
 ("receive_freq_3", VNone);
 ("receive_freq_4", VNone);
 ("receive_freq_5", VNone);
 ("receive_phase_ct_1", VNone);
 ("receive_phase_ct_2", VNone);
 ("receive_phase_ct_3", VNone);
 ("receive_phase_ct_4", VNone);
 ("receive_phase_ct_5", VNone);
 ("rhumidity", VNone);
 ("stec", VNone);
 ("temperature", VNone);
 ("transmit_freq_1", VNone);
 ("transmit_freq_2", VNone);
 ("transmit_freq_3", VNone);
 ("transmit_freq_4", VNone);
 ("transmit_freq_5", VNone);
 ("transmit_freq_rate_1", VNone);
 ("transmit_freq_rate_2", VNone);
 ("transmit_freq_rate_3", VNone);
 ("transmit_freq_rate_4", VNone);
 ("transmit_freq_rate_5", VNone);
 ("transmit_phase_ct_1", VNone);
 ("transmit_phase_ct_2", VNone);
 ("transmit_phase_ct_3", VNone);
 ("transmit_phase_ct_4", VNone);
 ("transmit_phase_ct_5", VNone);
 ("tropo_dry", VNone);
 ("tropo_wet", VNone);
 ("vlbi_delay", VNone)]; VObj "TrackingDataObservationType" [("epoch", VStr (lit "2007-075T15:17:27.000"));
 ("angle_1", VNone);
 ("angle_2", VNone);
 ("carrier_power", VNone);
 ("clock_bias", VNone);
 ("clock_drift", VNone);
 ("doppler_count", VNone);
 ("doppler_instantaneous", VNone);
 ("doppler_integrated", VNone);
 ("dor", VNone);
 ("mag", VNone);
 ("pc_n0", VNone);
 ("pr_n0", VNone);
 ("pressure", VNone);
 ("range", VNone);
 ("rcs", VNone);
 ("receive_freq", VDec (DFin false 63919357762337%N (-9)%Z));
 ("receive_freq_1", VNone);
 ("receive_freq_2", VNone);
 ("receive_freq_3", VNone);
 ("receive_freq_4", VNone);
 ("receive_freq_5", VNone);
 ("receive_phase_ct_1", VNone);
 ("receive_phase_ct_2", VNone);
 ("receive_phase_ct_3", VNone);
 ("receive_phase_ct_4", VNone);
 ("receive_phase_ct_5", VNone);
 ("rhumidity", VNone);
 ("stec", VNone);
 ("temperature", VNone);
 ("transmit_freq_1", VNone);
 ("transmit_freq_2", VNone);
 ("transmit_freq_3", VNone);
 ("transmit_freq_4", VNone);
 ("transmit_freq_5", VNone);
 ("transmit_freq_rate_1", VNone);
 ("transmit_freq_rate_2", VNone);
 ("transmit_freq_rate_3", VNone);
 ("transmit_freq_rate_4", VNone);
 ("transmit_freq_rate_5", VNone);
 ("transmit_phase_ct_1", VNone);
 ("transmit_phase_ct_2", VNone);
 ("transmit_phase_ct_3", VNone);
 ("transmit_phase_ct_4", VNone);
 ("transmit_phase_ct_5", VNone);
 ("tropo_dry", VNone);
 ("tropo_wet", VNone);
 ("vlbi_delay", VNone)]; VObj "TrackingDataObservationType" [("epoch", VStr (lit "2007-075T15:18:27.000"));
 ("angle_1", VNone);
 ("angle_2", VNone);
 ("carrier_power", VNone);
 ("clock_bias", VNone);
 ("clock_drift", VNone);
 ("doppler_count", VNone);
 ("doppler_instantaneous", VNone);
 ("doppler_integrated", VNone);
 ("dor", VNone);
 ("mag", VNone);
 ("pc_n0", VNone);
 ("pr_n0", VNone);
 ("pressure", VNone);
 ("range", VNone);
 ("rcs", VNone);
 ("receive_freq", VDec (DFin false 63851536486626%N (-9)%Z));
 ("receive_freq_1", VNone);
 ("receive_freq_2", VNone);
 ("receive_freq_3", VNone);
 ("receive_freq_4", VNone);
 ("receive_freq_5", VNone);
 ("receive_phase_ct_1", VNone);
 ("receive_phase_ct_2", VNone);
 ("receive_phase_ct_3", VNone);
 ("receive_phase_ct_4", VNone);
 ("receive_phase_ct_5", VNone);
 ("rhumidity", VNone);
 ("stec", VNone);
 ("temperature", VNone);
 ("transmit_freq_1", VNone);
 ("transmit_freq_2", VNone);
 ("transmit_freq_3", VNone);
 ("transmit_freq_4", VNone);
 ("transmit_freq_5", VNone);
 ("transmit_freq_rate_1", VNone);
 ("transmit_freq_rate_2", VNone);
 ("transmit_freq_rate_3", VNone);
 ("transmit_freq_rate_4", VNone);
 ("transmit_freq_rate_5", VNone);
 ("transmit_phase_ct_1", VNone);
 ("transmit_phase_ct_2", VNone);
 ("transmit_phase_ct_3", VNone);
 ("transmit_phase_ct_4", VNone);
 ("transmit_phase_ct_5", VNone);
 ("tropo_dry", VNone);
 ("tropo_wet", VNone);
 ("vlbi_delay", VNone)]; VObj "TrackingDataObservationType" [("epoch", VStr (lit "2007-075T15:19:27.000"));
 ("angle_1", VNone);
 ("angle_2", VNone);
 ("carrier_power", VNone);
 ("clock_bias", VNone);
 ("clock_drift", VNone);
 ("doppler_count", VNone);
 ("doppler_instantaneous", VNone);
 ("doppler_integrated", VNone);
 ("dor", VNone);
 ("mag", VNone);
 ("pc_n0", VNone);
 ("pr_n0", VNone);
 ("pressure", VNone);
 ("range", VNone);
 ("rcs", VNone);
 ("receive_freq", VDec (DFin false 63783512669563%N (-9)%Z));
 ("receive_freq_1", VNone);
 ("receive_freq_2", VNone);
 ("receive_freq_3", VNone);
 ("receive_freq_4", VNone);
 ("receive_freq_5", VNone);
 ("receive_phase_ct_1", VNone);
 ("receive_phase_ct_2", VNone);
 ("receive_phase_ct_3", VNone);
 ("receive_phase_ct_4", VNone);
 ("receive_phase_ct_5", VNone);
 ("rhumidity", VNone);
 ("stec", VNone);
 ("temperature", VNone);
 ("transmit_freq_1", VNone);
 ("transmit_freq_2", VNone);
 ("transmit_freq_3", VNone);
 ("transmit_freq_4", VNone);
 ("transmit_freq_5", VNone);
 ("transmit_freq_rate_1", VNone);
 ("transmit_freq_rate_2", VNone);
 ("transmit_freq_rate_3", VNone);
 ("transmit_freq_rate_4", VNone);
 ("transmit_freq_rate_5", VNone);
 ("transmit_phase_ct_1", VNone);
 ("transmit_phase_ct_2", VNone);
 ("transmit_phase_ct_3", VNone);
 ("transmit_phase_ct_4", VNone);
 ("transmit_phase_ct_5", VNone);
 ("tropo_dry", VNone);
 ("tropo_wet", VNone);
 ("vlbi_delay", VNone)]; VObj "TrackingDataObservationType" [("epoch", VStr (lit "2007-075T15:20:27.000"));
 ("angle_1", VNone);
 ("angle_2", VNone);
 ("carrier_power", VNone);
 ("clock_bias", VNone);
 ("clock_drift", VNone);
 ("doppler_count", VNone);
 ("doppler_instantaneous", VNone);
 ("doppler_integrated", VNone);
 ("dor", VNone);
 ("mag", VNone);
 ("pc_n0", VNone);
 ("pr_n0", VNone);
 ("pressure", VNone);
 ("range", VNone);
 ("rcs", VNone);
 ("receive_freq", VDec (DFin false 63715284499168%N (-9)%Z));
 ("receive_freq_1", VNone);
 ("receive_freq_2", VNone);
 ("receive_freq_3", VNone);
 ("receive_freq_4", VNone);
 ("receive_freq_5", VNone);
 ("receive_phase_ct_1", VNone);
 ("receive_phase_ct_2", VNone);
 ("receive_phase_ct_3", VNone);
 ("receive_phase_ct_4", VNone);
 ("receive_phase_ct_5", VNone);
 ("rhumidity", VNone);
 ("stec", VNone);
 ("temperature", VNone);
 ("transmit_freq_1", VNone);
 ("transmit_freq_2", VNone);
 ("transmit_freq_3", VNone);
 ("transmit_freq_4", VNone);
 ("transmit_freq_5", VNone);
 ("transmit_freq_rate_1", VNone);
 ("transmit_freq_rate_2", VNone);
 ("transmit_freq_rate_3", VNone);
 ("transmit_freq_rate_4", VNone);
 ("transmit_freq_rate_5", VNone);
 ("transmit_phase_ct_1", VNone);
 ("transmit_phase_ct_2", VNone);
 ("transmit_phase_ct_3", VNone);
 ("transmit_phase_ct_4", VNone);
 ("transmit_phase_ct_5", VNone);
 ("tropo_dry", VNone);
 ("tropo_wet", VNone);
 ("vlbi_delay", VNone)]; VObj "TrackingDataObservationType" [("epoch", VStr (lit "2007-075T15:21:27.000"));
 ("angle_1", VNone);
 ("angle_2", VNone);
 ("carrier_power", VNone);
 ("clock_bias", VNone);
 ("clock_drift", VNone);
 ("doppler_count", VNone);
 ("doppler_instantaneous", VNone);
 ("doppler_integrated", VNone);
 ("dor", VNone);
 ("mag", VNone);
 ("pc_n0", VNone);
 ("pr_n0", VNone);
 ("pressure", VNone);
 ("range", VNone);
 ("rcs", VNone);
 ("receive_freq", VDec (DFin false 63646856268883%N (-9)%Z));
 ("receive_freq_1", VNone);
 ("receive_freq_2", VNone);
 ("receive_freq_3", VNone);
 ("receive_freq_4", VNone);
 ("receive_freq_5", VNone);
 ("receive_phase_ct_1", VNone);
 ("receive_phase_ct_2", VNone);
 ("receive_phase_ct_3", VNone);
 ("receive_phase_ct_4", VNone);
 ("receive_phase_ct_5", VNone);
 ("rhumidity", VNone);
 ("stec", VNone);
 ("temperature", VNone);
 ("transmit_freq_1", VNone);
 ("transmit_freq_2", VNone);
 ("transmit_freq_3", VNone);
 ("transmit_freq_4", VNone);
 ("transmit_freq_5", VNone);
 ("transmit_freq_rate_1", VNone);
 ("transmit_freq_rate_2", VNone);
 ("transmit_freq_rate_3", VNone);
 ("transmit_freq_rate_4", VNone);
 ("transmit_freq_rate_5", VNone);
 ("transmit_phase_ct_1", VNone);
 ("transmit_phase_ct_2", VNone);
 ("transmit_phase_ct_3", VNone);
 ("transmit_phase_ct_4", VNone);
 ("transmit_phase_ct_5", VNone);
 ("tropo_dry", VNone);
 ("tropo_wet", VNone);
 ("vlbi_delay", VNone)]; VObj "TrackingDataObservationType" [("epoch", VStr (lit "2007-075T15:22:27.000"));
 ("angle_1", VNone);
 ("angle_2", VNone);
 ("carrier_power", VNone);
 ("clock_bias", VNone);
 ("clock_drift", VNone);
 ("doppler_count", VNone);
 ("doppler_instantaneous", VNone);
 ("doppler_integrated", VNone);
 ("dor", VNone);
 ("mag", VNone);
 ("pc_n0", VNone);
 ("pr_n0", VNone);
 ("pressure", VNone);
 ("range", VNone);
 ("rcs", VNone);
 ("receive_freq", VDec (DFin false 63578228726387%N (-9)%Z));
 ("receive_freq_1", VNone);
 ("receive_freq_2", VNone);
 ("receive_freq_3", VNone);
 ("receive_freq_4", VNone);
 ("receive_freq_5", VNone);
 ("receive_phase_ct_1", VNone);
 ("receive_phase_ct_2", VNone);
 ("receive_phase_ct_3", VNone);
 ("receive_phase_ct_4", VNone);
 ("receive_phase_ct_5", VNone);
 ("rhumidity", VNone);
 ("stec", VNone);
 ("temperature", VNone);
 ("transmit_freq_1", VNone);
 ("transmit_freq_2", VNone);
 ("transmit_freq_3", VNone);
 ("transmit_freq_4", VNone);
 ("transmit_freq_5", VNone);
 ("transmit_freq_rate_1", VNone);
 ("transmit_freq_rate_2", VNone);
 ("transmit_freq_rate_3", VNone);
 ("transmit_freq_rate_4", VNone);
 ("transmit_freq_rate_5", VNone);
 ("transmit_phase_ct_1", VNone);
 ("transmit_phase_ct_2", VNone);
 ("transmit_phase_ct_3", VNone);
 ("transmit_phase_ct_4", VNone);
 ("transmit_phase_ct_5", VNone);
 ("tropo_dry", VNone);
 ("tropo_wet", VNone);
 ("vlbi_delay", VNone)]; VObj "TrackingDataObservationType" [("epoch", VStr (lit "2007-075T15:23:27.000"));
 ("angle_1", VNone);
 ("angle_2", VNone);
 ("carrier_power", VNone);
 ("clock_bias", VNone);
 ("clock_drift", VNone);
 ("doppler_count", VNone);
 ("doppler_instantaneous", VNone);
 ("doppler_integrated", VNone);
 ("dor", VNone);
 ("mag", VNone);
 ("pc_n0", VNone);
 ("pr_n0", VNone);
 ("pressure", VNone);
 ("range", VNone);
 ("rcs", VNone);
 ("receive_freq", VDec (DFin false 63509399887085%N (-9)%Z));
 ("receive_freq_1", VNone);
 ("receive_freq_2", VNone);
 ("receive_freq_3", VNone);
 ("receive_freq_4", VNone);
 ("receive_freq_5", VNone);
 ("receive_phase_ct_1", VNone);
 ("receive_phase_ct_2", VNone);
 ("receive_phase_ct_3", VNone);
 ("receive_phase_ct_4", VNone);
 ("receive_phase_ct_5", VNone);
 ("rhumidity", VNone);
 ("stec", VNone);
 ("temperature", VNone);
 ("transmit_freq_1", VNone);
 ("transmit_freq_2", VNone);
 ("transmit_freq_3", VNone);
 ("transmit_freq_4", VNone);
 ("transmit_freq_5", VNone);
 ("transmit_freq_rate_1", VNone);
 ("transmit_freq_rate_2", VNone);
 ("transmit_freq_rate_3", VNone);
 ("transmit_freq_rate_4", VNone);
 ("transmit_freq_rate_5", VNone);
 ("transmit_phase_ct_1", VNone);
 ("transmit_phase_ct_2", VNone);
 ("transmit_phase_ct_3", VNone);
 ("transmit_phase_ct_4", VNone);
 ("transmit_phase_ct_5", VNone);
 ("tropo_dry", VNone);
 ("tropo_wet", VNone);
 ("vlbi_delay", VNone)]; VObj "TrackingDataObservationType" [("epoch", VStr (lit "2007-075T15:24:27.000"));
 ("angle_1", VNone);
 ("angle_2", VNone);
 ("carrier_power", VNone);
 ("clock_bias", VNone);
 ("clock_drift", VNone);
 ("doppler_count", VNone);
 ("doppler_instantaneous", VNone);
 ("doppler_integrated", VNone);
 ("dor", VNone);
 ("mag", VNone);
 ("pc_n0", VNone);
 ("pr_n0", VNone);
 ("pressure", VNone);
 ("range", VNone);
 ("rcs", VNone);
 ("receive_freq", VDec (DFin false 63440376836777%N (-9)%Z));
 ("receive_freq_1", VNone);
 ("receive_freq_2", VNone);
 ("receive_freq_3", VNone);
 ("receive_freq_4", VNone);
 ("receive_freq_5", VNone);
 ("receive_phase_ct_1", VNone);
 ("receive_phase_ct_2", VNone);
 ("receive_phase_ct_3", VNone);
 ("receive_phase_ct_4", VNone);
 ("receive_phase_ct_5", VNone);
 ("rhumidity", VNone);
 ("stec", VNone);
 ("temperature", VNone);
 ("transmit_freq_1", VNone);
 ("transmit_freq_2", VNone);
 ("transmit_freq_3", VNone);
 ("transmit_freq_4", VNone);
 ("transmit_freq_5", VNone);
 ("transmit_freq_rate_1", VNone);
 ("transmit_freq_rate_2", VNone);
 ("transmit_freq_rate_3", VNone);
 ("transmit_freq_rate_4", VNone);
 ("transmit_freq_rate_5", VNone);
 ("transmit_phase_ct_1", VNone);
 ("transmit_phase_ct_2", VNone);
 ("transmit_phase_ct_3", VNone);
 ("transmit_phase_ct_4", VNone);
 ("transmit_phase_ct_5", VNone);
 ("tropo_dry", VNone);
 ("tropo_wet", VNone);
 ("vlbi_delay", VNone)]; VObj "TrackingDataObservationType" [("epoch", VStr (lit "2007-075T15:25:27.000"));
 ("angle_1", VNone);
 ("angle_2", VNone);
 ("carrier_power", VNone);
 ("clock_bias", VNone);
 ("clock_drift", VNone);
 ("doppler_count", VNone);
 ("doppler_instantaneous", VNone);
 ("doppler_integrated", VNone);
 ("dor", VNone);
 ("mag", VNone);
 ("pc_n0", VNone);
 ("pr_n0", VNone);
 ("pressure", VNone);
 ("range", VNone);
 ("rcs", VNone);
 ("receive_freq", VDec (DFin false 6337115724659%N (-8)%Z));
 ("receive_freq_1", VNone);
 ("receive_freq_2", VNone);
 ("receive_freq_3", VNone);
 ("receive_freq_4", VNone);
 ("receive_freq_5", VNone);
 ("receive_phase_ct_1", VNone);
 ("receive_phase_ct_2", VNone);
 ("receive_phase_ct_3", VNone);
 ("receive_phase_ct_4", VNone);
 ("receive_phase_ct_5", VNone);
 ("rhumidity", VNone);
 ("stec", VNone);
 ("temperature", VNone);
 ("transmit_freq_1", VNone);
 ("transmit_freq_2", VNone);
 ("transmit_freq_3", VNone);
 ("transmit_freq_4", VNone);
 ("transmit_freq_5", VNone);
 ("transmit_freq_rate_1", VNone);
 ("transmit_freq_rate_2", VNone);
 ("transmit_freq_rate_3", VNone);
 ("transmit_freq_rate_4", VNone);
 ("transmit_freq_rate_5", VNone);
 ("transmit_phase_ct_1", VNone);
 ("transmit_phase_ct_2", VNone);
 ("transmit_phase_ct_3", VNone);
 ("transmit_phase_ct_4", VNone);
 ("transmit_phase_ct_5", VNone);
 ("tropo_dry", VNone);
 ("tropo_wet", VNone);
 ("vlbi_delay", VNone)]; VObj "TrackingDataObservationType" [("epoch", VStr (lit "2007-075T15:26:27.000"));
 ("angle_1", VNone);
 ("angle_2", VNone);
 ("carrier_power", VNone);
 ("clock_bias", VNone);
 ("clock_drift", VNone);
 ("doppler_count", VNone);
 ("doppler_instantaneous", VNone);
 ("doppler_integrated", VNone);
 ("dor", VNone);
 ("mag", VNone);
 ("pc_n0", VNone);
 ("pr_n0", VNone);
 ("pressure", VNone);
 ("range", VNone);
 ("rcs", VNone);
 ("receive_freq", VDec (DFin false 63301744392395%N (-9)%Z));
 ("receive_freq_1", VNone);
 ("receive_freq_2", VNone);
 ("receive_freq_3", VNone);
 ("receive_freq_4", VNone);
 ("receive_freq_5", VNone);
 ("receive_phase_ct_1", VNone);
 ("receive_phase_ct_2", VNone);
 ("receive_phase_ct_3", VNone);
 ("receive_phase_ct_4", VNone);
 ("receive_phase_ct_5", VNone);
 ("rhumidity", VNone);
 ("stec", VNone);
 ("temperature", VNone);
 ("transmit_freq_1", VNone);
 ("transmit_freq_2", VNone);
 ("transmit_freq_3", VNone);
 ("transmit_freq_4", VNone);
 ("transmit_freq_5", VNone);
 ("transmit_freq_rate_1", VNone);
 ("transmit_freq_rate_2", VNone);
 ("transmit_freq_rate_3", VNone);
 ("transmit_freq_rate_4", VNone);
 ("transmit_freq_rate_5", VNone);
 ("transmit_phase_ct_1", VNone);
 ("transmit_phase_ct_2", VNone);
 ("transmit_phase_ct_3", VNone);
 ("transmit_phase_ct_4", VNone);
 ("transmit_phase_ct_5", VNone);
 ("tropo_dry", VNone);
 ("tropo_wet", VNone);
 ("vlbi_delay", VNone)]; VObj "TrackingDataObservationType" [("epoch", VStr (lit "2007-075T15:27:27.000"));
 ("angle_1", VNone);
 ("angle_2", VNone);
 ("carrier_power", VNone);
 ("clock_bias", VNone);
 ("clock_drift", VNone);
 ("doppler_count", VNone);
 ("doppler_instantaneous", VNone);
 ("doppler_integrated", VNone);
 ("dor", VNone);
 ("mag", VNone);
 ("pc_n0", VNone);
 ("pr_n0", VNone);
 ("pressure", VNone);
 ("range", VNone);
 ("rcs", VNone);
 ("receive_freq", VDec (DFin false 63232138154984%N (-9)%Z));
 ("receive_freq_1", VNone);
 ("receive_freq_2", VNone);
 ("receive_freq_3", VNone);
 ("receive_freq_4", VNone);
 ("receive_freq_5", VNone);
 ("receive_phase_ct_1", VNone);
 ("receive_phase_ct_2", VNone);
 ("receive_phase_ct_3", VNone);
 ("receive_phase_ct_4", VNone);
 ("receive_phase_ct_5", VNone);
 ("rhumidity", VNone);
 ("stec", VNone);
 ("temperature", VNone);
 ("transmit_freq_1", VNone);
 ("transmit_freq_2", VNone);
 ("transmit_freq_3", VNone);
 ("transmit_freq_4", VNone);
 ("transmit_freq_5", VNone);
 ("transmit_freq_rate_1", VNone);
 ("transmit_freq_rate_2", VNone);
 ("transmit_freq_rate_3", VNone);
 ("transmit_freq_rate_4", VNone);
 ("transmit_freq_rate_5", VNone);
 ("transmit_phase_ct_1", VNone);
 ("transmit_phase_ct_2", VNone);
 ("transmit_phase_ct_3", VNone);
 ("transmit_phase_ct_4", VNone);
 ("transmit_phase_ct_5", VNone);
 ("tropo_dry", VNone);
 ("tropo_wet", VNone);
 ("vlbi_delay", VNone)]; VObj "TrackingDataObservationType" [("epoch", VStr (lit "2007-075T15:28:27.000"));
 ("angle_1", VNone);
 ("angle_2", VNone);
 ("carrier_power", VNone);
 ("clock_bias", VNone);
 ("clock_drift", VNone);
 ("doppler_count", VNone);
 ("doppler_instantaneous", VNone);
 ("doppler_integrated", VNone);
 ("dor", VNone);
 ("mag", VNone);
 ("pc_n0", VNone);
 ("pr_n0", VNone);
 ("pressure", VNone);
 ("range", VNone);
 ("rcs", VNone);
 ("receive_freq", VDec (DFin false 63162340608597%N (-9)%Z));
 ("receive_freq_1", VNone);
 ("receive_freq_2", VNone);
 ("receive_freq_3", VNone);
 ("receive_freq_4", VNone);
 ("receive_freq_5", VNone);
 ("receive_phase_ct_1", VNone);
 ("receive_phase_ct_2", VNone);
 ("receive_phase_ct_3", VNone);
 ("receive_phase_ct_4", VNone);
 ("receive_phase_ct_5", VNone);
 ("rhumidity", VNone);
 ("stec", VNone);
 ("temperature", VNone);
 ("transmit_freq_1", VNone);
 ("transmit_freq_2", VNone);
 ("transmit_freq_3", VNone);
 ("transmit_freq_4", VNone);
 ("transmit_freq_5", VNone);
 ("transmit_freq_rate_1", VNone);
 ("transmit_freq_rate_2", VNone);
 ("transmit_freq_rate_3", VNone);
 ("transmit_freq_rate_4", VNone);
 ("transmit_freq_rate_5", VNone);
 ("transmit_phase_ct_1", VNone);
 ("transmit_phase_ct_2", VNone);
 ("transmit_phase_ct_3", VNone);
 ("transmit_phase_ct_4", VNone);
 ("transmit_phase_ct_5", VNone);
 ("tropo_dry", VNone);
 ("tropo_wet", VNone);
 ("vlbi_delay", VNone)]; VObj "TrackingDataObservationType" [("epoch", VStr (lit "2007-075T15:29:27.000"));
 ("angle_1", VNone);
 ("angle_2", VNone);
 ("carrier_power", VNone);
 ("clock_bias", VNone);
 ("clock_drift", VNone);
 ("doppler_count", VNone);
 ("doppler_instantaneous", VNone);
 ("doppler_integrated", VNone);
 ("dor", VNone);
 ("mag", VNone);
 ("pc_n0", VNone);
 ("pr_n0", VNone);
 ("pressure", VNone);
 ("range", VNone);
 ("rcs", VNone);
 ("receive_freq", VDec (DFin false 63092354640961%N (-9)%Z));
 ("receive_freq_1", VNone);
 ("receive_freq_2", VNone);
 ("receive_freq_3", VNone);
 ("receive_freq_4", VNone);
 ("receive_freq_5", VNone);
 ("receive_phase_ct_1", VNone);
 ("receive_phase_ct_2", VNone);
 ("receive_phase_ct_3", VNone);
 ("receive_phase_ct_4", VNone);
 ("receive_phase_ct_5", VNone);
 ("rhumidity", VNone);
 ("stec", VNone);
 ("temperature", VNone);
 ("transmit_freq_1", VNone);
 ("transmit_freq_2", VNone);
 ("transmit_freq_3", VNone);
 ("transmit_freq_4", VNone);
 ("transmit_freq_5", VNone);
 ("transmit_freq_rate_1", VNone);
 ("transmit_freq_rate_2", VNone);
 ("transmit_freq_rate_3", VNone);
 ("transmit_freq_rate_4", VNone);
 ("transmit_freq_rate_5", VNone);
 ("transmit_phase_ct_1", VNone);
 ("transmit_phase_ct_2", VNone);
 ("transmit_phase_ct_3", VNone);
 ("transmit_phase_ct_4", VNone);
 ("transmit_phase_ct_5", VNone);
 ("tropo_dry", VNone);
 ("tropo_wet", VNone);
 ("vlbi_delay", VNone)]; VObj "TrackingDataObservationType" [("epoch", VStr (lit "2007-075T15:30:27.000"));
 ("angle_1", VNone);
 ("angle_2", VNone);
 ("carrier_power", VNone);
 ("clock_bias", VNone);
 ("clock_drift", VNone);
 ("doppler_count", VNone);
 ("doppler_instantaneous", VNone);
 ("doppler_integrated", VNone);
 ("dor", VNone);
 ("mag", VNone);
 ("pc_n0", VNone);
 ("pr_n0", VNone);
 ("pressure", VNone);
 ("range", VNone);
 ("rcs", VNone);
 ("receive_freq", VDec (DFin false 63022179726601%N (-9)%Z));
 ("receive_freq_1", VNone);
 ("receive_freq_2", VNone);
 ("receive_freq_3", VNone);
 ("receive_freq_4", VNone);
 ("receive_freq_5", VNone);
 ("receive_phase_ct_1", VNone);
 ("receive_phase_ct_2", VNone);
 ("receive_phase_ct_3", VNone);
 ("receive_phase_ct_4", VNone);
 ("receive_phase_ct_5", VNone);
 ("rhumidity", VNone);
 ("stec", VNone);
 ("temperature", VNone);
 ("transmit_freq_1", VNone);
 ("transmit_freq_2", VNone);
 ("transmit_freq_3", VNone);
 ("transmit_freq_4", VNone);
 ("transmit_freq_5", VNone);
 ("transmit_freq_rate_1", VNone);
 ("transmit_freq_rate_2", VNone);
 ("transmit_freq_rate_3", VNone);
 ("transmit_freq_rate_4", VNone);
 ("transmit_freq_rate_5", VNone);
 ("transmit_phase_ct_1", VNone);
 ("transmit_phase_ct_2", VNone);
 ("transmit_phase_ct_3", VNone);
 ("transmit_phase_ct_4", VNone);
 ("transmit_phase_ct_5", VNone);
 ("tropo_dry", VNone);
 ("tropo_wet", VNone);
 ("vlbi_delay", VNone)]; VObj "TrackingDataObservationType" [("epoch", VStr (lit "2007-075T15:31:27.000"));
 ("angle_1", VNone);
 ("angle_2", VNone);
 ("carrier_power", VNone);
 ("clock_bias", VNone);
 ("clock_drift", VNone);
 ("doppler_count", VNone);
 ("doppler_instantaneous", VNone);
 ("doppler_integrated", VNone);
 ("dor", VNone);
 ("mag", VNone);
 ("pc_n0", VNone);
 ("pr_n0", VNone);
 ("pressure", VNone);
 ("range", VNone);
 ("rcs", VNone);
 ("receive_freq", VDec (DFin false 62951817217827%N (-9)%Z));
 ("receive_freq_1", VNone);
 ("receive_freq_2", VNone);
 ("receive_freq_3", VNone);
 ("receive_freq_4", VNone);
 ("receive_freq_5", VNone);
 ("receive_phase_ct_1", VNone);
 ("receive_phase_ct_2", VNone);
 ("receive_phase_ct_3", VNone);
 ("receive_phase_ct_4", VNone);
 ("receive_phase_ct_5", VNone);
 ("rhumidity", VNone);
 ("stec", VNone);
 ("temperature", VNone);
 ("transmit_freq_1", VNone);
 ("transmit_freq_2", VNone);
 ("transmit_freq_3", VNone);
 ("transmit_freq_4", VNone);
 ("transmit_freq_5", VNone);
 ("transmit_freq_rate_1", VNone);
 ("transmit_freq_rate_2", VNone);
 ("transmit_freq_rate_3", VNone);
 ("transmit_freq_rate_4", VNone);
 ("transmit_freq_rate_5", VNone);
 ("transmit_phase_ct_1", VNone);
 ("transmit_phase_ct_2", VNone);
 ("transmit_phase_ct_3", VNone);
 ("transmit_phase_ct_4", VNone);
 ("transmit_phase_ct_5", VNone);
 ("tropo_dry", VNone);
 ("tropo_wet", VNone);
 ("vlbi_delay", VNone)]; VObj "TrackingDataObservationType" [("epoch", VStr (lit "2007-075T15:32:27.000"));
 ("angle_1", VNone);
 ("angle_2", VNone);
 ("carrier_power", VNone);
 ("clock_bias", VNone);
 ("clock_drift", VNone);
 ("doppler_count", VNone);
 ("doppler_instantaneous", VNone);
 ("doppler_integrated", VNone);
 ("dor", VNone);
 ("mag", VNone);
 ("pc_n0", VNone);
 ("pr_n0", VNone);
 ("pressure", VNone);
 ("range", VNone);
 ("rcs", VNone);
 ("receive_freq", VDec (DFin false 62881270871162%N (-9)%Z));
 ("receive_freq_1", VNone);
 ("receive_freq_2", VNone);
 ("receive_freq_3", VNone);
 ("receive_freq_4", VNone);
 ("receive_freq_5", VNone);
 ("receive_phase_ct_1", VNone);
 ("receive_phase_ct_2", VNone);
 ("receive_phase_ct_3", VNone);
 ("receive_phase_ct_4", VNone);
 ("receive_phase_ct_5", VNone);
 ("rhumidity", VNone);
 ("stec", VNone);
 ("temperature", VNone);
 ("transmit_freq_1", VNone);
 ("transmit_freq_2", VNone);
 ("transmit_freq_3", VNone);
 ("transmit_freq_4", VNone);
 ("transmit_freq_5", VNone);
 ("transmit_freq_rate_1", VNone);
 ("transmit_freq_rate_2", VNone);
 ("transmit_freq_rate_3", VNone);
 ("transmit_freq_rate_4", VNone);
 ("transmit_freq_rate_5", VNone);
 ("transmit_phase_ct_1", VNone);
 ("transmit_phase_ct_2", VNone);
 ("transmit_phase_ct_3", VNone);
 ("transmit_phase_ct_4", VNone);
 ("transmit_phase_ct_5", VNone);
 ("tropo_dry", VNone);
 ("tropo_wet", VNone);
 ("vlbi_delay", VNone)]; VObj "TrackingDataObservationType" [("epoch", VStr (lit "2007-075T15:33:27.000"));
 ("angle_1", VNone);
 ("angle_2", VNone);
 ("carrier_power", VNone);
 ("clock_bias", VNone);
 ("clock_drift", VNone);
 ("doppler_count", VNone);
 ("doppler_instantaneous", VNone);
 ("doppler_integrated", VNone);
 ("dor", VNone);
 ("mag", VNone);
 ("pc_n0", VNone);
 ("pr_n0", VNone);
 ("pressure", VNone);
 ("range", VNone);
 ("rcs", VNone);
 ("receive_freq", VDec (DFin false 62810539628983%N (-9)%Z));
 ("receive_freq_1", VNone);
 ("receive_freq_2", VNone);
 ("receive_freq_3", VNone);
 ("receive_freq_4", VNone);
 ("receive_freq_5", VNone);
 ("receive_phase_ct_1", VNone);
 ("receive_phase_ct_2", VNone);
 ("receive_phase_ct_3", VNone);
 ("receive_phase_ct_4", VNone);
 ("receive_phase_ct_5", VNone);
 ("rhumidity", VNone);
 ("stec", VNone);
 ("temperature", VNone);
 ("transmit_freq_1", VNone);
 ("transmit_freq_2", VNone);
 ("transmit_freq_3", VNone);
 ("transmit_freq_4", VNone);
 ("transmit_freq_5", VNone);
 ("transmit_freq_rate_1", VNone);
 ("transmit_freq_rate_2", VNone);
 ("transmit_freq_rate_3", VNone);
 ("transmit_freq_rate_4", VNone);
 ("transmit_freq_rate_5", VNone);
 ("transmit_phase_ct_1", VNone);
 ("transmit_phase_ct_2", VNone);
 ("transmit_phase_ct_3", VNone);
 ("transmit_phase_ct_4", VNone);
 ("transmit_phase_ct_5", VNone);
 ("tropo_dry", VNone);
 ("tropo_wet", VNone);
 ("vlbi_delay", VNone)]; VObj "TrackingDataObservationType" [("epoch", VStr (lit "2007-075T15:34:27.000"));
 ("angle_1", VNone);
 ("angle_2", VNone);
 ("carrier_power", VNone);
 ("clock_bias", VNone);
 ("clock_drift", VNone);
 ("doppler_count", VNone);
 ("doppler_instantaneous", VNone);
 ("doppler_integrated", VNone);
 ("dor", VNone);
 ("mag", VNone);
 ("pc_n0", VNone);
 ("pr_n0", VNone);
 ("pressure", VNone);
 ("range", VNone);
 ("rcs", VNone);
 ("receive_freq", VDec (DFin false 62739625454903%N (-9)%Z));
 ("receive_freq_1", VNone);
 ("receive_freq_2", VNone);
 ("receive_freq_3", VNone);
 ("receive_freq_4", VNone);
 ("receive_freq_5", VNone);
 ("receive_phase_ct_1", VNone);
 ("receive_phase_ct_2", VNone);
 ("receive_phase_ct_3", VNone);
 ("receive_phase_ct_4", VNone);
 ("receive_phase_ct_5", VNone);
 ("rhumidity", VNone);
 ("stec", VNone);
 ("temperature", VNone);
 ("transmit_freq_1", VNone);
 ("transmit_freq_2", VNone);
 ("transmit_freq_3", VNone);
 ("transmit_freq_4", VNone);
 ("transmit_freq_5", VNone);
 ("transmit_freq_rate_1", VNone);
 ("transmit_freq_rate_2", VNone);
 ("transmit_freq_rate_3", VNone);
 ("transmit_freq_rate_4", VNone);
 ("transmit_freq_rate_5", VNone);
 ("transmit_phase_ct_1", VNone);
 ("transmit_phase_ct_2", VNone);
 ("transmit_phase_ct_3", VNone);
 ("transmit_phase_ct_4", VNone);
 ("transmit_phase_ct_5", VNone);
 ("tropo_dry", VNone);
 ("tropo_wet", VNone);
 ("vlbi_delay", VNone)]; VObj "TrackingDataObservationType" [("epoch", VStr (lit "2007-075T15:35:27.000"));
 ("angle_1", VNone);
 ("angle_2", VNone);
 ("carrier_power", VNone);
 ("clock_bias", VNone);
 ("clock_drift", VNone);
 ("doppler_count", VNone);
 ("doppler_instantaneous", VNone);
 ("doppler_integrated", VNone);
 ("dor", VNone);
 ("mag", VNone);
 ("pc_n0", VNone);
 ("pr_n0", VNone);
 ("pressure", VNone);
 ("range", VNone);
 ("rcs", VNone);
 ("receive_freq", VDec (DFin false 62668531074524%N (-9)%Z));
 ("receive_freq_1", VNone);
 ("receive_freq_2", VNone);
 ("receive_freq_3", VNone);
 ("receive_freq_4", VNone);
 ("receive_freq_5", VNone);
 ("receive_phase_ct_1", VNone);
 ("receive_phase_ct_2", VNone);
 ("receive_phase_ct_3", VNone);
 ("receive_phase_ct_4", VNone);
 ("receive_phase_ct_5", VNone);
 ("rhumidity", VNone);
 ("stec", VNone);
 ("temperature", VNone);
 ("transmit_freq_1", VNone);
 ("transmit_freq_2", VNone);
 ("transmit_freq_3", VNone);
 ("transmit_freq_4", VNone);
 ("transmit_freq_5", VNone);
 ("transmit_freq_rate_1", VNone);
 ("transmit_freq_rate_2", VNone);
 ("transmit_freq_rate_3", VNone);
 ("transmit_freq_rate_4", VNone);
 ("transmit_freq_rate_5", VNone);
 ("transmit_phase_ct_1", VNone);
 ("transmit_phase_ct_2", VNone);
 ("transmit_phase_ct_3", VNone);
 ("transmit_phase_ct_4", VNone);
 ("transmit_phase_ct_5", VNone);
 ("tropo_dry", VNone);
 ("tropo_wet", VNone);
 ("vlbi_delay", VNone)]; VObj "TrackingDataObservationType" [("epoch", VStr (lit "2007-075T15:36:27.000"));
 ("angle_1", VNone);
 ("angle_2", VNone);
 ("carrier_power", VNone);
 ("clock_bias", VNone);
 ("clock_drift", VNone);
 ("doppler_count", VNone);
 ("doppler_instantaneous", VNone);
 ("doppler_integrated", VNone);
 ("dor", VNone);
 ("mag", VNone);
 ("pc_n0", VNone);
 ("pr_n0", VNone);
 ("pressure", VNone);
 ("range", VNone);
 ("rcs", VNone);
 ("receive_freq", VDec (DFin false 62597258071899%N (-9)%Z));
 ("receive_freq_1", VNone);
 ("receive_freq_2", VNone);
 ("receive_freq_3", VNone);
 ("receive_freq_4", VNone);
 ("receive_freq_5", VNone);
 ("receive_phase_ct_1", VNone);
 ("receive_phase_ct_2", VNone);
 ("receive_phase_ct_3", VNone);
 ("receive_phase_ct_4", VNone);
 ("receive_phase_ct_5", VNone);
 ("rhumidity", VNone);
 ("stec", VNone);
 ("temperature", VNone);
 ("transmit_freq_1", VNone);
 ("transmit_freq_2", VNone);
 ("transmit_freq_3", VNone);
 ("transmit_freq_4", VNone);
 ("transmit_freq_5", VNone);
 ("transmit_freq_rate_1", VNone);
 ("transmit_freq_rate_2", VNone);
 ("transmit_freq_rate_3", VNone);
 ("transmit_freq_rate_4", VNone);
 ("transmit_freq_rate_5", VNone);
 ("transmit_phase_ct_1", VNone);
 ("transmit_phase_ct_2", VNone);
 ("transmit_phase_ct_3", VNone);
 ("transmit_phase_ct_4", VNone);
 ("transmit_phase_ct_5", VNone);
 ("tropo_dry", VNone);
 ("tropo_wet", VNone);
 ("vlbi_delay", VNone)]; VObj "TrackingDataObservationType" [("epoch", VStr (lit "2007-075T15:37:27.000"));
 ("angle_1", VNone);
 ("angle_2", VNone);
 ("carrier_power", VNone);
 ("clock_bias", VNone);
 ("clock_drift", VNone);
 ("doppler_count", VNone);
 ("doppler_instantaneous", VNone);
 ("doppler_integrated", VNone);
 ("dor", VNone);
 ("mag", VNone);
 ("pc_n0", VNone);
 ("pr_n0", VNone);
 ("pressure", VNone);
 ("range", VNone);
 ("rcs", VNone);
 ("receive_freq", VDec (DFin false 62525805926323%N (-9)%Z));
 ("receive_freq_1", VNone);
 ("receive_freq_2", VNone);
 ("receive_freq_3", VNone);
 ("receive_freq_4", VNone);
 ("receive_freq_5", VNone);
 ("receive_phase_ct_1", VNone);
 ("receive_phase_ct_2", VNone);
 ("receive_phase_ct_3", VNone);
 ("receive_phase_ct_4", VNone);
 ("receive_phase_ct_5", VNone);
 ("rhumidity", VNone);
 ("stec", VNone);
 ("temperature", VNone);
 ("transmit_freq_1", VNone);
 ("transmit_freq_2", VNone);
 ("transmit_freq_3", VNone);
 ("transmit_freq_4", VNone);
 ("transmit_freq_5", VNone);
 ("transmit_freq_rate_1", VNone);
 ("transmit_freq_rate_2", VNone);
 ("transmit_freq_rate_3", VNone);
 ("transmit_freq_rate_4", VNone);
 ("transmit_freq_rate_5", VNone);
 ("transmit_phase_ct_1", VNone);
 ("transmit_phase_ct_2", VNone);
 ("transmit_phase_ct_3", VNone);
 ("transmit_phase_ct_4", VNone);
 ("transmit_phase_ct_5", VNone);
 ("tropo_dry", VNone);
 ("tropo_wet", VNone);
 ("vlbi_delay", VNone)]; VObj "TrackingDataObservationType" [("epoch", VStr (lit "2007-075T15:38:27.000"));
 ("angle_1", VNone);
 ("angle_2", VNone);
 ("carrier_power", VNone);
 ("clock_bias", VNone);
 ("clock_drift", VNone);
 ("doppler_count", VNone);
 ("doppler_instantaneous", VNone);
 ("doppler_integrated", VNone);
 ("dor", VNone);
 ("mag", VNone);
 ("pc_n0", VNone);
 ("pr_n0", VNone);
 ("pressure", VNone);
 ("range", VNone);
 ("rcs", VNone);
 ("receive_freq", VDec (DFin false 62454178201675%N (-9)%Z));
 ("receive_freq_1", VNone);
 ("receive_freq_2", VNone);
 ("receive_freq_3", VNone);
 ("receive_freq_4", VNone);
 ("receive_freq_5", VNone);
 ("receive_phase_ct_1", VNone);
 ("receive_phase_ct_2", VNone);
 ("receive_phase_ct_3", VNone);
 ("receive_phase_ct_4", VNone);
 ("receive_phase_ct_5", VNone);
 ("rhumidity", VNone);
 ("stec", VNone);
 ("temperature", VNone);
 ("transmit_freq_1", VNone);
 ("transmit_freq_2", VNone);
 ("transmit_freq_3", VNone);
 ("transmit_freq_4", VNone);
 ("transmit_freq_5", VNone);
 ("transmit_freq_rate_1", VNone);
 ("transmit_freq_rate_2", VNone);
 ("transmit_freq_rate_3", VNone);
 ("transmit_freq_rate_4", VNone);
 ("transmit_freq_rate_5", VNone);
 ("transmit_phase_ct_1", VNone);
 ("transmit_phase_ct_2", VNone);
 ("transmit_phase_ct_3", VNone);
 ("transmit_phase_ct_4", VNone);
 ("transmit_phase_ct_5", VNone);
 ("tropo_dry", VNone);
 ("tropo_wet", VNone);
 ("vlbi_delay", VNone)]; VObj "TrackingDataObservationType" [("epoch", VStr (lit "2007-075T15:39:27.000"));
 ("angle_1", VNone);
 ("angle_2", VNone);
 ("carrier_power", VNone);
 ("clock_bias", VNone);
 ("clock_drift", VNone);
 ("doppler_count", VNone);
 ("doppler_instantaneous", VNone);
 ("doppler_integrated", VNone);
 ("dor", VNone);
 ("mag", VNone);
 ("pc_n0", VNone);
 ("pr_n0", VNone);
 ("pressure", VNone);
 ("range", VNone);
 ("rcs", VNone);
 ("receive_freq", VDec (DFin false 62382375440598%N (-9)%Z));
 ("receive_freq_1", VNone);
 ("receive_freq_2", VNone);
 ("receive_freq_3", VNone);
 ("receive_freq_4", VNone);
 ("receive_freq_5", VNone);
 ("receive_phase_ct_1", VNone);
 ("receive_phase_ct_2", VNone);
 ("receive_phase_ct_3", VNone);
 ("receive_phase_ct_4", VNone);
 ("receive_phase_ct_5", VNone);
 ("rhumidity", VNone);
 ("stec", VNone);
 ("temperature", VNone);
 ("transmit_freq_1", VNone);
 ("transmit_freq_2", VNone);
 ("transmit_freq_3", VNone);
 ("transmit_freq_4", VNone);
 ("transmit_freq_5", VNone);
 ("transmit_freq_rate_1", VNone);
 ("transmit_freq_rate_2", VNone);
 ("transmit_freq_rate_3", VNone);
 ("transmit_freq_rate_4", VNone);
 ("transmit_freq_rate_5", VNone);
 ("transmit_phase_ct_1", VNone);
 ("transmit_phase_ct_2", VNone);
 ("transmit_phase_ct_3", VNone);
 ("transmit_phase_ct_4", VNone);
 ("transmit_phase_ct_5", VNone);
 ("tropo_dry", VNone);
 ("tropo_wet", VNone);
 ("vlbi_delay", VNone)]; VObj "TrackingDataObservationType" [("epoch", VStr (lit "2007-075T15:40:27.000"));
 ("angle_1", VNone);
 ("angle_2", VNone);
 ("carrier_power", VNone);
 ("clock_bias", VNone);
 ("clock_drift", VNone);
 ("doppler_count", VNone);
 ("doppler_instantaneous", VNone);
 ("doppler_integrated", VNone);
 ("dor", VNone);
 ("mag", VNone);
 ("pc_n0", VNone);
 ("pr_n0", VNone);
 ("pressure", VNone);
 ("range", VNone);
 ("rcs", VNone);
 ("receive_freq", VDec (DFin false 6231039836216%N (-8)%Z));
 ("receive_freq_1", VNone);
 ("receive_freq_2", VNone);
 ("receive_freq_3", VNone);
 ("receive_freq_4", VNone);
 ("receive_freq_5", VNone);
 ("receive_phase_ct_1", VNone);
 ("receive_phase_ct_2", VNone);
 ("receive_phase_ct_3", VNone);
 ("receive_phase_ct_4", VNone);
 ("receive_phase_ct_5", VNone);
 ("rhumidity", VNone);
 ("stec", VNone);
 ("temperature", VNone);
 ("transmit_freq_1", VNone);
 ("transmit_freq_2", VNone);
 ("transmit_freq_3", VNone);
 ("transmit_freq_4", VNone);
 ("transmit_freq_5", VNone);
 ("transmit_freq_rate_1", VNone);
 ("transmit_freq_rate_2", VNone);
 ("transmit_freq_rate_3", VNone);
 ("transmit_freq_rate_4", VNone);
 ("transmit_freq_rate_5", VNone);
 ("transmit_phase_ct_1", VNone);
 ("transmit_phase_ct_2", VNone);
 ("transmit_phase_ct_3", VNone);
 ("transmit_phase_ct_4", VNone);
 ("transmit_phase_ct_5", VNone);
 ("tropo_dry", VNone);
 ("tropo_wet", VNone);
 ("vlbi_delay", VNone)]; VObj "TrackingDataObservationType" [("epoch", VStr (lit "2007-075T15:41:27.000"));
 ("angle_1", VNone);
 ("angle_2", VNone);
 ("carrier_power", VNone);
 ("clock_bias", VNone);
 ("clock_drift", VNone);
 ("doppler_count", VNone);
 ("doppler_instantaneous", VNone);
 ("doppler_integrated", VNone);
 ("dor", VNone);
 ("mag", VNone);
 ("pc_n0", VNone);
 ("pr_n0", VNone);
 ("pressure", VNone);
 ("range", VNone);
 ("rcs", VNone);
 ("receive_freq", VDec (DFin false 6223824995327%N (-8)%Z));
 ("receive_freq_1", VNone);
 ("receive_freq_2", VNone);
 ("receive_freq_3", VNone);
 ("receive_freq_4", VNone);
 ("receive_freq_5", VNone);
 ("receive_phase_ct_1", VNone);
 ("receive_phase_ct_2", VNone);
 ("receive_phase_ct_3", VNone);
 ("receive_phase_ct_4", VNone);
 ("receive_phase_ct_5", VNone);
 ("rhumidity", VNone);
 ("stec", VNone);
 ("temperature", VNone);
 ("transmit_freq_1", VNone);
 ("transmit_freq_2", VNone);
 ("transmit_freq_3", VNone);
 ("transmit_freq_4", VNone);
 ("transmit_freq_5", VNone);
 ("transmit_freq_rate_1", VNone);
 ("transmit_freq_rate_2", VNone);
 ("transmit_freq_rate_3", VNone);
 ("transmit_freq_rate_4", VNone);
 ("transmit_freq_rate_5", VNone);
 ("transmit_phase_ct_1", VNone);
 ("transmit_phase_ct_2", VNone);
 ("transmit_phase_ct_3", VNone);
 ("transmit_phase_ct_4", VNone);
 ("transmit_phase_ct_5", VNone);
 ("tropo_dry", VNone);
 ("tropo_wet", VNone);
 ("vlbi_delay", VNone)]; VObj "TrackingDataObservationType" [("epoch", VStr (lit "2007-075T15:42:27.000"));
 ("angle_1", VNone);
 ("angle_2", VNone);
 ("carrier_power", VNone);
 ("clock_bias", VNone);
 ("clock_drift", VNone);
 ("doppler_count", VNone);
 ("doppler_instantaneous", VNone);
 ("doppler_integrated", VNone);
 ("dor", VNone);
 ("mag", VNone);
 ("pc_n0", VNone);
 ("pr_n0", VNone);
 ("pressure", VNone);
 ("range", VNone);
 ("rcs", VNone);
 ("receive_freq", VDec (DFin false 62165931548119%N (-9)%Z));
 ("receive_freq_1", VNone);
 ("receive_freq_2", VNone);
 ("receive_freq_3", VNone);
 ("receive_freq_4", VNone);
 ("receive_freq_5", VNone);
 ("receive_phase_ct_1", VNone);
 ("receive_phase_ct_2", VNone);
 ("receive_phase_ct_3", VNone);
 ("receive_phase_ct_4", VNone);
 ("receive_phase_ct_5", VNone);
 ("rhumidity", VNone);
 ("stec", VNone);
 ("temperature", VNone);
 ("transmit_freq_1", VNone);
 ("transmit_freq_2", VNone);
 ("transmit_freq_3", VNone);
 ("transmit_freq_4", VNone);
 ("transmit_freq_5", VNone);
 ("transmit_freq_rate_1", VNone);
 ("transmit_freq_rate_2", VNone);
 ("transmit_freq_rate_3", VNone);
 ("transmit_freq_rate_4", VNone);
 ("transmit_freq_rate_5", VNone);
 ("transmit_phase_ct_1", VNone);
 ("transmit_phase_ct_2", VNone);
 ("transmit_phase_ct_3", VNone);
 ("transmit_phase_ct_4", VNone);
 ("transmit_phase_ct_5", VNone);
 ("tropo_dry", VNone);
 ("tropo_wet", VNone);
 ("vlbi_delay", VNone)]; VObj "TrackingDataObservationType" [("epoch", VStr (lit "2007-075T15:43:27.000"));
 ("angle_1", VNone);
 ("angle_2", VNone);
 ("carrier_power", VNone);
 ("clock_bias", VNone);
 ("clock_drift", VNone);
 ("doppler_count", VNone);
 ("doppler_instantaneous", VNone);
 ("doppler_integrated", VNone);
 ("dor", VNone);
 ("mag", VNone);
 ("pc_n0", VNone);
 ("pr_n0", VNone);
 ("pressure", VNone);
 ("range", VNone);
 ("rcs", VNone);
 ("receive_freq", VDec (DFin false 62093443515778%N (-9)%Z));
 ("receive_freq_1", VNone);
 ("receive_freq_2", VNone);
 ("receive_freq_3", VNone);
 ("receive_freq_4", VNone);
 ("receive_freq_5", VNone);
 ("receive_phase_ct_1", VNone);
 ("receive_phase_ct_2", VNone);
 ("receive_phase_ct_3", VNone);
 ("receive_phase_ct_4", VNone);
 ("receive_phase_ct_5", VNone);
 ("rhumidity", VNone);
 ("stec", VNone);
 ("temperature", VNone);
 ("transmit_freq_1", VNone);
 ("transmit_freq_2", VNone);
 ("transmit_freq_3", VNone);
 ("transmit_freq_4", VNone);
 ("transmit_freq_5", VNone);
 ("transmit_freq_rate_1", VNone);
 ("transmit_freq_rate_2", VNone);
 ("transmit_freq_rate_3", VNone);
 ("transmit_freq_rate_4", VNone);
 ("transmit_freq_rate_5", VNone);
 ("transmit_phase_ct_1", VNone);
 ("transmit_phase_ct_2", VNone);
 ("transmit_phase_ct_3", VNone);
 ("transmit_phase_ct_4", VNone);
 ("transmit_phase_ct_5", VNone);
 ("tropo_dry", VNone);
 ("tropo_wet", VNone);
 ("vlbi_delay", VNone)]; VObj "TrackingDataObservationType" [("epoch", VStr (lit "2007-075T15:44:27.000"));
 ("angle_1", VNone);
 ("angle_2", VNone);
 ("carrier_power", VNone);
 ("clock_bias", VNone);
 ("clock_drift", VNone);
 ("doppler_count", VNone);
 ("doppler_instantaneous", VNone);
 ("doppler_integrated", VNone);
 ("dor", VNone);
 ("mag", VNone);
 ("pc_n0", VNone);
 ("pr_n0", VNone);
 ("pressure", VNone);
 ("range", VNone);
 ("rcs", VNone);
 ("receive_freq", VDec (DFin false 62020788931847%N (-9)%Z));
 ("receive_freq_1", VNone);
 ("receive_freq_2", VNone);
 ("receive_freq_3", VNone);
 ("receive_freq_4", VNone);
 ("receive_freq_5", VNone);
 ("receive_phase_ct_1", VNone);
 ("receive_phase_ct_2", VNone);
 ("receive_phase_ct_3", VNone);
 ("receive_phase_ct_4", VNone);
 ("receive_phase_ct_5", VNone);
 ("rhumidity", VNone);
 ("stec", VNone);
 ("temperature", VNone);
 ("transmit_freq_1", VNone);
 ("transmit_freq_2", VNone);
 ("transmit_freq_3", VNone);
 ("transmit_freq_4", VNone);
 ("transmit_freq_5", VNone);
 ("transmit_freq_rate_1", VNone);
 ("transmit_freq_rate_2", VNone);
 ("transmit_freq_rate_3", VNone);
 ("transmit_freq_rate_4", VNone);
 ("transmit_freq_rate_5", VNone);
 ("transmit_phase_ct_1", VNone);
 ("transmit_phase_ct_2", VNone);
 ("transmit_phase_ct_3", VNone);
 ("transmit_phase_ct_4", VNone);
 ("transmit_phase_ct_5", VNone);
 ("tropo_dry", VNone);
 ("tropo_wet", VNone);
 ("vlbi_delay", VNone)]; VObj "TrackingDataObservationType" [("epoch", VStr (lit "2007-075T15:45:27.000"));
 ("angle_1", VNone);
 ("angle_2", VNone);
 ("carrier_power", VNone);
 ("clock_bias", VNone);
 ("clock_drift", VNone);
 ("doppler_count", VNone);
 ("doppler_instantaneous", VNone);
 ("doppler_integrated", VNone);
 ("dor", VNone);
 ("mag", VNone);
 ("pc_n0", VNone);
 ("pr_n0", VNone);
 ("pressure", VNone);
 ("range", VNone);
 ("rcs", VNone);
 ("receive_freq", VDec (DFin false 61947967720032%N (-9)%Z));
 ("receive_freq_1", VNone);
 ("receive_freq_2", VNone);
 ("receive_freq_3", VNone);
 ("receive_freq_4", VNone);
 ("receive_freq_5", VNone);
 ("receive_phase_ct_1", VNone);
 ("receive_phase_ct_2", VNone);
 ("receive_phase_ct_3", VNone);
 ("receive_phase_ct_4", VNone);
 ("receive_phase_ct_5", VNone);
 ("rhumidity", VNone);
 ("stec", VNone);
 ("temperature", VNone);
 ("transmit_freq_1", VNone);
 ("transmit_freq_2", VNone);
 ("transmit_freq_3", VNone);
 ("transmit_freq_4", VNone);
 ("transmit_freq_5", VNone);
 ("transmit_freq_rate_1", VNone);
 ("transmit_freq_rate_2", VNone);
 ("transmit_freq_rate_3", VNone);
 ("transmit_freq_rate_4", VNone);
 ("transmit_freq_rate_5", VNone);
 ("transmit_phase_ct_1", VNone);
 ("transmit_phase_ct_2", VNone);
 ("transmit_phase_ct_3", VNone);
 ("transmit_phase_ct_4", VNone);
 ("transmit_phase_ct_5", VNone);
 ("tropo_dry", VNone);
 ("tropo_wet", VNone);
 ("vlbi_delay", VNone)]; VObj "TrackingDataObservationType" [("epoch", VStr (lit "2007-075T15:46:27.000"));
 ("angle_1", VNone);
 ("angle_2", VNone);
 ("carrier_power", VNone);
 ("clock_bias", VNone);
 ("clock_drift", VNone);
 ("doppler_count", VNone);
 ("doppler_instantaneous", VNone);
 ("doppler_integrated", VNone);
 ("dor", VNone);
 ("mag", VNone);
 ("pc_n0", VNone);
 ("pr_n0", VNone);
 ("pressure", VNone);
 ("range", VNone);
 ("rcs", VNone);
 ("receive_freq", VDec (DFin false 61874981918335%N (-9)%Z));
 ("receive_freq_1", VNone);
 ("receive_freq_2", VNone);
 ("receive_freq_3", VNone);
 ("receive_freq_4", VNone);
 ("receive_freq_5", VNone);
 ("receive_phase_ct_1", VNone);
 ("receive_phase_ct_2", VNone);
 ("receive_phase_ct_3", VNone);
 ("receive_phase_ct_4", VNone);
 ("receive_phase_ct_5", VNone);
 ("rhumidity", VNone);
 ("stec", VNone);
 ("temperature", VNone);
 ("transmit_freq_1", VNone);
 ("transmit_freq_2", VNone);
 ("transmit_freq_3", VNone);
 ("transmit_freq_4", VNone);
 ("transmit_freq_5", VNone);
 ("transmit_freq_rate_1", VNone);
 ("transmit_freq_rate_2", VNone);
 ("transmit_freq_rate_3", VNone);
 ("transmit_freq_rate_4", VNone);
 ("transmit_freq_rate_5", VNone);
 ("transmit_phase_ct_1", VNone);
 ("transmit_phase_ct_2", VNone);
 ("transmit_phase_ct_3", VNone);
 ("transmit_phase_ct_4", VNone);
 ("transmit_phase_ct_5", VNone);
 ("tropo_dry", VNone);
 ("tropo_wet", VNone);
 ("vlbi_delay", VNone)]; VObj "TrackingDataObservationType" [("epoch", VStr (lit "2007-075T15:47:27.000"));
 ("angle_1", VNone);
 ("angle_2", VNone);
 ("carrier_power", VNone);
 ("clock_bias", VNone);
 ("clock_drift", VNone);
 ("doppler_count", VNone);
 ("doppler_instantaneous", VNone);
 ("doppler_integrated", VNone);
 ("dor", VNone);
 ("mag", VNone);
 ("pc_n0", VNone);
 ("pr_n0", VNone);
 ("pressure", VNone);
 ("range", VNone);
 ("rcs", VNone);
 ("receive_freq", VDec (DFin false 61801834079742%N (-9)%Z));
 ("receive_freq_1", VNone);
 ("receive_freq_2", VNone);
 ("receive_freq_3", VNone);
 ("receive_freq_4", VNone);
 ("receive_freq_5", VNone);
 ("receive_phase_ct_1", VNone);
 ("receive_phase_ct_2", VNone);
 ("receive_phase_ct_3", VNone);
 ("receive_phase_ct_4", VNone);
 ("receive_phase_ct_5", VNone);
 ("rhumidity", VNone);
 ("stec", VNone);
 ("temperature", VNone);
 ("transmit_freq_1", VNone);
 ("transmit_freq_2", VNone);
 ("transmit_freq_3", VNone);
 ("transmit_freq_4", VNone);
 ("transmit_freq_5", VNone);
 ("transmit_freq_rate_1", VNone);
 ("transmit_freq_rate_2", VNone);
 ("transmit_freq_rate_3", VNone);
 ("transmit_freq_rate_4", VNone);
 ("transmit_freq_rate_5", VNone);
 ("transmit_phase_ct_1", VNone);
 ("transmit_phase_ct_2", VNone);
 ("transmit_phase_ct_3", VNone);
 ("transmit_phase_ct_4", VNone);
 ("transmit_phase_ct_5", VNone);
 ("tropo_dry", VNone);
 ("tropo_wet", VNone);
 ("vlbi_delay", VNone)]; VObj "TrackingDataObservationType" [("epoch", VStr (lit "2007-075T15:48:27.000"));
 ("angle_1", VNone);
 ("angle_2", VNone);
 ("carrier_power", VNone);
 ("clock_bias", VNone);
 ("clock_drift", VNone);
 ("doppler_count", VNone);
 ("doppler_instantaneous", VNone);
 ("doppler_integrated", VNone);
 ("dor", VNone);
 ("mag", VNone);
 ("pc_n0", VNone);
 ("pr_n0", VNone);
 ("pressure", VNone);
 ("range", VNone);
 ("rcs", VNone);
 ("receive_freq", VDec (DFin false 61728526369095%N (-9)%Z));
 ("receive_freq_1", VNone);
 ("receive_freq_2", VNone);
 ("receive_freq_3", VNone);
 ("receive_freq_4", VNone);
 ("receive_freq_5", VNone);
 ("receive_phase_ct_1", VNone);
 ("receive_phase_ct_2", VNone);
 ("receive_phase_ct_3", VNone);
 ("receive_phase_ct_4", VNone);
 ("receive_phase_ct_5", VNone);
 ("rhumidity", VNone);
 ("stec", VNone);
 ("temperature", VNone);
 ("transmit_freq_1", VNone);
 ("transmit_freq_2", VNone);
 ("transmit_freq_3", VNone);
 ("transmit_freq_4", VNone);
 ("transmit_freq_5", VNone);
 ("transmit_freq_rate_1", VNone);
 ("transmit_freq_rate_2", VNone);
 ("transmit_freq_rate_3", VNone);
 ("transmit_freq_rate_4", VNone);
 ("transmit_freq_rate_5", VNone);
 ("transmit_phase_ct_1", VNone);
 ("transmit_phase_ct_2", VNone);
 ("transmit_phase_ct_3", VNone);
 ("transmit_phase_ct_4", VNone);
 ("transmit_phase_ct_5", VNone);
 ("tropo_dry", VNone);
 ("tropo_wet", VNone);
 ("vlbi_delay", VNone)]; VObj "TrackingDataObservationType" [("epoch", VStr (lit "2007-075T15:49:27.000"));
 ("angle_1", VNone);
 ("angle_2", VNone);
 ("carrier_power", VNone);
 ("clock_bias", VNone);
 ("clock_drift", VNone);
 ("doppler_count", VNone);
 ("doppler_instantaneous", VNone);
 ("doppler_integrated", VNone);
 ("dor", VNone);
 ("mag", VNone);
 ("pc_n0", VNone);
 ("pr_n0", VNone);
 ("pressure", VNone);
 ("range", VNone);
 ("rcs", VNone);
 ("receive_freq", VDec (DFin false 61655056928635%N (-9)%Z));
 ("receive_freq_1", VNone);
 ("receive_freq_2", VNone);
 ("receive_freq_3", VNone);
 ("receive_freq_4", VNone);
 ("receive_freq_5", VNone);
 ("receive_phase_ct_1", VNone);
 ("receive_phase_ct_2", VNone);
 ("receive_phase_ct_3", VNone);
 ("receive_phase_ct_4", VNone);
 ("receive_phase_ct_5", VNone);
 ("rhumidity", VNone);
 ("stec", VNone);
 ("temperature", VNone);
 ("transmit_freq_1", VNone);
 ("transmit_freq_2", VNone);
 ("transmit_freq_3", VNone);
 ("transmit_freq_4", VNone);
 ("transmit_freq_5", VNone);
 ("transmit_freq_rate_1", VNone);
 ("transmit_freq_rate_2", VNone);
 ("transmit_freq_rate_3", VNone);
 ("transmit_freq_rate_4", VNone);
 ("transmit_freq_rate_5", VNone);
 ("transmit_phase_ct_1", VNone);
 ("transmit_phase_ct_2", VNone);
 ("transmit_phase_ct_3", VNone);
 ("transmit_phase_ct_4", VNone);
 ("transmit_phase_ct_5", VNone);
 ("tropo_dry", VNone);
 ("tropo_wet", VNone);
 ("vlbi_delay", VNone)]; VObj "TrackingDataObservationType" [("epoch", VStr (lit "2007-075T15:50:27.000"));
 ("angle_1", VNone);
 ("angle_2", VNone);
 ("carrier_power", VNone);
 ("clock_bias", VNone);
 ("clock_drift", VNone);
 ("doppler_count", VNone);
 ("doppler_instantaneous", VNone);
 ("doppler_integrated", VNone);
 ("dor", VNone);
 ("mag", VNone);
 ("pc_n0", VNone);
 ("pr_n0", VNone);
 ("pressure", VNone);
 ("range", VNone);
 ("rcs", VNone);
 ("receive_freq", VDec (DFin false 61581429994583%N (-9)%Z));
 ("receive_freq_1", VNone);
 ("receive_freq_2", VNone);
 ("receive_freq_3", VNone);
 ("receive_freq_4", VNone);
 ("receive_freq_5", VNone);
 ("receive_phase_ct_1", VNone);
 ("receive_phase_ct_2", VNone);
 ("receive_phase_ct_3", VNone);
 ("receive_phase_ct_4", VNone);
 ("receive_phase_ct_5", VNone);
 ("rhumidity", VNone);
 ("stec", VNone);
 ("temperature", VNone);
 ("transmit_freq_1", VNone);
 ("transmit_freq_2", VNone);
 ("transmit_freq_3", VNone);
 ("transmit_freq_4", VNone);
 ("transmit_freq_5", VNone);
 ("transmit_freq_rate_1", VNone);
 ("transmit_freq_rate_2", VNone);
 ("transmit_freq_rate_3", VNone);
 ("transmit_freq_rate_4", VNone);
 ("transmit_freq_rate_5", VNone);
 ("transmit_phase_ct_1", VNone);
 ("transmit_phase_ct_2", VNone);
 ("transmit_phase_ct_3", VNone);
 ("transmit_phase_ct_4", VNone);
 ("transmit_phase_ct_5", VNone);
 ("tropo_dry", VNone);
 ("tropo_wet", VNone);
 ("vlbi_delay", VNone)]; VObj "TrackingDataObservationType" [("epoch", VStr (lit "2007-075T15:51:27.000"));
 ("angle_1", VNone);
 ("angle_2", VNone);
 ("carrier_power", VNone);
 ("clock_bias", VNone);
 ("clock_drift", VNone);
 ("doppler_count", VNone);
 ("doppler_instantaneous", VNone);
 ("doppler_integrated", VNone);
 ("dor", VNone);
 ("mag", VNone);
 ("pc_n0", VNone);
 ("pr_n0", VNone);
 ("pressure", VNone);
 ("range", VNone);
 ("rcs", VNone);
 ("receive_freq", VDec (DFin false 61507645316123%N (-9)%Z));
 ("receive_freq_1", VNone);
 ("receive_freq_2", VNone);
 ("receive_freq_3", VNone);
 ("receive_freq_4", VNone);
 ("receive_freq_5", VNone);
 ("receive_phase_ct_1", VNone);
 ("receive_phase_ct_2", VNone);
 ("receive_phase_ct_3", VNone);
 ("receive_phase_ct_4", VNone);
 ("receive_phase_ct_5", VNone);
 ("rhumidity", VNone);
 ("stec", VNone);
 ("temperature", VNone);
 ("transmit_freq_1", VNone);
 ("transmit_freq_2", VNone);
 ("transmit_freq_3", VNone);
 ("transmit_freq_4", VNone);
 ("transmit_freq_5", VNone);
 ("transmit_freq_rate_1", VNone);
 ("transmit_freq_rate_2", VNone);
 ("transmit_freq_rate_3", VNone);
 ("transmit_freq_rate_4", VNone);
 ("transmit_freq_rate_5", VNone);
 ("transmit_phase_ct_1", VNone);
 ("transmit_phase_ct_2", VNone);
 ("transmit_phase_ct_3", VNone);
 ("transmit_phase_ct_4", VNone);
 ("transmit_phase_ct_5", VNone);
 ("tropo_dry", VNone);
 ("tropo_wet", VNone);
 ("vlbi_delay", VNone)]; VObj "TrackingDataObservationType" [("epoch", VStr (lit "2007-075T15:52:27.000"));
 ("angle_1", VNone);
 ("angle_2", VNone);
 ("carrier_power", VNone);
 ("clock_bias", VNone);
 ("clock_drift", VNone);
 ("doppler_count", VNone);
 ("doppler_instantaneous", VNone);
 ("doppler_integrated", VNone);
 ("dor", VNone);
 ("mag", VNone);
 ("pc_n0", VNone);
 ("pr_n0", VNone);
 ("pressure", VNone);
 ("range", VNone);
 ("rcs", VNone);
 ("receive_freq", VDec (DFin false 61433705576896%N (-9)%Z));
 ("receive_freq_1", VNone);
 ("receive_freq_2", VNone);
 ("receive_freq_3", VNone);
 ("receive_freq_4", VNone);
 ("receive_freq_5", VNone);
 ("receive_phase_ct_1", VNone);
 ("receive_phase_ct_2", VNone);
 ("receive_phase_ct_3", VNone);
 ("receive_phase_ct_4", VNone);
 ("receive_phase_ct_5", VNone);
 ("rhumidity", VNone);
 ("stec", VNone);
 ("temperature", VNone);
 ("transmit_freq_1", VNone);
 ("transmit_freq_2", VNone);
 ("transmit_freq_3", VNone);
 ("transmit_freq_4", VNone);
 ("transmit_freq_5", VNone);
 ("transmit_freq_rate_1", VNone);
 ("transmit_freq_rate_2", VNone);
 ("transmit_freq_rate_3", VNone);
 ("transmit_freq_rate_4", VNone);
 ("transmit_freq_rate_5", VNone);
 ("transmit_phase_ct_1", VNone);
 ("transmit_phase_ct_2", VNone);
 ("transmit_phase_ct_3", VNone);
 ("transmit_phase_ct_4", VNone);
 ("transmit_phase_ct_5", VNone);
 ("tropo_dry", VNone);
 ("tropo_wet", VNone);
 ("vlbi_delay", VNone)]; VObj "TrackingDataObservationType" [("epoch", VStr (lit "2007-075T15:53:27.000"));
 ("angle_1", VNone);
 ("angle_2", VNone);
 ("carrier_power", VNone);
 ("clock_bias", VNone);
 ("clock_drift", VNone);
 ("doppler_count", VNone);
 ("doppler_instantaneous", VNone);
 ("doppler_integrated", VNone);
 ("dor", VNone);
 ("mag", VNone);
 ("pc_n0", VNone);
 ("pr_n0", VNone);
 ("pressure", VNone);
 ("range", VNone);
 ("rcs", VNone);
 ("receive_freq", VDec (DFin false 61359613296508%N (-9)%Z));
 ("receive_freq_1", VNone);
 ("receive_freq_2", VNone);
 ("receive_freq_3", VNone);
 ("receive_freq_4", VNone);
 ("receive_freq_5", VNone);
 ("receive_phase_ct_1", VNone);
 ("receive_phase_ct_2", VNone);
 ("receive_phase_ct_3", VNone);
 ("receive_phase_ct_4", VNone);
 ("receive_phase_ct_5", VNone);
 ("rhumidity", VNone);
 ("stec", VNone);
 ("temperature", VNone);
 ("transmit_freq_1", VNone);
 ("transmit_freq_2", VNone);
 ("transmit_freq_3", VNone);
 ("transmit_freq_4", VNone);
 ("transmit_freq_5", VNone);
 ("transmit_freq_rate_1", VNone);
 ("transmit_freq_rate_2", VNone);
 ("transmit_freq_rate_3", VNone);
 ("transmit_freq_rate_4", VNone);
 ("transmit_freq_rate_5", VNone);
 ("transmit_phase_ct_1", VNone);
 ("transmit_phase_ct_2", VNone);
 ("transmit_phase_ct_3", VNone);
 ("transmit_phase_ct_4", VNone);
 ("transmit_phase_ct_5", VNone);
 ("tropo_dry", VNone);
 ("tropo_wet", VNone);
 ("vlbi_delay", VNone)]; VObj "TrackingDataObservationType" [("epoch", VStr (lit "2007-075T15:54:27.000"));
 ("angle_1", VNone);
 ("angle_2", VNone);
 ("carrier_power", VNone);
 ("clock_bias", VNone);
 ("clock_drift", VNone);
 ("doppler_count", VNone);
 ("doppler_instantaneous", VNone);
 ("doppler_integrated", VNone);
 ("dor", VNone);
 ("mag", VNone);
 ("pc_n0", VNone);
 ("pr_n0", VNone);
 ("pressure", VNone);
 ("range", VNone);
 ("rcs", VNone);
 ("receive_freq", VDec (DFin false 61285367755889%N (-9)%Z));
 ("receive_freq_1", VNone);
 ("receive_freq_2", VNone);
 ("receive_freq_3", VNone);
 ("receive_freq_4", VNone);
 ("receive_freq_5", VNone);
 ("receive_phase_ct_1", VNone);
 ("receive_phase_ct_2", VNone);
 ("receive_phase_ct_3", VNone);
 ("receive_phase_ct_4", VNone);
 ("receive_phase_ct_5", VNone);
 ("rhumidity", VNone);
 ("stec", VNone);
 ("temperature", VNone);
 ("transmit_freq_1", VNone);
 ("transmit_freq_2", VNone);
 ("transmit_freq_3", VNone);
 ("transmit_freq_4", VNone);
 ("transmit_freq_5", VNone);
 ("transmit_freq_rate_1", VNone);
 ("transmit_freq_rate_2", VNone);
 ("transmit_freq_rate_3", VNone);
 ("transmit_freq_rate_4", VNone);
 ("transmit_freq_rate_5", VNone);
 ("transmit_phase_ct_1", VNone);
 ("transmit_phase_ct_2", VNone);
 ("transmit_phase_ct_3", VNone);
 ("transmit_phase_ct_4", VNone);
 ("transmit_phase_ct_5", VNone);
 ("tropo_dry", VNone);
 ("tropo_wet", VNone);
 ("vlbi_delay", VNone)]; VObj "TrackingDataObservationType" [("epoch", VStr (lit "2007-075T15:55:27.000"));
 ("angle_1", VNone);
 ("angle_2", VNone);
 ("carrier_power", VNone);
 ("clock_bias", VNone);
 ("clock_drift", VNone);
 ("doppler_count", VNone);
 ("doppler_instantaneous", VNone);
 ("doppler_integrated", VNone);
 ("dor", VNone);
 ("mag", VNone);
 ("pc_n0", VNone);
 ("pr_n0", VNone);
 ("pressure", VNone);
 ("range", VNone);
 ("rcs", VNone);
 ("receive_freq", VDec (DFin false 61210972376822%N (-9)%Z));
 ("receive_freq_1", VNone);
 ("receive_freq_2", VNone);
 ("receive_freq_3", VNone);
 ("receive_freq_4", VNone);
 ("receive_freq_5", VNone);
 ("receive_phase_ct_1", VNone);
 ("receive_phase_ct_2", VNone);
 ("receive_phase_ct_3", VNone);
 ("receive_phase_ct_4", VNone);
 ("receive_phase_ct_5", VNone);
 ("rhumidity", VNone);
 ("stec", VNone);
 ("temperature", VNone);
 ("transmit_freq_1", VNone);
 ("transmit_freq_2", VNone);
 ("transmit_freq_3", VNone);
 ("transmit_freq_4", VNone);
 ("transmit_freq_5", VNone);
 ("transmit_freq_rate_1", VNone);
 ("transmit_freq_rate_2", VNone);
 ("transmit_freq_rate_3", VNone);
 ("transmit_freq_rate_4", VNone);
 ("transmit_freq_rate_5", VNone);
 ("transmit_phase_ct_1", VNone);
 ("transmit_phase_ct_2", VNone);
 ("transmit_phase_ct_3", VNone);
 ("transmit_phase_ct_4", VNone);
 ("transmit_phase_ct_5", VNone);
 ("tropo_dry", VNone);
 ("tropo_wet", VNone);
 ("vlbi_delay", VNone)]; VObj "TrackingDataObservationType" [("epoch", VStr (lit "2007-075T15:56:27.000"));
 ("angle_1", VNone);
 ("angle_2", VNone);
 ("carrier_power", VNone);
 ("clock_bias", VNone);
 ("clock_drift", VNone);
 ("doppler_count", VNone);
 ("doppler_instantaneous", VNone);
 ("doppler_integrated", VNone);
 ("dor", VNone);
 ("mag", VNone);
 ("pc_n0", VNone);
 ("pr_n0", VNone);
 ("pressure", VNone);
 ("range", VNone);
 ("rcs", VNone);
 ("receive_freq", VDec (DFin false 6113642734146%N (-8)%Z));
 ("receive_freq_1", VNone);
 ("receive_freq_2", VNone);
 ("receive_freq_3", VNone);
 ("receive_freq_4", VNone);
 ("receive_freq_5", VNone);
 ("receive_phase_ct_1", VNone);
 ("receive_phase_ct_2", VNone);
 ("receive_phase_ct_3", VNone);
 ("receive_phase_ct_4", VNone);
 ("receive_phase_ct_5", VNone);
 ("rhumidity", VNone);
 ("stec", VNone);
 ("temperature", VNone);
 ("transmit_freq_1", VNone);
 ("transmit_freq_2", VNone);
 ("transmit_freq_3", VNone);
 ("transmit_freq_4", VNone);
 ("transmit_freq_5", VNone);
 ("transmit_freq_rate_1", VNone);
 ("transmit_freq_rate_2", VNone);
 ("transmit_freq_rate_3", VNone);
 ("transmit_freq_rate_4", VNone);
 ("transmit_freq_rate_5", VNone);
 ("transmit_phase_ct_1", VNone);
 ("transmit_phase_ct_2", VNone);
 ("transmit_phase_ct_3", VNone);
 ("transmit_phase_ct_4", VNone);
 ("transmit_phase_ct_5", VNone);
 ("tropo_dry", VNone);
 ("tropo_wet", VNone);
 ("vlbi_delay", VNone)]; VObj "TrackingDataObservationType" [("epoch", VStr (lit "2007-075T15:57:27.000"));
 ("angle_1", VNone);
 ("angle_2", VNone);
 ("carrier_power", VNone);
 ("clock_bias", VNone);
 ("clock_drift", VNone);
 ("doppler_count", VNone);
 ("doppler_instantaneous", VNone);
 ("doppler_integrated", VNone);
 ("dor", VNone);
 ("mag", VNone);
 ("pc_n0", VNone);
 ("pr_n0", VNone);
 ("pressure", VNone);
 ("range", VNone);
 ("rcs", VNone);
 ("receive_freq", VDec (DFin false 61061735322951%N (-9)%Z));
 ("receive_freq_1", VNone);
 ("receive_freq_2", VNone);
 ("receive_freq_3", VNone);
 ("receive_freq_4", VNone);
 ("receive_freq_5", VNone);
 ("receive_phase_ct_1", VNone);
 ("receive_phase_ct_2", VNone);
 ("receive_phase_ct_3", VNone);
 ("receive_phase_ct_4", VNone);
 ("receive_phase_ct_5", VNone);
 ("rhumidity", VNone);
 ("stec", VNone);
 ("temperature", VNone);
 ("transmit_freq_1", VNone);
 ("transmit_freq_2", VNone);
 ("transmit_freq_3", VNone);
 ("transmit_freq_4", VNone);
 ("transmit_freq_5", VNone);
 ("transmit_freq_rate_1", VNone);
 ("transmit_freq_rate_2", VNone);
 ("transmit_freq_rate_3", VNone);
 ("transmit_freq_rate_4", VNone);
 ("transmit_freq_rate_5", VNone);
 ("transmit_phase_ct_1", VNone);
 ("transmit_phase_ct_2", VNone);
 ("transmit_phase_ct_3", VNone);
 ("transmit_phase_ct_4", VNone);
 ("transmit_phase_ct_5", VNone);
 ("tropo_dry", VNone);
 ("tropo_wet", VNone);
 ("vlbi_delay", VNone)]; VObj "TrackingDataObservationType" [("epoch", VStr (lit "2007-075T15:58:27.000"));
 ("angle_1", VNone);
 ("angle_2", VNone);
 ("carrier_power", VNone);
 ("clock_bias", VNone);
 ("clock_drift", VNone);
 ("doppler_count", VNone);
 ("doppler_instantaneous", VNone);
 ("doppler_integrated", VNone);
 ("dor", VNone);
 ("mag", VNone);
 ("pc_n0", VNone);
 ("pr_n0", VNone);
 ("pressure", VNone);
 ("range", VNone);
 ("rcs", VNone);
 ("receive_freq", VDec (DFin false 60986897679328%N (-9)%Z));
 ("receive_freq_1", VNone);
 ("receive_freq_2", VNone);
 ("receive_freq_3", VNone);
 ("receive_freq_4", VNone);
 ("receive_freq_5", VNone);
 ("receive_phase_ct_1", VNone);
 ("receive_phase_ct_2", VNone);
 ("receive_phase_ct_3", VNone);
 ("receive_phase_ct_4", VNone);
 ("receive_phase_ct_5", VNone);
 ("rhumidity", VNone);
 ("stec", VNone);
 ("temperature", VNone);
 ("transmit_freq_1", VNone);
 ("transmit_freq_2", VNone);
 ("transmit_freq_3", VNone);
 ("transmit_freq_4", VNone);
 ("transmit_freq_5", VNone);
 ("transmit_freq_rate_1", VNone);
 ("transmit_freq_rate_2", VNone);
 ("transmit_freq_rate_3", VNone);
 ("transmit_freq_rate_4", VNone);
 ("transmit_freq_rate_5", VNone);
 ("transmit_phase_ct_1", VNone);
 ("transmit_phase_ct_2", VNone);
 ("transmit_phase_ct_3", VNone);
 ("transmit_phase_ct_4", VNone);
 ("transmit_phase_ct_5", VNone);
 ("tropo_dry", VNone);
 ("tropo_wet", VNone);
 ("vlbi_delay", VNone)]; VObj "TrackingDataObservationType" [("epoch", VStr (lit "2007-075T15:59:27.000"));
 ("angle_1", VNone);
 ("angle_2", VNone);
 ("carrier_power", VNone);
 ("clock_bias", VNone);
 ("clock_drift", VNone);
 ("doppler_count", VNone);
 ("doppler_instantaneous", VNone);
 ("doppler_integrated", VNone);
 ("dor", VNone);
 ("mag", VNone);
 ("pc_n0", VNone);
 ("pr_n0", VNone);
 ("pressure", VNone);
 ("range", VNone);
 ("rcs", VNone);
 ("receive_freq", VDec (DFin false 60911915056228%N (-9)%Z));
 ("receive_freq_1", VNone);
 ("receive_freq_2", VNone);
 ("receive_freq_3", VNone);
 ("receive_freq_4", VNone);
 ("receive_freq_5", VNone);
 ("receive_phase_ct_1", VNone);
 ("receive_phase_ct_2", VNone);
 ("receive_phase_ct_3", VNone);
 ("receive_phase_ct_4", VNone);
 ("receive_phase_ct_5", VNone);
 ("rhumidity", VNone);
 ("stec", VNone);
 ("temperature", VNone);
 ("transmit_freq_1", VNone);
 ("transmit_freq_2", VNone);
 ("transmit_freq_3", VNone);
 ("transmit_freq_4", VNone);
 ("transmit_freq_5", VNone);
 ("transmit_freq_rate_1", VNone);
 ("transmit_freq_rate_2", VNone);
 ("transmit_freq_rate_3", VNone);
 ("transmit_freq_rate_4", VNone);
 ("transmit_freq_rate_5", VNone);
 ("transmit_phase_ct_1", VNone);
 ("transmit_phase_ct_2", VNone);
 ("transmit_phase_ct_3", VNone);
 ("transmit_phase_ct_4", VNone);
 ("transmit_phase_ct_5", VNone);
 ("tropo_dry", VNone);
 ("tropo_wet", VNone);
 ("vlbi_delay", VNone)]; VObj "TrackingDataObservationType" [("epoch", VStr (lit "2007-075T16:00:27.000"));
 ("angle_1", VNone);
 ("angle_2", VNone);
 ("carrier_power", VNone);
 ("clock_bias", VNone);
 ("clock_drift", VNone);
 ("doppler_count", VNone);
 ("doppler_instantaneous", VNone);
 ("doppler_integrated", VNone);
 ("dor", VNone);
 ("mag", VNone);
 ("pc_n0", VNone);
 ("pr_n0", VNone);
 ("pressure", VNone);
 ("range", VNone);
 ("rcs", VNone);
 ("receive_freq", VDec (DFin false 60836790554046%N (-9)%Z));
 ("receive_freq_1", VNone);
 ("receive_freq_2", VNone);
 ("receive_freq_3", VNone);
 ("receive_freq_4", VNone);
 ("receive_freq_5", VNone);
 ("receive_phase_ct_1", VNone);
 ("receive_phase_ct_2", VNone);
 ("receive_phase_ct_3", VNone);
 ("receive_phase_ct_4", VNone);
 ("receive_phase_ct_5", VNone);
 ("rhumidity", VNone);
 ("stec", VNone);
 ("temperature", VNone);
 ("transmit_freq_1", VNone);
 ("transmit_freq_2", VNone);
 ("transmit_freq_3", VNone);
 ("transmit_freq_4", VNone);
 ("transmit_freq_5", VNone);
 ("transmit_freq_rate_1", VNone);
 ("transmit_freq_rate_2", VNone);
 ("transmit_freq_rate_3", VNone);
 ("transmit_freq_rate_4", VNone);
 ("transmit_freq_rate_5", VNone);
 ("transmit_phase_ct_1", VNone);
 ("transmit_phase_ct_2", VNone);
 ("transmit_phase_ct_3", VNone);
 ("transmit_phase_ct_4", VNone);
 ("transmit_phase_ct_5", VNone);
 ("tropo_dry", VNone);
 ("tropo_wet", VNone);
 ("vlbi_delay", VNone)]; VObj "TrackingDataObservationType" [("epoch", VStr (lit "2007-075T16:01:27.000"));
 ("angle_1", VNone);
 ("angle_2", VNone);
 ("carrier_power", VNone);
 ("clock_bias", VNone);
 ("clock_drift", VNone);
 ("doppler_count", VNone);
 ("doppler_instantaneous", VNone);
 ("doppler_integrated", VNone);
 ("dor", VNone);
 ("mag", VNone);
 ("pc_n0", VNone);
 ("pr_n0", VNone);
 ("pressure", VNone);
 ("range", VNone);
 ("rcs", VNone);
 ("receive_freq", VDec (DFin false 60761524376868%N (-9)%Z));
 ("receive_freq_1", VNone);
 ("receive_freq_2", VNone);
 ("receive_freq_3", VNone);
 ("receive_freq_4", VNone);
 ("receive_freq_5", VNone);
 ("receive_phase_ct_1", VNone);
 ("receive_phase_ct_2", VNone);
 ("receive_phase_ct_3", VNone);
 ("receive_phase_ct_4", VNone);
 ("receive_phase_ct_5", VNone);
 ("rhumidity", VNone);
 ("stec", VNone);
 ("temperature", VNone);
 ("transmit_freq_1", VNone);
 ("transmit_freq_2", VNone);
 ("transmit_freq_3", VNone);
 ("transmit_freq_4", VNone);
 ("transmit_freq_5", VNone);
 ("transmit_freq_rate_1", VNone);
 ("transmit_freq_rate_2", VNone);
 ("transmit_freq_rate_3", VNone);
 ("transmit_freq_rate_4", VNone);
 ("transmit_freq_rate_5", VNone);
 ("transmit_phase_ct_1", VNone);
 ("transmit_phase_ct_2", VNone);
 ("transmit_phase_ct_3", VNone);
 ("transmit_phase_ct_4", VNone);
 ("transmit_phase_ct_5", VNone);
 ("tropo_dry", VNone);
 ("tropo_wet", VNone);
 ("vlbi_delay", VNone)]; VObj "TrackingDataObservationType" [("epoch", VStr (lit "2007-075T16:02:27.000"));
 ("angle_1", VNone);
 ("angle_2", VNone);
 ("carrier_power", VNone);
 ("clock_bias", VNone);
 ("clock_drift", VNone);
 ("doppler_count", VNone);
 ("doppler_instantaneous", VNone);
 ("doppler_integrated", VNone);
 ("dor", VNone);
 ("mag", VNone);
 ("pc_n0", VNone);
 ("pr_n0", VNone);
 ("pressure", VNone);
 ("range", VNone);
 ("rcs", VNone);
 ("receive_freq", VDec (DFin false 60686117636681%N (-9)%Z));
 ("receive_freq_1", VNone);
 ("receive_freq_2", VNone);
 ("receive_freq_3", VNone);
 ("receive_freq_4", VNone);
 ("receive_freq_5", VNone);
 ("receive_phase_ct_1", VNone);
 ("receive_phase_ct_2", VNone);
 ("receive_phase_ct_3", VNone);
 ("receive_phase_ct_4", VNone);
 ("receive_phase_ct_5", VNone);
 ("rhumidity", VNone);
 ("stec", VNone);
 ("temperature", VNone);
 ("transmit_freq_1", VNone);
 ("transmit_freq_2", VNone);
 ("transmit_freq_3", VNone);
 ("transmit_freq_4", VNone);
 ("transmit_freq_5", VNone);
 ("transmit_freq_rate_1", VNone);
 ("transmit_freq_rate_2", VNone);
 ("transmit_freq_rate_3", VNone);
 ("transmit_freq_rate_4", VNone);
 ("transmit_freq_rate_5", VNone);
 ("transmit_phase_ct_1", VNone);
 ("transmit_phase_ct_2", VNone);
 ("transmit_phase_ct_3", VNone);
 ("transmit_phase_ct_4", VNone);
 ("transmit_phase_ct_5", VNone);
 ("tropo_dry", VNone);
 ("tropo_wet", VNone);
 ("vlbi_delay", VNone)]; VObj "TrackingDataObservationType" [("epoch", VStr (lit "2007-075T16:03:27.000"));
 ("angle_1", VNone);
 ("angle_2", VNone);
 ("carrier_power", VNone);
 ("clock_bias", VNone);
 ("clock_drift", VNone);
 ("doppler_count", VNone);
 ("doppler_instantaneous", VNone);
 ("doppler_integrated", VNone);
 ("dor", VNone);
 ("mag", VNone);
 ("pc_n0", VNone);
 ("pr_n0", VNone);
 ("pressure", VNone);
 ("range", VNone);
 ("rcs", VNone);
 ("receive_freq", VDec (DFin false 60610574287415%N (-9)%Z));
 ("receive_freq_1", VNone);
 ("receive_freq_2", VNone);
 ("receive_freq_3", VNone);
 ("receive_freq_4", VNone);
 ("receive_freq_5", VNone);
 ("receive_phase_ct_1", VNone);
 ("receive_phase_ct_2", VNone);
 ("receive_phase_ct_3", VNone);
 ("receive_phase_ct_4", VNone);
 ("receive_phase_ct_5", VNone);
 ("rhumidity", VNone);
 ("stec", VNone);
 ("temperature", VNone);
 ("transmit_freq_1", VNone);
 ("transmit_freq_2", VNone);
 ("transmit_freq_3", VNone);
 ("transmit_freq_4", VNone);
 ("transmit_freq_5", VNone);
 ("transmit_freq_rate_1", VNone);
 ("transmit_freq_rate_2", VNone);
 ("transmit_freq_rate_3", VNone);
 ("transmit_freq_rate_4", VNone);
 ("transmit_freq_rate_5", VNone);
 ("transmit_phase_ct_1", VNone);
 ("transmit_phase_ct_2", VNone);
 ("transmit_phase_ct_3", VNone);
 ("transmit_phase_ct_4", VNone);
 ("transmit_phase_ct_5", VNone);
 ("tropo_dry", VNone);
 ("tropo_wet", VNone);
 ("vlbi_delay", VNone)]; VObj "TrackingDataObservationType" [("epoch", VStr (lit "2007-075T16:04:27.000"));
 ("angle_1", VNone);
 ("angle_2", VNone);
 ("carrier_power", VNone);
 ("clock_bias", VNone);
 ("clock_drift", VNone);
 ("doppler_count", VNone);
 ("doppler_instantaneous", VNone);
 ("doppler_integrated", VNone);
 ("dor", VNone);
 ("mag", VNone);
 ("pc_n0", VNone);
 ("pr_n0", VNone);
 ("pressure", VNone);
 ("range", VNone);
 ("rcs", VNone);
 ("receive_freq", VDec (DFin false 60534892094612%N (-9)%Z));
 ("receive_freq_1", VNone);
 ("receive_freq_2", VNone);
 ("receive_freq_3", VNone);
 ("receive_freq_4", VNone);
 ("receive_freq_5", VNone);
 ("receive_phase_ct_1", VNone);
 ("receive_phase_ct_2", VNone);
 ("receive_phase_ct_3", VNone);
 ("receive_phase_ct_4", VNone);
 ("receive_phase_ct_5", VNone);
 ("rhumidity", VNone);
 ("stec", VNone);
 ("temperature", VNone);
 ("transmit_freq_1", VNone);
 ("transmit_freq_2", VNone);
 ("transmit_freq_3", VNone);
 ("transmit_freq_4", VNone);
 ("transmit_freq_5", VNone);
 ("transmit_freq_rate_1", VNone);
 ("transmit_freq_rate_2", VNone);
 ("transmit_freq_rate_3", VNone);
 ("transmit_freq_rate_4", VNone);
 ("transmit_freq_rate_5", VNone);
 ("transmit_phase_ct_1", VNone);
 ("transmit_phase_ct_2", VNone);
 ("transmit_phase_ct_3", VNone);
 ("transmit_phase_ct_4", VNone);
 ("transmit_phase_ct_5", VNone);
 ("tropo_dry", VNone);
 ("tropo_wet", VNone);
 ("vlbi_delay", VNone)]; VObj "TrackingDataObservationType" [("epoch", VStr (lit "2007-075T16:05:27.000"));
 ("angle_1", VNone);
 ("angle_2", VNone);
 ("carrier_power", VNone);
 ("clock_bias", VNone);
 ("clock_drift", VNone);
 ("doppler_count", VNone);
 ("doppler_instantaneous", VNone);
 ("doppler_integrated", VNone);
 ("dor", VNone);
 ("mag", VNone);
 ("pc_n0", VNone);
 ("pr_n0", VNone);
 ("pressure", VNone);
 ("range", VNone);
 ("rcs", VNone);
 ("receive_freq", VDec (DFin false 60459077399254%N (-9)%Z));
 ("receive_freq_1", VNone);
 ("receive_freq_2", VNone);
 ("receive_freq_3", VNone);
 ("receive_freq_4", VNone);
 ("receive_freq_5", VNone);
 ("receive_phase_ct_1", VNone);
 ("receive_phase_ct_2", VNone);
 ("receive_phase_ct_3", VNone);
 ("receive_phase_ct_4", VNone);
 ("receive_phase_ct_5", VNone);
 ("rhumidity", VNone);
 ("stec", VNone);
 ("temperature", VNone);
 ("transmit_freq_1", VNone);
 ("transmit_freq_2", VNone);
 ("transmit_freq_3", VNone);
 ("transmit_freq_4", VNone);
 ("transmit_freq_5", VNone);
 ("transmit_freq_rate_1", VNone);
 ("transmit_freq_rate_2", VNone);
 ("transmit_freq_rate_3", VNone);
 ("transmit_freq_rate_4", VNone);
 ("transmit_freq_rate_5", VNone);
 ("transmit_phase_ct_1", VNone);
 ("transmit_phase_ct_2", VNone);
 ("transmit_phase_ct_3", VNone);
 ("transmit_phase_ct_4", VNone);
 ("transmit_phase_ct_5", VNone);
 ("tropo_dry", VNone);
 ("tropo_wet", VNone);
 ("vlbi_delay", VNone)]; VObj "TrackingDataObservationType" [("epoch", VStr (lit "2007-075T16:06:27.000"));
 ("angle_1", VNone);
 ("angle_2", VNone);
 ("carrier_power", VNone);
 ("clock_bias", VNone);
 ("clock_drift", VNone);
 ("doppler_count", VNone);
 ("doppler_instantaneous", VNone);
 ("doppler_integrated", VNone);
 ("dor", VNone);
 ("mag", VNone);
 ("pc_n0", VNone);
 ("pr_n0", VNone);
 ("pressure", VNone);
 ("range", VNone);
 ("rcs", VNone);
 ("receive_freq", VDec (DFin false 60383127887726%N (-9)%Z));
 ("receive_freq_1", VNone);
 ("receive_freq_2", VNone);
 ("receive_freq_3", VNone);
 ("receive_freq_4", VNone);
 ("receive_freq_5", VNone);
 ("receive_phase_ct_1", VNone);
 ("receive_phase_ct_2", VNone);
 ("receive_phase_ct_3", VNone);
 ("receive_phase_ct_4", VNone);
 ("receive_phase_ct_5", VNone);
 ("rhumidity", VNone);
 ("stec", VNone);
 ("temperature", VNone);
 ("transmit_freq_1", VNone);
 ("transmit_freq_2", VNone);
 ("transmit_freq_3", VNone);
 ("transmit_freq_4", VNone);
 ("transmit_freq_5", VNone);
 ("transmit_freq_rate_1", VNone);
 ("transmit_freq_rate_2", VNone);
 ("transmit_freq_rate_3", VNone);
 ("transmit_freq_rate_4", VNone);
 ("transmit_freq_rate_5", VNone);
 ("transmit_phase_ct_1", VNone);
 ("transmit_phase_ct_2", VNone);
 ("transmit_phase_ct_3", VNone);
 ("transmit_phase_ct_4", VNone);
 ("transmit_phase_ct_5", VNone);
 ("tropo_dry", VNone);
 ("tropo_wet", VNone);
 ("vlbi_delay", VNone)]; VObj "TrackingDataObservationType" [("epoch", VStr (lit "2007-075T16:07:27.000"));
 ("angle_1", VNone);
 ("angle_2", VNone);
 ("carrier_power", VNone);
 ("clock_bias", VNone);
 ("clock_drift", VNone);
 ("doppler_count", VNone);
 ("doppler_instantaneous", VNone);
 ("doppler_integrated", VNone);
 ("dor", VNone);
 ("mag", VNone);
 ("pc_n0", VNone);
 ("pr_n0", VNone);
 ("pressure", VNone);
 ("range", VNone);
 ("rcs", VNone);
 ("receive_freq", VDec (DFin false 60307046922684%N (-9)%Z));
 ("receive_freq_1", VNone);
 ("receive_freq_2", VNone);
 ("receive_freq_3", VNone);
 ("receive_freq_4", VNone);
 ("receive_freq_5", VNone);
 ("receive_phase_ct_1", VNone);
 ("receive_phase_ct_2", VNone);
 ("receive_phase_ct_3", VNone);
 ("receive_phase_ct_4", VNone);
 ("receive_phase_ct_5", VNone);
 ("rhumidity", VNone);
 ("stec", VNone);
 ("temperature", VNone);
 ("transmit_freq_1", VNone);
 ("transmit_freq_2", VNone);
 ("transmit_freq_3", VNone);
 ("transmit_freq_4", VNone);
 ("transmit_freq_5", VNone);
 ("transmit_freq_rate_1", VNone);
 ("transmit_freq_rate_2", VNone);
 ("transmit_freq_rate_3", VNone);
 ("transmit_freq_rate_4", VNone);
 ("transmit_freq_rate_5", VNone);
 ("transmit_phase_ct_1", VNone);
 ("transmit_phase_ct_2", VNone);
 ("transmit_phase_ct_3", VNone);
 ("transmit_phase_ct_4", VNone);
 ("transmit_phase_ct_5", VNone);
 ("tropo_dry", VNone);
 ("tropo_wet", VNone);
 ("vlbi_delay", VNone)]; VObj "TrackingDataObservationType" [("epoch", VStr (lit "2007-075T16:08:27.000"));
 ("angle_1", VNone);
 ("angle_2", VNone);
 ("carrier_power", VNone);
 ("clock_bias", VNone);
 ("clock_drift", VNone);
 ("doppler_count", VNone);
 ("doppler_instantaneous", VNone);
 ("doppler_integrated", VNone);
 ("dor", VNone);
 ("mag", VNone);
 ("pc_n0", VNone);
 ("pr_n0", VNone);
 ("pressure", VNone);
 ("range", VNone);
 ("rcs", VNone);
 ("receive_freq", VDec (DFin false 60230835643768%N (-9)%Z));
 ("receive_freq_1", VNone);
 ("receive_freq_2", VNone);
 ("receive_freq_3", VNone);
 ("receive_freq_4", VNone);
 ("receive_freq_5", VNone);
 ("receive_phase_ct_1", VNone);
 ("receive_phase_ct_2", VNone);
 ("receive_phase_ct_3", VNone);
 ("receive_phase_ct_4", VNone);
 ("receive_phase_ct_5", VNone);
 ("rhumidity", VNone);
 ("stec", VNone);
 ("temperature", VNone);
 ("transmit_freq_1", VNone);
 ("transmit_freq_2", VNone);
 ("transmit_freq_3", VNone);
 ("transmit_freq_4", VNone);
 ("transmit_freq_5", VNone);
 ("transmit_freq_rate_1", VNone);
 ("transmit_freq_rate_2", VNone);
 ("transmit_freq_rate_3", VNone);
 ("transmit_freq_rate_4", VNone);
 ("transmit_freq_rate_5", VNone);
 ("transmit_phase_ct_1", VNone);
 ("transmit_phase_ct_2", VNone);
 ("transmit_phase_ct_3", VNone);
 ("transmit_phase_ct_4", VNone);
 ("transmit_phase_ct_5", VNone);
 ("tropo_dry", VNone);
 ("tropo_wet", VNone);
 ("vlbi_delay", VNone)]; VObj "TrackingDataObservationType" [("epoch", VStr (lit "2007-075T16:09:27.000"));
 ("angle_1", VNone);
 ("angle_2", VNone);
 ("carrier_power", VNone);
 ("clock_bias", VNone);
 ("clock_drift", VNone);
 ("doppler_count", VNone);
 ("doppler_instantaneous", VNone);
 ("doppler_integrated", VNone);
 ("dor", VNone);
 ("mag", VNone);
 ("pc_n0", VNone);
 ("pr_n0", VNone);
 ("pressure", VNone);
 ("range", VNone);
 ("rcs", VNone);
 ("receive_freq", VDec (DFin false 60154496395111%N (-9)%Z));
 ("receive_freq_1", VNone);
 ("receive_freq_2", VNone);
 ("receive_freq_3", VNone);
 ("receive_freq_4", VNone);
 ("receive_freq_5", VNone);
 ("receive_phase_ct_1", VNone);
 ("receive_phase_ct_2", VNone);
 ("receive_phase_ct_3", VNone);
 ("receive_phase_ct_4", VNone);
 ("receive_phase_ct_5", VNone);
 ("rhumidity", VNone);
 ("stec", VNone);
 ("temperature", VNone);
 ("transmit_freq_1", VNone);
 ("transmit_freq_2", VNone);
 ("transmit_freq_3", VNone);
 ("transmit_freq_4", VNone);
 ("transmit_freq_5", VNone);
 ("transmit_freq_rate_1", VNone);
 ("transmit_freq_rate_2", VNone);
 ("transmit_freq_rate_3", VNone);
 ("transmit_freq_rate_4", VNone);
 ("transmit_freq_rate_5", VNone);
 ("transmit_phase_ct_1", VNone);
 ("transmit_phase_ct_2", VNone);
 ("transmit_phase_ct_3", VNone);
 ("transmit_phase_ct_4", VNone);
 ("transmit_phase_ct_5", VNone);
 ("tropo_dry", VNone);
 ("tropo_wet", VNone);
 ("vlbi_delay", VNone)]; VObj "TrackingDataObservationType" [("epoch", VStr (lit "2007-075T16:10:27.000"));
 ("angle_1", VNone);
 ("angle_2", VNone);
 ("carrier_power", VNone);
 ("clock_bias", VNone);
 ("clock_drift", VNone);
 ("doppler_count", VNone);
 ("doppler_instantaneous", VNone);
 ("doppler_integrated", VNone);
 ("dor", VNone);
 ("mag", VNone);
 ("pc_n0", VNone);
 ("pr_n0", VNone);
 ("pressure", VNone);
 ("range", VNone);
 ("rcs", VNone);
 ("receive_freq", VDec (DFin false 6007802926445%N (-8)%Z));
 ("receive_freq_1", VNone);
 ("receive_freq_2", VNone);
 ("receive_freq_3", VNone);
 ("receive_freq_4", VNone);
 ("receive_freq_5", VNone);
 ("receive_phase_ct_1", VNone);
 ("receive_phase_ct_2", VNone);
 ("receive_phase_ct_3", VNone);
 ("receive_phase_ct_4", VNone);
 ("receive_phase_ct_5", VNone);
 ("rhumidity", VNone);
 ("stec", VNone);
 ("temperature", VNone);
 ("transmit_freq_1", VNone);
 ("transmit_freq_2", VNone);
 ("transmit_freq_3", VNone);
 ("transmit_freq_4", VNone);
 ("transmit_freq_5", VNone);
 ("transmit_freq_rate_1", VNone);
 ("transmit_freq_rate_2", VNone);
 ("transmit_freq_rate_3", VNone);
 ("transmit_freq_rate_4", VNone);
 ("transmit_freq_rate_5", VNone);
 ("transmit_phase_ct_1", VNone);
 ("transmit_phase_ct_2", VNone);
 ("transmit_phase_ct_3", VNone);
 ("transmit_phase_ct_4", VNone);
 ("transmit_phase_ct_5", VNone);
 ("tropo_dry", VNone);
 ("tropo_wet", VNone);
 ("vlbi_delay", VNone)]; VObj "TrackingDataObservationType" [("epoch", VStr (lit "2007-075T16:11:27.000"));
 ("angle_1", VNone);
 ("angle_2", VNone);
 ("carrier_power", VNone);
 ("clock_bias", VNone);
 ("clock_drift", VNone);
 ("doppler_count", VNone);
 ("doppler_instantaneous", VNone);
 ("doppler_integrated", VNone);
 ("dor", VNone);
 ("mag", VNone);
 ("pc_n0", VNone);
 ("pr_n0", VNone);
 ("pressure", VNone);
 ("range", VNone);
 ("rcs", VNone);
 ("receive_freq", VDec (DFin false 6000143738842%N (-8)%Z));
 ("receive_freq_1", VNone);
 ("receive_freq_2", VNone);
 ("receive_freq_3", VNone);
 ("receive_freq_4", VNone);
 ("receive_freq_5", VNone);
 ("receive_phase_ct_1", VNone);
 ("receive_phase_ct_2", VNone);
 ("receive_phase_ct_3", VNone);
 ("receive_phase_ct_4", VNone);
 ("receive_phase_ct_5", VNone);
 ("rhumidity", VNone);
 ("stec", VNone);
 ("temperature", VNone);
 ("transmit_freq_1", VNone);
 ("transmit_freq_2", VNone);
 ("transmit_freq_3", VNone);
 ("transmit_freq_4", VNone);
 ("transmit_freq_5", VNone);
 ("transmit_freq_rate_1", VNone);
 ("transmit_freq_rate_2", VNone);
 ("transmit_freq_rate_3", VNone);
 ("transmit_freq_rate_4", VNone);
 ("transmit_freq_rate_5", VNone);
 ("transmit_phase_ct_1", VNone);
 ("transmit_phase_ct_2", VNone);
 ("transmit_phase_ct_3", VNone);
 ("transmit_phase_ct_4", VNone);
 ("transmit_phase_ct_5", VNone);
 ("tropo_dry", VNone);
 ("tropo_wet", VNone);
 ("vlbi_delay", VNone)]; VObj "TrackingDataObservationType" [("epoch", VStr (lit "2007-075T16:12:27.000"));
 ("angle_1", VNone);
 ("angle_2", VNone);
 ("carrier_power", VNone);
 ("clock_bias", VNone);
 ("clock_drift", VNone);
 ("doppler_count", VNone);
 ("doppler_instantaneous", VNone);
 ("doppler_integrated", VNone);
 ("dor", VNone);
 ("mag", VNone);
 ("pc_n0", VNone);
 ("pr_n0", VNone);
 ("pressure", VNone);
 ("range", VNone);
 ("rcs", VNone);
 ("receive_freq", VDec (DFin false 5992472129631%N (-8)%Z));
 ("receive_freq_1", VNone);
 ("receive_freq_2", VNone);
 ("receive_freq_3", VNone);
 ("receive_freq_4", VNone);
 ("receive_freq_5", VNone);
 ("receive_phase_ct_1", VNone);
 ("receive_phase_ct_2", VNone);
 ("receive_phase_ct_3", VNone);
 ("receive_phase_ct_4", VNone);
 ("receive_phase_ct_5", VNone);
 ("rhumidity", VNone);
 ("stec", VNone);
 ("temperature", VNone);
 ("transmit_freq_1", VNone);
 ("transmit_freq_2", VNone);
 ("transmit_freq_3", VNone);
 ("transmit_freq_4", VNone);
 ("transmit_freq_5", VNone);
 ("transmit_freq_rate_1", VNone);
 ("transmit_freq_rate_2", VNone);
 ("transmit_freq_rate_3", VNone);
 ("transmit_freq_rate_4", VNone);
 ("transmit_freq_rate_5", VNone);
 ("transmit_phase_ct_1", VNone);
 ("transmit_phase_ct_2", VNone);
 ("transmit_phase_ct_3", VNone);
 ("transmit_phase_ct_4", VNone);
 ("transmit_phase_ct_5", VNone);
 ("tropo_dry", VNone);
 ("tropo_wet", VNone);
 ("vlbi_delay", VNone)]; VObj "TrackingDataObservationType" [("epoch", VStr (lit "2007-075T16:13:27.000"));
 ("angle_1", VNone);
 ("angle_2", VNone);
 ("carrier_power", VNone);
 ("clock_bias", VNone);
 ("clock_drift", VNone);
 ("doppler_count", VNone);
 ("doppler_instantaneous", VNone);
 ("doppler_integrated", VNone);
 ("dor", VNone);
 ("mag", VNone);
 ("pc_n0", VNone);
 ("pr_n0", VNone);
 ("pressure", VNone);
 ("range", VNone);
 ("rcs", VNone);
 ("receive_freq", VDec (DFin false 59847882581711%N (-9)%Z));
 ("receive_freq_1", VNone);
 ("receive_freq_2", VNone);
 ("receive_freq_3", VNone);
 ("receive_freq_4", VNone);
 ("receive_freq_5", VNone);
 ("receive_phase_ct_1", VNone);
 ("receive_phase_ct_2", VNone);
 ("receive_phase_ct_3", VNone);
 ("receive_phase_ct_4", VNone);
 ("receive_phase_ct_5", VNone);
 ("rhumidity", VNone);
 ("stec", VNone);
 ("temperature", VNone);
 ("transmit_freq_1", VNone);
 ("transmit_freq_2", VNone);
 ("transmit_freq_3", VNone);
 ("transmit_freq_4", VNone);
 ("transmit_freq_5", VNone);
 ("transmit_freq_rate_1", VNone);
 ("transmit_freq_rate_2", VNone);
 ("transmit_freq_rate_3", VNone);
 ("transmit_freq_rate_4", VNone);
 ("transmit_freq_rate_5", VNone);
 ("transmit_phase_ct_1", VNone);
 ("transmit_phase_ct_2", VNone);
 ("transmit_phase_ct_3", VNone);
 ("transmit_phase_ct_4", VNone);
 ("transmit_phase_ct_5", VNone);
 ("tropo_dry", VNone);
 ("tropo_wet", VNone);
 ("vlbi_delay", VNone)]; VObj "TrackingDataObservationType" [("epoch", VStr (lit "2007-075T16:14:27.000"));
 ("angle_1", VNone);
 ("angle_2", VNone);
 ("carrier_power", VNone);
 ("clock_bias", VNone);
 ("clock_drift", VNone);
 ("doppler_count", VNone);
 ("doppler_instantaneous", VNone);
 ("doppler_integrated", VNone);
 ("dor", VNone);
 ("mag", VNone);
 ("pc_n0", VNone);
 ("pr_n0", VNone);
 ("pressure", VNone);
 ("range", VNone);
 ("rcs", VNone);
 ("receive_freq", VDec (DFin false 59770923981667%N (-9)%Z));
 ("receive_freq_1", VNone);
 ("receive_freq_2", VNone);
 ("receive_freq_3", VNone);
 ("receive_freq_4", VNone);
 ("receive_freq_5", VNone);
 ("receive_phase_ct_1", VNone);
 ("receive_phase_ct_2", VNone);
 ("receive_phase_ct_3", VNone);
 ("receive_phase_ct_4", VNone);
 ("receive_phase_ct_5", VNone);
 ("rhumidity", VNone);
 ("stec", VNone);
 ("temperature", VNone);
 ("transmit_freq_1", VNone);
 ("transmit_freq_2", VNone);
 ("transmit_freq_3", VNone);
 ("transmit_freq_4", VNone);
 ("transmit_freq_5", VNone);
 ("transmit_freq_rate_1", VNone);
 ("transmit_freq_rate_2", VNone);
 ("transmit_freq_rate_3", VNone);
 ("transmit_freq_rate_4", VNone);
 ("transmit_freq_rate_5", VNone);
 ("transmit_phase_ct_1", VNone);
 ("transmit_phase_ct_2", VNone);
 ("transmit_phase_ct_3", VNone);
 ("transmit_phase_ct_4", VNone);
 ("transmit_phase_ct_5", VNone);
 ("tropo_dry", VNone);
 ("tropo_wet", VNone);
 ("vlbi_delay", VNone)]; VObj "TrackingDataObservationType" [("epoch", VStr (lit "2007-075T16:15:27.000"));
 ("angle_1", VNone);
 ("angle_2", VNone);
 ("carrier_power", VNone);
 ("clock_bias", VNone);
 ("clock_drift", VNone);
 ("doppler_count", VNone);
 ("doppler_instantaneous", VNone);
 ("doppler_integrated", VNone);
 ("dor", VNone);
 ("mag", VNone);
 ("pc_n0", VNone);
 ("pr_n0", VNone);
 ("pressure", VNone);
 ("range", VNone);
 ("rcs", VNone);
 ("receive_freq", VDec (DFin false 59693845624924%N (-9)%Z));
 ("receive_freq_1", VNone);
 ("receive_freq_2", VNone);
 ("receive_freq_3", VNone);
 ("receive_freq_4", VNone);
 ("receive_freq_5", VNone);
 ("receive_phase_ct_1", VNone);
 ("receive_phase_ct_2", VNone);
 ("receive_phase_ct_3", VNone);
 ("receive_phase_ct_4", VNone);
 ("receive_phase_ct_5", VNone);
 ("rhumidity", VNone);
 ("stec", VNone);
 ("temperature", VNone);
 ("transmit_freq_1", VNone);
 ("transmit_freq_2", VNone);
 ("transmit_freq_3", VNone);
 ("transmit_freq_4", VNone);
 ("transmit_freq_5", VNone);
 ("transmit_freq_rate_1", VNone);
 ("transmit_freq_rate_2", VNone);
 ("transmit_freq_rate_3", VNone);
 ("transmit_freq_rate_4", VNone);
 ("transmit_freq_rate_5", VNone);
 ("transmit_phase_ct_1", VNone);
 ("transmit_phase_ct_2", VNone);
 ("transmit_phase_ct_3", VNone);
 ("transmit_phase_ct_4", VNone);
 ("transmit_phase_ct_5", VNone);
 ("tropo_dry", VNone);
 ("tropo_wet", VNone);
 ("vlbi_delay", VNone)]; VObj "TrackingDataObservationType" [("epoch", VStr (lit "2007-075T16:16:27.000"));
 ("angle_1", VNone);
 ("angle_2", VNone);
 ("carrier_power", VNone);
 ("clock_bias", VNone);
 ("clock_drift", VNone);
 ("doppler_count", VNone);
 ("doppler_instantaneous", VNone);
 ("doppler_integrated", VNone);
 ("dor", VNone);
 ("mag", VNone);
 ("pc_n0", VNone);
 ("pr_n0", VNone);
 ("pressure", VNone);
 ("range", VNone);
 ("rcs", VNone);
 ("receive_freq", VDec (DFin false 59616650050163%N (-9)%Z));
 ("receive_freq_1", VNone);
 ("receive_freq_2", VNone);
 ("receive_freq_3", VNone);
 ("receive_freq_4", VNone);
 ("receive_freq_5", VNone);
 ("receive_phase_ct_1", VNone);
 ("receive_phase_ct_2", VNone);
 ("receive_phase_ct_3", VNone);
 ("receive_phase_ct_4", VNone);
 ("receive_phase_ct_5", VNone);
 ("rhumidity", VNone);
 ("stec", VNone);
 ("temperature", VNone);
 ("transmit_freq_1", VNone);
 ("transmit_freq_2", VNone);
 ("transmit_freq_3", VNone);
 ("transmit_freq_4", VNone);
 ("transmit_freq_5", VNone);
 ("transmit_freq_rate_1", VNone);
 ("transmit_freq_rate_2", VNone);
 ("transmit_freq_rate_3", VNone);
 ("transmit_freq_rate_4", VNone);
 ("transmit_freq_rate_5", VNone);
 ("transmit_phase_ct_1", VNone);
 ("transmit_phase_ct_2", VNone);
 ("transmit_phase_ct_3", VNone);
 ("transmit_phase_ct_4", VNone);
 ("transmit_phase_ct_5", VNone);
 ("tropo_dry", VNone);
 ("tropo_wet", VNone);
 ("vlbi_delay", VNone)]; VObj "TrackingDataObservationType" [("epoch", VStr (lit "2007-075T16:17:27.000"));
 ("angle_1", VNone);
 ("angle_2", VNone);
 ("carrier_power", VNone);
 ("clock_bias", VNone);
 ("clock_drift", VNone);
 ("doppler_count", VNone);
 ("doppler_instantaneous", VNone);
 ("doppler_integrated", VNone);
 ("dor", VNone);
 ("mag", VNone);
 ("pc_n0", VNone);
 ("pr_n0", VNone);
 ("pressure", VNone);
 ("range", VNone);
 ("rcs", VNone);
 ("receive_freq", VDec (DFin false 59539337769508%N (-9)%Z));
 ("receive_freq_1", VNone);
 ("receive_freq_2", VNone);
 ("receive_freq_3", VNone);
 ("receive_freq_4", VNone);
 ("receive_freq_5", VNone);
 ("receive_phase_ct_1", VNone);
 ("receive_phase_ct_2", VNone);
 ("receive_phase_ct_3", VNone);
 ("receive_phase_ct_4", VNone);
 ("receive_phase_ct_5", VNone);
 ("rhumidity", VNone);
 ("stec", VNone);
 ("temperature", VNone);
 ("transmit_freq_1", VNone);
 ("transmit_freq_2", VNone);
 ("transmit_freq_3", VNone);
 ("transmit_freq_4", VNone);
 ("transmit_freq_5", VNone);
 ("transmit_freq_rate_1", VNone);
 ("transmit_freq_rate_2", VNone);
 ("transmit_freq_rate_3", VNone);
 ("transmit_freq_rate_4", VNone);
 ("transmit_freq_rate_5", VNone);
 ("transmit_phase_ct_1", VNone);
 ("transmit_phase_ct_2", VNone);
 ("transmit_phase_ct_3", VNone);
 ("transmit_phase_ct_4", VNone);
 ("transmit_phase_ct_5", VNone);
 ("tropo_dry", VNone);
 ("tropo_wet", VNone);
 ("vlbi_delay", VNone)]; VObj "TrackingDataObservationType" [("epoch", VStr (lit "2007-075T16:18:27.000"));
 ("angle_1", VNone);
 ("angle_2", VNone);
 ("carrier_power", VNone);
 ("clock_bias", VNone);
 ("clock_drift", VNone);
 ("doppler_count", VNone);
 ("doppler_instantaneous", VNone);
 ("doppler_integrated", VNone);
 ("dor", VNone);
 ("mag", VNone);
 ("pc_n0", VNone);
 ("pr_n0", VNone);
 ("pressure", VNone);
 ("range", VNone);
 ("rcs", VNone);
 ("receive_freq", VDec (DFin false 5946191204834%N (-8)%Z));
 ("receive_freq_1", VNone);
 ("receive_freq_2", VNone);
 ("receive_freq_3", VNone);
 ("receive_freq_4", VNone);
 ("receive_freq_5", VNone);
 ("receive_phase_ct_1", VNone);
 ("receive_phase_ct_2", VNone);
 ("receive_phase_ct_3", VNone);
 ("receive_phase_ct_4", VNone);
 ("receive_phase_ct_5", VNone);
 ("rhumidity", VNone);
 ("stec", VNone);
 ("temperature", VNone);
 ("transmit_freq_1", VNone);
 ("transmit_freq_2", VNone);
 ("transmit_freq_3", VNone);
 ("transmit_freq_4", VNone);
 ("transmit_freq_5", VNone);
 ("transmit_freq_rate_1", VNone);
 ("transmit_freq_rate_2", VNone);
 ("transmit_freq_rate_3", VNone);
 ("transmit_freq_rate_4", VNone);
 ("transmit_freq_rate_5", VNone);
 ("transmit_phase_ct_1", VNone);
 ("transmit_phase_ct_2", VNone);
 ("transmit_phase_ct_3", VNone);
 ("transmit_phase_ct_4", VNone);
 ("transmit_phase_ct_5", VNone);
 ("tropo_dry", VNone);
 ("tropo_wet", VNone);
 ("vlbi_delay", VNone)]; VObj "TrackingDataObservationType" [("epoch", VStr (lit "2007-075T16:19:27.000"));
 ("angle_1", VNone);
 ("angle_2", VNone);
 ("carrier_power", VNone);
 ("clock_bias", VNone);
 ("clock_drift", VNone);
 ("doppler_count", VNone);
 ("doppler_instantaneous", VNone);
 ("doppler_integrated", VNone);
 ("dor", VNone);
 ("mag", VNone);
 ("pc_n0", VNone);
 ("pr_n0", VNone);
 ("pressure", VNone);
 ("range", VNone);
 ("rcs", VNone);
 ("receive_freq", VDec (DFin false 59384373176575%N (-9)%Z));
 ("receive_freq_1", VNone);
 ("receive_freq_2", VNone);
 ("receive_freq_3", VNone);
 ("receive_freq_4", VNone);
 ("receive_freq_5", VNone);
 ("receive_phase_ct_1", VNone);
 ("receive_phase_ct_2", VNone);
 ("receive_phase_ct_3", VNone);
 ("receive_phase_ct_4", VNone);
 ("receive_phase_ct_5", VNone);
 ("rhumidity", VNone);
 ("stec", VNone);
 ("temperature", VNone);
 ("transmit_freq_1", VNone);
 ("transmit_freq_2", VNone);
 ("transmit_freq_3", VNone);
 ("transmit_freq_4", VNone);
 ("transmit_freq_5", VNone);
 ("transmit_freq_rate_1", VNone);
 ("transmit_freq_rate_2", VNone);
 ("transmit_freq_rate_3", VNone);
 ("transmit_freq_rate_4", VNone);
 ("transmit_freq_rate_5", VNone);
 ("transmit_phase_ct_1", VNone);
 ("transmit_phase_ct_2", VNone);
 ("transmit_phase_ct_3", VNone);
 ("transmit_phase_ct_4", VNone);
 ("transmit_phase_ct_5", VNone);
 ("tropo_dry", VNone);
 ("tropo_wet", VNone);
 ("vlbi_delay", VNone)]; VObj "TrackingDataObservationType" [("epoch", VStr (lit "2007-075T16:20:27.000"));
 ("angle_1", VNone);
 ("angle_2", VNone);
 ("carrier_power", VNone);
 ("clock_bias", VNone);
 ("clock_drift", VNone);
 ("doppler_count", VNone);
 ("doppler_instantaneous", VNone);
 ("doppler_integrated", VNone);
 ("dor", VNone);
 ("mag", VNone);
 ("pc_n0", VNone);
 ("pr_n0", VNone);
 ("pressure", VNone);
 ("range", VNone);
 ("rcs", VNone);
 ("receive_freq", VDec (DFin false 5930672349453%N (-8)%Z));
 ("receive_freq_1", VNone);
 ("receive_freq_2", VNone);
 ("receive_freq_3", VNone);
 ("receive_freq_4", VNone);
 ("receive_freq_5", VNone);
 ("receive_phase_ct_1", VNone);
 ("receive_phase_ct_2", VNone);
 ("receive_phase_ct_3", VNone);
 ("receive_phase_ct_4", VNone);
 ("receive_phase_ct_5", VNone);
 ("rhumidity", VNone);
 ("stec", VNone);
 ("temperature", VNone);
 ("transmit_freq_1", VNone);
 ("transmit_freq_2", VNone);
 ("transmit_freq_3", VNone);
 ("transmit_freq_4", VNone);
 ("transmit_freq_5", VNone);
 ("transmit_freq_rate_1", VNone);
 ("transmit_freq_rate_2", VNone);
 ("transmit_freq_rate_3", VNone);
 ("transmit_freq_rate_4", VNone);
 ("transmit_freq_rate_5", VNone);
 ("transmit_phase_ct_1", VNone);
 ("transmit_phase_ct_2", VNone);
 ("transmit_phase_ct_3", VNone);
 ("transmit_phase_ct_4", VNone);
 ("transmit_phase_ct_5", VNone);
 ("tropo_dry", VNone);
 ("tropo_wet", VNone);
 ("vlbi_delay", VNone)]; VObj "TrackingDataObservationType" [("epoch", VStr (lit "2007-075T16:21:27.000"));
 ("angle_1", VNone);
 ("angle_2", VNone);
 ("carrier_power", VNone);
 ("clock_bias", VNone);
 ("clock_drift", VNone);
 ("doppler_count", VNone);
 ("doppler_instantaneous", VNone);
 ("doppler_integrated", VNone);
 ("dor", VNone);
 ("mag", VNone);
 ("pc_n0", VNone);
 ("pr_n0", VNone);
 ("pressure", VNone);
 ("range", VNone);
 ("rcs", VNone);
 ("receive_freq", VDec (DFin false 59228964792252%N (-9)%Z));
 ("receive_freq_1", VNone);
 ("receive_freq_2", VNone);
 ("receive_freq_3", VNone);
 ("receive_freq_4", VNone);
 ("receive_freq_5", VNone);
 ("receive_phase_ct_1", VNone);
 ("receive_phase_ct_2", VNone);
 ("receive_phase_ct_3", VNone);
 ("receive_phase_ct_4", VNone);
 ("receive_phase_ct_5", VNone);
 ("rhumidity", VNone);
 ("stec", VNone);
 ("temperature", VNone);
 ("transmit_freq_1", VNone);
 ("transmit_freq_2", VNone);
 ("transmit_freq_3", VNone);
 ("transmit_freq_4", VNone);
 ("transmit_freq_5", VNone);
 ("transmit_freq_rate_1", VNone);
 ("transmit_freq_rate_2", VNone);
 ("transmit_freq_rate_3", VNone);
 ("transmit_freq_rate_4", VNone);
 ("transmit_freq_rate_5", VNone);
 ("transmit_phase_ct_1", VNone);
 ("transmit_phase_ct_2", VNone);
 ("transmit_phase_ct_3", VNone);
 ("transmit_phase_ct_4", VNone);
 ("transmit_phase_ct_5", VNone);
 ("tropo_dry", VNone);
 ("tropo_wet", VNone);
 ("vlbi_delay", VNone)]; VObj "TrackingDataObservationType" [("epoch", VStr (lit "2007-075T16:22:27.000"));
 ("angle_1", VNone);
 ("angle_2", VNone);
 ("carrier_power", VNone);
 ("clock_bias", VNone);
 ("clock_drift", VNone);
 ("doppler_count", VNone);
 ("doppler_instantaneous", VNone);
 ("doppler_integrated", VNone);
 ("dor", VNone);
 ("mag", VNone);
 ("pc_n0", VNone);
 ("pr_n0", VNone);
 ("pressure", VNone);
 ("range", VNone);
 ("rcs", VNone);
 ("receive_freq", VDec (DFin false 59151098890305%N (-9)%Z));
 ("receive_freq_1", VNone);
 ("receive_freq_2", VNone);
 ("receive_freq_3", VNone);
 ("receive_freq_4", VNone);
 ("receive_freq_5", VNone);
 ("receive_phase_ct_1", VNone);
 ("receive_phase_ct_2", VNone);
 ("receive_phase_ct_3", VNone);
 ("receive_phase_ct_4", VNone);
 ("receive_phase_ct_5", VNone);
 ("rhumidity", VNone);
 ("stec", VNone);
 ("temperature", VNone);
 ("transmit_freq_1", VNone);
 ("transmit_freq_2", VNone);
 ("transmit_freq_3", VNone);
 ("transmit_freq_4", VNone);
 ("transmit_freq_5", VNone);
 ("transmit_freq_rate_1", VNone);
 ("transmit_freq_rate_2", VNone);
 ("transmit_freq_rate_3", VNone);
 ("transmit_freq_rate_4", VNone);
 ("transmit_freq_rate_5", VNone);
 ("transmit_phase_ct_1", VNone);
 ("transmit_phase_ct_2", VNone);
 ("transmit_phase_ct_3", VNone);
 ("transmit_phase_ct_4", VNone);
 ("transmit_phase_ct_5", VNone);
 ("tropo_dry", VNone);
 ("tropo_wet", VNone);
 ("vlbi_delay", VNone)]; VObj "TrackingDataObservationType" [("epoch", VStr (lit "2007-075T16:23:27.000"));
 ("angle_1", VNone);
 ("angle_2", VNone);
 ("carrier_power", VNone);
 ("clock_bias", VNone);
 ("clock_drift", VNone);
 ("doppler_count", VNone);
 ("doppler_instantaneous", VNone);
 ("doppler_integrated", VNone);
 ("dor", VNone);
 ("mag", VNone);
 ("pc_n0", VNone);
 ("pr_n0", VNone);
 ("pressure", VNone);
 ("range", VNone);
 ("rcs", VNone);
 ("receive_freq", VDec (DFin false 5907312512207%N (-8)%Z));
 ("receive_freq_1", VNone);
 ("receive_freq_2", VNone);
 ("receive_freq_3", VNone);
 ("receive_freq_4", VNone);
 ("receive_freq_5", VNone);
 ("receive_phase_ct_1", VNone);
 ("receive_phase_ct_2", VNone);
 ("receive_phase_ct_3", VNone);
 ("receive_phase_ct_4", VNone);
 ("receive_phase_ct_5", VNone);
 ("rhumidity", VNone);
 ("stec", VNone);
 ("temperature", VNone);
 ("transmit_freq_1", VNone);
 ("transmit_freq_2", VNone);
 ("transmit_freq_3", VNone);
 ("transmit_freq_4", VNone);
 ("transmit_freq_5", VNone);
 ("transmit_freq_rate_1", VNone);
 ("transmit_freq_rate_2", VNone);
 ("transmit_freq_rate_3", VNone);
 ("transmit_freq_rate_4", VNone);
 ("transmit_freq_rate_5", VNone);
 ("transmit_phase_ct_1", VNone);
 ("transmit_phase_ct_2", VNone);
 ("transmit_phase_ct_3", VNone);
 ("transmit_phase_ct_4", VNone);
 ("transmit_phase_ct_5", VNone);
 ("tropo_dry", VNone);
 ("tropo_wet", VNone);
 ("vlbi_delay", VNone)]; VObj "TrackingDataObservationType" [("epoch", VStr (lit "2007-075T16:24:27.000"));
 ("angle_1", VNone);
 ("angle_2", VNone);
 ("carrier_power", VNone);
 ("clock_bias", VNone);
 ("clock_drift", VNone);
 ("doppler_count", VNone);
 ("doppler_instantaneous", VNone);
 ("doppler_integrated", VNone);
 ("dor", VNone);
 ("mag", VNone);
 ("pc_n0", VNone);
 ("pr_n0", VNone);
 ("pressure", VNone);
 ("range", VNone);
 ("rcs", VNone);
 ("receive_freq", VDec (DFin false 589950467453%N (-7)%Z));
 ("receive_freq_1", VNone);
 ("receive_freq_2", VNone);
 ("receive_freq_3", VNone);
 ("receive_freq_4", VNone);
 ("receive_freq_5", VNone);
 ("receive_phase_ct_1", VNone);
 ("receive_phase_ct_2", VNone);
 ("receive_phase_ct_3", VNone);
 ("receive_phase_ct_4", VNone);
 ("receive_phase_ct_5", VNone);
 ("rhumidity", VNone);
 ("stec", VNone);
 ("temperature", VNone);
 ("transmit_freq_1", VNone);
 ("transmit_freq_2", VNone);
 ("transmit_freq_3", VNone);
 ("transmit_freq_4", VNone);
 ("transmit_freq_5", VNone);
 ("transmit_freq_rate_1", VNone);
 ("transmit_freq_rate_2", VNone);
 ("transmit_freq_rate_3", VNone);
 ("transmit_freq_rate_4", VNone);
 ("transmit_freq_rate_5", VNone);
 ("transmit_phase_ct_1", VNone);
 ("transmit_phase_ct_2", VNone);
 ("transmit_phase_ct_3", VNone);
 ("transmit_phase_ct_4", VNone);
 ("transmit_phase_ct_5", VNone);
 ("tropo_dry", VNone);
 ("tropo_wet", VNone);
 ("vlbi_delay", VNone)]; VObj "TrackingDataObservationType" [("epoch", VStr (lit "2007-075T16:25:27.000"));
 ("angle_1", VNone);
 ("angle_2", VNone);
 ("carrier_power", VNone);
 ("clock_bias", VNone);
 ("clock_drift", VNone);
 ("doppler_count", VNone);
 ("doppler_instantaneous", VNone);
 ("doppler_integrated", VNone);
 ("dor", VNone);
 ("mag", VNone);
 ("pc_n0", VNone);
 ("pr_n0", VNone);
 ("pressure", VNone);
 ("range", VNone);
 ("rcs", VNone);
 ("receive_freq", VDec (DFin false 58916865996361%N (-9)%Z));
 ("receive_freq_1", VNone);
 ("receive_freq_2", VNone);
 ("receive_freq_3", VNone);
 ("receive_freq_4", VNone);
 ("receive_freq_5", VNone);
 ("receive_phase_ct_1", VNone);
 ("receive_phase_ct_2", VNone);
 ("receive_phase_ct_3", VNone);
 ("receive_phase_ct_4", VNone);
 ("receive_phase_ct_5", VNone);
 ("rhumidity", VNone);
 ("stec", VNone);
 ("temperature", VNone);
 ("transmit_freq_1", VNone);
 ("transmit_freq_2", VNone);
 ("transmit_freq_3", VNone);
 ("transmit_freq_4", VNone);
 ("transmit_freq_5", VNone);
 ("transmit_freq_rate_1", VNone);
 ("transmit_freq_rate_2", VNone);
 ("transmit_freq_rate_3", VNone);
 ("transmit_freq_rate_4", VNone);
 ("transmit_freq_rate_5", VNone);
 ("transmit_phase_ct_1", VNone);
 ("transmit_phase_ct_2", VNone);
 ("transmit_phase_ct_3", VNone);
 ("transmit_phase_ct_4", VNone);
 ("transmit_phase_ct_5", VNone);
 ("tropo_dry", VNone);
 ("tropo_wet", VNone);
 ("vlbi_delay", VNone)]; VObj "TrackingDataObservationType" [("epoch", VStr (lit "2007-075T16:26:27.000"));
 ("angle_1", VNone);
 ("angle_2", VNone);
 ("carrier_power", VNone);
 ("clock_bias", VNone);
 ("clock_drift", VNone);
 ("doppler_count", VNone);
 ("doppler_instantaneous", VNone);
 ("doppler_integrated", VNone);
 ("dor", VNone);
 ("mag", VNone);
 ("pc_n0", VNone);
 ("pr_n0", VNone);
 ("pressure", VNone);
 ("range", VNone);
 ("rcs", VNone);
 ("receive_freq", VDec (DFin false 58838584891319%N (-9)%Z));
 ("receive_freq_1", VNone);
 ("receive_freq_2", VNone);
 ("receive_freq_3", VNone);
 ("receive_freq_4", VNone);
 ("receive_freq_5", VNone);
 ("receive_phase_ct_1", VNone);
 ("receive_phase_ct_2", VNone);
 ("receive_phase_ct_3", VNone);
 ("receive_phase_ct_4", VNone);
 ("receive_phase_ct_5", VNone);
 ("rhumidity", VNone);
 ("stec", VNone);
 ("temperature", VNone);
 ("transmit_freq_1", VNone);
 ("transmit_freq_2", VNone);
 ("transmit_freq_3", VNone);
 ("transmit_freq_4", VNone);
 ("transmit_freq_5", VNone);
 ("transmit_freq_rate_1", VNone);
 ("transmit_freq_rate_2", VNone);
 ("transmit_freq_rate_3", VNone);
 ("transmit_freq_rate_4", VNone);
 ("transmit_freq_rate_5", VNone);
 ("transmit_phase_ct_1", VNone);
 ("transmit_phase_ct_2", VNone);
 ("transmit_phase_ct_3", VNone);
 ("transmit_phase_ct_4", VNone);
 ("transmit_phase_ct_5", VNone);
 ("tropo_dry", VNone);
 ("tropo_wet", VNone);
 ("vlbi_delay", VNone)]; VObj "TrackingDataObservationType" [("epoch", VStr (lit "2007-075T16:27:27.000"));
 ("angle_1", VNone);
 ("angle_2", VNone);
 ("carrier_power", VNone);
 ("clock_bias", VNone);
 ("clock_drift", VNone);
 ("doppler_count", VNone);
 ("doppler_instantaneous", VNone);
 ("doppler_integrated", VNone);
 ("dor", VNone);
 ("mag", VNone);
 ("pc_n0", VNone);
 ("pr_n0", VNone);
 ("pressure", VNone);
 ("range", VNone);
 ("rcs", VNone);
 ("receive_freq", VDec (DFin false 58760201879501%N (-9)%Z));
 ("receive_freq_1", VNone);
 ("receive_freq_2", VNone);
 ("receive_freq_3", VNone);
 ("receive_freq_4", VNone);
 ("receive_freq_5", VNone);
 ("receive_phase_ct_1", VNone);
 ("receive_phase_ct_2", VNone);
 ("receive_phase_ct_3", VNone);
 ("receive_phase_ct_4", VNone);
 ("receive_phase_ct_5", VNone);
 ("rhumidity", VNone);
 ("stec", VNone);
 ("temperature", VNone);
 ("transmit_freq_1", VNone);
 ("transmit_freq_2", VNone);
 ("transmit_freq_3", VNone);
 ("transmit_freq_4", VNone);
 ("transmit_freq_5", VNone);
 ("transmit_freq_rate_1", VNone);
 ("transmit_freq_rate_2", VNone);
 ("transmit_freq_rate_3", VNone);
 ("transmit_freq_rate_4", VNone);
 ("transmit_freq_rate_5", VNone);
 ("transmit_phase_ct_1", VNone);
 ("transmit_phase_ct_2", VNone);
 ("transmit_phase_ct_3", VNone);
 ("transmit_phase_ct_4", VNone);
 ("transmit_phase_ct_5", VNone);
 ("tropo_dry", VNone);
 ("tropo_wet", VNone);
 ("vlbi_delay", VNone)]; VObj "TrackingDataObservationType" [("epoch", VStr (lit "2007-075T16:28:27.000"));
 ("angle_1", VNone);
 ("angle_2", VNone);
 ("carrier_power", VNone);
 ("clock_bias", VNone);
 ("clock_drift", VNone);
 ("doppler_count", VNone);
 ("doppler_instantaneous", VNone);
 ("doppler_integrated", VNone);
 ("dor", VNone);
 ("mag", VNone);
 ("pc_n0", VNone);
 ("pr_n0", VNone);
 ("pressure", VNone);
 ("range", VNone);
 ("rcs", VNone);
 ("receive_freq", VDec (DFin false 58681720947266%N (-9)%Z));
 ("receive_freq_1", VNone);
 ("receive_freq_2", VNone);
 ("receive_freq_3", VNone);
 ("receive_freq_4", VNone);
 ("receive_freq_5", VNone);
 ("receive_phase_ct_1", VNone);
 ("receive_phase_ct_2", VNone);
 ("receive_phase_ct_3", VNone);
 ("receive_phase_ct_4", VNone);
 ("receive_phase_ct_5", VNone);
 ("rhumidity", VNone);
 ("stec", VNone);
 ("temperature", VNone);
 ("transmit_freq_1", VNone);
 ("transmit_freq_2", VNone);
 ("transmit_freq_3", VNone);
 ("transmit_freq_4", VNone);
 ("transmit_freq_5", VNone);
 ("transmit_freq_rate_1", VNone);
 ("transmit_freq_rate_2", VNone);
 ("transmit_freq_rate_3", VNone);
 ("transmit_freq_rate_4", VNone);
 ("transmit_freq_rate_5", VNone);
 ("transmit_phase_ct_1", VNone);
 ("transmit_phase_ct_2", VNone);
 ("transmit_phase_ct_3", VNone);
 ("transmit_phase_ct_4", VNone);
 ("transmit_phase_ct_5", VNone);
 ("tropo_dry", VNone);
 ("tropo_wet", VNone);
 ("vlbi_delay", VNone)]; VObj "TrackingDataObservationType" [("epoch", VStr (lit "2007-075T16:29:27.000"));
 ("angle_1", VNone);
 ("angle_2", VNone);
 ("carrier_power", VNone);
 ("clock_bias", VNone);
 ("clock_drift", VNone);
 ("doppler_count", VNone);
 ("doppler_instantaneous", VNone);
 ("doppler_integrated", VNone);
 ("dor", VNone);
 ("mag", VNone);
 ("pc_n0", VNone);
 ("pr_n0", VNone);
 ("pressure", VNone);
 ("range", VNone);
 ("rcs", VNone);
 ("receive_freq", VDec (DFin false 58603143963814%N (-9)%Z));
 ("receive_freq_1", VNone);
 ("receive_freq_2", VNone);
 ("receive_freq_3", VNone);
 ("receive_freq_4", VNone);
 ("receive_freq_5", VNone);
 ("receive_phase_ct_1", VNone);
 ("receive_phase_ct_2", VNone);
 ("receive_phase_ct_3", VNone);
 ("receive_phase_ct_4", VNone);
 ("receive_phase_ct_5", VNone);
 ("rhumidity", VNone);
 ("stec", VNone);
 ("temperature", VNone);
 ("transmit_freq_1", VNone);
 ("transmit_freq_2", VNone);
 ("transmit_freq_3", VNone);
 ("transmit_freq_4", VNone);
 ("transmit_freq_5", VNone);
 ("transmit_freq_rate_1", VNone);
 ("transmit_freq_rate_2", VNone);
 ("transmit_freq_rate_3", VNone);
 ("transmit_freq_rate_4", VNone);
 ("transmit_freq_rate_5", VNone);
 ("transmit_phase_ct_1", VNone);
 ("transmit_phase_ct_2", VNone);
 ("transmit_phase_ct_3", VNone);
 ("transmit_phase_ct_4", VNone);
 ("transmit_phase_ct_5", VNone);
 ("tropo_dry", VNone);
 ("tropo_wet", VNone);
 ("vlbi_delay", VNone)]; VObj "TrackingDataObservationType" [("epoch", VStr (lit "2007-075T16:30:27.000"));
 ("angle_1", VNone);
 ("angle_2", VNone);
 ("carrier_power", VNone);
 ("clock_bias", VNone);
 ("clock_drift", VNone);
 ("doppler_count", VNone);
 ("doppler_instantaneous", VNone);
 ("doppler_integrated", VNone);
 ("dor", VNone);
 ("mag", VNone);
 ("pc_n0", VNone);
 ("pr_n0", VNone);
 ("pressure", VNone);
 ("range", VNone);
 ("rcs", VNone);
 ("receive_freq", VDec (DFin false 58524472222328%N (-9)%Z));
 ("receive_freq_1", VNone);
 ("receive_freq_2", VNone);
 ("receive_freq_3", VNone);
 ("receive_freq_4", VNone);
 ("receive_freq_5", VNone);
 ("receive_phase_ct_1", VNone);
 ("receive_phase_ct_2", VNone);
 ("receive_phase_ct_3", VNone);
 ("receive_phase_ct_4", VNone);
 ("receive_phase_ct_5", VNone);
 ("rhumidity", VNone);
 ("stec", VNone);
 ("temperature", VNone);
 ("transmit_freq_1", VNone);
 ("transmit_freq_2", VNone);
 ("transmit_freq_3", VNone);
 ("transmit_freq_4", VNone);
 ("transmit_freq_5", VNone);
 ("transmit_freq_rate_1", VNone);
 ("transmit_freq_rate_2", VNone);
 ("transmit_freq_rate_3", VNone);
 ("transmit_freq_rate_4", VNone);
 ("transmit_freq_rate_5", VNone);
 ("transmit_phase_ct_1", VNone);
 ("transmit_phase_ct_2", VNone);
 ("transmit_phase_ct_3", VNone);
 ("transmit_phase_ct_4", VNone);
 ("transmit_phase_ct_5", VNone);
 ("tropo_dry", VNone);
 ("tropo_wet", VNone);
 ("vlbi_delay", VNone)]; VObj "TrackingDataObservationType" [("epoch", VStr (lit "2007-075T16:31:27.000"));
 ("angle_1", VNone);
 ("angle_2", VNone);
 ("carrier_power", VNone);
 ("clock_bias", VNone);
 ("clock_drift", VNone);
 ("doppler_count", VNone);
 ("doppler_instantaneous", VNone);
 ("doppler_integrated", VNone);
 ("dor", VNone);
 ("mag", VNone);
 ("pc_n0", VNone);
 ("pr_n0", VNone);
 ("pressure", VNone);
 ("range", VNone);
 ("rcs", VNone);
 ("receive_freq", VDec (DFin false 5844570712471%N (-8)%Z));
 ("receive_freq_1", VNone);
 ("receive_freq_2", VNone);
 ("receive_freq_3", VNone);
 ("receive_freq_4", VNone);
 ("receive_freq_5", VNone);
 ("receive_phase_ct_1", VNone);
 ("receive_phase_ct_2", VNone);
 ("receive_phase_ct_3", VNone);
 ("receive_phase_ct_4", VNone);
 ("receive_phase_ct_5", VNone);
 ("rhumidity", VNone);
 ("stec", VNone);
 ("temperature", VNone);
 ("transmit_freq_1", VNone);
 ("transmit_freq_2", VNone);
 ("transmit_freq_3", VNone);
 ("transmit_freq_4", VNone);
 ("transmit_freq_5", VNone);
 ("transmit_freq_rate_1", VNone);
 ("transmit_freq_rate_2", VNone);
 ("transmit_freq_rate_3", VNone);
 ("transmit_freq_rate_4", VNone);
 ("transmit_freq_rate_5", VNone);
 ("transmit_phase_ct_1", VNone);
 ("transmit_phase_ct_2", VNone);
 ("transmit_phase_ct_3", VNone);
 ("transmit_phase_ct_4", VNone);
 ("transmit_phase_ct_5", VNone);
 ("tropo_dry", VNone);
 ("tropo_wet", VNone);
 ("vlbi_delay", VNone)]; VObj "TrackingDataObservationType" [("epoch", VStr (lit "2007-075T16:32:27.000"));
 ("angle_1", VNone);
 ("angle_2", VNone);
 ("carrier_power", VNone);
 ("clock_bias", VNone);
 ("clock_drift", VNone);
 ("doppler_count", VNone);
 ("doppler_instantaneous", VNone);
 ("doppler_integrated", VNone);
 ("dor", VNone);
 ("mag", VNone);
 ("pc_n0", VNone);
 ("pr_n0", VNone);
 ("pressure", VNone);
 ("range", VNone);
 ("rcs", VNone);
 ("receive_freq", VDec (DFin false 58366850589752%N (-9)%Z));
 ("receive_freq_1", VNone);
 ("receive_freq_2", VNone);
 ("receive_freq_3", VNone);
 ("receive_freq_4", VNone);
 ("receive_freq_5", VNone);
 ("receive_phase_ct_1", VNone);
 ("receive_phase_ct_2", VNone);
 ("receive_phase_ct_3", VNone);
 ("receive_phase_ct_4", VNone);
 ("receive_phase_ct_5", VNone);
 ("rhumidity", VNone);
 ("stec", VNone);
 ("temperature", VNone);
 ("transmit_freq_1", VNone);
 ("transmit_freq_2", VNone);
 ("transmit_freq_3", VNone);
 ("transmit_freq_4", VNone);
 ("transmit_freq_5", VNone);
 ("transmit_freq_rate_1", VNone);
 ("transmit_freq_rate_2", VNone);
 ("transmit_freq_rate_3", VNone);
 ("transmit_freq_rate_4", VNone);
 ("transmit_freq_rate_5", VNone);
 ("transmit_phase_ct_1", VNone);
 ("transmit_phase_ct_2", VNone);
 ("transmit_phase_ct_3", VNone);
 ("transmit_phase_ct_4", VNone);
 ("transmit_phase_ct_5", VNone);
 ("tropo_dry", VNone);
 ("tropo_wet", VNone);
 ("vlbi_delay", VNone)]; VObj "TrackingDataObservationType" [("epoch", VStr (lit "2007-075T16:33:27.000"));
 ("angle_1", VNone);
 ("angle_2", VNone);
 ("carrier_power", VNone);
 ("clock_bias", VNone);
 ("clock_drift", VNone);
 ("doppler_count", VNone);
 ("doppler_instantaneous", VNone);
 ("doppler_integrated", VNone);
 ("dor", VNone);
 ("mag", VNone);
 ("pc_n0", VNone);
 ("pr_n0", VNone);
 ("pressure", VNone);
 ("range", VNone);
 ("rcs", VNone);
 ("receive_freq", VDec (DFin false 58287903629303%N (-9)%Z));
 ("receive_freq_1", VNone);
 ("receive_freq_2", VNone);
 ("receive_freq_3", VNone);
 ("receive_freq_4", VNone);
 ("receive_freq_5", VNone);
 ("receive_phase_ct_1", VNone);
 ("receive_phase_ct_2", VNone);
 ("receive_phase_ct_3", VNone);
 ("receive_phase_ct_4", VNone);
 ("receive_phase_ct_5", VNone);
 ("rhumidity", VNone);
 ("stec", VNone);
 ("temperature", VNone);
 ("transmit_freq_1", VNone);
 ("transmit_freq_2", VNone);
 ("transmit_freq_3", VNone);
 ("transmit_freq_4", VNone);
 ("transmit_freq_5", VNone);
 ("transmit_freq_rate_1", VNone);
 ("transmit_freq_rate_2", VNone);
 ("transmit_freq_rate_3", VNone);
 ("transmit_freq_rate_4", VNone);
 ("transmit_freq_rate_5", VNone);
 ("transmit_phase_ct_1", VNone);
 ("transmit_phase_ct_2", VNone);
 ("transmit_phase_ct_3", VNone);
 ("transmit_phase_ct_4", VNone);
 ("transmit_phase_ct_5", VNone);
 ("tropo_dry", VNone);
 ("tropo_wet", VNone);
 ("vlbi_delay", VNone)]; VObj "TrackingDataObservationType" [("epoch", VStr (lit "2007-075T16:34:27.000"));
 ("angle_1", VNone);
 ("angle_2", VNone);
 ("carrier_power", VNone);
 ("clock_bias", VNone);
 ("clock_drift", VNone);
 ("doppler_count", VNone);
 ("doppler_instantaneous", VNone);
 ("doppler_integrated", VNone);
 ("dor", VNone);
 ("mag", VNone);
 ("pc_n0", VNone);
 ("pr_n0", VNone);
 ("pressure", VNone);
 ("range", VNone);
 ("rcs", VNone);
 ("receive_freq", VDec (DFin false 58208868685722%N (-9)%Z));
 ("receive_freq_1", VNone);
 ("receive_freq_2", VNone);
 ("receive_freq_3", VNone);
 ("receive_freq_4", VNone);
 ("receive_freq_5", VNone);
 ("receive_phase_ct_1", VNone);
 ("receive_phase_ct_2", VNone);
 ("receive_phase_ct_3", VNone);
 ("receive_phase_ct_4", VNone);
 ("receive_phase_ct_5", VNone);
 ("rhumidity", VNone);
 ("stec", VNone);
 ("temperature", VNone);
 ("transmit_freq_1", VNone);
 ("transmit_freq_2", VNone);
 ("transmit_freq_3", VNone);
 ("transmit_freq_4", VNone);
 ("transmit_freq_5", VNone);
 ("transmit_freq_rate_1", VNone);
 ("transmit_freq_rate_2", VNone);
 ("transmit_freq_rate_3", VNone);
 ("transmit_freq_rate_4", VNone);
 ("transmit_freq_rate_5", VNone);
 ("transmit_phase_ct_1", VNone);
 ("transmit_phase_ct_2", VNone);
 ("transmit_phase_ct_3", VNone);
 ("transmit_phase_ct_4", VNone);
 ("transmit_phase_ct_5", VNone);
 ("tropo_dry", VNone);
 ("tropo_wet", VNone);
 ("vlbi_delay", VNone)]; VObj "TrackingDataObservationType" [("epoch", VStr (lit "2007-075T16:35:27.000"));
 ("angle_1", VNone);
 ("angle_2", VNone);
 ("carrier_power", VNone);
 ("clock_bias", VNone);
 ("clock_drift", VNone);
 ("doppler_count", VNone);
 ("doppler_instantaneous", VNone);
 ("doppler_integrated", VNone);
 ("dor", VNone);
 ("mag", VNone);
 ("pc_n0", VNone);
 ("pr_n0", VNone);
 ("pressure", VNone);
 ("range", VNone);
 ("rcs", VNone);
 ("receive_freq", VDec (DFin false 58129747063637%N (-9)%Z));
 ("receive_freq_1", VNone);
 ("receive_freq_2", VNone);
 ("receive_freq_3", VNone);
 ("receive_freq_4", VNone);
 ("receive_freq_5", VNone);
 ("receive_phase_ct_1", VNone);
 ("receive_phase_ct_2", VNone);
 ("receive_phase_ct_3", VNone);
 ("receive_phase_ct_4", VNone);
 ("receive_phase_ct_5", VNone);
 ("rhumidity", VNone);
 ("stec", VNone);
 ("temperature", VNone);
 ("transmit_freq_1", VNone);
 ("transmit_freq_2", VNone);
 ("transmit_freq_3", VNone);
 ("transmit_freq_4", VNone);
 ("transmit_freq_5", VNone);
 ("transmit_freq_rate_1", VNone);
 ("transmit_freq_rate_2", VNone);
 ("transmit_freq_rate_3", VNone);
 ("transmit_freq_rate_4", VNone);
 ("transmit_freq_rate_5", VNone);
 ("transmit_phase_ct_1", VNone);
 ("transmit_phase_ct_2", VNone);
 ("transmit_phase_ct_3", VNone);
 ("transmit_phase_ct_4", VNone);
 ("transmit_phase_ct_5", VNone);
 ("tropo_dry", VNone);
 ("tropo_wet", VNone);
 ("vlbi_delay", VNone)]; VObj "TrackingDataObservationType" [("epoch", VStr (lit "2007-075T16:36:27.000"));
 ("angle_1", VNone);
 ("angle_2", VNone);
 ("carrier_power", VNone);
 ("clock_bias", VNone);
 ("clock_drift", VNone);
 ("doppler_count", VNone);
 ("doppler_instantaneous", VNone);
 ("doppler_integrated", VNone);
 ("dor", VNone);
 ("mag", VNone);
 ("pc_n0", VNone);
 ("pr_n0", VNone);
 ("pressure", VNone);
 ("range", VNone);
 ("rcs", VNone);
 ("receive_freq", VDec (DFin false 58050540581703%N (-9)%Z));
 ("receive_freq_1", VNone);
 ("receive_freq_2", VNone);
 ("receive_freq_3", VNone);
 ("receive_freq_4", VNone);
 ("receive_freq_5", VNone);
 ("receive_phase_ct_1", VNone);
 ("receive_phase_ct_2", VNone);
 ("receive_phase_ct_3", VNone);
 ("receive_phase_ct_4", VNone);
 ("receive_phase_ct_5", VNone);
 ("rhumidity", VNone);
 ("stec", VNone);
 ("temperature", VNone);
 ("transmit_freq_1", VNone);
 ("transmit_freq_2", VNone);
 ("transmit_freq_3", VNone);
 ("transmit_freq_4", VNone);
 ("transmit_freq_5", VNone);
 ("transmit_freq_rate_1", VNone);
 ("transmit_freq_rate_2", VNone);
 ("transmit_freq_rate_3", VNone);
 ("transmit_freq_rate_4", VNone);
 ("transmit_freq_rate_5", VNone);
 ("transmit_phase_ct_1", VNone);
 ("transmit_phase_ct_2", VNone);
 ("transmit_phase_ct_3", VNone);
 ("transmit_phase_ct_4", VNone);
 ("transmit_phase_ct_5", VNone);
 ("tropo_dry", VNone);
 ("tropo_wet", VNone);
 ("vlbi_delay", VNone)]; VObj "TrackingDataObservationType" [("epoch", VStr (lit "2007-075T16:37:27.000"));
 ("angle_1", VNone);
 ("angle_2", VNone);
 ("carrier_power", VNone);
 ("clock_bias", VNone);
 ("clock_drift", VNone);
 ("doppler_count", VNone);
 ("doppler_instantaneous", VNone);
 ("doppler_integrated", VNone);
 ("dor", VNone);
 ("mag", VNone);
 ("pc_n0", VNone);
 ("pr_n0", VNone);
 ("pressure", VNone);
 ("range", VNone);
 ("rcs", VNone);
 ("receive_freq", VDec (DFin false 57971250295639%N (-9)%Z));
 ("receive_freq_1", VNone);
 ("receive_freq_2", VNone);
 ("receive_freq_3", VNone);
 ("receive_freq_4", VNone);
 ("receive_freq_5", VNone);
 ("receive_phase_ct_1", VNone);
 ("receive_phase_ct_2", VNone);
 ("receive_phase_ct_3", VNone);
 ("receive_phase_ct_4", VNone);
 ("receive_phase_ct_5", VNone);
 ("rhumidity", VNone);
 ("stec", VNone);
 ("temperature", VNone);
 ("transmit_freq_1", VNone);
 ("transmit_freq_2", VNone);
 ("transmit_freq_3", VNone);
 ("transmit_freq_4", VNone);
 ("transmit_freq_5", VNone);
 ("transmit_freq_rate_1", VNone);
 ("transmit_freq_rate_2", VNone);
 ("transmit_freq_rate_3", VNone);
 ("transmit_freq_rate_4", VNone);
 ("transmit_freq_rate_5", VNone);
 ("transmit_phase_ct_1", VNone);
 ("transmit_phase_ct_2", VNone);
 ("transmit_phase_ct_3", VNone);
 ("transmit_phase_ct_4", VNone);
 ("transmit_phase_ct_5", VNone);
 ("tropo_dry", VNone);
 ("tropo_wet", VNone);
 ("vlbi_delay", VNone)]; VObj "TrackingDataObservationType" [("epoch", VStr (lit "2007-075T16:38:27.000"));
 ("angle_1", VNone);
 ("angle_2", VNone);
 ("carrier_power", VNone);
 ("clock_bias", VNone);
 ("clock_drift", VNone);
 ("doppler_count", VNone);
 ("doppler_instantaneous", VNone);
 ("doppler_integrated", VNone);
 ("dor", VNone);
 ("mag", VNone);
 ("pc_n0", VNone);
 ("pr_n0", VNone);
 ("pressure", VNone);
 ("range", VNone);
 ("rcs", VNone);
 ("receive_freq", VDec (DFin false 5789187872982%N (-8)%Z));
 ("receive_freq_1", VNone);
 ("receive_freq_2", VNone);
 ("receive_freq_3", VNone);
 ("receive_freq_4", VNone);
 ("receive_freq_5", VNone);
 ("receive_phase_ct_1", VNone);
 ("receive_phase_ct_2", VNone);
 ("receive_phase_ct_3", VNone);
 ("receive_phase_ct_4", VNone);
 ("receive_phase_ct_5", VNone);
 ("rhumidity", VNone);
 ("stec", VNone);
 ("temperature", VNone);
 ("transmit_freq_1", VNone);
 ("transmit_freq_2", VNone);
 ("transmit_freq_3", VNone);
 ("transmit_freq_4", VNone);
 ("transmit_freq_5", VNone);
 ("transmit_freq_rate_1", VNone);
 ("transmit_freq_rate_2", VNone);
 ("transmit_freq_rate_3", VNone);
 ("transmit_freq_rate_4", VNone);
 ("transmit_freq_rate_5", VNone);
 ("transmit_phase_ct_1", VNone);
 ("transmit_phase_ct_2", VNone);
 ("transmit_phase_ct_3", VNone);
 ("transmit_phase_ct_4", VNone);
 ("transmit_phase_ct_5", VNone);
 ("tropo_dry", VNone);
 ("tropo_wet", VNone);
 ("vlbi_delay", VNone)]; VObj "TrackingDataObservationType" [("epoch", VStr (lit "2007-075T16:39:27.000"));
 ("angle_1", VNone);
 ("angle_2", VNone);
 ("carrier_power", VNone);
 ("clock_bias", VNone);
 ("clock_drift", VNone);
 ("doppler_count", VNone);
 ("doppler_instantaneous", VNone);
 ("doppler_integrated", VNone);
 ("dor", VNone);
 ("mag", VNone);
 ("pc_n0", VNone);
 ("pr_n0", VNone);
 ("pressure", VNone);
 ("range", VNone);
 ("rcs", VNone);
 ("receive_freq", VDec (DFin false 57812426887512%N (-9)%Z));
 ("receive_freq_1", VNone);
 ("receive_freq_2", VNone);
 ("receive_freq_3", VNone);
 ("receive_freq_4", VNone);
 ("receive_freq_5", VNone);
 ("receive_phase_ct_1", VNone);
 ("receive_phase_ct_2", VNone);
 ("receive_phase_ct_3", VNone);
 ("receive_phase_ct_4", VNone);
 ("receive_phase_ct_5", VNone);
 ("rhumidity", VNone);
 ("stec", VNone);
 ("temperature", VNone);
 ("transmit_freq_1", VNone);
 ("transmit_freq_2", VNone);
 ("transmit_freq_3", VNone);
 ("transmit_freq_4", VNone);
 ("transmit_freq_5", VNone);
 ("transmit_freq_rate_1", VNone);
 ("transmit_freq_rate_2", VNone);
 ("transmit_freq_rate_3", VNone);
 ("transmit_freq_rate_4", VNone);
 ("transmit_freq_rate_5", VNone);
 ("transmit_phase_ct_1", VNone);
 ("transmit_phase_ct_2", VNone);
 ("transmit_phase_ct_3", VNone);
 ("transmit_phase_ct_4", VNone);
 ("transmit_phase_ct_5", VNone);
 ("tropo_dry", VNone);
 ("tropo_wet", VNone);
 ("vlbi_delay", VNone)]; VObj "TrackingDataObservationType" [("epoch", VStr (lit "2007-075T16:40:27.000"));
 ("angle_1", VNone);
 ("angle_2", VNone);
 ("carrier_power", VNone);
 ("clock_bias", VNone);
 ("clock_drift", VNone);
 ("doppler_count", VNone);
 ("doppler_instantaneous", VNone);
 ("doppler_integrated", VNone);
 ("dor", VNone);
 ("mag", VNone);
 ("pc_n0", VNone);
 ("pr_n0", VNone);
 ("pressure", VNone);
 ("range", VNone);
 ("rcs", VNone);
 ("receive_freq", VDec (DFin false 57732895645142%N (-9)%Z));
 ("receive_freq_1", VNone);
 ("receive_freq_2", VNone);
 ("receive_freq_3", VNone);
 ("receive_freq_4", VNone);
 ("receive_freq_5", VNone);
 ("receive_phase_ct_1", VNone);
 ("receive_phase_ct_2", VNone);
 ("receive_phase_ct_3", VNone);
 ("receive_phase_ct_4", VNone);
 ("receive_phase_ct_5", VNone);
 ("rhumidity", VNone);
 ("stec", VNone);
 ("temperature", VNone);
 ("transmit_freq_1", VNone);
 ("transmit_freq_2", VNone);
 ("transmit_freq_3", VNone);
 ("transmit_freq_4", VNone);
 ("transmit_freq_5", VNone);
 ("transmit_freq_rate_1", VNone);
 ("transmit_freq_rate_2", VNone);
 ("transmit_freq_rate_3", VNone);
 ("transmit_freq_rate_4", VNone);
 ("transmit_freq_rate_5", VNone);
 ("transmit_phase_ct_1", VNone);
 ("transmit_phase_ct_2", VNone);
 ("transmit_phase_ct_3", VNone);
 ("transmit_phase_ct_4", VNone);
 ("transmit_phase_ct_5", VNone);
 ("tropo_dry", VNone);
 ("tropo_wet", VNone);
 ("vlbi_delay", VNone)]; VObj "TrackingDataObservationType" [("epoch", VStr (lit "2007-075T16:41:27.000"));
 ("angle_1", VNone);
 ("angle_2", VNone);
 ("carrier_power", VNone);
 ("clock_bias", VNone);
 ("clock_drift", VNone);
 ("doppler_count", VNone);
 ("doppler_instantaneous", VNone);
 ("doppler_integrated", VNone);
 ("dor", VNone);
 ("mag", VNone);
 ("pc_n0", VNone);
 ("pr_n0", VNone);
 ("pressure", VNone);
 ("range", VNone);
 ("rcs", VNone);
 ("receive_freq", VDec (DFin false 57653288560867%N (-9)%Z));
 ("receive_freq_1", VNone);
 ("receive_freq_2", VNone);
 ("receive_freq_3", VNone);
 ("receive_freq_4", VNone);
 ("receive_freq_5", VNone);
 ("receive_phase_ct_1", VNone);
 ("receive_phase_ct_2", VNone);
 ("receive_phase_ct_3", VNone);
 ("receive_phase_ct_4", VNone);
 ("receive_phase_ct_5", VNone);
 ("rhumidity", VNone);
 ("stec", VNone);
 ("temperature", VNone);
 ("transmit_freq_1", VNone);
 ("transmit_freq_2", VNone);
 ("transmit_freq_3", VNone);
 ("transmit_freq_4", VNone);
 ("transmit_freq_5", VNone);
 ("transmit_freq_rate_1", VNone);
 ("transmit_freq_rate_2", VNone);
 ("transmit_freq_rate_3", VNone);
 ("transmit_freq_rate_4", VNone);
 ("transmit_freq_rate_5", VNone);
 ("transmit_phase_ct_1", VNone);
 ("transmit_phase_ct_2", VNone);
 ("transmit_phase_ct_3", VNone);
 ("transmit_phase_ct_4", VNone);
 ("transmit_phase_ct_5", VNone);
 ("tropo_dry", VNone);
 ("tropo_wet", VNone);
 ("vlbi_delay", VNone)]; VObj "TrackingDataObservationType" [("epoch", VStr (lit "2007-075T16:42:27.000"));
 ("angle_1", VNone);
 ("angle_2", VNone);
 ("carrier_power", VNone);
 ("clock_bias", VNone);
 ("clock_drift", VNone);
 ("doppler_count", VNone);
 ("doppler_instantaneous", VNone);
 ("doppler_integrated", VNone);
 ("dor", VNone);
 ("mag", VNone);
 ("pc_n0", VNone);
 ("pr_n0", VNone);
 ("pressure", VNone);
 ("range", VNone);
 ("rcs", VNone);
 ("receive_freq", VDec (DFin false 57573605575562%N (-9)%Z));
 ("receive_freq_1", VNone);
 ("receive_freq_2", VNone);
 ("receive_freq_3", VNone);
 ("receive_freq_4", VNone);
 ("receive_freq_5", VNone);
 ("receive_phase_ct_1", VNone);
 ("receive_phase_ct_2", VNone);
 ("receive_phase_ct_3", VNone);
 ("receive_phase_ct_4", VNone);
 ("receive_phase_ct_5", VNone);
 ("rhumidity", VNone);
 ("stec", VNone);
 ("temperature", VNone);
 ("transmit_freq_1", VNone);
 ("transmit_freq_2", VNone);
 ("transmit_freq_3", VNone);
 ("transmit_freq_4", VNone);
 ("transmit_freq_5", VNone);
 ("transmit_freq_rate_1", VNone);
 ("transmit_freq_rate_2", VNone);
 ("transmit_freq_rate_3", VNone);
 ("transmit_freq_rate_4", VNone);
 ("transmit_freq_rate_5", VNone);
 ("transmit_phase_ct_1", VNone);
 ("transmit_phase_ct_2", VNone);
 ("transmit_phase_ct_3", VNone);
 ("transmit_phase_ct_4", VNone);
 ("transmit_phase_ct_5", VNone);
 ("tropo_dry", VNone);
 ("tropo_wet", VNone);
 ("vlbi_delay", VNone)]; VObj "TrackingDataObservationType" [("epoch", VStr (lit "2007-075T16:43:27.000"));
 ("angle_1", VNone);
 ("angle_2", VNone);
 ("carrier_power", VNone);
 ("clock_bias", VNone);
 ("clock_drift", VNone);
 ("doppler_count", VNone);
 ("doppler_instantaneous", VNone);
 ("doppler_integrated", VNone);
 ("dor", VNone);
 ("mag", VNone);
 ("pc_n0", VNone);
 ("pr_n0", VNone);
 ("pressure", VNone);
 ("range", VNone);
 ("rcs", VNone);
 ("receive_freq", VDec (DFin false 57493847225189%N (-9)%Z));
 ("receive_freq_1", VNone);
 ("receive_freq_2", VNone);
 ("receive_freq_3", VNone);
 ("receive_freq_4", VNone);
 ("receive_freq_5", VNone);
 ("receive_phase_ct_1", VNone);
 ("receive_phase_ct_2", VNone);
 ("receive_phase_ct_3", VNone);
 ("receive_phase_ct_4", VNone);
 ("receive_phase_ct_5", VNone);
 ("rhumidity", VNone);
 ("stec", VNone);
 ("temperature", VNone);
 ("transmit_freq_1", VNone);
 ("transmit_freq_2", VNone);
 ("transmit_freq_3", VNone);
 ("transmit_freq_4", VNone);
 ("transmit_freq_5", VNone);
 ("transmit_freq_rate_1", VNone);
 ("transmit_freq_rate_2", VNone);
 ("transmit_freq_rate_3", VNone);
 ("transmit_freq_rate_4", VNone);
 ("transmit_freq_rate_5", VNone);
 ("transmit_phase_ct_1", VNone);
 ("transmit_phase_ct_2", VNone);
 ("transmit_phase_ct_3", VNone);
 ("transmit_phase_ct_4", VNone);
 ("transmit_phase_ct_5", VNone);
 ("tropo_dry", VNone);
 ("tropo_wet", VNone);
 ("vlbi_delay", VNone)]; VObj "TrackingDataObservationType" [("epoch", VStr (lit "2007-075T16:44:27.000"));
 ("angle_1", VNone);
 ("angle_2", VNone);
 ("carrier_power", VNone);
 ("clock_bias", VNone);
 ("clock_drift", VNone);
 ("doppler_count", VNone);
 ("doppler_instantaneous", VNone);
 ("doppler_integrated", VNone);
 ("dor", VNone);
 ("mag", VNone);
 ("pc_n0", VNone);
 ("pr_n0", VNone);
 ("pressure", VNone);
 ("range", VNone);
 ("rcs", VNone);
 ("receive_freq", VDec (DFin false 57414019731522%N (-9)%Z));
 ("receive_freq_1", VNone);
 ("receive_freq_2", VNone);
 ("receive_freq_3", VNone);
 ("receive_freq_4", VNone);
 ("receive_freq_5", VNone);
 ("receive_phase_ct_1", VNone);
 ("receive_phase_ct_2", VNone);
 ("receive_phase_ct_3", VNone);
 ("receive_phase_ct_4", VNone);
 ("receive_phase_ct_5", VNone);
 ("rhumidity", VNone);
 ("stec", VNone);
 ("temperature", VNone);
 ("transmit_freq_1", VNone);
 ("transmit_freq_2", VNone);
 ("transmit_freq_3", VNone);
 ("transmit_freq_4", VNone);
 ("transmit_freq_5", VNone);
 ("transmit_freq_rate_1", VNone);
 ("transmit_freq_rate_2", VNone);
 ("transmit_freq_rate_3", VNone);
 ("transmit_freq_rate_4", VNone);
 ("transmit_freq_rate_5", VNone);
 ("transmit_phase_ct_1", VNone);
 ("transmit_phase_ct_2", VNone);
 ("transmit_phase_ct_3", VNone);
 ("transmit_phase_ct_4", VNone);
 ("transmit_phase_ct_5", VNone);
 ("tropo_dry", VNone);
 ("tropo_wet", VNone);
 ("vlbi_delay", VNone)]; VObj "TrackingDataObservationType" [("epoch", VStr (lit "2007-075T16:45:27.000"));
 ("angle_1", VNone);
 ("angle_2", VNone);
 ("carrier_power", VNone);
 ("clock_bias", VNone);
 ("clock_drift", VNone);
 ("doppler_count", VNone);
 ("doppler_instantaneous", VNone);
 ("doppler_integrated", VNone);
 ("dor", VNone);
 ("mag", VNone);
 ("pc_n0", VNone);
 ("pr_n0", VNone);
 ("pressure", VNone);
 ("range", VNone);
 ("rcs", VNone);
 ("receive_freq", VDec (DFin false 57334121713638%N (-9)%Z));
 ("receive_freq_1", VNone);
 ("receive_freq_2", VNone);
 ("receive_freq_3", VNone);
 ("receive_freq_4", VNone);
 ("receive_freq_5", VNone);
 ("receive_phase_ct_1", VNone);
 ("receive_phase_ct_2", VNone);
 ("receive_phase_ct_3", VNone);
 ("receive_phase_ct_4", VNone);
 ("receive_phase_ct_5", VNone);
 ("rhumidity", VNone);
 ("stec", VNone);
 ("temperature", VNone);
 ("transmit_freq_1", VNone);
 ("transmit_freq_2", VNone);
 ("transmit_freq_3", VNone);
 ("transmit_freq_4", VNone);
 ("transmit_freq_5", VNone);
 ("transmit_freq_rate_1", VNone);
 ("transmit_freq_rate_2", VNone);
 ("transmit_freq_rate_3", VNone);
 ("transmit_freq_rate_4", VNone);
 ("transmit_freq_rate_5", VNone);
 ("transmit_phase_ct_1", VNone);
 ("transmit_phase_ct_2", VNone);
 ("transmit_phase_ct_3", VNone);
 ("transmit_phase_ct_4", VNone);
 ("transmit_phase_ct_5", VNone);
 ("tropo_dry", VNone);
 ("tropo_wet", VNone);
 ("vlbi_delay", VNone)]; VObj "TrackingDataObservationType" [("epoch", VStr (lit "2007-075T16:46:27.000"));
 ("angle_1", VNone);
 ("angle_2", VNone);
 ("carrier_power", VNone);
 ("clock_bias", VNone);
 ("clock_drift", VNone);
 ("doppler_count", VNone);
 ("doppler_instantaneous", VNone);
 ("doppler_integrated", VNone);
 ("dor", VNone);
 ("mag", VNone);
 ("pc_n0", VNone);
 ("pr_n0", VNone);
 ("pressure", VNone);
 ("range", VNone);
 ("rcs", VNone);
 ("receive_freq", VDec (DFin false 57254154493332%N (-9)%Z));
 ("receive_freq_1", VNone);
 ("receive_freq_2", VNone);
 ("receive_freq_3", VNone);
 ("receive_freq_4", VNone);
 ("receive_freq_5", VNone);
 ("receive_phase_ct_1", VNone);
 ("receive_phase_ct_2", VNone);
 ("receive_phase_ct_3", VNone);
 ("receive_phase_ct_4", VNone);
 ("receive_phase_ct_5", VNone);
 ("rhumidity", VNone);
 ("stec", VNone);
 ("temperature", VNone);
 ("transmit_freq_1", VNone);
 ("transmit_freq_2", VNone);
 ("transmit_freq_3", VNone);
 ("transmit_freq_4", VNone);
 ("transmit_freq_5", VNone);
 ("transmit_freq_rate_1", VNone);
 ("transmit_freq_rate_2", VNone);
 ("transmit_freq_rate_3", VNone);
 ("transmit_freq_rate_4", VNone);
 ("transmit_freq_rate_5", VNone);
 ("transmit_phase_ct_1", VNone);
 ("transmit_phase_ct_2", VNone);
 ("transmit_phase_ct_3", VNone);
 ("transmit_phase_ct_4", VNone);
 ("transmit_phase_ct_5", VNone);
 ("tropo_dry", VNone);
 ("tropo_wet", VNone);
 ("vlbi_delay", VNone)]; VObj "TrackingDataObservationType" [("epoch", VStr (lit "2007-075T16:47:27.000"));
 ("angle_1", VNone);
 ("angle_2", VNone);
 ("carrier_power", VNone);
 ("clock_bias", VNone);
 ("clock_drift", VNone);
 ("doppler_count", VNone);
 ("doppler_instantaneous", VNone);
 ("doppler_integrated", VNone);
 ("dor", VNone);
 ("mag", VNone);
 ("pc_n0", VNone);
 ("pr_n0", VNone);
 ("pressure", VNone);
 ("range", VNone);
 ("rcs", VNone);
 ("receive_freq", VDec (DFin false 5717412025547%N (-8)%Z));
 ("receive_freq_1", VNone);
 ("receive_freq_2", VNone);
 ("receive_freq_3", VNone);
 ("receive_freq_4", VNone);
 ("receive_freq_5", VNone);
 ("receive_phase_ct_1", VNone);
 ("receive_phase_ct_2", VNone);
 ("receive_phase_ct_3", VNone);
 ("receive_phase_ct_4", VNone);
 ("receive_phase_ct_5", VNone);
 ("rhumidity", VNone);
 ("stec", VNone);
 ("temperature", VNone);
 ("transmit_freq_1", VNone);
 ("transmit_freq_2", VNone);
 ("transmit_freq_3", VNone);
 ("transmit_freq_4", VNone);
 ("transmit_freq_5", VNone);
 ("transmit_freq_rate_1", VNone);
 ("transmit_freq_rate_2", VNone);
 ("transmit_freq_rate_3", VNone);
 ("transmit_freq_rate_4", VNone);
 ("transmit_freq_rate_5", VNone);
 ("transmit_phase_ct_1", VNone);
 ("transmit_phase_ct_2", VNone);
 ("transmit_phase_ct_3", VNone);
 ("transmit_phase_ct_4", VNone);
 ("transmit_phase_ct_5", VNone);
 ("tropo_dry", VNone);
 ("tropo_wet", VNone);
 ("vlbi_delay", VNone)]; VObj "TrackingDataObservationType" [("epoch", VStr (lit "2007-075T16:48:27.000"));
 ("angle_1", VNone);
 ("angle_2", VNone);
 ("carrier_power", VNone);
 ("clock_bias", VNone);
 ("clock_drift", VNone);
 ("doppler_count", VNone);
 ("doppler_instantaneous", VNone);
 ("doppler_integrated", VNone);
 ("dor", VNone);
 ("mag", VNone);
 ("pc_n0", VNone);
 ("pr_n0", VNone);
 ("pressure", VNone);
 ("range", VNone);
 ("rcs", VNone);
 ("receive_freq", VDec (DFin false 57094020050049%N (-9)%Z));
 ("receive_freq_1", VNone);
 ("receive_freq_2", VNone);
 ("receive_freq_3", VNone);
 ("receive_freq_4", VNone);
 ("receive_freq_5", VNone);
 ("receive_phase_ct_1", VNone);
 ("receive_phase_ct_2", VNone);
 ("receive_phase_ct_3", VNone);
 ("receive_phase_ct_4", VNone);
 ("receive_phase_ct_5", VNone);
 ("rhumidity", VNone);
 ("stec", VNone);
 ("temperature", VNone);
 ("transmit_freq_1", VNone);
 ("transmit_freq_2", VNone);
 ("transmit_freq_3", VNone);
 ("transmit_freq_4", VNone);
 ("transmit_freq_5", VNone);
 ("transmit_freq_rate_1", VNone);
 ("transmit_freq_rate_2", VNone);
 ("transmit_freq_rate_3", VNone);
 ("transmit_freq_rate_4", VNone);
 ("transmit_freq_rate_5", VNone);
 ("transmit_phase_ct_1", VNone);
 ("transmit_phase_ct_2", VNone);
 ("transmit_phase_ct_3", VNone);
 ("transmit_phase_ct_4", VNone);
 ("transmit_phase_ct_5", VNone);
 ("tropo_dry", VNone);
 ("tropo_wet", VNone);
 ("vlbi_delay", VNone)]; VObj "TrackingDataObservationType" [("epoch", VStr (lit "2007-075T16:49:27.000"));
 ("angle_1", VNone);
 ("angle_2", VNone);
 ("carrier_power", VNone);
 ("clock_bias", VNone);
 ("clock_drift", VNone);
 ("doppler_count", VNone);
 ("doppler_instantaneous", VNone);
 ("doppler_integrated", VNone);
 ("dor", VNone);
 ("mag", VNone);
 ("pc_n0", VNone);
 ("pr_n0", VNone);
 ("pressure", VNone);
 ("range", VNone);
 ("rcs", VNone);
 ("receive_freq", VDec (DFin false 57013856649399%N (-9)%Z));
 ("receive_freq_1", VNone);
 ("receive_freq_2", VNone);
 ("receive_freq_3", VNone);
 ("receive_freq_4", VNone);
 ("receive_freq_5", VNone);
 ("receive_phase_ct_1", VNone);
 ("receive_phase_ct_2", VNone);
 ("receive_phase_ct_3", VNone);
 ("receive_phase_ct_4", VNone);
 ("receive_phase_ct_5", VNone);
 ("rhumidity", VNone);
 ("stec", VNone);
 ("temperature", VNone);
 ("transmit_freq_1", VNone);
 ("transmit_freq_2", VNone);
 ("transmit_freq_3", VNone);
 ("transmit_freq_4", VNone);
 ("transmit_freq_5", VNone);
 ("transmit_freq_rate_1", VNone);
 ("transmit_freq_rate_2", VNone);
 ("transmit_freq_rate_3", VNone);
 ("transmit_freq_rate_4", VNone);
 ("transmit_freq_rate_5", VNone);
 ("transmit_phase_ct_1", VNone);
 ("transmit_phase_ct_2", VNone);
 ("transmit_phase_ct_3", VNone);
 ("transmit_phase_ct_4", VNone);
 ("transmit_phase_ct_5", VNone);
 ("tropo_dry", VNone);
 ("tropo_wet", VNone);
 ("vlbi_delay", VNone)]; VObj "TrackingDataObservationType" [("epoch", VStr (lit "2007-075T16:50:27.000"));
 ("angle_1", VNone);
 ("angle_2", VNone);
 ("carrier_power", VNone);
 ("clock_bias", VNone);
 ("clock_drift", VNone);
 ("doppler_count", VNone);
 ("doppler_instantaneous", VNone);
 ("doppler_integrated", VNone);
 ("dor", VNone);
 ("mag", VNone);
 ("pc_n0", VNone);
 ("pr_n0", VNone);
 ("pressure", VNone);
 ("range", VNone);
 ("rcs", VNone);
 ("receive_freq", VDec (DFin false 56933631643295%N (-9)%Z));
 ("receive_freq_1", VNone);
 ("receive_freq_2", VNone);
 ("receive_freq_3", VNone);
 ("receive_freq_4", VNone);
 ("receive_freq_5", VNone);
 ("receive_phase_ct_1", VNone);
 ("receive_phase_ct_2", VNone);
 ("receive_phase_ct_3", VNone);
 ("receive_phase_ct_4", VNone);
 ("receive_phase_ct_5", VNone);
 ("rhumidity", VNone);
 ("stec", VNone);
 ("temperature", VNone);
 ("transmit_freq_1", VNone);
 ("transmit_freq_2", VNone);
 ("transmit_freq_3", VNone);
 ("transmit_freq_4", VNone);
 ("transmit_freq_5", VNone);
 ("transmit_freq_rate_1", VNone);
 ("transmit_freq_rate_2", VNone);
 ("transmit_freq_rate_3", VNone);
 ("transmit_freq_rate_4", VNone);
 ("transmit_freq_rate_5", VNone);
 ("transmit_phase_ct_1", VNone);
 ("transmit_phase_ct_2", VNone);
 ("transmit_phase_ct_3", VNone);
 ("transmit_phase_ct_4", VNone);
 ("transmit_phase_ct_5", VNone);
 ("tropo_dry", VNone);
 ("tropo_wet", VNone);
 ("vlbi_delay", VNone)]; VObj "TrackingDataObservationType" [("epoch", VStr (lit "2007-075T16:51:27.000"));
 ("angle_1", VNone);
 ("angle_2", VNone);
 ("carrier_power", VNone);
 ("clock_bias", VNone);
 ("clock_drift", VNone);
 ("doppler_count", VNone);
 ("doppler_instantaneous", VNone);
 ("doppler_integrated", VNone);
 ("dor", VNone);
 ("mag", VNone);
 ("pc_n0", VNone);
 ("pr_n0", VNone);
 ("pressure", VNone);
 ("range", VNone);
 ("rcs", VNone);
 ("receive_freq", VDec (DFin false 56853345460891%N (-9)%Z));
 ("receive_freq_1", VNone);
 ("receive_freq_2", VNone);
 ("receive_freq_3", VNone);
 ("receive_freq_4", VNone);
 ("receive_freq_5", VNone);
 ("receive_phase_ct_1", VNone);
 ("receive_phase_ct_2", VNone);
 ("receive_phase_ct_3", VNone);
 ("receive_phase_ct_4", VNone);
 ("receive_phase_ct_5", VNone);
 ("rhumidity", VNone);
 ("stec", VNone);
 ("temperature", VNone);
 ("transmit_freq_1", VNone);
 ("transmit_freq_2", VNone);
 ("transmit_freq_3", VNone);
 ("transmit_freq_4", VNone);
 ("transmit_freq_5", VNone);
 ("transmit_freq_rate_1", VNone);
 ("transmit_freq_rate_2", VNone);
 ("transmit_freq_rate_3", VNone);
 ("transmit_freq_rate_4", VNone);
 ("transmit_freq_rate_5", VNone);
 ("transmit_phase_ct_1", VNone);
 ("transmit_phase_ct_2", VNone);
 ("transmit_phase_ct_3", VNone);
 ("transmit_phase_ct_4", VNone);
 ("transmit_phase_ct_5", VNone);
 ("tropo_dry", VNone);
 ("tropo_wet", VNone);
 ("vlbi_delay", VNone)]; VObj "TrackingDataObservationType" [("epoch", VStr (lit "2007-075T16:52:27.000"));
 ("angle_1", VNone);
 ("angle_2", VNone);
 ("carrier_power", VNone);
 ("clock_bias", VNone);
 ("clock_drift", VNone);
 ("doppler_count", VNone);
 ("doppler_instantaneous", VNone);
 ("doppler_integrated", VNone);
 ("dor", VNone);
 ("mag", VNone);
 ("pc_n0", VNone);
 ("pr_n0", VNone);
 ("pressure", VNone);
 ("range", VNone);
 ("rcs", VNone);
 ("receive_freq", VDec (DFin false 56773001462935%N (-9)%Z));
 ("receive_freq_1", VNone);
 ("receive_freq_2", VNone);
 ("receive_freq_3", VNone);
 ("receive_freq_4", VNone);
 ("receive_freq_5", VNone);
 ("receive_phase_ct_1", VNone);
 ("receive_phase_ct_2", VNone);
 ("receive_phase_ct_3", VNone);
 ("receive_phase_ct_4", VNone);
 ("receive_phase_ct_5", VNone);
 ("rhumidity", VNone);
 ("stec", VNone);
 ("temperature", VNone);
 ("transmit_freq_1", VNone);
 ("transmit_freq_2", VNone);
 ("transmit_freq_3", VNone);
 ("transmit_freq_4", VNone);
 ("transmit_freq_5", VNone);
 ("transmit_freq_rate_1", VNone);
 ("transmit_freq_rate_2", VNone);
 ("transmit_freq_rate_3", VNone);
 ("transmit_freq_rate_4", VNone);
 ("transmit_freq_rate_5", VNone);
 ("transmit_phase_ct_1", VNone);
 ("transmit_phase_ct_2", VNone);
 ("transmit_phase_ct_3", VNone);
 ("transmit_phase_ct_4", VNone);
 ("transmit_phase_ct_5", VNone);
 ("tropo_dry", VNone);
 ("tropo_wet", VNone);
 ("vlbi_delay", VNone)]; VObj "TrackingDataObservationType" [("epoch", VStr (lit "2007-075T16:53:27.000"));
 ("angle_1", VNone);
 ("angle_2", VNone);
 ("carrier_power", VNone);
 ("clock_bias", VNone);
 ("clock_drift", VNone);
 ("doppler_count", VNone);
 ("doppler_instantaneous", VNone);
 ("doppler_integrated", VNone);
 ("dor", VNone);
 ("mag", VNone);
 ("pc_n0", VNone);
 ("pr_n0", VNone);
 ("pressure", VNone);
 ("range", VNone);
 ("rcs", VNone);
 ("receive_freq", VDec (DFin false 56692600300788%N (-9)%Z));
 ("receive_freq_1", VNone);
 ("receive_freq_2", VNone);
 ("receive_freq_3", VNone);
 ("receive_freq_4", VNone);
 ("receive_freq_5", VNone);
 ("receive_phase_ct_1", VNone);
 ("receive_phase_ct_2", VNone);
 ("receive_phase_ct_3", VNone);
 ("receive_phase_ct_4", VNone);
 ("receive_phase_ct_5", VNone);
 ("rhumidity", VNone);
 ("stec", VNone);
 ("temperature", VNone);
 ("transmit_freq_1", VNone);
 ("transmit_freq_2", VNone);
 ("transmit_freq_3", VNone);
 ("transmit_freq_4", VNone);
 ("transmit_freq_5", VNone);
 ("transmit_freq_rate_1", VNone);
 ("transmit_freq_rate_2", VNone);
 ("transmit_freq_rate_3", VNone);
 ("transmit_freq_rate_4", VNone);
 ("transmit_freq_rate_5", VNone);
 ("transmit_phase_ct_1", VNone);
 ("transmit_phase_ct_2", VNone);
 ("transmit_phase_ct_3", VNone);
 ("transmit_phase_ct_4", VNone);
 ("transmit_phase_ct_5", VNone);
 ("tropo_dry", VNone);
 ("tropo_wet", VNone);
 ("vlbi_delay", VNone)]; VObj "TrackingDataObservationType" [("epoch", VStr (lit "2007-075T16:54:27.000"));
 ("angle_1", VNone);
 ("angle_2", VNone);
 ("carrier_power", VNone);
 ("clock_bias", VNone);
 ("clock_drift", VNone);
 ("doppler_count", VNone);
 ("doppler_instantaneous", VNone);
 ("doppler_integrated", VNone);
 ("dor", VNone);
 ("mag", VNone);
 ("pc_n0", VNone);
 ("pr_n0", VNone);
 ("pressure", VNone);
 ("range", VNone);
 ("rcs", VNone);
 ("receive_freq", VDec (DFin false 56612143706321%N (-9)%Z));
 ("receive_freq_1", VNone);
 ("receive_freq_2", VNone);
 ("receive_freq_3", VNone);
 ("receive_freq_4", VNone);
 ("receive_freq_5", VNone);
 ("receive_phase_ct_1", VNone);
 ("receive_phase_ct_2", VNone);
 ("receive_phase_ct_3", VNone);
 ("receive_phase_ct_4", VNone);
 ("receive_phase_ct_5", VNone);
 ("rhumidity", VNone);
 ("stec", VNone);
 ("temperature", VNone);
 ("transmit_freq_1", VNone);
 ("transmit_freq_2", VNone);
 ("transmit_freq_3", VNone);
 ("transmit_freq_4", VNone);
 ("transmit_freq_5", VNone);
 ("transmit_freq_rate_1", VNone);
 ("transmit_freq_rate_2", VNone);
 ("transmit_freq_rate_3", VNone);
 ("transmit_freq_rate_4", VNone);
 ("transmit_freq_rate_5", VNone);
 ("transmit_phase_ct_1", VNone);
 ("transmit_phase_ct_2", VNone);
 ("transmit_phase_ct_3", VNone);
 ("transmit_phase_ct_4", VNone);
 ("transmit_phase_ct_5", VNone);
 ("tropo_dry", VNone);
 ("tropo_wet", VNone);
 ("vlbi_delay", VNone)]; VObj "TrackingDataObservationType" [("epoch", VStr (lit "2007-075T16:55:27.000"));
 ("angle_1", VNone);
 ("angle_2", VNone);
 ("carrier_power", VNone);
 ("clock_bias", VNone);
 ("clock_drift", VNone);
 ("doppler_count", VNone);
 ("doppler_instantaneous", VNone);
 ("doppler_integrated", VNone);
 ("dor", VNone);
 ("mag", VNone);
 ("pc_n0", VNone);
 ("pr_n0", VNone);
 ("pressure", VNone);
 ("range", VNone);
 ("rcs", VNone);
 ("receive_freq", VDec (DFin false 56531632609366%N (-9)%Z));
 ("receive_freq_1", VNone);
 ("receive_freq_2", VNone);
 ("receive_freq_3", VNone);
 ("receive_freq_4", VNone);
 ("receive_freq_5", VNone);
 ("receive_phase_ct_1", VNone);
 ("receive_phase_ct_2", VNone);
 ("receive_phase_ct_3", VNone);
 ("receive_phase_ct_4", VNone);
 ("receive_phase_ct_5", VNone);
 ("rhumidity", VNone);
 ("stec", VNone);
 ("temperature", VNone);
 ("transmit_freq_1", VNone);
 ("transmit_freq_2", VNone);
 ("transmit_freq_3", VNone);
 ("transmit_freq_4", VNone);
 ("transmit_freq_5", VNone);
 ("transmit_freq_rate_1", VNone);
 ("transmit_freq_rate_2", VNone);
 ("transmit_freq_rate_3", VNone);
 ("transmit_freq_rate_4", VNone);
 ("transmit_freq_rate_5", VNone);
 ("transmit_phase_ct_1", VNone);
 ("transmit_phase_ct_2", VNone);
 ("transmit_phase_ct_3", VNone);
 ("transmit_phase_ct_4", VNone);
 ("transmit_phase_ct_5", VNone);
 ("tropo_dry", VNone);
 ("tropo_wet", VNone);
 ("vlbi_delay", VNone)]; VObj "TrackingDataObservationType" [("epoch", VStr (lit "2007-075T16:56:27.000"));
 ("angle_1", VNone);
 ("angle_2", VNone);
 ("carrier_power", VNone);
 ("clock_bias", VNone);
 ("clock_drift", VNone);
 ("doppler_count", VNone);
 ("doppler_instantaneous", VNone);
 ("doppler_integrated", VNone);
 ("dor", VNone);
 ("mag", VNone);
 ("pc_n0", VNone);
 ("pr_n0", VNone);
 ("pressure", VNone);
 ("range", VNone);
 ("rcs", VNone);
 ("receive_freq", VDec (DFin false 56451069800376%N (-9)%Z));
 ("receive_freq_1", VNone);
 ("receive_freq_2", VNone);
 ("receive_freq_3", VNone);
 ("receive_freq_4", VNone);
 ("receive_freq_5", VNone);
 ("receive_phase_ct_1", VNone);
 ("receive_phase_ct_2", VNone);
 ("receive_phase_ct_3", VNone);
 ("receive_phase_ct_4", VNone);
 ("receive_phase_ct_5", VNone);
 ("rhumidity", VNone);
 ("stec", VNone);
 ("temperature", VNone);
 ("transmit_freq_1", VNone);
 ("transmit_freq_2", VNone);
 ("transmit_freq_3", VNone);
 ("transmit_freq_4", VNone);
 ("transmit_freq_5", VNone);
 ("transmit_freq_rate_1", VNone);
 ("transmit_freq_rate_2", VNone);
 ("transmit_freq_rate_3", VNone);
 ("transmit_freq_rate_4", VNone);
 ("transmit_freq_rate_5", VNone);
 ("transmit_phase_ct_1", VNone);
 ("transmit_phase_ct_2", VNone);
 ("transmit_phase_ct_3", VNone);
 ("transmit_phase_ct_4", VNone);
 ("transmit_phase_ct_5", VNone);
 ("tropo_dry", VNone);
 ("tropo_wet", VNone);
 ("vlbi_delay", VNone)]; VObj "TrackingDataObservationType" [("epoch", VStr (lit "2007-075T16:57:27.000"));
 ("angle_1", VNone);
 ("angle_2", VNone);
 ("carrier_power", VNone);
 ("clock_bias", VNone);
 ("clock_drift", VNone);
 ("doppler_count", VNone);
 ("doppler_instantaneous", VNone);
 ("doppler_integrated", VNone);
 ("dor", VNone);
 ("mag", VNone);
 ("pc_n0", VNone);
 ("pr_n0", VNone);
 ("pressure", VNone);
 ("range", VNone);
 ("rcs", VNone);
 ("receive_freq", VDec (DFin false 56370457195281%N (-9)%Z));
 ("receive_freq_1", VNone);
 ("receive_freq_2", VNone);
 ("receive_freq_3", VNone);
 ("receive_freq_4", VNone);
 ("receive_freq_5", VNone);
 ("receive_phase_ct_1", VNone);
 ("receive_phase_ct_2", VNone);
 ("receive_phase_ct_3", VNone);
 ("receive_phase_ct_4", VNone);
 ("receive_phase_ct_5", VNone);
 ("rhumidity", VNone);
 ("stec", VNone);
 ("temperature", VNone);
 ("transmit_freq_1", VNone);
 ("transmit_freq_2", VNone);
 ("transmit_freq_3", VNone);
 ("transmit_freq_4", VNone);
 ("transmit_freq_5", VNone);
 ("transmit_freq_rate_1", VNone);
 ("transmit_freq_rate_2", VNone);
 ("transmit_freq_rate_3", VNone);
 ("transmit_freq_rate_4", VNone);
 ("transmit_freq_rate_5", VNone);
 ("transmit_phase_ct_1", VNone);
 ("transmit_phase_ct_2", VNone);
 ("transmit_phase_ct_3", VNone);
 ("transmit_phase_ct_4", VNone);
 ("transmit_phase_ct_5", VNone);
 ("tropo_dry", VNone);
 ("tropo_wet", VNone);
 ("vlbi_delay", VNone)]; VObj "TrackingDataObservationType" [("epoch", VStr (lit "2007-075T16:58:27.000"));
 ("angle_1", VNone);
 ("angle_2", VNone);
 ("carrier_power", VNone);
 ("clock_bias", VNone);
 ("clock_drift", VNone);
 ("doppler_count", VNone);
 ("doppler_instantaneous", VNone);
 ("doppler_integrated", VNone);
 ("dor", VNone);
 ("mag", VNone);
 ("pc_n0", VNone);
 ("pr_n0", VNone);
 ("pressure", VNone);
 ("range", VNone);
 ("rcs", VNone);
 ("receive_freq", VDec (DFin false 56289795226097%N (-9)%Z));
 ("receive_freq_1", VNone);
 ("receive_freq_2", VNone);
 ("receive_freq_3", VNone);
 ("receive_freq_4", VNone);
 ("receive_freq_5", VNone);
 ("receive_phase_ct_1", VNone);
 ("receive_phase_ct_2", VNone);
 ("receive_phase_ct_3", VNone);
 ("receive_phase_ct_4", VNone);
 ("receive_phase_ct_5", VNone);
 ("rhumidity", VNone);
 ("stec", VNone);
 ("temperature", VNone);
 ("transmit_freq_1", VNone);
 ("transmit_freq_2", VNone);
 ("transmit_freq_3", VNone);
 ("transmit_freq_4", VNone);
 ("transmit_freq_5", VNone);
 ("transmit_freq_rate_1", VNone);
 ("transmit_freq_rate_2", VNone);
 ("transmit_freq_rate_3", VNone);
 ("transmit_freq_rate_4", VNone);
 ("transmit_freq_rate_5", VNone);
 ("transmit_phase_ct_1", VNone);
 ("transmit_phase_ct_2", VNone);
 ("transmit_phase_ct_3", VNone);
 ("transmit_phase_ct_4", VNone);
 ("transmit_phase_ct_5", VNone);
 ("tropo_dry", VNone);
 ("tropo_wet", VNone);
 ("vlbi_delay", VNone)]; VObj "TrackingDataObservationType" [("epoch", VStr (lit "2007-075T16:59:27.000"));
 ("angle_1", VNone);
 ("angle_2", VNone);
 ("carrier_power", VNone);
 ("clock_bias", VNone);
 ("clock_drift", VNone);
 ("doppler_count", VNone);
 ("doppler_instantaneous", VNone);
 ("doppler_integrated", VNone);
 ("dor", VNone);
 ("mag", VNone);
 ("pc_n0", VNone);
 ("pr_n0", VNone);
 ("pressure", VNone);
 ("range", VNone);
 ("rcs", VNone);
 ("receive_freq", VDec (DFin false 56209087947845%N (-9)%Z));
 ("receive_freq_1", VNone);
 ("receive_freq_2", VNone);
 ("receive_freq_3", VNone);
 ("receive_freq_4", VNone);
 ("receive_freq_5", VNone);
 ("receive_phase_ct_1", VNone);
 ("receive_phase_ct_2", VNone);
 ("receive_phase_ct_3", VNone);
 ("receive_phase_ct_4", VNone);
 ("receive_phase_ct_5", VNone);
 ("rhumidity", VNone);
 ("stec", VNone);
 ("temperature", VNone);
 ("transmit_freq_1", VNone);
 ("transmit_freq_2", VNone);
 ("transmit_freq_3", VNone);
 ("transmit_freq_4", VNone);
 ("transmit_freq_5", VNone);
 ("transmit_freq_rate_1", VNone);
 ("transmit_freq_rate_2", VNone);
 ("transmit_freq_rate_3", VNone);
 ("transmit_freq_rate_4", VNone);
 ("transmit_freq_rate_5", VNone);
 ("transmit_phase_ct_1", VNone);
 ("transmit_phase_ct_2", VNone);
 ("transmit_phase_ct_3", VNone);
 ("transmit_phase_ct_4", VNone);
 ("transmit_phase_ct_5", VNone);
 ("tropo_dry", VNone);
 ("tropo_wet", VNone);
 ("vlbi_delay", VNone)]; VObj "TrackingDataObservationType" [("epoch", VStr (lit "2007-075T17:00:27.000"));
 ("angle_1", VNone);
 ("angle_2", VNone);
 ("carrier_power", VNone);
 ("clock_bias", VNone);
 ("clock_drift", VNone);
 ("doppler_count", VNone);
 ("doppler_instantaneous", VNone);
 ("doppler_integrated", VNone);
 ("dor", VNone);
 ("mag", VNone);
 ("pc_n0", VNone);
 ("pr_n0", VNone);
 ("pressure", VNone);
 ("range", VNone);
 ("rcs", VNone);
 ("receive_freq", VDec (DFin false 56128334118843%N (-9)%Z));
 ("receive_freq_1", VNone);
 ("receive_freq_2", VNone);
 ("receive_freq_3", VNone);
 ("receive_freq_4", VNone);
 ("receive_freq_5", VNone);
 ("receive_phase_ct_1", VNone);
 ("receive_phase_ct_2", VNone);
 ("receive_phase_ct_3", VNone);
 ("receive_phase_ct_4", VNone);
 ("receive_phase_ct_5", VNone);
 ("rhumidity", VNone);
 ("stec", VNone);
 ("temperature", VNone);
 ("transmit_freq_1", VNone);
 ("transmit_freq_2", VNone);
 ("transmit_freq_3", VNone);
 ("transmit_freq_4", VNone);
 ("transmit_freq_5", VNone);
 ("transmit_freq_rate_1", VNone);
 ("transmit_freq_rate_2", VNone);
 ("transmit_freq_rate_3", VNone);
 ("transmit_freq_rate_4", VNone);
 ("transmit_freq_rate_5", VNone);
 ("transmit_phase_ct_1", VNone);
 ("transmit_phase_ct_2", VNone);
 ("transmit_phase_ct_3", VNone);
 ("transmit_phase_ct_4", VNone);
 ("transmit_phase_ct_5", VNone);
 ("tropo_dry", VNone);
 ("tropo_wet", VNone);
 ("vlbi_delay", VNone)]; VObj "TrackingDataObservationType" [("epoch", VStr (lit "2007-075T17:01:27.000"));
 ("angle_1", VNone);
 ("angle_2", VNone);
 ("carrier_power", VNone);
 ("clock_bias", VNone);
 ("clock_drift", VNone);
 ("doppler_count", VNone);
 ("doppler_instantaneous", VNone);
 ("doppler_integrated", VNone);
 ("dor", VNone);
 ("mag", VNone);
 ("pc_n0", VNone);
 ("pr_n0", VNone);
 ("pressure", VNone);
 ("range", VNone);
 ("rcs", VNone);
 ("receive_freq", VDec (DFin false 56047536489487%N (-9)%Z));
 ("receive_freq_1", VNone);
 ("receive_freq_2", VNone);
 ("receive_freq_3", VNone);
 ("receive_freq_4", VNone);
 ("receive_freq_5", VNone);
 ("receive_phase_ct_1", VNone);
 ("receive_phase_ct_2", VNone);
 ("receive_phase_ct_3", VNone);
 ("receive_phase_ct_4", VNone);
 ("receive_phase_ct_5", VNone);
 ("rhumidity", VNone);
 ("stec", VNone);
 ("temperature", VNone);
 ("transmit_freq_1", VNone);
 ("transmit_freq_2", VNone);
 ("transmit_freq_3", VNone);
 ("transmit_freq_4", VNone);
 ("transmit_freq_5", VNone);
 ("transmit_freq_rate_1", VNone);
 ("transmit_freq_rate_2", VNone);
 ("transmit_freq_rate_3", VNone);
 ("transmit_freq_rate_4", VNone);
 ("transmit_freq_rate_5", VNone);
 ("transmit_phase_ct_1", VNone);
 ("transmit_phase_ct_2", VNone);
 ("transmit_phase_ct_3", VNone);
 ("transmit_phase_ct_4", VNone);
 ("transmit_phase_ct_5", VNone);
 ("tropo_dry", VNone);
 ("tropo_wet", VNone);
 ("vlbi_delay", VNone)]; VObj "TrackingDataObservationType" [("epoch", VStr (lit "2007-075T17:02:27.000"));
 ("angle_1", VNone);
 ("angle_2", VNone);
 ("carrier_power", VNone);
 ("clock_bias", VNone);
 ("clock_drift", VNone);
 ("doppler_count", VNone);
 ("doppler_instantaneous", VNone);
 ("doppler_integrated", VNone);
 ("dor", VNone);
 ("mag", VNone);
 ("pc_n0", VNone);
 ("pr_n0", VNone);
 ("pressure", VNone);
 ("range", VNone);
 ("rcs", VNone);
 ("receive_freq", VDec (DFin false 55966696544647%N (-9)%Z));
 ("receive_freq_1", VNone);
 ("receive_freq_2", VNone);
 ("receive_freq_3", VNone);
 ("receive_freq_4", VNone);
 ("receive_freq_5", VNone);
 ("receive_phase_ct_1", VNone);
 ("receive_phase_ct_2", VNone);
 ("receive_phase_ct_3", VNone);
 ("receive_phase_ct_4", VNone);
 ("receive_phase_ct_5", VNone);
 ("rhumidity", VNone);
 ("stec", VNone);
 ("temperature", VNone);
 ("transmit_freq_1", VNone);
 ("transmit_freq_2", VNone);
 ("transmit_freq_3", VNone);
 ("transmit_freq_4", VNone);
 ("transmit_freq_5", VNone);
 ("transmit_freq_rate_1", VNone);
 ("transmit_freq_rate_2", VNone);
 ("transmit_freq_rate_3", VNone);
 ("transmit_freq_rate_4", VNone);
 ("transmit_freq_rate_5", VNone);
 ("transmit_phase_ct_1", VNone);
 ("transmit_phase_ct_2", VNone);
 ("transmit_phase_ct_3", VNone);
 ("transmit_phase_ct_4", VNone);
 ("transmit_phase_ct_5", VNone);
 ("tropo_dry", VNone);
 ("tropo_wet", VNone);
 ("vlbi_delay", VNone)]; VObj "TrackingDataObservationType" [("epoch", VStr (lit "2007-075T17:03:27.000"));
 ("angle_1", VNone);
 ("angle_2", VNone);
 ("carrier_power", VNone);
 ("clock_bias", VNone);
 ("clock_drift", VNone);
 ("doppler_count", VNone);
 ("doppler_instantaneous", VNone);
 ("doppler_integrated", VNone);
 ("dor", VNone);
 ("mag", VNone);
 ("pc_n0", VNone);
 ("pr_n0", VNone);
 ("pressure", VNone);
 ("range", VNone);
 ("rcs", VNone);
 ("receive_freq", VDec (DFin false 55885815768242%N (-9)%Z));
 ("receive_freq_1", VNone);
 ("receive_freq_2", VNone);
 ("receive_freq_3", VNone);
 ("receive_freq_4", VNone);
 ("receive_freq_5", VNone);
 ("receive_phase_ct_1", VNone);
 ("receive_phase_ct_2", VNone);
 ("receive_phase_ct_3", VNone);
 ("receive_phase_ct_4", VNone);
 ("receive_phase_ct_5", VNone);
 ("rhumidity", VNone);
 ("stec", VNone);
 ("temperature", VNone);
 ("transmit_freq_1", VNone);
 ("transmit_freq_2", VNone);
 ("transmit_freq_3", VNone);
 ("transmit_freq_4", VNone);
 ("transmit_freq_5", VNone);
 ("transmit_freq_rate_1", VNone);
 ("transmit_freq_rate_2", VNone);
 ("transmit_freq_rate_3", VNone);
 ("transmit_freq_rate_4", VNone);
 ("transmit_freq_rate_5", VNone);
 ("transmit_phase_ct_1", VNone);
 ("transmit_phase_ct_2", VNone);
 ("transmit_phase_ct_3", VNone);
 ("transmit_phase_ct_4", VNone);
 ("transmit_phase_ct_5", VNone);
 ("tropo_dry", VNone);
 ("tropo_wet", VNone);
 ("vlbi_delay", VNone)]; VObj "TrackingDataObservationType" [("epoch", VStr (lit "2007-075T17:04:27.000"));
 ("angle_1", VNone);
 ("angle_2", VNone);
 ("carrier_power", VNone);
 ("clock_bias", VNone);
 ("clock_drift", VNone);
 ("doppler_count", VNone);
 ("doppler_instantaneous", VNone);
 ("doppler_integrated", VNone);
 ("dor", VNone);
 ("mag", VNone);
 ("pc_n0", VNone);
 ("pr_n0", VNone);
 ("pressure", VNone);
 ("range", VNone);
 ("rcs", VNone);
 ("receive_freq", VDec (DFin false 55804896491051%N (-9)%Z));
 ("receive_freq_1", VNone);
 ("receive_freq_2", VNone);
 ("receive_freq_3", VNone);
 ("receive_freq_4", VNone);
 ("receive_freq_5", VNone);
 ("receive_phase_ct_1", VNone);
 ("receive_phase_ct_2", VNone);
 ("receive_phase_ct_3", VNone);
 ("receive_phase_ct_4", VNone);
 ("receive_phase_ct_5", VNone);
 ("rhumidity", VNone);
 ("stec", VNone);
 ("temperature", VNone);
 ("transmit_freq_1", VNone);
 ("transmit_freq_2", VNone);
 ("transmit_freq_3", VNone);
 ("transmit_freq_4", VNone);
 ("transmit_freq_5", VNone);
 ("transmit_freq_rate_1", VNone);
 ("transmit_freq_rate_2", VNone);
 ("transmit_freq_rate_3", VNone);
 ("transmit_freq_rate_4", VNone);
 ("transmit_freq_rate_5", VNone);
 ("transmit_phase_ct_1", VNone);
 ("transmit_phase_ct_2", VNone);
 ("transmit_phase_ct_3", VNone);
 ("transmit_phase_ct_4", VNone);
 ("transmit_phase_ct_5", VNone);
 ("tropo_dry", VNone);
 ("tropo_wet", VNone);
 ("vlbi_delay", VNone)]; VObj "TrackingDataObservationType" [("epoch", VStr (lit "2007-075T17:05:27.000"));
 ("angle_1", VNone);
 ("angle_2", VNone);
 ("carrier_power", VNone);
 ("clock_bias", VNone);
 ("clock_drift", VNone);
 ("doppler_count", VNone);
 ("doppler_instantaneous", VNone);
 ("doppler_integrated", VNone);
 ("dor", VNone);
 ("mag", VNone);
 ("pc_n0", VNone);
 ("pr_n0", VNone);
 ("pressure", VNone);
 ("range", VNone);
 ("rcs", VNone);
 ("receive_freq", VDec (DFin false 55723942260742%N (-9)%Z));
 ("receive_freq_1", VNone);
 ("receive_freq_2", VNone);
 ("receive_freq_3", VNone);
 ("receive_freq_4", VNone);
 ("receive_freq_5", VNone);
 ("receive_phase_ct_1", VNone);
 ("receive_phase_ct_2", VNone);
 ("receive_phase_ct_3", VNone);
 ("receive_phase_ct_4", VNone);
 ("receive_phase_ct_5", VNone);
 ("rhumidity", VNone);
 ("stec", VNone);
 ("temperature", VNone);
 ("transmit_freq_1", VNone);
 ("transmit_freq_2", VNone);
 ("transmit_freq_3", VNone);
 ("transmit_freq_4", VNone);
 ("transmit_freq_5", VNone);
 ("transmit_freq_rate_1", VNone);
 ("transmit_freq_rate_2", VNone);
 ("transmit_freq_rate_3", VNone);
 ("transmit_freq_rate_4", VNone);
 ("transmit_freq_rate_5", VNone);
 ("transmit_phase_ct_1", VNone);
 ("transmit_phase_ct_2", VNone);
 ("transmit_phase_ct_3", VNone);
 ("transmit_phase_ct_4", VNone);
 ("transmit_phase_ct_5", VNone);
 ("tropo_dry", VNone);
 ("tropo_wet", VNone);
 ("vlbi_delay", VNone)]; VObj "TrackingDataObservationType" [("epoch", VStr (lit "2007-075T17:06:27.000"));
 ("angle_1", VNone);
 ("angle_2", VNone);
 ("carrier_power", VNone);
 ("clock_bias", VNone);
 ("clock_drift", VNone);
 ("doppler_count", VNone);
 ("doppler_instantaneous", VNone);
 ("doppler_integrated", VNone);
 ("dor", VNone);
 ("mag", VNone);
 ("pc_n0", VNone);
 ("pr_n0", VNone);
 ("pressure", VNone);
 ("range", VNone);
 ("rcs", VNone);
 ("receive_freq", VDec (DFin false 55642950587273%N (-9)%Z));
 ("receive_freq_1", VNone);
 ("receive_freq_2", VNone);
 ("receive_freq_3", VNone);
 ("receive_freq_4", VNone);
 ("receive_freq_5", VNone);
 ("receive_phase_ct_1", VNone);
 ("receive_phase_ct_2", VNone);
 ("receive_phase_ct_3", VNone);
 ("receive_phase_ct_4", VNone);
 ("receive_phase_ct_5", VNone);
 ("rhumidity", VNone);
 ("stec", VNone);
 ("temperature", VNone);
 ("transmit_freq_1", VNone);
 ("transmit_freq_2", VNone);
 ("transmit_freq_3", VNone);
 ("transmit_freq_4", VNone);
 ("transmit_freq_5", VNone);
 ("transmit_freq_rate_1", VNone);
 ("transmit_freq_rate_2", VNone);
 ("transmit_freq_rate_3", VNone);
 ("transmit_freq_rate_4", VNone);
 ("transmit_freq_rate_5", VNone);
 ("transmit_phase_ct_1", VNone);
 ("transmit_phase_ct_2", VNone);
 ("transmit_phase_ct_3", VNone);
 ("transmit_phase_ct_4", VNone);
 ("transmit_phase_ct_5", VNone);
 ("tropo_dry", VNone);
 ("tropo_wet", VNone);
 ("vlbi_delay", VNone)]; VObj "TrackingDataObservationType" [("epoch", VStr (lit "2007-075T17:07:27.000"));
 ("angle_1", VNone);
 ("angle_2", VNone);
 ("carrier_power", VNone);
 ("clock_bias", VNone);
 ("clock_drift", VNone);
 ("doppler_count", VNone);
 ("doppler_instantaneous", VNone);
 ("doppler_integrated", VNone);
 ("dor", VNone);
 ("mag", VNone);
 ("pc_n0", VNone);
 ("pr_n0", VNone);
 ("pressure", VNone);
 ("range", VNone);
 ("rcs", VNone);
 ("receive_freq", VDec (DFin false 55561925067902%N (-9)%Z));
 ("receive_freq_1", VNone);
 ("receive_freq_2", VNone);
 ("receive_freq_3", VNone);
 ("receive_freq_4", VNone);
 ("receive_freq_5", VNone);
 ("receive_phase_ct_1", VNone);
 ("receive_phase_ct_2", VNone);
 ("receive_phase_ct_3", VNone);
 ("receive_phase_ct_4", VNone);
 ("receive_phase_ct_5", VNone);
 ("rhumidity", VNone);
 ("stec", VNone);
 ("temperature", VNone);
 ("transmit_freq_1", VNone);
 ("transmit_freq_2", VNone);
 ("transmit_freq_3", VNone);
 ("transmit_freq_4", VNone);
 ("transmit_freq_5", VNone);
 ("transmit_freq_rate_1", VNone);
 ("transmit_freq_rate_2", VNone);
 ("transmit_freq_rate_3", VNone);
 ("transmit_freq_rate_4", VNone);
 ("transmit_freq_rate_5", VNone);
 ("transmit_phase_ct_1", VNone);
 ("transmit_phase_ct_2", VNone);
 ("transmit_phase_ct_3", VNone);
 ("transmit_phase_ct_4", VNone);
 ("transmit_phase_ct_5", VNone);
 ("tropo_dry", VNone);
 ("tropo_wet", VNone);
 ("vlbi_delay", VNone)]; VObj "TrackingDataObservationType" [("epoch", VStr (lit "2007-075T17:08:27.000"));
 ("angle_1", VNone);
 ("angle_2", VNone);
 ("carrier_power", VNone);
 ("clock_bias", VNone);
 ("clock_drift", VNone);
 ("doppler_count", VNone);
 ("doppler_instantaneous", VNone);
 ("doppler_integrated", VNone);
 ("dor", VNone);
 ("mag", VNone);
 ("pc_n0", VNone);
 ("pr_n0", VNone);
 ("pressure", VNone);
 ("range", VNone);
 ("rcs", VNone);
 ("receive_freq", VDec (DFin false 55480868617058%N (-9)%Z));
 ("receive_freq_1", VNone);
 ("receive_freq_2", VNone);
 ("receive_freq_3", VNone);
 ("receive_freq_4", VNone);
 ("receive_freq_5", VNone);
 ("receive_phase_ct_1", VNone);
 ("receive_phase_ct_2", VNone);
 ("receive_phase_ct_3", VNone);
 ("receive_phase_ct_4", VNone);
 ("receive_phase_ct_5", VNone);
 ("rhumidity", VNone);
 ("stec", VNone);
 ("temperature", VNone);
 ("transmit_freq_1", VNone);
 ("transmit_freq_2", VNone);
 ("transmit_freq_3", VNone);
 ("transmit_freq_4", VNone);
 ("transmit_freq_5", VNone);
 ("transmit_freq_rate_1", VNone);
 ("transmit_freq_rate_2", VNone);
 ("transmit_freq_rate_3", VNone);
 ("transmit_freq_rate_4", VNone);
 ("transmit_freq_rate_5", VNone);
 ("transmit_phase_ct_1", VNone);
 ("transmit_phase_ct_2", VNone);
 ("transmit_phase_ct_3", VNone);
 ("transmit_phase_ct_4", VNone);
 ("transmit_phase_ct_5", VNone);
 ("tropo_dry", VNone);
 ("tropo_wet", VNone);
 ("vlbi_delay", VNone)]; VObj "TrackingDataObservationType" [("epoch", VStr (lit "2007-075T17:09:27.000"));
 ("angle_1", VNone);
 ("angle_2", VNone);
 ("carrier_power", VNone);
 ("clock_bias", VNone);
 ("clock_drift", VNone);
 ("doppler_count", VNone);
 ("doppler_instantaneous", VNone);
 ("doppler_integrated", VNone);
 ("dor", VNone);
 ("mag", VNone);
 ("pc_n0", VNone);
 ("pr_n0", VNone);
 ("pressure", VNone);
 ("range", VNone);
 ("rcs", VNone);
 ("receive_freq", VDec (DFin false 55399782920837%N (-9)%Z));
 ("receive_freq_1", VNone);
 ("receive_freq_2", VNone);
 ("receive_freq_3", VNone);
 ("receive_freq_4", VNone);
 ("receive_freq_5", VNone);
 ("receive_phase_ct_1", VNone);
 ("receive_phase_ct_2", VNone);
 ("receive_phase_ct_3", VNone);
 ("receive_phase_ct_4", VNone);
 ("receive_phase_ct_5", VNone);
 ("rhumidity", VNone);
 ("stec", VNone);
 ("temperature", VNone);
 ("transmit_freq_1", VNone);
 ("transmit_freq_2", VNone);
 ("transmit_freq_3", VNone);
 ("transmit_freq_4", VNone);
 ("transmit_freq_5", VNone);
 ("transmit_freq_rate_1", VNone);
 ("transmit_freq_rate_2", VNone);
 ("transmit_freq_rate_3", VNone);
 ("transmit_freq_rate_4", VNone);
 ("transmit_freq_rate_5", VNone);
 ("transmit_phase_ct_1", VNone);
 ("transmit_phase_ct_2", VNone);
 ("transmit_phase_ct_3", VNone);
 ("transmit_phase_ct_4", VNone);
 ("transmit_phase_ct_5", VNone);
 ("tropo_dry", VNone);
 ("tropo_wet", VNone);
 ("vlbi_delay", VNone)]; VObj "TrackingDataObservationType" [("epoch", VStr (lit "2007-075T17:10:27.000"));
 ("angle_1", VNone);
 ("angle_2", VNone);
 ("carrier_power", VNone);
 ("clock_bias", VNone);
 ("clock_drift", VNone);
 ("doppler_count", VNone);
 ("doppler_instantaneous", VNone);
 ("doppler_integrated", VNone);
 ("dor", VNone);
 ("mag", VNone);
 ("pc_n0", VNone);
 ("pr_n0", VNone);
 ("pressure", VNone);
 ("range", VNone);
 ("rcs", VNone);
 ("receive_freq", VDec (DFin false 55318665945053%N (-9)%Z));
 ("receive_freq_1", VNone);
 ("receive_freq_2", VNone);
 ("receive_freq_3", VNone);
 ("receive_freq_4", VNone);
 ("receive_freq_5", VNone);
 ("receive_phase_ct_1", VNone);
 ("receive_phase_ct_2", VNone);
 ("receive_phase_ct_3", VNone);
 ("receive_phase_ct_4", VNone);
 ("receive_phase_ct_5", VNone);
 ("rhumidity", VNone);
 ("stec", VNone);
 ("temperature", VNone);
 ("transmit_freq_1", VNone);
 ("transmit_freq_2", VNone);
 ("transmit_freq_3", VNone);
 ("transmit_freq_4", VNone);
 ("transmit_freq_5", VNone);
 ("transmit_freq_rate_1", VNone);
 ("transmit_freq_rate_2", VNone);
 ("transmit_freq_rate_3", VNone);
 ("transmit_freq_rate_4", VNone);
 ("transmit_freq_rate_5", VNone);
 ("transmit_phase_ct_1", VNone);
 ("transmit_phase_ct_2", VNone);
 ("transmit_phase_ct_3", VNone);
 ("transmit_phase_ct_4", VNone);
 ("transmit_phase_ct_5", VNone);
 ("tropo_dry", VNone);
 ("tropo_wet", VNone);
 ("vlbi_delay", VNone)]; VObj "TrackingDataObservationType" [("epoch", VStr (lit "2007-075T17:11:27.000"));
 ("angle_1", VNone);
 ("angle_2", VNone);
 ("carrier_power", VNone);
 ("clock_bias", VNone);
 ("clock_drift", VNone);
 ("doppler_count", VNone);
 ("doppler_instantaneous", VNone);
 ("doppler_integrated", VNone);
 ("dor", VNone);
 ("mag", VNone);
 ("pc_n0", VNone);
 ("pr_n0", VNone);
 ("pressure", VNone);
 ("range", VNone);
 ("rcs", VNone);
 ("receive_freq", VDec (DFin false 55237523112297%N (-9)%Z));
 ("receive_freq_1", VNone);
 ("receive_freq_2", VNone);
 ("receive_freq_3", VNone);
 ("receive_freq_4", VNone);
 ("receive_freq_5", VNone);
 ("receive_phase_ct_1", VNone);
 ("receive_phase_ct_2", VNone);
 ("receive_phase_ct_3", VNone);
 ("receive_phase_ct_4", VNone);
 ("receive_phase_ct_5", VNone);
 ("rhumidity", VNone);
 ("stec", VNone);
 ("temperature", VNone);
 ("transmit_freq_1", VNone);
 ("transmit_freq_2", VNone);
 ("transmit_freq_3", VNone);
 ("transmit_freq_4", VNone);
 ("transmit_freq_5", VNone);
 ("transmit_freq_rate_1", VNone);
 ("transmit_freq_rate_2", VNone);
 ("transmit_freq_rate_3", VNone);
 ("transmit_freq_rate_4", VNone);
 ("transmit_freq_rate_5", VNone);
 ("transmit_phase_ct_1", VNone);
 ("transmit_phase_ct_2", VNone);
 ("transmit_phase_ct_3", VNone);
 ("transmit_phase_ct_4", VNone);
 ("transmit_phase_ct_5", VNone);
 ("tropo_dry", VNone);
 ("tropo_wet", VNone);
 ("vlbi_delay", VNone)]; VObj "TrackingDataObservationType" [("epoch", VStr (lit "2007-075T17:12:27.000"));
 ("angle_1", VNone);
 ("angle_2", VNone);
 ("carrier_power", VNone);
 ("clock_bias", VNone);
 ("clock_drift", VNone);
 ("doppler_count", VNone);
 ("doppler_instantaneous", VNone);
 ("doppler_integrated", VNone);
 ("dor", VNone);
 ("mag", VNone);
 ("pc_n0", VNone);
 ("pr_n0", VNone);
 ("pressure", VNone);
 ("range", VNone);
 ("rcs", VNone);
 ("receive_freq", VDec (DFin false 55156355063438%N (-9)%Z));
 ("receive_freq_1", VNone);
 ("receive_freq_2", VNone);
 ("receive_freq_3", VNone);
 ("receive_freq_4", VNone);
 ("receive_freq_5", VNone);
 ("receive_phase_ct_1", VNone);
 ("receive_phase_ct_2", VNone);
 ("receive_phase_ct_3", VNone);
 ("receive_phase_ct_4", VNone);
 ("receive_phase_ct_5", VNone);
 ("rhumidity", VNone);
 ("stec", VNone);
 ("temperature", VNone);
 ("transmit_freq_1", VNone);
 ("transmit_freq_2", VNone);
 ("transmit_freq_3", VNone);
 ("transmit_freq_4", VNone);
 ("transmit_freq_5", VNone);
 ("transmit_freq_rate_1", VNone);
 ("transmit_freq_rate_2", VNone);
 ("transmit_freq_rate_3", VNone);
 ("transmit_freq_rate_4", VNone);
 ("transmit_freq_rate_5", VNone);
 ("transmit_phase_ct_1", VNone);
 ("transmit_phase_ct_2", VNone);
 ("transmit_phase_ct_3", VNone);
 ("transmit_phase_ct_4", VNone);
 ("transmit_phase_ct_5", VNone);
 ("tropo_dry", VNone);
 ("tropo_wet", VNone);
 ("vlbi_delay", VNone)]; VObj "TrackingDataObservationType" [("epoch", VStr (lit "2007-075T17:13:27.000"));
 ("angle_1", VNone);
 ("angle_2", VNone);
 ("carrier_power", VNone);
 ("clock_bias", VNone);
 ("clock_drift", VNone);
 ("doppler_count", VNone);
 ("doppler_instantaneous", VNone);
 ("doppler_integrated", VNone);
 ("dor", VNone);
 ("mag", VNone);
 ("pc_n0", VNone);
 ("pr_n0", VNone);
 ("pressure", VNone);
 ("range", VNone);
 ("rcs", VNone);
 ("receive_freq", VDec (DFin false 55075163572311%N (-9)%Z));
 ("receive_freq_1", VNone);
 ("receive_freq_2", VNone);
 ("receive_freq_3", VNone);
 ("receive_freq_4", VNone);
 ("receive_freq_5", VNone);
 ("receive_phase_ct_1", VNone);
 ("receive_phase_ct_2", VNone);
 ("receive_phase_ct_3", VNone);
 ("receive_phase_ct_4", VNone);
 ("receive_phase_ct_5", VNone);
 ("rhumidity", VNone);
 ("stec", VNone);
 ("temperature", VNone);
 ("transmit_freq_1", VNone);
 ("transmit_freq_2", VNone);
 ("transmit_freq_3", VNone);
 ("transmit_freq_4", VNone);
 ("transmit_freq_5", VNone);
 ("transmit_freq_rate_1", VNone);
 ("transmit_freq_rate_2", VNone);
 ("transmit_freq_rate_3", VNone);
 ("transmit_freq_rate_4", VNone);
 ("transmit_freq_rate_5", VNone);
 ("transmit_phase_ct_1", VNone);
 ("transmit_phase_ct_2", VNone);
 ("transmit_phase_ct_3", VNone);
 ("transmit_phase_ct_4", VNone);
 ("transmit_phase_ct_5", VNone);
 ("tropo_dry", VNone);
 ("tropo_wet", VNone);
 ("vlbi_delay", VNone)]; VObj "TrackingDataObservationType" [("epoch", VStr (lit "2007-075T17:14:27.000"));
 ("angle_1", VNone);
 ("angle_2", VNone);
 ("carrier_power", VNone);
 ("clock_bias", VNone);
 ("clock_drift", VNone);
 ("doppler_count", VNone);
 ("doppler_instantaneous", VNone);
 ("doppler_integrated", VNone);
 ("dor", VNone);
 ("mag", VNone);
 ("pc_n0", VNone);
 ("pr_n0", VNone);
 ("pressure", VNone);
 ("range", VNone);
 ("rcs", VNone);
 ("receive_freq", VDec (DFin false 54993950745583%N (-9)%Z));
 ("receive_freq_1", VNone);
 ("receive_freq_2", VNone);
 ("receive_freq_3", VNone);
 ("receive_freq_4", VNone);
 ("receive_freq_5", VNone);
 ("receive_phase_ct_1", VNone);
 ("receive_phase_ct_2", VNone);
 ("receive_phase_ct_3", VNone);
 ("receive_phase_ct_4", VNone);
 ("receive_phase_ct_5", VNone);
 ("rhumidity", VNone);
 ("stec", VNone);
 ("temperature", VNone);
 ("transmit_freq_1", VNone);
 ("transmit_freq_2", VNone);
 ("transmit_freq_3", VNone);
 ("transmit_freq_4", VNone);
 ("transmit_freq_5", VNone);
 ("transmit_freq_rate_1", VNone);
 ("transmit_freq_rate_2", VNone);
 ("transmit_freq_rate_3", VNone);
 ("transmit_freq_rate_4", VNone);
 ("transmit_freq_rate_5", VNone);
 ("transmit_phase_ct_1", VNone);
 ("transmit_phase_ct_2", VNone);
 ("transmit_phase_ct_3", VNone);
 ("transmit_phase_ct_4", VNone);
 ("transmit_phase_ct_5", VNone);
 ("tropo_dry", VNone);
 ("tropo_wet", VNone);
 ("vlbi_delay", VNone)]])])]; VObj "TdmSegment" [("metadata", VObj "TdmMetadata" [("comment", VList []);
 ("track_id", VNone);
 ("data_types", VNone);
 ("time_system", VEnum "TimeSystemType" "UTC" (lit "UTC"));
 ("start_time", VNone);
 ("stop_time", VNone);
 ("participant_1", VStr (lit "'DSS-26'"));
 ("participant_2", VStr (lit "ROSETTA"));
 ("participant_3", VNone);
 ("participant_4", VNone);
 ("participant_5", VNone);
 ("mode", VEnum "ModeType" "SEQUENTIAL" (lit "SEQUENTIAL"));
 ("path", VStr (lit "1,2,1"));
 ("path_1", VNone);
 ("path_2", VNone);
 ("ephemeris_name_1", VNone);
 ("ephemeris_name_2", VNone);
 ("ephemeris_name_3", VNone);
 ("ephemeris_name_4", VNone);
 ("ephemeris_name_5", VNone);
 ("transmit_band", VStr (lit "X"));
 ("receive_band", VStr (lit "X"));
 ("turnaround_numerator", VNone);
 ("turnaround_denominator", VNone);
 ("timetag_ref", VEnum "TimetagRefType" "RECEIVE" (lit "RECEIVE"));
 ("integration_interval", VNone);
 ("integration_ref", VEnum "IntegrationRefType" "START" (lit "START"));
 ("freq_offset", VNone);
 ("range_mode", VEnum "RangemodeType" "COHERENT_1" (lit "COHERENT"));
 ("range_modulus", VDec (DFin false 671088640%N (-1)%Z));
 ("range_units", VEnum "RangeUnitsType" "RU_1" (lit "RU"));
 ("angle_type", VNone);
 ("reference_frame", VNone);
 ("interpolation", VNone);
 ("interpolation_degree", VNone);
 ("doppler_count_bias", VNone);
 ("doppler_count_scale", VNone);
 ("doppler_count_rollover", VNone);
 ("transmit_delay_1", VDec (DFin false 77%N (-6)%Z));
 ("transmit_delay_2", VNone);
 ("transmit_delay_3", VNone);
 ("transmit_delay_4", VNone);
 ("transmit_delay_5", VNone);
 ("receive_delay_1", VDec (DFin false 77%N (-6)%Z));
 ("receive_delay_2", VNone);
 ("receive_delay_3", VNone);
 ("receive_delay_4", VNone);
 ("receive_delay_5", VNone);
 ("data_quality", VNone);
 ("correction_angle_1", VNone);
 ("correction_angle_2", VNone);
 ("correction_doppler", VNone);
 ("correction_mag", VNone);
 ("correction_range", VNone);
 ("correction_rcs", VNone);
 ("correction_receive", VNone);
 ("correction_transmit", VNone);
 ("correction_aberration_yearly", VNone);
 ("correction_aberration_diurnal", VNone);
 ("corrections_applied", VNone)]);
 ("data", VObj "TdmData" [("comment", VList []);
 ("observation", VList [VObj "TrackingDataObservationType" [("epoch", VStr (lit "2007-075T13:54:04.000"));
 ("angle_1", VNone);
 ("angle_2", VNone);
 ("carrier_power", VNone);
 ("clock_bias", VNone);
 ("clock_drift", VNone);
 ("doppler_count", VNone);
 ("doppler_instantaneous", VNone);
 ("doppler_integrated", VNone);
 ("dor", VNone);
 ("mag", VNone);
 ("pc_n0", VNone);
 ("pr_n0", VNone);
 ("pressure", VNone);
 ("range", VDec (DFin false 5316234557472809%N (-8)%Z));
 ("rcs", VNone);
 ("receive_freq", VNone);
 ("receive_freq_1", VNone);
 ("receive_freq_2", VNone);
 ("receive_freq_3", VNone);
 ("receive_freq_4", VNone);
 ("receive_freq_5", VNone);
 ("receive_phase_ct_1", VNone);
 ("receive_phase_ct_2", VNone);
 ("receive_phase_ct_3", VNone);
 ("receive_phase_ct_4", VNone);
 ("receive_phase_ct_5", VNone);
 ("rhumidity", VNone);
 ("stec", VNone);
 ("temperature", VNone);
 ("transmit_freq_1", VNone);
 ("transmit_freq_2", VNone);
 ("transmit_freq_3", VNone);
 ("transmit_freq_4", VNone);
 ("transmit_freq_5", VNone);
 ("transmit_freq_rate_1", VNone);
 ("transmit_freq_rate_2", VNone);
 ("transmit_freq_rate_3", VNone);
 ("transmit_freq_rate_4", VNone);
 ("transmit_freq_rate_5", VNone);
 ("transmit_phase_ct_1", VNone);
 ("transmit_phase_ct_2", VNone);
 ("transmit_phase_ct_3", VNone);
 ("transmit_phase_ct_4", VNone);
 ("transmit_phase_ct_5", VNone);
 ("tropo_dry", VNone);
 ("tropo_wet", VNone);
 ("vlbi_delay", VNone)]; VObj "TrackingDataObservationType" [("epoch", VStr (lit "2007-075T13:57:31.000"));
 ("angle_1", VNone);
 ("angle_2", VNone);
 ("carrier_power", VNone);
 ("clock_bias", VNone);
 ("clock_drift", VNone);
 ("doppler_count", VNone);
 ("doppler_instantaneous", VNone);
 ("doppler_integrated", VNone);
 ("dor", VNone);
 ("mag", VNone);
 ("pc_n0", VNone);
 ("pr_n0", VNone);
 ("pressure", VNone);
 ("range", VDec (DFin false 4222465017848034%N (-8)%Z));
 ("rcs", VNone);
 ("receive_freq", VNone);
 ("receive_freq_1", VNone);
 ("receive_freq_2", VNone);
 ("receive_freq_3", VNone);
 ("receive_freq_4", VNone);
 ("receive_freq_5", VNone);
 ("receive_phase_ct_1", VNone);
 ("receive_phase_ct_2", VNone);
 ("receive_phase_ct_3", VNone);
 ("receive_phase_ct_4", VNone);
 ("receive_phase_ct_5", VNone);
 ("rhumidity", VNone);
 ("stec", VNone);
 ("temperature", VNone);
 ("transmit_freq_1", VNone);
 ("transmit_freq_2", VNone);
 ("transmit_freq_3", VNone);
 ("transmit_freq_4", VNone);
 ("transmit_freq_5", VNone);
 ("transmit_freq_rate_1", VNone);
 ("transmit_freq_rate_2", VNone);
 ("transmit_freq_rate_3", VNone);
 ("transmit_freq_rate_4", VNone);
 ("transmit_freq_rate_5", VNone);
 ("transmit_phase_ct_1", VNone);
 ("transmit_phase_ct_2", VNone);
 ("transmit_phase_ct_3", VNone);
 ("transmit_phase_ct_4", VNone);
 ("transmit_phase_ct_5", VNone);
 ("tropo_dry", VNone);
 ("tropo_wet", VNone);
 ("vlbi_delay", VNone)]; VObj "TrackingDataObservationType" [("epoch", VStr (lit "2007-075T14:00:58.000"));
 ("angle_1", VNone);
 ("angle_2", VNone);
 ("carrier_power", VNone);
 ("clock_bias", VNone);
 ("clock_drift", VNone);
 ("doppler_count", VNone);
 ("doppler_instantaneous", VNone);
 ("doppler_integrated", VNone);
 ("dor", VNone);
 ("mag", VNone);
 ("pc_n0", VNone);
 ("pr_n0", VNone);
 ("pressure", VNone);
 ("range", VDec (DFin false 3129117730436838%N (-8)%Z));
 ("rcs", VNone);
 ("receive_freq", VNone);
 ("receive_freq_1", VNone);
 ("receive_freq_2", VNone);
 ("receive_freq_3", VNone);
 ("receive_freq_4", VNone);
 ("receive_freq_5", VNone);
 ("receive_phase_ct_1", VNone);
 ("receive_phase_ct_2", VNone);
 ("receive_phase_ct_3", VNone);
 ("receive_phase_ct_4", VNone);
 ("receive_phase_ct_5", VNone);
 ("rhumidity", VNone);
 ("stec", VNone);
 ("temperature", VNone);
 ("transmit_freq_1", VNone);
 ("transmit_freq_2", VNone);
 ("transmit_freq_3", VNone);
 ("transmit_freq_4", VNone);
 ("transmit_freq_5", VNone);
 ("transmit_freq_rate_1", VNone);
 ("transmit_freq_rate_2", VNone);
 ("transmit_freq_rate_3", VNone);
 ("transmit_freq_rate_4", VNone);
 ("transmit_freq_rate_5", VNone);
 ("transmit_phase_ct_1", VNone);
 ("transmit_phase_ct_2", VNone);
 ("transmit_phase_ct_3", VNone);
 ("transmit_phase_ct_4", VNone);
 ("transmit_phase_ct_5", VNone);
 ("tropo_dry", VNone);
 ("tropo_wet", VNone);
 ("vlbi_delay", VNone)]; VObj "TrackingDataObservationType" [("epoch", VStr (lit "2007-075T14:04:25.000"));
 ("angle_1", VNone);
 ("angle_2", VNone);
 ("carrier_power", VNone);
 ("clock_bias", VNone);
 ("clock_drift", VNone);
 ("doppler_count", VNone);
 ("doppler_instantaneous", VNone);
 ("doppler_integrated", VNone);
 ("dor", VNone);
 ("mag", VNone);
 ("pc_n0", VNone);
 ("pr_n0", VNone);
 ("pressure", VNone);
 ("range", VDec (DFin false 2036202511610581%N (-8)%Z));
 ("rcs", VNone);
 ("receive_freq", VNone);
 ("receive_freq_1", VNone);
 ("receive_freq_2", VNone);
 ("receive_freq_3", VNone);
 ("receive_freq_4", VNone);
 ("receive_freq_5", VNone);
 ("receive_phase_ct_1", VNone);
 ("receive_phase_ct_2", VNone);
 ("receive_phase_ct_3", VNone);
 ("receive_phase_ct_4", VNone);
 ("receive_phase_ct_5", VNone);
 ("rhumidity", VNone);
 ("stec", VNone);
 ("temperature", VNone);
 ("transmit_freq_1", VNone);
 ("transmit_freq_2", VNone);
 ("transmit_freq_3", VNone);
 ("transmit_freq_4", VNone);
 ("transmit_freq_5", VNone);
 ("transmit_freq_rate_1", VNone);
 ("transmit_freq_rate_2", VNone);
 ("transmit_freq_rate_3", VNone);
 ("transmit_freq_rate_4", VNone);
 ("transmit_freq_rate_5", VNone);
 ("transmit_phase_ct_1", VNone);
 ("transmit_phase_ct_2", VNone);
 ("transmit_phase_ct_3", VNone);
 ("transmit_phase_ct_4", VNone);
 ("transmit_phase_ct_5", VNone);
 ("tropo_dry", VNone);
 ("tropo_wet", VNone);
 ("vlbi_delay", VNone)]; VObj "TrackingDataObservationType" [("epoch", VStr (lit "2007-075T14:07:52.000"));
 ("angle_1", VNone);
 ("angle_2", VNone);
 ("carrier_power", VNone);
 ("clock_bias", VNone);
 ("clock_drift", VNone);
 ("doppler_count", VNone);
 ("doppler_instantaneous", VNone);
 ("doppler_integrated", VNone);
 ("dor", VNone);
 ("mag", VNone);
 ("pc_n0", VNone);
 ("pr_n0", VNone);
 ("pressure", VNone);
 ("range", VDec (DFin false 9437287682150703%N (-9)%Z));
 ("rcs", VNone);
 ("receive_freq", VNone);
 ("receive_freq_1", VNone);
 ("receive_freq_2", VNone);
 ("receive_freq_3", VNone);
 ("receive_freq_4", VNone);
 ("receive_freq_5", VNone);
 ("receive_phase_ct_1", VNone);
 ("receive_phase_ct_2", VNone);
 ("receive_phase_ct_3", VNone);
 ("receive_phase_ct_4", VNone);
 ("receive_phase_ct_5", VNone);
 ("rhumidity", VNone);
 ("stec", VNone);
 ("temperature", VNone);
 ("transmit_freq_1", VNone);
 ("transmit_freq_2", VNone);
 ("transmit_freq_3", VNone);
 ("transmit_freq_4", VNone);
 ("transmit_freq_5", VNone);
 ("transmit_freq_rate_1", VNone);
 ("transmit_freq_rate_2", VNone);
 ("transmit_freq_rate_3", VNone);
 ("transmit_freq_rate_4", VNone);
 ("transmit_freq_rate_5", VNone);
 ("transmit_phase_ct_1", VNone);
 ("transmit_phase_ct_2", VNone);
 ("transmit_phase_ct_3", VNone);
 ("transmit_phase_ct_4", VNone);
 ("transmit_phase_ct_5", VNone);
 ("tropo_dry", VNone);
 ("tropo_wet", VNone);
 ("vlbi_delay", VNone)]; VObj "TrackingDataObservationType" [("epoch", VStr (lit "2007-075T14:11:19.000"));
 ("angle_1", VNone);
 ("angle_2", VNone);
 ("carrier_power", VNone);
 ("clock_bias", VNone);
 ("clock_drift", VNone);
 ("doppler_count", VNone);
 ("doppler_instantaneous", VNone);
 ("doppler_integrated", VNone);
 ("dor", VNone);
 ("mag", VNone);
 ("pc_n0", VNone);
 ("pr_n0", VNone);
 ("pressure", VNone);
 ("range", VDec (DFin false 6562591460094181%N (-8)%Z));
 ("rcs", VNone);
 ("receive_freq", VNone);
 ("receive_freq_1", VNone);
 ("receive_freq_2", VNone);
 ("receive_freq_3", VNone);
 ("receive_freq_4", VNone);
 ("receive_freq_5", VNone);
 ("receive_phase_ct_1", VNone);
 ("receive_phase_ct_2", VNone);
 ("receive_phase_ct_3", VNone);
 ("receive_phase_ct_4", VNone);
 ("receive_phase_ct_5", VNone);
 ("rhumidity", VNone);
 ("stec", VNone);
 ("temperature", VNone);
 ("transmit_freq_1", VNone);
 ("transmit_freq_2", VNone);
 ("transmit_freq_3", VNone);
 ("transmit_freq_4", VNone);
 ("transmit_freq_5", VNone);
 ("transmit_freq_rate_1", VNone);
 ("transmit_freq_rate_2", VNone);
 ("transmit_freq_rate_3", VNone);
 ("transmit_freq_rate_4", VNone);
 ("transmit_freq_rate_5", VNone);
 ("transmit_phase_ct_1", VNone);
 ("transmit_phase_ct_2", VNone);
 ("transmit_phase_ct_3", VNone);
 ("transmit_phase_ct_4", VNone);
 ("transmit_phase_ct_5", VNone);
 ("tropo_dry", VNone);
 ("tropo_wet", VNone);
 ("vlbi_delay", VNone)]; VObj "TrackingDataObservationType" [("epoch", VStr (lit "2007-075T14:14:46.000"));
 ("angle_1", VNone);
 ("angle_2", VNone);
 ("carrier_power", VNone);
 ("clock_bias", VNone);
 ("clock_drift", VNone);
 ("doppler_count", VNone);
 ("doppler_instantaneous", VNone);
 ("doppler_integrated", VNone);
 ("dor", VNone);
 ("mag", VNone);
 ("pc_n0", VNone);
 ("pr_n0", VNone);
 ("pressure", VNone);
 ("range", VDec (DFin false 547102714560774%N (-7)%Z));
 ("rcs", VNone);
 ("receive_freq", VNone);
 ("receive_freq_1", VNone);
 ("receive_freq_2", VNone);
 ("receive_freq_3", VNone);
 ("receive_freq_4", VNone);
 ("receive_freq_5", VNone);
 ("receive_phase_ct_1", VNone);
 ("receive_phase_ct_2", VNone);
 ("receive_phase_ct_3", VNone);
 ("receive_phase_ct_4", VNone);
 ("receive_phase_ct_5", VNone);
 ("rhumidity", VNone);
 ("stec", VNone);
 ("temperature", VNone);
 ("transmit_freq_1", VNone);
 ("transmit_freq_2", VNone);
 ("transmit_freq_3", VNone);
 ("transmit_freq_4", VNone);
 ("transmit_freq_5", VNone);
 ("transmit_freq_rate_1", VNone);
 ("transmit_freq_rate_2", VNone);
 ("transmit_freq_rate_3", VNone);
 ("transmit_freq_rate_4", VNone);
 ("transmit_freq_rate_5", VNone);
 ("transmit_phase_ct_1", VNone);
 ("transmit_phase_ct_2", VNone);
 ("transmit_phase_ct_3", VNone);
 ("transmit_phase_ct_4", VNone);
 ("transmit_phase_ct_5", VNone);
 ("tropo_dry", VNone);
 ("tropo_wet", VNone);
 ("vlbi_delay", VNone)]; VObj "TrackingDataObservationType" [("epoch", VStr (lit "2007-075T14:18:13.000"));
 ("angle_1", VNone);
 ("angle_2", VNone);
 ("carrier_power", VNone);
 ("clock_bias", VNone);
 ("clock_drift", VNone);
 ("doppler_count", VNone);
 ("doppler_instantaneous", VNone);
 ("doppler_integrated", VNone);
 ("dor", VNone);
 ("mag", VNone);
 ("pc_n0", VNone);
 ("pr_n0", VNone);
 ("pressure", VNone);
 ("range", VDec (DFin false 4379931175173865%N (-8)%Z));
 ("rcs", VNone);
 ("receive_freq", VNone);
 ("receive_freq_1", VNone);
 ("receive_freq_2", VNone);
 ("receive_freq_3", VNone);
 ("receive_freq_4", VNone);
 ("receive_freq_5", VNone);
 ("receive_phase_ct_1", VNone);
 ("receive_phase_ct_2", VNone);
 ("receive_phase_ct_3", VNone);
 ("receive_phase_ct_4", VNone);
 ("receive_phase_ct_5", VNone);
 ("rhumidity", VNone);
 ("stec", VNone);
 ("temperature", VNone);
 ("transmit_freq_1", VNone);
 ("transmit_freq_2", VNone);
 ("transmit_freq_3", VNone);
 ("transmit_freq_4", VNone);
 ("transmit_freq_5", VNone);
 ("transmit_freq_rate_1", VNone);
 ("transmit_freq_rate_2", VNone);
 ("transmit_freq_rate_3", VNone);
 ("transmit_freq_rate_4", VNone);
 ("transmit_freq_rate_5", VNone);
 ("transmit_phase_ct_1", VNone);
 ("transmit_phase_ct_2", VNone);
 ("transmit_phase_ct_3", VNone);
 ("transmit_phase_ct_4", VNone);
 ("transmit_phase_ct_5", VNone);
 ("tropo_dry", VNone);
 ("tropo_wet", VNone);
 ("vlbi_delay", VNone)]; VObj "TrackingDataObservationType" [("epoch", VStr (lit "2007-075T14:21:40.000"));
 ("angle_1", VNone);
 ("angle_2", VNone);
 ("carrier_power", VNone);
 ("clock_bias", VNone);
 ("clock_drift", VNone);
 ("doppler_count", VNone);
 ("doppler_instantaneous", VNone);
 ("doppler_integrated", VNone);
 ("dor", VNone);
 ("mag", VNone);
 ("pc_n0", VNone);
 ("pr_n0", VNone);
 ("pressure", VNone);
 ("range", VDec (DFin false 3289312359439699%N (-8)%Z));
 ("rcs", VNone);
 ("receive_freq", VNone);
 ("receive_freq_1", VNone);
 ("receive_freq_2", VNone);
 ("receive_freq_3", VNone);
 ("receive_freq_4", VNone);
 ("receive_freq_5", VNone);
 ("receive_phase_ct_1", VNone);
 ("receive_phase_ct_2", VNone);
 ("receive_phase_ct_3", VNone);
 ("receive_phase_ct_4", VNone);
 ("receive_phase_ct_5", VNone);
 ("rhumidity", VNone);
 ("stec", VNone);
 ("temperature", VNone);
 ("transmit_freq_1", VNone);
 ("transmit_freq_2", VNone);
 ("transmit_freq_3", VNone);
 ("transmit_freq_4", VNone);
 ("transmit_freq_5", VNone);
 ("transmit_freq_rate_1", VNone);
 ("transmit_freq_rate_2", VNone);
 ("transmit_freq_rate_3", VNone);
 ("transmit_freq_rate_4", VNone);
 ("transmit_freq_rate_5", VNone);
 ("transmit_phase_ct_1", VNone);
 ("transmit_phase_ct_2", VNone);
 ("transmit_phase_ct_3", VNone);
 ("transmit_phase_ct_4", VNone);
 ("transmit_phase_ct_5", VNone);
 ("tropo_dry", VNone);
 ("tropo_wet", VNone);
 ("vlbi_delay", VNone)]; VObj "TrackingDataObservationType" [("epoch", VStr (lit "2007-075T14:25:07.000"));
 ("angle_1", VNone);
 ("angle_2", VNone);
 ("carrier_power", VNone);
 ("clock_bias", VNone);
 ("clock_drift", VNone);
 ("doppler_count", VNone);
 ("doppler_instantaneous", VNone);
 ("doppler_integrated", VNone);
 ("dor", VNone);
 ("mag", VNone);
 ("pc_n0", VNone);
 ("pr_n0", VNone);
 ("pressure", VNone);
 ("range", VDec (DFin false 2199179372274652%N (-8)%Z));
 ("rcs", VNone);
 ("receive_freq", VNone);
 ("receive_freq_1", VNone);
 ("receive_freq_2", VNone);
 ("receive_freq_3", VNone);
 ("receive_freq_4", VNone);
 ("receive_freq_5", VNone);
 ("receive_phase_ct_1", VNone);
 ("receive_phase_ct_2", VNone);
 ("receive_phase_ct_3", VNone);
 ("receive_phase_ct_4", VNone);
 ("receive_phase_ct_5", VNone);
 ("rhumidity", VNone);
 ("stec", VNone);
 ("temperature", VNone);
 ("transmit_freq_1", VNone);
 ("transmit_freq_2", VNone);
 ("transmit_freq_3", VNone);
 ("transmit_freq_4", VNone);
 ("transmit_freq_5", VNone);
 ("transmit_freq_rate_1", VNone);
 ("transmit_freq_rate_2", VNone);
 ("transmit_freq_rate_3", VNone);
 ("transmit_freq_rate_4", VNone);
 ("transmit_freq_rate_5", VNone);
 ("transmit_phase_ct_1", VNone);
 ("transmit_phase_ct_2", VNone);
 ("transmit_phase_ct_3", VNone);
 ("transmit_phase_ct_4", VNone);
 ("transmit_phase_ct_5", VNone);
 ("tropo_dry", VNone);
 ("tropo_wet", VNone);
 ("vlbi_delay", VNone)]; VObj "TrackingDataObservationType" [("epoch", VStr (lit "2007-075T14:28:34.000"));
 ("angle_1", VNone);
 ("angle_2", VNone);
 ("carrier_power", VNone);
 ("clock_bias", VNone);
 ("clock_drift", VNone);
 ("doppler_count", VNone);
 ("doppler_instantaneous", VNone);
 ("doppler_integrated", VNone);
 ("dor", VNone);
 ("mag", VNone);
 ("pc_n0", VNone);
 ("pr_n0", VNone);
 ("pressure", VNone);
 ("range", VDec (DFin false 1109540636398933%N (-8)%Z));
 ("rcs", VNone);
 ("receive_freq", VNone);
 ("receive_freq_1", VNone);
 ("receive_freq_2", VNone);
 ("receive_freq_3", VNone);
 ("receive_freq_4", VNone);
 ("receive_freq_5", VNone);
 ("receive_phase_ct_1", VNone);
 ("receive_phase_ct_2", VNone);
 ("receive_phase_ct_3", VNone);
 ("receive_phase_ct_4", VNone);
 ("receive_phase_ct_5", VNone);
 ("rhumidity", VNone);
 ("stec", VNone);
 ("temperature", VNone);
 ("transmit_freq_1", VNone);
 ("transmit_freq_2", VNone);
 ("transmit_freq_3", VNone);
 ("transmit_freq_4", VNone);
 ("transmit_freq_5", VNone);
 ("transmit_freq_rate_1", VNone);
 ("transmit_freq_rate_2", VNone);
 ("transmit_freq_rate_3", VNone);
 ("transmit_freq_rate_4", VNone);
 ("transmit_freq_rate_5", VNone);
 ("transmit_phase_ct_1", VNone);
 ("transmit_phase_ct_2", VNone);
 ("transmit_phase_ct_3", VNone);
 ("transmit_phase_ct_4", VNone);
 ("transmit_phase_ct_5", VNone);
 ("tropo_dry", VNone);
 ("tropo_wet", VNone);
 ("vlbi_delay", VNone)]; VObj "TrackingDataObservationType" [("epoch", VStr (lit "2007-075T14:32:01.000"));
 ("angle_1", VNone);
 ("angle_2", VNone);
 ("carrier_power", VNone);
 ("clock_bias", VNone);
 ("clock_drift", VNone);
 ("doppler_count", VNone);
 ("doppler_instantaneous", VNone);
 ("doppler_integrated", VNone);
 ("dor", VNone);
 ("mag", VNone);
 ("pc_n0", VNone);
 ("pr_n0", VNone);
 ("pressure", VNone);
 ("range", VDec (DFin false 204040150579172%N (-9)%Z));
 ("rcs", VNone);
 ("receive_freq", VNone);
 ("receive_freq_1", VNone);
 ("receive_freq_2", VNone);
 ("receive_freq_3", VNone);
 ("receive_freq_4", VNone);
 ("receive_freq_5", VNone);
 ("receive_phase_ct_1", VNone);
 ("receive_phase_ct_2", VNone);
 ("receive_phase_ct_3", VNone);
 ("receive_phase_ct_4", VNone);
 ("receive_phase_ct_5", VNone);
 ("rhumidity", VNone);
 ("stec", VNone);
 ("temperature", VNone);
 ("transmit_freq_1", VNone);
 ("transmit_freq_2", VNone);
 ("transmit_freq_3", VNone);
 ("transmit_freq_4", VNone);
 ("transmit_freq_5", VNone);
 ("transmit_freq_rate_1", VNone);
 ("transmit_freq_rate_2", VNone);
 ("transmit_freq_rate_3", VNone);
 ("transmit_freq_rate_4", VNone);
 ("transmit_freq_rate_5", VNone);
 ("transmit_phase_ct_1", VNone);
 ("transmit_phase_ct_2", VNone);
 ("transmit_phase_ct_3", VNone);
 ("transmit_phase_ct_4", VNone);
 ("transmit_phase_ct_5", VNone);
 ("tropo_dry", VNone);
 ("tropo_wet", VNone);
 ("vlbi_delay", VNone)]; VObj "TrackingDataObservationType" [("epoch", VStr (lit "2007-075T14:35:28.000"));
 ("angle_1", VNone);
 ("angle_2", VNone);
 ("carrier_power", VNone);
 ("clock_bias", VNone);
 ("clock_drift", VNone);
 ("doppler_count", VNone);
 ("doppler_instantaneous", VNone);
 ("doppler_integrated", VNone);
 ("dor", VNone);
 ("mag", VNone);
 ("pc_n0", VNone);
 ("pr_n0", VNone);
 ("pressure", VNone);
 ("range", VDec (DFin false 564266499168988%N (-7)%Z));
 ("rcs", VNone);
 ("receive_freq", VNone);
 ("receive_freq_1", VNone);
 ("receive_freq_2", VNone);
 ("receive_freq_3", VNone);
 ("receive_freq_4", VNone);
 ("receive_freq_5", VNone);
 ("receive_phase_ct_1", VNone);
 ("receive_phase_ct_2", VNone);
 ("receive_phase_ct_3", VNone);
 ("receive_phase_ct_4", VNone);
 ("receive_phase_ct_5", VNone);
 ("rhumidity", VNone);
 ("stec", VNone);
 ("temperature", VNone);
 ("transmit_freq_1", VNone);
 ("transmit_freq_2", VNone);
 ("transmit_freq_3", VNone);
 ("transmit_freq_4", VNone);
 ("transmit_freq_5", VNone);
 ("transmit_freq_rate_1", VNone);
 ("transmit_freq_rate_2", VNone);
 ("transmit_freq_rate_3", VNone);
 ("transmit_freq_rate_4", VNone);
 ("transmit_freq_rate_5", VNone);
 ("transmit_phase_ct_1", VNone);
 ("transmit_phase_ct_2", VNone);
 ("transmit_phase_ct_3", VNone);
 ("transmit_phase_ct_4", VNone);
 ("transmit_phase_ct_5", VNone);
 ("tropo_dry", VNone);
 ("tropo_wet", VNone);
 ("vlbi_delay", VNone)]; VObj "TrackingDataObservationType" [("epoch", VStr (lit "2007-075T14:38:55.000"));
 ("angle_1", VNone);
 ("angle_2", VNone);
 ("carrier_power", VNone);
 ("clock_bias", VNone);
 ("clock_drift", VNone);
 ("doppler_count", VNone);
 ("doppler_instantaneous", VNone);
 ("doppler_integrated", VNone);
 ("dor", VNone);
 ("mag", VNone);
 ("pc_n0", VNone);
 ("pr_n0", VNone);
 ("pressure", VNone);
 ("range", VDec (DFin false 4554558853511675%N (-8)%Z));
 ("rcs", VNone);
 ("receive_freq", VNone);
 ("receive_freq_1", VNone);
 ("receive_freq_2", VNone);
 ("receive_freq_3", VNone);
 ("receive_freq_4", VNone);
 ("receive_freq_5", VNone);
 ("receive_phase_ct_1", VNone);
 ("receive_phase_ct_2", VNone);
 ("receive_phase_ct_3", VNone);
 ("receive_phase_ct_4", VNone);
 ("receive_phase_ct_5", VNone);
 ("rhumidity", VNone);
 ("stec", VNone);
 ("temperature", VNone);
 ("transmit_freq_1", VNone);
 ("transmit_freq_2", VNone);
 ("transmit_freq_3", VNone);
 ("transmit_freq_4", VNone);
 ("transmit_freq_5", VNone);
 ("transmit_freq_rate_1", VNone);
 ("transmit_freq_rate_2", VNone);
 ("transmit_freq_rate_3", VNone);
 ("transmit_freq_rate_4", VNone);
 ("transmit_freq_rate_5", VNone);
 ("transmit_phase_ct_1", VNone);
 ("transmit_phase_ct_2", VNone);
 ("transmit_phase_ct_3", VNone);
 ("transmit_phase_ct_4", VNone);
 ("transmit_phase_ct_5", VNone);
 ("tropo_dry", VNone);
 ("tropo_wet", VNone);
 ("vlbi_delay", VNone)]; VObj "TrackingDataObservationType" [("epoch", VStr (lit "2007-075T14:42:22.000"));
 ("angle_1", VNone);
 ("angle_2", VNone);
 ("carrier_power", VNone);
 ("clock_bias", VNone);
 ("clock_drift", VNone);
 ("doppler_count", VNone);
 ("doppler_instantaneous", VNone);
 ("doppler_integrated", VNone);
 ("dor", VNone);
 ("mag", VNone);
 ("pc_n0", VNone);
 ("pr_n0", VNone);
 ("pressure", VNone);
 ("range", VDec (DFin false 3466979840457717%N (-8)%Z));
 ("rcs", VNone);
 ("receive_freq", VNone);
 ("receive_freq_1", VNone);
 ("receive_freq_2", VNone);
 ("receive_freq_3", VNone);
 ("receive_freq_4", VNone);
 ("receive_freq_5", VNone);
 ("receive_phase_ct_1", VNone);
 ("receive_phase_ct_2", VNone);
 ("receive_phase_ct_3", VNone);
 ("receive_phase_ct_4", VNone);
 ("receive_phase_ct_5", VNone);
 ("rhumidity", VNone);
 ("stec", VNone);
 ("temperature", VNone);
 ("transmit_freq_1", VNone);
 ("transmit_freq_2", VNone);
 ("transmit_freq_3", VNone);
 ("transmit_freq_4", VNone);
 ("transmit_freq_5", VNone);
 ("transmit_freq_rate_1", VNone);
 ("transmit_freq_rate_2", VNone);
 ("transmit_freq_rate_3", VNone);
 ("transmit_freq_rate_4", VNone);
 ("transmit_freq_rate_5", VNone);
 ("transmit_phase_ct_1", VNone);
 ("transmit_phase_ct_2", VNone);
 ("transmit_phase_ct_3", VNone);
 ("transmit_phase_ct_4", VNone);
 ("transmit_phase_ct_5", VNone);
 ("tropo_dry", VNone);
 ("tropo_wet", VNone);
 ("vlbi_delay", VNone)]; VObj "TrackingDataObservationType" [("epoch", VStr (lit "2007-075T14:45:49.000"));
 ("angle_1", VNone);
 ("angle_2", VNone);
 ("carrier_power", VNone);
 ("clock_bias", VNone);
 ("clock_drift", VNone);
 ("doppler_count", VNone);
 ("doppler_instantaneous", VNone);
 ("doppler_integrated", VNone);
 ("dor", VNone);
 ("mag", VNone);
 ("pc_n0", VNone);
 ("pr_n0", VNone);
 ("pressure", VNone);
 ("range", VDec (DFin false 2379935754212843%N (-8)%Z));
 ("rcs", VNone);
 ("receive_freq", VNone);
 ("receive_freq_1", VNone);
 ("receive_freq_2", VNone);
 ("receive_freq_3", VNone);
 ("receive_freq_4", VNone);
 ("receive_freq_5", VNone);
 ("receive_phase_ct_1", VNone);
 ("receive_phase_ct_2", VNone);
 ("receive_phase_ct_3", VNone);
 ("receive_phase_ct_4", VNone);
 ("receive_phase_ct_5", VNone);
 ("rhumidity", VNone);
 ("stec", VNone);
 ("temperature", VNone);
 ("transmit_freq_1", VNone);
 ("transmit_freq_2", VNone);
 ("transmit_freq_3", VNone);
 ("transmit_freq_4", VNone);
 ("transmit_freq_5", VNone);
 ("transmit_freq_rate_1", VNone);
 ("transmit_freq_rate_2", VNone);
 ("transmit_freq_rate_3", VNone);
 ("transmit_freq_rate_4", VNone);
 ("transmit_freq_rate_5", VNone);
 ("transmit_phase_ct_1", VNone);
 ("transmit_phase_ct_2", VNone);
 ("transmit_phase_ct_3", VNone);
 ("transmit_phase_ct_4", VNone);
 ("transmit_phase_ct_5", VNone);
 ("tropo_dry", VNone);
 ("tropo_wet", VNone);
 ("vlbi_delay", VNone)]; VObj "TrackingDataObservationType" [("epoch", VStr (lit "2007-075T14:49:16.000"));
 ("angle_1", VNone);
 ("angle_2", VNone);
 ("carrier_power", VNone);
 ("clock_bias", VNone);
 ("clock_drift", VNone);
 ("doppler_count", VNone);
 ("doppler_instantaneous", VNone);
 ("doppler_integrated", VNone);
 ("dor", VNone);
 ("mag", VNone);
 ("pc_n0", VNone);
 ("pr_n0", VNone);
 ("pressure", VNone);
 ("range", VDec (DFin false 1293434523742387%N (-8)%Z));
 ("rcs", VNone);
 ("receive_freq", VNone);
 ("receive_freq_1", VNone);
 ("receive_freq_2", VNone);
 ("receive_freq_3", VNone);
 ("receive_freq_4", VNone);
 ("receive_freq_5", VNone);
 ("receive_phase_ct_1", VNone);
 ("receive_phase_ct_2", VNone);
 ("receive_phase_ct_3", VNone);
 ("receive_phase_ct_4", VNone);
 ("receive_phase_ct_5", VNone);
 ("rhumidity", VNone);
 ("stec", VNone);
 ("temperature", VNone);
 ("transmit_freq_1", VNone);
 ("transmit_freq_2", VNone);
 ("transmit_freq_3", VNone);
 ("transmit_freq_4", VNone);
 ("transmit_freq_5", VNone);
 ("transmit_freq_rate_1", VNone);
 ("transmit_freq_rate_2", VNone);
 ("transmit_freq_rate_3", VNone);
 ("transmit_freq_rate_4", VNone);
 ("transmit_freq_rate_5", VNone);
 ("transmit_phase_ct_1", VNone);
 ("transmit_phase_ct_2", VNone);
 ("transmit_phase_ct_3", VNone);
 ("transmit_phase_ct_4", VNone);
 ("transmit_phase_ct_5", VNone);
 ("tropo_dry", VNone);
 ("tropo_wet", VNone);
 ("vlbi_delay", VNone)]; VObj "TrackingDataObservationType" [("epoch", VStr (lit "2007-075T14:52:43.000"));
 ("angle_1", VNone);
 ("angle_2", VNone);
 ("carrier_power", VNone);
 ("clock_bias", VNone);
 ("clock_drift", VNone);
 ("doppler_count", VNone);
 ("doppler_instantaneous", VNone);
 ("doppler_integrated", VNone);
 ("dor", VNone);
 ("mag", VNone);
 ("pc_n0", VNone);
 ("pr_n0", VNone);
 ("pressure", VNone);
 ("range", VDec (DFin false 2074835246438581%N (-9)%Z));
 ("rcs", VNone);
 ("receive_freq", VNone);
 ("receive_freq_1", VNone);
 ("receive_freq_2", VNone);
 ("receive_freq_3", VNone);
 ("receive_freq_4", VNone);
 ("receive_freq_5", VNone);
 ("receive_phase_ct_1", VNone);
 ("receive_phase_ct_2", VNone);
 ("receive_phase_ct_3", VNone);
 ("receive_phase_ct_4", VNone);
 ("receive_phase_ct_5", VNone);
 ("rhumidity", VNone);
 ("stec", VNone);
 ("temperature", VNone);
 ("transmit_freq_1", VNone);
 ("transmit_freq_2", VNone);
 ("transmit_freq_3", VNone);
 ("transmit_freq_4", VNone);
 ("transmit_freq_5", VNone);
 ("transmit_freq_rate_1", VNone);
 ("transmit_freq_rate_2", VNone);
 ("transmit_freq_rate_3", VNone);
 ("transmit_freq_rate_4", VNone);
 ("transmit_freq_rate_5", VNone);
 ("transmit_phase_ct_1", VNone);
 ("transmit_phase_ct_2", VNone);
 ("transmit_phase_ct_3", VNone);
 ("transmit_phase_ct_4", VNone);
 ("transmit_phase_ct_5", VNone);
 ("tropo_dry", VNone);
 ("tropo_wet", VNone);
 ("vlbi_delay", VNone)]; VObj "TrackingDataObservationType" [("epoch", VStr (lit "2007-075T14:56:10.000"));
 ("angle_1", VNone);
 ("angle_2", VNone);
 ("carrier_power", VNone);
 ("clock_bias", VNone);
 ("clock_drift", VNone);
 ("doppler_count", VNone);
 ("doppler_instantaneous", VNone);
 ("doppler_integrated", VNone);
 ("dor", VNone);
 ("mag", VNone);
 ("pc_n0", VNone);
 ("pr_n0", VNone);
 ("pressure", VNone);
 ("range", VDec (DFin false 5832976664525063%N (-8)%Z));
 ("rcs", VNone);
 ("receive_freq", VNone);
 ("receive_freq_1", VNone);
 ("receive_freq_2", VNone);
 ("receive_freq_3", VNone);
 ("receive_freq_4", VNone);
 ("receive_freq_5", VNone);
 ("receive_phase_ct_1", VNone);
 ("receive_phase_ct_2", VNone);
 ("receive_phase_ct_3", VNone);
 ("receive_phase_ct_4", VNone);
 ("receive_phase_ct_5", VNone);
 ("rhumidity", VNone);
 ("stec", VNone);
 ("temperature", VNone);
 ("transmit_freq_1", VNone);
 ("transmit_freq_2", VNone);
 ("transmit_freq_3", VNone);
 ("transmit_freq_4", VNone);
 ("transmit_freq_5", VNone);
 ("transmit_freq_rate_1", VNone);
 ("transmit_freq_rate_2", VNone);
 ("transmit_freq_rate_3", VNone);
 ("transmit_freq_rate_4", VNone);
 ("transmit_freq_rate_5", VNone);
 ("transmit_phase_ct_1", VNone);
 ("transmit_phase_ct_2", VNone);
 ("transmit_phase_ct_3", VNone);
 ("transmit_phase_ct_4", VNone);
 ("transmit_phase_ct_5", VNone);
 ("tropo_dry", VNone);
 ("tropo_wet", VNone);
 ("vlbi_delay", VNone)]; VObj "TrackingDataObservationType" [("epoch", VStr (lit "2007-075T14:59:37.000"));
 ("angle_1", VNone);
 ("angle_2", VNone);
 ("carrier_power", VNone);
 ("clock_bias", VNone);
 ("clock_drift", VNone);
 ("doppler_count", VNone);
 ("doppler_instantaneous", VNone);
 ("doppler_integrated", VNone);
 ("dor", VNone);
 ("mag", VNone);
 ("pc_n0", VNone);
 ("pr_n0", VNone);
 ("pressure", VNone);
 ("range", VDec (DFin false 4748148782737921%N (-8)%Z));
 ("rcs", VNone);
 ("receive_freq", VNone);
 ("receive_freq_1", VNone);
 ("receive_freq_2", VNone);
 ("receive_freq_3", VNone);
 ("receive_freq_4", VNone);
 ("receive_freq_5", VNone);
 ("receive_phase_ct_1", VNone);
 ("receive_phase_ct_2", VNone);
 ("receive_phase_ct_3", VNone);
 ("receive_phase_ct_4", VNone);
 ("receive_phase_ct_5", VNone);
 ("rhumidity", VNone);
 ("stec", VNone);
 ("temperature", VNone);
 ("transmit_freq_1", VNone);
 ("transmit_freq_2", VNone);
 ("transmit_freq_3", VNone);
 ("transmit_freq_4", VNone);
 ("transmit_freq_5", VNone);
 ("transmit_freq_rate_1", VNone);
 ("transmit_freq_rate_2", VNone);
 ("transmit_freq_rate_3", VNone);
 ("transmit_freq_rate_4", VNone);
 ("transmit_freq_rate_5", VNone);
 ("transmit_phase_ct_1", VNone);
 ("transmit_phase_ct_2", VNone);
 ("transmit_phase_ct_3", VNone);
 ("transmit_phase_ct_4", VNone);
 ("transmit_phase_ct_5", VNone);
 ("tropo_dry", VNone);
 ("tropo_wet", VNone);
 ("vlbi_delay", VNone)]; VObj "TrackingDataObservationType" [("epoch", VStr (lit "2007-075T15:03:04.000"));
 ("angle_1", VNone);
 ("angle_2", VNone);
 ("carrier_power", VNone);
 ("clock_bias", VNone);
 ("clock_drift", VNone);
 ("doppler_count", VNone);
 ("doppler_instantaneous", VNone);
 ("doppler_integrated", VNone);
 ("dor", VNone);
 ("mag", VNone);
 ("pc_n0", VNone);
 ("pr_n0", VNone);
 ("pressure", VNone);
 ("range", VDec (DFin false 3663893581917384%N (-8)%Z));
 ("rcs", VNone);
 ("receive_freq", VNone);
 ("receive_freq_1", VNone);
 ("receive_freq_2", VNone);
 ("receive_freq_3", VNone);
 ("receive_freq_4", VNone);
 ("receive_freq_5", VNone);
 ("receive_phase_ct_1", VNone);
 ("receive_phase_ct_2", VNone);
 ("receive_phase_ct_3", VNone);
 ("receive_phase_ct_4", VNone);
 ("receive_phase_ct_5", VNone);
 ("rhumidity", VNone);
 ("stec", VNone);
 ("temperature", VNone);
 ("transmit_freq_1", VNone);
 ("transmit_freq_2", VNone);
 ("transmit_freq_3", VNone);
 ("transmit_freq_4", VNone);
 ("transmit_freq_5", VNone);
 ("transmit_freq_rate_1", VNone);
 ("transmit_freq_rate_2", VNone);
 ("transmit_freq_rate_3", VNone);
 ("transmit_freq_rate_4", VNone);
 ("transmit_freq_rate_5", VNone);
 ("transmit_phase_ct_1", VNone);
 ("transmit_phase_ct_2", VNone);
 ("transmit_phase_ct_3", VNone);
 ("transmit_phase_ct_4", VNone);
 ("transmit_phase_ct_5", VNone);
 ("tropo_dry", VNone);
 ("tropo_wet", VNone);
 ("vlbi_delay", VNone)]; VObj "TrackingDataObservationType" [("epoch", VStr (lit "2007-075T15:06:31.000"));
 ("angle_1", VNone);
 ("angle_2", VNone);
 ("carrier_power", VNone);
 ("clock_bias", VNone);
 ("clock_drift", VNone);
 ("doppler_count", VNone);
 ("doppler_instantaneous", VNone);
 ("doppler_integrated", VNone);
 ("dor", VNone);
 ("mag", VNone);
 ("pc_n0", VNone);
 ("pr_n0", VNone);
 ("pressure", VNone);
 ("range", VDec (DFin false 2580217212577452%N (-8)%Z));
 ("rcs", VNone);
 ("receive_freq", VNone);
 ("receive_freq_1", VNone);
 ("receive_freq_2", VNone);
 ("receive_freq_3", VNone);
 ("receive_freq_4", VNone);
 ("receive_freq_5", VNone);
 ("receive_phase_ct_1", VNone);
 ("receive_phase_ct_2", VNone);
 ("receive_phase_ct_3", VNone);
 ("receive_phase_ct_4", VNone);
 ("receive_phase_ct_5", VNone);
 ("rhumidity", VNone);
 ("stec", VNone);
 ("temperature", VNone);
 ("transmit_freq_1", VNone);
 ("transmit_freq_2", VNone);
 ("transmit_freq_3", VNone);
 ("transmit_freq_4", VNone);
 ("transmit_freq_5", VNone);
 ("transmit_freq_rate_1", VNone);
 ("transmit_freq_rate_2", VNone);
 ("transmit_freq_rate_3", VNone);
 ("transmit_freq_rate_4", VNone);
 ("transmit_freq_rate_5", VNone);
 ("transmit_phase_ct_1", VNone);
 ("transmit_phase_ct_2", VNone);
 ("transmit_phase_ct_3", VNone);
 ("transmit_phase_ct_4", VNone);
 ("transmit_phase_ct_5", VNone);
 ("tropo_dry", VNone);
 ("tropo_wet", VNone);
 ("vlbi_delay", VNone)]; VObj "TrackingDataObservationType" [("epoch", VStr (lit "2007-075T15:09:58.000"));
 ("angle_1", VNone);
 ("angle_2", VNone);
 ("carrier_power", VNone);
 ("clock_bias", VNone);
 ("clock_drift", VNone);
 ("doppler_count", VNone);
 ("doppler_instantaneous", VNone);
 ("doppler_integrated", VNone);
 ("dor", VNone);
 ("mag", VNone);
 ("pc_n0", VNone);
 ("pr_n0", VNone);
 ("pressure", VNone);
 ("range", VDec (DFin false 1497127238367737%N (-8)%Z));
 ("rcs", VNone);
 ("receive_freq", VNone);
 ("receive_freq_1", VNone);
 ("receive_freq_2", VNone);
 ("receive_freq_3", VNone);
 ("receive_freq_4", VNone);
 ("receive_freq_5", VNone);
 ("receive_phase_ct_1", VNone);
 ("receive_phase_ct_2", VNone);
 ("receive_phase_ct_3", VNone);
 ("receive_phase_ct_4", VNone);
 ("receive_phase_ct_5", VNone);
 ("rhumidity", VNone);
 ("stec", VNone);
 ("temperature", VNone);
 ("transmit_freq_1", VNone);
 ("transmit_freq_2", VNone);
 ("transmit_freq_3", VNone);
 ("transmit_freq_4", VNone);
 ("transmit_freq_5", VNone);
 ("transmit_freq_rate_1", VNone);
 ("transmit_freq_rate_2", VNone);
 ("transmit_freq_rate_3", VNone);
 ("transmit_freq_rate_4", VNone);
 ("transmit_freq_rate_5", VNone);
 ("transmit_phase_ct_1", VNone);
 ("transmit_phase_ct_2", VNone);
 ("transmit_phase_ct_3", VNone);
 ("transmit_phase_ct_4", VNone);
 ("transmit_phase_ct_5", VNone);
 ("tropo_dry", VNone);
 ("tropo_wet", VNone);
 ("vlbi_delay", VNone)]; VObj "TrackingDataObservationType" [("epoch", VStr (lit "2007-075T15:13:25.000"));
 ("angle_1", VNone);
 ("angle_2", VNone);
 ("carrier_power", VNone);
 ("clock_bias", VNone);
 ("clock_drift", VNone);
 ("doppler_count", VNone);
 ("doppler_instantaneous", VNone);
 ("doppler_integrated", VNone);
 ("dor", VNone);
 ("mag", VNone);
 ("pc_n0", VNone);
 ("pr_n0", VNone);
 ("pressure", VNone);
 ("range", VDec (DFin false 4146304961927752%N (-9)%Z));
 ("rcs", VNone);
 ("receive_freq", VNone);
 ("receive_freq_1", VNone);
 ("receive_freq_2", VNone);
 ("receive_freq_3", VNone);
 ("receive_freq_4", VNone);
 ("receive_freq_5", VNone);
 ("receive_phase_ct_1", VNone);
 ("receive_phase_ct_2", VNone);
 ("receive_phase_ct_3", VNone);
 ("receive_phase_ct_4", VNone);
 ("receive_phase_ct_5", VNone);
 ("rhumidity", VNone);
 ("stec", VNone);
 ("temperature", VNone);
 ("transmit_freq_1", VNone);
 ("transmit_freq_2", VNone);
 ("transmit_freq_3", VNone);
 ("transmit_freq_4", VNone);
 ("transmit_freq_5", VNone);
 ("transmit_freq_rate_1", VNone);
 ("transmit_freq_rate_2", VNone);
 ("transmit_freq_rate_3", VNone);
 ("transmit_freq_rate_4", VNone);
 ("transmit_freq_rate_5", VNone);
 ("transmit_phase_ct_1", VNone);
 ("transmit_phase_ct_2", VNone);
 ("transmit_phase_ct_3", VNone);
 ("transmit_phase_ct_4", VNone);
 ("transmit_phase_ct_5", VNone);
 ("tropo_dry", VNone);
 ("tropo_wet", VNone);
 ("vlbi_delay", VNone)]; VObj "TrackingDataObservationType" [("epoch", VStr (lit "2007-075T15:16:52.000"));
 ("angle_1", VNone);
 ("angle_2", VNone);
 ("carrier_power", VNone);
 ("clock_bias", VNone);
 ("clock_drift", VNone);
 ("doppler_count", VNone);
 ("doppler_instantaneous", VNone);
 ("doppler_integrated", VNone);
 ("dor", VNone);
 ("mag", VNone);
 ("pc_n0", VNone);
 ("pr_n0", VNone);
 ("pressure", VNone);
 ("range", VDec (DFin false 6043619833518554%N (-8)%Z));
 ("rcs", VNone);
 ("receive_freq", VNone);
 ("receive_freq_1", VNone);
 ("receive_freq_2", VNone);
 ("receive_freq_3", VNone);
 ("receive_freq_4", VNone);
 ("receive_freq_5", VNone);
 ("receive_phase_ct_1", VNone);
 ("receive_phase_ct_2", VNone);
 ("receive_phase_ct_3", VNone);
 ("receive_phase_ct_4", VNone);
 ("receive_phase_ct_5", VNone);
 ("rhumidity", VNone);
 ("stec", VNone);
 ("temperature", VNone);
 ("transmit_freq_1", VNone);
 ("transmit_freq_2", VNone);
 ("transmit_freq_3", VNone);
 ("transmit_freq_4", VNone);
 ("transmit_freq_5", VNone);
 ("transmit_freq_rate_1", VNone);
 ("transmit_freq_rate_2", VNone);
 ("transmit_freq_rate_3", VNone);
 ("transmit_freq_rate_4", VNone);
 ("transmit_freq_rate_5", VNone);
 ("transmit_phase_ct_1", VNone);
 ("transmit_phase_ct_2", VNone);
 ("transmit_phase_ct_3", VNone);
 ("transmit_phase_ct_4", VNone);
 ("transmit_phase_ct_5", VNone);
 ("tropo_dry", VNone);
 ("tropo_wet", VNone);
 ("vlbi_delay", VNone)]; VObj "TrackingDataObservationType" [("epoch", VStr (lit "2007-075T15:20:19.000"));
 ("angle_1", VNone);
 ("angle_2", VNone);
 ("carrier_power", VNone);
 ("clock_bias", VNone);
 ("clock_drift", VNone);
 ("doppler_count", VNone);
 ("doppler_instantaneous", VNone);
 ("doppler_integrated", VNone);
 ("dor", VNone);
 ("mag", VNone);
 ("pc_n0", VNone);
 ("pr_n0", VNone);
 ("pressure", VNone);
 ("range", VDec (DFin false 4962329275291978%N (-8)%Z));
 ("rcs", VNone);
 ("receive_freq", VNone);
 ("receive_freq_1", VNone);
 ("receive_freq_2", VNone);
 ("receive_freq_3", VNone);
 ("receive_freq_4", VNone);
 ("receive_freq_5", VNone);
 ("receive_phase_ct_1", VNone);
 ("receive_phase_ct_2", VNone);
 ("receive_phase_ct_3", VNone);
 ("receive_phase_ct_4", VNone);
 ("receive_phase_ct_5", VNone);
 ("rhumidity", VNone);
 ("stec", VNone);
 ("temperature", VNone);
 ("transmit_freq_1", VNone);
 ("transmit_freq_2", VNone);
 ("transmit_freq_3", VNone);
 ("transmit_freq_4", VNone);
 ("transmit_freq_5", VNone);
 ("transmit_freq_rate_1", VNone);
 ("transmit_freq_rate_2", VNone);
 ("transmit_freq_rate_3", VNone);
 ("transmit_freq_rate_4", VNone);
 ("transmit_freq_rate_5", VNone);
 ("transmit_phase_ct_1", VNone);
 ("transmit_phase_ct_2", VNone);
 ("transmit_phase_ct_3", VNone);
 ("transmit_phase_ct_4", VNone);
 ("transmit_phase_ct_5", VNone);
 ("tropo_dry", VNone);
 ("tropo_wet", VNone);
 ("vlbi_delay", VNone)]; VObj "TrackingDataObservationType" [("epoch", VStr (lit "2007-075T15:23:46.000"));
 ("angle_1", VNone);
 ("angle_2", VNone);
 ("carrier_power", VNone);
 ("clock_bias", VNone);
 ("clock_drift", VNone);
 ("doppler_count", VNone);
 ("doppler_instantaneous", VNone);
 ("doppler_integrated", VNone);
 ("dor", VNone);
 ("mag", VNone);
 ("pc_n0", VNone);
 ("pr_n0", VNone);
 ("pressure", VNone);
 ("range", VDec (DFin false 3881650881467222%N (-8)%Z));
 ("rcs", VNone);
 ("receive_freq", VNone);
 ("receive_freq_1", VNone);
 ("receive_freq_2", VNone);
 ("receive_freq_3", VNone);
 ("receive_freq_4", VNone);
 ("receive_freq_5", VNone);
 ("receive_phase_ct_1", VNone);
 ("receive_phase_ct_2", VNone);
 ("receive_phase_ct_3", VNone);
 ("receive_phase_ct_4", VNone);
 ("receive_phase_ct_5", VNone);
 ("rhumidity", VNone);
 ("stec", VNone);
 ("temperature", VNone);
 ("transmit_freq_1", VNone);
 ("transmit_freq_2", VNone);
 ("transmit_freq_3", VNone);
 ("transmit_freq_4", VNone);
 ("transmit_freq_5", VNone);
 ("transmit_freq_rate_1", VNone);
 ("transmit_freq_rate_2", VNone);
 ("transmit_freq_rate_3", VNone);
 ("transmit_freq_rate_4", VNone);
 ("transmit_freq_rate_5", VNone);
 ("transmit_phase_ct_1", VNone);
 ("transmit_phase_ct_2", VNone);
 ("transmit_phase_ct_3", VNone);
 ("transmit_phase_ct_4", VNone);
 ("transmit_phase_ct_5", VNone);
 ("tropo_dry", VNone);
 ("tropo_wet", VNone);
 ("vlbi_delay", VNone)]; VObj "TrackingDataObservationType" [("epoch", VStr (lit "2007-075T15:27:13.000"));
 ("angle_1", VNone);
 ("angle_2", VNone);
 ("carrier_power", VNone);
 ("clock_bias", VNone);
 ("clock_drift", VNone);
 ("doppler_count", VNone);
 ("doppler_instantaneous", VNone);
 ("doppler_integrated", VNone);
 ("dor", VNone);
 ("mag", VNone);
 ("pc_n0", VNone);
 ("pr_n0", VNone);
 ("pressure", VNone);
 ("range", VDec (DFin false 2801591429607745%N (-8)%Z));
 ("rcs", VNone);
 ("receive_freq", VNone);
 ("receive_freq_1", VNone);
 ("receive_freq_2", VNone);
 ("receive_freq_3", VNone);
 ("receive_freq_4", VNone);
 ("receive_freq_5", VNone);
 ("receive_phase_ct_1", VNone);
 ("receive_phase_ct_2", VNone);
 ("receive_phase_ct_3", VNone);
 ("receive_phase_ct_4", VNone);
 ("receive_phase_ct_5", VNone);
 ("rhumidity", VNone);
 ("stec", VNone);
 ("temperature", VNone);
 ("transmit_freq_1", VNone);
 ("transmit_freq_2", VNone);
 ("transmit_freq_3", VNone);
 ("transmit_freq_4", VNone);
 ("transmit_freq_5", VNone);
 ("transmit_freq_rate_1", VNone);
 ("transmit_freq_rate_2", VNone);
 ("transmit_freq_rate_3", VNone);
 ("transmit_freq_rate_4", VNone);
 ("transmit_freq_rate_5", VNone);
 ("transmit_phase_ct_1", VNone);
 ("transmit_phase_ct_2", VNone);
 ("transmit_phase_ct_3", VNone);
 ("transmit_phase_ct_4", VNone);
 ("transmit_phase_ct_5", VNone);
 ("tropo_dry", VNone);
 ("tropo_wet", VNone);
 ("vlbi_delay", VNone)]; VObj "TrackingDataObservationType" [("epoch", VStr (lit "2007-075T15:30:40.000"));
 ("angle_1", VNone);
 ("angle_2", VNone);
 ("carrier_power", VNone);
 ("clock_bias", VNone);
 ("clock_drift", VNone);
 ("doppler_count", VNone);
 ("doppler_instantaneous", VNone);
 ("doppler_integrated", VNone);
 ("dor", VNone);
 ("mag", VNone);
 ("pc_n0", VNone);
 ("pr_n0", VNone);
 ("pressure", VNone);
 ("range", VDec (DFin false 1722156490460124%N (-8)%Z));
 ("rcs", VNone);
 ("receive_freq", VNone);
 ("receive_freq_1", VNone);
 ("receive_freq_2", VNone);
 ("receive_freq_3", VNone);
 ("receive_freq_4", VNone);
 ("receive_freq_5", VNone);
 ("receive_phase_ct_1", VNone);
 ("receive_phase_ct_2", VNone);
 ("receive_phase_ct_3", VNone);
 ("receive_phase_ct_4", VNone);
 ("receive_phase_ct_5", VNone);
 ("rhumidity", VNone);
 ("stec", VNone);
 ("temperature", VNone);
 ("transmit_freq_1", VNone);
 ("transmit_freq_2", VNone);
 ("transmit_freq_3", VNone);
 ("transmit_freq_4", VNone);
 ("transmit_freq_5", VNone);
 ("transmit_freq_rate_1", VNone);
 ("transmit_freq_rate_2", VNone);
 ("transmit_freq_rate_3", VNone);
 ("transmit_freq_rate_4", VNone);
 ("transmit_freq_rate_5", VNone);
 ("transmit_phase_ct_1", VNone);
 ("transmit_phase_ct_2", VNone);
 ("transmit_phase_ct_3", VNone);
 ("transmit_phase_ct_4", VNone);
 ("transmit_phase_ct_5", VNone);
 ("tropo_dry", VNone);
 ("tropo_wet", VNone);
 ("vlbi_delay", VNone)]; VObj "TrackingDataObservationType" [("epoch", VStr (lit "2007-075T15:34:07.000"));
 ("angle_1", VNone);
 ("angle_2", VNone);
 ("carrier_power", VNone);
 ("clock_bias", VNone);
 ("clock_drift", VNone);
 ("doppler_count", VNone);
 ("doppler_instantaneous", VNone);
 ("doppler_integrated", VNone);
 ("dor", VNone);
 ("mag", VNone);
 ("pc_n0", VNone);
 ("pr_n0", VNone);
 ("pressure", VNone);
 ("range", VDec (DFin false 6433517121633555%N (-9)%Z));
 ("rcs", VNone);
 ("receive_freq", VNone);
 ("receive_freq_1", VNone);
 ("receive_freq_2", VNone);
 ("receive_freq_3", VNone);
 ("receive_freq_4", VNone);
 ("receive_freq_5", VNone);
 ("receive_phase_ct_1", VNone);
 ("receive_phase_ct_2", VNone);
 ("receive_phase_ct_3", VNone);
 ("receive_phase_ct_4", VNone);
 ("receive_phase_ct_5", VNone);
 ("rhumidity", VNone);
 ("stec", VNone);
 ("temperature", VNone);
 ("transmit_freq_1", VNone);
 ("transmit_freq_2", VNone);
 ("transmit_freq_3", VNone);
 ("transmit_freq_4", VNone);
 ("transmit_freq_5", VNone);
 ("transmit_freq_rate_1", VNone);
 ("transmit_freq_rate_2", VNone);
 ("transmit_freq_rate_3", VNone);
 ("transmit_freq_rate_4", VNone);
 ("transmit_freq_rate_5", VNone);
 ("transmit_phase_ct_1", VNone);
 ("transmit_phase_ct_2", VNone);
 ("transmit_phase_ct_3", VNone);
 ("transmit_phase_ct_4", VNone);
 ("transmit_phase_ct_5", VNone);
 ("tropo_dry", VNone);
 ("tropo_wet", VNone);
 ("vlbi_delay", VNone)]; VObj "TrackingDataObservationType" [("epoch", VStr (lit "2007-075T15:37:34.000"));
 ("angle_1", VNone);
 ("angle_2", VNone);
 ("carrier_power", VNone);
 ("clock_bias", VNone);
 ("clock_drift", VNone);
 ("doppler_count", VNone);
 ("doppler_instantaneous", VNone);
 ("doppler_integrated", VNone);
 ("dor", VNone);
 ("mag", VNone);
 ("pc_n0", VNone);
 ("pr_n0", VNone);
 ("pressure", VNone);
 ("range", VDec (DFin false 6276069935121135%N (-8)%Z));
 ("rcs", VNone);
 ("receive_freq", VNone);
 ("receive_freq_1", VNone);
 ("receive_freq_2", VNone);
 ("receive_freq_3", VNone);
 ("receive_freq_4", VNone);
 ("receive_freq_5", VNone);
 ("receive_phase_ct_1", VNone);
 ("receive_phase_ct_2", VNone);
 ("receive_phase_ct_3", VNone);
 ("receive_phase_ct_4", VNone);
 ("receive_phase_ct_5", VNone);
 ("rhumidity", VNone);
 ("stec", VNone);
 ("temperature", VNone);
 ("transmit_freq_1", VNone);
 ("transmit_freq_2", VNone);
 ("transmit_freq_3", VNone);
 ("transmit_freq_4", VNone);
 ("transmit_freq_5", VNone);
 ("transmit_freq_rate_1", VNone);
 ("transmit_freq_rate_2", VNone);
 ("transmit_freq_rate_3", VNone);
 ("transmit_freq_rate_4", VNone);
 ("transmit_freq_rate_5", VNone);
 ("transmit_phase_ct_1", VNone);
 ("transmit_phase_ct_2", VNone);
 ("transmit_phase_ct_3", VNone);
 ("transmit_phase_ct_4", VNone);
 ("transmit_phase_ct_5", VNone);
 ("tropo_dry", VNone);
 ("tropo_wet", VNone);
 ("vlbi_delay", VNone)]; VObj "TrackingDataObservationType" [("epoch", VStr (lit "2007-075T15:41:01.000"));
 ("angle_1", VNone);
 ("angle_2", VNone);
 ("carrier_power", VNone);
 ("clock_bias", VNone);
 ("clock_drift", VNone);
 ("doppler_count", VNone);
 ("doppler_instantaneous", VNone);
 ("doppler_integrated", VNone);
 ("dor", VNone);
 ("mag", VNone);
 ("pc_n0", VNone);
 ("pr_n0", VNone);
 ("pressure", VNone);
 ("range", VDec (DFin false 5198543051638965%N (-8)%Z));
 ("rcs", VNone);
 ("receive_freq", VNone);
 ("receive_freq_1", VNone);
 ("receive_freq_2", VNone);
 ("receive_freq_3", VNone);
 ("receive_freq_4", VNone);
 ("receive_freq_5", VNone);
 ("receive_phase_ct_1", VNone);
 ("receive_phase_ct_2", VNone);
 ("receive_phase_ct_3", VNone);
 ("receive_phase_ct_4", VNone);
 ("receive_phase_ct_5", VNone);
 ("rhumidity", VNone);
 ("stec", VNone);
 ("temperature", VNone);
 ("transmit_freq_1", VNone);
 ("transmit_freq_2", VNone);
 ("transmit_freq_3", VNone);
 ("transmit_freq_4", VNone);
 ("transmit_freq_5", VNone);
 ("transmit_freq_rate_1", VNone);
 ("transmit_freq_rate_2", VNone);
 ("transmit_freq_rate_3", VNone);
 ("transmit_freq_rate_4", VNone);
 ("transmit_freq_rate_5", VNone);
 ("transmit_phase_ct_1", VNone);
 ("transmit_phase_ct_2", VNone);
 ("transmit_phase_ct_3", VNone);
 ("transmit_phase_ct_4", VNone);
 ("transmit_phase_ct_5", VNone);
 ("tropo_dry", VNone);
 ("tropo_wet", VNone);
 ("vlbi_delay", VNone)]; VObj "TrackingDataObservationType" [("epoch", VStr (lit "2007-075T15:44:28.000"));
 ("angle_1", VNone);
 ("angle_2", VNone);
 ("carrier_power", VNone);
 ("clock_bias", VNone);
 ("clock_drift", VNone);
 ("doppler_count", VNone);
 ("doppler_instantaneous", VNone);
 ("doppler_integrated", VNone);
 ("dor", VNone);
 ("mag", VNone);
 ("pc_n0", VNone);
 ("pr_n0", VNone);
 ("pressure", VNone);
 ("range", VDec (DFin false 4121663305383415%N (-8)%Z));
 ("rcs", VNone);
 ("receive_freq", VNone);
 ("receive_freq_1", VNone);
 ("receive_freq_2", VNone);
 ("receive_freq_3", VNone);
 ("receive_freq_4", VNone);
 ("receive_freq_5", VNone);
 ("receive_phase_ct_1", VNone);
 ("receive_phase_ct_2", VNone);
 ("receive_phase_ct_3", VNone);
 ("receive_phase_ct_4", VNone);
 ("receive_phase_ct_5", VNone);
 ("rhumidity", VNone);
 ("stec", VNone);
 ("temperature", VNone);
 ("transmit_freq_1", VNone);
 ("transmit_freq_2", VNone);
 ("transmit_freq_3", VNone);
 ("transmit_freq_4", VNone);
 ("transmit_freq_5", VNone);
 ("transmit_freq_rate_1", VNone);
 ("transmit_freq_rate_2", VNone);
 ("transmit_freq_rate_3", VNone);
 ("transmit_freq_rate_4", VNone);
 ("transmit_freq_rate_5", VNone);
 ("transmit_phase_ct_1", VNone);
 ("transmit_phase_ct_2", VNone);
 ("transmit_phase_ct_3", VNone);
 ("transmit_phase_ct_4", VNone);
 ("transmit_phase_ct_5", VNone);
 ("tropo_dry", VNone);
 ("tropo_wet", VNone);
 ("vlbi_delay", VNone)]; VObj "TrackingDataObservationType" [("epoch", VStr (lit "2007-075T15:47:55.000"));
 ("angle_1", VNone);
 ("angle_2", VNone);
 ("carrier_power", VNone);
 ("clock_bias", VNone);
 ("clock_drift", VNone);
 ("doppler_count", VNone);
 ("doppler_instantaneous", VNone);
 ("doppler_integrated", VNone);
 ("dor", VNone);
 ("mag", VNone);
 ("pc_n0", VNone);
 ("pr_n0", VNone);
 ("pressure", VNone);
 ("range", VDec (DFin false 3045436119664619%N (-8)%Z));
 ("rcs", VNone);
 ("receive_freq", VNone);
 ("receive_freq_1", VNone);
 ("receive_freq_2", VNone);
 ("receive_freq_3", VNone);
 ("receive_freq_4", VNone);
 ("receive_freq_5", VNone);
 ("receive_phase_ct_1", VNone);
 ("receive_phase_ct_2", VNone);
 ("receive_phase_ct_3", VNone);
 ("receive_phase_ct_4", VNone);
 ("receive_phase_ct_5", VNone);
 ("rhumidity", VNone);
 ("stec", VNone);
 ("temperature", VNone);
 ("transmit_freq_1", VNone);
 ("transmit_freq_2", VNone);
 ("transmit_freq_3", VNone);
 ("transmit_freq_4", VNone);
 ("transmit_freq_5", VNone);
 ("transmit_freq_rate_1", VNone);
 ("transmit_freq_rate_2", VNone);
 ("transmit_freq_rate_3", VNone);
 ("transmit_freq_rate_4", VNone);
 ("transmit_freq_rate_5", VNone);
 ("transmit_phase_ct_1", VNone);
 ("transmit_phase_ct_2", VNone);
 ("transmit_phase_ct_3", VNone);
 ("transmit_phase_ct_4", VNone);
 ("transmit_phase_ct_5", VNone);
 ("tropo_dry", VNone);
 ("tropo_wet", VNone);
 ("vlbi_delay", VNone)]; VObj "TrackingDataObservationType" [("epoch", VStr (lit "2007-075T15:51:22.000"));
 ("angle_1", VNone);
 ("angle_2", VNone);
 ("carrier_power", VNone);
 ("clock_bias", VNone);
 ("clock_drift", VNone);
 ("doppler_count", VNone);
 ("doppler_instantaneous", VNone);
 ("doppler_integrated", VNone);
 ("dor", VNone);
 ("mag", VNone);
 ("pc_n0", VNone);
 ("pr_n0", VNone);
 ("pressure", VNone);
 ("range", VDec (DFin false 1969865809796753%N (-8)%Z));
 ("rcs", VNone);
 ("receive_freq", VNone);
 ("receive_freq_1", VNone);
 ("receive_freq_2", VNone);
 ("receive_freq_3", VNone);
 ("receive_freq_4", VNone);
 ("receive_freq_5", VNone);
 ("receive_phase_ct_1", VNone);
 ("receive_phase_ct_2", VNone);
 ("receive_phase_ct_3", VNone);
 ("receive_phase_ct_4", VNone);
 ("receive_phase_ct_5", VNone);
 ("rhumidity", VNone);
 ("stec", VNone);
 ("temperature", VNone);
 ("transmit_freq_1", VNone);
 ("transmit_freq_2", VNone);
 ("transmit_freq_3", VNone);
 ("transmit_freq_4", VNone);
 ("transmit_freq_5", VNone);
 ("transmit_freq_rate_1", VNone);
 ("transmit_freq_rate_2", VNone);
 ("transmit_freq_rate_3", VNone);
 ("transmit_freq_rate_4", VNone);
 ("transmit_freq_rate_5", VNone);
 ("transmit_phase_ct_1", VNone);
 ("transmit_phase_ct_2", VNone);
 ("transmit_phase_ct_3", VNone);
 ("transmit_phase_ct_4", VNone);
 ("transmit_phase_ct_5", VNone);
 ("tropo_dry", VNone);
 ("tropo_wet", VNone);
 ("vlbi_delay", VNone)]; VObj "TrackingDataObservationType" [("epoch", VStr (lit "2007-075T15:54:49.000"));
 ("angle_1", VNone);
 ("angle_2", VNone);
 ("carrier_power", VNone);
 ("clock_bias", VNone);
 ("clock_drift", VNone);
 ("doppler_count", VNone);
 ("doppler_instantaneous", VNone);
 ("doppler_integrated", VNone);
 ("dor", VNone);
 ("mag", VNone);
 ("pc_n0", VNone);
 ("pr_n0", VNone);
 ("pressure", VNone);
 ("range", VDec (DFin false 8949582236537676%N (-9)%Z));
 ("rcs", VNone);
 ("receive_freq", VNone);
 ("receive_freq_1", VNone);
 ("receive_freq_2", VNone);
 ("receive_freq_3", VNone);
 ("receive_freq_4", VNone);
 ("receive_freq_5", VNone);
 ("receive_phase_ct_1", VNone);
 ("receive_phase_ct_2", VNone);
 ("receive_phase_ct_3", VNone);
 ("receive_phase_ct_4", VNone);
 ("receive_phase_ct_5", VNone);
 ("rhumidity", VNone);
 ("stec", VNone);
 ("temperature", VNone);
 ("transmit_freq_1", VNone);
 ("transmit_freq_2", VNone);
 ("transmit_freq_3", VNone);
 ("transmit_freq_4", VNone);
 ("transmit_freq_5", VNone);
 ("transmit_freq_rate_1", VNone);
 ("transmit_freq_rate_2", VNone);
 ("transmit_freq_rate_3", VNone);
 ("transmit_freq_rate_4", VNone);
 ("transmit_freq_rate_5", VNone);
 ("transmit_phase_ct_1", VNone);
 ("transmit_phase_ct_2", VNone);
 ("transmit_phase_ct_3", VNone);
 ("transmit_phase_ct_4", VNone);
 ("transmit_phase_ct_5", VNone);
 ("tropo_dry", VNone);
 ("tropo_wet", VNone);
 ("vlbi_delay", VNone)]; VObj "TrackingDataObservationType" [("epoch", VStr (lit "2007-075T15:58:16.000"));
 ("angle_1", VNone);
 ("angle_2", VNone);
 ("carrier_power", VNone);
 ("clock_bias", VNone);
 ("clock_drift", VNone);
 ("doppler_count", VNone);
 ("doppler_instantaneous", VNone);
 ("doppler_integrated", VNone);
 ("dor", VNone);
 ("mag", VNone);
 ("pc_n0", VNone);
 ("pr_n0", VNone);
 ("pressure", VNone);
 ("range", VDec (DFin false 6531603819208451%N (-8)%Z));
 ("rcs", VNone);
 ("receive_freq", VNone);
 ("receive_freq_1", VNone);
 ("receive_freq_2", VNone);
 ("receive_freq_3", VNone);
 ("receive_freq_4", VNone);
 ("receive_freq_5", VNone);
 ("receive_phase_ct_1", VNone);
 ("receive_phase_ct_2", VNone);
 ("receive_phase_ct_3", VNone);
 ("receive_phase_ct_4", VNone);
 ("receive_phase_ct_5", VNone);
 ("rhumidity", VNone);
 ("stec", VNone);
 ("temperature", VNone);
 ("transmit_freq_1", VNone);
 ("transmit_freq_2", VNone);
 ("transmit_freq_3", VNone);
 ("transmit_freq_4", VNone);
 ("transmit_freq_5", VNone);
 ("transmit_freq_rate_1", VNone);
 ("transmit_freq_rate_2", VNone);
 ("transmit_freq_rate_3", VNone);
 ("transmit_freq_rate_4", VNone);
 ("transmit_freq_rate_5", VNone);
 ("transmit_phase_ct_1", VNone);
 ("transmit_phase_ct_2", VNone);
 ("transmit_phase_ct_3", VNone);
 ("transmit_phase_ct_4", VNone);
 ("transmit_phase_ct_5", VNone);
 ("tropo_dry", VNone);
 ("tropo_wet", VNone);
 ("vlbi_delay", VNone)]; VObj "TrackingDataObservationType" [("epoch", VStr (lit "2007-075T16:01:43.000"));
 ("angle_1", VNone);
 ("angle_2", VNone);
 ("carrier_power", VNone);
 ("clock_bias", VNone);
 ("clock_drift", VNone);
 ("doppler_count", VNone);
 ("doppler_instantaneous", VNone);
 ("doppler_integrated", VNone);
 ("dor", VNone);
 ("mag", VNone);
 ("pc_n0", VNone);
 ("pr_n0", VNone);
 ("pressure", VNone);
 ("range", VDec (DFin false 5458034628388138%N (-8)%Z));
 ("rcs", VNone);
 ("receive_freq", VNone);
 ("receive_freq_1", VNone);
 ("receive_freq_2", VNone);
 ("receive_freq_3", VNone);
 ("receive_freq_4", VNone);
 ("receive_freq_5", VNone);
 ("receive_phase_ct_1", VNone);
 ("receive_phase_ct_2", VNone);
 ("receive_phase_ct_3", VNone);
 ("receive_phase_ct_4", VNone);
 ("receive_phase_ct_5", VNone);
 ("rhumidity", VNone);
 ("stec", VNone);
 ("temperature", VNone);
 ("transmit_freq_1", VNone);
 ("transmit_freq_2", VNone);
 ("transmit_freq_3", VNone);
 ("transmit_freq_4", VNone);
 ("transmit_freq_5", VNone);
 ("transmit_freq_rate_1", VNone);
 ("transmit_freq_rate_2", VNone);
 ("transmit_freq_rate_3", VNone);
 ("transmit_freq_rate_4", VNone);
 ("transmit_freq_rate_5", VNone);
 ("transmit_phase_ct_1", VNone);
 ("transmit_phase_ct_2", VNone);
 ("transmit_phase_ct_3", VNone);
 ("transmit_phase_ct_4", VNone);
 ("transmit_phase_ct_5", VNone);
 ("tropo_dry", VNone);
 ("tropo_wet", VNone);
 ("vlbi_delay", VNone)]; VObj "TrackingDataObservationType" [("epoch", VStr (lit "2007-075T16:05:10.000"));
 ("angle_1", VNone);
 ("angle_2", VNone);
 ("carrier_power", VNone);
 ("clock_bias", VNone);
 ("clock_drift", VNone);
 ("doppler_count", VNone);
 ("doppler_instantaneous", VNone);
 ("doppler_integrated", VNone);
 ("dor", VNone);
 ("mag", VNone);
 ("pc_n0", VNone);
 ("pr_n0", VNone);
 ("pressure", VNone);
 ("range", VDec (DFin false 438514108163697%N (-7)%Z));
 ("rcs", VNone);
 ("receive_freq", VNone);
 ("receive_freq_1", VNone);
 ("receive_freq_2", VNone);
 ("receive_freq_3", VNone);
 ("receive_freq_4", VNone);
 ("receive_freq_5", VNone);
 ("receive_phase_ct_1", VNone);
 ("receive_phase_ct_2", VNone);
 ("receive_phase_ct_3", VNone);
 ("receive_phase_ct_4", VNone);
 ("receive_phase_ct_5", VNone);
 ("rhumidity", VNone);
 ("stec", VNone);
 ("temperature", VNone);
 ("transmit_freq_1", VNone);
 ("transmit_freq_2", VNone);
 ("transmit_freq_3", VNone);
 ("transmit_freq_4", VNone);
 ("transmit_freq_5", VNone);
 ("transmit_freq_rate_1", VNone);
 ("transmit_freq_rate_2", VNone);
 ("transmit_freq_rate_3", VNone);
 ("transmit_freq_rate_4", VNone);
 ("transmit_freq_rate_5", VNone);
 ("transmit_phase_ct_1", VNone);
 ("transmit_phase_ct_2", VNone);
 ("transmit_phase_ct_3", VNone);
 ("transmit_phase_ct_4", VNone);
 ("transmit_phase_ct_5", VNone);
 ("tropo_dry", VNone);
 ("tropo_wet", VNone);
 ("vlbi_delay", VNone)]; VObj "TrackingDataObservationType" [("epoch", VStr (lit "2007-075T16:08:37.000"));
 ("angle_1", VNone);
 ("angle_2", VNone);
 ("carrier_power", VNone);
 ("clock_bias", VNone);
 ("clock_drift", VNone);
 ("doppler_count", VNone);
 ("doppler_instantaneous", VNone);
 ("doppler_integrated", VNone);
 ("dor", VNone);
 ("mag", VNone);
 ("pc_n0", VNone);
 ("pr_n0", VNone);
 ("pressure", VNone);
 ("range", VDec (DFin false 3312927807933323%N (-8)%Z));
 ("rcs", VNone);
 ("receive_freq", VNone);
 ("receive_freq_1", VNone);
 ("receive_freq_2", VNone);
 ("receive_freq_3", VNone);
 ("receive_freq_4", VNone);
 ("receive_freq_5", VNone);
 ("receive_phase_ct_1", VNone);
 ("receive_phase_ct_2", VNone);
 ("receive_phase_ct_3", VNone);
 ("receive_phase_ct_4", VNone);
 ("receive_phase_ct_5", VNone);
 ("rhumidity", VNone);
 ("stec", VNone);
 ("temperature", VNone);
 ("transmit_freq_1", VNone);
 ("transmit_freq_2", VNone);
 ("transmit_freq_3", VNone);
 ("transmit_freq_4", VNone);
 ("transmit_freq_5", VNone);
 ("transmit_freq_rate_1", VNone);
 ("transmit_freq_rate_2", VNone);
 ("transmit_freq_rate_3", VNone);
 ("transmit_freq_rate_4", VNone);
 ("transmit_freq_rate_5", VNone);
 ("transmit_phase_ct_1", VNone);
 ("transmit_phase_ct_2", VNone);
 ("transmit_phase_ct_3", VNone);
 ("transmit_phase_ct_4", VNone);
 ("transmit_phase_ct_5", VNone);
 ("tropo_dry", VNone);
 ("tropo_wet", VNone);
 ("vlbi_delay", VNone)]; VObj "TrackingDataObservationType" [("epoch", VStr (lit "2007-075T16:12:04.000"));
 ("angle_1", VNone);
 ("angle_2", VNone);
 ("carrier_power", VNone);
 ("clock_bias", VNone);
 ("clock_drift", VNone);
 ("doppler_count", VNone);
 ("doppler_instantaneous", VNone);
 ("doppler_integrated", VNone);
 ("dor", VNone);
 ("mag", VNone);
 ("pc_n0", VNone);
 ("pr_n0", VNone);
 ("pressure", VNone);
 ("range", VDec (DFin false 2241398827323407%N (-8)%Z));
 ("rcs", VNone);
 ("receive_freq", VNone);
 ("receive_freq_1", VNone);
 ("receive_freq_2", VNone);
 ("receive_freq_3", VNone);
 ("receive_freq_4", VNone);
 ("receive_freq_5", VNone);
 ("receive_phase_ct_1", VNone);
 ("receive_phase_ct_2", VNone);
 ("receive_phase_ct_3", VNone);
 ("receive_phase_ct_4", VNone);
 ("receive_phase_ct_5", VNone);
 ("rhumidity", VNone);
 ("stec", VNone);
 ("temperature", VNone);
 ("transmit_freq_1", VNone);
 ("transmit_freq_2", VNone);
 ("transmit_freq_3", VNone);
 ("transmit_freq_4", VNone);
 ("transmit_freq_5", VNone);
 ("transmit_freq_rate_1", VNone);
 ("transmit_freq_rate_2", VNone);
 ("transmit_freq_rate_3", VNone);
 ("transmit_freq_rate_4", VNone);
 ("transmit_freq_rate_5", VNone);
 ("transmit_phase_ct_1", VNone);
 ("transmit_phase_ct_2", VNone);
 ("transmit_phase_ct_3", VNone);
 ("transmit_phase_ct_4", VNone);
 ("transmit_phase_ct_5", VNone);
 ("tropo_dry", VNone);
 ("tropo_wet", VNone);
 ("vlbi_delay", VNone)]; VObj "TrackingDataObservationType" [("epoch", VStr (lit "2007-075T16:15:31.000"));
 ("angle_1", VNone);
 ("angle_2", VNone);
 ("carrier_power", VNone);
 ("clock_bias", VNone);
 ("clock_drift", VNone);
 ("doppler_count", VNone);
 ("doppler_instantaneous", VNone);
 ("doppler_integrated", VNone);
 ("dor", VNone);
 ("mag", VNone);
 ("pc_n0", VNone);
 ("pr_n0", VNone);
 ("pressure", VNone);
 ("range", VDec (DFin false 1170557830439278%N (-8)%Z));
 ("rcs", VNone);
 ("receive_freq", VNone);
 ("receive_freq_1", VNone);
 ("receive_freq_2", VNone);
 ("receive_freq_3", VNone);
 ("receive_freq_4", VNone);
 ("receive_freq_5", VNone);
 ("receive_phase_ct_1", VNone);
 ("receive_phase_ct_2", VNone);
 ("receive_phase_ct_3", VNone);
 ("receive_phase_ct_4", VNone);
 ("receive_phase_ct_5", VNone);
 ("rhumidity", VNone);
 ("stec", VNone);
 ("temperature", VNone);
 ("transmit_freq_1", VNone);
 ("transmit_freq_2", VNone);
 ("transmit_freq_3", VNone);
 ("transmit_freq_4", VNone);
 ("transmit_freq_5", VNone);
 ("transmit_freq_rate_1", VNone);
 ("transmit_freq_rate_2", VNone);
 ("transmit_freq_rate_3", VNone);
 ("transmit_freq_rate_4", VNone);
 ("transmit_freq_rate_5", VNone);
 ("transmit_phase_ct_1", VNone);
 ("transmit_phase_ct_2", VNone);
 ("transmit_phase_ct_3", VNone);
 ("transmit_phase_ct_4", VNone);
 ("transmit_phase_ct_5", VNone);
 ("tropo_dry", VNone);
 ("tropo_wet", VNone);
 ("vlbi_delay", VNone)]; VObj "TrackingDataObservationType" [("epoch", VStr (lit "2007-075T16:18:58.000"));
 ("angle_1", VNone);
 ("angle_2", VNone);
 ("carrier_power", VNone);
 ("clock_bias", VNone);
 ("clock_drift", VNone);
 ("doppler_count", VNone);
 ("doppler_instantaneous", VNone);
 ("doppler_integrated", VNone);
 ("dor", VNone);
 ("mag", VNone);
 ("pc_n0", VNone);
 ("pr_n0", VNone);
 ("pressure", VNone);
 ("range", VDec (DFin false 1004085315467331%N (-9)%Z));
 ("rcs", VNone);
 ("receive_freq", VNone);
 ("receive_freq_1", VNone);
 ("receive_freq_2", VNone);
 ("receive_freq_3", VNone);
 ("receive_freq_4", VNone);
 ("receive_freq_5", VNone);
 ("receive_phase_ct_1", VNone);
 ("receive_phase_ct_2", VNone);
 ("receive_phase_ct_3", VNone);
 ("receive_phase_ct_4", VNone);
 ("receive_phase_ct_5", VNone);
 ("rhumidity", VNone);
 ("stec", VNone);
 ("temperature", VNone);
 ("transmit_freq_1", VNone);
 ("transmit_freq_2", VNone);
 ("transmit_freq_3", VNone);
 ("transmit_freq_4", VNone);
 ("transmit_freq_5", VNone);
 ("transmit_freq_rate_1", VNone);
 ("transmit_freq_rate_2", VNone);
 ("transmit_freq_rate_3", VNone);
 ("transmit_freq_rate_4", VNone);
 ("transmit_freq_rate_5", VNone);
 ("transmit_phase_ct_1", VNone);
 ("transmit_phase_ct_2", VNone);
 ("transmit_phase_ct_3", VNone);
 ("transmit_phase_ct_4", VNone);
 ("transmit_phase_ct_5", VNone);
 ("tropo_dry", VNone);
 ("tropo_wet", VNone);
 ("vlbi_delay", VNone)]; VObj "TrackingDataObservationType" [("epoch", VStr (lit "2007-075T16:22:25.000"));
 ("angle_1", VNone);
 ("angle_2", VNone);
 ("carrier_power", VNone);
 ("clock_bias", VNone);
 ("clock_drift", VNone);
 ("doppler_count", VNone);
 ("doppler_instantaneous", VNone);
 ("doppler_integrated", VNone);
 ("dor", VNone);
 ("mag", VNone);
 ("pc_n0", VNone);
 ("pr_n0", VNone);
 ("pressure", VNone);
 ("range", VDec (DFin false 5741840844275727%N (-8)%Z));
 ("rcs", VNone);
 ("receive_freq", VNone);
 ("receive_freq_1", VNone);
 ("receive_freq_2", VNone);
 ("receive_freq_3", VNone);
 ("receive_freq_4", VNone);
 ("receive_freq_5", VNone);
 ("receive_phase_ct_1", VNone);
 ("receive_phase_ct_2", VNone);
 ("receive_phase_ct_3", VNone);
 ("receive_phase_ct_4", VNone);
 ("receive_phase_ct_5", VNone);
 ("rhumidity", VNone);
 ("stec", VNone);
 ("temperature", VNone);
 ("transmit_freq_1", VNone);
 ("transmit_freq_2", VNone);
 ("transmit_freq_3", VNone);
 ("transmit_freq_4", VNone);
 ("transmit_freq_5", VNone);
 ("transmit_freq_rate_1", VNone);
 ("transmit_freq_rate_2", VNone);
 ("transmit_freq_rate_3", VNone);
 ("transmit_freq_rate_4", VNone);
 ("transmit_freq_rate_5", VNone);
 ("transmit_phase_ct_1", VNone);
 ("transmit_phase_ct_2", VNone);
 ("transmit_phase_ct_3", VNone);
 ("transmit_phase_ct_4", VNone);
 ("transmit_phase_ct_5", VNone);
 ("tropo_dry", VNone);
 ("tropo_wet", VNone);
 ("vlbi_delay", VNone)]; VObj "TrackingDataObservationType" [("epoch", VStr (lit "2007-075T16:25:52.000"));
 ("angle_1", VNone);
 ("angle_2", VNone);
 ("carrier_power", VNone);
 ("clock_bias", VNone);
 ("clock_drift", VNone);
 ("doppler_count", VNone);
 ("doppler_instantaneous", VNone);
 ("doppler_integrated", VNone);
 ("dor", VNone);
 ("mag", VNone);
 ("pc_n0", VNone);
 ("pr_n0", VNone);
 ("pressure", VNone);
 ("range", VDec (DFin false 4673085790093651%N (-8)%Z));
 ("rcs", VNone);
 ("receive_freq", VNone);
 ("receive_freq_1", VNone);
 ("receive_freq_2", VNone);
 ("receive_freq_3", VNone);
 ("receive_freq_4", VNone);
 ("receive_freq_5", VNone);
 ("receive_phase_ct_1", VNone);
 ("receive_phase_ct_2", VNone);
 ("receive_phase_ct_3", VNone);
 ("receive_phase_ct_4", VNone);
 ("receive_phase_ct_5", VNone);
 ("rhumidity", VNone);
 ("stec", VNone);
 ("temperature", VNone);
 ("transmit_freq_1", VNone);
 ("transmit_freq_2", VNone);
 ("transmit_freq_3", VNone);
 ("transmit_freq_4", VNone);
 ("transmit_freq_5", VNone);
 ("transmit_freq_rate_1", VNone);
 ("transmit_freq_rate_2", VNone);
 ("transmit_freq_rate_3", VNone);
 ("transmit_freq_rate_4", VNone);
 ("transmit_freq_rate_5", VNone);
 ("transmit_phase_ct_1", VNone);
 ("transmit_phase_ct_2", VNone);
 ("transmit_phase_ct_3", VNone);
 ("transmit_phase_ct_4", VNone);
 ("transmit_phase_ct_5", VNone);
 ("tropo_dry", VNone);
 ("tropo_wet", VNone);
 ("vlbi_delay", VNone)]; VObj "TrackingDataObservationType" [("epoch", VStr (lit "2007-075T16:29:19.000"));
 ("angle_1", VNone);
 ("angle_2", VNone);
 ("carrier_power", VNone);
 ("clock_bias", VNone);
 ("clock_drift", VNone);
 ("doppler_count", VNone);
 ("doppler_instantaneous", VNone);
 ("doppler_integrated", VNone);
 ("dor", VNone);
 ("mag", VNone);
 ("pc_n0", VNone);
 ("pr_n0", VNone);
 ("pressure", VNone);
 ("range", VDec (DFin false 3605032241804484%N (-8)%Z));
 ("rcs", VNone);
 ("receive_freq", VNone);
 ("receive_freq_1", VNone);
 ("receive_freq_2", VNone);
 ("receive_freq_3", VNone);
 ("receive_freq_4", VNone);
 ("receive_freq_5", VNone);
 ("receive_phase_ct_1", VNone);
 ("receive_phase_ct_2", VNone);
 ("receive_phase_ct_3", VNone);
 ("receive_phase_ct_4", VNone);
 ("receive_phase_ct_5", VNone);
 ("rhumidity", VNone);
 ("stec", VNone);
 ("temperature", VNone);
 ("transmit_freq_1", VNone);
 ("transmit_freq_2", VNone);
 ("transmit_freq_3", VNone);
 ("transmit_freq_4", VNone);
 ("transmit_freq_5", VNone);
 ("transmit_freq_rate_1", VNone);
 ("transmit_freq_rate_2", VNone);
 ("transmit_freq_rate_3", VNone);
 ("transmit_freq_rate_4", VNone);
 ("transmit_freq_rate_5", VNone);
 ("transmit_phase_ct_1", VNone);
 ("transmit_phase_ct_2", VNone);
 ("transmit_phase_ct_3", VNone);
 ("transmit_phase_ct_4", VNone);
 ("transmit_phase_ct_5", VNone);
 ("tropo_dry", VNone);
 ("tropo_wet", VNone);
 ("vlbi_delay", VNone)]; VObj "TrackingDataObservationType" [("epoch", VStr (lit "2007-075T16:32:46.000"));
 ("angle_1", VNone);
 ("angle_2", VNone);
 ("carrier_power", VNone);
 ("clock_bias", VNone);
 ("clock_drift", VNone);
 ("doppler_count", VNone);
 ("doppler_instantaneous", VNone);
 ("doppler_integrated", VNone);
 ("dor", VNone);
 ("mag", VNone);
 ("pc_n0", VNone);
 ("pr_n0", VNone);
 ("pressure", VNone);
 ("range", VDec (DFin false 2537683973296935%N (-8)%Z));
 ("rcs", VNone);
 ("receive_freq", VNone);
 ("receive_freq_1", VNone);
 ("receive_freq_2", VNone);
 ("receive_freq_3", VNone);
 ("receive_freq_4", VNone);
 ("receive_freq_5", VNone);
 ("receive_phase_ct_1", VNone);
 ("receive_phase_ct_2", VNone);
 ("receive_phase_ct_3", VNone);
 ("receive_phase_ct_4", VNone);
 ("receive_phase_ct_5", VNone);
 ("rhumidity", VNone);
 ("stec", VNone);
 ("temperature", VNone);
 ("transmit_freq_1", VNone);
 ("transmit_freq_2", VNone);
 ("transmit_freq_3", VNone);
 ("transmit_freq_4", VNone);
 ("transmit_freq_5", VNone);
 ("transmit_freq_rate_1", VNone);
 ("transmit_freq_rate_2", VNone);
 ("transmit_freq_rate_3", VNone);
 ("transmit_freq_rate_4", VNone);
 ("transmit_freq_rate_5", VNone);
 ("transmit_phase_ct_1", VNone);
 ("transmit_phase_ct_2", VNone);
 ("transmit_phase_ct_3", VNone);
 ("transmit_phase_ct_4", VNone);
 ("transmit_phase_ct_5", VNone);
 ("tropo_dry", VNone);
 ("tropo_wet", VNone);
 ("vlbi_delay", VNone)]; VObj "TrackingDataObservationType" [("epoch", VStr (lit "2007-075T16:36:13.000"));
 ("angle_1", VNone);
 ("angle_2", VNone);
 ("carrier_power", VNone);
 ("clock_bias", VNone);
 ("clock_drift", VNone);
 ("doppler_count", VNone);
 ("doppler_instantaneous", VNone);
 ("doppler_integrated", VNone);
 ("dor", VNone);
 ("mag", VNone);
 ("pc_n0", VNone);
 ("pr_n0", VNone);
 ("pressure", VNone);
 ("range", VDec (DFin false 1471043424168174%N (-8)%Z));
 ("rcs", VNone);
 ("receive_freq", VNone);
 ("receive_freq_1", VNone);
 ("receive_freq_2", VNone);
 ("receive_freq_3", VNone);
 ("receive_freq_4", VNone);
 ("receive_freq_5", VNone);
 ("receive_phase_ct_1", VNone);
 ("receive_phase_ct_2", VNone);
 ("receive_phase_ct_3", VNone);
 ("receive_phase_ct_4", VNone);
 ("receive_phase_ct_5", VNone);
 ("rhumidity", VNone);
 ("stec", VNone);
 ("temperature", VNone);
 ("transmit_freq_1", VNone);
 ("transmit_freq_2", VNone);
 ("transmit_freq_3", VNone);
 ("transmit_freq_4", VNone);
 ("transmit_freq_5", VNone);
 ("transmit_freq_rate_1", VNone);
 ("transmit_freq_rate_2", VNone);
 ("transmit_freq_rate_3", VNone);
 ("transmit_freq_rate_4", VNone);
 ("transmit_freq_rate_5", VNone);
 ("transmit_phase_ct_1", VNone);
 ("transmit_phase_ct_2", VNone);
 ("transmit_phase_ct_3", VNone);
 ("transmit_phase_ct_4", VNone);
 ("transmit_phase_ct_5", VNone);
 ("tropo_dry", VNone);
 ("tropo_wet", VNone);
 ("vlbi_delay", VNone)]; VObj "TrackingDataObservationType" [("epoch", VStr (lit "2007-075T16:39:40.000"));
 ("angle_1", VNone);
 ("angle_2", VNone);
 ("carrier_power", VNone);
 ("clock_bias", VNone);
 ("clock_drift", VNone);
 ("doppler_count", VNone);
 ("doppler_instantaneous", VNone);
 ("doppler_integrated", VNone);
 ("dor", VNone);
 ("mag", VNone);
 ("pc_n0", VNone);
 ("pr_n0", VNone);
 ("pressure", VNone);
 ("range", VDec (DFin false 4051130231203194%N (-9)%Z));
 ("rcs", VNone);
 ("receive_freq", VNone);
 ("receive_freq_1", VNone);
 ("receive_freq_2", VNone);
 ("receive_freq_3", VNone);
 ("receive_freq_4", VNone);
 ("receive_freq_5", VNone);
 ("receive_phase_ct_1", VNone);
 ("receive_phase_ct_2", VNone);
 ("receive_phase_ct_3", VNone);
 ("receive_phase_ct_4", VNone);
 ("receive_phase_ct_5", VNone);
 ("rhumidity", VNone);
 ("stec", VNone);
 ("temperature", VNone);
 ("transmit_freq_1", VNone);
 ("transmit_freq_2", VNone);
 ("transmit_freq_3", VNone);
 ("transmit_freq_4", VNone);
 ("transmit_freq_5", VNone);
 ("transmit_freq_rate_1", VNone);
 ("transmit_freq_rate_2", VNone);
 ("transmit_freq_rate_3", VNone);
 ("transmit_freq_rate_4", VNone);
 ("transmit_freq_rate_5", VNone);
 ("transmit_phase_ct_1", VNone);
 ("transmit_phase_ct_2", VNone);
 ("transmit_phase_ct_3", VNone);
 ("transmit_phase_ct_4", VNone);
 ("transmit_phase_ct_5", VNone);
 ("tropo_dry", VNone);
 ("tropo_wet", VNone);
 ("vlbi_delay", VNone)]; VObj "TrackingDataObservationType" [("epoch", VStr (lit "2007-075T16:43:07.000"));
 ("angle_1", VNone);
 ("angle_2", VNone);
 ("carrier_power", VNone);
 ("clock_bias", VNone);
 ("clock_drift", VNone);
 ("doppler_count", VNone);
 ("doppler_instantaneous", VNone);
 ("doppler_integrated", VNone);
 ("dor", VNone);
 ("mag", VNone);
 ("pc_n0", VNone);
 ("pr_n0", VNone);
 ("pressure", VNone);
 ("range", VDec (DFin false 6050782556850527%N (-8)%Z));
 ("rcs", VNone);
 ("receive_freq", VNone);
 ("receive_freq_1", VNone);
 ("receive_freq_2", VNone);
 ("receive_freq_3", VNone);
 ("receive_freq_4", VNone);
 ("receive_freq_5", VNone);
 ("receive_phase_ct_1", VNone);
 ("receive_phase_ct_2", VNone);
 ("receive_phase_ct_3", VNone);
 ("receive_phase_ct_4", VNone);
 ("receive_phase_ct_5", VNone);
 ("rhumidity", VNone);
 ("stec", VNone);
 ("temperature", VNone);
 ("transmit_freq_1", VNone);
 ("transmit_freq_2", VNone);
 ("transmit_freq_3", VNone);
 ("transmit_freq_4", VNone);
 ("transmit_freq_5", VNone);
 ("transmit_freq_rate_1", VNone);
 ("transmit_freq_rate_2", VNone);
 ("transmit_freq_rate_3", VNone);
 ("transmit_freq_rate_4", VNone);
 ("transmit_freq_rate_5", VNone);
 ("transmit_phase_ct_1", VNone);
 ("transmit_phase_ct_2", VNone);
 ("transmit_phase_ct_3", VNone);
 ("transmit_phase_ct_4", VNone);
 ("transmit_phase_ct_5", VNone);
 ("tropo_dry", VNone);
 ("tropo_wet", VNone);
 ("vlbi_delay", VNone)]; VObj "TrackingDataObservationType" [("epoch", VStr (lit "2007-075T16:46:34.000"));
 ("angle_1", VNone);
 ("angle_2", VNone);
 ("carrier_power", VNone);
 ("clock_bias", VNone);
 ("clock_drift", VNone);
 ("doppler_count", VNone);
 ("doppler_instantaneous", VNone);
 ("doppler_integrated", VNone);
 ("dor", VNone);
 ("mag", VNone);
 ("pc_n0", VNone);
 ("pr_n0", VNone);
 ("pressure", VNone);
 ("range", VDec (DFin false 4986280434773263%N (-8)%Z));
 ("rcs", VNone);
 ("receive_freq", VNone);
 ("receive_freq_1", VNone);
 ("receive_freq_2", VNone);
 ("receive_freq_3", VNone);
 ("receive_freq_4", VNone);
 ("receive_freq_5", VNone);
 ("receive_phase_ct_1", VNone);
 ("receive_phase_ct_2", VNone);
 ("receive_phase_ct_3", VNone);
 ("receive_phase_ct_4", VNone);
 ("receive_phase_ct_5", VNone);
 ("rhumidity", VNone);
 ("stec", VNone);
 ("temperature", VNone);
 ("transmit_freq_1", VNone);
 ("transmit_freq_2", VNone);
 ("transmit_freq_3", VNone);
 ("transmit_freq_4", VNone);
 ("transmit_freq_5", VNone);
 ("transmit_freq_rate_1", VNone);
 ("transmit_freq_rate_2", VNone);
 ("transmit_freq_rate_3", VNone);
 ("transmit_freq_rate_4", VNone);
 ("transmit_freq_rate_5", VNone);
 ("transmit_phase_ct_1", VNone);
 ("transmit_phase_ct_2", VNone);
 ("transmit_phase_ct_3", VNone);
 ("transmit_phase_ct_4", VNone);
 ("transmit_phase_ct_5", VNone);
 ("tropo_dry", VNone);
 ("tropo_wet", VNone);
 ("vlbi_delay", VNone)]; VObj "TrackingDataObservationType" [("epoch", VStr (lit "2007-075T16:50:01.000"));
 ("angle_1", VNone);
 ("angle_2", VNone);
 ("carrier_power", VNone);
 ("clock_bias", VNone);
 ("clock_drift", VNone);
 ("doppler_count", VNone);
 ("doppler_instantaneous", VNone);
 ("doppler_integrated", VNone);
 ("dor", VNone);
 ("mag", VNone);
 ("pc_n0", VNone);
 ("pr_n0", VNone);
 ("pressure", VNone);
 ("range", VDec (DFin false 3922495854960792%N (-8)%Z));
 ("rcs", VNone);
 ("receive_freq", VNone);
 ("receive_freq_1", VNone);
 ("receive_freq_2", VNone);
 ("receive_freq_3", VNone);
 ("receive_freq_4", VNone);
 ("receive_freq_5", VNone);
 ("receive_phase_ct_1", VNone);
 ("receive_phase_ct_2", VNone);
 ("receive_phase_ct_3", VNone);
 ("receive_phase_ct_4", VNone);
 ("receive_phase_ct_5", VNone);
 ("rhumidity", VNone);
 ("stec", VNone);
 ("temperature", VNone);
 ("transmit_freq_1", VNone);
 ("transmit_freq_2", VNone);
 ("transmit_freq_3", VNone);
 ("transmit_freq_4", VNone);
 ("transmit_freq_5", VNone);
 ("transmit_freq_rate_1", VNone);
 ("transmit_freq_rate_2", VNone);
 ("transmit_freq_rate_3", VNone);
 ("transmit_freq_rate_4", VNone);
 ("transmit_freq_rate_5", VNone);
 ("transmit_phase_ct_1", VNone);
 ("transmit_phase_ct_2", VNone);
 ("transmit_phase_ct_3", VNone);
 ("transmit_phase_ct_4", VNone);
 ("transmit_phase_ct_5", VNone);
 ("tropo_dry", VNone);
 ("tropo_wet", VNone);
 ("vlbi_delay", VNone)]; VObj "TrackingDataObservationType" [("epoch", VStr (lit "2007-075T16:53:28.000"));
 ("angle_1", VNone);
 ("angle_2", VNone);
 ("carrier_power", VNone);
 ("clock_bias", VNone);
 ("clock_drift", VNone);
 ("doppler_count", VNone);
 ("doppler_instantaneous", VNone);
 ("doppler_integrated", VNone);
 ("dor", VNone);
 ("mag", VNone);
 ("pc_n0", VNone);
 ("pr_n0", VNone);
 ("pressure", VNone);
 ("range", VDec (DFin false 285943113704516%N (-7)%Z));
 ("rcs", VNone);
 ("receive_freq", VNone);
 ("receive_freq_1", VNone);
 ("receive_freq_2", VNone);
 ("receive_freq_3", VNone);
 ("receive_freq_4", VNone);
 ("receive_freq_5", VNone);
 ("receive_phase_ct_1", VNone);
 ("receive_phase_ct_2", VNone);
 ("receive_phase_ct_3", VNone);
 ("receive_phase_ct_4", VNone);
 ("receive_phase_ct_5", VNone);
 ("rhumidity", VNone);
 ("stec", VNone);
 ("temperature", VNone);
 ("transmit_freq_1", VNone);
 ("transmit_freq_2", VNone);
 ("transmit_freq_3", VNone);
 ("transmit_freq_4", VNone);
 ("transmit_freq_5", VNone);
 ("transmit_freq_rate_1", VNone);
 ("transmit_freq_rate_2", VNone);
 ("transmit_freq_rate_3", VNone);
 ("transmit_freq_rate_4", VNone);
 ("transmit_freq_rate_5", VNone);
 ("transmit_phase_ct_1", VNone);
 ("transmit_phase_ct_2", VNone);
 ("transmit_phase_ct_3", VNone);
 ("transmit_phase_ct_4", VNone);
 ("transmit_phase_ct_5", VNone);
 ("tropo_dry", VNone);
 ("tropo_wet", VNone);
 ("vlbi_delay", VNone)]; VObj "TrackingDataObservationType" [("epoch", VStr (lit "2007-075T16:56:55.000"));
 ("angle_1", VNone);
 ("angle_2", VNone);
 ("carrier_power", VNone);
 ("clock_bias", VNone);
 ("clock_drift", VNone);
 ("doppler_count", VNone);
 ("doppler_instantaneous", VNone);
 ("doppler_integrated", VNone);
 ("dor", VNone);
 ("mag", VNone);
 ("pc_n0", VNone);
 ("pr_n0", VNone);
 ("pressure", VNone);
 ("range", VDec (DFin false 1797087386514912%N (-8)%Z));
 ("rcs", VNone);
 ("receive_freq", VNone);
 ("receive_freq_1", VNone);
 ("receive_freq_2", VNone);
 ("receive_freq_3", VNone);
 ("receive_freq_4", VNone);
 ("receive_freq_5", VNone);
 ("receive_phase_ct_1", VNone);
 ("receive_phase_ct_2", VNone);
 ("receive_phase_ct_3", VNone);
 ("receive_phase_ct_4", VNone);
 ("receive_phase_ct_5", VNone);
 ("rhumidity", VNone);
 ("stec", VNone);
 ("temperature", VNone);
 ("transmit_freq_1", VNone);
 ("transmit_freq_2", VNone);
 ("transmit_freq_3", VNone);
 ("transmit_freq_4", VNone);
 ("transmit_freq_5", VNone);
 ("transmit_freq_rate_1", VNone);
 ("transmit_freq_rate_2", VNone);
 ("transmit_freq_rate_3", VNone);
 ("transmit_freq_rate_4", VNone);
 ("transmit_freq_rate_5", VNone);
 ("transmit_phase_ct_1", VNone);
 ("transmit_phase_ct_2", VNone);
 ("transmit_phase_ct_3", VNone);
 ("transmit_phase_ct_4", VNone);
 ("transmit_phase_ct_5", VNone);
 ("tropo_dry", VNone);
 ("tropo_wet", VNone);
 ("vlbi_delay", VNone)]; VObj "TrackingDataObservationType" [("epoch", VStr (lit "2007-075T17:00:22.000"));
 ("angle_1", VNone);
 ("angle_2", VNone);
 ("carrier_power", VNone);
 ("clock_bias", VNone);
 ("clock_drift", VNone);
 ("doppler_count", VNone);
 ("doppler_instantaneous", VNone);
 ("doppler_integrated", VNone);
 ("dor", VNone);
 ("mag", VNone);
 ("pc_n0", VNone);
 ("pr_n0", VNone);
 ("pressure", VNone);
 ("range", VDec (DFin false 7354666377532947%N (-9)%Z));
 ("rcs", VNone);
 ("receive_freq", VNone);
 ("receive_freq_1", VNone);
 ("receive_freq_2", VNone);
 ("receive_freq_3", VNone);
 ("receive_freq_4", VNone);
 ("receive_freq_5", VNone);
 ("receive_phase_ct_1", VNone);
 ("receive_phase_ct_2", VNone);
 ("receive_phase_ct_3", VNone);
 ("receive_phase_ct_4", VNone);
 ("receive_phase_ct_5", VNone);
 ("rhumidity", VNone);
 ("stec", VNone);
 ("temperature", VNone);
 ("transmit_freq_1", VNone);
 ("transmit_freq_2", VNone);
 ("transmit_freq_3", VNone);
 ("transmit_freq_4", VNone);
 ("transmit_freq_5", VNone);
 ("transmit_freq_rate_1", VNone);
 ("transmit_freq_rate_2", VNone);
 ("transmit_freq_rate_3", VNone);
 ("transmit_freq_rate_4", VNone);
 ("transmit_freq_rate_5", VNone);
 ("transmit_phase_ct_1", VNone);
 ("transmit_phase_ct_2", VNone);
 ("transmit_phase_ct_3", VNone);
 ("transmit_phase_ct_4", VNone);
 ("transmit_phase_ct_5", VNone);
 ("tropo_dry", VNone);
 ("tropo_wet", VNone);
 ("vlbi_delay", VNone)]; VObj "TrackingDataObservationType" [("epoch", VStr (lit "2007-075T17:03:49.000"));
 ("angle_1", VNone);
 ("angle_2", VNone);
 ("carrier_power", VNone);
 ("clock_bias", VNone);
 ("clock_drift", VNone);
 ("doppler_count", VNone);
 ("doppler_instantaneous", VNone);
 ("doppler_integrated", VNone);
 ("dor", VNone);
 ("mag", VNone);
 ("pc_n0", VNone);
 ("pr_n0", VNone);
 ("pressure", VNone);
 ("range", VDec (DFin false 6385456717344048%N (-8)%Z));
 ("rcs", VNone);
 ("receive_freq", VNone);
 ("receive_freq_1", VNone);
 ("receive_freq_2", VNone);
 ("receive_freq_3", VNone);
 ("receive_freq_4", VNone);
 ("receive_freq_5", VNone);
 ("receive_phase_ct_1", VNone);
 ("receive_phase_ct_2", VNone);
 ("receive_phase_ct_3", VNone);
 ("receive_phase_ct_4", VNone);
 ("receive_phase_ct_5", VNone);
 ("rhumidity", VNone);
 ("stec", VNone);
 ("temperature", VNone);
 ("transmit_freq_1", VNone);
 ("transmit_freq_2", VNone);
 ("transmit_freq_3", VNone);
 ("transmit_freq_4", VNone);
 ("transmit_freq_5", VNone);
 ("transmit_freq_rate_1", VNone);
 ("transmit_freq_rate_2", VNone);
 ("transmit_freq_rate_3", VNone);
 ("transmit_freq_rate_4", VNone);
 ("transmit_freq_rate_5", VNone);
 ("transmit_phase_ct_1", VNone);
 ("transmit_phase_ct_2", VNone);
 ("transmit_phase_ct_3", VNone);
 ("transmit_phase_ct_4", VNone);
 ("transmit_phase_ct_5", VNone);
 ("tropo_dry", VNone);
 ("tropo_wet", VNone);
 ("vlbi_delay", VNone)]; VObj "TrackingDataObservationType" [("epoch", VStr (lit "2007-075T17:07:16.000"));
 ("angle_1", VNone);
 ("angle_2", VNone);
 ("carrier_power", VNone);
 ("clock_bias", VNone);
 ("clock_drift", VNone);
 ("doppler_count", VNone);
 ("doppler_instantaneous", VNone);
 ("doppler_integrated", VNone);
 ("dor", VNone);
 ("mag", VNone);
 ("pc_n0", VNone);
 ("pr_n0", VNone);
 ("pressure", VNone);
 ("range", VDec (DFin false 5325285807842831%N (-8)%Z));
 ("rcs", VNone);
 ("receive_freq", VNone);
 ("receive_freq_1", VNone);
 ("receive_freq_2", VNone);
 ("receive_freq_3", VNone);
 ("receive_freq_4", VNone);
 ("receive_freq_5", VNone);
 ("receive_phase_ct_1", VNone);
 ("receive_phase_ct_2", VNone);
 ("receive_phase_ct_3", VNone);
 ("receive_phase_ct_4", VNone);
 ("receive_phase_ct_5", VNone);
 ("rhumidity", VNone);
 ("stec", VNone);
 ("temperature", VNone);
 ("transmit_freq_1", VNone);
 ("transmit_freq_2", VNone);
 ("transmit_freq_3", VNone);
 ("transmit_freq_4", VNone);
 ("transmit_freq_5", VNone);
 ("transmit_freq_rate_1", VNone);
 ("transmit_freq_rate_2", VNone);
 ("transmit_freq_rate_3", VNone);
 ("transmit_freq_rate_4", VNone);
 ("transmit_freq_rate_5", VNone);
 ("transmit_phase_ct_1", VNone);
 ("transmit_phase_ct_2", VNone);
 ("transmit_phase_ct_3", VNone);
 ("transmit_phase_ct_4", VNone);
 ("transmit_phase_ct_5", VNone);
 ("tropo_dry", VNone);
 ("tropo_wet", VNone);
 ("vlbi_delay", VNone)]; VObj "TrackingDataObservationType" [("epoch", VStr (lit "2007-075T17:10:43.000"));
 ("angle_1", VNone);
 ("angle_2", VNone);
 ("carrier_power", VNone);
 ("clock_bias", VNone);
 ("clock_drift", VNone);
 ("doppler_count", VNone);
 ("doppler_instantaneous", VNone);
 ("doppler_integrated", VNone);
 ("dor", VNone);
 ("mag", VNone);
 ("pc_n0", VNone);
 ("pr_n0", VNone);
 ("pressure", VNone);
 ("range", VDec (DFin false 4265841371862719%N (-8)%Z));
 ("rcs", VNone);
 ("receive_freq", VNone);
 ("receive_freq_1", VNone);
 ("receive_freq_2", VNone);
 ("receive_freq_3", VNone);
 ("receive_freq_4", VNone);
 ("receive_freq_5", VNone);
 ("receive_phase_ct_1", VNone);
 ("receive_phase_ct_2", VNone);
 ("receive_phase_ct_3", VNone);
 ("receive_phase_ct_4", VNone);
 ("receive_phase_ct_5", VNone);
 ("rhumidity", VNone);
 ("stec", VNone);
 ("temperature", VNone);
 ("transmit_freq_1", VNone);
 ("transmit_freq_2", VNone);
 ("transmit_freq_3", VNone);
 ("transmit_freq_4", VNone);
 ("transmit_freq_5", VNone);
 ("transmit_freq_rate_1", VNone);
 ("transmit_freq_rate_2", VNone);
 ("transmit_freq_rate_3", VNone);
 ("transmit_freq_rate_4", VNone);
 ("transmit_freq_rate_5", VNone);
 ("transmit_phase_ct_1", VNone);
 ("transmit_phase_ct_2", VNone);
 ("transmit_phase_ct_3", VNone);
 ("transmit_phase_ct_4", VNone);
 ("transmit_phase_ct_5", VNone);
 ("tropo_dry", VNone);
 ("tropo_wet", VNone);
 ("vlbi_delay", VNone)]])])]])])].
Definition samples : list (string * string * pyval) := [
  ("502x0b2c1e2_fig3_2_opm", kvn_502x0b2c1e2_fig3_2_opm, obj_502x0b2c1e2_fig3_2_opm);
  ("502x0b2c1e2_fig3_4_opm", kvn_502x0b2c1e2_fig3_4_opm, obj_502x0b2c1e2_fig3_4_opm);
  ("504x0b1c1_fig3_6_apm", kvn_504x0b1c1_fig3_6_apm, obj_504x0b1c1_fig3_6_apm);
  ("504x0b1c1_fig3_8_apm", kvn_504x0b1c1_fig3_8_apm, obj_504x0b1c1_fig3_8_apm);
  ("508x1b1_figc_2_rdm", kvn_508x1b1_figc_2_rdm, obj_508x1b1_figc_2_rdm);
  ("adm-testcase04a_abbrev", kvn_adm_testcase04a_abbrev, obj_adm_testcase04a_abbrev);
  ("adm-testcase04a_multi", kvn_adm_testcase04a_multi, obj_adm_testcase04a_multi);
  ("cdm_example_section4", kvn_cdm_example_section4, obj_cdm_example_section4);
  ("odmv2-testcase6_abbrev", kvn_odmv2_testcase6_abbrev, obj_odmv2_testcase6_abbrev);
  ("odmv2-testcase7a_xxx", kvn_odmv2_testcase7a_xxx, obj_odmv2_testcase7a_xxx);
  ("omm1_ct", kvn_omm1_ct, obj_omm1_ct);
  ("omm1_st", kvn_omm1_st, obj_omm1_st);
  ("tdm-testcase01b", kvn_tdm_testcase01b, obj_tdm_testcase01b)
].
