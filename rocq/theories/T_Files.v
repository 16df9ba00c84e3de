(** The example files of /repo/shipgrav/tests/ex_files (written by tools/exfiles.py): line ends as seen
    by [open(path, 'r')]; of DGStest_laptop.dat the first 20 lines.  Used in T_Io. *)
From Coq Require Import Ascii String List.
From Verif Require Import M_Str.
Import ListNotations.

Definition f_AT01_bgm_BGM : str :=
  lit "BGM 2022/07/01 12:17:33.492 BGM3 04:024963 00
BGM 2022/07/01 12:17:34.492 BGM3 04:024982 00
BGM 2022/07/01 12:17:35.492 BGM3 04:024992 00
BGM 2022/07/01 12:17:36.492 BGM3 04:024983 00
".

Definition f_AT01_nav_gps : str :=
  lit "NAV 2022/07/01 12:17:33.233 GPS $GPZDA,121733.00,01,07,2022,00,00*67
NAV 2022/07/01 12:17:33.433 GPS $GPRMC,121733.00,A,4131.403226,N,07040.311159,W,0.01,218.7,010722,,,D*7C
NAV 2022/07/01 12:17:33.433 GPS $GPVTG,218.7,T,,M,0.01,N,0.02,K,D*07
NAV 2022/07/01 12:17:33.537 GPS $GPGGA,121733.00,4131.403226,N,07040.311159,W,2,12,0.9,25.169,M,-30.062,M,4.0,0402*46
NAV 2022/07/01 12:17:34.233 GPS $GPZDA,121734.00,01,07,2022,00,00*60
NAV 2022/07/01 12:17:34.433 GPS $GPRMC,121734.00,A,4131.403225,N,07040.311162,W,0.00,206.6,010722,,,D*7F
NAV 2022/07/01 12:17:34.433 GPS $GPVTG,206.6,T,,M,0.00,N,0.01,K,D*0B
NAV 2022/07/01 12:17:34.537 GPS $GPGGA,121734.00,4131.403225,N,07040.311162,W,2,12,0.9,25.176,M,-30.062,M,5.0,0402*45
".

Definition f_AT05_01_bgm_RGS : str :=
  lit "RGS 2022/07/01 00:00:00.445 980329.272 24980 1656633600.445 4.994070552 855577.390 BGM3 S210 GPS: 41.523386 -70.671852 1656633599.533 0 0 UNKNOWN_SRC 0.010 135.000 DEPTH: -999 -999 NONE HDG: 243.380 1656633599.855 SRC_GYRO NO_DNV_ERROR 1656633600.445 -999

RGS 2022/07/01 00:00:01.445 980284.326 24971 1656633601.445 4.994070552 855577.390 BGM3 S210 GPS: 41.523386 -70.671852 1656633600.536 0 0 UNKNOWN_SRC 0.010 18.400 DEPTH: -999 -999 NONE HDG: 243.370 1656633600.855 SRC_GYRO NO_DNV_ERROR 1656633601.445 -999

".

Definition f_DGStest_laptop_dat : str :=
  lit "11773.330941280192,12295.691114150419, -0.574874946460, -0.635361747189,  0.003210411454, 53.370688000000,           20814,         5403321, 31.117220000000, 50.141118000000,  0.810980000000, -0.001845585113,  0.107840000000,  0.254290000000, 48.073118466700,-10.317187150000, 11.400000000000,270.080000000000,  0.319623703139,2019,07,11,00,00,00.00,0
11773.353344288118,11924.714512194932, -0.669646342951, -0.573730537144,  0.003119812384, 53.370688000000,           20814,         5397323, 31.114860000000, 50.138636000000,  0.752630000000, -0.002089170953,  0.137830000000,  0.250130000000, 48.073118616700,-10.317266183300, 11.500000000000,270.030000000000,  0.318194906553,2019,07,11,00,00,01.00,0
11773.376991916366,11722.406244564801, -0.562906332362, -0.296735798923,  0.003054247267, 53.371800000000,           20814,         5429428, 31.112500000000, 50.133672000000,  1.069790000000, -0.001719255127,  0.202860000000,  0.249310000000, 48.073118750000,-10.317345366700, 11.500000000000,270.080000000000,  0.316917095066,2019,07,11,00,00,02.00,0
11773.401465966706,11489.868903740513, -0.317668952664,  0.067234047322,  0.003086433779, 53.372912000000,           20814,         5485146, 31.111910000000, 50.128708000000,  1.718390000000, -0.000980464186,  0.288180000000,  0.237040000000, 48.073118816700,-10.317424350000, 11.400000000000,269.960000000000,  0.315802425813,2019,07,11,00,00,03.00,0
11773.427119006652,11120.610750390380, -0.035691265546,  0.366735502092,  0.003144846337, 53.374024000000,           20814,         5551733, 31.110730000000, 50.118780000000,  2.607690000000, -0.000112243546,  0.376700000000,  0.203920000000, 48.073118666700,-10.317503233300, 11.400000000000,269.950000000000,  0.314863079236,2019,07,11,00,00,04.00,0
11773.455042290036,10780.748483031808,  0.190377258107,  0.500154554862,  0.003100738895, 53.375136000000,           20814,         5628774, 31.112500000000, 50.123744000000,  3.636800000000,  0.000590310169,  0.455830000000,  0.152460000000, 48.073118550000,-10.317582200000, 11.400000000000,269.920000000000,  0.314111051605,2019,07,11,00,00,05.00,0
11773.486387842826,10753.487639246898,  0.303125417605,  0.453257614762,  0.002931461684, 53.375136000000,           20814,         5722542, 31.114270000000, 50.131190000000,  4.704900000000,  0.000888600547,  0.518740000000,  0.097150000000, 48.073118516700,-10.317661150000, 11.400000000000,270.040000000000,  0.313556955199,2019,07,11,00,00,06.00,0
11773.521558981181,11123.865387900518,  0.288128887192,  0.285482440648,  0.002756224007, 53.375136000000,           20814,         5830764, 31.113680000000, 50.136154000000,  5.702780000000,  0.000794147756,  0.560840000000,  0.056670000000, 48.073118566700,-10.317740033300, 11.400000000000,270.060000000000,  0.313210674710,2019,07,11,00,00,07.00,0
11773.559913694238,11664.447659784277,  0.172925016037,  0.082945833557,  0.002714500751, 53.375136000000,           20814,         5934282, 31.115450000000, 50.133672000000,  6.508450000000,  0.000469405086,  0.575730000000,  0.043400000000, 48.073118466700,-10.317818833300, 11.400000000000,269.680000000000,  0.313082763523,2019,07,11,00,00,08.00,0
11773.600169591769,12048.260552079744,  0.015854837400, -0.087690363847,  0.002820597031, 53.376248000000,           20814,         6005650, 31.121350000000, 50.131190000000,  7.008090000000,  0.000044720107,  0.555240000000,  0.056400000000, 48.073118016700,-10.317897583300, 11.400000000000,269.650000000000,  0.313183631047,2019,07,11,00,00,09.00,0
11773.641116967072,12153.190065406568, -0.116801275826, -0.200223946598,  0.002955303544, 53.376248000000,           20814,         6026296, 31.121350000000, 50.141118000000,  7.133730000000, -0.000345183224,  0.493730000000,  0.082090000000, 48.073117800000,-10.317976266700, 11.400000000000,269.920000000000,  0.313522646585,2019,07,11,00,00,10.00,0
11773.682073010814,12137.593842457991, -0.176239034681, -0.263071091541,  0.002994642615, 53.377360000000,           20814,         5995818, 31.120760000000, 50.136154000000,  6.886290000000, -0.000527772924,  0.393420000000,  0.102120000000, 48.073117866700,-10.318055283300, 11.500000000000,270.180000000000,  0.314107927822,2019,07,11,00,00,11.00,0
11773.722839339742,12226.875058636077, -0.146913545956, -0.303483045516,  0.002932653777, 53.376248000000,           20814,         5926845, 31.121940000000, 50.141118000000,  6.331380000000, -0.000430846565,  0.266550000000,  0.104140000000, 48.073117966700,-10.318134450000, 11.500000000000,270.000000000000,  0.314946858372,2019,07,11,00,00,12.00,0
11773.763390994382,12451.861640436844, -0.047278409872, -0.353479427514,  0.002879009590, 53.376248000000,           20814,         5833748, 31.119580000000, 50.136154000000,  5.575380000000, -0.000136114995,  0.133190000000,  0.089150000000, 48.073117800000,-10.318213600000, 11.500000000000,269.750000000000,  0.316046492613,2019,07,11,00,00,13.00,0
11773.803696135192,12607.537461821730,  0.082159052153, -0.433707288946,  0.002936230056, 53.375136000000,           20814,         5726727, 31.120170000000, 50.141118000000,  4.733480000000,  0.000241237878,  0.015410000000,  0.070710000000, 48.073117833300,-10.318292466700, 11.500000000000,269.930000000000,  0.317413351901,2019,07,11,00,00,14.00,0
11773.843832480674,12451.366935535305,  0.193977379081, -0.535750452966,  0.003095970523, 53.374024000000,           20814,         5614408, 31.118400000000, 50.143600000000,  3.902760000000,  0.000600548248, -0.069440000000,  0.066780000000, 48.073117900000,-10.318371566700, 11.500000000000,270.050000000000,  0.319053517244,2019,07,11,00,00,15.00,0
11773.884196862391,11931.588306616342,  0.246071844825, -0.619554593510,  0.003254518897, 53.374024000000,           20814,         5508612, 31.120170000000, 50.143600000000,  3.146970000000,  0.000800845469, -0.113880000000,  0.089400000000, 48.073118050000,-10.318450800000, 11.500000000000,270.180000000000,  0.320972693984,2019,07,11,00,00,16.00,0
11773.925472137103,11246.057498581111,  0.212860132797, -0.638032035593,  0.003301010525, 53.374024000000,           20814,         5423366, 31.120170000000, 50.136154000000,  2.492690000000,  0.000702653539, -0.121330000000,  0.137440000000, 48.073118133300,-10.318529966700, 11.500000000000,270.000000000000,  0.323175389356,2019,07,11,00,00,17.00,0
11773.968257375600,10711.880353317303,  0.095200549984, -0.570344992917,  0.003196106338, 53.374024000000,           20814,         5368600, 31.119580000000, 50.141118000000,  1.935850000000,  0.000304271081, -0.103080000000,  0.196140000000, 48.073117933300,-10.318608783300, 11.400000000000,269.520000000000,  0.325664764511,2019,07,11,00,00,18.00,0
11774.012641839723,10570.629085377346, -0.077438363724, -0.434494070350,  0.002992258429, 53.374024000000,           20814,         5344549, 31.121350000000, 50.141118000000,  1.456440000000, -0.000231715597, -0.073060000000,  0.243550000000, 48.073117250000,-10.318687183300, 11.400000000000,269.160000000000,  0.328443495164,2019,07,11,00,00,19.00,0
".

Definition f_MGL2003_bgm_y2020d244 : str :=
  lit "vc01	2020:244:00:00:00.3244	04:025229 00
vc01	2020:244:00:00:01.3244	04:025247 00
vc01	2020:244:00:00:02.3235	04:025404 00
vc01	2020:244:00:00:03.3248	04:025535 00
".

Definition f_MGL2003_nav_y2020d244 : str :=
  lit "seapath	2020:244:00:00:00.6212	$INGGA,000000.37,5420.890903,N,13237.257959,W,2,09,1.2,1.62,M,-7.75,M,4.2,0291*55
seapath	2020:244:00:00:00.8547	$INGLL,5420.890903,N,13237.257959,W,000000.37,A,D*63
seapath	2020:244:00:00:00.8549	$INVTG,77.26,T,59.62,M,9.8,N,18.1,K,D*03
seapath	2020:244:00:00:00.8550	$INHDT,75.05,T*22
seapath	2020:244:00:00:00.8551	$PSXN,20,0,0,0,0*3B
seapath	2020:244:00:00:00.9253	$PSXN,23,1.06,0.15,75.05,0.04*08
seapath	2020:244:00:00:01.6218	$INGGA,000001.37,5420.891483,N,13237.253415,W,2,09,1.2,1.60,M,-7.75,M,5.2,0291*52
seapath	2020:244:00:00:01.8561	$INGLL,5420.891483,N,13237.253415,W,000001.37,A,D*67
seapath	2020:244:00:00:01.8562	$INVTG,77.89,T,60.26,M,9.8,N,18.2,K,D*0F
seapath	2020:244:00:00:01.8563	$INHDT,74.82,T*2C
seapath	2020:244:00:00:01.8564	$PSXN,20,0,0,0,0*3B
seapath	2020:244:00:00:01.9253	$PSXN,23,1.09,0.10,74.82,0.05*0D
".

Definition f_MGL_dgsdata_y2025d254 : str :=
  lit "dgsdata	2025:254:00:00:00.9100	9382.775980900780,1483.187129171984, -4.223089483153, -5.347272318276,  0.003149038929, 51.500000000000,           20830,         5546652, 28.281200000000, 52.868836000000,  0.323080000000, 16.646090000000,  0.254130000000, -0.379190000000, 23.067226666667,-112.378688333333,  5.111352558064,144.700000000000, 19.918886685114,2025,09,11,00,00,00.91,297172
dgsdata	2025:254:00:00:01.9201	9382.768550844663,380.608909648050, -2.882289037977, -3.642013197185,  0.002531534735, 51.500000000000,           20830,         6059436, 28.281640000000, 52.878764000000,  0.415790000000, 21.178990000000,  0.316760000000, -0.183670000000, 23.067188333333,-112.378660000000,  5.069654546462,144.700000000000, 19.835721693473,2025,09,11,00,00,01.91,297173
dgsdata	2025:254:00:00:02.9270	9382.768166650942,2396.951266607078, -0.499869286998, -0.758080692062,  0.001363283558, 51.500000000000,           20830,         6773987, 28.281750000000, 52.901102000000,  0.493870000000, 26.768760000000,  0.514720000000,  0.152990000000, 23.067148333333,-112.378628333333,  5.132458958999,144.700000000000, 19.755630454797,2025,09,11,00,00,02.91,297174
dgsdata	2025:254:00:00:03.9120	9382.773314616561,7551.568206079627,  2.084704051579,  2.431311479963,  0.000397688198, 51.500000000000,           20830,         7395594, 28.281640000000, 52.903584000000,  0.554250000000, 30.714220000000,  0.805880000000,  0.642830000000, 23.067111666667,-112.378598333333,  5.210707079537,144.500000000000, 19.678636578924,2025,09,11,00,00,03.91,297175
dgsdata	2025:254:00:00:04.9238	9382.780964749858,13428.584672971925,  3.915424217632,  4.815386928962,  0.000407224942, 51.500000000000,           20830,         7720796, 28.281750000000, 52.901102000000,  0.570960000000, 31.924110000000,  1.041950000000,  1.100670000000, 23.067073333333,-112.378570000000,  5.212766240604,144.300000000000, 19.604757648864,2025,09,11,00,00,04.91,297176
".

Definition f_NBP_2301_nav_d013 : str :=
  lit "23+013:00:00:00.113 $GPVTG,5.71,T,,M,5.2,N,9.6,K,A*36
23+013:00:00:00.115 $GPRMC,000000.81,A,7520.156405,S,17945.635852,W,5.2,5.71,130123,,,A*6C
23+013:00:00:00.213 $GPHDT,4.62,T*05
23+013:00:00:00.213 $PSXN,20,0,0,0,0*3B
23+013:00:00:00.213 $PSXN,22,1.32,0.09*30
23+013:00:00:00.213 $PSXN,23,-0.67,0.42,4.62,0.10*13
23+013:00:00:00.996 $GPZDA,000001.81,13,01,2023,,*6E
23+013:00:00:00.996 $GPGGA,000001.81,7520.154976,S,17945.635106,W,1,12,0.5,-1.36,M,-56.73,M,,*6F
23+013:00:00:01.113 $GPVTG,6.29,T,,M,5.1,N,9.5,K,A*38
23+013:00:00:01.113 $GPRMC,000001.81,A,7520.154976,S,17945.635106,W,5.1,6.29,130123,,,A*63
23+013:00:00:01.213 $GPHDT,4.74,T*02
23+013:00:00:01.213 $PSXN,20,0,0,0,0*3B
23+013:00:00:01.213 $PSXN,22,1.32,0.09*30
23+013:00:00:01.213 $PSXN,23,-0.46,0.32,4.74,0.06*17
23+013:00:00:02.012 $GPZDA,000002.81,13,01,2023,,*6D
23+013:00:00:02.012 $GPGGA,000002.81,7520.153540,S,17945.635196,W,1,12,0.5,-1.29,M,-56.73,M,,*65
23+013:00:00:02.142 $GPVTG,2.95,T,,M,5.1,N,9.5,K,A*3B
23+013:00:00:02.142 $GPRMC,000002.81,A,7520.153540,S,17945.635196,W,5.1,2.95,130123,,,A*64
23+013:00:00:02.213 $GPHDT,4.81,T*08
23+013:00:00:02.213 $PSXN,20,0,0,0,0*3B
23+013:00:00:02.213 $PSXN,22,1.32,0.09*30
23+013:00:00:02.214 $PSXN,23,-0.61,0.22,4.81,0.01*1E
".

Definition f_RR2212_bgm_txt : str :=
  lit "2022-11-07T17:13:45.329611Z 04:024882 00
2022-11-07T17:13:46.336966Z 04:024881 00
2022-11-07T17:13:47.329375Z 04:024871 00
2022-11-07T17:13:48.329063Z 04:024860 00
2022-11-07T17:13:49.328981Z 04:024850 00
2022-11-07T17:13:50.328786Z 04:024840 00
".

Definition f_RR2212_nav_txt : str :=
  lit "2022-11-05T00:00:00.002010Z $GPZDA,000000.00,05,11,2022,,*61
$GPGGA,000000.00,3345.095825,N,11923.337492,W,2,09,0.9,-3.95,M,-33.51,M,2.0,0135*5F
$GPGLL,3345.095825,N,11923.337492,W,000000.00,A,D*7C
$GPVTG,200.16,T,,M,11.0,N,20.4,K,D*3B
$GPVBW,,,V,10.99,-0.08,A,,V,,V*57
$GPRMC,000000.00,A,3345.095825,N,11923.337492,W,11.0,200.16,051122,,,D*4B
$GPHDT,200.59,T*0B
$PSXN,20,0,0,0,0*3B
$PSXN,23,-1.34,0.12,200.59,-0.07*34

2022-11-05T00:00:00.202094Z $GPZDA,000000.20,05,11,2022,,*63
$GPGGA,000000.20,3345.095252,N,11923.337748,W,2,09,0.9,-4.00,M,-33.51,M,2.0,0135*58
$GPGLL,3345.095252,N,11923.337748,W,000000.20,A,D*70
$GPVTG,200.60,T,,M,11.0,N,20.4,K,D*3A
$GPVBW,,,V,11.00,-0.02,A,,V,,V*5C
$GPRMC,000000.20,A,3345.095252,N,11923.337748,W,11.0,200.60,051122,,,D*46
$GPHDT,200.70,T*00
$PSXN,20,0,0,0,0*3B
$PSXN,23,-1.32,0.06,200.70,-0.03*38
".

Definition f_SKQ_dgs_proc_20241213T0000Z : str :=
  lit "# Platform:
#   Name: R/V Sikuliaq
#   Operator: UAF
#   IMO Number: 9578945
#   ICES Code: 33BI
#   Call Sign: WDN7246
#   MMSI Number: 338417000
# Cruise ID: SKQ202418S
#
# Instrument:
#   Name: Dynamic Gravity Systems Advanced Technology Marine Gravimeter
#   Model: AT1-M
#   Serial Number: 33
#   Location: Aft inboard wall of tech workshop, 1-12-1
#   Installation Date: 28 November 2023
#
# Parameters:
# Log Name	Log Time	QC_Gravity, Gravity, Long accelerometer, Cross accelerometer, beam, Sensor Temp, STATUS, Checksum, Pressure, Etemp, Ve, Vcc, Al, Ax, Latitude, Longitude, Speed, Course, VMOND, Year, Month, Day Hours, Min, Seconds, NumLine
#
grav_dgs_33_proc	2024-12-13T00:00:00.4059Z	9389.827772838045,9288.404692385160, -0.023006441952, -0.112389577912, -0.981155312199, 52.255832250000,           20766,         4039201, 28.944054383333, 51.226372500000,  0.002350000000,  0.436120000000,  0.005350000000,  0.001870000000, 21.315802416667,-157.877074616667,  0.000000000000,  8.140000000000,  0.160753801557,2024,12,12,23,59,55.00,5196653
grav_dgs_33_proc	2024-12-13T00:00:01.3929Z	9389.825061856613,9323.774367216154, -0.035286907588, -0.139204518700, -0.981177961967, 52.256280125000,           20766,         4036172, 28.944054383333, 51.225338333333,  0.002200000000,  0.404080000000,  0.005640000000,  0.002050000000, 21.315802483333,-157.877074600000,  0.000000000000,318.940000000000,  0.160422031783,2024,12,12,23,59,56.00,5196654
".

Definition f_SKQ_dgs_raw_20241018T2212Z : str :=
  lit "# Platform:
#   Name: R/V Sikuliaq
#   Operator: UAF
#   IMO Number: 9578945
#   ICES Code: 33BI
#   Call Sign: WDN7246
#   MMSI Number: 338417000
# Cruise ID: SKQ202416T
#
# Instrument:
#   Name: Dynamic Gravity Systems Advanced Technology Marine Gravimeter
#   Model: AT1-M
#   Serial Number: 33
#   Location: Aft inboard wall of tech workshop, 1-12-1
#   Installation Date: 28 November 2023
#
# Parameters:
# Log Name	Log Time	$head2, dgravity, dlong, dcross, dbeam, dtemp, dpressure, detemp, rvcc, rve, ral, rax, status, check, latitude, longitude, speed, course, datestamp
#
grav_dgs_33_raw	2024-10-18T22:12:35.6591Z	$AT1M_3.64_438219,19964,1208,-578,4008935,273,498,202,30569,425,277,-224,266,4061549,0.0000000000,0.0000000000,0.0000,0.0000,438219
grav_dgs_33_raw	2024-10-18T22:12:36.6591Z	$AT1M_3.64_438220,19569,1174,-762,4008937,273,497,203,30566,410,264,-233,266,4060898,0.0000000000,0.0000000000,0.0000,0.0000,438220
".

Definition f_SR2302_nav_raw : str :=
  lit "1674228947.582 $INZDA,153547.44,20,01,2023,,*77
1674228947.583 $INGGA,153547.44,3242.434865,N,11714.203305,W,2,09,0.8,-4.31,M,-33.32,M,2.0,0135*4B
1674228947.583 $INGLL,3242.434865,N,11714.203305,W,153547.44,A,D*65
1674228947.583 $INVTG,112.40,T,,M,0.0,N,0.1,K,D*2F
1674228947.583 $INRMC,153547.44,A,3242.434865,N,11714.203305,W,0.0,112.40,200123,,,D*66
1674228947.603 $GPGSA,M,3,21,31,09,16,03,01,26,04,22,,,,1.7,0.8,1.5*39
1674228947.633 $INHDT,179.39,T*10
1674228947.643 $PSXN,20,0,0,0,0*3B
1674228947.653 $PSXN,23,-0.33,0.42,179.39,0.01*17
1674228947.673 $PSXN,26,0,44.5000,0.7800,-0.9000,NRP*6D
1674228947.693 $PSXN,26,1,44.5000,0.7800,-0.9000,Monitoring Point #1*44
1674228947.723 $PSXN,26,2,44.5000,0.7800,-0.9000,Monitoring Point #2*1F
1674228947.754 $PSXN,26,3,44.5000,0.7800,-0.9000,Monitoring Point #3*33
1674228947.784 $PSXN,26,4,44.5000,0.7800,-0.9000,Monitoring Point #4*68
1674228947.814 $PSXN,26,5,44.5000,0.7800,-0.9000,Monitoring Point #5*3D
1674228947.844 $PSXN,26,6,44.5000,0.7800,-0.9000,Monitoring Point #6*11
1674228947.874 $PSXN,26,7,44.5000,0.7800,-0.9000,Monitoring Point #7*4A
1674228947.904 $PSXN,26,8,44.5000,0.7800,-0.9000,Monitoring Point #8*64
1674228948.444 $INZDA,153548.44,20,01,2023,,*78
1674228948.474 $INGGA,153548.44,3242.434850,N,11714.203293,W,2,09,0.8,-4.32,M,-33.32,M,3.0,0135*4E
1674228948.514 $INGLL,3242.434850,N,11714.203293,W,153548.44,A,D*62
1674228948.544 $INVTG,117.77,T,,M,0.0,N,0.1,K,D*2E
1674228948.564 $INRMC,153548.44,A,3242.434850,N,11714.203293,W,0.0,117.77,200123,,,D*60
1674228948.604 $GPGSA,M,3,21,31,09,16,03,01,26,04,22,,,,1.7,0.8,1.5*39
1674228948.634 $INHDT,179.38,T*11
1674228948.644 $PSXN,20,0,0,0,0*3B
1674228948.654 $PSXN,23,-0.27,0.41,179.38,0.01*10
1674228948.674 $PSXN,26,0,44.5000,0.7800,-0.9000,NRP*6D
1674228948.694 $PSXN,26,1,44.5000,0.7800,-0.9000,Monitoring Point #1*44
1674228948.724 $PSXN,26,2,44.5000,0.7800,-0.9000,Monitoring Point #2*1F
1674228948.754 $PSXN,26,3,44.5000,0.7800,-0.9000,Monitoring Point #3*33
1674228948.784 $PSXN,26,4,44.5000,0.7800,-0.9000,Monitoring Point #4*68
1674228948.814 $PSXN,26,5,44.5000,0.7800,-0.9000,Monitoring Point #5*3D
1674228948.844 $PSXN,26,6,44.5000,0.7800,-0.9000,Monitoring Point #6*11
1674228948.874 $PSXN,26,7,44.5000,0.7800,-0.9000,Monitoring Point #7*4A
1674228948.904 $PSXN,26,8,44.5000,0.7800,-0.9000,Monitoring Point #8*64
".

Definition f_SR2312_dgs_raw_txt : str :=
  lit "2023-06-16T00:00:00.857719Z $AT1M_3.64_198247,-218747,30292,-80876,4614745,236,483,200,7687710,711267,-1160673,-397137,330,11187500,0.0000000000,0.0000000000,0.0000,0.0000,1686873601
2023-06-16T00:00:02.856681Z $AT1M_3.64_198249,211924,-115826,-224438,4609755,236,483,204,7960237,791445,-1288380,-864564,330,11081076,0.0000000000,0.0000000000,0.0000,0.0000,1686873603
".

Definition f_SR2312_mru_txt : str :=
  lit "2023-06-16T00:00:00.089227Z $PHGGA,000000.08,4419.27616746,N,12500.33483564,W,2,10,0.828,-31.369,M,-27.243,M,4.000,0135*6D
2023-06-16T00:00:00.089227Z $PHGST,000000.08,0.000,0.586,0.585,156.604,0.586,0.585,0.567*54
2023-06-16T00:00:00.089227Z $PHVTG,150.616,T,150.616,M,0.160,N,0.297,K,D*22
2023-06-16T00:00:00.089227Z $HEHDT,353.12,T*19
2023-06-16T00:00:00.089227Z $PASHR,000000.085,353.12,T,-0.41,+2.03,-0.60,0.004,0.004,0.083,1,0*38
2023-06-16T00:00:00.589236Z $PHGGA,000000.58,4419.27613524,N,12500.33480248,W,2,10,0.828,-31.275,M,-27.243,M,4.400,0135*69
2023-06-16T00:00:00.589236Z $PHGST,000000.58,0.000,0.586,0.585,156.604,0.586,0.585,0.567*51
2023-06-16T00:00:00.589236Z $PHVTG,140.298,T,140.298,M,0.413,N,0.766,K,D*28
2023-06-16T00:00:00.589236Z $HEHDT,353.20,T*18
2023-06-16T00:00:00.589236Z $PASHR,000000.585,353.20,T,+0.18,+1.59,-0.69,0.004,0.004,0.083,1,0*33
2023-06-16T00:00:01.039256Z $PHZDA,000001.03,16,06,2023,00,00*69
2023-06-16T00:00:01.089253Z $PHGGA,000001.08,4419.27608228,N,12500.33473623,W,2,10,0.828,-31.289,M,-27.243,M,5.000,0135*6F
".

Definition f_TN400_bgm_Raw : str :=
  lit "03/13/2022,00:00:02.449,04:025529 00
03/13/2022,00:00:03.449,04:025706 00
".

Definition f_TN400_dgs_proc_Raw : str :=
  lit "03/12/2022,16:04:07.033,9984.869108166342,9995.951860660536,  0.031769279452,  0.049233442454, -0.894949104184, 62.394784400000,           16730,         4086876, 30.259833080000, 50.442681000000,  0.000020000000,  0.035710000000,  0.000070000000, -0.000010000000,  0.000000000000,  0.000000000000,  0.000000000000,  0.000000000000,  0.044215194148,2022,03,12,16,04,19.80,5370472
03/12/2022,16:04:08.017,9984.870433770533,9977.883336291710,  0.030815605022,  0.037431721381, -0.894945527905, 62.394784400000,           16730,         4086005, 30.260701895000, 50.447645000000,  0.000020000000,  0.032780000000,  0.000020000000, -0.000010000000,  0.000000000000,  0.000000000000,  0.000000000000,  0.000000000000,  0.044061782566,2022,03,12,16,04,20.80,5370473
".

Definition f_TN400_dgs_raw_Raw : str :=
  lit "03/12/2022,16:04:06.634,$AT1M_3.61_5370472,-82,533,826,4081100,209,511,200,3571,2,7,-1,330,4086876,0.0000000000,0.0000000000,0.0000,0.0000,00000131034752" ++ [Ascii.zero] ++ lit "
03/12/2022,16:04:07.626,$AT1M_3.61_5370473,-448,517,628,4081103,208,513,203,3278,2,2,-1,330,4086005,0.0000000000,0.0000000000,0.0000,0.0000,00000131034753" ++ [Ascii.zero] ++ lit "
".

Definition f_TN400_nav_Raw : str :=
  lit "03/13/2022,00:00:02.105,$INGGA,000003.560,3217.33152,N,11839.14935,W,5,26,0.8,0.19,M,,,7,1015*06
03/13/2022,00:00:02.652,$INGGA,000004.060,3217.33129,N,11839.14969,W,5,26,0.8,0.26,M,,,7,1015*0D
".
