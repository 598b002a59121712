(** * Text of the engine table (copied by a script; do not edit) *)
From Coq Require Import String List.
Import ListNotations.
Open Scope string_scope.

(** openap/data/engine/engines.csv:1-20 *)
Definition engines_0 : string := "uid,name,manufacturer,type,bpr,pr,max_thrust,ei_hc_to,ei_hc_co,ei_hc_app,ei_hc_idl,ei_co_to,ei_co_co,ei_co_app,ei_co_idl,ei_nox_to,ei_nox_co,ei_nox_app,ei_nox_idl,ff_to,ff_co,ff_app,ff_idl,fuel_lto,cruise_thrust,cruise_sfc,cruise_mach,cruise_alt
1AS001,TFE731-2-2B,Allied Signal,TF,2.64,13.9,15600,0.114,0.128,4.26,20.04,1.394,2.03,22.38,58.6,15.25,13.08,5.9,2.82,0.205,0.173,0.067,0.024,85.0,,,,
1AS002,TFE731-3,Allied Signal,TF,2.64,14.3,16500,0.062,0.072,1.41,9.04,1.13,1.62,15.56,47.7,19.15,16.02,6.92,3.72,0.225,0.186,0.072,0.026,92.0,3634.0,0.0232,0.8,40000.0
4AL003,AE3007A,Rolls-Royce Corporation,MTF,5.23,18.08,33730,0.25,0.29,0.64,2.51,0.75,0.92,3.28,17.35,20.54,17.47,7.79,3.83,0.377,0.315,0.117,0.049,162.0,,,,
6AL007,AE3007A1,Rolls-Royce Corporation,MTF,4.77,17.97,34910,0.03,0.03,0.03,3.85,0.75,0.56,6.72,39.91,16.17,14.07,7.13,4.17,0.3826,0.318,0.113,0.0461,157.0,,,,
6AL010,AE3007A1/1,Rolls-Royce Corporation,MTF,4.77,17.9,34740,0.03,0.03,0.03,3.88,0.74,0.55,6.8,40.07,16.1,14.01,7.12,4.17,0.3805,0.3163,0.1125,0.0459,156.0,,,,
6AL013,AE3007A1/3,Rolls-Royce Corporation,MTF,4.81,17.22,33050,0.03,0.03,0.03,3.81,0.5,0.5,7.62,38.47,15.42,13.49,6.93,4.27,0.3589,0.2999,0.1077,0.0449,151.0,,,,
6AL020,AE3007A1E,Rolls-Royce Corporation,MTF,4.72,19.06,37160,0.03,0.03,0.03,3.52,0.77,0.64,5.63,37.97,17.17,14.91,7.42,4.26,0.4122,0.3425,0.12,0.0475,165.0,,,,
6AL016,AE3007A1P,Rolls-Royce Corporation,MTF,4.77,17.9,34740,0.03,0.03,0.03,3.86,0.74,0.55,6.79,39.97,16.1,14.01,7.12,4.17,0.3806,0.3163,0.1126,0.046,157.0,,,,
10AL026,AE3007A2,Rolls-Royce Corporation,MTF,4.79,20.2,42230,0.0,0.0,0.0,1.71,0.71,0.74,4.08,34.17,18.61,15.99,7.9,4.39,0.466,0.388,0.138,0.055,189.0,,,,
6AL019,AE3007A3,Rolls-Royce Corporation,MTF,4.72,17.2,33000,0.03,0.03,0.03,4.1,0.5,0.5,7.65,41.29,15.4,13.48,6.93,4.12,0.3583,0.2995,0.1076,0.0448,150.0,,,,
8AL025,AE3007C,Rolls-Royce Corporation,MTF,5.2,15.8,29620,0.254,0.291,0.696,4.953,0.94,1.16,4.28,26.32,16.88,14.57,6.78,3.36,0.301,0.2527,0.0943,0.0377,127.0,,,,
6AL024,AE3007C1,Rolls-Royce Corporation,MTF,5.1,16.58,31460,0.0,0.01,0.21,5.88,0.0,0.0,1.62,36.04,20.2,17.6,6.71,3.14,0.3222,0.2689,0.0991,0.0418,138.0,,,,
13AL027,AE3007C2,Rolls-Royce Corporation,MTF,4.99,17.44,32729,0.0,0.01,0.22,2.57,0.0,0.0,1.97,23.09,21.25,18.11,6.56,3.14,0.3263,0.2714,0.0985,0.0472,147.0,,,,
1AA001,D-30,Aviadvigatel,MTF,0.85,18.4,66640,0.12,0.14,1.5,43.6,2.7,3.2,14.5,60.3,19.1,16.3,7.0,3.6,1.15,0.975,0.35,0.13,464.0,,,,
1AA002,D-30KP-2,Aviadvigatel,MTF,2.2,19.45,117600,0.7,0.8,2.7,13.3,2.2,2.8,15.4,62.4,16.5,13.5,6.3,3.3,1.67,1.42,0.49,0.21,703.0,,,,
1AA003,D-30KU,Aviadvigatel,MTF,2.35,17.4,112700,0.3,0.4,1.2,10.5,2.8,3.7,11.8,54.0,16.3,12.6,5.1,2.7,1.52,1.3,0.5,0.215,691.0,,,,
1AA004,D-30KU-154,Aviadvigatel,MTF,2.3,17.0,107500,0.4,0.5,1.9,12.7,3.0,3.6,18.2,77.7,14.5,11.6,5.1,2.9,1.42,1.1,0.42,0.207,629.0,,,,
13AA006,PS-90A,Aviadvigatel,MTF,4.48,30.8,154600,0.1,0.13,0.79,1.32,0.41,0.45,1.2,15.18,30.52,23.33,8.96,4.92,1.532,1.279,0.511,0.1675,617.112,,,,
13AA007,PS-90A1,Aviadvigatel,MTF,4.36,33.79,169700,0.1,0.1,0.16,0.72,0.38,0.4,1.07,12.91,35.69,26.68,9.88,4.92,1.654,1.354,0.533,0.174,647.556,,,,
".
(** openap/data/engine/engines.csv:21-40 *)
Definition engines_1 : string := "13AA008,PS-90A2,Aviadvigatel,MTF,4.32,31.23,156950,0.11,0.14,0.21,2.88,0.44,0.65,1.91,16.79,32.7,25.52,9.31,4.3,1.38,1.117,0.491,0.171,590.0,,,,
4BR008,BR700-710A1-10,Rolls-Royce Deutschland,MTF,4.2,24.23,65610,0.02,0.02,0.05,1.09,1.04,0.93,4.78,27.82,18.79,15.07,7.68,4.69,0.713,0.594,0.214,0.089,299.0,,,,
4BR009,BR700-710A2-20,Rolls-Royce Deutschland,MTF,4.19,24.16,65610,0.02,0.02,0.05,1.12,1.04,0.93,4.81,28.0,18.73,15.03,7.67,4.67,0.714,0.595,0.214,0.089,299.0,,,,
6BR010,BR700-710C4-11,Rolls-Royce Deutschland,MTF,4.05,24.95,68770,0.02,0.02,0.05,2.29,1.04,0.92,4.92,31.57,19.52,15.43,7.71,4.5,0.747,0.617,0.215,0.083,294.0,,,,
4BR005,BR700-715A1-30,Rolls-Royce Deutschland,MTF,4.68,28.75,83230,0.05,0.06,0.02,0.11,0.66,0.63,4.05,19.72,20.97,16.43,8.75,3.95,0.831,0.686,0.24,0.1,339.0,,,,
4BR006,BR700-715B1-30,Rolls-Royce Deutschland,MTF,4.6,30.58,89680,0.03,0.06,0.02,0.07,0.72,0.63,3.59,18.6,24.28,18.27,9.01,4.14,0.91,0.75,0.257,0.103,360.0,,,,
4BR007,BR700-715C1-30,Rolls-Royce Deutschland,MTF,4.54,32.15,95330,0.01,0.06,0.02,0.06,0.8,0.64,3.23,17.85,27.92,20.05,9.23,4.28,0.984,0.805,0.272,0.105,377.0,,,,
11BR011,BR700-725A1-12,Rolls-Royce Deutschland,MTF,4.35,26.16,75700,0.0,0.0,0.0,3.0,0.4,0.32,5.93,41.9,16.92,13.32,7.81,3.38,0.789,0.65,0.221,0.085,304.578,,,,
20BR012,BR700-710D5-21,Rolls-Royce Deutschland,MTF,4.62,33.14,68430,0.02,0.0,0.01,2.13,0.32,0.63,2.84,34.97,26.63,20.2,9.11,3.07,0.682,0.564,0.197,0.08,275.0,,,,
1CM001,CFM56-2A,CFM International,TF,6.0,25.2,106760,0.04,0.04,0.08,1.13,0.9,0.9,3.4,23.5,20.4,17.3,8.7,4.3,1.114,0.911,0.318,0.13,446.0,,,,
1CM002,CFM56-2B-1,CFM International,TF,6.0,23.5,97860,0.04,0.05,0.08,1.83,0.9,0.9,4.2,30.7,18.5,16.0,8.2,4.0,0.985,0.819,0.311,0.128,424.0,,,,
1CM003,CFM56-2-C5,CFM International,TF,6.0,23.5,97860,0.04,0.05,0.08,1.83,0.9,0.9,4.2,30.7,18.5,16.0,8.2,4.0,0.985,0.819,0.311,0.128,424.0,,,,
1CM004,CFM56-3-B1,CFM International,TF,5.1,22.44,89410,0.04,0.05,0.08,2.28,0.9,0.95,3.8,34.4,17.7,15.5,8.3,3.9,0.946,0.792,0.29,0.114,392.0,,,,
1CM005,CFM56-3B-2,CFM International,TF,5.1,24.1,98300,0.036,0.047,0.073,1.75,0.9,0.9,3.4,30.1,19.4,16.7,8.7,4.1,1.056,0.878,0.314,0.119,421.0,,,,
1CM006,CFM56-3C-1,CFM International,TF,5.1,21.3,82290,0.05,0.05,0.08,2.86,0.9,1.0,4.2,38.1,16.6,14.7,8.0,3.8,0.872,0.732,0.273,0.111,372.0,,,,
1CM008,CFM56-5-A1,CFM International,TF,6.0,26.6,111200,0.23,0.23,0.4,1.4,0.9,0.9,2.5,17.6,24.6,19.6,8.0,4.0,1.051,0.862,0.291,0.1011,385.0,,,,
1CM009,CFM56-5A3,CFM International,TF,6.0,27.9,117880,0.2,0.2,0.3,1.3,0.9,0.9,2.4,16.2,26.4,21.1,8.3,4.1,1.131,0.925,0.307,0.1044,406.0,22241.0,0.0169,0.8,35000.0
4CM035,CFM56-5A4,CFM International,TF,6.0,23.8,97890,0.23,0.23,0.5,1.75,1.1,1.1,3.1,20.3,22.64,19.11,8.51,4.04,0.897,0.74,0.261,0.095,346.0,22241.0,,0.8,35000.0
4CM036,CFM56-5A5,CFM International,TF,6.0,25.1,104530,0.23,0.23,0.45,1.53,1.1,1.1,2.8,18.5,24.79,19.98,8.94,4.29,0.972,0.799,0.276,0.098,365.0,22241.0,,0.8,35000.0
2CM012,CFM56-5B1,CFM International,TF,5.7,30.2,133450,0.1,0.1,0.12,3.21,0.5,0.5,1.57,28.4,35.1,27.2,10.8,4.6,1.359,1.113,0.364,0.117,474.0,25977.0,0.0169,0.8,35000.0
".
(** openap/data/engine/engines.csv:41-60 *)
Definition engines_2 : string := "2CM016,CFM56-5B1/2,CFM International,TF,5.7,30.2,133450,0.1,0.1,9.1,1.7,0.6,2.5,38.4,34.0,27.75,14.91,7.02,4.73,1.345,1.104,0.369,0.129,492.0,,,,
3CM020,CFM56-5B1/2P,CFM International,TF,5.7,30.5,133500,0.1,0.1,3.7,2.9,0.8,1.9,23.1,36.5,23.3,16.4,7.3,4.1,1.32,1.07,0.37,0.12,473.0,,,,
8CM052,CFM56-5B1/3,CFM International,TF,5.5,30.2,133400,0.03,0.02,0.05,1.37,0.38,0.2,2.53,27.92,26.18,19.77,9.28,4.45,1.318,1.063,0.347,0.109,448.0,,,,
3CM023,CFM56-5B1/P,CFM International,TF,5.7,30.47,133450,0.1,0.2,0.5,3.7,0.9,0.9,2.0,19.8,33.0,26.2,10.7,4.5,1.295,1.058,0.345,0.11,448.0,,,,
2CM013,CFM56-5B2,CFM International,TF,5.6,31.3,137900,0.1,0.1,0.12,3.04,0.5,0.5,1.4,27.4,37.8,28.5,11.0,4.7,1.426,1.158,0.376,0.119,489.0,25977.0,0.0154,0.8,35000.0
2CM017,CFM56-5B2/2,CFM International,TF,5.7,31.2,137900,0.1,0.1,8.4,1.7,0.4,1.7,35.8,33.7,29.57,15.86,7.24,4.82,1.406,1.132,0.377,0.131,503.0,,,,
4CM037,CFM56-5B2/2P,CFM International,TF,5.6,31.6,137900,0.1,0.1,3.3,2.7,0.7,1.6,21.4,35.5,29.4,17.5,7.6,4.2,1.39,1.11,0.39,0.13,501.0,,,,
8CM053,CFM56-5B2/3,CFM International,TF,5.5,31.3,137900,0.04,0.02,0.05,1.22,0.45,0.23,2.33,26.72,28.26,20.76,9.42,4.53,1.385,1.107,0.358,0.111,463.0,,,,
3CM024,CFM56-5B2/P,CFM International,TF,5.6,31.57,137900,0.1,0.2,0.5,3.6,0.8,0.9,1.9,19.5,35.1,27.4,10.9,4.6,1.361,1.099,0.356,0.113,464.0,,,,
4CM038,CFM56-5B3/2P,CFM International,TF,5.6,32.8,142400,0.1,0.1,2.9,2.5,0.6,1.3,19.9,34.5,32.0,18.6,7.8,4.3,1.47,1.15,0.4,0.13,512.0,,,,
8CM054,CFM56-5B3/3,CFM International,TF,5.4,32.6,142300,0.05,0.02,0.05,1.1,0.54,0.25,2.14,25.59,30.9,21.83,9.56,4.6,1.462,1.153,0.369,0.113,478.0,,,,
3CM025,CFM56-5B3/P,CFM International,TF,5.6,32.78,142350,0.1,0.2,0.5,3.5,0.8,0.9,1.7,19.2,37.3,28.5,11.2,4.7,1.43,1.141,0.366,0.115,478.0,,,,
2CM014,CFM56-5B4,CFM International,TF,5.9,27.1,117900,0.1,0.1,0.13,3.87,0.5,0.5,2.33,31.9,28.7,23.3,10.0,4.3,1.166,0.961,0.326,0.107,421.0,22241.0,0.0154,0.8,35000.0
2CM018,CFM56-5B4/2,CFM International,TF,5.7,27.1,117900,0.1,0.1,11.4,2.2,1.6,4.9,43.8,37.1,16.61,12.58,6.13,4.49,1.18,0.975,0.335,0.121,447.0,,,,
3CM021,CFM56-5B4/2P,CFM International,TF,5.9,27.7,120100,0.1,0.2,5.3,3.6,1.4,3.6,29.1,40.1,18.4,13.6,6.5,3.9,1.14,0.95,0.34,0.12,442.0,,,,
8CM055,CFM56-5B4/3,CFM International,TF,5.7,27.3,120100,0.02,0.02,0.05,1.92,0.25,0.16,3.24,32.07,21.57,17.23,8.85,4.22,1.142,0.939,0.316,0.102,407.0,,,,
3CM026,CFM56-5B4/P,CFM International,TF,5.9,27.69,120110,0.2,0.2,0.5,4.6,0.9,0.9,2.3,23.4,28.0,23.2,10.0,4.3,1.132,0.935,0.312,0.104,408.0,,,,
8CM056,CFM56-5B5/3,CFM International,TF,6.0,23.1,97900,0.03,0.03,0.08,3.55,0.15,0.2,4.94,41.77,16.42,14.01,8.03,3.81,0.894,0.743,0.264,0.092,343.0,,,,
3CM027,CFM56-5B5/P,CFM International,TF,5.9,23.33,97890,0.2,0.2,0.7,6.2,0.9,1.0,3.4,30.0,21.9,18.5,8.7,3.8,0.891,0.742,0.26,0.094,344.0,,,,
2CM019,CFM56-5B6/2,CFM International,TF,5.7,24.8,104500,0.1,0.2,0.2,3.4,4.48,12.18,17.75,46.1,13.51,10.41,10.32,3.9,0.998,0.827,0.315,0.111,400.0,,,,
".
(** openap/data/engine/engines.csv:61-80 *)
Definition engines_3 : string := "3CM022,CFM56-5B6/2P,CFM International,TF,6.0,24.6,104500,0.2,0.2,0.4,4.6,3.1,7.4,21.5,44.8,14.2,11.0,8.7,3.6,0.97,0.81,0.31,0.11,394.0,,,,
8CM057,CFM56-5B6/3,CFM International,TF,5.9,24.3,104500,0.02,0.03,0.07,2.93,0.17,0.17,4.35,38.39,17.73,14.88,8.29,3.94,0.965,0.8,0.279,0.095,361.0,,,,
3CM028,CFM56-5B6/P,CFM International,TF,6.0,24.64,104530,0.2,0.2,0.6,5.5,0.9,1.0,2.9,27.7,23.6,19.6,9.2,4.0,0.961,0.799,0.275,0.097,363.0,,,,
8CM058,CFM56-5B7/3,CFM International,TF,5.7,27.3,120100,0.02,0.02,0.05,1.92,0.25,0.16,3.24,32.07,21.57,17.23,8.85,4.22,1.142,0.939,0.316,0.102,407.0,,,,
6CM044,CFM56-5B7/P,CFM International,TF,5.9,27.69,120110,0.2,0.2,0.5,4.6,0.9,0.9,2.3,23.4,28.0,23.2,10.0,4.3,1.132,0.935,0.312,0.104,408.0,,,,
8CM059,CFM56-5B8/3,CFM International,TF,6.0,22.7,96100,0.03,0.03,0.08,3.76,0.15,0.21,5.12,42.82,16.1,13.79,7.96,3.77,0.875,0.727,0.26,0.091,338.0,,,,
7CM048,CFM56-5B8/P,CFM International,TF,5.9,22.6,94700,0.1,0.1,0.9,6.5,0.8,0.8,3.9,32.9,19.7,16.7,8.4,3.4,0.875,0.729,0.262,0.094,342.0,,,,
7CM050,CFM56-5B9/2P,CFM International,TF,5.9,24.4,102200,0.2,0.3,0.4,4.4,2.9,8.1,21.0,44.1,13.9,10.7,7.6,3.2,0.961,0.799,0.296,0.105,381.0,,,,
8CM060,CFM56-5B9/3,CFM International,TF,5.9,24.2,103600,0.02,0.03,0.07,3.01,0.16,0.17,4.42,38.8,17.54,14.76,8.26,3.92,0.956,0.793,0.278,0.095,359.0,,,,
7CM049,CFM56-5B9/P,CFM International,TF,5.9,24.0,102200,0.1,0.1,0.8,5.9,0.8,0.8,3.7,30.4,21.4,17.9,8.8,3.6,0.954,0.794,0.28,0.098,365.0,,,,
1CM010,CFM56-5C2,CFM International,MTF,6.8,28.8,138780,0.008,0.008,0.082,5.68,0.93,0.8,1.75,34.0,32.6,25.8,10.0,4.19,1.308,1.076,0.3558,0.1175,466.0,30759.0,0.0154,0.8,35000.0
7CM045,CFM56-5C2/P,CFM International,MTF,6.8,28.2,137610,0.0,0.0,0.0,5.8,0.8,0.7,2.1,35.1,29.7,23.8,9.3,3.9,1.252,1.035,0.342,0.109,441.0,,,,
1CM011,CFM56-5C3,CFM International,MTF,6.7,29.9,144570,0.008,0.008,0.074,5.35,0.98,0.82,1.57,32.6,34.7,27.1,10.4,4.26,1.373,1.131,0.37,0.1203,483.0,30737.0,0.0154,0.8,35000.0
7CM046,CFM56-5C3/P,CFM International,MTF,6.7,29.2,143330,0.0,0.0,0.0,5.4,0.8,0.7,1.9,33.4,31.6,25.1,9.6,4.0,1.316,1.085,0.355,0.112,458.0,,,,
2CM015,CFM56-5C4,CFM International,MTF,6.6,31.15,151250,0.008,0.008,0.065,5.0,1.0,0.85,1.4,30.93,37.67,29.05,10.67,4.28,1.456,1.195,0.386,0.124,505.0,31582.0,0.0154,0.8,35000.0
7CM047,CFM56-5C4/P,CFM International,MTF,6.6,30.5,149900,0.0,0.0,0.0,5.0,0.8,0.7,1.6,31.6,34.1,26.7,9.9,4.1,1.395,1.143,0.37,0.115,478.0,,,,
3CM029,CFM56-7B18,CFM International,TF,5.5,21.59,86740,0.1,0.1,0.1,3.5,0.6,0.4,3.6,28.3,19.2,16.6,9.1,4.3,0.854,0.714,0.26,0.097,344.0,24109.0,,0.8,35000.0
8CM061,CFM56-7B18/3,CFM International,TF,5.5,21.4,86700,0.03,0.03,0.08,4.51,0.17,0.28,5.54,46.64,14.81,13.0,7.78,3.65,0.842,0.702,0.256,0.092,333.0,,,,
3CM030,CFM56-7B20,CFM International,TF,5.4,22.61,91630,0.1,0.1,0.1,3.1,0.6,0.5,3.2,25.9,20.5,17.4,9.5,4.3,0.913,0.761,0.274,0.1,361.0,24242.0,0.0179,0.8,35000.0
4CM039,CFM56-7B20/2,CFM International,TF,5.4,22.77,91630,0.07,0.23,0.36,8.11,4.26,11.38,11.37,49.71,13.25,10.81,9.39,3.75,0.903,0.754,0.278,0.102,363.0,,,,
".
(** openap/data/engine/engines.csv:81-100 *)
Definition engines_4 : string := "8CM062,CFM56-7B20/3,CFM International,TF,5.5,22.4,91600,0.03,0.03,0.08,3.84,0.15,0.23,5.03,43.31,15.61,13.53,7.98,3.77,0.896,0.746,0.268,0.094,348.0,,,,
11CM067,CFM56-7B20E,CFM International,TF,5.5,22.4,91600,0.03,0.03,0.08,3.84,0.15,0.23,5.03,43.31,15.61,13.5,8.0,3.8,0.896,0.746,0.268,0.094,348.0,,,,
3CM031,CFM56-7B22,CFM International,TF,5.3,24.41,100970,0.1,0.1,0.1,2.5,0.5,0.6,2.5,22.8,23.1,19.0,10.0,4.5,1.021,0.844,0.298,0.105,390.0,24242.0,,0.8,35000.0
4CM040,CFM56-7B22/2,CFM International,TF,5.3,24.61,100970,0.06,0.1,6.06,7.26,2.18,6.58,30.87,45.35,15.08,12.16,6.37,3.94,1.008,0.837,0.303,0.105,389.0,,,,
8CM063,CFM56-7B22/3,CFM International,TF,5.3,24.2,101000,0.02,0.03,0.07,2.83,0.16,0.17,4.18,37.9,17.4,14.67,8.35,3.95,1.004,0.832,0.291,0.099,377.0,,,,
11CM068,CFM56-7B22E,CFM International,TF,5.3,24.2,101000,0.02,0.03,0.07,2.83,0.16,0.17,4.18,37.9,17.4,14.67,8.35,3.95,1.004,0.832,0.291,0.099,376.0,,,,
11CM069,CFM56-7B22E/B1,CFM International,TF,5.3,24.2,101000,0.02,0.03,0.07,2.83,0.16,0.17,4.18,37.9,17.4,14.67,8.35,3.95,1.004,0.832,0.291,0.099,376.0,,,,
3CM032,CFM56-7B24,CFM International,TF,5.2,25.78,107650,0.1,0.1,0.1,2.4,0.4,0.6,2.2,22.0,25.3,20.5,10.1,4.4,1.103,0.91,0.316,0.109,412.0,24376.0,0.0178,0.8,35000.0
4CM041,CFM56-7B24/2,CFM International,TF,5.2,25.95,107650,0.05,0.07,6.01,6.55,1.38,4.3,30.32,42.72,16.63,13.23,6.72,4.08,1.089,0.902,0.313,0.109,410.0,,,,
8CM064,CFM56-7B24/3,CFM International,TF,5.3,25.6,107600,0.02,0.03,0.06,2.3,0.18,0.15,3.68,34.71,18.93,15.6,8.6,4.09,1.086,0.895,0.308,0.103,398.0,,,,
11CM070,CFM56-7B24E,CFM International,TF,5.3,25.6,107600,0.02,0.03,0.06,2.3,0.18,0.15,3.68,34.71,18.93,15.6,8.6,4.09,1.086,0.895,0.308,0.103,398.0,,,,
11CM071,CFM56-7B24E/B1,CFM International,TF,5.3,25.6,107600,0.02,0.03,0.06,2.3,0.18,0.15,3.68,34.71,18.93,15.6,8.6,4.09,1.086,0.895,0.308,0.103,398.0,,,,
8CM051,CFM56-7B26,CFM International,TF,5.1,27.61,116990,0.1,0.1,0.1,1.9,0.2,0.6,1.6,18.8,28.8,22.5,10.8,4.7,1.221,0.999,0.338,0.113,441.0,24376.0,,0.8,35000.0
4CM042,CFM56-7B26/2,CFM International,TF,5.1,27.8,116990,0.03,0.06,4.73,5.88,0.77,2.51,26.07,39.93,19.2,14.77,7.26,4.27,1.203,0.989,0.334,0.113,438.0,,,,
8CM065,CFM56-7B26/3,CFM International,TF,5.1,27.7,117000,0.02,0.02,0.05,1.75,0.25,0.16,3.07,30.94,21.79,17.08,8.93,4.27,1.213,0.986,0.331,0.108,429.0,,,,
11CM072,CFM56-7B26E,CFM International,TF,5.1,27.7,117000,0.02,0.02,0.05,1.75,0.2,0.16,3.07,30.94,21.79,17.08,8.93,4.27,1.213,0.986,0.331,0.108,429.0,,,,
11CM073,CFM56-7B26E/B1,CFM International,TF,5.1,27.7,117000,0.02,0.02,0.05,1.75,0.2,0.16,3.07,30.94,21.79,17.08,8.93,4.27,1.213,0.986,0.331,0.108,429.0,,,,
11CM074,CFM56-7B26E/B2,CFM International,TF,5.1,27.7,117000,0.02,0.02,0.05,1.75,0.2,0.16,3.07,30.94,21.79,17.08,8.93,4.27,1.213,0.986,0.331,0.108,429.0,,,,
11CM076,CFM56-7B26E/B2F,CFM International,TF,5.1,27.7,117000,0.02,0.02,0.05,1.75,0.2,0.16,3.07,30.94,21.79,17.08,8.93,4.27,1.213,0.986,0.331,0.108,429.0,,,,
11CM075,CFM56-7B26E/F,CFM International,TF,5.1,27.7,117000,0.02,0.02,0.05,1.75,0.2,0.16,3.07,30.94,21.79,17.08,8.93,4.27,1.213,0.986,0.331,0.108,429.0,,,,
".
(** openap/data/engine/engines.csv:101-120 *)
Definition engines_5 : string := "3CM034,CFM56-7B27,CFM International,TF,5.0,28.63,121440,0.1,0.1,0.1,1.7,0.2,0.5,1.4,17.9,30.9,23.7,11.0,4.8,1.284,1.043,0.349,0.116,456.0,,,,
4CM043,CFM56-7B27/2,CFM International,TF,5.0,28.84,121440,0.05,0.06,4.21,5.56,0.54,1.97,24.28,38.73,20.81,15.59,7.53,4.36,1.265,1.033,0.351,0.115,453.0,,,,
8CM066,CFM56-7B27/3,CFM International,TF,5.1,29.0,121400,0.03,0.02,0.05,1.54,0.31,0.17,2.82,29.39,23.94,17.89,9.09,4.36,1.293,1.031,0.343,0.11,444.0,,,,
11CM080,CFM56-7B27AE,CFM International,TF,5.1,29.0,121400,0.03,0.02,0.05,1.54,0.31,0.17,2.82,29.39,23.94,17.89,9.09,4.36,1.293,1.031,0.343,0.11,444.0,,,,
11CM077,CFM56-7B27E,CFM International,TF,5.1,29.0,121400,0.03,0.02,0.05,1.54,0.31,0.17,2.82,29.39,23.94,17.89,9.09,4.36,1.293,1.031,0.343,0.11,444.0,,,,
11CM078,CFM56-7B27E/B1,CFM International,TF,5.1,29.0,121400,0.03,0.02,0.05,1.54,0.31,0.17,2.82,29.39,23.94,17.89,9.09,4.36,1.293,1.031,0.343,0.11,444.0,,,,
11CM082,CFM56-7B27E/B1F,CFM International,TF,5.1,29.0,121400,0.03,0.02,0.05,1.54,0.31,0.17,2.82,29.39,23.94,17.89,9.09,4.36,1.293,1.031,0.343,0.11,444.0,,,,
11CM079,CFM56-7B27E/B3,CFM International,TF,5.1,29.0,121400,0.03,0.02,0.05,1.54,0.31,0.17,2.82,29.39,23.94,17.89,9.09,4.36,1.293,1.031,0.343,0.11,444.0,,,,
11CM081,CFM56-7B27E/F,CFM International,TF,5.1,29.0,121400,0.03,0.02,0.05,1.54,0.31,0.17,2.82,29.39,23.94,17.89,9.09,4.36,1.293,1.031,0.343,0.11,444.0,,,,
20CM088,LEAP-1A24/24E1/23,CFM International,TF,11.3,30.0,106800,0.02,0.02,0.05,0.37,0.24,0.41,3.53,23.79,17.59,9.41,8.02,4.45,0.745,0.616,0.219,0.087,301.0,,,,
20CM089,LEAP-1A26/26E1,CFM International,TF,11.1,33.3,120600,0.02,0.02,0.04,0.29,0.24,0.26,2.65,21.63,30.8,13.38,8.75,4.61,0.861,0.71,0.244,0.091,330.0,,,,
20CM090,LEAP-1A35A/33/33B2/32/30,CFM International,TF,10.5,38.5,143100,0.05,0.02,0.04,0.21,0.3,0.24,1.79,18.68,59.74,32.35,9.95,4.85,1.062,0.869,0.284,0.098,380.0,,,,
20CM091,LEAP-1A26CJ,CFM International,TF,11.1,33.3,120600,0.02,0.02,0.04,0.29,0.24,0.26,2.65,21.63,30.8,13.38,8.75,4.61,0.861,0.71,0.244,0.091,330.0,,,,
20CM092,LEAP-1A29,CFM International,TF,10.7,35.5,130300,0.04,0.02,0.04,0.25,0.27,0.23,2.21,20.3,49.48,21.03,9.27,4.72,0.946,0.777,0.261,0.094,352.0,,,,
20CM093,LEAP-1A29CJ,CFM International,TF,10.7,35.5,130300,0.04,0.02,0.04,0.25,0.27,0.23,2.21,20.3,49.48,21.03,9.27,4.72,0.946,0.777,0.261,0.094,352.0,,,,
20CM094,LEAP-1B21,CFM International,TF,8.5,36.8,111300,0.04,0.04,0.05,0.71,0.15,0.16,1.49,16.19,30.39,17.53,10.26,4.74,0.877,0.722,0.245,0.089,330.0,,,,
20CM095,LEAP-1B23,CFM International,TF,8.5,37.9,115200,0.04,0.04,0.05,0.64,0.16,0.14,1.36,15.61,38.19,18.11,10.7,4.63,0.916,0.752,0.253,0.091,340.0,,,,
20CM096,LEAP-1B25,CFM International,TF,8.4,40.135,119200,0.04,0.04,0.05,0.59,0.17,0.14,1.25,15.27,48.9,20.35,11.1,4.57,0.96,0.784,0.26,0.091,348.0,,,,
20CM097,LEAP-1B28BBJ2,CFM International,TF,8.3,40.5,124700,0.05,0.04,0.05,0.51,0.17,0.14,1.11,14.4,55.26,23.26,11.59,4.59,1.014,0.826,0.273,0.095,365.0,,,,
20CM098,LEAP-1B27,CFM International,TF,8.3,40.5,124700,0.05,0.04,0.05,0.51,0.17,0.14,1.11,14.4,55.26,23.26,11.59,4.59,1.014,0.826,0.273,0.095,365.0,,,,
".
(** openap/data/engine/engines.csv:121-140 *)
Definition engines_6 : string := "20CM099,LEAP-1B28B2C,CFM International,TF,8.3,40.5,124700,0.05,0.04,0.05,0.51,0.17,0.14,1.11,14.4,55.26,23.26,11.59,4.59,1.014,0.826,0.273,0.095,365.0,,,,
20CM100,LEAP-1B28BBJ1,CFM International,TF,8.3,42.0,130400,0.05,0.04,0.05,0.46,0.18,0.15,0.99,13.77,64.36,29.59,11.92,4.68,1.075,0.873,0.285,0.097,380.0,,,,
20CM101,LEAP-1B28/28B2/28B1/28B3,CFM International,TF,8.3,42.0,130400,0.05,0.04,0.05,0.46,0.18,0.15,0.99,13.77,64.36,29.59,11.92,4.68,1.075,0.873,0.285,0.097,380.0,,,,
9EA001,GP7270,Engine Alliance,TF,8.71,36.62,332390,0.03,0.03,0.07,4.04,0.11,0.09,1.27,33.58,41.73,31.37,12.9,5.24,2.637,2.169,0.711,0.234,932.0,56194.0,,0.85,35000.0
11GE140,CF34-10A16,GE Aircraft Engines,TF,5.7,25.1,76900,0.06,0.08,0.14,6.96,0.49,0.34,3.98,52.05,17.87,15.04,7.97,3.45,0.765,0.632,0.219,0.083,298.0,,,,
11GE141,CF34-10A18,GE Aircraft Engines,TF,5.4,26.5,82100,0.05,0.08,0.13,5.67,0.66,0.36,3.43,47.29,19.47,16.72,8.26,3.58,0.826,0.684,0.232,0.086,315.0,,,,
8GE114,CF34-10E2A1,GE Aircraft Engines,TF,5.09,25.1,75440,0.04,0.05,0.1,5.44,0.41,0.38,4.46,50.81,17.98,15.26,7.64,3.56,0.769,0.64,0.222,0.084,301.0,,,,
8GE115,CF34-10E5,GE Aircraft Engines,TF,5.09,25.6,77400,0.04,0.06,0.09,5.15,0.43,0.38,4.18,49.4,18.51,15.62,7.76,3.59,0.792,0.659,0.227,0.085,307.0,,,,
8GE117,CF34-10E5A1,GE Aircraft Engines,TF,5.09,27.3,83700,0.01,0.05,0.06,4.3,0.52,0.39,3.37,44.93,20.45,16.88,8.14,3.72,0.871,0.72,0.244,0.088,328.0,,,,
8GE116,CF34-10E6,GE Aircraft Engines,TF,5.09,25.6,77400,0.04,0.06,0.09,5.15,0.43,0.38,4.18,49.4,18.51,15.62,7.76,3.59,0.792,0.659,0.227,0.085,307.0,,,,
8GE118,CF34-10E6A1,GE Aircraft Engines,TF,5.09,27.3,83700,0.01,0.05,0.06,4.3,0.52,0.39,3.37,44.93,20.45,16.88,8.14,3.72,0.871,0.72,0.244,0.088,328.0,,,,
8GE119,CF34-10E7,GE Aircraft Engines,TF,5.09,27.3,83700,0.01,0.05,0.06,4.3,0.52,0.39,3.37,44.93,20.45,16.88,8.14,3.72,0.871,0.72,0.244,0.088,328.0,,,,
11GE147,CF34-10E7-B,GE Aircraft Engines,TF,5.09,27.2,83700,0.05,0.09,0.1,4.02,0.89,0.77,4.02,41.73,19.68,16.22,7.94,3.69,0.87,0.717,0.239,0.088,326.0,,,,
1GE034,CF34-3A,GE Aircraft Engines,TF,6.25,19.7,41010,0.06,0.06,0.13,3.95,0.0,0.0,1.9,42.6,11.61,10.14,6.86,3.82,0.407,0.3343,0.119,0.0496,167.0,,,,
1GE035,CF34-3A1,GE Aircraft Engines,TF,6.25,19.7,41010,0.06,0.06,0.13,3.95,0.0,0.0,1.9,42.6,11.61,10.14,6.86,3.82,0.407,0.3343,0.119,0.0496,167.0,,,,
5GE084,CF34-3B,GE Aircraft Engines,TF,6.25,19.3,41010,0.06,0.05,0.13,4.69,0.0,0.0,1.88,47.59,11.28,9.68,6.63,3.72,0.3991,0.3288,0.116,0.0489,164.0,,,,
6GE096,CF34-8C1,GE Aircraft Engines,TF,5.13,22.15,56360,0.02,0.03,0.07,0.13,0.59,0.57,4.67,19.73,13.82,12.0,9.85,4.03,0.608,0.479,0.1702,0.0703,239.0,,,,
8GE110,CF34-8C5,GE Aircraft Engines,TF,5.13,23.09,59420,0.02,0.02,0.06,0.13,0.64,0.57,4.24,18.25,14.69,12.6,10.75,4.6,0.648,0.53,0.179,0.064,240.0,,,,
8GE107,CF34-8C5A1,GE Aircraft Engines,TF,5.13,23.49,60620,0.02,0.02,0.06,0.13,0.66,0.57,4.17,17.85,15.09,12.82,10.87,4.65,0.665,0.543,0.183,0.065,245.0,,,,
8GE104,CF34-8C5A2,GE Aircraft Engines,TF,5.13,24.12,62490,0.02,0.02,0.06,0.13,0.71,0.57,4.05,17.3,15.81,13.15,11.06,4.7,0.691,0.563,0.188,0.066,251.0,,,,
".
(** openap/data/engine/engines.csv:141-160 *)
Definition engines_7 : string := "8GE103,CF34-8C5A3,GE Aircraft Engines,TF,5.13,24.82,64530,0.02,0.02,0.06,0.12,0.77,0.57,3.92,16.71,16.71,13.52,11.09,4.76,0.721,0.586,0.193,0.067,259.0,,,,
8GE112,CF34-8C5B1,GE Aircraft Engines,TF,5.13,22.08,56350,0.02,0.03,0.07,0.16,0.6,0.58,4.44,19.52,13.89,12.03,10.42,4.5,0.606,0.497,0.171,0.063,230.0,,,,
8GE113,CF34-8E2,GE Aircraft Engines,TF,5.13,21.71,55190,0.02,0.03,0.07,0.16,0.59,0.58,4.52,20.01,13.6,11.82,10.29,4.45,0.591,0.485,0.168,0.062,226.0,,,,
8GE111,CF34-8E2A1,GE Aircraft Engines,TF,5.13,23.0,59150,0.02,0.02,0.06,0.14,0.64,0.57,4.26,18.36,14.61,12.55,10.72,4.59,0.644,0.527,0.179,0.064,240.0,,,,
8GE108,CF34-8E5,GE Aircraft Engines,TF,5.13,23.18,59680,0.02,0.02,0.06,0.13,0.64,0.57,4.23,18.16,14.77,12.65,10.77,4.61,0.652,0.533,0.18,0.064,241.0,,,,
8GE105,CF34-8E5A1,GE Aircraft Engines,TF,5.13,24.12,62490,0.02,0.02,0.06,0.13,0.71,0.57,4.05,17.3,15.81,13.15,11.06,4.7,0.691,0.563,0.188,0.066,251.0,,,,
8GE102,CF34-8E5A2,GE Aircraft Engines,TF,5.13,24.82,64530,0.02,0.02,0.06,0.12,0.77,0.57,3.92,16.71,16.71,13.52,11.09,4.76,0.721,0.586,0.193,0.067,259.0,,,,
8GE109,CF34-8E6,GE Aircraft Engines,TF,5.13,23.18,59680,0.02,0.02,0.06,0.13,0.64,0.57,4.23,18.16,14.77,12.65,10.77,4.61,0.652,0.533,0.18,0.064,241.0,,,,
8GE106,CF34-8E6A1,GE Aircraft Engines,TF,5.13,24.12,62490,0.02,0.02,0.06,0.13,0.71,0.57,4.05,17.3,15.81,13.15,11.06,4.7,0.691,0.563,0.188,0.066,251.0,,,,
3GE067,CF6-45A,GE Aircraft Engines,TF,4.3,25.38,202800,0.09,0.14,0.35,2.72,0.43,0.54,5.01,24.04,25.45,21.61,9.36,3.4,2.027,1.663,0.592,0.163,701.0,50042.0,0.0178,0.8,35000.0
3GE068,CF6-45A2,GE Aircraft Engines,TF,4.3,25.38,202800,0.09,0.14,0.35,2.72,0.43,0.54,5.01,24.04,25.45,21.61,9.36,3.4,2.027,1.663,0.592,0.163,701.0,50042.0,0.0178,0.8,35000.0
3GE069,CF6-50A,GE Aircraft Engines,TF,4.3,26.88,215300,0.15,0.14,0.31,2.72,0.43,0.49,4.35,24.04,27.17,23.27,9.72,3.4,2.168,1.787,0.625,0.163,731.0,,,,
3GE070,CF6-50C,GE Aircraft Engines,TF,4.3,27.76,224200,0.14,0.14,0.29,2.72,0.44,0.46,3.99,24.04,28.03,24.3,10.09,3.4,2.281,1.875,0.641,0.163,751.0,49375.0,0.0186,0.8,35000.0
3GE073,CF6-50C1,GE Aircraft Engines,TF,4.3,28.44,230400,0.14,0.15,0.28,2.72,0.45,0.45,3.71,24.04,28.97,25.5,10.16,3.4,2.361,1.94,0.663,0.163,769.0,51399.0,0.0186,0.8,35000.0
1GE007,""CF6-50C1, -C2"",GE Aircraft Engines,TF,4.3,29.8,230400,0.6,0.7,1.0,21.8,0.5,0.5,4.3,61.8,36.3,29.7,9.5,3.6,2.487,1.975,0.66,0.215,859.0,,,,
3GE074,CF6-50C2,GE Aircraft Engines,TF,4.3,28.44,230400,0.14,0.15,0.28,2.72,0.45,0.45,3.71,24.04,28.97,25.5,10.16,3.4,2.361,1.94,0.663,0.163,769.0,51399.0,0.0178,0.8,35000.0
3GE078,CF6-50C2B,GE Aircraft Engines,TF,4.3,29.06,236700,0.13,0.15,0.26,2.72,0.46,0.44,3.42,24.04,29.59,26.34,10.49,3.4,2.41,1.997,0.667,0.163,779.0,51399.0,0.0178,0.8,35000.0
3GE072,CF6-50C2R,GE Aircraft Engines,TF,4.3,27.76,224200,0.14,0.14,0.29,2.72,0.44,0.46,3.99,24.04,28.03,24.3,10.09,3.4,2.281,1.875,0.641,0.163,751.0,,,,
3GE071,CF6-50CA,GE Aircraft Engines,TF,4.3,27.76,224200,0.14,0.14,0.29,2.72,0.44,0.46,3.99,24.04,28.03,24.3,10.09,3.4,2.281,1.875,0.641,0.163,751.0,,,,
3GE075,CF6-50E,GE Aircraft Engines,TF,4.3,28.44,230400,0.14,0.15,0.28,2.72,0.45,0.45,3.71,24.04,28.97,25.5,10.16,3.4,2.361,1.94,0.663,0.163,769.0,51399.0,0.0186,0.8,35000.0
".
(** openap/data/engine/engines.csv:161-180 *)
Definition engines_8 : string := "3GE076,CF6-50E1,GE Aircraft Engines,TF,4.3,28.44,230400,0.14,0.15,0.28,2.72,0.45,0.45,3.71,24.04,28.97,25.5,10.16,3.4,2.361,1.94,0.663,0.163,769.0,51399.0,0.0186,0.8,35000.0
3GE077,CF6-50E2,GE Aircraft Engines,TF,4.3,28.44,230400,0.14,0.15,0.28,2.72,0.45,0.45,3.71,24.04,28.97,25.5,10.16,3.4,2.361,1.94,0.663,0.163,769.0,51399.0,0.0178,0.8,35000.0
3GE079,CF6-50E2B,GE Aircraft Engines,TF,4.3,29.06,236700,0.13,0.15,0.26,2.72,0.46,0.44,3.42,24.04,29.59,26.34,10.49,3.4,2.41,1.997,0.667,0.163,779.0,52177.0,0.0178,0.8,35000.0
1GE001,CF6-6D,GE Aircraft Engines,TF,5.9,24.7,174800,0.3,0.3,0.7,21.0,0.5,0.5,6.5,54.2,40.0,32.6,11.4,4.5,1.736,1.431,0.4839,0.1728,648.0,40389.0,0.0183,0.8,35000.0
1GE002,CF6-6D1A,GE Aircraft Engines,TF,5.9,25.4,181900,0.3,0.3,0.6,19.9,0.5,0.5,5.5,52.0,41.6,33.9,11.8,4.6,1.812,1.502,0.494,0.176,667.0,41012.0,0.0183,0.8,35000.0
1GE003,CF6-6K,GE Aircraft Engines,TF,5.9,24.7,174800,0.3,0.3,0.7,21.0,0.5,0.5,6.5,54.2,40.0,32.6,11.4,4.5,1.736,1.431,0.4839,0.1728,648.0,,,,
1GE004,CF6-6K2,GE Aircraft Engines,TF,5.9,25.4,181900,0.3,0.3,0.6,19.9,0.5,0.5,5.5,52.0,41.6,33.9,11.8,4.6,1.812,1.502,0.494,0.176,667.0,,,,
1GE010,CF6-80A,GE Aircraft Engines,TF,5.0,29.0,208800,0.29,0.29,0.47,6.29,1.0,1.1,3.1,28.2,29.8,25.6,10.3,3.4,2.145,1.795,0.615,0.15,709.0,49130.0,0.0176,0.8,35000.0
1GE011,CF6-80A1,GE Aircraft Engines,TF,5.0,29.0,209000,0.29,0.29,0.47,6.29,1.0,1.1,3.1,28.2,29.8,25.6,10.3,3.4,2.145,1.795,0.615,0.15,709.0,49130.0,0.0176,0.8,35000.0
1GE012,CF6-80A2,GE Aircraft Engines,TF,5.0,30.1,216500,0.3,0.37,0.45,6.28,1.0,1.1,2.8,28.2,29.6,26.6,10.8,3.4,2.254,1.885,0.641,0.15,731.0,49130.0,0.0176,0.8,35000.0
1GE013,CF6-80A3,GE Aircraft Engines,TF,5.0,30.1,217800,0.3,0.37,0.45,6.28,1.0,1.1,2.8,28.2,29.6,26.6,10.8,3.4,2.254,1.885,0.641,0.15,731.0,49130.0,0.0176,0.8,35000.0
2GE036,CF6-80C2A1,GE Aircraft Engines,TF,5.1,30.53,257399,0.05,0.05,0.12,1.59,0.05,0.04,2.05,19.76,26.55,20.45,12.43,4.68,2.453,1.989,0.651,0.201,835.0,52533.0,0.0163,0.8,35000.0
2GE037,CF6-80C2A2,GE Aircraft Engines,TF,5.1,27.79,233350,0.05,0.05,0.12,1.9,0.04,0.05,2.56,21.97,22.35,18.37,11.86,4.49,2.152,1.771,0.59,0.192,765.0,50398.0,0.0164,0.8,35000.0
2GE038,CF6-80C2A3,GE Aircraft Engines,TF,5.1,31.09,262220,0.04,0.05,0.11,1.54,0.06,0.04,1.98,19.32,27.68,21.05,12.48,4.72,2.516,2.041,0.662,0.203,851.0,50442.0,0.0163,0.8,35000.0
2GE039,CF6-80C2A5,GE Aircraft Engines,TF,5.1,31.66,267340,0.04,0.05,0.11,1.48,0.06,0.04,1.91,18.89,28.57,21.69,12.53,4.76,2.58,2.096,0.672,0.205,866.0,,,,
3GE056,CF6-80C2A5F,GE Aircraft Engines,TF,5.1,32.88,271880,0.05,0.04,0.11,1.18,0.05,0.04,1.92,16.96,28.11,21.27,12.64,4.9,2.63,2.106,0.691,0.22,897.0,,,,
2GE040,CF6-80C2A8,GE Aircraft Engines,TF,5.1,30.45,257370,0.05,0.05,0.12,1.59,0.05,0.04,2.05,19.76,26.42,20.45,12.43,4.68,2.444,1.989,0.651,0.201,835.0,,,,
2GE041,CF6-80C2B1,GE Aircraft Engines,TF,5.1,29.53,249010,0.05,0.05,0.12,1.71,0.04,0.04,2.18,20.62,24.93,19.68,12.32,4.6,2.34,1.922,0.63,0.197,811.0,57026.0,0.0163,0.8,35000.0
2GE045,CF6-80C2B1F,GE Aircraft Engines,TF,5.1,30.13,254260,0.05,0.05,0.11,1.54,0.04,0.04,2.13,19.23,24.94,19.72,12.47,4.73,2.422,1.983,0.65,0.199,830.0,57026.0,0.016,0.8,35000.0
2GE042,CF6-80C2B2,GE Aircraft Engines,TF,5.1,27.53,231080,0.05,0.05,0.12,1.97,0.04,0.05,2.61,22.41,22.02,18.25,11.79,4.45,2.124,1.756,0.585,0.19,758.0,53378.0,0.0163,0.8,35000.0
".
(** openap/data/engine/engines.csv:181-200 *)
Definition engines_9 : string := "2GE046,CF6-80C2B2F,GE Aircraft Engines,TF,5.1,27.6,231350,0.05,0.05,0.12,1.86,0.04,0.06,2.64,21.56,21.55,18.09,11.8,4.52,2.148,1.777,0.593,0.188,760.0,,,,
2GE043,CF6-80C2B4,GE Aircraft Engines,TF,5.1,30.14,254350,0.05,0.05,0.12,1.59,0.05,0.04,2.12,19.76,25.93,20.17,12.37,4.68,2.409,1.965,0.641,0.201,828.0,,,,
2GE047,CF6-80C2B4F,GE Aircraft Engines,TF,5.1,30.22,254790,0.05,0.05,0.11,1.54,0.04,0.04,2.13,19.23,25.08,19.72,12.47,4.73,2.432,1.983,0.65,0.199,830.0,,,,
3GE057,CF6-80C2B5F,GE Aircraft Engines,TF,5.1,32.82,272530,0.05,0.05,0.11,1.31,0.05,0.04,1.83,17.45,28.58,21.76,12.74,4.91,2.685,2.162,0.697,0.206,887.0,,,,
2GE044,CF6-80C2B6,GE Aircraft Engines,TF,5.1,31.66,267200,0.04,0.05,0.11,1.48,0.06,0.04,1.91,18.89,28.57,21.69,12.53,4.76,2.58,2.096,0.672,0.205,866.0,,,,
2GE048,CF6-80C2B6F,GE Aircraft Engines,TF,5.1,31.72,267030,0.05,0.05,0.11,1.43,0.05,0.04,1.93,18.42,27.38,21.05,12.63,4.81,2.594,2.104,0.682,0.203,867.0,,,,
2GE055,CF6-80C2B7F,GE Aircraft Engines,TF,5.1,31.72,267030,0.05,0.05,0.11,1.43,0.05,0.04,1.93,18.42,27.38,21.05,12.63,4.81,2.594,2.104,0.682,0.203,867.0,,,,
8GE101,CF6-80C2B8F,GE Aircraft Engines,TF,5.1,31.37,267000,0.04,0.04,0.09,1.14,0.03,0.02,1.69,16.69,26.85,20.84,12.42,4.59,2.583,2.106,0.685,0.205,870.0,,,,
3GE058,CF6-80C2B8FA,GE Aircraft Engines,TF,5.1,31.71,267020,0.05,0.05,0.11,1.41,0.05,0.04,1.97,18.27,26.9,20.85,12.63,4.83,2.605,2.117,0.688,0.205,874.0,,,,
2GE049,CF6-80C2D1F,GE Aircraft Engines,TF,5.1,32.05,269960,0.04,0.05,0.11,1.38,0.05,0.04,1.9,18.02,28.12,21.3,12.66,4.85,2.629,2.126,0.688,0.205,876.0,,,,
2GE050,CF6-80E1A1,GE Aircraft Engines,TF,5.1,32.46,281530,0.05,0.04,0.11,1.3,0.05,0.04,1.92,17.64,27.59,21.44,12.61,4.87,2.702,2.199,0.714,0.226,928.0,,,,
2GE051,CF6-80E1A2,GE Aircraft Engines,TF,5.1,33.1,287040,0.04,0.04,0.11,1.25,0.05,0.04,1.85,17.37,28.72,22.01,12.66,4.88,2.767,2.245,0.724,0.228,942.0,,,,
5GE085,CF6-80E1A3,GE Aircraft Engines,TF,5.1,35.7,304800,0.07,0.07,0.18,9.53,0.34,0.31,1.23,37.02,45.63,31.74,10.29,4.69,2.989,2.387,0.755,0.227,976.0,,,,
4GE081,CF6-80E1A4,GE Aircraft Engines,TF,5.1,34.5,297440,0.04,0.04,0.09,0.92,0.04,0.02,1.44,15.05,31.28,23.54,12.66,4.77,2.904,2.337,0.744,0.227,963.0,,,,
21GE182,GE90-110B1,GE Aircraft Engines,TF,7.3,40.36,492600,0.029,0.024,0.053,3.865,0.128,0.143,2.499,35.724,45.247,34.387,15.53,5.421,4.226,3.375,1.029,0.334,1390.992,,,,
21GE183,GE90-113B,GE Aircraft Engines,TF,7.2,41.81,504900,0.031,0.024,0.05,3.726,0.126,0.14,2.295,35.036,48.351,35.53,15.9,5.475,4.43,3.484,1.054,0.338,1426.188,,,,
21GE184,GE90-115B,GE Aircraft Engines,TF,7.1,42.94,513900,0.032,0.024,0.048,3.636,0.125,0.137,2.16,34.578,51.068,36.44,16.166,5.511,4.6,3.566,1.073,0.341,1453.392,,,,
9GE124,GE90-76B,GE Aircraft Engines,TF,8.53,35.5,363220,0.03,0.03,0.07,3.21,0.31,0.32,2.77,34.12,40.25,32.43,13.76,5.1,2.796,2.281,0.738,0.258,999.0,77843.0,0.0154,0.83,35000.0
9GE125,GE90-77B,GE Aircraft Engines,TF,8.52,35.8,366750,0.03,0.03,0.07,3.16,0.31,0.32,2.71,33.81,40.83,32.78,13.87,5.12,2.83,2.309,0.745,0.26,1007.0,,,,
9GE126,GE90-85B,GE Aircraft Engines,TF,8.41,38.16,397210,0.04,0.03,0.06,2.8,0.3,0.31,2.16,31.34,45.54,36.35,14.77,5.33,3.131,2.553,0.804,0.271,1085.0,77843.0,0.0147,0.83,35000.0
".
(** openap/data/engine/engines.csv:201-220 *)
Definition engines_10 : string := "9GE127,GE90-90B,GE Aircraft Engines,TF,8.36,39.85,419250,0.04,0.03,0.06,2.59,0.3,0.31,1.88,29.89,49.21,39.07,15.44,5.48,3.38,2.735,0.852,0.28,1144.0,,,,
3GE066,GE90-92B,GE Aircraft Engines,TF,8.33,40.6,426720,0.04,0.04,0.07,0.37,0.15,0.15,0.94,12.35,55.9,40.51,17.74,5.92,3.515,2.844,0.917,0.304,1217.0,,,,
9GE128,GE90-94B,GE Aircraft Engines,TF,8.33,40.82,430920,0.04,0.03,0.06,2.49,0.3,0.31,1.74,29.23,51.33,40.63,15.81,5.55,3.513,2.831,0.876,0.284,1175.0,,,,
11GE134,GEnx-1B54,GE Aircraft Engines,TF,9.4,35.2,255300,0.02,0.02,0.08,1.34,0.36,1.55,4.18,26.1,14.96,9.18,8.07,3.98,1.878,1.553,0.523,0.184,696.0,,,,
11GE135,GEnx-1B58,GE Aircraft Engines,TF,9.2,37.2,271300,0.02,0.02,0.07,1.11,0.25,0.87,3.69,24.31,18.04,11.02,8.41,4.08,2.019,1.667,0.554,0.19,734.0,,,,
11GE136,GEnx-1B64,GE Aircraft Engines,TF,9.0,40.6,298000,0.02,0.02,0.06,0.81,0.18,0.38,2.99,21.62,24.82,14.61,9.03,4.24,2.265,1.861,0.604,0.199,796.0,,,,
11GE137,GEnx-1B67,GE Aircraft Engines,TF,8.9,41.9,308700,0.02,0.02,0.06,0.72,0.17,0.3,2.76,20.7,28.56,16.26,9.29,4.3,2.368,1.94,0.625,0.203,822.0,,,,
11GE138,GEnx-1B70,GE Aircraft Engines,TF,8.8,43.5,321600,0.02,0.02,0.06,0.63,0.17,0.24,2.49,19.68,34.06,18.48,9.63,4.37,2.494,2.037,0.65,0.208,854.0,,,,
11GE139,GEnx-2B67,GE Aircraft Engines,TF,8.0,42.4,299800,0.02,0.02,0.06,0.57,0.17,0.28,2.53,18.95,31.2,17.94,9.58,4.43,2.451,2.012,0.701,0.216,874.0,,,,
12GE148,GEnx-1B54/P1,GE Aircraft Engines,TF,9.4,35.1,255300,0.02,0.02,0.08,1.02,0.34,1.43,4.09,23.61,15.72,9.71,8.13,4.11,1.893,1.569,0.536,0.195,719.0,,,,
12GE149,GEnx-1B58/P1,GE Aircraft Engines,TF,9.2,37.1,271300,0.02,0.02,0.07,0.84,0.24,0.8,3.6,21.97,18.86,11.67,8.48,4.22,2.033,1.683,0.567,0.2,756.0,,,,
12GE150,GEnx-1B64/P1,GE Aircraft Engines,TF,9.0,40.5,298000,0.02,0.02,0.06,0.64,0.18,0.36,2.91,19.73,25.74,15.36,9.11,4.37,2.278,1.876,0.618,0.21,819.0,,,,
12GE151,GEnx-1B67/P1,GE Aircraft Engines,TF,8.9,41.9,308700,0.02,0.02,0.06,0.58,0.18,0.29,2.68,18.94,29.34,17.04,9.39,4.43,2.38,1.954,0.639,0.214,845.0,,,,
12GE152,GEnx-1B70/P1,GE Aircraft Engines,TF,8.8,43.5,321600,0.02,0.02,0.055,0.52,0.17,0.235,2.42,18.05,34.61,19.3,9.73,4.5,2.505,2.051,0.664,0.219,876.0,,,,
12GE153,GEnx-1B70/72/P1,GE Aircraft Engines,TF,8.8,43.5,321600,0.02,0.02,0.055,0.52,0.17,0.235,2.42,18.05,34.61,19.3,9.73,4.5,2.505,2.051,0.664,0.219,876.0,,,,
12GE154,GEnx-1B70/75/P1,GE Aircraft Engines,TF,8.8,43.5,321600,0.02,0.02,0.055,0.52,0.17,0.235,2.42,18.05,34.61,19.3,9.73,4.5,2.505,2.051,0.664,0.219,876.0,,,,
12GE155,GEnx-1B74/75/P1,GE Aircraft Engines,TF,8.8,46.0,341200,0.03,0.02,0.05,0.44,0.17,0.19,2.09,16.86,44.96,23.36,10.3,4.61,2.709,2.202,0.703,0.226,926.0,,,,
12GE156,GEnx-1B75/P1,GE Aircraft Engines,TF,8.8,46.5,345200,0.03,0.02,0.05,0.43,0.17,0.19,2.03,16.63,47.53,24.34,10.42,4.64,2.753,2.234,0.711,0.227,936.0,,,,
13GE157,GEnx-2B67B,GE Aircraft Engines,TF,8.0,42.4,299800,0.02,0.02,0.06,0.57,0.17,0.28,2.53,18.95,31.2,17.94,9.58,4.43,2.451,2.012,0.701,0.216,874.0,,,,
17GE170,GEnx-1B54/P2,GE Aircraft Engines,TF,9.39,35.5,255300,0.02,0.02,0.06,0.58,0.32,1.73,2.81,16.39,17.22,11.54,9.27,4.66,1.88,1.554,0.527,0.203,727.0,,,,
".
(** openap/data/engine/engines.csv:221-240 *)
Definition engines_11 : string := "17GE171,GEnx-1B58/P2,GE Aircraft Engines,TF,9.24,37.5,271300,0.02,0.02,0.05,0.58,0.18,0.93,2.52,16.39,20.43,13.27,9.67,4.66,2.023,1.668,0.558,0.203,756.0,,,,
17GE172,GEnx-1B64/P2,GE Aircraft Engines,TF,9.01,40.9,298000,0.02,0.02,0.05,0.56,0.09,0.34,2.11,16.13,27.12,16.85,10.39,4.69,2.273,1.863,0.609,0.204,806.0,,,,
17GE173,GEnx-1B67/P2,GE Aircraft Engines,TF,8.92,42.2,308700,0.02,0.02,0.05,0.5,0.08,0.24,1.97,15.49,30.32,18.57,10.67,4.76,2.376,1.943,0.629,0.209,833.0,,,,
17GE174,GEnx-1B70/72/P2,GE Aircraft Engines,TF,8.81,43.9,321600,0.02,0.02,0.05,0.44,0.06,0.17,1.82,14.78,34.77,20.87,11.02,4.85,2.504,2.042,0.654,0.213,865.0,,,,
17GE175,GEnx-1B70/75/P2,GE Aircraft Engines,TF,8.81,43.9,321600,0.02,0.02,0.05,0.44,0.06,0.17,1.82,14.78,34.77,20.87,11.02,4.85,2.504,2.042,0.654,0.213,865.0,,,,
17GE176,GEnx-1B70/P2,GE Aircraft Engines,TF,8.81,43.9,321600,0.02,0.02,0.05,0.44,0.06,0.17,1.82,14.78,34.77,20.87,11.02,4.85,2.504,2.042,0.654,0.213,865.0,,,,
17GE177,GEnx-1B74/75/P2,GE Aircraft Engines,TF,8.65,46.4,341200,0.02,0.02,0.04,0.38,0.05,0.11,1.61,13.8,42.71,24.9,11.56,4.99,2.704,2.196,0.693,0.221,914.0,,,,
17GE178,GEnx-1B75/P2,GE Aircraft Engines,TF,8.62,47.0,345200,0.03,0.02,0.04,0.37,0.05,0.1,1.57,13.62,44.61,25.83,11.67,5.01,2.746,2.229,0.701,0.222,924.0,,,,
17GE179,GEnx-1B76/P2,GE Aircraft Engines,TF,8.59,47.5,349200,0.03,0.02,0.04,0.36,0.05,0.09,1.53,13.44,46.9,26.78,11.78,5.04,2.79,2.262,0.709,0.223,934.0,,,,
17GE180,GEnx-1B76A/P2,GE Aircraft Engines,TF,8.59,47.5,349200,0.03,0.02,0.04,0.36,0.05,0.09,1.53,13.44,46.9,26.78,11.78,5.04,2.79,2.262,0.709,0.223,934.0,,,,
17GE181,GEnx-2B67/P,GE Aircraft Engines,TF,8.03,43.55,299810,0.02,0.02,0.04,0.41,0.07,0.17,1.78,14.28,34.21,21.1,11.11,4.92,2.453,2.009,0.642,0.219,864.0,,,,
21GE185,Passport20-19BB1A,GE Aircraft Engines,MTF,5.89322,41.39806750136091,84159,0.0139345950270348,0.0098785822315869,0.0166878893031197,0.0402231703208704,0.290270759392491,0.299115735767782,1.2178408026797611,11.027536326711951,37.60046480523373,28.76153228514244,14.810748797410362,6.54923068585615,0.8011861958573865,0.6573682640192968,0.2279468167353608,0.0783289435619542,297.3228190496927,,,,
11HN003,HTF7000,Honeywell,MTF,4.2,21.95,30620,0.05,0.06,0.12,1.26,0.56,0.63,6.28,33.24,17.9,16.17,8.81,3.91,0.347,0.288,0.104,0.048,152.0,,,,
11HN005,HTF7250G,Honeywell,MTF,4.2,22.58,32860,0.05,0.06,0.12,0.99,0.57,0.6,6.07,30.48,18.43,16.44,8.96,3.965,0.372,0.308,0.107,0.049,158.0,,,,
14HN009,HTF7350,Honeywell,MTF,4.2,22.88,33000,0.05,0.06,0.12,1.0,0.58,0.59,5.98,30.9,18.79,16.64,9.03,3.98,0.373,0.309,0.107,0.048,157.0,,,,
14HN008,HTF7500E,Honeywell,MTF,4.2,23.57,33830,0.05,0.06,0.12,0.84,0.56,0.57,5.7,28.08,19.06,16.88,9.23,4.04,0.378,0.312,0.108,0.05,161.0,,,,
18HN010,HTF7700L,Honeywell,MTF,4.2,23.29,34030,0.05,0.06,0.11,0.95,0.6,0.58,5.72,29.62,19.4,16.96,9.21,4.01,0.386,0.319,0.109,0.048,159.0,,,,
1IA001,V2500-A1,International Aero Engines,MTF,5.3,29.8,111200,0.1,0.11,0.15,0.22,0.55,0.55,0.77,7.76,37.13,30.82,13.45,5.91,1.113,0.924,0.334,0.124,442.0,,,,
10IA011,V2522-A5,International Aero Engines,MTF,4.9,25.7,102500,0.03,0.04,0.07,0.14,0.43,0.44,2.55,12.49,21.34,18.33,9.32,5.09,0.971,0.815,0.31,0.13,425.0,,,,
10IA012,V2524-A5,International Aero Engines,MTF,4.8,27.0,108900,0.03,0.04,0.07,0.14,0.42,0.44,2.28,12.03,22.96,19.25,9.69,5.18,1.04,0.867,0.326,0.133,444.0,,,,
".
(** openap/data/engine/engines.csv:241-260 *)
Definition engines_12 : string := "1IA002,V2525-D5,International Aero Engines,MTF,4.82,27.2,111200,0.041,0.041,0.061,0.105,0.53,0.62,2.44,12.43,26.5,22.3,8.9,4.7,1.053,0.88,0.319,0.128,437.0,,,,
10IA013,V2527-A5,International Aero Engines,MTF,4.8,27.1,110300,0.03,0.03,0.07,0.14,0.42,0.44,2.25,11.96,23.18,19.36,9.74,5.19,1.049,0.873,0.328,0.134,447.0,,,,
10IA014,V2527-A5E,International Aero Engines,MTF,4.8,27.1,110300,0.03,0.03,0.07,0.14,0.42,0.44,2.25,11.96,23.18,19.36,9.74,5.19,1.049,0.873,0.328,0.134,447.0,,,,
10IA015,V2527-A5M,International Aero Engines,MTF,4.8,27.1,110300,0.03,0.03,0.07,0.14,0.42,0.44,2.25,11.96,23.18,19.36,9.74,5.19,1.049,0.873,0.328,0.134,447.0,,,,
8IA010,V2527E-A5,International Aero Engines,MTF,4.82,27.2,111200,0.04,0.04,0.06,0.11,0.53,0.62,2.44,12.43,26.5,22.3,8.9,4.7,1.053,0.88,0.319,0.128,437.0,,,,
8IA009,V2527M-A5,International Aero Engines,MTF,4.82,27.2,111200,0.04,0.04,0.06,0.11,0.53,0.62,2.44,12.43,26.5,22.3,8.9,4.7,1.053,0.88,0.319,0.128,437.0,,,,
1IA004,V2528-D5,International Aero Engines,MTF,4.66,30.0,124500,0.043,0.041,0.058,0.102,0.47,0.56,2.03,11.53,30.5,25.1,9.6,4.9,1.209,0.996,0.353,0.134,476.0,,,,
10IA016,V2530-A5,International Aero Engines,MTF,4.6,32.0,133000,0.02,0.03,0.06,0.12,0.39,0.41,1.65,10.45,31.43,23.92,10.92,5.52,1.325,1.078,0.387,0.145,517.0,,,,
10IA017,V2533-A5,International Aero Engines,MTF,4.5,33.7,140600,0.01,0.02,0.06,0.12,0.38,0.41,1.54,10.12,35.43,25.65,11.24,5.6,1.433,1.142,0.405,0.147,537.0,,,,
14IA018,V2531-E5,International Aero Engines,MTF,4.52,32.3,134800,0.01,0.02,0.09,0.07,0.39,0.41,1.57,10.17,32.17,24.28,11.14,5.58,1.329,1.079,0.391,0.144,517.0,,,,
1KK001,NK-8-2U,KKBM,MTF,1.24,10.8,103000,0.45,0.55,5.0,103.8,5.5,6.0,21.0,116.0,13.9,12.9,5.4,2.7,1.75,1.17,0.58,0.24,742.0,,,,
1KK003,NK-86,KKBM,MTF,1.33,13.4,127530,0.5,0.6,1.2,52.0,3.9,4.2,9.3,54.4,12.8,12.1,5.1,2.7,2.4,1.6,0.58,0.21,779.0,,,,
1KK004,NK-86A,KKBM,MTF,1.13,13.2,130470,0.2,0.2,2.2,15.3,1.8,2.2,7.8,38.0,15.7,12.4,5.8,3.1,2.05,1.7,0.6,0.235,821.0,,,,
1KK005,NK-86MA,KKBM,MTF,1.13,13.2,130470,0.16,0.13,0.3,4.6,1.55,1.9,5.9,29.8,13.0,9.4,3.9,2.3,2.05,1.7,0.6,0.235,821.0,,,,
11PJ001,SaM146-1S17,PowerJet S.A.,MTF,4.44,21.85,69210,0.03,0.04,0.06,1.05,0.26,0.36,5.07,29.36,16.37,13.89,7.1,3.73,0.791,0.653,0.228,0.097,326.0,,,,
11PJ002,SaM146-1S18,PowerJet S.A.,MTF,4.38,22.8,72670,0.02,0.04,0.06,0.82,0.3,0.3,4.67,27.55,17.36,14.52,7.28,3.82,0.841,0.691,0.238,0.1,339.3,,,,
1PW035,JT15D-1,Pratt & Whitney Canada,TF,3.3,9.76,9790,0.01,0.01,4.43,50.5,2.65,3.5,40.5,132.0,7.6,6.77,3.44,1.75,0.148,0.124,0.051,0.023,71.0,,,,
1PW036,JT15D-4,Pratt & Whitney Canada,TF,2.68,10.1,11120,0.09,0.19,5.15,40.0,2.1,3.18,32.0,97.0,9.23,8.56,5.29,2.63,0.1697,0.143,0.059,0.0261,81.0,,,,
1PW037,""JT15D-5, -5A, -5B"",Pratt & Whitney Canada,TF,2.1,12.3,12900,0.0,1.3,11.7,119.1,0.0,1.15,38.6,119.2,11.13,10.08,4.93,1.66,0.2054,0.1727,0.066,0.0296,93.0,,,,
1PW038,JT15D-5C,Pratt & Whitney Canada,TF,2.1,13.3,14190,0.0,0.67,16.0,96.67,2.52,4.18,49.24,124.6,9.93,9.79,5.23,1.08,0.2151,0.1802,0.0678,0.0276,92.0,,,,
".
(** openap/data/engine/engines.csv:261-280 *)
Definition engines_13 : string := "1PW001,JT3D-3B,Pratt & Whitney,TF,1.4,13.6,80060,4.0,2.0,4.0,112.0,1.5,2.8,24.5,98.0,12.1,9.9,4.8,2.5,1.174,0.932,0.346,0.135,466.0,,,,
1PW002,JT3D-7,Pratt & Whitney,TF,1.4,13.4,84520,0.5,0.4,2.1,123.0,0.89,1.9,19.5,138.99,12.69,9.59,5.3,2.2,1.254,1.032,0.389,0.128,482.0,,,,
1PW008,JT8D-11,Pratt & Whitney,MTF,1.0,17.17,66720,0.4,0.45,1.4,10.0,1.2,1.9,9.4,35.0,18.9,14.6,5.8,2.75,1.121,0.9136,0.3339,0.1455,475.0,21129.0,0.0228,0.8,30000.0
1PW010,JT8D-15,Pratt & Whitney,MTF,1.03,16.81,68940,0.24,0.28,0.55,1.46,1.03,1.15,2.77,11.0,19.4,15.1,6.9,3.2,1.178,0.945,0.3402,0.1477,486.0,21885.0,0.0229,0.8,30000.0
1PW011,JT8D-15A,Pratt & Whitney,MTF,1.08,16.45,68940,0.25,0.33,0.65,1.86,1.08,1.2,2.9,12.93,18.1,13.9,6.6,3.1,1.115,0.8955,0.312,0.1372,454.0,21885.0,0.0229,0.8,30000.0
1PW013,JT8D-17,Pratt & Whitney,MTF,1.02,17.01,71170,0.22,0.27,0.52,1.25,0.95,1.1,2.67,10.46,20.6,15.7,8.0,3.2,1.245,0.997,0.354,0.1474,499.0,22863.0,0.0231,0.8,30000.0
1PW014,JT8D-17A,Pratt & Whitney,MTF,1.05,16.87,71170,0.25,0.3,0.64,6.6,1.07,1.16,2.88,12.46,19.1,14.3,6.7,3.2,1.173,0.9344,0.3304,0.1401,470.0,22863.0,0.0219,0.8,30000.0
1PW015,JT8D-17AR,Pratt & Whitney,MTF,0.96,17.28,77420,0.21,0.27,0.55,1.33,0.93,1.08,2.68,10.7,24.5,16.0,8.0,3.2,1.365,1.047,0.3574,0.1477,512.0,22863.0,0.0221,0.8,30000.0
1PW016,JT8D-17R,Pratt & Whitney,MTF,0.97,18.24,77420,0.21,0.27,0.53,0.95,0.95,1.03,2.54,9.43,25.3,17.6,8.4,3.3,1.417,1.103,0.3755,0.155,537.0,22863.0,0.0232,0.8,30000.0
1PW017,JT8D-209,Pratt & Whitney,MTF,1.8,18.3,85600,0.35,0.5,1.69,4.03,1.03,1.4,4.37,14.1,22.8,19.0,8.8,3.5,1.191,0.9828,0.3592,0.1303,469.0,21996.0,0.0205,0.8,35000.0
1PW018,JT8D-217,Pratt & Whitney,MTF,1.73,19.66,92740,0.28,0.43,1.6,3.33,0.8,1.23,4.17,12.27,25.7,20.6,9.1,3.7,1.32,1.078,0.3833,0.1372,504.0,23308.0,0.0213,0.8,35000.0
4PW069,JT8D-217A,Pratt & Whitney,MTF,1.73,19.66,92740,0.0,0.0,0.0,0.0,0.42,0.47,3.54,15.31,17.54,13.54,7.66,4.57,1.32,1.078,0.3833,0.1372,504.0,23308.0,0.0213,0.8,35000.0
4PW070,JT8D-217C,Pratt & Whitney,MTF,1.7,19.05,92740,0.0,0.0,0.0,0.0,0.42,0.49,3.79,17.89,16.49,13.02,7.65,4.05,1.282,1.045,0.363,0.137,493.0,23308.0,0.0208,0.8,35000.0
4PW071,JT8D-219,Pratt & Whitney,MTF,1.7,20.27,96520,0.0,0.0,0.0,0.0,0.42,0.46,3.57,17.19,18.72,13.73,7.65,4.16,1.354,1.085,0.3817,0.1344,501.0,23353.0,0.0209,0.8,35000.0
8PW085,JT8D-7,Pratt & Whitney,MTF,1.05,15.82,62270,0.25,0.25,0.4,3.8,0.9,1.1,2.2,14.3,17.2,14.0,6.3,3.15,0.9892,0.8113,0.2861,0.1291,419.0,18993.0,0.0225,0.8,30000.0
1PW007,JT8D-9,Pratt & Whitney,MTF,1.04,15.88,64500,0.15,0.18,0.6,3.12,1.04,1.11,2.14,14.14,19.3,14.5,6.0,2.9,1.04,0.8453,0.2977,0.1323,433.0,20194.0,0.0227,0.8,30000.0
1PW032,JT9D-20J,Pratt & Whitney,TF,5.1,23.5,222400,0.0,0.0,0.5,24.5,0.9,0.9,5.5,66.7,44.9,34.9,9.4,3.3,2.315,1.902,0.679,0.238,883.0,47506.0,0.0177,0.85,35000.0
1PW033,JT9D-59A,Pratt & Whitney,TF,4.9,24.5,235800,0.2,0.2,0.3,12.0,0.2,0.2,1.7,53.0,31.6,25.6,7.8,3.0,2.4419,1.9996,0.6804,0.237,900.0,53156.0,0.0179,0.85,35000.0
1PW034,JT9D-70A,Pratt & Whitney,TF,4.9,24.5,235800,0.2,0.2,0.3,12.0,0.2,0.2,1.7,53.0,31.6,25.6,7.8,3.0,2.4419,1.9996,0.6804,0.237,900.0,53156.0,0.0179,0.85,35000.0
1PW023,JT9D-7F,Pratt & Whitney,TF,5.1,22.8,213500,0.0,0.0,0.6,25.9,0.9,0.9,5.8,68.6,41.7,31.5,9.1,3.2,2.161,1.779,0.624,0.232,837.0,49152.0,0.0179,0.85,35000.0
".
(** openap/data/engine/engines.csv:281-300 *)
Definition engines_14 : string := "1PW024,JT9D-7J,Pratt & Whitney,TF,5.1,23.5,222400,0.0,0.0,0.5,24.5,0.9,0.9,5.5,66.7,44.9,34.9,9.4,3.3,2.315,1.902,0.679,0.238,883.0,49152.0,0.0179,0.85,35000.0
1PW025,JT9D-7Q,Pratt & Whitney,TF,4.9,24.5,235750,0.2,0.2,0.3,12.0,0.2,0.2,1.7,53.0,31.6,25.6,7.8,3.0,2.4419,1.9996,0.6804,0.237,900.0,53156.0,0.0179,0.85,35000.0
1PW026,""JT9D-7R4D, -7R4D1"",Pratt & Whitney,TF,5.0,23.4,213500,0.15,0.12,0.13,1.25,0.51,0.48,1.36,8.84,38.5,30.0,9.8,4.1,2.055,1.678,0.6593,0.2054,810.0,,,,
1PW027,""JT9D-7R4E, -7R4E1"",Pratt & Whitney,TF,5.0,24.2,222400,0.16,0.13,0.13,1.11,0.57,0.53,1.23,8.27,41.6,34.2,10.4,4.1,2.118,1.724,0.6529,0.221,818.0,,,,
1PW028,""JT9D-7R4E4, -E1"",Pratt & Whitney,TF,5.0,24.2,222410,0.15,0.13,0.22,3.35,0.67,0.67,1.46,16.0,36.9,29.7,8.5,3.5,2.218,1.829,0.64,0.2205,832.0,,,,
1PW029,JT9D-7R4G2,Pratt & Whitney,TF,4.8,26.3,243500,0.15,0.14,0.18,1.55,0.74,0.63,1.4,11.82,41.3,29.5,8.8,3.8,2.429,1.88,0.659,0.2239,858.0,54490.0,0.0181,0.85,35000.0
1PW030,JT9D-7R4H1,Pratt & Whitney,TF,4.8,26.7,249100,0.15,0.14,0.18,1.48,0.74,0.63,1.39,11.63,45.2,30.0,8.9,3.8,2.512,1.999,0.7227,0.2454,926.0,54490.0,0.0178,0.85,35000.0
19PW127,PW814GA,Pratt & Whitney Canada,TF,5.66,33.87,68630,0.0,0.0,0.02,0.05,0.0,0.0,1.76,13.88,23.26,17.94,11.46,6.25,0.667,0.549,0.194,0.07,256.2,,,,
19PW128,PW815GA,Pratt & Whitney Canada,TF,5.6,35.0,71220,0.0,0.0,0.02,0.05,0.0,0.0,1.5,13.4,24.88,18.89,11.47,6.41,0.699,0.573,0.201,0.071,264.0,,,,
18PW117,PW1122G-JM,Pratt & Whitney,TF,12.72,28.78,107820,0.1,0.1,0.02,0.55,0.26,0.38,6.39,29.78,16.47,13.85,8.92,4.72,0.71,0.6,0.21,0.08,284.0,,,,
18PW118,PW1124G1-JM,Pratt & Whitney,TF,12.72,28.78,107820,0.1,0.1,0.02,0.55,0.26,0.38,6.39,29.78,16.47,13.85,8.92,4.72,0.71,0.6,0.21,0.08,284.0,,,,
18PW119,PW1124G-JM,Pratt & Whitney,TF,12.72,28.78,107820,0.1,0.1,0.02,0.55,0.26,0.38,6.39,29.78,16.47,13.85,8.92,4.72,0.71,0.6,0.21,0.08,284.0,,,,
18PW120,PW1127G1-JM,Pratt & Whitney,TF,12.28,31.66,120430,0.02,0.04,0.02,0.43,0.22,0.3,5.36,27.93,18.82,15.3,9.07,4.84,0.8,0.67,0.2322,0.08,303.0,,,,
18PW121,PW1127GA-JM,Pratt & Whitney,TF,12.28,31.66,120430,0.02,0.04,0.02,0.43,0.22,0.3,5.36,27.93,18.82,15.3,9.07,4.84,0.8,0.67,0.2322,0.08,303.0,,,,
18PW122,PW1127G-JM,Pratt & Whitney,TF,12.28,31.66,120430,0.02,0.04,0.02,0.43,0.22,0.3,5.36,27.93,18.82,15.3,9.07,4.84,0.8,0.67,0.2322,0.08,303.0,,,,
18PW123,PW1129G-JM,Pratt & Whitney,TF,12.0,34.02,130080,0.02,0.04,0.02,0.36,0.21,0.25,4.58,26.52,20.98,16.84,9.19,4.98,0.88,0.73,0.2546,0.08,318.0,,,,
18PW124,PW1130G-JM,Pratt & Whitney,TF,11.58,38.07,147280,0.02,0.05,0.02,0.26,0.23,0.22,3.44,24.06,25.46,19.84,9.4,5.31,1.023,0.8385,0.27834,0.0988,375.0,,,,
18PW125,PW1133GA-JM,Pratt & Whitney,TF,11.58,38.07,147280,0.02,0.05,0.02,0.26,0.23,0.22,3.44,24.06,25.46,19.84,9.4,5.31,1.023,0.8385,0.27834,0.0988,375.0,,,,
18PW126,PW1133G-JM,Pratt & Whitney,TF,11.58,38.07,147280,0.02,0.05,0.02,0.26,0.23,0.22,3.44,24.06,25.46,19.84,9.4,5.31,1.023,0.8385,0.27834,0.0988,375.0,,,,
21PW139,PW1215G,Pratt & Whitney,TF,8.6,29.36,67660,0.03,0.02,0.02,0.02,0.4,0.4,3.0,16.0,20.0,15.8,8.3,4.8,0.551,0.461,0.166,0.065,224.7,,,,
".
(** openap/data/engine/engines.csv:301-320 *)
Definition engines_15 : string := "21PW140,PW1217G,Pratt & Whitney,TF,8.33,32.65,75720,0.04,0.02,0.01,0.01,0.3,0.4,2.5,14.2,25.3,18.6,8.6,5.1,0.634,0.524,0.184,0.069,247.8,,,,
20PW129,PW1525G,Pratt & Whitney,TF,11.05,38.67,108530,0.0,0.0,0.1,0.1,0.0,0.0,1.8,16.7,26.0,20.5,10.4,6.0,0.79,0.65,0.23,0.08,292.2,,,,
20PW130,PW1524G,Pratt & Whitney,TF,11.05,38.67,108530,0.0,0.0,0.1,0.1,0.0,0.0,1.8,16.7,26.0,20.5,10.4,6.0,0.79,0.65,0.23,0.08,292.2,,,,
20PW131,PW1521G,Pratt & Whitney,TF,11.37,35.11,97720,0.0,0.0,0.1,0.1,0.0,0.0,2.5,19.3,22.1,18.1,10.1,5.6,0.69,0.58,0.21,0.07,265.3,,,,
20PW132,PW1521GA,Pratt & Whitney,TF,11.37,35.11,97720,0.0,0.0,0.1,0.1,0.0,0.0,2.5,19.3,22.1,18.1,10.1,5.6,0.69,0.58,0.21,0.07,265.3,,,,
20PW133,PW1519G,Pratt & Whitney,TF,11.64,32.28,87960,0.0,0.0,0.1,0.2,0.0,0.0,3.3,21.4,19.6,16.6,9.8,5.3,0.62,0.52,0.19,0.07,245.6,,,,
20PW134,PW1919G,Pratt & Whitney,TF,11.6,33.27,92790,0.0,0.0,0.1,0.2,0.0,0.0,3.3,22.2,20.0,16.7,9.8,5.2,0.65,0.54,0.2,0.07,251.7,,,,
20PW135,PW1921G,Pratt & Whitney,TF,11.36,35.76,100300,0.0,0.0,0.1,0.1,0.0,0.0,2.7,19.8,22.2,18.1,10.0,5.5,0.71,0.59,0.21,0.07,270.4,,,,
20PW136,PW1922G,Pratt & Whitney,TF,11.16,37.74,105930,0.0,0.0,0.1,0.1,0.0,0.0,2.3,18.4,24.2,19.3,10.2,5.7,0.76,0.63,0.22,0.07,284.9,,,,
20PW137,PW1923G-A,Pratt & Whitney,TF,11.16,37.74,105930,0.0,0.0,0.1,0.1,0.0,0.0,2.3,18.4,24.2,19.3,10.2,5.7,0.76,0.63,0.22,0.07,284.9,,,,
20PW138,PW1923G,Pratt & Whitney,TF,11.16,37.74,105930,0.0,0.0,0.1,0.1,0.0,0.0,2.3,18.4,24.2,19.3,10.2,5.7,0.76,0.63,0.22,0.07,284.9,,,,
4PW072,PW2037,Pratt & Whitney,TF,5.71,26.7,166350,0.02,0.02,0.11,1.92,0.33,0.34,1.95,22.36,29.41,23.96,9.77,4.1,1.571,1.307,0.458,0.152,586.0,28913.0,0.0165,0.85,35000.0
4PW073,PW2040,Pratt & Whitney,TF,5.54,29.4,182020,0.01,0.02,0.1,1.65,0.32,0.41,1.42,19.95,35.04,26.62,10.49,4.37,1.752,1.445,0.496,0.159,631.0,28913.0,0.0165,0.85,35000.0
7PW077,PW306A,Pratt & Whitney Canada,MTF,4.5,20.0,26870,0.0,0.0,0.0,4.36,2.27,2.51,7.11,36.35,20.08,19.26,11.87,4.26,0.3171,0.2641,0.0974,0.0422,137.0,,,,
7PW078,PW306B,Pratt & Whitney Canada,MTF,4.5,20.0,26910,0.0,0.0,0.0,4.36,2.27,2.51,7.11,36.35,20.08,19.26,11.87,4.26,0.3171,0.2641,0.0974,0.0422,137.0,,,,
16PW114,PW307A,Pratt & Whitney Canada,MTF,4.2,20.21,28490,0.0,0.0,0.0,1.99,0.27,0.23,3.23,36.92,18.28,15.58,8.77,2.86,0.327,0.272,0.102,0.044,143.0,,,,
15PW109,PW307D,Pratt & Whitney Canada,MTF,4.2,21.44,29910,0.0,0.0,0.0,0.75,0.0,0.02,2.57,26.75,20.61,15.44,7.85,4.32,0.3545,0.2769,0.1115,0.0462,150.0,,,,
7PW079,PW308A,Pratt & Whitney Canada,MTF,4.1,20.4,30710,0.0,0.0,0.02,6.62,0.83,1.06,4.08,38.21,16.74,14.06,8.03,3.65,0.3604,0.2991,0.1235,0.0445,154.0,,,,
14PW103,PW308C,Pratt & Whitney Canada,MTF,4.1,21.07,31150,0.0,0.0,0.0,0.39,0.5,0.57,4.18,37.05,19.1,14.96,6.8,3.53,0.37,0.307,0.116,0.049,160.0,,,,
1PW042,PW4056,Pratt & Whitney,TF,4.7,29.3,249100,0.06,0.01,0.13,1.92,0.44,0.57,2.0,21.86,28.1,22.9,11.6,4.8,2.342,1.93,0.658,0.208,836.0,,,,
".
(** openap/data/engine/engines.csv:321-340 *)
Definition engines_16 : string := "2PW060,PW4074,Pratt & Whitney,TF,6.8,32.2,333200,0.1,0.1,0.2,3.2,0.1,0.1,0.4,21.0,38.1,31.5,11.0,4.2,2.899,2.368,0.795,0.228,981.0,,,,
3PW063,PW4074D,Pratt & Whitney,TF,6.7,31.76,333200,0.03,0.05,0.08,5.07,0.23,0.25,0.64,34.34,42.35,34.48,11.88,3.81,2.949,2.416,0.81,0.239,1010.0,,,,
2PW061,PW4077,Pratt & Whitney,TF,6.7,33.2,343000,0.1,0.1,0.2,3.0,0.1,0.1,0.4,20.2,39.8,32.5,11.3,4.2,3.019,2.452,0.816,0.232,1008.0,,,,
10PW097,PW4077D,Pratt & Whitney,TF,6.6,33.3,355700,0.02,0.02,0.04,2.82,0.29,0.34,0.86,24.8,44.68,34.05,11.63,3.81,3.172,2.562,0.892,0.31,1169.1,,,,
8PW089,PW4084,Pratt & Whitney,TF,6.4,36.2,369600,0.1,0.1,0.2,2.7,0.1,0.1,0.4,18.73,45.0,35.5,12.0,4.4,3.411,2.689,0.875,0.242,1086.0,,,,
10PW098,PW4084D,Pratt & Whitney,TF,6.2,36.3,385900,0.02,0.02,0.04,2.16,0.28,0.32,0.66,21.12,51.39,37.78,12.27,3.99,3.557,2.809,0.954,0.322,1251.3,,,,
10PW099,PW4090,Pratt & Whitney,TF,6.0,38.9,408300,0.02,0.02,0.04,0.69,0.27,0.31,0.55,11.94,57.52,41.17,12.74,4.48,3.926,2.996,0.979,0.338,1322.6,,,,
1PW045,PW4152,Pratt & Whitney,TF,4.9,26.9,231270,0.03,0.01,0.13,2.24,0.5,0.62,2.29,23.67,25.3,21.1,11.1,4.8,2.129,1.783,0.613,0.203,789.0,,,,
1PW047,PW4156,Pratt & Whitney,TF,4.7,29.3,249100,0.06,0.01,0.13,1.92,0.44,0.57,2.0,21.86,28.1,22.9,11.6,4.8,2.342,1.93,0.658,0.208,836.0,,,,
1PW048,PW4158,Pratt & Whitney,TF,4.6,30.7,258000,0.09,0.02,0.14,1.78,0.4,0.54,1.88,20.99,30.2,23.7,11.8,4.8,2.481,2.004,0.682,0.211,862.0,,,,
7PW081,PW4164,Pratt & Whitney,TF,5.2,30.1,284680,0.0,0.0,0.0,0.37,0.19,0.18,2.84,17.73,23.87,18.66,11.88,4.99,2.668,2.2,0.766,0.24,961.0,,,,
9PW092,PW4164-1D,Pratt & Whitney,TF,5.06,31.3,286900,0.0,0.0,0.06,1.44,0.16,0.17,1.55,17.13,26.31,20.97,12.1,3.79,2.721,2.239,0.775,0.243,975.0,,,,
5PW075,PW4168,Pratt & Whitney,TF,5.1,31.84,302500,0.0,0.0,0.0,0.2,0.1,0.2,2.4,15.9,26.9,20.2,12.1,5.2,2.884,2.363,0.809,0.25,1017.0,,,,
9PW093,PW4168-1D,Pratt & Whitney,TF,4.92,33.1,305100,0.0,0.0,0.05,0.95,0.17,0.18,1.26,14.78,30.15,22.31,12.39,4.08,2.937,2.398,0.818,0.252,1029.0,,,,
7PW082,PW4168A,Pratt & Whitney,TF,5.1,31.84,302500,0.0,0.0,0.0,0.2,0.1,0.2,2.4,15.9,26.9,20.2,12.1,5.2,2.884,2.363,0.809,0.25,1017.0,,,,
9PW094,PW4168A-1D,Pratt & Whitney,TF,4.92,33.1,305100,0.0,0.0,0.05,0.95,0.17,0.18,1.26,14.78,30.15,22.31,12.39,4.08,2.937,2.398,0.818,0.252,1029.0,,,,
12PW101,PW4060,Pratt & Whitney,TF,4.7,29.7,266900,0.08,0.06,0.1,11.63,0.58,0.49,2.04,44.46,31.74,25.03,11.91,3.72,2.567,2.036,0.696,0.206,865.0,,,,
12PW102,PW4062,Pratt & Whitney,TF,4.6,31.0,275800,0.08,0.07,0.09,10.86,0.61,0.5,1.93,42.61,34.36,25.98,12.17,3.78,2.725,2.125,0.718,0.21,894.0,,,,
9PW095,PW4170,Pratt & Whitney,TF,4.86,33.8,311400,0.0,0.0,0.05,0.83,0.18,0.18,1.17,14.04,31.4,22.84,12.49,4.18,3.019,2.45,0.833,0.255,1048.0,,,,
1PW051,PW4256,Pratt & Whitney,TF,4.7,29.3,252400,0.11,0.17,0.25,0.66,0.08,0.14,0.9,11.6,32.5,24.6,11.6,5.0,2.449,1.981,0.647,0.188,813.0,,,,
".
(** openap/data/engine/engines.csv:341-360 *)
Definition engines_17 : string := "1PW052,PW4460,Pratt & Whitney,TF,4.5,32.4,266900,0.1,0.03,0.14,1.66,0.37,0.51,1.78,20.32,32.8,24.7,12.0,4.9,2.647,2.085,0.703,0.213,887.0,,,,
1PW053,PW4x50,Pratt & Whitney,TF,5.0,25.39,222400,0.09,0.1,0.19,6.8,0.53,0.62,2.33,36.91,25.69,21.77,11.13,3.69,2.027,1.683,0.579,0.193,747.0,,,,
1PW054,PW4x52,Pratt & Whitney,TF,5.0,26.32,231300,0.08,0.1,0.17,6.02,0.52,0.6,2.15,34.54,27.02,22.54,11.41,3.77,2.127,1.757,0.6,0.198,774.0,,,,
1PW055,PW4x56,Pratt & Whitney,TF,4.8,28.37,249100,0.08,0.09,0.16,4.75,0.48,0.56,1.89,29.96,30.44,24.24,11.97,3.93,2.351,1.912,0.643,0.208,830.0,,,,
1PW056,PW4x58,Pratt & Whitney,TF,4.8,29.49,258000,0.08,0.09,0.15,4.29,0.44,0.53,1.82,28.08,32.51,25.22,12.25,3.99,2.482,1.993,0.665,0.213,859.0,,,,
5PW074,PW4X58,Pratt & Whitney,TF,4.8,28.41,258000,0.0,0.0,0.0,1.7,0.2,0.3,3.8,24.3,22.5,18.0,11.1,4.3,2.496,1.999,0.663,0.212,859.0,,,,
1PW058,PW4x62,Pratt & Whitney,TF,4.4,33.4,275800,0.1,0.06,0.14,1.53,0.35,0.49,1.69,19.51,36.3,25.7,12.2,4.9,2.858,2.161,0.725,0.217,918.0,,,,
7PW083,PW6122A,Pratt & Whitney,MTF,4.8,25.7,98310,0.0,0.001,0.001,0.006,0.74,0.72,3.99,24.68,17.04,13.4,5.95,3.08,1.047,0.86,0.304,0.109,401.0,,,,
7PW084,PW6124A,Pratt & Whitney,MTF,4.8,28.0,105870,0.0,0.002,0.001,0.002,0.68,0.81,3.69,25.19,21.03,15.85,6.88,3.58,1.169,0.939,0.325,0.114,429.0,,,,
1RR003,RB211-22B,Rolls-Royce plc,TF,4.7,25.0,182500,0.15,0.25,5.96,67.75,0.78,1.68,20.65,88.99,37.33,26.89,8.18,2.86,1.877,1.546,0.566,0.225,770.0,,,,
1RR005,RB211-524B,Rolls-Royce plc,TF,4.5,28.4,218500,0.39,0.26,0.7,1.95,0.7,0.33,1.56,12.39,52.3,38.2,9.8,4.2,2.21,1.79,0.63,0.24,855.0,,,,
1RR006,RB211-524C2,Rolls-Royce plc,TF,4.5,29.1,224800,0.0,0.22,4.42,54.2,0.66,1.63,18.9,81.0,41.9,32.3,10.4,3.37,2.48,2.02,0.74,0.3,1016.0,,,,
1RR008,RB211-524D4,Rolls-Royce plc,TF,4.3,30.22,231300,0.59,0.26,0.7,1.41,1.24,0.34,1.56,9.3,59.35,43.01,10.63,4.41,2.34,1.91,0.65,0.26,912.0,,,,
1RR010,RB211-524G,Rolls-Royce plc,MTF,4.25,32.1,253000,0.39,0.27,0.37,0.89,0.59,0.43,1.01,13.74,58.71,40.54,9.56,4.63,2.62,2.08,0.7,0.26,958.0,,,,
4RR036,RB211-524G-T,Rolls-Royce plc,MTF,4.25,32.1,253000,0.0,0.03,0.0,3.95,0.16,0.14,1.17,28.82,28.43,21.8,9.68,4.0,2.62,2.1,0.74,0.26,970.0,,,,
1RR011,RB211-524H,Rolls-Royce plc,MTF,4.2,34.0,264400,0.34,0.33,0.36,0.74,0.87,0.38,0.99,11.75,65.84,46.31,10.26,4.78,2.73,2.17,0.71,0.26,977.0,,,,
4RR037,RB211-524H-T,Rolls-Royce plc,MTF,4.2,34.0,264000,0.0,0.02,0.0,3.31,0.18,0.14,1.05,26.17,31.19,23.19,9.91,4.16,2.81,2.22,0.77,0.26,1001.0,,,,
1RR012,RB211-535C,Rolls-Royce plc,TF,4.5,21.5,163300,0.25,0.14,0.44,1.44,0.7,0.27,0.48,18.79,33.71,24.89,6.37,3.44,1.8,1.47,0.54,0.2,711.0,,,,
5RR038,RB211-535E4,Rolls-Royce plc,MTF,4.1,26.0,178400,0.03,0.0,0.04,0.27,0.26,0.29,2.72,20.33,22.31,17.56,8.38,4.4,1.85,1.5,0.52,0.18,681.0,,,,
5RR039,RB211-535E4B,Rolls-Royce plc,MTF,4.1,27.9,191700,0.07,0.0,0.05,0.14,0.33,0.26,2.43,18.24,25.88,19.3,8.65,4.58,2.07,1.64,0.55,0.19,732.0,,,,
".
(** openap/data/engine/engines.csv:361-380 *)
Definition engines_18 : string := "4RR035,Spey 555,Rolls-Royce plc,MTF,1.0,15.9,44000,0.15,0.22,0.33,3.41,1.54,2.08,5.78,31.16,17.33,13.06,5.05,2.23,0.735,0.593,0.221,0.0964,313.0,,,,
8RR043,SPEY Mk511,Rolls-Royce plc,MTF,0.64,19.9,50700,0.98,1.32,7.23,56.73,1.81,2.06,20.3,97.96,23.27,19.18,7.94,1.48,0.889,0.726,0.279,0.119,386.0,,,,
1RR018,SPEY Mk555,Rolls-Royce plc,MTF,1.0,15.9,44000,0.29,0.15,0.29,1.86,0.3,0.7,3.7,29.3,21.9,16.5,6.8,3.7,0.735,0.592,0.221,0.096,312.0,,,,
11RR048,TAY 611-8C,Rolls-Royce plc,MTF,3.26,15.88,61600,0.03,0.05,0.65,1.49,0.5,0.95,2.89,24.4,19.3,15.4,5.31,2.53,0.731,0.604,0.215,0.102,321.0,,,,
3RR031,TAY 650,Rolls-Royce plc,MTF,3.0,15.9,67200,0.11,0.22,0.11,1.23,0.69,0.48,1.76,22.36,16.45,12.94,5.26,2.5,0.86,0.71,0.25,0.12,377.0,,,,
3RR033,TAY 651,Rolls-Royce plc,MTF,3.0,16.4,68500,0.56,0.37,0.85,3.1,1.68,1.93,6.11,32.68,20.31,17.13,4.77,1.72,0.87,0.72,0.26,0.12,381.0,,,,
1RR019,TAY Mk611-8,Rolls-Royce plc,MTF,3.0,16.1,61600,0.8,0.3,0.9,3.4,0.7,0.8,3.9,24.1,21.1,16.8,5.7,2.5,0.76,0.63,0.23,0.11,342.0,,,,
1RR020,TAY Mk620-15,Rolls-Royce plc,MTF,3.0,16.1,61600,0.8,0.3,0.9,3.4,0.7,0.8,3.9,24.1,21.1,16.8,5.7,2.5,0.76,0.63,0.23,0.11,342.0,,,,
1RR021,TAY Mk650-15,Rolls-Royce plc,MTF,3.0,16.4,67200,0.37,0.41,0.88,3.29,1.74,2.01,6.54,33.77,19.81,16.47,4.55,1.7,0.874,0.715,0.254,0.119,378.0,,,,
8RR044,Trent 553-61,Rolls-Royce plc,TF,7.5,35.19,251900,0.02,0.01,0.04,0.14,0.18,0.44,0.66,10.5,40.55,30.98,11.37,5.96,2.11,1.73,0.6,0.23,820.0,,,,
8RR045,Trent 556-61,Rolls-Royce plc,TF,7.5,36.63,263900,0.02,0.01,0.04,0.13,0.17,0.38,0.54,9.96,44.77,33.25,11.68,6.09,2.24,1.83,0.62,0.23,843.0,,,,
14RR070,Trent 768,Rolls-Royce plc,MTF,5.15,34.48,304200,0.0,0.01,0.04,3.19,0.35,0.49,1.71,26.94,32.01,24.9,10.12,4.46,2.907,2.375,0.781,0.259,1027.0,,,,
14RR071,Trent 772,Rolls-Royce plc,MTF,5.03,36.3302939575395,320300,0.01,0.01,0.04,2.46,0.21,0.49,1.56,23.97,35.56,26.82,10.42,4.66,3.139,2.53,0.821,0.27,1085.0,,,,
2RR024,Trent 875,Rolls-Royce plc,TF,6.08,35.42,351850,0.0,0.0,0.0,1.78,0.19,0.16,0.86,19.66,33.32,26.55,10.43,4.64,3.1,2.57,0.88,0.28,1117.0,,,,
2RR025,Trent 877,Rolls-Royce plc,TF,6.02,36.3,361640,0.0,0.0,0.0,1.55,0.2,0.16,0.8,18.42,34.76,27.59,10.59,4.75,3.21,2.66,0.9,0.28,1139.0,,,,
2RR026,Trent 884,Rolls-Royce plc,TF,5.87,38.96,390100,0.0,0.0,0.0,1.0,0.24,0.18,0.65,15.19,40.05,30.63,11.07,5.04,3.56,2.89,0.97,0.31,1247.0,,,,
2RR027,Trent 892,Rolls-Royce plc,TF,5.7,41.38,411480,0.01,0.0,0.0,0.7,0.28,0.2,0.57,13.07,45.7,33.3,11.58,5.33,3.91,3.1,1.0,0.3,1281.0,,,,
5RR040,Trent 895,Rolls-Royce plc,TF,5.7,41.52,413050,0.02,0.0,0.0,0.89,0.27,0.19,0.54,14.71,47.79,34.29,11.39,5.11,4.03,3.19,1.05,0.33,1357.0,,,,
18RR081,Trent 970-84,Rolls-Royce plc,TF,8.45,38.0,338700,0.02,0.12,0.08,0.04,0.32,0.31,1.16,13.38,38.29,29.42,12.09,5.44,2.605,2.157,0.72,0.255,965.0,,,,
18RR082,Trent 970B-84,Rolls-Royce plc,TF,8.38,39.35,352900,0.0,0.09,0.07,0.04,0.33,0.31,1.05,12.65,41.34,31.3,12.37,5.57,2.738,2.262,0.749,0.261,1001.0,,,,
".
(** openap/data/engine/engines.csv:381-400 *)
Definition engines_19 : string := "18RR083,Trent 972-84,Rolls-Royce plc,TF,8.41,38.68,345900,0.01,0.11,0.07,0.04,0.32,0.31,1.1,13.0,39.78,30.36,12.23,5.51,2.672,2.21,0.735,0.258,983.0,,,,
18RR084,Trent 972E-84,Rolls-Royce plc,TF,8.41,38.68,345900,0.01,0.11,0.07,0.04,0.32,0.31,1.1,13.0,39.78,30.36,12.23,5.51,2.672,2.21,0.735,0.258,983.0,,,,
12RR061,Trent 1000-A2,Rolls-Royce plc,TF,9.32,41.3,310900,0.0,0.0,0.0,0.04,0.51,0.45,0.77,8.4,46.11,35.48,13.11,5.48,2.284,1.882,0.624,0.245,876.0,,,,
12RR062,Trent 1000-C2,Rolls-Royce plc,TF,9.16,44.1,334700,0.0,0.0,0.0,0.03,0.5,0.48,0.67,7.37,52.65,39.86,13.67,5.74,2.503,2.053,0.666,0.247,922.0,,,,
12RR063,Trent 1000-D2,Rolls-Royce plc,TF,9.16,44.1,334700,0.0,0.0,0.0,0.03,0.5,0.48,0.67,7.37,52.65,39.86,13.67,5.74,2.503,2.053,0.666,0.247,922.0,,,,
12RR064,Trent 1000-E2,Rolls-Royce plc,TF,9.62,36.32,268000,0.0,0.0,0.0,0.1,0.46,0.42,1.01,11.35,36.25,28.52,12.12,4.98,1.912,1.582,0.549,0.223,769.0,,,,
12RR065,Trent 1000-G2,Rolls-Royce plc,TF,9.23,42.81,323700,0.0,0.0,0.0,0.04,0.51,0.46,0.72,7.81,49.57,37.8,13.41,5.62,2.402,1.973,0.647,0.243,895.0,,,,
12RR066,Trent 1000-H2,Rolls-Royce plc,TF,9.49,38.52,287100,0.0,0.0,0.0,0.07,0.48,0.43,0.89,9.82,40.46,31.49,12.56,5.21,2.075,1.715,0.582,0.233,817.0,,,,
12RR067,Trent 1000-J2,Rolls-Royce plc,TF,9.04,46.08,350900,0.0,0.0,0.0,0.02,0.43,0.49,0.62,6.8,58.04,43.07,14.06,5.91,2.663,2.173,0.696,0.254,962.0,,,,
12RR068,Trent 1000-K2,Rolls-Royce plc,TF,9.04,46.08,350900,0.0,0.0,0.0,0.02,0.43,0.49,0.62,6.8,58.04,43.07,14.06,5.91,2.663,2.173,0.696,0.254,962.0,,,,
12RR069,Trent 1000-L2,Rolls-Royce plc,TF,9.16,44.1,334700,0.0,0.0,0.0,0.03,0.5,0.48,0.67,7.37,52.65,39.86,13.67,5.74,2.503,2.053,0.666,0.247,922.0,,,,
19RR085,Trent 1000-AE3,Rolls-Royce plc,TF,9.2,43.0,310900,0.0,0.0,0.0,0.0,0.43,0.44,0.76,6.93,46.1,35.9,13.5,5.9,2.279,1.874,0.623,0.239,866.0,,,,
19RR086,Trent 1000-CE3,Rolls-Royce plc,TF,9.0,45.8,334700,0.0,0.0,0.0,0.0,0.41,0.45,0.65,6.23,52.07,40.11,14.08,6.16,2.497,2.046,0.667,0.249,924.0,,,,
19RR087,Trent 1000-D3,Rolls-Royce plc,TF,9.0,45.8,334700,0.0,0.0,0.0,0.0,0.41,0.45,0.65,6.23,52.07,40.11,14.08,6.16,2.497,2.046,0.667,0.249,924.0,,,,
19RR088,Trent 1000-G3,Rolls-Royce plc,TF,9.1,44.5,323700,0.0,0.0,0.0,0.0,0.42,0.45,0.7,6.54,49.25,38.14,13.81,6.04,2.395,1.966,0.647,0.245,897.0,,,,
19RR089,Trent 1000-H3,Rolls-Royce plc,TF,9.3,40.1,287100,0.0,0.0,0.0,0.0,0.45,0.43,0.89,7.78,40.67,32.04,12.94,5.64,2.068,1.706,0.579,0.229,808.0,,,,
19RR090,Trent 1000-J3,Rolls-Royce plc,TF,8.9,47.8,350900,0.0,0.0,0.0,0.0,0.35,0.44,0.58,5.8,56.35,43.21,14.49,6.34,2.649,2.168,0.699,0.256,965.0,,,,
19RR091,Trent 1000-K3,Rolls-Royce plc,TF,8.9,47.8,350900,0.0,0.0,0.0,0.0,0.35,0.44,0.58,5.8,56.35,43.21,14.49,6.34,2.649,2.168,0.699,0.256,965.0,,,,
19RR092,Trent 1000-L3,Rolls-Royce plc,TF,9.0,45.8,334700,0.0,0.0,0.0,0.0,0.41,0.45,0.65,6.23,52.07,40.11,14.08,6.16,2.497,2.046,0.667,0.249,924.0,,,,
19RR093,Trent 1000-M3,Rolls-Royce plc,TF,8.9,48.7,358100,0.0,0.0,0.0,0.0,0.43,0.44,0.59,6.13,59.3,44.55,14.72,6.61,2.721,2.222,0.712,0.26,983.0,,,,
".
(** openap/data/engine/engines.csv:401-420 *)
Definition engines_20 : string := "19RR094,Trent 1000-N3,Rolls-Royce plc,TF,8.9,48.7,358100,0.0,0.0,0.0,0.0,0.43,0.44,0.59,6.13,59.3,44.55,14.72,6.61,2.721,2.222,0.712,0.26,983.0,,,,
19RR095,Trent 1000-P3,Rolls-Royce plc,TF,9.0,45.8,334700,0.0,0.0,0.0,0.0,0.41,0.45,0.65,6.23,52.07,40.11,14.08,6.16,2.497,2.046,0.667,0.249,924.0,,,,
19RR096,Trent 1000-Q3,Rolls-Royce plc,TF,8.9,47.8,350900,0.0,0.0,0.0,0.0,0.35,0.44,0.58,5.8,56.35,43.21,14.49,6.34,2.649,2.168,0.699,0.256,965.0,,,,
19RR097,Trent 1000-R3,Rolls-Royce plc,TF,8.9,49.4,363900,0.0,0.0,0.0,0.0,0.45,0.43,0.57,5.99,61.62,45.76,14.87,6.67,2.783,2.266,0.723,0.262,998.0,,,,
19RR098,Trent7000-72,Rolls-Royce plc,TF,9.0,45.4,327900,0.0,0.0,0.0,0.0,0.41,0.45,0.63,6.45,56.8,42.04,14.12,6.1,2.478,2.029,0.67,0.241,909.0,,,,
19RR099,Trent7000-72C,Rolls-Royce plc,TF,9.0,45.4,327900,0.0,0.0,0.0,0.0,0.41,0.45,0.63,6.45,56.8,42.04,14.12,6.1,2.478,2.029,0.67,0.241,909.0,,,,
18RR076,Trent XWB-75,Rolls-Royce plc,TF,9.3,36.8,334000,0.0,0.0,0.01,1.42,0.39,0.41,1.56,25.26,36.23,28.29,10.13,4.06,2.411,1.98,0.715,0.27,955.0,,,,
18RR077,Trent XWB-79B,Rolls-Royce plc,TF,9.15,38.8,355200,0.0,0.0,0.01,1.22,0.39,0.4,1.36,23.37,40.2,30.88,10.59,4.23,2.601,2.129,0.755,0.28,1008.0,,,,
18RR078,Trent XWB-79,Rolls-Royce plc,TF,9.15,38.8,355200,0.0,0.0,0.01,1.22,0.39,0.4,1.36,23.37,40.2,30.88,10.59,4.23,2.601,2.129,0.755,0.28,1008.0,,,,
18RR079,Trent XWB-84,Rolls-Royce plc,TF,9.01,41.1,379000,0.0,0.0,0.01,1.03,0.39,0.39,1.18,21.46,45.24,34.2,11.12,4.41,2.819,2.306,0.801,0.291,1069.0,,,,
21RR100,Trent XWB-97,Rolls-Royce plc,TF,8.059,48.41317365269461,436748,0.0,0.0,0.0,0.0100603234724198,0.3559904604116914,0.3994335979927153,0.8188114669397981,7.746338116395993,66.05032223888114,48.5051681110626,14.858684091490996,5.641126438050629,3.4978265142580667,2.798047264809943,0.9180765974175208,0.3008381465017589,1205.8968444767,,,,
1TL001,ALF 502L-2,Textron Lycoming,TF,5.1,13.15,33400,0.02,0.023,0.183,6.65,0.4,0.3,3.97,45.63,13.43,12.03,6.47,3.38,0.3999,0.3236,0.1172,0.0477,162.0,,,,
1TL002,ALF 502R-3,Textron Lycoming,TF,5.7,11.4,29800,0.056,0.053,0.287,6.51,0.433,0.5,8.43,44.67,11.2,9.94,6.15,3.3,0.3476,0.288,0.1027,0.0432,145.0,,,,
1TL003,ALF 502R-5,Textron Lycoming,TF,5.6,12.0,31000,0.06,0.053,0.217,5.39,0.3,0.25,7.1,40.93,13.35,10.56,6.6,3.78,0.3581,0.2955,0.1034,0.0408,143.0,,,,
1TL004,""LF507-1F, -1H"",Textron Lycoming,TF,5.1,13.0,31000,0.01,0.01,0.12,4.72,0.2,0.3,4.43,37.83,14.52,12.02,6.39,3.28,0.3578,0.2961,0.1083,0.0453,151.0,,,,
13ZM002,D-36 ser. 4A,IVCHENKO PROGRESS ZMBK,TF,5.0,19.9,63770,0.0,0.0,0.0,5.4,0.5,0.4,2.7,20.7,26.0,22.0,9.0,5.5,0.634,0.533,0.211,0.092,265.0,,,,
13ZM003,D-436-148 F1,IVCHENKO PROGRESS ZMBK,TF,4.9,19.8,64430,0.1,0.04,0.07,2.26,0.54,0.54,2.99,23.46,18.93,16.0,7.26,3.64,0.548,0.468,0.218,0.093,260.0,,,,
13ZM004,D-436-148 F2,IVCHENKO PROGRESS ZMBK,TF,4.9,20.73,68720,0.09,0.05,0.08,1.39,0.48,0.4,2.71,19.56,19.76,16.64,7.31,3.78,0.581,0.493,0.225,0.099,274.0,,,,
8HN001,AS901-1-1A,Honeywell,TF,4.2,22,30600,0.01,0.01,0.08,4.3,0.69,0.56,2.98,30.21,26.29,21.51,9.39,4.2,0.347,0.288,0.104,0.048,152,,,,
01P11HN012,AS907-2-1G,Honeywell,MTF,4.2,22.58,32.86,0.05,0.06,0.12,0.99,0.57,0.6,6.07,30.48,18.43,16.44,8.96,3.965,0.372,0.308,0.107,0.049,158,,,,
".
(** openap/data/engine/engines.csv:421-427 *)
Definition engines_21 : string := "01P14HN016,AS907-3-1E-A3,Honeywell,MTF,4.2,23.57,33.83,0.05,0.06,0.12,0.84,0.56,0.57,5.7,28.08,19.06,16.88,9.23,4.04,0.378,0.312,0.108,0.05,161,,,,
,TPE331-6-252B,Garret AiResearch,TP,,10.6,,8.2,6.2,9.3,45.3,2,2,19,56,10.3,8.8,7.3,4.9,0.0567,0.0504,0.0292,0.0148,,,,,
,PT6A-60A,Pratt & Whitney,TP,,,,0,0,0.5,25.7,4,5,19,154,6.5,6,4.4,2.03,0.075,0.068,0.039,0.0138,,,,,
,PT6A-114,Pratt & Whitney,TP,,,,0,0,0.3,3.9,1,1,5,51,7.3,7,5.3,2.75,0.0504,0.0449,0.025,0.009,,,,,
,PT6A-67,Pratt & Whitney,TP,,,,0,0,0.1,13.8,2,3,13,131,7.1,6.7,4.7,2.16,0.087,0.079,0.045,0.0164,,,,,
,PT6A-66,Pratt & Whitney,TP,,,,0.4,0.7,5.7,82.8,8,9,28,216,6.2,5.9,4.1,1.7,0.071,0.065,0.038,0.0151,,,,,
,TIO-540-J2B2,Textron Lycoming,PS,,,,12.36,16.63,13.38,68.08,1442.1,1470.9,1261.6,1293.7,0.36,0.24,1.39,0.39,0.0327,0.0258,0.0125,0.0032,,,,,
".
(** openap/data/engine/engines.csv: its text in pieces *)
Definition engine_pieces : list string :=
  [engines_0; engines_1; engines_2; engines_3; engines_4; engines_5; engines_6; engines_7; engines_8; engines_9; engines_10; engines_11; engines_12; engines_13; engines_14; engines_15; engines_16; engines_17; engines_18; engines_19; engines_20; engines_21].
