(** * Engine data (generated from openap/data/engine/engines.csv by a script; do not edit) *)
From Coq Require Import String List QArith.
From Verif Require Import PropPy.
Import ListNotations.
Open Scope string_scope.
Open Scope Q_scope.

(** openap/data/engine/engines.csv, rows 2-101 *)
Definition engines_0 : list engrec := [
  mkEng "TFE731-2-2B" (Some 2.64) (Some 15600) (0.114, 0.128, 4.26, 20.04) (1.394, 2.03, 22.38, 58.6) (15.25, 13.08, 5.9, 2.82) (0.205, 0.173, 0.067, 0.024) None None None None;
  mkEng "TFE731-3" (Some 2.64) (Some 16500) (0.062, 0.072, 1.41, 9.04) (1.13, 1.62, 15.56, 47.7) (19.15, 16.02, 6.92, 3.72) (0.225, 0.186, 0.072, 0.026) (Some 3634) (Some 0.0232) (Some 0.8) (Some 40000);
  mkEng "AE3007A" (Some 5.23) (Some 33730) (0.25, 0.29, 0.64, 2.51) (0.75, 0.92, 3.28, 17.35) (20.54, 17.47, 7.79, 3.83) (0.377, 0.315, 0.117, 0.049) None None None None;
  mkEng "AE3007A1" (Some 4.77) (Some 34910) (0.03, 0.03, 0.03, 3.85) (0.75, 0.56, 6.72, 39.91) (16.17, 14.07, 7.13, 4.17) (0.3826, 0.318, 0.113, 0.0461) None None None None;
  mkEng "AE3007A1/1" (Some 4.77) (Some 34740) (0.03, 0.03, 0.03, 3.88) (0.74, 0.55, 6.8, 40.07) (16.1, 14.01, 7.12, 4.17) (0.3805, 0.3163, 0.1125, 0.0459) None None None None;
  mkEng "AE3007A1/3" (Some 4.81) (Some 33050) (0.03, 0.03, 0.03, 3.81) (0.5, 0.5, 7.62, 38.47) (15.42, 13.49, 6.93, 4.27) (0.3589, 0.2999, 0.1077, 0.0449) None None None None;
  mkEng "AE3007A1E" (Some 4.72) (Some 37160) (0.03, 0.03, 0.03, 3.52) (0.77, 0.64, 5.63, 37.97) (17.17, 14.91, 7.42, 4.26) (0.4122, 0.3425, 0.12, 0.0475) None None None None;
  mkEng "AE3007A1P" (Some 4.77) (Some 34740) (0.03, 0.03, 0.03, 3.86) (0.74, 0.55, 6.79, 39.97) (16.1, 14.01, 7.12, 4.17) (0.3806, 0.3163, 0.1126, 0.046) None None None None;
  mkEng "AE3007A2" (Some 4.79) (Some 42230) (0, 0, 0, 1.71) (0.71, 0.74, 4.08, 34.17) (18.61, 15.99, 7.9, 4.39) (0.466, 0.388, 0.138, 0.055) None None None None;
  mkEng "AE3007A3" (Some 4.72) (Some 33000) (0.03, 0.03, 0.03, 4.1) (0.5, 0.5, 7.65, 41.29) (15.4, 13.48, 6.93, 4.12) (0.3583, 0.2995, 0.1076, 0.0448) None None None None;
  mkEng "AE3007C" (Some 5.2) (Some 29620) (0.254, 0.291, 0.696, 4.953) (0.94, 1.16, 4.28, 26.32) (16.88, 14.57, 6.78, 3.36) (0.301, 0.2527, 0.0943, 0.0377) None None None None;
  mkEng "AE3007C1" (Some 5.1) (Some 31460) (0, 0.01, 0.21, 5.88) (0, 0, 1.62, 36.04) (20.2, 17.6, 6.71, 3.14) (0.3222, 0.2689, 0.0991, 0.0418) None None None None;
  mkEng "AE3007C2" (Some 4.99) (Some 32729) (0, 0.01, 0.22, 2.57) (0, 0, 1.97, 23.09) (21.25, 18.11, 6.56, 3.14) (0.3263, 0.2714, 0.0985, 0.0472) None None None None;
  mkEng "D-30" (Some 0.85) (Some 66640) (0.12, 0.14, 1.5, 43.6) (2.7, 3.2, 14.5, 60.3) (19.1, 16.3, 7, 3.6) (1.15, 0.975, 0.35, 0.13) None None None None;
  mkEng "D-30KP-2" (Some 2.2) (Some 117600) (0.7, 0.8, 2.7, 13.3) (2.2, 2.8, 15.4, 62.4) (16.5, 13.5, 6.3, 3.3) (1.67, 1.42, 0.49, 0.21) None None None None;
  mkEng "D-30KU" (Some 2.35) (Some 112700) (0.3, 0.4, 1.2, 10.5) (2.8, 3.7, 11.8, 54) (16.3, 12.6, 5.1, 2.7) (1.52, 1.3, 0.5, 0.215) None None None None;
  mkEng "D-30KU-154" (Some 2.3) (Some 107500) (0.4, 0.5, 1.9, 12.7) (3, 3.6, 18.2, 77.7) (14.5, 11.6, 5.1, 2.9) (1.42, 1.1, 0.42, 0.207) None None None None;
  mkEng "PS-90A" (Some 4.48) (Some 154600) (0.1, 0.13, 0.79, 1.32) (0.41, 0.45, 1.2, 15.18) (30.52, 23.33, 8.96, 4.92) (1.532, 1.279, 0.511, 0.1675) None None None None;
  mkEng "PS-90A1" (Some 4.36) (Some 169700) (0.1, 0.1, 0.16, 0.72) (0.38, 0.4, 1.07, 12.91) (35.69, 26.68, 9.88, 4.92) (1.654, 1.354, 0.533, 0.174) None None None None;
  mkEng "PS-90A2" (Some 4.32) (Some 156950) (0.11, 0.14, 0.21, 2.88) (0.44, 0.65, 1.91, 16.79) (32.7, 25.52, 9.31, 4.3) (1.38, 1.117, 0.491, 0.171) None None None None;
  mkEng "BR700-710A1-10" (Some 4.2) (Some 65610) (0.02, 0.02, 0.05, 1.09) (1.04, 0.93, 4.78, 27.82) (18.79, 15.07, 7.68, 4.69) (0.713, 0.594, 0.214, 0.089) None None None None;
  mkEng "BR700-710A2-20" (Some 4.19) (Some 65610) (0.02, 0.02, 0.05, 1.12) (1.04, 0.93, 4.81, 28) (18.73, 15.03, 7.67, 4.67) (0.714, 0.595, 0.214, 0.089) None None None None;
  mkEng "BR700-710C4-11" (Some 4.05) (Some 68770) (0.02, 0.02, 0.05, 2.29) (1.04, 0.92, 4.92, 31.57) (19.52, 15.43, 7.71, 4.5) (0.747, 0.617, 0.215, 0.083) None None None None;
  mkEng "BR700-715A1-30" (Some 4.68) (Some 83230) (0.05, 0.06, 0.02, 0.11) (0.66, 0.63, 4.05, 19.72) (20.97, 16.43, 8.75, 3.95) (0.831, 0.686, 0.24, 0.1) None None None None;
  mkEng "BR700-715B1-30" (Some 4.6) (Some 89680) (0.03, 0.06, 0.02, 0.07) (0.72, 0.63, 3.59, 18.6) (24.28, 18.27, 9.01, 4.14) (0.91, 0.75, 0.257, 0.103) None None None None;
  mkEng "BR700-715C1-30" (Some 4.54) (Some 95330) (0.01, 0.06, 0.02, 0.06) (0.8, 0.64, 3.23, 17.85) (27.92, 20.05, 9.23, 4.28) (0.984, 0.805, 0.272, 0.105) None None None None;
  mkEng "BR700-725A1-12" (Some 4.35) (Some 75700) (0, 0, 0, 3) (0.4, 0.32, 5.93, 41.9) (16.92, 13.32, 7.81, 3.38) (0.789, 0.65, 0.221, 0.085) None None None None;
  mkEng "BR700-710D5-21" (Some 4.62) (Some 68430) (0.02, 0, 0.01, 2.13) (0.32, 0.63, 2.84, 34.97) (26.63, 20.2, 9.11, 3.07) (0.682, 0.564, 0.197, 0.08) None None None None;
  mkEng "CFM56-2A" (Some 6) (Some 106760) (0.04, 0.04, 0.08, 1.13) (0.9, 0.9, 3.4, 23.5) (20.4, 17.3, 8.7, 4.3) (1.114, 0.911, 0.318, 0.13) None None None None;
  mkEng "CFM56-2B-1" (Some 6) (Some 97860) (0.04, 0.05, 0.08, 1.83) (0.9, 0.9, 4.2, 30.7) (18.5, 16, 8.2, 4) (0.985, 0.819, 0.311, 0.128) None None None None;
  mkEng "CFM56-2-C5" (Some 6) (Some 97860) (0.04, 0.05, 0.08, 1.83) (0.9, 0.9, 4.2, 30.7) (18.5, 16, 8.2, 4) (0.985, 0.819, 0.311, 0.128) None None None None;
  mkEng "CFM56-3-B1" (Some 5.1) (Some 89410) (0.04, 0.05, 0.08, 2.28) (0.9, 0.95, 3.8, 34.4) (17.7, 15.5, 8.3, 3.9) (0.946, 0.792, 0.29, 0.114) None None None None;
  mkEng "CFM56-3B-2" (Some 5.1) (Some 98300) (0.036, 0.047, 0.073, 1.75) (0.9, 0.9, 3.4, 30.1) (19.4, 16.7, 8.7, 4.1) (1.056, 0.878, 0.314, 0.119) None None None None;
  mkEng "CFM56-3C-1" (Some 5.1) (Some 82290) (0.05, 0.05, 0.08, 2.86) (0.9, 1, 4.2, 38.1) (16.6, 14.7, 8, 3.8) (0.872, 0.732, 0.273, 0.111) None None None None;
  mkEng "CFM56-5-A1" (Some 6) (Some 111200) (0.23, 0.23, 0.4, 1.4) (0.9, 0.9, 2.5, 17.6) (24.6, 19.6, 8, 4) (1.051, 0.862, 0.291, 0.1011) None None None None;
  mkEng "CFM56-5A3" (Some 6) (Some 117880) (0.2, 0.2, 0.3, 1.3) (0.9, 0.9, 2.4, 16.2) (26.4, 21.1, 8.3, 4.1) (1.131, 0.925, 0.307, 0.1044) (Some 22241) (Some 0.0169) (Some 0.8) (Some 35000);
  mkEng "CFM56-5A4" (Some 6) (Some 97890) (0.23, 0.23, 0.5, 1.75) (1.1, 1.1, 3.1, 20.3) (22.64, 19.11, 8.51, 4.04) (0.897, 0.74, 0.261, 0.095) (Some 22241) None (Some 0.8) (Some 35000);
  mkEng "CFM56-5A5" (Some 6) (Some 104530) (0.23, 0.23, 0.45, 1.53) (1.1, 1.1, 2.8, 18.5) (24.79, 19.98, 8.94, 4.29) (0.972, 0.799, 0.276, 0.098) (Some 22241) None (Some 0.8) (Some 35000);
  mkEng "CFM56-5B1" (Some 5.7) (Some 133450) (0.1, 0.1, 0.12, 3.21) (0.5, 0.5, 1.57, 28.4) (35.1, 27.2, 10.8, 4.6) (1.359, 1.113, 0.364, 0.117) (Some 25977) (Some 0.0169) (Some 0.8) (Some 35000);
  mkEng "CFM56-5B1/2" (Some 5.7) (Some 133450) (0.1, 0.1, 9.1, 1.7) (0.6, 2.5, 38.4, 34) (27.75, 14.91, 7.02, 4.73) (1.345, 1.104, 0.369, 0.129) None None None None;
  mkEng "CFM56-5B1/2P" (Some 5.7) (Some 133500) (0.1, 0.1, 3.7, 2.9) (0.8, 1.9, 23.1, 36.5) (23.3, 16.4, 7.3, 4.1) (1.32, 1.07, 0.37, 0.12) None None None None;
  mkEng "CFM56-5B1/3" (Some 5.5) (Some 133400) (0.03, 0.02, 0.05, 1.37) (0.38, 0.2, 2.53, 27.92) (26.18, 19.77, 9.28, 4.45) (1.318, 1.063, 0.347, 0.109) None None None None;
  mkEng "CFM56-5B1/P" (Some 5.7) (Some 133450) (0.1, 0.2, 0.5, 3.7) (0.9, 0.9, 2, 19.8) (33, 26.2, 10.7, 4.5) (1.295, 1.058, 0.345, 0.11) None None None None;
  mkEng "CFM56-5B2" (Some 5.6) (Some 137900) (0.1, 0.1, 0.12, 3.04) (0.5, 0.5, 1.4, 27.4) (37.8, 28.5, 11, 4.7) (1.426, 1.158, 0.376, 0.119) (Some 25977) (Some 0.0154) (Some 0.8) (Some 35000);
  mkEng "CFM56-5B2/2" (Some 5.7) (Some 137900) (0.1, 0.1, 8.4, 1.7) (0.4, 1.7, 35.8, 33.7) (29.57, 15.86, 7.24, 4.82) (1.406, 1.132, 0.377, 0.131) None None None None;
  mkEng "CFM56-5B2/2P" (Some 5.6) (Some 137900) (0.1, 0.1, 3.3, 2.7) (0.7, 1.6, 21.4, 35.5) (29.4, 17.5, 7.6, 4.2) (1.39, 1.11, 0.39, 0.13) None None None None;
  mkEng "CFM56-5B2/3" (Some 5.5) (Some 137900) (0.04, 0.02, 0.05, 1.22) (0.45, 0.23, 2.33, 26.72) (28.26, 20.76, 9.42, 4.53) (1.385, 1.107, 0.358, 0.111) None None None None;
  mkEng "CFM56-5B2/P" (Some 5.6) (Some 137900) (0.1, 0.2, 0.5, 3.6) (0.8, 0.9, 1.9, 19.5) (35.1, 27.4, 10.9, 4.6) (1.361, 1.099, 0.356, 0.113) None None None None;
  mkEng "CFM56-5B3/2P" (Some 5.6) (Some 142400) (0.1, 0.1, 2.9, 2.5) (0.6, 1.3, 19.9, 34.5) (32, 18.6, 7.8, 4.3) (1.47, 1.15, 0.4, 0.13) None None None None;
  mkEng "CFM56-5B3/3" (Some 5.4) (Some 142300) (0.05, 0.02, 0.05, 1.1) (0.54, 0.25, 2.14, 25.59) (30.9, 21.83, 9.56, 4.6) (1.462, 1.153, 0.369, 0.113) None None None None;
  mkEng "CFM56-5B3/P" (Some 5.6) (Some 142350) (0.1, 0.2, 0.5, 3.5) (0.8, 0.9, 1.7, 19.2) (37.3, 28.5, 11.2, 4.7) (1.43, 1.141, 0.366, 0.115) None None None None;
  mkEng "CFM56-5B4" (Some 5.9) (Some 117900) (0.1, 0.1, 0.13, 3.87) (0.5, 0.5, 2.33, 31.9) (28.7, 23.3, 10, 4.3) (1.166, 0.961, 0.326, 0.107) (Some 22241) (Some 0.0154) (Some 0.8) (Some 35000);
  mkEng "CFM56-5B4/2" (Some 5.7) (Some 117900) (0.1, 0.1, 11.4, 2.2) (1.6, 4.9, 43.8, 37.1) (16.61, 12.58, 6.13, 4.49) (1.18, 0.975, 0.335, 0.121) None None None None;
  mkEng "CFM56-5B4/2P" (Some 5.9) (Some 120100) (0.1, 0.2, 5.3, 3.6) (1.4, 3.6, 29.1, 40.1) (18.4, 13.6, 6.5, 3.9) (1.14, 0.95, 0.34, 0.12) None None None None;
  mkEng "CFM56-5B4/3" (Some 5.7) (Some 120100) (0.02, 0.02, 0.05, 1.92) (0.25, 0.16, 3.24, 32.07) (21.57, 17.23, 8.85, 4.22) (1.142, 0.939, 0.316, 0.102) None None None None;
  mkEng "CFM56-5B4/P" (Some 5.9) (Some 120110) (0.2, 0.2, 0.5, 4.6) (0.9, 0.9, 2.3, 23.4) (28, 23.2, 10, 4.3) (1.132, 0.935, 0.312, 0.104) None None None None;
  mkEng "CFM56-5B5/3" (Some 6) (Some 97900) (0.03, 0.03, 0.08, 3.55) (0.15, 0.2, 4.94, 41.77) (16.42, 14.01, 8.03, 3.81) (0.894, 0.743, 0.264, 0.092) None None None None;
  mkEng "CFM56-5B5/P" (Some 5.9) (Some 97890) (0.2, 0.2, 0.7, 6.2) (0.9, 1, 3.4, 30) (21.9, 18.5, 8.7, 3.8) (0.891, 0.742, 0.26, 0.094) None None None None;
  mkEng "CFM56-5B6/2" (Some 5.7) (Some 104500) (0.1, 0.2, 0.2, 3.4) (4.48, 12.18, 17.75, 46.1) (13.51, 10.41, 10.32, 3.9) (0.998, 0.827, 0.315, 0.111) None None None None;
  mkEng "CFM56-5B6/2P" (Some 6) (Some 104500) (0.2, 0.2, 0.4, 4.6) (3.1, 7.4, 21.5, 44.8) (14.2, 11, 8.7, 3.6) (0.97, 0.81, 0.31, 0.11) None None None None;
  mkEng "CFM56-5B6/3" (Some 5.9) (Some 104500) (0.02, 0.03, 0.07, 2.93) (0.17, 0.17, 4.35, 38.39) (17.73, 14.88, 8.29, 3.94) (0.965, 0.8, 0.279, 0.095) None None None None;
  mkEng "CFM56-5B6/P" (Some 6) (Some 104530) (0.2, 0.2, 0.6, 5.5) (0.9, 1, 2.9, 27.7) (23.6, 19.6, 9.2, 4) (0.961, 0.799, 0.275, 0.097) None None None None;
  mkEng "CFM56-5B7/3" (Some 5.7) (Some 120100) (0.02, 0.02, 0.05, 1.92) (0.25, 0.16, 3.24, 32.07) (21.57, 17.23, 8.85, 4.22) (1.142, 0.939, 0.316, 0.102) None None None None;
  mkEng "CFM56-5B7/P" (Some 5.9) (Some 120110) (0.2, 0.2, 0.5, 4.6) (0.9, 0.9, 2.3, 23.4) (28, 23.2, 10, 4.3) (1.132, 0.935, 0.312, 0.104) None None None None;
  mkEng "CFM56-5B8/3" (Some 6) (Some 96100) (0.03, 0.03, 0.08, 3.76) (0.15, 0.21, 5.12, 42.82) (16.1, 13.79, 7.96, 3.77) (0.875, 0.727, 0.26, 0.091) None None None None;
  mkEng "CFM56-5B8/P" (Some 5.9) (Some 94700) (0.1, 0.1, 0.9, 6.5) (0.8, 0.8, 3.9, 32.9) (19.7, 16.7, 8.4, 3.4) (0.875, 0.729, 0.262, 0.094) None None None None;
  mkEng "CFM56-5B9/2P" (Some 5.9) (Some 102200) (0.2, 0.3, 0.4, 4.4) (2.9, 8.1, 21, 44.1) (13.9, 10.7, 7.6, 3.2) (0.961, 0.799, 0.296, 0.105) None None None None;
  mkEng "CFM56-5B9/3" (Some 5.9) (Some 103600) (0.02, 0.03, 0.07, 3.01) (0.16, 0.17, 4.42, 38.8) (17.54, 14.76, 8.26, 3.92) (0.956, 0.793, 0.278, 0.095) None None None None;
  mkEng "CFM56-5B9/P" (Some 5.9) (Some 102200) (0.1, 0.1, 0.8, 5.9) (0.8, 0.8, 3.7, 30.4) (21.4, 17.9, 8.8, 3.6) (0.954, 0.794, 0.28, 0.098) None None None None;
  mkEng "CFM56-5C2" (Some 6.8) (Some 138780) (0.008, 0.008, 0.082, 5.68) (0.93, 0.8, 1.75, 34) (32.6, 25.8, 10, 4.19) (1.308, 1.076, 0.3558, 0.1175) (Some 30759) (Some 0.0154) (Some 0.8) (Some 35000);
  mkEng "CFM56-5C2/P" (Some 6.8) (Some 137610) (0, 0, 0, 5.8) (0.8, 0.7, 2.1, 35.1) (29.7, 23.8, 9.3, 3.9) (1.252, 1.035, 0.342, 0.109) None None None None;
  mkEng "CFM56-5C3" (Some 6.7) (Some 144570) (0.008, 0.008, 0.074, 5.35) (0.98, 0.82, 1.57, 32.6) (34.7, 27.1, 10.4, 4.26) (1.373, 1.131, 0.37, 0.1203) (Some 30737) (Some 0.0154) (Some 0.8) (Some 35000);
  mkEng "CFM56-5C3/P" (Some 6.7) (Some 143330) (0, 0, 0, 5.4) (0.8, 0.7, 1.9, 33.4) (31.6, 25.1, 9.6, 4) (1.316, 1.085, 0.355, 0.112) None None None None;
  mkEng "CFM56-5C4" (Some 6.6) (Some 151250) (0.008, 0.008, 0.065, 5) (1, 0.85, 1.4, 30.93) (37.67, 29.05, 10.67, 4.28) (1.456, 1.195, 0.386, 0.124) (Some 31582) (Some 0.0154) (Some 0.8) (Some 35000);
  mkEng "CFM56-5C4/P" (Some 6.6) (Some 149900) (0, 0, 0, 5) (0.8, 0.7, 1.6, 31.6) (34.1, 26.7, 9.9, 4.1) (1.395, 1.143, 0.37, 0.115) None None None None;
  mkEng "CFM56-7B18" (Some 5.5) (Some 86740) (0.1, 0.1, 0.1, 3.5) (0.6, 0.4, 3.6, 28.3) (19.2, 16.6, 9.1, 4.3) (0.854, 0.714, 0.26, 0.097) (Some 24109) None (Some 0.8) (Some 35000);
  mkEng "CFM56-7B18/3" (Some 5.5) (Some 86700) (0.03, 0.03, 0.08, 4.51) (0.17, 0.28, 5.54, 46.64) (14.81, 13, 7.78, 3.65) (0.842, 0.702, 0.256, 0.092) None None None None;
  mkEng "CFM56-7B20" (Some 5.4) (Some 91630) (0.1, 0.1, 0.1, 3.1) (0.6, 0.5, 3.2, 25.9) (20.5, 17.4, 9.5, 4.3) (0.913, 0.761, 0.274, 0.1) (Some 24242) (Some 0.0179) (Some 0.8) (Some 35000);
  mkEng "CFM56-7B20/2" (Some 5.4) (Some 91630) (0.07, 0.23, 0.36, 8.11) (4.26, 11.38, 11.37, 49.71) (13.25, 10.81, 9.39, 3.75) (0.903, 0.754, 0.278, 0.102) None None None None;
  mkEng "CFM56-7B20/3" (Some 5.5) (Some 91600) (0.03, 0.03, 0.08, 3.84) (0.15, 0.23, 5.03, 43.31) (15.61, 13.53, 7.98, 3.77) (0.896, 0.746, 0.268, 0.094) None None None None;
  mkEng "CFM56-7B20E" (Some 5.5) (Some 91600) (0.03, 0.03, 0.08, 3.84) (0.15, 0.23, 5.03, 43.31) (15.61, 13.5, 8, 3.8) (0.896, 0.746, 0.268, 0.094) None None None None;
  mkEng "CFM56-7B22" (Some 5.3) (Some 100970) (0.1, 0.1, 0.1, 2.5) (0.5, 0.6, 2.5, 22.8) (23.1, 19, 10, 4.5) (1.021, 0.844, 0.298, 0.105) (Some 24242) None (Some 0.8) (Some 35000);
  mkEng "CFM56-7B22/2" (Some 5.3) (Some 100970) (0.06, 0.1, 6.06, 7.26) (2.18, 6.58, 30.87, 45.35) (15.08, 12.16, 6.37, 3.94) (1.008, 0.837, 0.303, 0.105) None None None None;
  mkEng "CFM56-7B22/3" (Some 5.3) (Some 101000) (0.02, 0.03, 0.07, 2.83) (0.16, 0.17, 4.18, 37.9) (17.4, 14.67, 8.35, 3.95) (1.004, 0.832, 0.291, 0.099) None None None None;
  mkEng "CFM56-7B22E" (Some 5.3) (Some 101000) (0.02, 0.03, 0.07, 2.83) (0.16, 0.17, 4.18, 37.9) (17.4, 14.67, 8.35, 3.95) (1.004, 0.832, 0.291, 0.099) None None None None;
  mkEng "CFM56-7B22E/B1" (Some 5.3) (Some 101000) (0.02, 0.03, 0.07, 2.83) (0.16, 0.17, 4.18, 37.9) (17.4, 14.67, 8.35, 3.95) (1.004, 0.832, 0.291, 0.099) None None None None;
  mkEng "CFM56-7B24" (Some 5.2) (Some 107650) (0.1, 0.1, 0.1, 2.4) (0.4, 0.6, 2.2, 22) (25.3, 20.5, 10.1, 4.4) (1.103, 0.91, 0.316, 0.109) (Some 24376) (Some 0.0178) (Some 0.8) (Some 35000);
  mkEng "CFM56-7B24/2" (Some 5.2) (Some 107650) (0.05, 0.07, 6.01, 6.55) (1.38, 4.3, 30.32, 42.72) (16.63, 13.23, 6.72, 4.08) (1.089, 0.902, 0.313, 0.109) None None None None;
  mkEng "CFM56-7B24/3" (Some 5.3) (Some 107600) (0.02, 0.03, 0.06, 2.3) (0.18, 0.15, 3.68, 34.71) (18.93, 15.6, 8.6, 4.09) (1.086, 0.895, 0.308, 0.103) None None None None;
  mkEng "CFM56-7B24E" (Some 5.3) (Some 107600) (0.02, 0.03, 0.06, 2.3) (0.18, 0.15, 3.68, 34.71) (18.93, 15.6, 8.6, 4.09) (1.086, 0.895, 0.308, 0.103) None None None None;
  mkEng "CFM56-7B24E/B1" (Some 5.3) (Some 107600) (0.02, 0.03, 0.06, 2.3) (0.18, 0.15, 3.68, 34.71) (18.93, 15.6, 8.6, 4.09) (1.086, 0.895, 0.308, 0.103) None None None None;
  mkEng "CFM56-7B26" (Some 5.1) (Some 116990) (0.1, 0.1, 0.1, 1.9) (0.2, 0.6, 1.6, 18.8) (28.8, 22.5, 10.8, 4.7) (1.221, 0.999, 0.338, 0.113) (Some 24376) None (Some 0.8) (Some 35000);
  mkEng "CFM56-7B26/2" (Some 5.1) (Some 116990) (0.03, 0.06, 4.73, 5.88) (0.77, 2.51, 26.07, 39.93) (19.2, 14.77, 7.26, 4.27) (1.203, 0.989, 0.334, 0.113) None None None None;
  mkEng "CFM56-7B26/3" (Some 5.1) (Some 117000) (0.02, 0.02, 0.05, 1.75) (0.25, 0.16, 3.07, 30.94) (21.79, 17.08, 8.93, 4.27) (1.213, 0.986, 0.331, 0.108) None None None None;
  mkEng "CFM56-7B26E" (Some 5.1) (Some 117000) (0.02, 0.02, 0.05, 1.75) (0.2, 0.16, 3.07, 30.94) (21.79, 17.08, 8.93, 4.27) (1.213, 0.986, 0.331, 0.108) None None None None;
  mkEng "CFM56-7B26E/B1" (Some 5.1) (Some 117000) (0.02, 0.02, 0.05, 1.75) (0.2, 0.16, 3.07, 30.94) (21.79, 17.08, 8.93, 4.27) (1.213, 0.986, 0.331, 0.108) None None None None;
  mkEng "CFM56-7B26E/B2" (Some 5.1) (Some 117000) (0.02, 0.02, 0.05, 1.75) (0.2, 0.16, 3.07, 30.94) (21.79, 17.08, 8.93, 4.27) (1.213, 0.986, 0.331, 0.108) None None None None;
  mkEng "CFM56-7B26E/B2F" (Some 5.1) (Some 117000) (0.02, 0.02, 0.05, 1.75) (0.2, 0.16, 3.07, 30.94) (21.79, 17.08, 8.93, 4.27) (1.213, 0.986, 0.331, 0.108) None None None None;
  mkEng "CFM56-7B26E/F" (Some 5.1) (Some 117000) (0.02, 0.02, 0.05, 1.75) (0.2, 0.16, 3.07, 30.94) (21.79, 17.08, 8.93, 4.27) (1.213, 0.986, 0.331, 0.108) None None None None;
  mkEng "CFM56-7B27" (Some 5) (Some 121440) (0.1, 0.1, 0.1, 1.7) (0.2, 0.5, 1.4, 17.9) (30.9, 23.7, 11, 4.8) (1.284, 1.043, 0.349, 0.116) None None None None].

(** openap/data/engine/engines.csv, rows 102-201 *)
Definition engines_1 : list engrec := [
  mkEng "CFM56-7B27/2" (Some 5) (Some 121440) (0.05, 0.06, 4.21, 5.56) (0.54, 1.97, 24.28, 38.73) (20.81, 15.59, 7.53, 4.36) (1.265, 1.033, 0.351, 0.115) None None None None;
  mkEng "CFM56-7B27/3" (Some 5.1) (Some 121400) (0.03, 0.02, 0.05, 1.54) (0.31, 0.17, 2.82, 29.39) (23.94, 17.89, 9.09, 4.36) (1.293, 1.031, 0.343, 0.11) None None None None;
  mkEng "CFM56-7B27AE" (Some 5.1) (Some 121400) (0.03, 0.02, 0.05, 1.54) (0.31, 0.17, 2.82, 29.39) (23.94, 17.89, 9.09, 4.36) (1.293, 1.031, 0.343, 0.11) None None None None;
  mkEng "CFM56-7B27E" (Some 5.1) (Some 121400) (0.03, 0.02, 0.05, 1.54) (0.31, 0.17, 2.82, 29.39) (23.94, 17.89, 9.09, 4.36) (1.293, 1.031, 0.343, 0.11) None None None None;
  mkEng "CFM56-7B27E/B1" (Some 5.1) (Some 121400) (0.03, 0.02, 0.05, 1.54) (0.31, 0.17, 2.82, 29.39) (23.94, 17.89, 9.09, 4.36) (1.293, 1.031, 0.343, 0.11) None None None None;
  mkEng "CFM56-7B27E/B1F" (Some 5.1) (Some 121400) (0.03, 0.02, 0.05, 1.54) (0.31, 0.17, 2.82, 29.39) (23.94, 17.89, 9.09, 4.36) (1.293, 1.031, 0.343, 0.11) None None None None;
  mkEng "CFM56-7B27E/B3" (Some 5.1) (Some 121400) (0.03, 0.02, 0.05, 1.54) (0.31, 0.17, 2.82, 29.39) (23.94, 17.89, 9.09, 4.36) (1.293, 1.031, 0.343, 0.11) None None None None;
  mkEng "CFM56-7B27E/F" (Some 5.1) (Some 121400) (0.03, 0.02, 0.05, 1.54) (0.31, 0.17, 2.82, 29.39) (23.94, 17.89, 9.09, 4.36) (1.293, 1.031, 0.343, 0.11) None None None None;
  mkEng "LEAP-1A24/24E1/23" (Some 11.3) (Some 106800) (0.02, 0.02, 0.05, 0.37) (0.24, 0.41, 3.53, 23.79) (17.59, 9.41, 8.02, 4.45) (0.745, 0.616, 0.219, 0.087) None None None None;
  mkEng "LEAP-1A26/26E1" (Some 11.1) (Some 120600) (0.02, 0.02, 0.04, 0.29) (0.24, 0.26, 2.65, 21.63) (30.8, 13.38, 8.75, 4.61) (0.861, 0.71, 0.244, 0.091) None None None None;
  mkEng "LEAP-1A35A/33/33B2/32/30" (Some 10.5) (Some 143100) (0.05, 0.02, 0.04, 0.21) (0.3, 0.24, 1.79, 18.68) (59.74, 32.35, 9.95, 4.85) (1.062, 0.869, 0.284, 0.098) None None None None;
  mkEng "LEAP-1A26CJ" (Some 11.1) (Some 120600) (0.02, 0.02, 0.04, 0.29) (0.24, 0.26, 2.65, 21.63) (30.8, 13.38, 8.75, 4.61) (0.861, 0.71, 0.244, 0.091) None None None None;
  mkEng "LEAP-1A29" (Some 10.7) (Some 130300) (0.04, 0.02, 0.04, 0.25) (0.27, 0.23, 2.21, 20.3) (49.48, 21.03, 9.27, 4.72) (0.946, 0.777, 0.261, 0.094) None None None None;
  mkEng "LEAP-1A29CJ" (Some 10.7) (Some 130300) (0.04, 0.02, 0.04, 0.25) (0.27, 0.23, 2.21, 20.3) (49.48, 21.03, 9.27, 4.72) (0.946, 0.777, 0.261, 0.094) None None None None;
  mkEng "LEAP-1B21" (Some 8.5) (Some 111300) (0.04, 0.04, 0.05, 0.71) (0.15, 0.16, 1.49, 16.19) (30.39, 17.53, 10.26, 4.74) (0.877, 0.722, 0.245, 0.089) None None None None;
  mkEng "LEAP-1B23" (Some 8.5) (Some 115200) (0.04, 0.04, 0.05, 0.64) (0.16, 0.14, 1.36, 15.61) (38.19, 18.11, 10.7, 4.63) (0.916, 0.752, 0.253, 0.091) None None None None;
  mkEng "LEAP-1B25" (Some 8.4) (Some 119200) (0.04, 0.04, 0.05, 0.59) (0.17, 0.14, 1.25, 15.27) (48.9, 20.35, 11.1, 4.57) (0.96, 0.784, 0.26, 0.091) None None None None;
  mkEng "LEAP-1B28BBJ2" (Some 8.3) (Some 124700) (0.05, 0.04, 0.05, 0.51) (0.17, 0.14, 1.11, 14.4) (55.26, 23.26, 11.59, 4.59) (1.014, 0.826, 0.273, 0.095) None None None None;
  mkEng "LEAP-1B27" (Some 8.3) (Some 124700) (0.05, 0.04, 0.05, 0.51) (0.17, 0.14, 1.11, 14.4) (55.26, 23.26, 11.59, 4.59) (1.014, 0.826, 0.273, 0.095) None None None None;
  mkEng "LEAP-1B28B2C" (Some 8.3) (Some 124700) (0.05, 0.04, 0.05, 0.51) (0.17, 0.14, 1.11, 14.4) (55.26, 23.26, 11.59, 4.59) (1.014, 0.826, 0.273, 0.095) None None None None;
  mkEng "LEAP-1B28BBJ1" (Some 8.3) (Some 130400) (0.05, 0.04, 0.05, 0.46) (0.18, 0.15, 0.99, 13.77) (64.36, 29.59, 11.92, 4.68) (1.075, 0.873, 0.285, 0.097) None None None None;
  mkEng "LEAP-1B28/28B2/28B1/28B3" (Some 8.3) (Some 130400) (0.05, 0.04, 0.05, 0.46) (0.18, 0.15, 0.99, 13.77) (64.36, 29.59, 11.92, 4.68) (1.075, 0.873, 0.285, 0.097) None None None None;
  mkEng "GP7270" (Some 8.71) (Some 332390) (0.03, 0.03, 0.07, 4.04) (0.11, 0.09, 1.27, 33.58) (41.73, 31.37, 12.9, 5.24) (2.637, 2.169, 0.711, 0.234) (Some 56194) None (Some 0.85) (Some 35000);
  mkEng "CF34-10A16" (Some 5.7) (Some 76900) (0.06, 0.08, 0.14, 6.96) (0.49, 0.34, 3.98, 52.05) (17.87, 15.04, 7.97, 3.45) (0.765, 0.632, 0.219, 0.083) None None None None;
  mkEng "CF34-10A18" (Some 5.4) (Some 82100) (0.05, 0.08, 0.13, 5.67) (0.66, 0.36, 3.43, 47.29) (19.47, 16.72, 8.26, 3.58) (0.826, 0.684, 0.232, 0.086) None None None None;
  mkEng "CF34-10E2A1" (Some 5.09) (Some 75440) (0.04, 0.05, 0.1, 5.44) (0.41, 0.38, 4.46, 50.81) (17.98, 15.26, 7.64, 3.56) (0.769, 0.64, 0.222, 0.084) None None None None;
  mkEng "CF34-10E5" (Some 5.09) (Some 77400) (0.04, 0.06, 0.09, 5.15) (0.43, 0.38, 4.18, 49.4) (18.51, 15.62, 7.76, 3.59) (0.792, 0.659, 0.227, 0.085) None None None None;
  mkEng "CF34-10E5A1" (Some 5.09) (Some 83700) (0.01, 0.05, 0.06, 4.3) (0.52, 0.39, 3.37, 44.93) (20.45, 16.88, 8.14, 3.72) (0.871, 0.72, 0.244, 0.088) None None None None;
  mkEng "CF34-10E6" (Some 5.09) (Some 77400) (0.04, 0.06, 0.09, 5.15) (0.43, 0.38, 4.18, 49.4) (18.51, 15.62, 7.76, 3.59) (0.792, 0.659, 0.227, 0.085) None None None None;
  mkEng "CF34-10E6A1" (Some 5.09) (Some 83700) (0.01, 0.05, 0.06, 4.3) (0.52, 0.39, 3.37, 44.93) (20.45, 16.88, 8.14, 3.72) (0.871, 0.72, 0.244, 0.088) None None None None;
  mkEng "CF34-10E7" (Some 5.09) (Some 83700) (0.01, 0.05, 0.06, 4.3) (0.52, 0.39, 3.37, 44.93) (20.45, 16.88, 8.14, 3.72) (0.871, 0.72, 0.244, 0.088) None None None None;
  mkEng "CF34-10E7-B" (Some 5.09) (Some 83700) (0.05, 0.09, 0.1, 4.02) (0.89, 0.77, 4.02, 41.73) (19.68, 16.22, 7.94, 3.69) (0.87, 0.717, 0.239, 0.088) None None None None;
  mkEng "CF34-3A" (Some 6.25) (Some 41010) (0.06, 0.06, 0.13, 3.95) (0, 0, 1.9, 42.6) (11.61, 10.14, 6.86, 3.82) (0.407, 0.3343, 0.119, 0.0496) None None None None;
  mkEng "CF34-3A1" (Some 6.25) (Some 41010) (0.06, 0.06, 0.13, 3.95) (0, 0, 1.9, 42.6) (11.61, 10.14, 6.86, 3.82) (0.407, 0.3343, 0.119, 0.0496) None None None None;
  mkEng "CF34-3B" (Some 6.25) (Some 41010) (0.06, 0.05, 0.13, 4.69) (0, 0, 1.88, 47.59) (11.28, 9.68, 6.63, 3.72) (0.3991, 0.3288, 0.116, 0.0489) None None None None;
  mkEng "CF34-8C1" (Some 5.13) (Some 56360) (0.02, 0.03, 0.07, 0.13) (0.59, 0.57, 4.67, 19.73) (13.82, 12, 9.85, 4.03) (0.608, 0.479, 0.1702, 0.0703) None None None None;
  mkEng "CF34-8C5" (Some 5.13) (Some 59420) (0.02, 0.02, 0.06, 0.13) (0.64, 0.57, 4.24, 18.25) (14.69, 12.6, 10.75, 4.6) (0.648, 0.53, 0.179, 0.064) None None None None;
  mkEng "CF34-8C5A1" (Some 5.13) (Some 60620) (0.02, 0.02, 0.06, 0.13) (0.66, 0.57, 4.17, 17.85) (15.09, 12.82, 10.87, 4.65) (0.665, 0.543, 0.183, 0.065) None None None None;
  mkEng "CF34-8C5A2" (Some 5.13) (Some 62490) (0.02, 0.02, 0.06, 0.13) (0.71, 0.57, 4.05, 17.3) (15.81, 13.15, 11.06, 4.7) (0.691, 0.563, 0.188, 0.066) None None None None;
  mkEng "CF34-8C5A3" (Some 5.13) (Some 64530) (0.02, 0.02, 0.06, 0.12) (0.77, 0.57, 3.92, 16.71) (16.71, 13.52, 11.09, 4.76) (0.721, 0.586, 0.193, 0.067) None None None None;
  mkEng "CF34-8C5B1" (Some 5.13) (Some 56350) (0.02, 0.03, 0.07, 0.16) (0.6, 0.58, 4.44, 19.52) (13.89, 12.03, 10.42, 4.5) (0.606, 0.497, 0.171, 0.063) None None None None;
  mkEng "CF34-8E2" (Some 5.13) (Some 55190) (0.02, 0.03, 0.07, 0.16) (0.59, 0.58, 4.52, 20.01) (13.6, 11.82, 10.29, 4.45) (0.591, 0.485, 0.168, 0.062) None None None None;
  mkEng "CF34-8E2A1" (Some 5.13) (Some 59150) (0.02, 0.02, 0.06, 0.14) (0.64, 0.57, 4.26, 18.36) (14.61, 12.55, 10.72, 4.59) (0.644, 0.527, 0.179, 0.064) None None None None;
  mkEng "CF34-8E5" (Some 5.13) (Some 59680) (0.02, 0.02, 0.06, 0.13) (0.64, 0.57, 4.23, 18.16) (14.77, 12.65, 10.77, 4.61) (0.652, 0.533, 0.18, 0.064) None None None None;
  mkEng "CF34-8E5A1" (Some 5.13) (Some 62490) (0.02, 0.02, 0.06, 0.13) (0.71, 0.57, 4.05, 17.3) (15.81, 13.15, 11.06, 4.7) (0.691, 0.563, 0.188, 0.066) None None None None;
  mkEng "CF34-8E5A2" (Some 5.13) (Some 64530) (0.02, 0.02, 0.06, 0.12) (0.77, 0.57, 3.92, 16.71) (16.71, 13.52, 11.09, 4.76) (0.721, 0.586, 0.193, 0.067) None None None None;
  mkEng "CF34-8E6" (Some 5.13) (Some 59680) (0.02, 0.02, 0.06, 0.13) (0.64, 0.57, 4.23, 18.16) (14.77, 12.65, 10.77, 4.61) (0.652, 0.533, 0.18, 0.064) None None None None;
  mkEng "CF34-8E6A1" (Some 5.13) (Some 62490) (0.02, 0.02, 0.06, 0.13) (0.71, 0.57, 4.05, 17.3) (15.81, 13.15, 11.06, 4.7) (0.691, 0.563, 0.188, 0.066) None None None None;
  mkEng "CF6-45A" (Some 4.3) (Some 202800) (0.09, 0.14, 0.35, 2.72) (0.43, 0.54, 5.01, 24.04) (25.45, 21.61, 9.36, 3.4) (2.027, 1.663, 0.592, 0.163) (Some 50042) (Some 0.0178) (Some 0.8) (Some 35000);
  mkEng "CF6-45A2" (Some 4.3) (Some 202800) (0.09, 0.14, 0.35, 2.72) (0.43, 0.54, 5.01, 24.04) (25.45, 21.61, 9.36, 3.4) (2.027, 1.663, 0.592, 0.163) (Some 50042) (Some 0.0178) (Some 0.8) (Some 35000);
  mkEng "CF6-50A" (Some 4.3) (Some 215300) (0.15, 0.14, 0.31, 2.72) (0.43, 0.49, 4.35, 24.04) (27.17, 23.27, 9.72, 3.4) (2.168, 1.787, 0.625, 0.163) None None None None;
  mkEng "CF6-50C" (Some 4.3) (Some 224200) (0.14, 0.14, 0.29, 2.72) (0.44, 0.46, 3.99, 24.04) (28.03, 24.3, 10.09, 3.4) (2.281, 1.875, 0.641, 0.163) (Some 49375) (Some 0.0186) (Some 0.8) (Some 35000);
  mkEng "CF6-50C1" (Some 4.3) (Some 230400) (0.14, 0.15, 0.28, 2.72) (0.45, 0.45, 3.71, 24.04) (28.97, 25.5, 10.16, 3.4) (2.361, 1.94, 0.663, 0.163) (Some 51399) (Some 0.0186) (Some 0.8) (Some 35000);
  mkEng "CF6-50C1, -C2" (Some 4.3) (Some 230400) (0.6, 0.7, 1, 21.8) (0.5, 0.5, 4.3, 61.8) (36.3, 29.7, 9.5, 3.6) (2.487, 1.975, 0.66, 0.215) None None None None;
  mkEng "CF6-50C2" (Some 4.3) (Some 230400) (0.14, 0.15, 0.28, 2.72) (0.45, 0.45, 3.71, 24.04) (28.97, 25.5, 10.16, 3.4) (2.361, 1.94, 0.663, 0.163) (Some 51399) (Some 0.0178) (Some 0.8) (Some 35000);
  mkEng "CF6-50C2B" (Some 4.3) (Some 236700) (0.13, 0.15, 0.26, 2.72) (0.46, 0.44, 3.42, 24.04) (29.59, 26.34, 10.49, 3.4) (2.41, 1.997, 0.667, 0.163) (Some 51399) (Some 0.0178) (Some 0.8) (Some 35000);
  mkEng "CF6-50C2R" (Some 4.3) (Some 224200) (0.14, 0.14, 0.29, 2.72) (0.44, 0.46, 3.99, 24.04) (28.03, 24.3, 10.09, 3.4) (2.281, 1.875, 0.641, 0.163) None None None None;
  mkEng "CF6-50CA" (Some 4.3) (Some 224200) (0.14, 0.14, 0.29, 2.72) (0.44, 0.46, 3.99, 24.04) (28.03, 24.3, 10.09, 3.4) (2.281, 1.875, 0.641, 0.163) None None None None;
  mkEng "CF6-50E" (Some 4.3) (Some 230400) (0.14, 0.15, 0.28, 2.72) (0.45, 0.45, 3.71, 24.04) (28.97, 25.5, 10.16, 3.4) (2.361, 1.94, 0.663, 0.163) (Some 51399) (Some 0.0186) (Some 0.8) (Some 35000);
  mkEng "CF6-50E1" (Some 4.3) (Some 230400) (0.14, 0.15, 0.28, 2.72) (0.45, 0.45, 3.71, 24.04) (28.97, 25.5, 10.16, 3.4) (2.361, 1.94, 0.663, 0.163) (Some 51399) (Some 0.0186) (Some 0.8) (Some 35000);
  mkEng "CF6-50E2" (Some 4.3) (Some 230400) (0.14, 0.15, 0.28, 2.72) (0.45, 0.45, 3.71, 24.04) (28.97, 25.5, 10.16, 3.4) (2.361, 1.94, 0.663, 0.163) (Some 51399) (Some 0.0178) (Some 0.8) (Some 35000);
  mkEng "CF6-50E2B" (Some 4.3) (Some 236700) (0.13, 0.15, 0.26, 2.72) (0.46, 0.44, 3.42, 24.04) (29.59, 26.34, 10.49, 3.4) (2.41, 1.997, 0.667, 0.163) (Some 52177) (Some 0.0178) (Some 0.8) (Some 35000);
  mkEng "CF6-6D" (Some 5.9) (Some 174800) (0.3, 0.3, 0.7, 21) (0.5, 0.5, 6.5, 54.2) (40, 32.6, 11.4, 4.5) (1.736, 1.431, 0.4839, 0.1728) (Some 40389) (Some 0.0183) (Some 0.8) (Some 35000);
  mkEng "CF6-6D1A" (Some 5.9) (Some 181900) (0.3, 0.3, 0.6, 19.9) (0.5, 0.5, 5.5, 52) (41.6, 33.9, 11.8, 4.6) (1.812, 1.502, 0.494, 0.176) (Some 41012) (Some 0.0183) (Some 0.8) (Some 35000);
  mkEng "CF6-6K" (Some 5.9) (Some 174800) (0.3, 0.3, 0.7, 21) (0.5, 0.5, 6.5, 54.2) (40, 32.6, 11.4, 4.5) (1.736, 1.431, 0.4839, 0.1728) None None None None;
  mkEng "CF6-6K2" (Some 5.9) (Some 181900) (0.3, 0.3, 0.6, 19.9) (0.5, 0.5, 5.5, 52) (41.6, 33.9, 11.8, 4.6) (1.812, 1.502, 0.494, 0.176) None None None None;
  mkEng "CF6-80A" (Some 5) (Some 208800) (0.29, 0.29, 0.47, 6.29) (1, 1.1, 3.1, 28.2) (29.8, 25.6, 10.3, 3.4) (2.145, 1.795, 0.615, 0.15) (Some 49130) (Some 0.0176) (Some 0.8) (Some 35000);
  mkEng "CF6-80A1" (Some 5) (Some 209000) (0.29, 0.29, 0.47, 6.29) (1, 1.1, 3.1, 28.2) (29.8, 25.6, 10.3, 3.4) (2.145, 1.795, 0.615, 0.15) (Some 49130) (Some 0.0176) (Some 0.8) (Some 35000);
  mkEng "CF6-80A2" (Some 5) (Some 216500) (0.3, 0.37, 0.45, 6.28) (1, 1.1, 2.8, 28.2) (29.6, 26.6, 10.8, 3.4) (2.254, 1.885, 0.641, 0.15) (Some 49130) (Some 0.0176) (Some 0.8) (Some 35000);
  mkEng "CF6-80A3" (Some 5) (Some 217800) (0.3, 0.37, 0.45, 6.28) (1, 1.1, 2.8, 28.2) (29.6, 26.6, 10.8, 3.4) (2.254, 1.885, 0.641, 0.15) (Some 49130) (Some 0.0176) (Some 0.8) (Some 35000);
  mkEng "CF6-80C2A1" (Some 5.1) (Some 257399) (0.05, 0.05, 0.12, 1.59) (0.05, 0.04, 2.05, 19.76) (26.55, 20.45, 12.43, 4.68) (2.453, 1.989, 0.651, 0.201) (Some 52533) (Some 0.0163) (Some 0.8) (Some 35000);
  mkEng "CF6-80C2A2" (Some 5.1) (Some 233350) (0.05, 0.05, 0.12, 1.9) (0.04, 0.05, 2.56, 21.97) (22.35, 18.37, 11.86, 4.49) (2.152, 1.771, 0.59, 0.192) (Some 50398) (Some 0.0164) (Some 0.8) (Some 35000);
  mkEng "CF6-80C2A3" (Some 5.1) (Some 262220) (0.04, 0.05, 0.11, 1.54) (0.06, 0.04, 1.98, 19.32) (27.68, 21.05, 12.48, 4.72) (2.516, 2.041, 0.662, 0.203) (Some 50442) (Some 0.0163) (Some 0.8) (Some 35000);
  mkEng "CF6-80C2A5" (Some 5.1) (Some 267340) (0.04, 0.05, 0.11, 1.48) (0.06, 0.04, 1.91, 18.89) (28.57, 21.69, 12.53, 4.76) (2.58, 2.096, 0.672, 0.205) None None None None;
  mkEng "CF6-80C2A5F" (Some 5.1) (Some 271880) (0.05, 0.04, 0.11, 1.18) (0.05, 0.04, 1.92, 16.96) (28.11, 21.27, 12.64, 4.9) (2.63, 2.106, 0.691, 0.22) None None None None;
  mkEng "CF6-80C2A8" (Some 5.1) (Some 257370) (0.05, 0.05, 0.12, 1.59) (0.05, 0.04, 2.05, 19.76) (26.42, 20.45, 12.43, 4.68) (2.444, 1.989, 0.651, 0.201) None None None None;
  mkEng "CF6-80C2B1" (Some 5.1) (Some 249010) (0.05, 0.05, 0.12, 1.71) (0.04, 0.04, 2.18, 20.62) (24.93, 19.68, 12.32, 4.6) (2.34, 1.922, 0.63, 0.197) (Some 57026) (Some 0.0163) (Some 0.8) (Some 35000);
  mkEng "CF6-80C2B1F" (Some 5.1) (Some 254260) (0.05, 0.05, 0.11, 1.54) (0.04, 0.04, 2.13, 19.23) (24.94, 19.72, 12.47, 4.73) (2.422, 1.983, 0.65, 0.199) (Some 57026) (Some 0.016) (Some 0.8) (Some 35000);
  mkEng "CF6-80C2B2" (Some 5.1) (Some 231080) (0.05, 0.05, 0.12, 1.97) (0.04, 0.05, 2.61, 22.41) (22.02, 18.25, 11.79, 4.45) (2.124, 1.756, 0.585, 0.19) (Some 53378) (Some 0.0163) (Some 0.8) (Some 35000);
  mkEng "CF6-80C2B2F" (Some 5.1) (Some 231350) (0.05, 0.05, 0.12, 1.86) (0.04, 0.06, 2.64, 21.56) (21.55, 18.09, 11.8, 4.52) (2.148, 1.777, 0.593, 0.188) None None None None;
  mkEng "CF6-80C2B4" (Some 5.1) (Some 254350) (0.05, 0.05, 0.12, 1.59) (0.05, 0.04, 2.12, 19.76) (25.93, 20.17, 12.37, 4.68) (2.409, 1.965, 0.641, 0.201) None None None None;
  mkEng "CF6-80C2B4F" (Some 5.1) (Some 254790) (0.05, 0.05, 0.11, 1.54) (0.04, 0.04, 2.13, 19.23) (25.08, 19.72, 12.47, 4.73) (2.432, 1.983, 0.65, 0.199) None None None None;
  mkEng "CF6-80C2B5F" (Some 5.1) (Some 272530) (0.05, 0.05, 0.11, 1.31) (0.05, 0.04, 1.83, 17.45) (28.58, 21.76, 12.74, 4.91) (2.685, 2.162, 0.697, 0.206) None None None None;
  mkEng "CF6-80C2B6" (Some 5.1) (Some 267200) (0.04, 0.05, 0.11, 1.48) (0.06, 0.04, 1.91, 18.89) (28.57, 21.69, 12.53, 4.76) (2.58, 2.096, 0.672, 0.205) None None None None;
  mkEng "CF6-80C2B6F" (Some 5.1) (Some 267030) (0.05, 0.05, 0.11, 1.43) (0.05, 0.04, 1.93, 18.42) (27.38, 21.05, 12.63, 4.81) (2.594, 2.104, 0.682, 0.203) None None None None;
  mkEng "CF6-80C2B7F" (Some 5.1) (Some 267030) (0.05, 0.05, 0.11, 1.43) (0.05, 0.04, 1.93, 18.42) (27.38, 21.05, 12.63, 4.81) (2.594, 2.104, 0.682, 0.203) None None None None;
  mkEng "CF6-80C2B8F" (Some 5.1) (Some 267000) (0.04, 0.04, 0.09, 1.14) (0.03, 0.02, 1.69, 16.69) (26.85, 20.84, 12.42, 4.59) (2.583, 2.106, 0.685, 0.205) None None None None;
  mkEng "CF6-80C2B8FA" (Some 5.1) (Some 267020) (0.05, 0.05, 0.11, 1.41) (0.05, 0.04, 1.97, 18.27) (26.9, 20.85, 12.63, 4.83) (2.605, 2.117, 0.688, 0.205) None None None None;
  mkEng "CF6-80C2D1F" (Some 5.1) (Some 269960) (0.04, 0.05, 0.11, 1.38) (0.05, 0.04, 1.9, 18.02) (28.12, 21.3, 12.66, 4.85) (2.629, 2.126, 0.688, 0.205) None None None None;
  mkEng "CF6-80E1A1" (Some 5.1) (Some 281530) (0.05, 0.04, 0.11, 1.3) (0.05, 0.04, 1.92, 17.64) (27.59, 21.44, 12.61, 4.87) (2.702, 2.199, 0.714, 0.226) None None None None;
  mkEng "CF6-80E1A2" (Some 5.1) (Some 287040) (0.04, 0.04, 0.11, 1.25) (0.05, 0.04, 1.85, 17.37) (28.72, 22.01, 12.66, 4.88) (2.767, 2.245, 0.724, 0.228) None None None None;
  mkEng "CF6-80E1A3" (Some 5.1) (Some 304800) (0.07, 0.07, 0.18, 9.53) (0.34, 0.31, 1.23, 37.02) (45.63, 31.74, 10.29, 4.69) (2.989, 2.387, 0.755, 0.227) None None None None;
  mkEng "CF6-80E1A4" (Some 5.1) (Some 297440) (0.04, 0.04, 0.09, 0.92) (0.04, 0.02, 1.44, 15.05) (31.28, 23.54, 12.66, 4.77) (2.904, 2.337, 0.744, 0.227) None None None None;
  mkEng "GE90-110B1" (Some 7.3) (Some 492600) (0.029, 0.024, 0.053, 3.865) (0.128, 0.143, 2.499, 35.724) (45.247, 34.387, 15.53, 5.421) (4.226, 3.375, 1.029, 0.334) None None None None;
  mkEng "GE90-113B" (Some 7.2) (Some 504900) (0.031, 0.024, 0.05, 3.726) (0.126, 0.14, 2.295, 35.036) (48.351, 35.53, 15.9, 5.475) (4.43, 3.484, 1.054, 0.338) None None None None;
  mkEng "GE90-115B" (Some 7.1) (Some 513900) (0.032, 0.024, 0.048, 3.636) (0.125, 0.137, 2.16, 34.578) (51.068, 36.44, 16.166, 5.511) (4.6, 3.566, 1.073, 0.341) None None None None;
  mkEng "GE90-76B" (Some 8.53) (Some 363220) (0.03, 0.03, 0.07, 3.21) (0.31, 0.32, 2.77, 34.12) (40.25, 32.43, 13.76, 5.1) (2.796, 2.281, 0.738, 0.258) (Some 77843) (Some 0.0154) (Some 0.83) (Some 35000);
  mkEng "GE90-77B" (Some 8.52) (Some 366750) (0.03, 0.03, 0.07, 3.16) (0.31, 0.32, 2.71, 33.81) (40.83, 32.78, 13.87, 5.12) (2.83, 2.309, 0.745, 0.26) None None None None;
  mkEng "GE90-85B" (Some 8.41) (Some 397210) (0.04, 0.03, 0.06, 2.8) (0.3, 0.31, 2.16, 31.34) (45.54, 36.35, 14.77, 5.33) (3.131, 2.553, 0.804, 0.271) (Some 77843) (Some 0.0147) (Some 0.83) (Some 35000);
  mkEng "GE90-90B" (Some 8.36) (Some 419250) (0.04, 0.03, 0.06, 2.59) (0.3, 0.31, 1.88, 29.89) (49.21, 39.07, 15.44, 5.48) (3.38, 2.735, 0.852, 0.28) None None None None].

(** openap/data/engine/engines.csv, rows 202-301 *)
Definition engines_2 : list engrec := [
  mkEng "GE90-92B" (Some 8.33) (Some 426720) (0.04, 0.04, 0.07, 0.37) (0.15, 0.15, 0.94, 12.35) (55.9, 40.51, 17.74, 5.92) (3.515, 2.844, 0.917, 0.304) None None None None;
  mkEng "GE90-94B" (Some 8.33) (Some 430920) (0.04, 0.03, 0.06, 2.49) (0.3, 0.31, 1.74, 29.23) (51.33, 40.63, 15.81, 5.55) (3.513, 2.831, 0.876, 0.284) None None None None;
  mkEng "GEnx-1B54" (Some 9.4) (Some 255300) (0.02, 0.02, 0.08, 1.34) (0.36, 1.55, 4.18, 26.1) (14.96, 9.18, 8.07, 3.98) (1.878, 1.553, 0.523, 0.184) None None None None;
  mkEng "GEnx-1B58" (Some 9.2) (Some 271300) (0.02, 0.02, 0.07, 1.11) (0.25, 0.87, 3.69, 24.31) (18.04, 11.02, 8.41, 4.08) (2.019, 1.667, 0.554, 0.19) None None None None;
  mkEng "GEnx-1B64" (Some 9) (Some 298000) (0.02, 0.02, 0.06, 0.81) (0.18, 0.38, 2.99, 21.62) (24.82, 14.61, 9.03, 4.24) (2.265, 1.861, 0.604, 0.199) None None None None;
  mkEng "GEnx-1B67" (Some 8.9) (Some 308700) (0.02, 0.02, 0.06, 0.72) (0.17, 0.3, 2.76, 20.7) (28.56, 16.26, 9.29, 4.3) (2.368, 1.94, 0.625, 0.203) None None None None;
  mkEng "GEnx-1B70" (Some 8.8) (Some 321600) (0.02, 0.02, 0.06, 0.63) (0.17, 0.24, 2.49, 19.68) (34.06, 18.48, 9.63, 4.37) (2.494, 2.037, 0.65, 0.208) None None None None;
  mkEng "GEnx-2B67" (Some 8) (Some 299800) (0.02, 0.02, 0.06, 0.57) (0.17, 0.28, 2.53, 18.95) (31.2, 17.94, 9.58, 4.43) (2.451, 2.012, 0.701, 0.216) None None None None;
  mkEng "GEnx-1B54/P1" (Some 9.4) (Some 255300) (0.02, 0.02, 0.08, 1.02) (0.34, 1.43, 4.09, 23.61) (15.72, 9.71, 8.13, 4.11) (1.893, 1.569, 0.536, 0.195) None None None None;
  mkEng "GEnx-1B58/P1" (Some 9.2) (Some 271300) (0.02, 0.02, 0.07, 0.84) (0.24, 0.8, 3.6, 21.97) (18.86, 11.67, 8.48, 4.22) (2.033, 1.683, 0.567, 0.2) None None None None;
  mkEng "GEnx-1B64/P1" (Some 9) (Some 298000) (0.02, 0.02, 0.06, 0.64) (0.18, 0.36, 2.91, 19.73) (25.74, 15.36, 9.11, 4.37) (2.278, 1.876, 0.618, 0.21) None None None None;
  mkEng "GEnx-1B67/P1" (Some 8.9) (Some 308700) (0.02, 0.02, 0.06, 0.58) (0.18, 0.29, 2.68, 18.94) (29.34, 17.04, 9.39, 4.43) (2.38, 1.954, 0.639, 0.214) None None None None;
  mkEng "GEnx-1B70/P1" (Some 8.8) (Some 321600) (0.02, 0.02, 0.055, 0.52) (0.17, 0.235, 2.42, 18.05) (34.61, 19.3, 9.73, 4.5) (2.505, 2.051, 0.664, 0.219) None None None None;
  mkEng "GEnx-1B70/72/P1" (Some 8.8) (Some 321600) (0.02, 0.02, 0.055, 0.52) (0.17, 0.235, 2.42, 18.05) (34.61, 19.3, 9.73, 4.5) (2.505, 2.051, 0.664, 0.219) None None None None;
  mkEng "GEnx-1B70/75/P1" (Some 8.8) (Some 321600) (0.02, 0.02, 0.055, 0.52) (0.17, 0.235, 2.42, 18.05) (34.61, 19.3, 9.73, 4.5) (2.505, 2.051, 0.664, 0.219) None None None None;
  mkEng "GEnx-1B74/75/P1" (Some 8.8) (Some 341200) (0.03, 0.02, 0.05, 0.44) (0.17, 0.19, 2.09, 16.86) (44.96, 23.36, 10.3, 4.61) (2.709, 2.202, 0.703, 0.226) None None None None;
  mkEng "GEnx-1B75/P1" (Some 8.8) (Some 345200) (0.03, 0.02, 0.05, 0.43) (0.17, 0.19, 2.03, 16.63) (47.53, 24.34, 10.42, 4.64) (2.753, 2.234, 0.711, 0.227) None None None None;
  mkEng "GEnx-2B67B" (Some 8) (Some 299800) (0.02, 0.02, 0.06, 0.57) (0.17, 0.28, 2.53, 18.95) (31.2, 17.94, 9.58, 4.43) (2.451, 2.012, 0.701, 0.216) None None None None;
  mkEng "GEnx-1B54/P2" (Some 9.39) (Some 255300) (0.02, 0.02, 0.06, 0.58) (0.32, 1.73, 2.81, 16.39) (17.22, 11.54, 9.27, 4.66) (1.88, 1.554, 0.527, 0.203) None None None None;
  mkEng "GEnx-1B58/P2" (Some 9.24) (Some 271300) (0.02, 0.02, 0.05, 0.58) (0.18, 0.93, 2.52, 16.39) (20.43, 13.27, 9.67, 4.66) (2.023, 1.668, 0.558, 0.203) None None None None;
  mkEng "GEnx-1B64/P2" (Some 9.01) (Some 298000) (0.02, 0.02, 0.05, 0.56) (0.09, 0.34, 2.11, 16.13) (27.12, 16.85, 10.39, 4.69) (2.273, 1.863, 0.609, 0.204) None None None None;
  mkEng "GEnx-1B67/P2" (Some 8.92) (Some 308700) (0.02, 0.02, 0.05, 0.5) (0.08, 0.24, 1.97, 15.49) (30.32, 18.57, 10.67, 4.76) (2.376, 1.943, 0.629, 0.209) None None None None;
  mkEng "GEnx-1B70/72/P2" (Some 8.81) (Some 321600) (0.02, 0.02, 0.05, 0.44) (0.06, 0.17, 1.82, 14.78) (34.77, 20.87, 11.02, 4.85) (2.504, 2.042, 0.654, 0.213) None None None None;
  mkEng "GEnx-1B70/75/P2" (Some 8.81) (Some 321600) (0.02, 0.02, 0.05, 0.44) (0.06, 0.17, 1.82, 14.78) (34.77, 20.87, 11.02, 4.85) (2.504, 2.042, 0.654, 0.213) None None None None;
  mkEng "GEnx-1B70/P2" (Some 8.81) (Some 321600) (0.02, 0.02, 0.05, 0.44) (0.06, 0.17, 1.82, 14.78) (34.77, 20.87, 11.02, 4.85) (2.504, 2.042, 0.654, 0.213) None None None None;
  mkEng "GEnx-1B74/75/P2" (Some 8.65) (Some 341200) (0.02, 0.02, 0.04, 0.38) (0.05, 0.11, 1.61, 13.8) (42.71, 24.9, 11.56, 4.99) (2.704, 2.196, 0.693, 0.221) None None None None;
  mkEng "GEnx-1B75/P2" (Some 8.62) (Some 345200) (0.03, 0.02, 0.04, 0.37) (0.05, 0.1, 1.57, 13.62) (44.61, 25.83, 11.67, 5.01) (2.746, 2.229, 0.701, 0.222) None None None None;
  mkEng "GEnx-1B76/P2" (Some 8.59) (Some 349200) (0.03, 0.02, 0.04, 0.36) (0.05, 0.09, 1.53, 13.44) (46.9, 26.78, 11.78, 5.04) (2.79, 2.262, 0.709, 0.223) None None None None;
  mkEng "GEnx-1B76A/P2" (Some 8.59) (Some 349200) (0.03, 0.02, 0.04, 0.36) (0.05, 0.09, 1.53, 13.44) (46.9, 26.78, 11.78, 5.04) (2.79, 2.262, 0.709, 0.223) None None None None;
  mkEng "GEnx-2B67/P" (Some 8.03) (Some 299810) (0.02, 0.02, 0.04, 0.41) (0.07, 0.17, 1.78, 14.28) (34.21, 21.1, 11.11, 4.92) (2.453, 2.009, 0.642, 0.219) None None None None;
  mkEng "Passport20-19BB1A" (Some 5.89322) (Some 84159) (0.0139345950270348, 0.0098785822315869, 0.0166878893031197, 0.0402231703208704) (0.290270759392491, 0.299115735767782, 1.2178408026797611, 11.027536326711951) (37.60046480523373, 28.76153228514244, 14.810748797410362, 6.54923068585615) (0.8011861958573865, 0.6573682640192968, 0.2279468167353608, 0.0783289435619542) None None None None;
  mkEng "HTF7000" (Some 4.2) (Some 30620) (0.05, 0.06, 0.12, 1.26) (0.56, 0.63, 6.28, 33.24) (17.9, 16.17, 8.81, 3.91) (0.347, 0.288, 0.104, 0.048) None None None None;
  mkEng "HTF7250G" (Some 4.2) (Some 32860) (0.05, 0.06, 0.12, 0.99) (0.57, 0.6, 6.07, 30.48) (18.43, 16.44, 8.96, 3.965) (0.372, 0.308, 0.107, 0.049) None None None None;
  mkEng "HTF7350" (Some 4.2) (Some 33000) (0.05, 0.06, 0.12, 1) (0.58, 0.59, 5.98, 30.9) (18.79, 16.64, 9.03, 3.98) (0.373, 0.309, 0.107, 0.048) None None None None;
  mkEng "HTF7500E" (Some 4.2) (Some 33830) (0.05, 0.06, 0.12, 0.84) (0.56, 0.57, 5.7, 28.08) (19.06, 16.88, 9.23, 4.04) (0.378, 0.312, 0.108, 0.05) None None None None;
  mkEng "HTF7700L" (Some 4.2) (Some 34030) (0.05, 0.06, 0.11, 0.95) (0.6, 0.58, 5.72, 29.62) (19.4, 16.96, 9.21, 4.01) (0.386, 0.319, 0.109, 0.048) None None None None;
  mkEng "V2500-A1" (Some 5.3) (Some 111200) (0.1, 0.11, 0.15, 0.22) (0.55, 0.55, 0.77, 7.76) (37.13, 30.82, 13.45, 5.91) (1.113, 0.924, 0.334, 0.124) None None None None;
  mkEng "V2522-A5" (Some 4.9) (Some 102500) (0.03, 0.04, 0.07, 0.14) (0.43, 0.44, 2.55, 12.49) (21.34, 18.33, 9.32, 5.09) (0.971, 0.815, 0.31, 0.13) None None None None;
  mkEng "V2524-A5" (Some 4.8) (Some 108900) (0.03, 0.04, 0.07, 0.14) (0.42, 0.44, 2.28, 12.03) (22.96, 19.25, 9.69, 5.18) (1.04, 0.867, 0.326, 0.133) None None None None;
  mkEng "V2525-D5" (Some 4.82) (Some 111200) (0.041, 0.041, 0.061, 0.105) (0.53, 0.62, 2.44, 12.43) (26.5, 22.3, 8.9, 4.7) (1.053, 0.88, 0.319, 0.128) None None None None;
  mkEng "V2527-A5" (Some 4.8) (Some 110300) (0.03, 0.03, 0.07, 0.14) (0.42, 0.44, 2.25, 11.96) (23.18, 19.36, 9.74, 5.19) (1.049, 0.873, 0.328, 0.134) None None None None;
  mkEng "V2527-A5E" (Some 4.8) (Some 110300) (0.03, 0.03, 0.07, 0.14) (0.42, 0.44, 2.25, 11.96) (23.18, 19.36, 9.74, 5.19) (1.049, 0.873, 0.328, 0.134) None None None None;
  mkEng "V2527-A5M" (Some 4.8) (Some 110300) (0.03, 0.03, 0.07, 0.14) (0.42, 0.44, 2.25, 11.96) (23.18, 19.36, 9.74, 5.19) (1.049, 0.873, 0.328, 0.134) None None None None;
  mkEng "V2527E-A5" (Some 4.82) (Some 111200) (0.04, 0.04, 0.06, 0.11) (0.53, 0.62, 2.44, 12.43) (26.5, 22.3, 8.9, 4.7) (1.053, 0.88, 0.319, 0.128) None None None None;
  mkEng "V2527M-A5" (Some 4.82) (Some 111200) (0.04, 0.04, 0.06, 0.11) (0.53, 0.62, 2.44, 12.43) (26.5, 22.3, 8.9, 4.7) (1.053, 0.88, 0.319, 0.128) None None None None;
  mkEng "V2528-D5" (Some 4.66) (Some 124500) (0.043, 0.041, 0.058, 0.102) (0.47, 0.56, 2.03, 11.53) (30.5, 25.1, 9.6, 4.9) (1.209, 0.996, 0.353, 0.134) None None None None;
  mkEng "V2530-A5" (Some 4.6) (Some 133000) (0.02, 0.03, 0.06, 0.12) (0.39, 0.41, 1.65, 10.45) (31.43, 23.92, 10.92, 5.52) (1.325, 1.078, 0.387, 0.145) None None None None;
  mkEng "V2533-A5" (Some 4.5) (Some 140600) (0.01, 0.02, 0.06, 0.12) (0.38, 0.41, 1.54, 10.12) (35.43, 25.65, 11.24, 5.6) (1.433, 1.142, 0.405, 0.147) None None None None;
  mkEng "V2531-E5" (Some 4.52) (Some 134800) (0.01, 0.02, 0.09, 0.07) (0.39, 0.41, 1.57, 10.17) (32.17, 24.28, 11.14, 5.58) (1.329, 1.079, 0.391, 0.144) None None None None;
  mkEng "NK-8-2U" (Some 1.24) (Some 103000) (0.45, 0.55, 5, 103.8) (5.5, 6, 21, 116) (13.9, 12.9, 5.4, 2.7) (1.75, 1.17, 0.58, 0.24) None None None None;
  mkEng "NK-86" (Some 1.33) (Some 127530) (0.5, 0.6, 1.2, 52) (3.9, 4.2, 9.3, 54.4) (12.8, 12.1, 5.1, 2.7) (2.4, 1.6, 0.58, 0.21) None None None None;
  mkEng "NK-86A" (Some 1.13) (Some 130470) (0.2, 0.2, 2.2, 15.3) (1.8, 2.2, 7.8, 38) (15.7, 12.4, 5.8, 3.1) (2.05, 1.7, 0.6, 0.235) None None None None;
  mkEng "NK-86MA" (Some 1.13) (Some 130470) (0.16, 0.13, 0.3, 4.6) (1.55, 1.9, 5.9, 29.8) (13, 9.4, 3.9, 2.3) (2.05, 1.7, 0.6, 0.235) None None None None;
  mkEng "SaM146-1S17" (Some 4.44) (Some 69210) (0.03, 0.04, 0.06, 1.05) (0.26, 0.36, 5.07, 29.36) (16.37, 13.89, 7.1, 3.73) (0.791, 0.653, 0.228, 0.097) None None None None;
  mkEng "SaM146-1S18" (Some 4.38) (Some 72670) (0.02, 0.04, 0.06, 0.82) (0.3, 0.3, 4.67, 27.55) (17.36, 14.52, 7.28, 3.82) (0.841, 0.691, 0.238, 0.1) None None None None;
  mkEng "JT15D-1" (Some 3.3) (Some 9790) (0.01, 0.01, 4.43, 50.5) (2.65, 3.5, 40.5, 132) (7.6, 6.77, 3.44, 1.75) (0.148, 0.124, 0.051, 0.023) None None None None;
  mkEng "JT15D-4" (Some 2.68) (Some 11120) (0.09, 0.19, 5.15, 40) (2.1, 3.18, 32, 97) (9.23, 8.56, 5.29, 2.63) (0.1697, 0.143, 0.059, 0.0261) None None None None;
  mkEng "JT15D-5, -5A, -5B" (Some 2.1) (Some 12900) (0, 1.3, 11.7, 119.1) (0, 1.15, 38.6, 119.2) (11.13, 10.08, 4.93, 1.66) (0.2054, 0.1727, 0.066, 0.0296) None None None None;
  mkEng "JT15D-5C" (Some 2.1) (Some 14190) (0, 0.67, 16, 96.67) (2.52, 4.18, 49.24, 124.6) (9.93, 9.79, 5.23, 1.08) (0.2151, 0.1802, 0.0678, 0.0276) None None None None;
  mkEng "JT3D-3B" (Some 1.4) (Some 80060) (4, 2, 4, 112) (1.5, 2.8, 24.5, 98) (12.1, 9.9, 4.8, 2.5) (1.174, 0.932, 0.346, 0.135) None None None None;
  mkEng "JT3D-7" (Some 1.4) (Some 84520) (0.5, 0.4, 2.1, 123) (0.89, 1.9, 19.5, 138.99) (12.69, 9.59, 5.3, 2.2) (1.254, 1.032, 0.389, 0.128) None None None None;
  mkEng "JT8D-11" (Some 1) (Some 66720) (0.4, 0.45, 1.4, 10) (1.2, 1.9, 9.4, 35) (18.9, 14.6, 5.8, 2.75) (1.121, 0.9136, 0.3339, 0.1455) (Some 21129) (Some 0.0228) (Some 0.8) (Some 30000);
  mkEng "JT8D-15" (Some 1.03) (Some 68940) (0.24, 0.28, 0.55, 1.46) (1.03, 1.15, 2.77, 11) (19.4, 15.1, 6.9, 3.2) (1.178, 0.945, 0.3402, 0.1477) (Some 21885) (Some 0.0229) (Some 0.8) (Some 30000);
  mkEng "JT8D-15A" (Some 1.08) (Some 68940) (0.25, 0.33, 0.65, 1.86) (1.08, 1.2, 2.9, 12.93) (18.1, 13.9, 6.6, 3.1) (1.115, 0.8955, 0.312, 0.1372) (Some 21885) (Some 0.0229) (Some 0.8) (Some 30000);
  mkEng "JT8D-17" (Some 1.02) (Some 71170) (0.22, 0.27, 0.52, 1.25) (0.95, 1.1, 2.67, 10.46) (20.6, 15.7, 8, 3.2) (1.245, 0.997, 0.354, 0.1474) (Some 22863) (Some 0.0231) (Some 0.8) (Some 30000);
  mkEng "JT8D-17A" (Some 1.05) (Some 71170) (0.25, 0.3, 0.64, 6.6) (1.07, 1.16, 2.88, 12.46) (19.1, 14.3, 6.7, 3.2) (1.173, 0.9344, 0.3304, 0.1401) (Some 22863) (Some 0.0219) (Some 0.8) (Some 30000);
  mkEng "JT8D-17AR" (Some 0.96) (Some 77420) (0.21, 0.27, 0.55, 1.33) (0.93, 1.08, 2.68, 10.7) (24.5, 16, 8, 3.2) (1.365, 1.047, 0.3574, 0.1477) (Some 22863) (Some 0.0221) (Some 0.8) (Some 30000);
  mkEng "JT8D-17R" (Some 0.97) (Some 77420) (0.21, 0.27, 0.53, 0.95) (0.95, 1.03, 2.54, 9.43) (25.3, 17.6, 8.4, 3.3) (1.417, 1.103, 0.3755, 0.155) (Some 22863) (Some 0.0232) (Some 0.8) (Some 30000);
  mkEng "JT8D-209" (Some 1.8) (Some 85600) (0.35, 0.5, 1.69, 4.03) (1.03, 1.4, 4.37, 14.1) (22.8, 19, 8.8, 3.5) (1.191, 0.9828, 0.3592, 0.1303) (Some 21996) (Some 0.0205) (Some 0.8) (Some 35000);
  mkEng "JT8D-217" (Some 1.73) (Some 92740) (0.28, 0.43, 1.6, 3.33) (0.8, 1.23, 4.17, 12.27) (25.7, 20.6, 9.1, 3.7) (1.32, 1.078, 0.3833, 0.1372) (Some 23308) (Some 0.0213) (Some 0.8) (Some 35000);
  mkEng "JT8D-217A" (Some 1.73) (Some 92740) (0, 0, 0, 0) (0.42, 0.47, 3.54, 15.31) (17.54, 13.54, 7.66, 4.57) (1.32, 1.078, 0.3833, 0.1372) (Some 23308) (Some 0.0213) (Some 0.8) (Some 35000);
  mkEng "JT8D-217C" (Some 1.7) (Some 92740) (0, 0, 0, 0) (0.42, 0.49, 3.79, 17.89) (16.49, 13.02, 7.65, 4.05) (1.282, 1.045, 0.363, 0.137) (Some 23308) (Some 0.0208) (Some 0.8) (Some 35000);
  mkEng "JT8D-219" (Some 1.7) (Some 96520) (0, 0, 0, 0) (0.42, 0.46, 3.57, 17.19) (18.72, 13.73, 7.65, 4.16) (1.354, 1.085, 0.3817, 0.1344) (Some 23353) (Some 0.0209) (Some 0.8) (Some 35000);
  mkEng "JT8D-7" (Some 1.05) (Some 62270) (0.25, 0.25, 0.4, 3.8) (0.9, 1.1, 2.2, 14.3) (17.2, 14, 6.3, 3.15) (0.9892, 0.8113, 0.2861, 0.1291) (Some 18993) (Some 0.0225) (Some 0.8) (Some 30000);
  mkEng "JT8D-9" (Some 1.04) (Some 64500) (0.15, 0.18, 0.6, 3.12) (1.04, 1.11, 2.14, 14.14) (19.3, 14.5, 6, 2.9) (1.04, 0.8453, 0.2977, 0.1323) (Some 20194) (Some 0.0227) (Some 0.8) (Some 30000);
  mkEng "JT9D-20J" (Some 5.1) (Some 222400) (0, 0, 0.5, 24.5) (0.9, 0.9, 5.5, 66.7) (44.9, 34.9, 9.4, 3.3) (2.315, 1.902, 0.679, 0.238) (Some 47506) (Some 0.0177) (Some 0.85) (Some 35000);
  mkEng "JT9D-59A" (Some 4.9) (Some 235800) (0.2, 0.2, 0.3, 12) (0.2, 0.2, 1.7, 53) (31.6, 25.6, 7.8, 3) (2.4419, 1.9996, 0.6804, 0.237) (Some 53156) (Some 0.0179) (Some 0.85) (Some 35000);
  mkEng "JT9D-70A" (Some 4.9) (Some 235800) (0.2, 0.2, 0.3, 12) (0.2, 0.2, 1.7, 53) (31.6, 25.6, 7.8, 3) (2.4419, 1.9996, 0.6804, 0.237) (Some 53156) (Some 0.0179) (Some 0.85) (Some 35000);
  mkEng "JT9D-7F" (Some 5.1) (Some 213500) (0, 0, 0.6, 25.9) (0.9, 0.9, 5.8, 68.6) (41.7, 31.5, 9.1, 3.2) (2.161, 1.779, 0.624, 0.232) (Some 49152) (Some 0.0179) (Some 0.85) (Some 35000);
  mkEng "JT9D-7J" (Some 5.1) (Some 222400) (0, 0, 0.5, 24.5) (0.9, 0.9, 5.5, 66.7) (44.9, 34.9, 9.4, 3.3) (2.315, 1.902, 0.679, 0.238) (Some 49152) (Some 0.0179) (Some 0.85) (Some 35000);
  mkEng "JT9D-7Q" (Some 4.9) (Some 235750) (0.2, 0.2, 0.3, 12) (0.2, 0.2, 1.7, 53) (31.6, 25.6, 7.8, 3) (2.4419, 1.9996, 0.6804, 0.237) (Some 53156) (Some 0.0179) (Some 0.85) (Some 35000);
  mkEng "JT9D-7R4D, -7R4D1" (Some 5) (Some 213500) (0.15, 0.12, 0.13, 1.25) (0.51, 0.48, 1.36, 8.84) (38.5, 30, 9.8, 4.1) (2.055, 1.678, 0.6593, 0.2054) None None None None;
  mkEng "JT9D-7R4E, -7R4E1" (Some 5) (Some 222400) (0.16, 0.13, 0.13, 1.11) (0.57, 0.53, 1.23, 8.27) (41.6, 34.2, 10.4, 4.1) (2.118, 1.724, 0.6529, 0.221) None None None None;
  mkEng "JT9D-7R4E4, -E1" (Some 5) (Some 222410) (0.15, 0.13, 0.22, 3.35) (0.67, 0.67, 1.46, 16) (36.9, 29.7, 8.5, 3.5) (2.218, 1.829, 0.64, 0.2205) None None None None;
  mkEng "JT9D-7R4G2" (Some 4.8) (Some 243500) (0.15, 0.14, 0.18, 1.55) (0.74, 0.63, 1.4, 11.82) (41.3, 29.5, 8.8, 3.8) (2.429, 1.88, 0.659, 0.2239) (Some 54490) (Some 0.0181) (Some 0.85) (Some 35000);
  mkEng "JT9D-7R4H1" (Some 4.8) (Some 249100) (0.15, 0.14, 0.18, 1.48) (0.74, 0.63, 1.39, 11.63) (45.2, 30, 8.9, 3.8) (2.512, 1.999, 0.7227, 0.2454) (Some 54490) (Some 0.0178) (Some 0.85) (Some 35000);
  mkEng "PW814GA" (Some 5.66) (Some 68630) (0, 0, 0.02, 0.05) (0, 0, 1.76, 13.88) (23.26, 17.94, 11.46, 6.25) (0.667, 0.549, 0.194, 0.07) None None None None;
  mkEng "PW815GA" (Some 5.6) (Some 71220) (0, 0, 0.02, 0.05) (0, 0, 1.5, 13.4) (24.88, 18.89, 11.47, 6.41) (0.699, 0.573, 0.201, 0.071) None None None None;
  mkEng "PW1122G-JM" (Some 12.72) (Some 107820) (0.1, 0.1, 0.02, 0.55) (0.26, 0.38, 6.39, 29.78) (16.47, 13.85, 8.92, 4.72) (0.71, 0.6, 0.21, 0.08) None None None None;
  mkEng "PW1124G1-JM" (Some 12.72) (Some 107820) (0.1, 0.1, 0.02, 0.55) (0.26, 0.38, 6.39, 29.78) (16.47, 13.85, 8.92, 4.72) (0.71, 0.6, 0.21, 0.08) None None None None;
  mkEng "PW1124G-JM" (Some 12.72) (Some 107820) (0.1, 0.1, 0.02, 0.55) (0.26, 0.38, 6.39, 29.78) (16.47, 13.85, 8.92, 4.72) (0.71, 0.6, 0.21, 0.08) None None None None;
  mkEng "PW1127G1-JM" (Some 12.28) (Some 120430) (0.02, 0.04, 0.02, 0.43) (0.22, 0.3, 5.36, 27.93) (18.82, 15.3, 9.07, 4.84) (0.8, 0.67, 0.2322, 0.08) None None None None;
  mkEng "PW1127GA-JM" (Some 12.28) (Some 120430) (0.02, 0.04, 0.02, 0.43) (0.22, 0.3, 5.36, 27.93) (18.82, 15.3, 9.07, 4.84) (0.8, 0.67, 0.2322, 0.08) None None None None;
  mkEng "PW1127G-JM" (Some 12.28) (Some 120430) (0.02, 0.04, 0.02, 0.43) (0.22, 0.3, 5.36, 27.93) (18.82, 15.3, 9.07, 4.84) (0.8, 0.67, 0.2322, 0.08) None None None None;
  mkEng "PW1129G-JM" (Some 12) (Some 130080) (0.02, 0.04, 0.02, 0.36) (0.21, 0.25, 4.58, 26.52) (20.98, 16.84, 9.19, 4.98) (0.88, 0.73, 0.2546, 0.08) None None None None;
  mkEng "PW1130G-JM" (Some 11.58) (Some 147280) (0.02, 0.05, 0.02, 0.26) (0.23, 0.22, 3.44, 24.06) (25.46, 19.84, 9.4, 5.31) (1.023, 0.8385, 0.27834, 0.0988) None None None None;
  mkEng "PW1133GA-JM" (Some 11.58) (Some 147280) (0.02, 0.05, 0.02, 0.26) (0.23, 0.22, 3.44, 24.06) (25.46, 19.84, 9.4, 5.31) (1.023, 0.8385, 0.27834, 0.0988) None None None None;
  mkEng "PW1133G-JM" (Some 11.58) (Some 147280) (0.02, 0.05, 0.02, 0.26) (0.23, 0.22, 3.44, 24.06) (25.46, 19.84, 9.4, 5.31) (1.023, 0.8385, 0.27834, 0.0988) None None None None;
  mkEng "PW1215G" (Some 8.6) (Some 67660) (0.03, 0.02, 0.02, 0.02) (0.4, 0.4, 3, 16) (20, 15.8, 8.3, 4.8) (0.551, 0.461, 0.166, 0.065) None None None None;
  mkEng "PW1217G" (Some 8.33) (Some 75720) (0.04, 0.02, 0.01, 0.01) (0.3, 0.4, 2.5, 14.2) (25.3, 18.6, 8.6, 5.1) (0.634, 0.524, 0.184, 0.069) None None None None].

(** openap/data/engine/engines.csv, rows 302-401 *)
Definition engines_3 : list engrec := [
  mkEng "PW1525G" (Some 11.05) (Some 108530) (0, 0, 0.1, 0.1) (0, 0, 1.8, 16.7) (26, 20.5, 10.4, 6) (0.79, 0.65, 0.23, 0.08) None None None None;
  mkEng "PW1524G" (Some 11.05) (Some 108530) (0, 0, 0.1, 0.1) (0, 0, 1.8, 16.7) (26, 20.5, 10.4, 6) (0.79, 0.65, 0.23, 0.08) None None None None;
  mkEng "PW1521G" (Some 11.37) (Some 97720) (0, 0, 0.1, 0.1) (0, 0, 2.5, 19.3) (22.1, 18.1, 10.1, 5.6) (0.69, 0.58, 0.21, 0.07) None None None None;
  mkEng "PW1521GA" (Some 11.37) (Some 97720) (0, 0, 0.1, 0.1) (0, 0, 2.5, 19.3) (22.1, 18.1, 10.1, 5.6) (0.69, 0.58, 0.21, 0.07) None None None None;
  mkEng "PW1519G" (Some 11.64) (Some 87960) (0, 0, 0.1, 0.2) (0, 0, 3.3, 21.4) (19.6, 16.6, 9.8, 5.3) (0.62, 0.52, 0.19, 0.07) None None None None;
  mkEng "PW1919G" (Some 11.6) (Some 92790) (0, 0, 0.1, 0.2) (0, 0, 3.3, 22.2) (20, 16.7, 9.8, 5.2) (0.65, 0.54, 0.2, 0.07) None None None None;
  mkEng "PW1921G" (Some 11.36) (Some 100300) (0, 0, 0.1, 0.1) (0, 0, 2.7, 19.8) (22.2, 18.1, 10, 5.5) (0.71, 0.59, 0.21, 0.07) None None None None;
  mkEng "PW1922G" (Some 11.16) (Some 105930) (0, 0, 0.1, 0.1) (0, 0, 2.3, 18.4) (24.2, 19.3, 10.2, 5.7) (0.76, 0.63, 0.22, 0.07) None None None None;
  mkEng "PW1923G-A" (Some 11.16) (Some 105930) (0, 0, 0.1, 0.1) (0, 0, 2.3, 18.4) (24.2, 19.3, 10.2, 5.7) (0.76, 0.63, 0.22, 0.07) None None None None;
  mkEng "PW1923G" (Some 11.16) (Some 105930) (0, 0, 0.1, 0.1) (0, 0, 2.3, 18.4) (24.2, 19.3, 10.2, 5.7) (0.76, 0.63, 0.22, 0.07) None None None None;
  mkEng "PW2037" (Some 5.71) (Some 166350) (0.02, 0.02, 0.11, 1.92) (0.33, 0.34, 1.95, 22.36) (29.41, 23.96, 9.77, 4.1) (1.571, 1.307, 0.458, 0.152) (Some 28913) (Some 0.0165) (Some 0.85) (Some 35000);
  mkEng "PW2040" (Some 5.54) (Some 182020) (0.01, 0.02, 0.1, 1.65) (0.32, 0.41, 1.42, 19.95) (35.04, 26.62, 10.49, 4.37) (1.752, 1.445, 0.496, 0.159) (Some 28913) (Some 0.0165) (Some 0.85) (Some 35000);
  mkEng "PW306A" (Some 4.5) (Some 26870) (0, 0, 0, 4.36) (2.27, 2.51, 7.11, 36.35) (20.08, 19.26, 11.87, 4.26) (0.3171, 0.2641, 0.0974, 0.0422) None None None None;
  mkEng "PW306B" (Some 4.5) (Some 26910) (0, 0, 0, 4.36) (2.27, 2.51, 7.11, 36.35) (20.08, 19.26, 11.87, 4.26) (0.3171, 0.2641, 0.0974, 0.0422) None None None None;
  mkEng "PW307A" (Some 4.2) (Some 28490) (0, 0, 0, 1.99) (0.27, 0.23, 3.23, 36.92) (18.28, 15.58, 8.77, 2.86) (0.327, 0.272, 0.102, 0.044) None None None None;
  mkEng "PW307D" (Some 4.2) (Some 29910) (0, 0, 0, 0.75) (0, 0.02, 2.57, 26.75) (20.61, 15.44, 7.85, 4.32) (0.3545, 0.2769, 0.1115, 0.0462) None None None None;
  mkEng "PW308A" (Some 4.1) (Some 30710) (0, 0, 0.02, 6.62) (0.83, 1.06, 4.08, 38.21) (16.74, 14.06, 8.03, 3.65) (0.3604, 0.2991, 0.1235, 0.0445) None None None None;
  mkEng "PW308C" (Some 4.1) (Some 31150) (0, 0, 0, 0.39) (0.5, 0.57, 4.18, 37.05) (19.1, 14.96, 6.8, 3.53) (0.37, 0.307, 0.116, 0.049) None None None None;
  mkEng "PW4056" (Some 4.7) (Some 249100) (0.06, 0.01, 0.13, 1.92) (0.44, 0.57, 2, 21.86) (28.1, 22.9, 11.6, 4.8) (2.342, 1.93, 0.658, 0.208) None None None None;
  mkEng "PW4074" (Some 6.8) (Some 333200) (0.1, 0.1, 0.2, 3.2) (0.1, 0.1, 0.4, 21) (38.1, 31.5, 11, 4.2) (2.899, 2.368, 0.795, 0.228) None None None None;
  mkEng "PW4074D" (Some 6.7) (Some 333200) (0.03, 0.05, 0.08, 5.07) (0.23, 0.25, 0.64, 34.34) (42.35, 34.48, 11.88, 3.81) (2.949, 2.416, 0.81, 0.239) None None None None;
  mkEng "PW4077" (Some 6.7) (Some 343000) (0.1, 0.1, 0.2, 3) (0.1, 0.1, 0.4, 20.2) (39.8, 32.5, 11.3, 4.2) (3.019, 2.452, 0.816, 0.232) None None None None;
  mkEng "PW4077D" (Some 6.6) (Some 355700) (0.02, 0.02, 0.04, 2.82) (0.29, 0.34, 0.86, 24.8) (44.68, 34.05, 11.63, 3.81) (3.172, 2.562, 0.892, 0.31) None None None None;
  mkEng "PW4084" (Some 6.4) (Some 369600) (0.1, 0.1, 0.2, 2.7) (0.1, 0.1, 0.4, 18.73) (45, 35.5, 12, 4.4) (3.411, 2.689, 0.875, 0.242) None None None None;
  mkEng "PW4084D" (Some 6.2) (Some 385900) (0.02, 0.02, 0.04, 2.16) (0.28, 0.32, 0.66, 21.12) (51.39, 37.78, 12.27, 3.99) (3.557, 2.809, 0.954, 0.322) None None None None;
  mkEng "PW4090" (Some 6) (Some 408300) (0.02, 0.02, 0.04, 0.69) (0.27, 0.31, 0.55, 11.94) (57.52, 41.17, 12.74, 4.48) (3.926, 2.996, 0.979, 0.338) None None None None;
  mkEng "PW4152" (Some 4.9) (Some 231270) (0.03, 0.01, 0.13, 2.24) (0.5, 0.62, 2.29, 23.67) (25.3, 21.1, 11.1, 4.8) (2.129, 1.783, 0.613, 0.203) None None None None;
  mkEng "PW4156" (Some 4.7) (Some 249100) (0.06, 0.01, 0.13, 1.92) (0.44, 0.57, 2, 21.86) (28.1, 22.9, 11.6, 4.8) (2.342, 1.93, 0.658, 0.208) None None None None;
  mkEng "PW4158" (Some 4.6) (Some 258000) (0.09, 0.02, 0.14, 1.78) (0.4, 0.54, 1.88, 20.99) (30.2, 23.7, 11.8, 4.8) (2.481, 2.004, 0.682, 0.211) None None None None;
  mkEng "PW4164" (Some 5.2) (Some 284680) (0, 0, 0, 0.37) (0.19, 0.18, 2.84, 17.73) (23.87, 18.66, 11.88, 4.99) (2.668, 2.2, 0.766, 0.24) None None None None;
  mkEng "PW4164-1D" (Some 5.06) (Some 286900) (0, 0, 0.06, 1.44) (0.16, 0.17, 1.55, 17.13) (26.31, 20.97, 12.1, 3.79) (2.721, 2.239, 0.775, 0.243) None None None None;
  mkEng "PW4168" (Some 5.1) (Some 302500) (0, 0, 0, 0.2) (0.1, 0.2, 2.4, 15.9) (26.9, 20.2, 12.1, 5.2) (2.884, 2.363, 0.809, 0.25) None None None None;
  mkEng "PW4168-1D" (Some 4.92) (Some 305100) (0, 0, 0.05, 0.95) (0.17, 0.18, 1.26, 14.78) (30.15, 22.31, 12.39, 4.08) (2.937, 2.398, 0.818, 0.252) None None None None;
  mkEng "PW4168A" (Some 5.1) (Some 302500) (0, 0, 0, 0.2) (0.1, 0.2, 2.4, 15.9) (26.9, 20.2, 12.1, 5.2) (2.884, 2.363, 0.809, 0.25) None None None None;
  mkEng "PW4168A-1D" (Some 4.92) (Some 305100) (0, 0, 0.05, 0.95) (0.17, 0.18, 1.26, 14.78) (30.15, 22.31, 12.39, 4.08) (2.937, 2.398, 0.818, 0.252) None None None None;
  mkEng "PW4060" (Some 4.7) (Some 266900) (0.08, 0.06, 0.1, 11.63) (0.58, 0.49, 2.04, 44.46) (31.74, 25.03, 11.91, 3.72) (2.567, 2.036, 0.696, 0.206) None None None None;
  mkEng "PW4062" (Some 4.6) (Some 275800) (0.08, 0.07, 0.09, 10.86) (0.61, 0.5, 1.93, 42.61) (34.36, 25.98, 12.17, 3.78) (2.725, 2.125, 0.718, 0.21) None None None None;
  mkEng "PW4170" (Some 4.86) (Some 311400) (0, 0, 0.05, 0.83) (0.18, 0.18, 1.17, 14.04) (31.4, 22.84, 12.49, 4.18) (3.019, 2.45, 0.833, 0.255) None None None None;
  mkEng "PW4256" (Some 4.7) (Some 252400) (0.11, 0.17, 0.25, 0.66) (0.08, 0.14, 0.9, 11.6) (32.5, 24.6, 11.6, 5) (2.449, 1.981, 0.647, 0.188) None None None None;
  mkEng "PW4460" (Some 4.5) (Some 266900) (0.1, 0.03, 0.14, 1.66) (0.37, 0.51, 1.78, 20.32) (32.8, 24.7, 12, 4.9) (2.647, 2.085, 0.703, 0.213) None None None None;
  mkEng "PW4x50" (Some 5) (Some 222400) (0.09, 0.1, 0.19, 6.8) (0.53, 0.62, 2.33, 36.91) (25.69, 21.77, 11.13, 3.69) (2.027, 1.683, 0.579, 0.193) None None None None;
  mkEng "PW4x52" (Some 5) (Some 231300) (0.08, 0.1, 0.17, 6.02) (0.52, 0.6, 2.15, 34.54) (27.02, 22.54, 11.41, 3.77) (2.127, 1.757, 0.6, 0.198) None None None None;
  mkEng "PW4x56" (Some 4.8) (Some 249100) (0.08, 0.09, 0.16, 4.75) (0.48, 0.56, 1.89, 29.96) (30.44, 24.24, 11.97, 3.93) (2.351, 1.912, 0.643, 0.208) None None None None;
  mkEng "PW4x58" (Some 4.8) (Some 258000) (0.08, 0.09, 0.15, 4.29) (0.44, 0.53, 1.82, 28.08) (32.51, 25.22, 12.25, 3.99) (2.482, 1.993, 0.665, 0.213) None None None None;
  mkEng "PW4X58" (Some 4.8) (Some 258000) (0, 0, 0, 1.7) (0.2, 0.3, 3.8, 24.3) (22.5, 18, 11.1, 4.3) (2.496, 1.999, 0.663, 0.212) None None None None;
  mkEng "PW4x62" (Some 4.4) (Some 275800) (0.1, 0.06, 0.14, 1.53) (0.35, 0.49, 1.69, 19.51) (36.3, 25.7, 12.2, 4.9) (2.858, 2.161, 0.725, 0.217) None None None None;
  mkEng "PW6122A" (Some 4.8) (Some 98310) (0, 0.001, 0.001, 0.006) (0.74, 0.72, 3.99, 24.68) (17.04, 13.4, 5.95, 3.08) (1.047, 0.86, 0.304, 0.109) None None None None;
  mkEng "PW6124A" (Some 4.8) (Some 105870) (0, 0.002, 0.001, 0.002) (0.68, 0.81, 3.69, 25.19) (21.03, 15.85, 6.88, 3.58) (1.169, 0.939, 0.325, 0.114) None None None None;
  mkEng "RB211-22B" (Some 4.7) (Some 182500) (0.15, 0.25, 5.96, 67.75) (0.78, 1.68, 20.65, 88.99) (37.33, 26.89, 8.18, 2.86) (1.877, 1.546, 0.566, 0.225) None None None None;
  mkEng "RB211-524B" (Some 4.5) (Some 218500) (0.39, 0.26, 0.7, 1.95) (0.7, 0.33, 1.56, 12.39) (52.3, 38.2, 9.8, 4.2) (2.21, 1.79, 0.63, 0.24) None None None None;
  mkEng "RB211-524C2" (Some 4.5) (Some 224800) (0, 0.22, 4.42, 54.2) (0.66, 1.63, 18.9, 81) (41.9, 32.3, 10.4, 3.37) (2.48, 2.02, 0.74, 0.3) None None None None;
  mkEng "RB211-524D4" (Some 4.3) (Some 231300) (0.59, 0.26, 0.7, 1.41) (1.24, 0.34, 1.56, 9.3) (59.35, 43.01, 10.63, 4.41) (2.34, 1.91, 0.65, 0.26) None None None None;
  mkEng "RB211-524G" (Some 4.25) (Some 253000) (0.39, 0.27, 0.37, 0.89) (0.59, 0.43, 1.01, 13.74) (58.71, 40.54, 9.56, 4.63) (2.62, 2.08, 0.7, 0.26) None None None None;
  mkEng "RB211-524G-T" (Some 4.25) (Some 253000) (0, 0.03, 0, 3.95) (0.16, 0.14, 1.17, 28.82) (28.43, 21.8, 9.68, 4) (2.62, 2.1, 0.74, 0.26) None None None None;
  mkEng "RB211-524H" (Some 4.2) (Some 264400) (0.34, 0.33, 0.36, 0.74) (0.87, 0.38, 0.99, 11.75) (65.84, 46.31, 10.26, 4.78) (2.73, 2.17, 0.71, 0.26) None None None None;
  mkEng "RB211-524H-T" (Some 4.2) (Some 264000) (0, 0.02, 0, 3.31) (0.18, 0.14, 1.05, 26.17) (31.19, 23.19, 9.91, 4.16) (2.81, 2.22, 0.77, 0.26) None None None None;
  mkEng "RB211-535C" (Some 4.5) (Some 163300) (0.25, 0.14, 0.44, 1.44) (0.7, 0.27, 0.48, 18.79) (33.71, 24.89, 6.37, 3.44) (1.8, 1.47, 0.54, 0.2) None None None None;
  mkEng "RB211-535E4" (Some 4.1) (Some 178400) (0.03, 0, 0.04, 0.27) (0.26, 0.29, 2.72, 20.33) (22.31, 17.56, 8.38, 4.4) (1.85, 1.5, 0.52, 0.18) None None None None;
  mkEng "RB211-535E4B" (Some 4.1) (Some 191700) (0.07, 0, 0.05, 0.14) (0.33, 0.26, 2.43, 18.24) (25.88, 19.3, 8.65, 4.58) (2.07, 1.64, 0.55, 0.19) None None None None;
  mkEng "Spey 555" (Some 1) (Some 44000) (0.15, 0.22, 0.33, 3.41) (1.54, 2.08, 5.78, 31.16) (17.33, 13.06, 5.05, 2.23) (0.735, 0.593, 0.221, 0.0964) None None None None;
  mkEng "SPEY Mk511" (Some 0.64) (Some 50700) (0.98, 1.32, 7.23, 56.73) (1.81, 2.06, 20.3, 97.96) (23.27, 19.18, 7.94, 1.48) (0.889, 0.726, 0.279, 0.119) None None None None;
  mkEng "SPEY Mk555" (Some 1) (Some 44000) (0.29, 0.15, 0.29, 1.86) (0.3, 0.7, 3.7, 29.3) (21.9, 16.5, 6.8, 3.7) (0.735, 0.592, 0.221, 0.096) None None None None;
  mkEng "TAY 611-8C" (Some 3.26) (Some 61600) (0.03, 0.05, 0.65, 1.49) (0.5, 0.95, 2.89, 24.4) (19.3, 15.4, 5.31, 2.53) (0.731, 0.604, 0.215, 0.102) None None None None;
  mkEng "TAY 650" (Some 3) (Some 67200) (0.11, 0.22, 0.11, 1.23) (0.69, 0.48, 1.76, 22.36) (16.45, 12.94, 5.26, 2.5) (0.86, 0.71, 0.25, 0.12) None None None None;
  mkEng "TAY 651" (Some 3) (Some 68500) (0.56, 0.37, 0.85, 3.1) (1.68, 1.93, 6.11, 32.68) (20.31, 17.13, 4.77, 1.72) (0.87, 0.72, 0.26, 0.12) None None None None;
  mkEng "TAY Mk611-8" (Some 3) (Some 61600) (0.8, 0.3, 0.9, 3.4) (0.7, 0.8, 3.9, 24.1) (21.1, 16.8, 5.7, 2.5) (0.76, 0.63, 0.23, 0.11) None None None None;
  mkEng "TAY Mk620-15" (Some 3) (Some 61600) (0.8, 0.3, 0.9, 3.4) (0.7, 0.8, 3.9, 24.1) (21.1, 16.8, 5.7, 2.5) (0.76, 0.63, 0.23, 0.11) None None None None;
  mkEng "TAY Mk650-15" (Some 3) (Some 67200) (0.37, 0.41, 0.88, 3.29) (1.74, 2.01, 6.54, 33.77) (19.81, 16.47, 4.55, 1.7) (0.874, 0.715, 0.254, 0.119) None None None None;
  mkEng "Trent 553-61" (Some 7.5) (Some 251900) (0.02, 0.01, 0.04, 0.14) (0.18, 0.44, 0.66, 10.5) (40.55, 30.98, 11.37, 5.96) (2.11, 1.73, 0.6, 0.23) None None None None;
  mkEng "Trent 556-61" (Some 7.5) (Some 263900) (0.02, 0.01, 0.04, 0.13) (0.17, 0.38, 0.54, 9.96) (44.77, 33.25, 11.68, 6.09) (2.24, 1.83, 0.62, 0.23) None None None None;
  mkEng "Trent 768" (Some 5.15) (Some 304200) (0, 0.01, 0.04, 3.19) (0.35, 0.49, 1.71, 26.94) (32.01, 24.9, 10.12, 4.46) (2.907, 2.375, 0.781, 0.259) None None None None;
  mkEng "Trent 772" (Some 5.03) (Some 320300) (0.01, 0.01, 0.04, 2.46) (0.21, 0.49, 1.56, 23.97) (35.56, 26.82, 10.42, 4.66) (3.139, 2.53, 0.821, 0.27) None None None None;
  mkEng "Trent 875" (Some 6.08) (Some 351850) (0, 0, 0, 1.78) (0.19, 0.16, 0.86, 19.66) (33.32, 26.55, 10.43, 4.64) (3.1, 2.57, 0.88, 0.28) None None None None;
  mkEng "Trent 877" (Some 6.02) (Some 361640) (0, 0, 0, 1.55) (0.2, 0.16, 0.8, 18.42) (34.76, 27.59, 10.59, 4.75) (3.21, 2.66, 0.9, 0.28) None None None None;
  mkEng "Trent 884" (Some 5.87) (Some 390100) (0, 0, 0, 1) (0.24, 0.18, 0.65, 15.19) (40.05, 30.63, 11.07, 5.04) (3.56, 2.89, 0.97, 0.31) None None None None;
  mkEng "Trent 892" (Some 5.7) (Some 411480) (0.01, 0, 0, 0.7) (0.28, 0.2, 0.57, 13.07) (45.7, 33.3, 11.58, 5.33) (3.91, 3.1, 1, 0.3) None None None None;
  mkEng "Trent 895" (Some 5.7) (Some 413050) (0.02, 0, 0, 0.89) (0.27, 0.19, 0.54, 14.71) (47.79, 34.29, 11.39, 5.11) (4.03, 3.19, 1.05, 0.33) None None None None;
  mkEng "Trent 970-84" (Some 8.45) (Some 338700) (0.02, 0.12, 0.08, 0.04) (0.32, 0.31, 1.16, 13.38) (38.29, 29.42, 12.09, 5.44) (2.605, 2.157, 0.72, 0.255) None None None None;
  mkEng "Trent 970B-84" (Some 8.38) (Some 352900) (0, 0.09, 0.07, 0.04) (0.33, 0.31, 1.05, 12.65) (41.34, 31.3, 12.37, 5.57) (2.738, 2.262, 0.749, 0.261) None None None None;
  mkEng "Trent 972-84" (Some 8.41) (Some 345900) (0.01, 0.11, 0.07, 0.04) (0.32, 0.31, 1.1, 13) (39.78, 30.36, 12.23, 5.51) (2.672, 2.21, 0.735, 0.258) None None None None;
  mkEng "Trent 972E-84" (Some 8.41) (Some 345900) (0.01, 0.11, 0.07, 0.04) (0.32, 0.31, 1.1, 13) (39.78, 30.36, 12.23, 5.51) (2.672, 2.21, 0.735, 0.258) None None None None;
  mkEng "Trent 1000-A2" (Some 9.32) (Some 310900) (0, 0, 0, 0.04) (0.51, 0.45, 0.77, 8.4) (46.11, 35.48, 13.11, 5.48) (2.284, 1.882, 0.624, 0.245) None None None None;
  mkEng "Trent 1000-C2" (Some 9.16) (Some 334700) (0, 0, 0, 0.03) (0.5, 0.48, 0.67, 7.37) (52.65, 39.86, 13.67, 5.74) (2.503, 2.053, 0.666, 0.247) None None None None;
  mkEng "Trent 1000-D2" (Some 9.16) (Some 334700) (0, 0, 0, 0.03) (0.5, 0.48, 0.67, 7.37) (52.65, 39.86, 13.67, 5.74) (2.503, 2.053, 0.666, 0.247) None None None None;
  mkEng "Trent 1000-E2" (Some 9.62) (Some 268000) (0, 0, 0, 0.1) (0.46, 0.42, 1.01, 11.35) (36.25, 28.52, 12.12, 4.98) (1.912, 1.582, 0.549, 0.223) None None None None;
  mkEng "Trent 1000-G2" (Some 9.23) (Some 323700) (0, 0, 0, 0.04) (0.51, 0.46, 0.72, 7.81) (49.57, 37.8, 13.41, 5.62) (2.402, 1.973, 0.647, 0.243) None None None None;
  mkEng "Trent 1000-H2" (Some 9.49) (Some 287100) (0, 0, 0, 0.07) (0.48, 0.43, 0.89, 9.82) (40.46, 31.49, 12.56, 5.21) (2.075, 1.715, 0.582, 0.233) None None None None;
  mkEng "Trent 1000-J2" (Some 9.04) (Some 350900) (0, 0, 0, 0.02) (0.43, 0.49, 0.62, 6.8) (58.04, 43.07, 14.06, 5.91) (2.663, 2.173, 0.696, 0.254) None None None None;
  mkEng "Trent 1000-K2" (Some 9.04) (Some 350900) (0, 0, 0, 0.02) (0.43, 0.49, 0.62, 6.8) (58.04, 43.07, 14.06, 5.91) (2.663, 2.173, 0.696, 0.254) None None None None;
  mkEng "Trent 1000-L2" (Some 9.16) (Some 334700) (0, 0, 0, 0.03) (0.5, 0.48, 0.67, 7.37) (52.65, 39.86, 13.67, 5.74) (2.503, 2.053, 0.666, 0.247) None None None None;
  mkEng "Trent 1000-AE3" (Some 9.2) (Some 310900) (0, 0, 0, 0) (0.43, 0.44, 0.76, 6.93) (46.1, 35.9, 13.5, 5.9) (2.279, 1.874, 0.623, 0.239) None None None None;
  mkEng "Trent 1000-CE3" (Some 9) (Some 334700) (0, 0, 0, 0) (0.41, 0.45, 0.65, 6.23) (52.07, 40.11, 14.08, 6.16) (2.497, 2.046, 0.667, 0.249) None None None None;
  mkEng "Trent 1000-D3" (Some 9) (Some 334700) (0, 0, 0, 0) (0.41, 0.45, 0.65, 6.23) (52.07, 40.11, 14.08, 6.16) (2.497, 2.046, 0.667, 0.249) None None None None;
  mkEng "Trent 1000-G3" (Some 9.1) (Some 323700) (0, 0, 0, 0) (0.42, 0.45, 0.7, 6.54) (49.25, 38.14, 13.81, 6.04) (2.395, 1.966, 0.647, 0.245) None None None None;
  mkEng "Trent 1000-H3" (Some 9.3) (Some 287100) (0, 0, 0, 0) (0.45, 0.43, 0.89, 7.78) (40.67, 32.04, 12.94, 5.64) (2.068, 1.706, 0.579, 0.229) None None None None;
  mkEng "Trent 1000-J3" (Some 8.9) (Some 350900) (0, 0, 0, 0) (0.35, 0.44, 0.58, 5.8) (56.35, 43.21, 14.49, 6.34) (2.649, 2.168, 0.699, 0.256) None None None None;
  mkEng "Trent 1000-K3" (Some 8.9) (Some 350900) (0, 0, 0, 0) (0.35, 0.44, 0.58, 5.8) (56.35, 43.21, 14.49, 6.34) (2.649, 2.168, 0.699, 0.256) None None None None;
  mkEng "Trent 1000-L3" (Some 9) (Some 334700) (0, 0, 0, 0) (0.41, 0.45, 0.65, 6.23) (52.07, 40.11, 14.08, 6.16) (2.497, 2.046, 0.667, 0.249) None None None None;
  mkEng "Trent 1000-M3" (Some 8.9) (Some 358100) (0, 0, 0, 0) (0.43, 0.44, 0.59, 6.13) (59.3, 44.55, 14.72, 6.61) (2.721, 2.222, 0.712, 0.26) None None None None;
  mkEng "Trent 1000-N3" (Some 8.9) (Some 358100) (0, 0, 0, 0) (0.43, 0.44, 0.59, 6.13) (59.3, 44.55, 14.72, 6.61) (2.721, 2.222, 0.712, 0.26) None None None None].

(** openap/data/engine/engines.csv, rows 402-427 *)
Definition engines_4 : list engrec := [
  mkEng "Trent 1000-P3" (Some 9) (Some 334700) (0, 0, 0, 0) (0.41, 0.45, 0.65, 6.23) (52.07, 40.11, 14.08, 6.16) (2.497, 2.046, 0.667, 0.249) None None None None;
  mkEng "Trent 1000-Q3" (Some 8.9) (Some 350900) (0, 0, 0, 0) (0.35, 0.44, 0.58, 5.8) (56.35, 43.21, 14.49, 6.34) (2.649, 2.168, 0.699, 0.256) None None None None;
  mkEng "Trent 1000-R3" (Some 8.9) (Some 363900) (0, 0, 0, 0) (0.45, 0.43, 0.57, 5.99) (61.62, 45.76, 14.87, 6.67) (2.783, 2.266, 0.723, 0.262) None None None None;
  mkEng "Trent7000-72" (Some 9) (Some 327900) (0, 0, 0, 0) (0.41, 0.45, 0.63, 6.45) (56.8, 42.04, 14.12, 6.1) (2.478, 2.029, 0.67, 0.241) None None None None;
  mkEng "Trent7000-72C" (Some 9) (Some 327900) (0, 0, 0, 0) (0.41, 0.45, 0.63, 6.45) (56.8, 42.04, 14.12, 6.1) (2.478, 2.029, 0.67, 0.241) None None None None;
  mkEng "Trent XWB-75" (Some 9.3) (Some 334000) (0, 0, 0.01, 1.42) (0.39, 0.41, 1.56, 25.26) (36.23, 28.29, 10.13, 4.06) (2.411, 1.98, 0.715, 0.27) None None None None;
  mkEng "Trent XWB-79B" (Some 9.15) (Some 355200) (0, 0, 0.01, 1.22) (0.39, 0.4, 1.36, 23.37) (40.2, 30.88, 10.59, 4.23) (2.601, 2.129, 0.755, 0.28) None None None None;
  mkEng "Trent XWB-79" (Some 9.15) (Some 355200) (0, 0, 0.01, 1.22) (0.39, 0.4, 1.36, 23.37) (40.2, 30.88, 10.59, 4.23) (2.601, 2.129, 0.755, 0.28) None None None None;
  mkEng "Trent XWB-84" (Some 9.01) (Some 379000) (0, 0, 0.01, 1.03) (0.39, 0.39, 1.18, 21.46) (45.24, 34.2, 11.12, 4.41) (2.819, 2.306, 0.801, 0.291) None None None None;
  mkEng "Trent XWB-97" (Some 8.059) (Some 436748) (0, 0, 0, 0.0100603234724198) (0.3559904604116914, 0.3994335979927153, 0.8188114669397981, 7.746338116395993) (66.05032223888114, 48.5051681110626, 14.858684091490996, 5.641126438050629) (3.4978265142580667, 2.798047264809943, 0.9180765974175208, 0.3008381465017589) None None None None;
  mkEng "ALF 502L-2" (Some 5.1) (Some 33400) (0.02, 0.023, 0.183, 6.65) (0.4, 0.3, 3.97, 45.63) (13.43, 12.03, 6.47, 3.38) (0.3999, 0.3236, 0.1172, 0.0477) None None None None;
  mkEng "ALF 502R-3" (Some 5.7) (Some 29800) (0.056, 0.053, 0.287, 6.51) (0.433, 0.5, 8.43, 44.67) (11.2, 9.94, 6.15, 3.3) (0.3476, 0.288, 0.1027, 0.0432) None None None None;
  mkEng "ALF 502R-5" (Some 5.6) (Some 31000) (0.06, 0.053, 0.217, 5.39) (0.3, 0.25, 7.1, 40.93) (13.35, 10.56, 6.6, 3.78) (0.3581, 0.2955, 0.1034, 0.0408) None None None None;
  mkEng "LF507-1F, -1H" (Some 5.1) (Some 31000) (0.01, 0.01, 0.12, 4.72) (0.2, 0.3, 4.43, 37.83) (14.52, 12.02, 6.39, 3.28) (0.3578, 0.2961, 0.1083, 0.0453) None None None None;
  mkEng "D-36 ser. 4A" (Some 5) (Some 63770) (0, 0, 0, 5.4) (0.5, 0.4, 2.7, 20.7) (26, 22, 9, 5.5) (0.634, 0.533, 0.211, 0.092) None None None None;
  mkEng "D-436-148 F1" (Some 4.9) (Some 64430) (0.1, 0.04, 0.07, 2.26) (0.54, 0.54, 2.99, 23.46) (18.93, 16, 7.26, 3.64) (0.548, 0.468, 0.218, 0.093) None None None None;
  mkEng "D-436-148 F2" (Some 4.9) (Some 68720) (0.09, 0.05, 0.08, 1.39) (0.48, 0.4, 2.71, 19.56) (19.76, 16.64, 7.31, 3.78) (0.581, 0.493, 0.225, 0.099) None None None None;
  mkEng "AS901-1-1A" (Some 4.2) (Some 30600) (0.01, 0.01, 0.08, 4.3) (0.69, 0.56, 2.98, 30.21) (26.29, 21.51, 9.39, 4.2) (0.347, 0.288, 0.104, 0.048) None None None None;
  mkEng "AS907-2-1G" (Some 4.2) (Some 32.86) (0.05, 0.06, 0.12, 0.99) (0.57, 0.6, 6.07, 30.48) (18.43, 16.44, 8.96, 3.965) (0.372, 0.308, 0.107, 0.049) None None None None;
  mkEng "AS907-3-1E-A3" (Some 4.2) (Some 33.83) (0.05, 0.06, 0.12, 0.84) (0.56, 0.57, 5.7, 28.08) (19.06, 16.88, 9.23, 4.04) (0.378, 0.312, 0.108, 0.05) None None None None;
  mkEng "TPE331-6-252B" None None (8.2, 6.2, 9.3, 45.3) (2, 2, 19, 56) (10.3, 8.8, 7.3, 4.9) (0.0567, 0.0504, 0.0292, 0.0148) None None None None;
  mkEng "PT6A-60A" None None (0, 0, 0.5, 25.7) (4, 5, 19, 154) (6.5, 6, 4.4, 2.03) (0.075, 0.068, 0.039, 0.0138) None None None None;
  mkEng "PT6A-114" None None (0, 0, 0.3, 3.9) (1, 1, 5, 51) (7.3, 7, 5.3, 2.75) (0.0504, 0.0449, 0.025, 0.009) None None None None;
  mkEng "PT6A-67" None None (0, 0, 0.1, 13.8) (2, 3, 13, 131) (7.1, 6.7, 4.7, 2.16) (0.087, 0.079, 0.045, 0.0164) None None None None;
  mkEng "PT6A-66" None None (0.4, 0.7, 5.7, 82.8) (8, 9, 28, 216) (6.2, 5.9, 4.1, 1.7) (0.071, 0.065, 0.038, 0.0151) None None None None;
  mkEng "TIO-540-J2B2" None None (12.36, 16.63, 13.38, 68.08) (1442.1, 1470.9, 1261.6, 1293.7) (0.36, 0.24, 1.39, 0.39) (0.0327, 0.0258, 0.0125, 0.0032) None None None None].

(** openap/data/engine/engines.csv *)
Definition shipped_engines : list engrec := (engines_0 ++ engines_1 ++ engines_2 ++ engines_3 ++ engines_4)%list.
