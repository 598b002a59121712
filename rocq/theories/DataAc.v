(** * Aircraft data (generated from openap/data/aircraft by a script; do not edit) *)
From Coq Require Import String List QArith.
From Verif Require Import PropPy.
Import ListNotations.
Open Scope string_scope.
Open Scope Q_scope.

(** openap/data/aircraft/*.yml *)
Definition shipped_aircraft : list acrec := [
  mkAc "a19n" 75500 62500 42600 29700 (Some 7000) 11000 0.78 124 35.8 25 None 2 false "PW1124G1-JM"
    ["PW1124G1-JM"; "LEAP-1A24"; "LEAP-1A26"];
  mkAc "a20n" 79000 66000 44300 29700 (Some 6300) 11000 0.78 124 35.8 25 None 2 false "PW1127G-JM"
    ["PW1127G-JM"; "PW1124G1-JM"; "PW1129G-JM"; "LEAP-1A26"; "LEAP-1A24"; "LEAP-1A29"];
  mkAc "a21n" 97000 77800 50000 33000 (Some 7400) 11000 0.78 128 35.8 25 None 2 false "PW1133G-JM"
    ["PW1133G-JM"; "PW1130G-JM"; "LEAP-1A32"; "LEAP-1A30"; "LEAP-1A33"];
  mkAc "a318" 68000 57500 39500 24210 (Some 2800) 11000 0.78 122.4 34.1 25 None 2 false "CFM56-5B9"
    ["CFM56-5B8"; "CFM56-5B9"; "PW6122A"; "PW6124A"];
  mkAc "a319" 75500 62500 40800 30190 (Some 3300) 11000 0.78 124 35.8 25 None 2 false "V2524-A5"
    ["CFM56-5B5"; "CFM56-5B6"; "CFM56-5A4"; "CFM56-5A5"; "CFM56-5B7"; "V2522-A5"; "V2524-A5"; "V2527M-A5"];
  mkAc "a320" 78000 66000 42600 24210 (Some 5000) 11000 0.78 124 35.8 25 None 2 false "CFM56-5B4"
    ["CFM56-5-A1"; "CFM56-5-A1"; "CFM56-5A3"; "CFM56-5B4"; "CFM56-5B5"; "CFM56-5B6"; "V2500-A1"; "V2527-A5"; "V2527E-A5"];
  mkAc "a321" 93500 77800 48500 30030 (Some 4400) 11000 0.78 128 35.8 25 None 2 false "CFM56-5B1"
    ["CFM56-5B1"; "CFM56-5B2"; "V2530-A5"; "CFM56-5B3"; "CFM56-5B1"; "CFM56-5B2"; "V2533-A5"; "V2530-A5"];
  mkAc "a332" 230000 182000 120200 139000 (Some 12500) 11000 0.82 361.6 60.3 29.7 (Some 0.11) 2 false "Trent 772"
    ["CF6-80E1A2"; "CF6-80E1A4"; "CF6-80E1A3"; "PW4168A"; "PW4170"; "Trent 772"];
  mkAc "a333" 242000 188000 122780 139000 (Some 10500) 11000 0.82 361.6 60.3 29.7 (Some 0.11) 2 false "Trent 772"
    ["CF6-80E1A2"; "CF6-80E1A4"; "CF6-80E1A3"; "PW4164"; "PW4168"; "PW4168A"; "Trent 768"; "Trent 772"; "Trent 772"];
  mkAc "a343" 276000 190000 130000 147850 (Some 13300) 11000 0.82 363.1 60.3 29.7 (Some 0.11) 4 false "CFM56-5C3"
    ["CFM56-5C2"; "CFM56-5C3"; "CFM56-5C4"];
  mkAc "a359" 280000 205000 142400 140795 (Some 15000) 11000 0.85 442 64.75 31.9 None 2 false "Trent XWB-84"
    ["Trent XWB-84"];
  mkAc "a388" 560000 386000 277000 320000 (Some 14800) 12800 0.85 845 79.75 33.5 (Some 0.08) 4 false "GP7270"
    ["Trent 970-84"; "Trent 972-84"; "GP7270"];
  mkAc "b37m" 80000 60000 45000 26000 (Some 7100) 11000 0.78 124.6 34.32 25 None 2 false "LEAP-1B"
    ["LEAP-1B"];
  mkAc "b38m" 82000 66300 45000 26000 (Some 6600) 11000 0.79 124.6 34.32 25 None 2 false "LEAP-1B"
    ["LEAP-1B"];
  mkAc "b39m" 88000 71000 45000 26000 (Some 6600) 11000 0.79 124.6 34.32 25 None 2 false "LEAP-1B"
    ["LEAP-1B"];
  mkAc "b3xm" 90000 70000 45000 26000 (Some 6100) 11000 0.79 124.6 34.32 25 None 2 false "LEAP-1B"
    ["LEAP-1B"];
  mkAc "b734" 68000 56200 33700 20000 (Some 3900) 11000 0.78 91.04 28.88 25 (Some 0.129) 2 false "CFM56-3B-2"
    ["CFM56-3B-2"; "CFM56-3C-1"];
  mkAc "b737" 70000 58600 37600 26000 (Some 4600) 11000 0.78 124.6 34.32 25 None 2 false "CFM56-7B26"
    ["CFM56-7B20"; "CFM56-7B22"; "CFM56-7B24"; "CFM56-7B26"; "CFM56-7B27"];
  mkAc "b738" 79000 66300 41400 26000 (Some 3700) 11000 0.789 124.6 34.32 25 None 2 false "CFM56-7B26"
    ["CFM56-7B24"; "CFM56-7B26"; "CFM56-7B27"];
  mkAc "b739" 85100 71300 44600 26000 (Some 5100) 11000 0.79 124.6 34.32 25 None 2 false "CFM56-7B27E"
    ["CFM56-7B24"; "CFM56-7B26"; "CFM56-7B27"];
  mkAc "b744" 396800 260300 182400 203500 (Some 13400) 11000 0.85 525.6 64.4 37.5 (Some 0.094) 4 false "CF6-80C2B1F"
    ["PW4062"; "CF6-80C2B1F"; "RB211-524G"];
  mkAc "b748" 447700 312100 220100 238600 (Some 14800) 11000 0.85 554 68.4 37.5 (Some 0.094) 4 false "GEnx-2B67"
    ["GEnx-2B67"];
  mkAc "b752" 115600 92200 58400 43500 (Some 7200) 11000 0.8 182.3 38 25 None 2 false "RB211-535E4"
    ["PW2037"; "RB211-535E4"];
  mkAc "b763" 158700 136000 90000 63200 (Some 11400) 11000 0.8 283.3 47.57 31.5 (Some 0.115) 2 false "CF6-80C2B2"
    ["JT9D-7R4D"; "PW4056"; "CF6-80C2B2"];
  mkAc "b772" 297000 213000 138000 171000 (Some 9600) 11000 0.84 427.8 60.93 31.6 None 2 false "PW4090"
    ["GE90-77B"; "PW4077"; "Trent 877"; "GE90-94B"; "PW4090"; "Trent 895"];
  mkAc "b773" 299300 237600 160500 171200 (Some 11000) 11000 0.84 427.8 60.93 31.6 None 2 false "Trent 892"
    ["GE90-110B1"; "PW4090"; "Trent 892"];
  mkAc "b77w" 351500 251300 167800 181300 (Some 14700) 11000 0.84 436.8 64.8 31.6 None 2 false "GE90-115B"
    ["GE90-115B"];
  mkAc "b788" 228000 172000 119000 126200 (Some 14800) 11000 0.85 377 60.12 32.2 (Some 0.094) 2 false "Trent 1000-E2"
    ["GEnx-1B70"; "GEnx-1B67"; "GEnx-1B64"; "Trent 1000-E2"; "Trent 1000-C2"; "Trent 1000-A2"];
  mkAc "b789" 254000 193000 128000 126400 (Some 14000) 11000 0.85 377 60.12 32.2 (Some 0.094) 2 false "Trent 1000-K2"
    ["GEnx-1B75"; "GEnx-1B74"; "Trent 1000-K2"; "Trent 1000-J2"; "Trent 1000-A2"];
  mkAc "c550" 6849 6804 3655 2204 (Some 3500) 11000 0.67 31.83 15.9 0 (Some 0.13) 2 true "JT15D-4"
    ["JT15D-4"];
  mkAc "crj9" 37421 33340 20412 8888 None 11000 0.75 71.07 23.24 23 None 2 false "CF34-8C5"
    ["CF34-8C5"];
  mkAc "e145" 22000 19300 12110 5136 (Some 2200) 11000 0.72 51.2 20.04 23 None 2 false "AE3007A1"
    ["AE3007A1"];
  mkAc "e170" 34200 32800 21140 9335 (Some 3900) 11000 0.75 72.72 26 23 None 2 false "CF34-8E5"
    ["CF34-8E5"; "CF34-8E6"];
  mkAc "e190" 50300 43000 27753 16153 (Some 4400) 11000 0.78 92.5 28.72 23 None 2 false "CF34-10E5"
    ["CF34-10E5"];
  mkAc "e195" 50790 45000 28583 16153 (Some 4300) 11000 0.78 92.5 28.72 23 None 2 false "CF34-10E5"
    ["CF34-10E5"];
  mkAc "e75l" 38790 34000 21890 11625 (Some 3300) 11000 0.75 72.72 26 23 None 2 false "CF34-8E6"
    ["CF34-8E5"; "CF34-8E6"];
  mkAc "glf6" 45200 37900 24000 21000 (Some 13000) 12000 0.85 119.2 30.36 36 (Some 0.1) 2 true "BR700-725A1-12"
    ["BR700-725A1-12"]].

(** openap/data/aircraft/_synonym.csv *)
Definition shipped_acsyn : list (string * string) := [
  ("a124", "b744");
  ("a306", "a332");
  ("a310", "a318");
  ("at72", "e145");
  ("at75", "e145");
  ("at76", "e145");
  ("b733", "b734");
  ("b735", "b734");
  ("b762", "b763");
  ("b77l", "b77w");
  ("c25a", "c550");
  ("c525", "c550");
  ("c56x", "c550");
  ("crj2", "e145");
  ("crj9", "e75l");
  ("e290", "e190");
  ("glf5", "glf6");
  ("gl5t", "glf6");
  ("lj45", "glf6");
  ("md11", "b773");
  ("pc24", "c550");
  ("su95", "e170")].
