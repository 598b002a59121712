(** * Text of the aircraft files (copied by a script; do not edit) *)
From Coq Require Import String List.
Import ListNotations.
Open Scope string_scope.

(** openap/data/aircraft/a19n.yml:1-59 *)
Definition ac_a19n : string := "aircraft: Airbus A319neo

mtow: 75500
mlw: 62500
oew: 42600
mfc: 29700
vmo: 350
mmo: 0.82
ceiling: 12500

pax:
  max: 160
  low: 120
  high: 150

fuselage:
  length: 33.84
  height: 4.14
  width: 3.95

wing:
  area: 124
  span: 35.8
  mac: 4.29
  sweep: 25
  t/c: null

flaps:
  type: single-slotted
  area: 21.1
  bf/b: 0.780
  lambda_f: 0.900 #a20n
  cf/c: 0.176 #a20n
  Sf/S: 0.170 #a20n

cruise:
  height: 11000
  mach: 0.78
  range: 7000

engine:
  type: turbofan
  mount: wing
  number: 2
  default: PW1124G1-JM
  options:
    A319-171N: PW1124G1-JM
    A319-151N: LEAP-1A24
    A319-153N: LEAP-1A26

drag:
  cd0: 0.017 #a20n
  k: 0.038 #a20n
  e: 0.807 #a20n
  gears: 0.017 #a20n

fuel:
  engine: V2524-A5 #a319
  fuel_coef: 2.33357287 #a319
".
(** openap/data/aircraft/a20n.yml:1-63 *)
Definition ac_a20n : string := "aircraft: Airbus A320neo

mtow: 79000
mlw: 66000
oew: 44300
mfc: 29700
vmo: 350
mmo: 0.82
ceiling: 12500

pax:
  max: 194
  low: 150
  high: 180

fuselage:
  length: 37.57
  height: 4.14
  width: 3.95

wing:
  area: 124
  span: 35.8
  mac: 4.29
  sweep: 25
  t/c: null

flaps:
  type: single-slotted
  area: 21.1
  bf/b: 0.780
  lambda_f: 0.900
  cf/c: 0.176
  Sf/S: 0.170

cruise:
  height: 11000
  mach: 0.78
  range: 6300

engine:
  type: turbofan
  mount: wing
  number: 2
  default: PW1127G-JM
  options:
    A320-271N: PW1127G-JM
    A320-272N: PW1124G1-JM
    A320-273N: PW1129G-JM
    A320-251N: LEAP-1A26
    A320-252N: LEAP-1A24
    A320-253N: LEAP-1A29

drag:
  cd0: 0.017
  k: 0.038
  e: 0.807
  gears: 0.017

fuel:
  aircraft: Airbus A320
  engine: CFM56-5B4/P
  fuel_coef: 2.65942225
".
(** openap/data/aircraft/a21n.yml:1-61 *)
Definition ac_a21n : string := "aircraft: Airbus A321neo

mtow: 97000
mlw: 77800
oew: 50000
mfc: 33000
vmo: 350
mmo: 0.82
ceiling: 12500

pax:
  max: 244
  low: 180
  high: 220

fuselage:
  length: 44.51
  height: 4.14
  width: 3.95

wing:
  area: 128
  span: 35.8
  mac: 4.29
  sweep: 25
  t/c: null

flaps:
  type: double-slotted
  area: 21.1
  bf/b: 0.780
  lambda_f: 0.900 #a20n
  cf/c: 0.176 #a20n
  Sf/S: 0.170 #a20n

cruise:
  height: 11000
  mach: 0.78
  range: 7400

engine:
  type: turbofan
  mount: wing
  number: 2
  default: PW1133G-JM
  options:
    A321-271N: PW1133G-JM
    A321-272N: PW1130G-JM
    A321-251N: LEAP-1A32
    A321-252N: LEAP-1A30
    A321-253N: LEAP-1A33

drag:
  cd0: 0.017 #a20n
  k: 0.038 #a20n
  e: 0.807 #a20n
  gears: 0.017 #a20n

fuel:
  engine: CFM56-5B4/P #a320
  fuel_coef: 2.65942225 #a320
".
(** openap/data/aircraft/a318.yml:1-60 *)
Definition ac_a318 : string := "aircraft: Airbus A318

mtow: 68000
mlw: 57500
oew: 39500
mfc: 24210
vmo: 350
mmo: 0.82
ceiling: 12500

pax:
  max: 136
  low: 107
  high: 117

fuselage:
  length: 31.44
  height: 4.14
  width: 3.95

wing:
  area: 122.4
  span: 34.10
  mac: 4.1935
  sweep: 25
  t/c: null

flaps:
  type: single-slotted
  area: 21.1
  bf/b: 0.780
  lambda_f: 0.900 #a319
  cf/c: 0.176 #a319
  Sf/S: 0.170 #a319

cruise:
  height: 11000
  mach: 0.78
  range: 2800

engine:
  type: turbofan
  mount: wing
  number: 2
  default: CFM56-5B9
  options:
    A318-111: CFM56-5B8
    A318-112: CFM56-5B9
    A318-121: PW6122A
    A318-122: PW6124A

drag:
  cd0: 0.020 #a319
  k: 0.039 #a319
  e: 0.783 #a319
  gears: 0.017 #a319

fuel:
  engine: CFM56-5B9/3
  fuel_coef: 2.03114004
".
(** openap/data/aircraft/a319.yml:1-64 *)
Definition ac_a319 : string := "aircraft: Airbus A319

mtow: 75500
mlw: 62500
oew: 40800
mfc: 30190
vmo: 350
mmo: 0.82
ceiling: 12500

pax:
  max: 156
  low: 110
  high: 140

fuselage:
  length: 33.84
  height: 4.14
  width: 3.95

wing:
  area: 124
  span: 35.8
  mac: 4.1935
  sweep: 25
  t/c: null

flaps:
  type: single-slotted
  area: 21.1
  bf/b: 0.780
  lambda_f: 0.900
  cf/c: 0.176
  Sf/S: 0.170

cruise:
  height: 11000
  mach: 0.78
  range: 3300

engine:
  type: turbofan
  mount: wing
  number: 2
  default: V2524-A5
  options:
    A319-111: CFM56-5B5
    A319-112: CFM56-5B6
    A319-113: CFM56-5A4
    A319-114: CFM56-5A5
    A319-115: CFM56-5B7
    A319-131: V2522-A5
    A319-132: V2524-A5
    A319-133: V2527M-A5

drag:
  cd0: 0.020
  k: 0.039
  e: 0.783
  gears: 0.017

fuel:
  engine: V2524-A5
  fuel_coef: 2.33357287
".
(** openap/data/aircraft/a320.yml:1-65 *)
Definition ac_a320 : string := "aircraft: Airbus A320

mtow: 78000
mlw: 66000
oew: 42600
mfc: 24210
vmo: 350
mmo: 0.82
ceiling: 12500

pax:
  max: 180
  low: 140
  high: 170

fuselage:
  length: 37.57
  height: 4.14
  width: 3.95

wing:
  area: 124
  span: 35.8
  mac: 4.1935
  sweep: 25
  t/c: null

flaps:
  type: single-slotted
  area: 21.1
  bf/b: 0.780
  lambda_f: 0.900
  cf/c: 0.176
  Sf/S: 0.170

cruise:
  height: 11000
  mach: 0.78
  range: 5000

engine:
  type: turbofan
  mount: wing
  number: 2
  default: CFM56-5B4
  options:
    A320-111: CFM56-5-A1
    A320-211: CFM56-5-A1
    A320-212: CFM56-5A3
    A320-214: CFM56-5B4
    A320-215: CFM56-5B5
    A320-216: CFM56-5B6
    A320-231: V2500-A1
    A320-232: V2527-A5
    A320-233: V2527E-A5

drag:
  cd0: 0.018
  k: 0.039
  e: 0.799
  gears: 0.017

fuel:
  engine: CFM56-5B4/P
  fuel_coef: 2.65942225
".
(** openap/data/aircraft/a321.yml:1-64 *)
Definition ac_a321 : string := "aircraft: Airbus A321

mtow: 93500
mlw: 77800
oew: 48500
mfc: 30030
vmo: 350
mmo: 0.82
ceiling: 12500

pax:
  max: 220
  low: 170
  high: 210

fuselage:
  length: 44.51
  height: 4.14
  width: 3.95

wing:
  area: 128
  span: 35.8
  mac: 4.1935
  sweep: 25
  t/c: null

flaps:
  type: double-slotted
  area: 21.1
  bf/b: 0.780
  lambda_f: 0.900
  cf/c: 0.176
  Sf/S: 0.165

cruise:
  height: 11000
  mach: 0.78
  range: 4400

engine:
  type: turbofan
  mount: wing
  number: 2
  default: CFM56-5B1
  options:
    A321-111: CFM56-5B1
    A321-112: CFM56-5B2
    A321-131: V2530-A5
    A321-211: CFM56-5B3
    A321-212: CFM56-5B1
    A321-213: CFM56-5B2
    A321-231: V2533-A5
    A321-232: V2530-A5

drag:
  cd0: 0.020
  k: 0.041
  e: 0.785
  gears: 0.019

fuel:
  engine: V2533-A5
  fuel_coef: 3.2375643
".
(** openap/data/aircraft/a332.yml:1-62 *)
Definition ac_a332 : string := "aircraft: Airbus A330-200

mtow: 230000
mlw: 182000
oew: 120200
mfc: 139000
vmo: 330
mmo: 0.86
ceiling: 12500

pax:
  max: 406
  low: 220
  high: 260

fuselage:
  length: 58.82
  height: 5.64
  width: 5.64

wing:
  area: 361.6
  span: 60.3
  mac: 7.26
  sweep: 29.7
  t/c: 0.11

flaps:
  type: double-slotted
  area: null
  bf/b: 0.665
  lambda_f: 0.900
  cf/c: 0.150
  Sf/S: 0.150

cruise:
  height: 11000
  mach: 0.82
  range: 12500

engine:
  type: turbofan
  mount: wing
  number: 2
  default: Trent 772
  options:
    A330-201: CF6-80E1A2
    A330-202: CF6-80E1A4
    A330-203: CF6-80E1A3
    A330-223: PW4168A
    A330-223F: PW4170
    A330-243: Trent 772

drag:
  cd0: 0.022
  k: 0.041
  e: 0.774
  gears: 0.014

fuel:
  engine: Trent 772
  fuel_coef: 6.0218489
".
(** openap/data/aircraft/a333.yml:1-65 *)
Definition ac_a333 : string := "aircraft: Airbus A330-300

mtow: 242000
mlw: 188000
oew: 122780
mfc: 139000
vmo: 330
mmo: 0.86
ceiling: 12500

pax:
  max: 440
  low: 250
  high: 290

fuselage:
  length: 63.67
  height: 5.64
  width: 5.64

wing:
  area: 361.6
  span: 60.3
  mac: 7.26
  sweep: 29.7
  t/c: 0.11

flaps:
  type: double-slotted
  area: null
  bf/b: 0.665
  lambda_f: 0.900
  cf/c: 0.150
  Sf/S: 0.150

cruise:
  height: 11000
  mach: 0.82
  range: 10500

engine:
  type: turbofan
  mount: wing
  number: 2
  default: Trent 772
  options:
    A330-301: CF6-80E1A2
    A330-302: CF6-80E1A4
    A330-303: CF6-80E1A3
    A330-321: PW4164
    A330-322: PW4168
    A330-323: PW4168A
    A330-341: Trent 768
    A330-342: Trent 772
    A330-343: Trent 772

drag:
  cd0: 0.022
  k: 0.041
  e: 0.773
  gears: 0.014

fuel:
  engine: Trent 772
  fuel_coef: 5.84957777
".
(** openap/data/aircraft/a343.yml:1-55 *)
Definition ac_a343 : string := "aircraft: Airbus A340-300

mtow: 276000
mlw: 190000
oew: 130000
mfc: 147850
vmo: 330
mmo: 0.86
ceiling: 12500

pax:
  max: 440
  low: 250
  high: 290

fuselage:
  length: 63.69
  height: 5.64
  width: 5.64

wing:
  area: 363.1
  span: 60.3
  mac: 7.26
  sweep: 29.7
  t/c: 0.11

flaps:
  type: double-slotted
  area: null
  bf/b: 0.665
  lambda_f: 0.900
  cf/c: 0.150
  Sf/S: 0.150

cruise:
  height: 11000
  mach: 0.82
  range: 13300

engine:
  type: turbofan
  mount: wing
  number: 4
  default: CFM56-5C3
  options:
    A340-311: CFM56-5C2
    A340-312: CFM56-5C3
    A340-313: CFM56-5C4

drag:
  cd0: 0.019
  k: 0.040
  e: 0.799
  gears: 0.016
".
(** openap/data/aircraft/a359.yml:1-53 *)
Definition ac_a359 : string := "aircraft: Airbus A350-900

mtow: 280000
mlw: 205000
oew: 142400
mfc: 140795
vmo: 340
mmo: 0.89
ceiling: 13100

pax:
  max: 440
  low: 300
  high: 350

fuselage:
  length: 66.8
  height: 6.09
  width: 5.96

wing:
  area: 442
  span: 64.75
  mac: null
  sweep: 31.9
  t/c: null

flaps:
  type: double-slotted
  area: null
  bf/b: null
  lambda_f: 0.900
  cf/c: 0.150
  Sf/S: 0.150

cruise:
  height: 11000
  mach: 0.85
  range: 15000

engine:
  type: turbofan
  mount: wing
  number: 2
  default: Trent XWB-84
  options:
    A350-941: Trent XWB-84

drag:
  cd0: 0.022
  k: 0.043
  e: 0.783
  gears: 0.013
".
(** openap/data/aircraft/a388.yml:1-55 *)
Definition ac_a388 : string := "aircraft: Airbus A380-800

mtow: 560000
mlw: 386000
oew: 277000
mfc: 320000
vmo: 340
mmo: 0.89
ceiling: 13100

pax:
  max: 853
  low: 410
  high: 620

fuselage:
  length: 72.72
  height: 8.41
  width: 7.14

wing:
  area: 845
  span: 79.75
  mac: null
  sweep: 33.5
  t/c: 0.08

flaps:
  type: single-slotted
  area: null
  bf/b: null
  lambda_f: 0.900
  cf/c: 0.150
  Sf/S: 0.150

cruise:
  height: 12800
  mach: 0.85
  range: 14800

engine:
  type: turbofan
  mount: wing
  number: 4
  default: GP7270
  options:
    A380-841: Trent 970-84
    A380-842: Trent 972-84
    A380-861: GP7270

drag:
  cd0: 0.016
  k: 0.050
  e: 0.855
  gears: 0.012
".
(** openap/data/aircraft/b37m.yml:1-53 *)
Definition ac_b37m : string := "aircraft: Boeing 737 MAX 7

mtow: 80000
mlw: 60000
oew: 45000
mfc: 26000
vmo: 340
mmo: 0.82
ceiling: 12500

pax:
  max: 172
  low: 138
  high: 153

fuselage:
  length: 33.6
  height: 3.73
  width: 3.73

wing:
  area: 124.6
  span: 34.32
  mac: 4.17
  sweep: 25
  t/c: null

flaps:
  type: double-slotted
  area: null
  bf/b: 0.60
  lambda_f: 0.900 #a38m
  cf/c: 0.150 #a38m
  Sf/S: 0.150 #a38m

cruise:
  height: 11000
  mach: 0.78
  range: 7100

engine:
  type: turbofan
  mount: wing
  number: 2
  default: LEAP-1B
  options:
    - LEAP-1B

drag:
  cd0: 0.020 #a38m
  k: 0.042 #a38m
  e: 0.797 #a38m
  gears: 0.018 #a38m
".
(** openap/data/aircraft/b38m.yml:1-53 *)
Definition ac_b38m : string := "aircraft: Boeing 737 MAX 8

mtow: 82000
mlw: 66300
oew: 45000
mfc: 26000
vmo: 340
mmo: 0.82
ceiling: 12500

pax:
  max: 210
  low: 162
  high: 178

fuselage:
  length: 39.47
  height: 3.73
  width: 3.73

wing:
  area: 124.6
  span: 34.32
  mac: 4.17
  sweep: 25
  t/c: null

flaps:
  type: double-slotted
  area: null
  bf/b: 0.60
  lambda_f: 0.900
  cf/c: 0.150
  Sf/S: 0.150

cruise:
  height: 11000
  mach: 0.79
  range: 6600

engine:
  type: turbofan
  mount: wing
  number: 2
  default: LEAP-1B
  options:
    - LEAP-1B

drag:
  cd0: 0.020
  k: 0.042
  e: 0.797
  gears: 0.018
".
(** openap/data/aircraft/b39m.yml:1-53 *)
Definition ac_b39m : string := "aircraft: Boeing 737 MAX 9

mtow: 88000
mlw: 71000
oew: 45000
mfc: 26000
vmo: 340
mmo: 0.82
ceiling: 12500

pax:
  max: 220
  low: 178
  high: 193

fuselage:
  length: 42.11
  height: 3.73
  width: 3.73

wing:
  area: 124.6
  span: 34.32
  mac: 4.17
  sweep: 25
  t/c: null

flaps:
  type: double-slotted
  area: null
  bf/b: 0.60
  lambda_f: 0.900 #a38m
  cf/c: 0.150 #a38m
  Sf/S: 0.150 #a38m

cruise:
  height: 11000
  mach: 0.79
  range: 6600

engine:
  type: turbofan
  mount: wing
  number: 2
  default: LEAP-1B
  options:
    - LEAP-1B

drag:
  cd0: 0.020 #a38m
  k: 0.042 #a38m
  e: 0.797 #a38m
  gears: 0.018 #a38m
".
(** openap/data/aircraft/b3xm.yml:1-53 *)
Definition ac_b3xm : string := "aircraft: Boeing 737 MAX 10

mtow: 90000
mlw: 70000
oew: 45000
mfc: 26000
vmo: 340
mmo: 0.82
ceiling: 12500

pax:
  max: 230
  low: 188
  high: 204

fuselage:
  length: 43.8
  height: 3.73
  width: 3.73

wing:
  area: 124.6
  span: 34.32
  mac: 4.17
  sweep: 25
  t/c: null

flaps:
  type: double-slotted
  area: null
  bf/b: 0.60
  lambda_f: 0.900 #a38m
  cf/c: 0.150 #a38m
  Sf/S: 0.150 #a38m

cruise:
  height: 11000
  mach: 0.79
  range: 6100

engine:
  type: turbofan
  mount: wing
  number: 2
  default: LEAP-1B
  options:
    - LEAP-1B

drag:
  cd0: 0.020 #a38m
  k: 0.042 #a38m
  e: 0.797 #a38m
  gears: 0.018 #a38m

".
(** openap/data/aircraft/b734.yml:1-58 *)
Definition ac_b734 : string := "aircraft: Boeing 737-400

mtow: 68000
mlw: 56200
oew: 33700
mfc: 20000
vmo: 340
mmo: 0.82
ceiling: 12500

pax:
  max: 188
  low: 145
  high: 160

fuselage:
  length: 33.4
  height: 3.73
  width: 3.73

wing:
  area: 91.04
  span: 28.88
  mac: 3.73
  sweep: 25
  t/c: 0.129

flaps:
  type: triple-slotted
  area: null
  bf/b: 0.72
  lambda_f: 0.900
  cf/c: 0.150
  Sf/S: 0.150

cruise:
  height: 11000
  mach: 0.78
  range: 3900

engine:
  type: turbofan
  mount: wing
  number: 2
  default: CFM56-3B-2
  options:
    - CFM56-3B-2
    - CFM56-3C-1

drag:
  cd0: 0.020
  k: 0.044
  e: 0.793
  gears: 0.021

fuel:
  engine: CFM56-3C-1
  fuel_coef: 2.60481253
".
(** openap/data/aircraft/b737.yml:1-61 *)
Definition ac_b737 : string := "aircraft: Boeing 737-700

mtow: 70000
mlw: 58600
oew: 37600
mfc: 26000
vmo: 340
mmo: 0.82
ceiling: 12500

pax:
  max: 149
  low: 130
  high: 149

fuselage:
  length: 33.6
  height: 3.73
  width: 3.73

wing:
  area: 124.6
  span: 34.32
  mac: 4.17
  sweep: 25
  t/c: null

flaps:
  type: double-slotted
  area: null
  bf/b: 0.60
  lambda_f: 0.900
  cf/c: 0.150
  Sf/S: 0.150

cruise:
  height: 11000
  mach: 0.78
  range: 4600

engine:
  type: turbofan
  mount: wing
  number: 2
  default: CFM56-7B26
  options:
    - CFM56-7B20
    - CFM56-7B22
    - CFM56-7B24
    - CFM56-7B26
    - CFM56-7B27

drag:
  cd0: 0.022
  k: 0.043
  e: 0.780
  gears: 0.016

fuel:
  engine: CFM56-7B26
  fuel_coef: 2.69348207
".
(** openap/data/aircraft/b738.yml:1-59 *)
Definition ac_b738 : string := "aircraft: Boeing 737-800

mtow: 79000
mlw: 66300
oew: 41400
mfc: 26000
vmo: 340
mmo: 0.82
ceiling: 12500

pax:
  max: 189
  low: 162
  high: 189

fuselage:
  length: 39.47
  height: 3.73
  width: 3.73

wing:
  area: 124.6
  span: 34.32
  mac: 4.17
  sweep: 25
  t/c: null

flaps:
  type: double-slotted
  area: null
  bf/b: 0.60
  lambda_f: 0.900
  cf/c: 0.150
  Sf/S: 0.150

cruise:
  height: 11000
  mach: 0.789
  range: 3700

engine:
  type: turbofan
  mount: wing
  number: 2
  default: CFM56-7B26
  options:
    - CFM56-7B24
    - CFM56-7B26
    - CFM56-7B27

drag:
  cd0: 0.019
  k: 0.042
  e: 0.799
  gears: 0.017

fuel:
  engine: CFM56-7B26E
  fuel_coef: 2.68531655
".
(** openap/data/aircraft/b739.yml:1-59 *)
Definition ac_b739 : string := "aircraft: Boeing 737-900

mtow: 85100
mlw: 71300
oew: 44600
mfc: 26000
vmo: 340
mmo: 0.82
ceiling: 12500

pax:
  max: 215
  low: 170
  high: 190

fuselage:
  length: 42.11
  height: 3.73
  width: 3.73

wing:
  area: 124.6
  span: 34.32
  mac: 4.17
  sweep: 25
  t/c: null

flaps:
  type: double-slotted
  area: null
  bf/b: 0.60
  lambda_f: 0.900
  cf/c: 0.150
  Sf/S: 0.150

cruise:
  height: 11000
  mach: 0.79
  range: 5100

engine:
  type: turbofan
  mount: wing
  number: 2
  default: CFM56-7B27E
  options:
    - CFM56-7B24
    - CFM56-7B26
    - CFM56-7B27

clean:
  cd0: 0.020
  k: 0.042
  e: 0.797
  gears: 0.018

fuel:
  engine: CFM56-7B27E
  fuel_coef: 2.79057225
".
(** openap/data/aircraft/b744.yml:1-55 *)
Definition ac_b744 : string := "aircraft: Boeing 747-400

mtow: 396800
mlw: 260300
oew: 182400
mfc: 203500
vmo: 365
mmo: 0.92
ceiling: 13700

pax:
  max: 660
  low: 520
  high: 570

fuselage:
  length: 70.66
  height: 8.10
  width: 6.50

wing:
  area: 525.6
  span: 64.4
  mac: 9.68
  sweep: 37.5
  t/c: 0.094

flaps:
  type: triple-slotted
  area: 78.7
  bf/b: 0.639
  lambda_f: 0.900
  cf/c: 0.198
  Sf/S: 0.150

cruise:
  height: 11000
  mach: 0.85
  range: 13400

engine:
  type: turbofan
  mount: wing
  number: 4
  default: CF6-80C2B1F
  options:
    - PW4062
    - CF6-80C2B1F
    - RB211-524G

drag:
  cd0: 0.021
  k: 0.049
  e: 0.816
  gears: 0.015
".
(** openap/data/aircraft/b748.yml:1-53 *)
Definition ac_b748 : string := "aircraft: Boeing 747-8

mtow: 447700
mlw: 312100
oew: 220100
mfc: 238600
vmo: 365
mmo: 0.92
ceiling: 13100

pax:
  max: 605
  low: 460
  high: 480

fuselage:
  length: 76.3
  height: 7.10
  width: 6.50

wing:
  area: 554
  span: 68.4
  mac: 9.68
  sweep: 37.5
  t/c: 0.094

flaps:
  type: triple-slotted
  area: 78.7
  bf/b: 0.639
  lambda_f: 0.900
  cf/c: 0.186
  Sf/S: 0.142

cruise:
  height: 11000
  mach: 0.85
  range: 14800

engine:
  type: turbofan
  mount: wing
  number: 4
  default: GEnx-2B67
  options:
    - GEnx-2B67

drag:
  cd0: 0.021
  k: 0.047
  e: 0.806
  gears: 0.015
".
(** openap/data/aircraft/b752.yml:1-54 *)
Definition ac_b752 : string := "aircraft: Boeing 757-200

mtow: 115600
mlw: 92200
oew: 58400
mfc: 43500
vmo: 350
mmo: 0.86
ceiling: 12800

pax:
  max: 239
  low: 200
  high: 225

fuselage:
  length: 47.3
  height: 4.10
  width: 4.10

wing:
  area: 182.3
  span: 38.0
  mac: 5.64
  sweep: 25
  t/c: null

flaps:
  type: double-slotted
  area: 30.4
  bf/b: 0.757
  lambda_f: 0.900
  cf/c: 0.187
  Sf/S: 0.167

cruise:
  height: 11000
  mach: 0.8
  range: 7200

engine:
  type: turbofan
  mount: wing
  number: 2
  default: RB211-535E4
  options:
    - PW2037
    - RB211-535E4

drag:
  cd0: 0.021
  k: 0.049
  e: 0.813
  gears: 0.016
".
(** openap/data/aircraft/b763.yml:1-55 *)
Definition ac_b763 : string := "aircraft: Boeing 767-300

mtow: 158700
mlw: 136000
oew: 90000
mfc: 63200
vmo: 360
mmo: 0.86
ceiling: 13100

pax:
  max: 350
  low: 210
  high: 290

fuselage:
  length: 54.94
  height: 5.03
  width: 5.03

wing:
  area: 283.3
  span: 47.57
  mac: 6.98
  sweep: 31.5
  t/c: 0.115

flaps:
  type: double-slotted
  area: 36.88
  bf/b: 0.75
  lambda_f: 0.900 #b752
  cf/c: 0.187 #b752
  Sf/S: 0.167 #b752

cruise:
  height: 11000
  mach: 0.8
  range: 11400

engine:
  type: turbofan
  mount: wing
  number: 2
  default: CF6-80C2B2
  options:
    - JT9D-7R4D
    - PW4056
    - CF6-80C2B2

drag:
  cd0: 0.021 #b752
  k: 0.049 #b752
  e: 0.813 #b752
  gears: 0.016 #b752
".
(** openap/data/aircraft/b772.yml:1-58 *)
Definition ac_b772 : string := "aircraft: Boeing 777-200/200ER

mtow: 297000
mlw: 213000
oew: 138000
mfc: 171000
vmo: 330
mmo: 0.89
ceiling: 13100

pax:
  max: 440
  low: 300
  high: 320

fuselage:
  length: 63.73
  height: 6.20
  width: 6.20

wing:
  area: 427.8
  span: 60.93
  mac: 8.75
  sweep: 31.6
  t/c: null

flaps:
  type: double-slotted
  area: 67.13
  bf/b: 0.758
  lambda_f: 0.900
  cf/c: 0.166
  Sf/S: 0.157

cruise:
  height: 11000
  mach: 0.84
  range: 9600

engine:
  type: turbofan
  mount: wing
  number: 2
  default: PW4090
  options:
    - GE90-77B
    - PW4077
    - Trent 877
    - GE90-94B
    - PW4090
    - Trent 895

drag:
  cd0: 0.024
  k: 0.047
  e: 0.783
  gears: 0.014
".
(** openap/data/aircraft/b773.yml:1-55 *)
Definition ac_b773 : string := "aircraft: Boeing 777-300

mtow: 299300
mlw: 237600
oew: 160500
mfc: 171200
vmo: 330
mmo: 0.89
ceiling: 13100

pax:
  max: 550
  low: 360
  high: 400

fuselage:
  length: 73.86
  height: 6.20
  width: 6.20

wing:
  area: 427.8
  span: 60.93
  mac: 8.75
  sweep: 31.6
  t/c: null

flaps:
  type: double-slotted
  area: 67.13
  bf/b: 0.758
  lambda_f: 0.900
  cf/c: 0.166
  Sf/S: 0.157

cruise:
  height: 11000
  mach: 0.84
  range: 11000

engine:
  type: turbofan
  mount: wing
  number: 2
  default: Trent 892
  options:
    - GE90-110B1
    - PW4090
    - Trent 892

drag:
  cd0: 0.024 #b772
  k: 0.047 #b772
  e: 0.783 #b772
  gears: 0.014 #b772
".
(** openap/data/aircraft/b77w.yml:1-53 *)
Definition ac_b77w : string := "aircraft: Boeing 777-300ER

mtow: 351500
mlw: 251300
oew: 167800
mfc: 181300
vmo: 330
mmo: 0.89
ceiling: 13100

pax:
  max: 550
  low: 365
  high: 451

fuselage:
  length: 73.86
  height: 6.20
  width: 6.20

wing:
  area: 436.8
  span: 64.8
  mac: 8.75
  sweep: 31.6
  t/c: null

flaps:
  type: double-slotted
  area: 67.13
  bf/b: 0.758
  lambda_f: 0.900
  cf/c: 0.156
  Sf/S: 0.154

cruise:
  height: 11000
  mach: 0.84
  range: 14700

engine:
  type: turbofan
  mount: wing
  number: 2
  default: GE90-115B
  options:
    - GE90-115B

drag:
  cd0: 0.024
  k: 0.043
  e: 0.765
  gears: 0.016
".
(** openap/data/aircraft/b788.yml:1-58 *)
Definition ac_b788 : string := "aircraft: Boeing 787-8

mtow: 228000
mlw: 172000
oew: 119000
mfc: 126200
vmo: 515
mmo: 0.90
ceiling: 13100

pax:
  max: 380
  low: 220
  high: 250

fuselage:
  length: 56.72
  height: 5.94
  width: 5.77

wing:
  area: 377
  span: 60.12
  mac: 6.27
  sweep: 32.2
  t/c: 0.094

flaps:
  type: single-slotted
  area: null
  bf/b: null
  lambda_f: 0.900
  cf/c: 0.150
  Sf/S: 0.150

cruise:
  height: 11000
  mach: 0.85
  range: 14800

engine:
  type: turbofan
  mount: wing
  number: 2
  default: Trent 1000-E2
  options:
    - GEnx-1B70
    - GEnx-1B67
    - GEnx-1B64
    - Trent 1000-E2
    - Trent 1000-C2
    - Trent 1000-A2

drag:
  cd0: 0.017
  k: 0.041
  e: 0.819
  gears: 0.013
".
(** openap/data/aircraft/b789.yml:1-57 *)
Definition ac_b789 : string := "aircraft: Boeing 787-9

mtow: 254000
mlw: 193000
oew: 128000
mfc: 126400
vmo: 515
mmo: 0.90
ceiling: 13100

pax:
  max: 420
  low: 260
  high: 290

fuselage:
  length: 62.81
  height: 5.94
  width: 5.77

wing:
  area: 377
  span: 60.12
  mac: 6.27
  sweep: 32.2
  t/c: 0.094

flaps:
  type: single-slotted
  area: null
  bf/b: null
  lambda_f: 0.900
  cf/c: 0.150
  Sf/S: 0.150

cruise:
  height: 11000
  mach: 0.85
  range: 14000

engine:
  type: turbofan
  mount: wing
  number: 2
  default: Trent 1000-K2
  options:
    - GEnx-1B75
    - GEnx-1B74
    - Trent 1000-K2
    - Trent 1000-J2
    - Trent 1000-A2

drag:
  cd0: 0.022
  k: 0.042
  e: 0.783
  gears: 0.014
".
(** openap/data/aircraft/c550.yml:1-53 *)
Definition ac_c550 : string := "aircraft: Cessna Citation II

mtow: 6849
mlw: 6804
oew: 3655
mfc: 2204
vmo: 270
mmo: 0.7
ceiling: 13100

pax:
  max: 10
  low: 5
  high: 10

fuselage:
  length: 14.39
  height: 1.46
  width: 1.46

wing:
  area: 31.83
  span: 15.90
  mac: 2.05
  sweep: 0
  t/c: 0.13

flaps:
  type: single-slotted
  area: null
  bf/b: null
  lambda_f: 1.700
  cf/c: 0.150
  Sf/S: 0.150

cruise:
  height: 11000
  mach: 0.67
  range: 3500

engine:
  type: turbofan
  mount: rear
  number: 2
  default: JT15D-4
  options:
    - JT15D-4

drag:
  cd0: 0.028
  k: 0.049
  e: 0.818
  gears: 0.020
".
(** openap/data/aircraft/crj9.yml:1-56 *)
Definition ac_crj9 : string := "aircraft: BOMBARDIER CRJ9

mtow: 37421
mlw: 33340
oew: 20412
mfc: 8888
vmo: 320
mmo: 0.82
ceiling: 12500

pax:
  max: 88
  low: 64
  high: 78

fuselage:
  length: 33.50
  height: 2.69
  width: 2.69

wing:
  area: 71.07
  span: 23.24
  mac: 3.19 #e75l
  sweep: 23 #e75l
  t/c: null

flaps:
  type: double-slotted #e75l
  area: null
  bf/b: null
  lambda_f: 0.900 #e75l
  cf/c: 0.150 #e75l
  Sf/S: 0.150 #e75l

cruise:
  height: 11000 #e75l
  mach: 0.75 #e75l

engine:
  type: turbofan
  mount: wing
  number: 2
  default: CF34-8C5
  options:
    - CF34-8C5

drag:
  cd0: 0.018 #e75l
  k: 0.042 #e75l
  e: 0.809 #e75l
  gears: 0.017 #e75l

fuel:
  engine: CF34-8C5
  fuel_coef: 1.54520615 #e75l
".
(** openap/data/aircraft/e145.yml:1-53 *)
Definition ac_e145 : string := "aircraft: Embraer ERJ145 (LR)

mtow: 22000
mlw: 19300
oew: 12110
mfc: 5136
vmo: 320
mmo: 0.78
ceiling: 11300

pax:
  max: 50
  low: 50
  high: 50

fuselage:
  length: 29.87
  height: 2.28
  width: 2.28

wing:
  area: 51.2
  span: 20.04
  mac: 3.19
  sweep: 23
  t/c: null

flaps:
  type: double-slotted
  area: null
  bf/b: null
  lambda_f: 0.900 #e75l
  cf/c: 0.150 #e75l
  Sf/S: 0.150 #e75l

cruise:
  height: 11000
  mach: 0.72
  range: 2200

engine:
  type: turbofan
  mount: wing
  number: 2
  default: AE3007A1
  options:
    - AE3007A1

drag:
  cd0: 0.018 #e75l
  k: 0.042 #e75l
  e: 0.809 #e75l
  gears: 0.017 #e75l
".
(** openap/data/aircraft/e170.yml:1-58 *)
Definition ac_e170 : string := "aircraft: Embraer E170

mtow: 34200
mlw: 32800
oew: 21140
mfc: 9335
vmo: 320
mmo: 0.82
ceiling: 12500

pax:
  max: 78
  low: 60
  high: 72

fuselage:
  length: 29.90
  height: 3.35
  width: 3.01

wing:
  area: 72.72
  span: 26.00
  mac: 3.19
  sweep: 23
  t/c: null

flaps:
  type: double-slotted
  area: null
  bf/b: null
  lambda_f: 0.900 #e75l
  cf/c: 0.150 #e75l
  Sf/S: 0.150 #e75l

cruise:
  height: 11000
  mach: 0.75
  range: 3900

engine:
  type: turbofan
  mount: wing
  number: 2
  default: CF34-8E5
  options:
    - CF34-8E5
    - CF34-8E6

drag:
  cd0: 0.018 #e75l
  k: 0.042 #e75l
  e: 0.809 #e75l
  gears: 0.017 #e75l

fuel:
  engine: CF34-8E5
  fuel_coef: 1.61927756
".
(** openap/data/aircraft/e190.yml:1-57 *)
Definition ac_e190 : string := "aircraft: Embraer E190 (LR)

mtow: 50300
mlw: 43000
oew: 27753
mfc: 16153
vmo: 320
mmo: 0.82
ceiling: 12500

pax:
  max: 114
  low: 88
  high: 100

fuselage:
  length: 36.24
  height: 3.35
  width: 3.01

wing:
  area: 92.5
  span: 28.72
  mac: 3.68
  sweep: 23
  t/c: null

flaps:
  type: double-slotted
  area: null
  bf/b: null
  lambda_f: 0.900
  cf/c: 0.150
  Sf/S: 0.150

cruise:
  height: 11000
  mach: 0.78
  range: 4400

engine:
  type: turbofan
  mount: wing
  number: 2
  default: CF34-10E5
  options:
    - CF34-10E5

drag:
  cd0: 0.018
  k: 0.044
  e: 0.817
  gears: 0.016

fuel:
  engine: CF34-10E5
  fuel_coef: 1.78414985
".
(** openap/data/aircraft/e195.yml:1-59 *)
Definition ac_e195 : string := "aircraft: Embraer E195 (LR)

mtow: 50790
mlw: 45000
oew: 28583
mfc: 16153
vmo: 320
mmo: 0.82
ceiling: 12500

pax:
  max: 124
  low: 88
  high: 116

fuselage:
  length: 38.65
  height: 3.35
  width: 3.01

wing:
  area: 92.5
  span: 28.72
  mac: 3.68
  sweep: 23
  t/c: null

flaps:
  type: double-slotted
  area: null
  bf/b: null
  lambda_f: 0.900
  cf/c: 0.150
  Sf/S: 0.150

limits:

cruise:
  height: 11000
  mach: 0.78
  range: 4300

engine:
  type: turbofan
  mount: wing
  number: 2
  default: CF34-10E5
  options:
    - CF34-10E5

drag:
  cd0: 0.021
  k: 0.045
  e: 0.795
  gears: 0.017

fuel:
  engine: CF34-10E5A1
  fuel_coef: 1.76241166
".
(** openap/data/aircraft/e75l.yml:1-58 *)
Definition ac_e75l : string := "aircraft: Embraer E175 (LR)

mtow: 38790
mlw: 34000
oew: 21890
mfc: 11625
vmo: 320
mmo: 0.82
ceiling: 12500

pax:
  max: 88
  low: 64
  high: 78

fuselage:
  length: 29.90
  height: 3.35
  width: 3.01

wing:
  area: 72.72
  span: 26.00
  mac: 3.19
  sweep: 23
  t/c: null

flaps:
  type: double-slotted
  area: null
  bf/b: null
  lambda_f: 0.900
  cf/c: 0.150
  Sf/S: 0.150

cruise:
  height: 11000
  mach: 0.75
  range: 3300

engine:
  type: turbofan
  mount: wing
  number: 2
  default: CF34-8E6
  options:
    - CF34-8E5
    - CF34-8E6

drag:
  cd0: 0.018
  k: 0.042
  e: 0.809
  gears: 0.017

fuel:
  engine: CF34-8E5
  fuel_coef: 1.54520615
".
(** openap/data/aircraft/glf6.yml:1-54 *)
Definition ac_glf6 : string := "aircraft: Gulfstream G650 / 650ER

mtow: 45200
mlw: 37900
oew: 24000
mfc: 21000
vmo: null
mmo: 0.925
ceiling: 16000
range: 13000

pax:
  max: 18
  low: 8
  high: 18

fuselage:
  length: 30.41
  height: 7.82
  width: 2.49

wing:
  area: 119.2
  span: 30.36
  mac: 4.76
  sweep: 36
  t/c: 0.1

flaps:
  type: single-slotted
  area: null
  bf/b: null
  lambda_f: 0.900
  cf/c: 0.150
  Sf/S: 0.150

cruise:
  height: 12000
  mach: 0.85
  range: 13000

engine:
  type: turbofan
  mount: rear
  number: 2
  default: BR700-725A1-12
  options:
    - BR700-725A1-12

drag:
  cd0: 0.012
  k: 0.047
  e: 0.881
  gears: 0.012
".
(** openap/data/aircraft/*.yml: name of the file and text *)
Definition ac_files : list (string * string) :=
  [("a19n", ac_a19n);
   ("a20n", ac_a20n);
   ("a21n", ac_a21n);
   ("a318", ac_a318);
   ("a319", ac_a319);
   ("a320", ac_a320);
   ("a321", ac_a321);
   ("a332", ac_a332);
   ("a333", ac_a333);
   ("a343", ac_a343);
   ("a359", ac_a359);
   ("a388", ac_a388);
   ("b37m", ac_b37m);
   ("b38m", ac_b38m);
   ("b39m", ac_b39m);
   ("b3xm", ac_b3xm);
   ("b734", ac_b734);
   ("b737", ac_b737);
   ("b738", ac_b738);
   ("b739", ac_b739);
   ("b744", ac_b744);
   ("b748", ac_b748);
   ("b752", ac_b752);
   ("b763", ac_b763);
   ("b772", ac_b772);
   ("b773", ac_b773);
   ("b77w", ac_b77w);
   ("b788", ac_b788);
   ("b789", ac_b789);
   ("c550", ac_c550);
   ("crj9", ac_crj9);
   ("e145", ac_e145);
   ("e170", ac_e170);
   ("e190", ac_e190);
   ("e195", ac_e195);
   ("e75l", ac_e75l);
   ("glf6", ac_glf6)].
(** openap/data/aircraft/_synonym.csv:1-23 *)
Definition ac_synonym : string := "orig,new
a124,b744
a306,a332
a310,a318
at72,e145
at75,e145
at76,e145
b733,b734
b735,b734
b762,b763
b77l,b77w
c25a,c550
c525,c550
c56x,c550
crj2,e145
crj9,e75l
e290,e190
glf5,glf6
gl5t,glf6
lj45,glf6
md11,b773
pc24,c550
su95,e170
".
