(** * Text of the drag polar and fuel model files (copied by a script; do not edit) *)
From Coq Require Import String List.
Import ListNotations.
Open Scope string_scope.

(** openap/data/dragpolar/a20n.yml:1-13 *)
Definition polar_a20n : string := "aircraft: Airbus A320neo

clean:
  cd0:         0.017
  k:           0.038
  e:           0.807

gears:         0.017

flaps:
  lambda_f:    0.900
  cf/c:        0.176
  Sf/S:        0.170
".
(** openap/data/dragpolar/a319.yml:1-13 *)
Definition polar_a319 : string := "aircraft: Airbus A319

clean:
  cd0:         0.020
  k:           0.039
  e:           0.783

gears:         0.017

flaps:
  lambda_f:    0.900
  cf/c:        0.176
  Sf/S:        0.170
".
(** openap/data/dragpolar/a320.yml:1-13 *)
Definition polar_a320 : string := "aircraft: Airbus A320

clean:
  cd0:         0.018
  k:           0.039
  e:           0.799

gears:         0.017

flaps:
  lambda_f:    0.900
  cf/c:        0.176
  Sf/S:        0.170
".
(** openap/data/dragpolar/a321.yml:1-13 *)
Definition polar_a321 : string := "aircraft: Airbus A321

clean:
  cd0:         0.020
  k:           0.041
  e:           0.785

gears:         0.019

flaps:
  lambda_f:    0.900
  cf/c:        0.176
  Sf/S:        0.165
".
(** openap/data/dragpolar/a332.yml:1-13 *)
Definition polar_a332 : string := "aircraft: Airbus A330-200

clean:
  cd0:         0.022
  k:           0.041
  e:           0.774

gears:         0.014

flaps:
  lambda_f:    0.900
  cf/c:        0.150
  Sf/S:        0.150
".
(** openap/data/dragpolar/a333.yml:1-13 *)
Definition polar_a333 : string := "aircraft: Airbus A330-300

clean:
  cd0:         0.022
  k:           0.041
  e:           0.773

gears:         0.014

flaps:
  lambda_f:    0.900
  cf/c:        0.150
  Sf/S:        0.150
".
(** openap/data/dragpolar/a343.yml:1-13 *)
Definition polar_a343 : string := "aircraft: Airbus A340-300

clean:
  cd0:         0.019
  k:           0.040
  e:           0.799

gears:         0.016

flaps:
  lambda_f:    0.900
  cf/c:        0.150
  Sf/S:        0.150
".
(** openap/data/dragpolar/a359.yml:1-13 *)
Definition polar_a359 : string := "aircraft: Airbus A350-900

clean:
  cd0:         0.022
  k:           0.043
  e:           0.783

gears:         0.013

flaps:
  lambda_f:    0.900
  cf/c:        0.150
  Sf/S:        0.150
".
(** openap/data/dragpolar/a388.yml:1-13 *)
Definition polar_a388 : string := "aircraft: Airbus A380-800

clean:
  cd0:         0.016
  k:           0.050
  e:           0.855

gears:         0.012

flaps:
  lambda_f:    0.900
  cf/c:        0.150
  Sf/S:        0.150
".
(** openap/data/dragpolar/b38m.yml:1-13 *)
Definition polar_b38m : string := "aircraft: Boeing 737 MAX 8

clean:
  cd0:         0.020
  k:           0.042
  e:           0.797

gears:         0.018

flaps:
  lambda_f:    0.900
  cf/c:        0.150
  Sf/S:        0.150
".
(** openap/data/dragpolar/b734.yml:1-13 *)
Definition polar_b734 : string := "aircraft: Boeing 737-400

clean:
  cd0:         0.020
  k:           0.044
  e:           0.793

gears:         0.021

flaps:
  lambda_f:    0.900
  cf/c:        0.150
  Sf/S:        0.150
".
(** openap/data/dragpolar/b737.yml:1-13 *)
Definition polar_b737 : string := "aircraft: Boeing 737-700

clean:
  cd0:         0.022
  k:           0.043
  e:           0.780

gears:         0.016

flaps:
  lambda_f:    0.900
  cf/c:        0.150
  Sf/S:        0.150
".
(** openap/data/dragpolar/b738.yml:1-13 *)
Definition polar_b738 : string := "aircraft: Boeing 737-800

clean:
  cd0:         0.019
  k:           0.042
  e:           0.799

gears:         0.017

flaps:
  lambda_f:    0.900
  cf/c:        0.150
  Sf/S:        0.150
".
(** openap/data/dragpolar/b739.yml:1-13 *)
Definition polar_b739 : string := "aircraft: Boeing 737-900

clean:
  cd0:         0.020
  k:           0.042
  e:           0.797

gears:         0.018

flaps:
  lambda_f:    0.900
  cf/c:        0.150
  Sf/S:        0.150
".
(** openap/data/dragpolar/b744.yml:1-13 *)
Definition polar_b744 : string := "aircraft: Boeing 747-400

clean:
  cd0:         0.021
  k:           0.049
  e:           0.816

gears:         0.015

flaps:
  lambda_f:    0.900
  cf/c:        0.198
  Sf/S:        0.150
".
(** openap/data/dragpolar/b748.yml:1-13 *)
Definition polar_b748 : string := "aircraft: Boeing 747-8

clean:
  cd0:         0.021
  k:           0.047
  e:           0.806

gears:         0.015

flaps:
  lambda_f:    0.900
  cf/c:        0.186
  Sf/S:        0.142
".
(** openap/data/dragpolar/b752.yml:1-13 *)
Definition polar_b752 : string := "aircraft: Boeing 757-200

clean:
  cd0:         0.021
  k:           0.049
  e:           0.813

gears:         0.016

flaps:
  lambda_f:    0.900
  cf/c:        0.187
  Sf/S:        0.167
".
(** openap/data/dragpolar/b772.yml:1-13 *)
Definition polar_b772 : string := "aircraft: Boeing 777-200/200ER

clean:
  cd0:         0.024
  k:           0.047
  e:           0.783

gears:         0.014

flaps:
  lambda_f:    0.900
  cf/c:        0.166
  Sf/S:        0.157
".
(** openap/data/dragpolar/b77w.yml:1-13 *)
Definition polar_b77w : string := "aircraft: Boeing 777-300ER

clean:
  cd0:         0.024
  k:           0.043
  e:           0.765

gears:         0.016

flaps:
  lambda_f:    0.900
  cf/c:        0.156
  Sf/S:        0.154
".
(** openap/data/dragpolar/b788.yml:1-13 *)
Definition polar_b788 : string := "aircraft: Boeing 787-8

clean:
  cd0:         0.017
  k:           0.041
  e:           0.819

gears:         0.013

flaps:
  lambda_f:    0.900
  cf/c:        0.150
  Sf/S:        0.150
".
(** openap/data/dragpolar/b789.yml:1-13 *)
Definition polar_b789 : string := "aircraft: Boeing 787-9

clean:
  cd0:         0.022
  k:           0.042
  e:           0.783

gears:         0.014

flaps:
  lambda_f:    0.900
  cf/c:        0.150
  Sf/S:        0.150
".
(** openap/data/dragpolar/c550.yml:1-13 *)
Definition polar_c550 : string := "aircraft: Cessna Citation II

clean:
  cd0:         0.028
  k:           0.049
  e:           0.818

gears:         0.020

flaps:
  lambda_f:    1.700
  cf/c:        0.150
  Sf/S:        0.150
".
(** openap/data/dragpolar/e190.yml:1-13 *)
Definition polar_e190 : string := "aircraft: Embraer E190 (LR)

clean:
  cd0:         0.018
  k:           0.044
  e:           0.817

gears:         0.016

flaps:
  lambda_f:    0.900
  cf/c:        0.150
  Sf/S:        0.150
".
(** openap/data/dragpolar/e195.yml:1-13 *)
Definition polar_e195 : string := "aircraft: Embraer E195 (LR)

clean:
  cd0:         0.021
  k:           0.045
  e:           0.795

gears:         0.017

flaps:
  lambda_f:    0.900
  cf/c:        0.150
  Sf/S:        0.150
".
(** openap/data/dragpolar/e75l.yml:1-13 *)
Definition polar_e75l : string := "aircraft: Embraer E175 (LR)

clean:
  cd0:         0.018
  k:           0.042
  e:           0.809

gears:         0.017

flaps:
  lambda_f:    0.900
  cf/c:        0.150
  Sf/S:        0.150
".
(** openap/data/dragpolar/glf6.yml:1-13 *)
Definition polar_glf6 : string := "aircraft: Gulfstream G650 / 650ER

clean:
  cd0:         0.012
  k:           0.047
  e:           0.881

gears:         0.012

flaps:
  lambda_f:    0.900
  cf/c:        0.150
  Sf/S:        0.150
".
(** openap/data/dragpolar/*.yml: name of the file and text *)
Definition polar_files : list (string * string) :=
  [("a20n", polar_a20n);
   ("a319", polar_a319);
   ("a320", polar_a320);
   ("a321", polar_a321);
   ("a332", polar_a332);
   ("a333", polar_a333);
   ("a343", polar_a343);
   ("a359", polar_a359);
   ("a388", polar_a388);
   ("b38m", polar_b38m);
   ("b734", polar_b734);
   ("b737", polar_b737);
   ("b738", polar_b738);
   ("b739", polar_b739);
   ("b744", polar_b744);
   ("b748", polar_b748);
   ("b752", polar_b752);
   ("b772", polar_b772);
   ("b77w", polar_b77w);
   ("b788", polar_b788);
   ("b789", polar_b789);
   ("c550", polar_c550);
   ("e190", polar_e190);
   ("e195", polar_e195);
   ("e75l", polar_e75l);
   ("glf6", polar_glf6)].
(** openap/data/dragpolar/_synonym.csv:1-33 *)
Definition polar_synonym : string := "orig,new
a124,b744
a19n,a20n
a21n,a20n
a306,a332
a310,a319
a318,a319
at72,e75l
at75,e75l
at76,e75l
b37m,b38m
b39m,b38m
b3xm,b38m
b733,b734
b735,b734
b762,b752
b763,b752
b773,b77w
b77l,b77w
c25a,c550
c525,c550
c56x,c550
crj2,e75l
crj9,e75l
e145,e75l
e170,e75l
e290,e190
glf5,glf6
gl5t,glf6
lj45,glf6
md11,b77w
pc24,glf6
su95,e75l".
(** openap/data/fuel/fuel_models.csv:1-16 *)
Definition fuel_models : string := "typecode,engine_type,c1,c2,c3
A318,CFM56-5B9/3,0.7769784596099123,1.765377288174942,2.5349134936316693
A319,V2524-A5,0.8694169413032631,1.9542690629047836,2.5028187026860103
A320,CFM56-5B4/P,1.0453208160586924,2.3633720747416573,1.2378127479131922
A321,V2533-A5,1.3979999999999444,2.054028451829268,1.0008941993511127
A332,Trent 772,2.886430057340283,1.0960397632560752,2.3772585567580293
A333,Trent 772,3.1199999999999997,1.0365152289922772,1.950599421257047
B737,CFM56-7B26,1.0237419750954273,1.4670109921175798,3.2566140275646456
B738,CFM56-7B26E,1.075484518912494,1.8777303165419037,1.8895522140156369
B739,CFM56-7B27E,1.3079999999999998,1.5986016771932572,1.2789091908108752
CRJ9,CF34-8C5,0.6437136288905128,1.9690234662778772,1.4375859706162741
E170,CF34-8E5,0.6341784688704629,2.778729428440142,1.0149695061665696
E190,CF34-10E5,0.8339999999998783,2.3343013671118475,0.4847704716061958
E195,CF34-10E5A1,0.911999999999993,1.929664699695295,0.8452746256489131
E75L,CF34-8E5,0.6340709359225759,2.614653287356019,0.8714282723568036
default,default,0.937564901246902,1.9767611682280135,1.3954794843472482
".
