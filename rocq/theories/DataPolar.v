(** * Drag polars, fuel models (generated from openap/data/dragpolar and openap/data/fuel by a script; do not edit) *)
From Coq Require Import String List QArith.
From Verif Require Import PropPy.
Import ListNotations.
Open Scope string_scope.
Open Scope Q_scope.

(** openap/data/dragpolar/*.yml *)
Definition shipped_polar : list porec := [
  mkPo "a20n" 0.017 0.038 0.9 0.176 0.17;
  mkPo "a319" 0.02 0.039 0.9 0.176 0.17;
  mkPo "a320" 0.018 0.039 0.9 0.176 0.17;
  mkPo "a321" 0.02 0.041 0.9 0.176 0.165;
  mkPo "a332" 0.022 0.041 0.9 0.15 0.15;
  mkPo "a333" 0.022 0.041 0.9 0.15 0.15;
  mkPo "a343" 0.019 0.04 0.9 0.15 0.15;
  mkPo "a359" 0.022 0.043 0.9 0.15 0.15;
  mkPo "a388" 0.016 0.05 0.9 0.15 0.15;
  mkPo "b38m" 0.02 0.042 0.9 0.15 0.15;
  mkPo "b734" 0.02 0.044 0.9 0.15 0.15;
  mkPo "b737" 0.022 0.043 0.9 0.15 0.15;
  mkPo "b738" 0.019 0.042 0.9 0.15 0.15;
  mkPo "b739" 0.02 0.042 0.9 0.15 0.15;
  mkPo "b744" 0.021 0.049 0.9 0.198 0.15;
  mkPo "b748" 0.021 0.047 0.9 0.186 0.142;
  mkPo "b752" 0.021 0.049 0.9 0.187 0.167;
  mkPo "b772" 0.024 0.047 0.9 0.166 0.157;
  mkPo "b77w" 0.024 0.043 0.9 0.156 0.154;
  mkPo "b788" 0.017 0.041 0.9 0.15 0.15;
  mkPo "b789" 0.022 0.042 0.9 0.15 0.15;
  mkPo "c550" 0.028 0.049 1.7 0.15 0.15;
  mkPo "e190" 0.018 0.044 0.9 0.15 0.15;
  mkPo "e195" 0.021 0.045 0.9 0.15 0.15;
  mkPo "e75l" 0.018 0.042 0.9 0.15 0.15;
  mkPo "glf6" 0.012 0.047 0.9 0.15 0.15].

(** openap/data/dragpolar/_synonym.csv *)
Definition shipped_polsyn : list (string * string) := [
  ("a124", "b744");
  ("a19n", "a20n");
  ("a21n", "a20n");
  ("a306", "a332");
  ("a310", "a319");
  ("a318", "a319");
  ("at72", "e75l");
  ("at75", "e75l");
  ("at76", "e75l");
  ("b37m", "b38m");
  ("b39m", "b38m");
  ("b3xm", "b38m");
  ("b733", "b734");
  ("b735", "b734");
  ("b762", "b752");
  ("b763", "b752");
  ("b773", "b77w");
  ("b77l", "b77w");
  ("c25a", "c550");
  ("c525", "c550");
  ("c56x", "c550");
  ("crj2", "e75l");
  ("crj9", "e75l");
  ("e145", "e75l");
  ("e170", "e75l");
  ("e290", "e190");
  ("glf5", "glf6");
  ("gl5t", "glf6");
  ("lj45", "glf6");
  ("md11", "b77w");
  ("pc24", "glf6");
  ("su95", "e75l")].

(** openap/data/fuel/fuel_models.csv *)
Definition shipped_fuel : list fmrec := [
  mkFm "A318" "CFM56-5B9/3" 0.7769784596099123 1.765377288174942 2.5349134936316693;
  mkFm "A319" "V2524-A5" 0.8694169413032631 1.9542690629047836 2.5028187026860103;
  mkFm "A320" "CFM56-5B4/P" 1.0453208160586924 2.3633720747416573 1.2378127479131922;
  mkFm "A321" "V2533-A5" 1.3979999999999444 2.054028451829268 1.0008941993511127;
  mkFm "A332" "Trent 772" 2.886430057340283 1.0960397632560752 2.3772585567580293;
  mkFm "A333" "Trent 772" 3.1199999999999997 1.0365152289922772 1.950599421257047;
  mkFm "B737" "CFM56-7B26" 1.0237419750954273 1.4670109921175798 3.2566140275646456;
  mkFm "B738" "CFM56-7B26E" 1.075484518912494 1.8777303165419037 1.8895522140156369;
  mkFm "B739" "CFM56-7B27E" 1.3079999999999998 1.5986016771932572 1.2789091908108752;
  mkFm "CRJ9" "CF34-8C5" 0.6437136288905128 1.9690234662778772 1.4375859706162741;
  mkFm "E170" "CF34-8E5" 0.6341784688704629 2.778729428440142 1.0149695061665696;
  mkFm "E190" "CF34-10E5" 0.8339999999998783 2.3343013671118475 0.4847704716061958;
  mkFm "E195" "CF34-10E5A1" 0.911999999999993 1.929664699695295 0.8452746256489131;
  mkFm "E75L" "CF34-8E5" 0.6340709359225759 2.614653287356019 0.8714282723568036;
  mkFm "default" "default" 0.937564901246902 1.9767611682280135 1.3954794843472482].
