(** * Model of openap/drag.py (class Drag) *)
From Coq Require Import Reals.
From Verif Require Import Num Aero.
Open Scope R_scope.

(** The entries of the aircraft and drag-polar dictionaries used by the methods
    (openap/drag.py:119,181-182,188-189,243-249,261-265,273,280). *)
Record drag_par : Type := mkDrag {
  wing_area : R;            (* aircraft["wing"]["area"], m2 *)
  wing_span : R;            (* aircraft["wing"]["span"], m *)
  wing_sweep : R;           (* aircraft["wing"]["sweep"], degrees *)
  wing_tc : option R;       (* aircraft["wing"]["t/c"], may be null *)
  mtow : R;                 (* aircraft["limits"]["MTOW"], kg *)
  rear_mounted : bool;      (* aircraft["engine"]["mount"] == "rear" *)
  cd0_clean : R;            (* polar["clean"]["cd0"] *)
  k_clean : R;              (* polar["clean"]["k"] *)
  lambda_f : R;             (* polar["flaps"]["lambda_f"] *)
  cf_c : R;                 (* polar["flaps"]["cf/c"] *)
  Sf_S : R                  (* polar["flaps"]["Sf/S"] *)
}.

Section Drag.
Context (b : backend).
Context (a : drag_par).
Local Notation "# r" := (cst b r) (at level 1, r at level 0, format "# r").
Local Notation "x +: y" := (add b x y) (at level 50, left associativity).
Local Notation "x -: y" := (sub b x y) (at level 50, left associativity).
Local Notation "x *: y" := (mul b x y) (at level 40, left associativity).
Local Notation "x /: y" := (div b x y) (at level 40, left associativity).

(** openap/drag.py:93-126 [_cl]: mass kg, tas kt, alt ft, vs ft/min; returns (cl, qS) *)
Definition cl_qS (mass tas alt vs dT : T b) : T b * T b :=
  let v := tas *: #kts in
  let h := alt *: #ft in
  let vs := vs *: #fpm in
  let gamma := barctan2 b vs v in
  let S := #(wing_area a) in
  let rho := density b h dT in
  let qS := #0.5 *: rho *: powi b v 2 *: S in
  let L := mass *: #g0 *: bcos b gamma in
  let qS := maximum b qS #1e-3 in
  let cl := L /: qS in
  (cl, qS).

(** openap/drag.py:129-156 [_calc_drag] *)
Definition calc_drag (mass tas alt cd0 k vs dT : T b) : T b :=
  let '(cl, qS) := cl_qS mass tas alt vs dT in
  let cd := cd0 +: k *: powi b cl 2 in
  cd *: qS.

(** openap/drag.py:184-206: the wave-drag increment computed by [clean] *)
Definition mach_crit (mass tas alt dT : T b) : T b :=
  let '(cl, _) := cl_qS mass tas alt #0 dT in
  let sweep := #(wing_sweep a) *: bpi b /: #180 in
  let tc := #(match wing_tc a with Some t => t | None => 0.12 end) in
  let cos_sweep := bcos b sweep in
  let kappa := #0.95 in
  kappa /: cos_sweep -: tc /: powi b cos_sweep 2 -: #0.1 *: cl /: powi b cos_sweep 3 -: #0.108.

(** openap/drag.py:184-206 *)
Definition wave_cd (mass tas alt dT : T b) : T b :=
  let mach := tas2mach b (tas *: #kts) (alt *: #ft) dT in
  let dmach := maximum b (mach -: mach_crit mass tas alt dT) #0.0 in
  #20 *: powi b dmach 4.

(** openap/drag.py:159-214 [clean] *)
Definition clean (wave_drag : bool) (mass tas alt vs dT : T b) : T b :=
  let cd0 := #(cd0_clean a) in
  let k := #(k_clean a) in
  let dCdw := if wave_drag then wave_cd mass tas alt dT else #0 in
  let cd0 := cd0 +: dCdw in
  calc_drag mass tas alt cd0 k vs dT.

(** openap/drag.py:217-284 [nonclean] *)
Definition nonclean (mass tas alt flap_angle vs dT : T b) (landing_gear : bool) : T b :=
  let cd0 := #(cd0_clean a) in
  let k := #(k_clean a) in
  let delta_cd_flap :=
    #(lambda_f a) *: power b #(cf_c a) #1.38 *: #(Sf_S a)
      *: powi b (bsin b (flap_angle *: bpi b /: #180)) 2 in
  let delta_cd_gear :=
    if landing_gear then
      #(mtow a) *: #g0 /: #(wing_area a) *: #3.16e-5 *: power b #(mtow a) #(-0.215)
    else #0 in
  let cd0_total := cd0 +: delta_cd_flap +: delta_cd_gear in
  let delta_e_flap :=
    (if rear_mounted a then #0.0046 else #0.0026) *: flap_angle in
  let ar := powi b #(wing_span a) 2 /: #(wing_area a) in
  let k_total := #1 /: (#1 /: k +: bpi b *: ar *: delta_e_flap) in
  calc_drag mass tas alt cd0_total k_total vs dT.
End Drag.
