(** * Model of openap/thrust.py (class Thrust) *)
From Coq Require Import Reals.
From Verif Require Import Num Aero.
Open Scope R_scope.

(** Attributes set by [Thrust.__init__], openap/thrust.py:65-75. *)
Record thrust_par : Type := mkThrust {
  cruise_alt : R;          (* ft *)
  eng_bpr : R;
  eng_max_thrust : R;      (* N *)
  eng_number : R;
  cruise_mach : R;
  eng_cruise_thrust : R    (* N *)
}.

(** openap/thrust.py:65-75: the numeric part of [Thrust.__init__].  The first group comes from the
    aircraft file (cruise height in m, cruise Mach number, number of engines), the second
    from the engine row; [None] stands for a missing (NaN) cell, for which
    [engine["cruise_mach"] > 0] is false. *)
Definition thrust_init (ac_height ac_mach number : R)
    (bpr max_thrust : R) (e_cruise_mach e_cruise_thrust : option R) : thrust_par :=
  let from_aircraft :=
    mkThrust (ac_height / ft) bpr max_thrust number ac_mach (0.2 * max_thrust + 890) in
  match e_cruise_mach, e_cruise_thrust with
  | Some m, Some f =>
      if Rltb 0 m then mkThrust (ac_height / ft) bpr max_thrust number m f
      else from_aircraft
  | _, _ => from_aircraft
  end.

Section Thrust.
Context (b : backend).
Context (e : thrust_par).
Local Notation "# r" := (cst b r) (at level 1, r at level 0, format "# r").
Local Notation "x +: y" := (add b x y) (at level 50, left associativity).
Local Notation "x -: y" := (sub b x y) (at level 50, left associativity).
Local Notation "x *: y" := (mul b x y) (at level 40, left associativity).
Local Notation "x /: y" := (div b x y) (at level 40, left associativity).

(** openap/thrust.py:77-89 [_dfunc] *)
Definition dfunc (mratio : T b) : T b := #(-0.4204) *: mratio +: #1.0824.

(** openap/thrust.py:91-107 [_nfunc] *)
Definition nfunc (roc : T b) : T b := #2.667e-05 *: roc +: #0.8633.

(** openap/thrust.py:108-120 [_mfunc] *)
Definition mfunc (vratio roc : T b) : T b :=
  #(-1.2043e-1) *: vratio -: #8.8889e-9 *: powi b roc 2 +: #2.4444e-5 *: roc +: #4.7379e-1.

(** openap/thrust.py:122-163 [takeoff]: tas in kt, alt in ft *)
Definition takeoff_thrust (tas alt dT : T b) : T b :=
  let mach := tas2mach b (tas *: #kts) #0 dT in
  let G0 := #0.0606 *: #(eng_bpr e) +: #0.6337 in
  let P := pressure b (alt *: #ft) dT in
  let dP := P /: #p0 in
  let A := #(-0.4327) *: powi b dP 2 +: #1.3855 *: dP +: #0.0472 in
  let Z := #0.9106 *: powi b dP 3 -: #1.7736 *: powi b dP 2 +: #1.8697 *: dP in
  let X := #0.1377 *: powi b dP 3 -: #0.4374 *: powi b dP 2 +: #1.3003 *: dP in
  let ratio :=
    A -: #0.377 *: (#1 +: #(eng_bpr e)) /: bsqrt b ((#1 +: #0.82 *: #(eng_bpr e)) *: G0) *: Z *: mach
      +: (#0.23 +: #0.19 *: bsqrt b #(eng_bpr e)) *: X *: powi b mach 2 in
  ratio *: #(eng_max_thrust e) *: #(eng_number e).

(** openap/thrust.py:180-245 [climb]: tas in kt, alt in ft, roc in ft/min *)
Definition climb_thrust (tas alt roc dT : T b) : T b :=
  let roc := babs b roc in
  let h := alt *: #ft in
  let tas := maximum b #10 tas in
  let mach := tas2mach b (tas *: #kts) h dT in
  let vcas := tas2cas b (tas *: #kts) h dT in
  let P := pressure b h dT in
  let P10 := pressure b (#10000 *: #ft) dT in
  let Pcr := pressure b (#(cruise_alt e) *: #ft) dT in
  let Fcr := #(eng_cruise_thrust e) *: #(eng_number e) in
  let vcas_ref := mach2cas b #(cruise_mach e) (#(cruise_alt e) *: #ft) dT in
  let d := dfunc (mach /: #(cruise_mach e)) in
  let bcoef := power b (mach /: #(cruise_mach e)) #(-0.11) in
  let ratio_seg3 := d *: blog b (P /: Pcr) +: bcoef in
  let a := power b (vcas /: vcas_ref) #(-0.1) in
  let n := nfunc roc in
  let ratio_seg2 := a *: power b (P /: Pcr) (#(-0.355) *: (vcas /: vcas_ref) +: n) in
  let F10 := Fcr *: a *: power b (P10 /: Pcr) (#(-0.355) *: (vcas /: vcas_ref) +: n) in
  let m := mfunc (vcas /: vcas_ref) roc in
  let ratio_seg1 := m *: (P /: Pcr) +: (F10 /: Fcr -: m *: (P10 /: Pcr)) in
  let ratio := where_ b (gt b alt #30000) ratio_seg3
                 (where_ b (gt b alt #10000) ratio_seg2 ratio_seg1) in
  ratio *: Fcr.

(** openap/thrust.py:166-177 [cruise] *)
Definition cruise_thrust (tas alt dT : T b) : T b := climb_thrust tas alt #0 dT.

(** openap/thrust.py:247-262 [descent_idle] *)
Definition descent_idle (tas alt dT : T b) : T b := #0.07 *: takeoff_thrust tas alt dT.
End Thrust.
