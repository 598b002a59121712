(** * The numbers that the constructed objects hand to the numeric methods *)
From Coq Require Import String List Bool QArith Qreals Reals.
From Verif Require Import Num Aero Py Str PropPy Build Thrust Drag Fuel Emission Mass Gen Kinematic.
Import ListNotations.
Open Scope string_scope.

(** openap/thrust.py:65-75; [None] when the engine row has no by-pass ratio or thrust (NaN in the code) *)
Definition thrust_par_of (a : acrec) (e : engrec) : option thrust_par :=
  match en_bpr e, en_max_thrust e with
  | Some bpr, Some mt =>
      Some (thrust_init (Q2R (ac_height a)) (Q2R (ac_mach a)) (Q2R (ac_number a)) (Q2R bpr) (Q2R mt)
              (option_map Q2R (en_cr_mach e)) (option_map Q2R (en_cr_thrust e)))
  | _, _ => None
  end.

(** the parameters used by the drag functions, openap/drag.py:103-260 *)
Definition drag_par_of (o : drag_obj) : drag_par :=
  let a := do_ac o in let p := do_polar o in
  mkDrag (Q2R (ac_area a)) (Q2R (ac_span a)) (Q2R (ac_sweep a)) (option_map Q2R (ac_tc a)) (Q2R (ac_mtow a)) (ac_rear a)
         (Q2R (po_cd0 p)) (Q2R (po_k p)) (Q2R (po_lambda p)) (Q2R (po_cfc p)) (Q2R (po_sfs p)).

(** openap/kinematic.py:82-209: the accessors read by the generator *)
Definition wrap_of (r : wrrec) : py wrapdata :=
  do v1 <- access r K_takeoff_speed;
  do v2 <- access r K_takeoff_acceleration;
  do v3 <- access r K_initclimb_vs;
  do v4 <- access r K_climb_const_vcas;
  do v5 <- access r K_climb_const_mach;
  do v6 <- access r K_climb_cross_alt_concas;
  do v7 <- access r K_climb_vs_pre_concas;
  do v8 <- access r K_climb_vs_concas;
  do v9 <- access r K_climb_vs_conmach;
  do v10 <- access r K_cruise_range;
  do v11 <- access r K_cruise_alt;
  do v12 <- access r K_cruise_mach;
  do v13 <- access r K_descent_const_mach;
  do v14 <- access r K_descent_const_vcas;
  do v15 <- access r K_descent_cross_alt_concas;
  do v16 <- access r K_descent_vs_conmach;
  do v17 <- access r K_descent_vs_concas;
  do v18 <- access r K_descent_vs_post_concas;
  do v19 <- access r K_finalapp_vcas;
  do v20 <- access r K_finalapp_vs;
  do v21 <- access r K_landing_acceleration;
  inr (mkWrap v1 v2 v3 v4 v5 v6 v7 v8 v9 v10 v11 v12 v13 v14 v15 v16 v17 v18 v19 v20 v21).

(** the parameters used by the fuel functions; [None] when the engine has no thrust entry *)
(** openap/fuel.py:82-95, 110-111 *)
Definition fuel_par_of (o : fuel_obj) : option fuel_par :=
  let '(m, scale) := fo_model o in
  match en_max_thrust (er_row (fo_eng o)) with
  | Some mt => Some (mkFuel (Q2R (fm_c1 m)) (Q2R (fm_c2 m)) (Q2R (fm_c3 m)) (Q2R scale) (Q2R mt) (Q2R (ac_number (fo_ac o))))
  | None => None
  end.

(** openap/emission.py:140-153, 191-204, 239-252: the interpolation table for one species *)
Definition ei_of (e : engrec) (species : Q * Q * Q * Q) : ei_table :=
  let '(f1, f2, f3, f4) := en_ff e in let '(s1, s2, s3, s4) := species in
  mkEI (Q2R f4) (Q2R f3) (Q2R f2) (Q2R f1) (Q2R s4) (Q2R s3) (Q2R s2) (Q2R s1).

(** openap/mass.py:29-36: the aircraft entries used by [from_range] *)
Definition mass_par_of (a : acrec) : mass_par :=
  mkMass (Q2R (ac_mtow a)) (Q2R (ac_oew a)) (Q2R (ac_mfc a)) (option_map Q2R (ac_range a)).

