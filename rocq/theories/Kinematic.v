(** * Model of openap/kinematic.py: the accessors of the WRAP kinematic model *)
From Coq Require Import String List Bool QArith Qreals Reals.
From Verif Require Import Num Py Str PropPy Gen.
Import ListNotations.
Open Scope string_scope.

(** openap/kinematic.py:65-80 [_get_var]: first row with the given variable name.  The statistical model
    and its parameters are in [FileLoad.get_var_text]. *)
Definition get_var (r : wrrec) (var : string) : py wvar :=
  match find (fun p => String.eqb (fst p) var) (wr_vars r) with
  | Some (_, (o, lo, hi)) => inr (mkVar (Q2R o) (Q2R lo) (Q2R hi))
  | None => inl ValueError
  end.

(** openap/kinematic.py:82-209: the accessor methods, [K_x] for method [x] *)
Inductive accessor : Type :=
  | K_takeoff_speed
  | K_takeoff_distance
  | K_takeoff_acceleration
  | K_initclimb_vcas
  | K_initclimb_vs
  | K_climb_range
  | K_climb_const_vcas
  | K_climb_const_mach
  | K_climb_cross_alt_concas
  | K_climb_cross_alt_conmach
  | K_climb_vs_pre_concas
  | K_climb_vs_concas
  | K_climb_vs_conmach
  | K_cruise_range
  | K_cruise_alt
  | K_cruise_init_alt
  | K_cruise_max_alt
  | K_cruise_mach
  | K_cruise_max_mach
  | K_cruise_mean_vcas
  | K_descent_range
  | K_descent_const_mach
  | K_descent_const_vcas
  | K_descent_cross_alt_conmach
  | K_descent_cross_alt_concas
  | K_descent_vs_conmach
  | K_descent_vs_concas
  | K_descent_vs_post_concas
  | K_finalapp_vcas
  | K_finalapp_vs
  | K_landing_speed
  | K_landing_distance
  | K_landing_acceleration.

(** openap/kinematic.py:82-209: the variable read by each accessor *)
Definition accessor_var (a : accessor) : string :=
  match a with
  | K_takeoff_speed => "to_v_lof" (* 82-84 *)
  | K_takeoff_distance => "to_d_tof" (* 86-88 *)
  | K_takeoff_acceleration => "to_acc_tof" (* 90-92 *)
  | K_initclimb_vcas => "ic_va_avg" (* 94-96 *)
  | K_initclimb_vs => "ic_vs_avg" (* 98-100 *)
  | K_climb_range => "cl_d_range" (* 102-104 *)
  | K_climb_const_vcas => "cl_v_cas_const" (* 106-108 *)
  | K_climb_const_mach => "cl_v_mach_const" (* 110-112 *)
  | K_climb_cross_alt_concas => "cl_h_cas_const" (* 114-116 *)
  | K_climb_cross_alt_conmach => "cl_h_mach_const" (* 118-120 *)
  | K_climb_vs_pre_concas => "cl_vs_avg_pre_cas" (* 122-124 *)
  | K_climb_vs_concas => "cl_vs_avg_cas_const" (* 126-128 *)
  | K_climb_vs_conmach => "cl_vs_avg_mach_const" (* 130-132 *)
  | K_cruise_range => "cr_d_range" (* 134-136 *)
  | K_cruise_alt => "cr_h_mean" (* 138-140 *)
  | K_cruise_init_alt => "cr_h_init" (* 142-144 *)
  | K_cruise_max_alt => "cr_h_max" (* 146-147 *)
  | K_cruise_mach => "cr_v_mach_mean" (* 149-151 *)
  | K_cruise_max_mach => "cr_v_mach_max" (* 153-154 *)
  | K_cruise_mean_vcas => "cr_v_cas_mean" (* 156-157 *)
  | K_descent_range => "de_d_range" (* 159-161 *)
  | K_descent_const_mach => "de_v_mach_const" (* 163-165 *)
  | K_descent_const_vcas => "de_v_cas_const" (* 167-169 *)
  | K_descent_cross_alt_conmach => "de_h_mach_const" (* 171-173 *)
  | K_descent_cross_alt_concas => "de_h_cas_const" (* 175-177 *)
  | K_descent_vs_conmach => "de_vs_avg_mach_const" (* 179-181 *)
  | K_descent_vs_concas => "de_vs_avg_cas_const" (* 183-185 *)
  | K_descent_vs_post_concas => "de_vs_avg_after_cas" (* 187-189 *)
  | K_finalapp_vcas => "fa_va_avg" (* 191-193 *)
  | K_finalapp_vs => "fa_vs_avg" (* 195-197 *)
  | K_landing_speed => "ld_v_app" (* 199-201 *)
  | K_landing_distance => "ld_d_brk" (* 203-205 *)
  | K_landing_acceleration => "ld_acc_brk" (* 207-209 *)
  end.

(** openap/kinematic.py:82-209: calling an accessor *)
Definition access (r : wrrec) (a : accessor) : py wvar := get_var r (accessor_var a).

(** openap/data/wrap/*.txt: the columns variable, flight phase and name, the same in all files *)
Definition wrap_catalogue : list (string * string * string) := [
  ("to_v_lof", "takeoff", "Liftoff speed");
  ("to_d_tof", "takeoff", "Takeoff distance");
  ("to_acc_tof", "takeoff", "Mean takeoff accelaration");
  ("ic_va_avg", "initial_climb", "Mean airspeed");
  ("ic_vs_avg", "initial_climb", "Mean vertical rate");
  ("cl_d_range", "climb", "Climb range");
  ("cl_v_cas_const", "climb", "Constant CAS");
  ("cl_v_mach_const", "climb", "Constant Mach");
  ("cl_h_cas_const", "climb", "Constant CAS crossover altitude");
  ("cl_h_mach_const", "climb", "Constant Mach crossover altitude");
  ("cl_vs_avg_pre_cas", "climb", "Mean climb rate, pre-constant-CAS");
  ("cl_vs_avg_cas_const", "climb", "Mean climb rate, constant-CAS");
  ("cl_vs_avg_mach_const", "climb", "Mean climb rate, constant-Mach");
  ("cr_d_range", "cruise", "Cruise range");
  ("cr_v_cas_mean", "cruise", "Mean cruise CAS");
  ("cr_v_cas_max", "cruise", "Maximum cruise CAS");
  ("cr_v_mach_mean", "cruise", "Mean cruise Mach");
  ("cr_v_mach_max", "cruise", "Maximum cruise Mach");
  ("cr_h_init", "cruise", "Initial cruise altitude");
  ("cr_h_mean", "cruise", "Mean cruise altitude");
  ("cr_h_max", "cruise", "Maximum cruise altitude");
  ("de_d_range", "descent", "Descent range");
  ("de_v_mach_const", "descent", "Constant Mach");
  ("de_v_cas_const", "descent", "Constant CAS");
  ("de_h_mach_const", "descent", "Constant Mach crossover altitude");
  ("de_h_cas_const", "descent", "Constant CAS crossover altitude");
  ("de_vs_avg_mach_const", "descent", "Mean descent rate, constant-Mach");
  ("de_vs_avg_cas_const", "descent", "Mean descent rate, constant-CAS");
  ("de_vs_avg_after_cas", "descent", "Mean descent rate, after-constant-CAS");
  ("fa_va_avg", "final_approach", "Mean airspeed");
  ("fa_vs_avg", "final_approach", "Mean vertical rate");
  ("fa_agl", "final_approach", "Approach angle");
  ("ld_v_app", "landing", "Touchdown speed");
  ("ld_d_brk", "landing", "Braking distance");
  ("ld_acc_brk", "landing", "Mean braking acceleration")].
