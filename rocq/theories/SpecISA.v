(** Independent specification: the published International Standard Atmosphere
    (ISO 2533) up to 20 km, in terms of its own constants. *)
From Coq Require Import Reals.
Open Scope R_scope.

Definition isa_lapse : R := 0.0065.          (* K/m, troposphere *)
Definition isa_T_sl : R := 288.15.           (* K *)
Definition isa_p_sl : R := 101325.           (* Pa *)
Definition isa_g : R := 9.80665.             (* m/s2 *)
Definition isa_R : R := 287.05287.           (* J/(kg K) *)
Definition isa_tropopause : R := 11000.      (* m *)

(** linear lapse up to the tropopause, constant above *)
Definition isa_T (h : R) : R :=
  if Rle_dec h isa_tropopause then isa_T_sl - isa_lapse * h
  else isa_T_sl - isa_lapse * isa_tropopause.

(** barometric formula: power law below, exponential law above *)
Definition isa_p_tropo (h : R) : R :=
  isa_p_sl * Rpower ((isa_T_sl - isa_lapse * h) / isa_T_sl) (isa_g / (isa_R * isa_lapse)).

Definition isa_p (h : R) : R :=
  if Rle_dec h isa_tropopause then isa_p_tropo h
  else isa_p_tropo isa_tropopause
       * exp (- isa_g * (h - isa_tropopause)
              / (isa_R * (isa_T_sl - isa_lapse * isa_tropopause))).

(** ideal gas *)
Definition isa_rho (h : R) : R := isa_p h / (isa_R * isa_T h).
