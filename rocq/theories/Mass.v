(** * Model of openap/mass.py *)
From Coq Require Import Reals.
From Verif Require Import Num Fuel.
Open Scope R_scope.

(** Aircraft entries read by [from_range] (openap/mass.py:31-42); [m_range] is absent
    ([None]) in some files (openap/data/aircraft/crj9.yml). *)
Record mass_par : Type := mkMass {
  m_mtow : R; m_oew : R; m_mfc : R; m_range : option R
}.

Section Mass.
Context (b : backend).
Local Notation "# r" := (cst b r) (at level 1, r at level 0, format "# r").
Local Notation "x +: y" := (add b x y) (at level 50, left associativity).
Local Notation "x -: y" := (sub b x y) (at level 50, left associativity).
Local Notation "x *: y" := (mul b x y) (at level 40, left associativity).
Local Notation "x /: y" := (div b x y) (at level 40, left associativity).

(** openap/mass.py:7-44 [from_range], after the aircraft lookup *)
Definition from_range (ac : mass_par) (distance load_factor : T b) (fraction : bool) : py (T b) :=
  match m_range ac with
  | None => inl KeyError
  | Some rng =>
      let range_fraction := distance /: #rng in
      let range_fraction := clip b range_fraction #0.2 #1 in
      let max_fuel_weight := #(m_mfc ac) *: #0.8025 in
      let fuel_weight := range_fraction *: max_fuel_weight in
      let payload_weight := (#(m_mtow ac) -: max_fuel_weight -: #(m_oew ac)) *: load_factor in
      let mass := #(m_oew ac) +: fuel_weight +: payload_weight in
      inr (if fraction then mass /: #(m_mtow ac) else mass)
  end.
End Mass.
