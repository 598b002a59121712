(** * Model of openap/aero.py (class Aero)

    Lengths in metres, speeds in m/s.  Each definition mirrors the Python method
    cited above it, over an arbitrary backend. *)
From Coq Require Import Reals.
From Verif Require Import Num.
Open Scope R_scope.

(** openap/aero.py:29 [kts] *)
Definition kts : R := 0.514444.
(** openap/aero.py:30 [ft] *)
Definition ft : R := 0.3048.
(** openap/aero.py:31 [fpm] *)
Definition fpm : R := 0.00508.
(** openap/aero.py:36 [g0] *)
Definition g0 : R := 9.80665.
(** openap/aero.py:37 [R], the gas constant *)
Definition Rgas : R := 287.05287.
(** openap/aero.py:38 [p0] *)
Definition p0 : R := 101325.
(** openap/aero.py:39 [rho0] *)
Definition rho0 : R := 1.225.
(** openap/aero.py:40 [T0] *)
Definition T0 : R := 288.15.
(** openap/aero.py:41 [gamma] *)
Definition gamma : R := 1.40.
(** openap/aero.py:44 [beta] *)
Definition beta : R := -0.0065.
(** openap/aero.py:45 [r_earth] *)
Definition r_earth : R := 6371000.
(** openap/aero.py:46 [a0] *)
Definition a0 : R := 340.293988.

Section Aero.
Context (b : backend).
Local Notation "# r" := (cst b r) (at level 1, r at level 0, format "# r").
Local Notation "x +: y" := (add b x y) (at level 50, left associativity).
Local Notation "x -: y" := (sub b x y) (at level 50, left associativity).
Local Notation "x *: y" := (mul b x y) (at level 40, left associativity).
Local Notation "x /: y" := (div b x y) (at level 40, left associativity).

(** openap/aero.py:92-111 [atmos] *)
Definition atmos (h dT : T b) : T b * T b * T b :=
  let dT := clip b dT #(-25) #15 in
  let T0_shift := #T0 +: dT in
  let T := maximum b (T0_shift +: #beta *: h) (#216.65 +: dT) in
  let rhotrop := #rho0 *: power b (T /: T0_shift) #4.256848030018761 in
  let dhstrat := maximum b #0.0 (h -: #11000.0) in
  let rho := rhotrop *: bexp b (neg b dhstrat /: #6341.552161) in
  let p := rho *: #Rgas *: T in
  (p, rho, T).

(** openap/aero.py:113-124 [temperature] *)
Definition temperature (h dT : T b) : T b := snd (atmos h dT).

(** openap/aero.py:126-137 [pressure] *)
Definition pressure (h dT : T b) : T b := fst (fst (atmos h dT)).

(** openap/aero.py:139-150 [density] *)
Definition density (h dT : T b) : T b := snd (fst (atmos h dT)).

(** openap/aero.py:152-163 [vsound] *)
Definition vsound (h dT : T b) : T b :=
  let T := temperature h dT in
  bsqrt b (#gamma *: #Rgas *: T).

(** openap/aero.py:165-187 [h_isa].  [gamma * R], [beta * R / g0] are computed by
    Python on floats; the model computes them with the backend's operations. *)
Definition h_isa (p dT : T b) : T b :=
  let T0_shift := #T0 +: dT in
  let T := T0_shift *: power b (#p0 /: p) ((#beta *: #Rgas) /: #g0) in
  let h := (T -: T0_shift) /: #beta in
  let T1 := T0_shift +: #beta *: #11000 in
  let p1 := #22630 in
  let h1 := neg b #Rgas *: T1 /: #g0 *: blog b (p /: p1) +: #11000 in
  where_ b (gt b p #22630) h h1.

(** openap/aero.py:189-201 [tas2mach] *)
Definition tas2mach (v_tas h dT : T b) : T b :=
  let a := vsound h dT in v_tas /: a.

(** openap/aero.py:203-215 [mach2tas] *)
Definition mach2tas (mach h dT : T b) : T b :=
  let a := vsound h dT in mach *: a.

(** openap/aero.py:217-229 [eas2tas] *)
Definition eas2tas (v_eas h dT : T b) : T b :=
  let rho := density h dT in v_eas *: bsqrt b (#rho0 /: rho).

(** openap/aero.py:231-243 [tas2eas] *)
Definition tas2eas (v_tas h dT : T b) : T b :=
  let rho := density h dT in v_tas *: bsqrt b (rho /: #rho0).

(** openap/aero.py:245-260 [cas2tas] *)
Definition cas2tas (v_cas h dT : T b) : T b :=
  let '(p, rho, _) := atmos h dT in
  let qdyn := #p0 *: (power b (#1.0 +: #rho0 *: v_cas *: v_cas /: (#7.0 *: #p0)) #3.5 -: #1.0) in
  let v_tas := bsqrt b (#7.0 *: p /: rho *:
                 (power b (#1.0 +: qdyn /: p) (#2.0 /: #7.0) -: #1.0)) in
  v_tas.

(** openap/aero.py:262-277 [tas2cas] *)
Definition tas2cas (v_tas h dT : T b) : T b :=
  let '(p, rho, _) := atmos h dT in
  let qdyn := p *: (power b (#1.0 +: rho *: v_tas *: v_tas /: (#7.0 *: p)) #3.5 -: #1.0) in
  let v_cas := bsqrt b (#7.0 *: #p0 /: #rho0 *:
                 (power b (qdyn /: #p0 +: #1.0) (#2.0 /: #7.0) -: #1.0)) in
  v_cas.

(** openap/aero.py:279-291 [mach2cas] *)
Definition mach2cas (mach h dT : T b) : T b :=
  let v_tas := mach2tas mach h dT in tas2cas v_tas h dT.

(** openap/aero.py:293-305 [cas2mach] *)
Definition cas2mach (v_cas h dT : T b) : T b :=
  let v_tas := cas2tas v_cas h dT in tas2mach v_tas h dT.

(** openap/aero.py:307-325 [crossover_alt] *)
Definition crossover_alt (v_cas mach dT : T b) : T b :=
  let T0_shift := #T0 +: dT in
  let mach_safe := maximum b mach #1e-4 in
  let delta := (power b (#0.2 *: powi b (v_cas /: #a0) 2 +: #1) #3.5 -: #1) /:
               (power b (#0.2 *: powi b mach_safe 2 +: #1) #3.5 -: #1) in
  let h := T0_shift /: #beta *: (power b delta (#(-1) *: #Rgas *: #beta /: #g0) -: #1) in
  h.
End Aero.
