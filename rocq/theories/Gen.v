(** * Model of openap/gen.py: trajectory generator on top of the WRAP kinematic model

    Noise is off ([self.noise = False], openap/gen.py:62).  The [while True] loops are step
    functions; [run] iterates a step and returns [None] when the given number of iterations is
    not enough, so that termination is a property to be proved.
    The random generator is an oracle: the values it draws are the arguments [d]. *)
From Coq Require Import Reals List Bool ZArith.
From Verif Require Import Num Aero Fuel Phase.
Import ListNotations.
Open Scope R_scope.

(** Python's [x < y] on floats: False when an operand is NaN (openap/gen.py:180) *)
Definition eltb (x y : ext) : bool := match egt y x with Some c => c | None => false end.
(** Python's [x > y] on floats (openap/gen.py:345) *)
Definition egtb (x y : ext) : bool := eltb y x.
(** Python's [x <= y] and [x >= y] on floats (openap/gen.py:186, 369): False when an operand is NaN *)
Definition eleb (x y : ext) : bool := match egt x y with Some c => negb c | None => false end.
(** see [eleb] (openap/gen.py:186) *)
Definition egeb (x y : ext) : bool := eleb y x.

(** openap/gen.py:172, 183-207, 344-367: segment names *)
Inductive seg : Type := sTO | sIC | sPRE | sCAS | sMACH | sCR | sPOST | sFA | sLD.

(** openap/gen.py:175, 213: one row [t, h, s, v, vs, seg] of the trajectory; [None] is the
    initial [seg = None] *)
Record row : Type := mkRow {
  r_t : ext; r_h : ext; r_s : ext; r_v : ext; r_vs : ext; r_seg : option seg }.

(** [run step fuel st]: the rows appended by a [while True] loop whose body appends the
    current row, then runs [step], which also says whether to break.
    openap/gen.py:174-211, 335-370, 464-470 *)
Section Run.
Context {S : Type} (torow : S -> row) (step : S -> S * bool).
Fixpoint run (fuel : nat) (st : S) : option (list row) :=
  match fuel with
  | O => None
  | Datatypes.S n =>
      let '(st', stop) := step st in
      if stop then Some [torow st] else option_map (cons (torow st)) (run n st')
  end.
End Run.

(** openap/kinematic.py:65-80 [_get_var]: the three numbers of a WRAP variable used by the
    generator (statistical model parameters are not used by gen.py) *)
Record wvar : Type := mkVar { w_def : R; w_min : R; w_max : R }.

(** openap/kinematic.py:83-213: the WRAP variables read by openap/gen.py *)
Record wrapdata : Type := mkWrap {
  takeoff_speed : wvar;             (* kinematic.py:82-84 *)
  takeoff_acceleration : wvar;      (* kinematic.py:90-92 *)
  initclimb_vs : wvar;              (* kinematic.py:98-100 *)
  climb_const_vcas : wvar;          (* kinematic.py:106-108 *)
  climb_const_mach : wvar;          (* kinematic.py:110-112 *)
  climb_cross_alt_concas : wvar;    (* kinematic.py:114-116 *)
  climb_vs_pre_concas : wvar;       (* kinematic.py:122-124 *)
  climb_vs_concas : wvar;           (* kinematic.py:126-128 *)
  climb_vs_conmach : wvar;          (* kinematic.py:130-132 *)
  cruise_range : wvar;              (* kinematic.py:134-136 *)
  cruise_alt : wvar;                (* kinematic.py:138-140 *)
  cruise_mach : wvar;               (* kinematic.py:149-151 *)
  descent_const_mach : wvar;        (* kinematic.py:163-165 *)
  descent_const_vcas : wvar;        (* kinematic.py:167-169 *)
  descent_cross_alt_concas : wvar;  (* kinematic.py:175-177 *)
  descent_vs_conmach : wvar;        (* kinematic.py:179-181 *)
  descent_vs_concas : wvar;         (* kinematic.py:183-185 *)
  descent_vs_post_concas : wvar;    (* kinematic.py:187-189 *)
  finalapp_vcas : wvar;             (* kinematic.py:191-193 *)
  finalapp_vs : wvar;               (* kinematic.py:195-197 *)
  landing_acceleration : wvar       (* kinematic.py:207-209 *)
}.

(** Keyword arguments of the generator methods; [None] = not given.  Keywords other than the
    documented ones are ignored by the code ([kwargs.get]) and are not represented.
    openap/gen.py:78-83, 240-246, 403-408, 496-505; read at 89-149, 252-311, 414-451 *)
Record kwargs : Type := mkKw {
  k_dt : option R; k_random : option bool; k_withcr : option bool;
  k_cas_const_cl : option R; k_mach_const_cl : option R; k_alt_cr : option R;
  k_cas_const_de : option R; k_mach_const_de : option R;
  k_range_cr : option R; k_mach_cr : option R }.

(** [kwargs.get(key, default)], e.g. openap/gen.py:89 *)
Definition getkw {A : Type} (o : option A) (d : A) : A := match o with Some x => x | None => d end.

(** [np.round(x, -2)]: to the nearest hundred, half to even (openap/gen.py:155, 317, 453) *)
Definition round_fl (x : R) : R := 100 * IZR (py_round (x / 100)).

(** Parameters of the climb loop once the keyword arguments are resolved, openap/gen.py:89-158 *)
Record cparams : Type := mkCp {
  c_dt : R; c_atof : R; c_vtof : R;
  c_cas : R;      (* [cas_const], kt *)
  c_mach : R; c_alt : R; c_vsic : R; c_vspre : R; c_vscas : R; c_vsmach : R; c_hcas : R }.

(** the six uniform draws of the random branch, openap/gen.py:95-135 *)
Record cdraws : Type := mkCd { d_cas : R; d_mach : R; d_alt : R; d_vspre : R; d_vscas : R; d_vsmach : R }.

(** openap/gen.py:89-158: resolve the climb parameters.  The [max] with the take-off speed is in the
    non-random branch only (line 143). *)
Definition climb_params (w : wrapdata) (k : kwargs) (d : cdraws) : cparams :=
  let dt := getkw (k_dt k) 1 in
  let random := getkw (k_random k) false in
  let v_tof := w_def (takeoff_speed w) in
  {| c_dt := dt;
     c_atof := w_def (takeoff_acceleration w);
     c_vtof := v_tof;
     c_cas := if random then getkw (k_cas_const_cl k) (d_cas d / kts)
              else Rmax (getkw (k_cas_const_cl k) (w_def (climb_const_vcas w) / kts)) (v_tof / kts);
     c_mach := getkw (k_mach_const_cl k) (if random then d_mach d else w_def (climb_const_mach w));
     c_alt := round_fl (getkw (k_alt_cr k)
                (if random then d_alt d * 1000 / ft else w_def (cruise_alt w) * 1000 / ft));
     c_vsic := w_def (initclimb_vs w);
     c_vspre := if random then d_vspre d else w_def (climb_vs_pre_concas w);
     c_vscas := if random then d_vscas d else w_def (climb_vs_concas w);
     c_vsmach := if random then d_vsmach d else w_def (climb_vs_conmach w);
     c_hcas := w_def (climb_cross_alt_concas w) * 1000 |}.

Section Climb.
Context (p : cparams).
Local Notation "x +: y" := (eadd x y) (at level 50, left associativity).
Local Notation "x *: y" := (emul x y) (at level 40, left associativity).

(** openap/gen.py:165-172: loop variables [t, tcr, h, s, v, vs, seg] *)
Record cstate : Type := mkCs {
  cs_t : ext; cs_tcr : ext; cs_h : ext; cs_s : ext; cs_v : ext; cs_vs : ext; cs_seg : option seg }.

(** openap/gen.py:154 [vcas_const] *)
Definition c_vcas : ext := Fin (c_cas p) *: Fin kts.
(** openap/gen.py:156 [h_cr] *)
Definition c_hcr : ext := Fin (c_alt p) *: Fin ft.
(** openap/gen.py:160 [h_const_mach] *)
Definition c_hmach : ext := crossover_alt NP c_vcas (Fin (c_mach p)) (Fin 0).

(** openap/gen.py:165-172 *)
Definition climb_init : cstate :=
  mkCs (Fin 0) (Fin 0) (Fin 0) (Fin 0) (Fin 0) (Fin 0) None.

(** openap/gen.py:185-187, 191-193 (and 171: [a = 0.5]): accelerate, but not beyond the constant CAS *)
Definition accel_to_cas (v h : ext) : ext :=
  let v := v +: Fin 0.5 *: Fin (c_dt p) in
  if egeb (tas2cas NP v h (Fin 0)) c_vcas then cas2tas NP c_vcas h (Fin 0) else v.

(** openap/gen.py:176-211: body of the loop after the append; the boolean is [break] *)
Definition climb_step (st : cstate) : cstate * bool :=
  let t := cs_t st +: Fin (c_dt p) in
  let s := cs_s st +: cs_v st *: Fin (c_dt p) in
  let h := cs_h st +: cs_vs st *: Fin (c_dt p) in
  let v := cs_v st in
  if eltb v (Fin (c_vtof p)) then
    (mkCs t (cs_tcr st) h s (v +: Fin (c_atof p) *: Fin (c_dt p)) (Fin 0) (Some sTO), false)
  else if eltb h (Fin 1500 *: Fin ft) then
    (mkCs t (cs_tcr st) h s (accel_to_cas v h) (Fin (c_vsic p)) (Some sIC), false)
  else if eltb h (Fin (c_hcas p)) then
    (mkCs t (cs_tcr st) h s (accel_to_cas v h) (Fin (c_vspre p)) (Some sPRE), false)
  else if eltb h c_hmach then
    (mkCs t (cs_tcr st) h s (cas2tas NP c_vcas h (Fin 0)) (Fin (c_vscas p)) (Some sCAS), false)
  else if eltb h c_hcr then
    (mkCs t (cs_tcr st) h s (mach2tas NP (Fin (c_mach p)) h (Fin 0)) (Fin (c_vsmach p)) (Some sMACH), false)
  else
    let tcr := if eleb (cs_tcr st) (Fin 0) && egeb (cs_tcr st) (Fin 0) then t else cs_tcr st in
    (mkCs t tcr h s (mach2tas NP (Fin (c_mach p)) h (Fin 0)) (Fin 0) (Some sCR),
     egtb (esub t tcr) (Fin 60)).

(** openap/gen.py:175: the appended row *)
Definition climb_row (st : cstate) : row :=
  mkRow (cs_t st) (cs_h st) (cs_s st) (cs_v st) (cs_vs st) (cs_seg st).

(** openap/gen.py:162-213 *)
Definition climb (fuel : nat) : option (list row) := run climb_row climb_step fuel climb_init.
End Climb.

(** Parameters of the descent loop, openap/gen.py:252-320 *)
Record dparams : Type := mkDp {
  e_dt : R; e_withcr : bool; e_alnd : R; e_vapp : R;
  e_cas : R; e_mach : R; e_alt : R; e_vsmach : R; e_vscas : R; e_vspost : R; e_vsfa : R; e_hcas : R }.

(** the six uniform draws of the random branch, openap/gen.py:259-300 *)
Record ddraws : Type := mkDd { g_alt : R; g_mach : R; g_cas : R; g_vsmach : R; g_vscas : R; g_vspost : R }.

(** openap/gen.py:252-320: resolve the descent parameters *)
Definition descent_params (w : wrapdata) (k : kwargs) (d : ddraws) : dparams :=
  let random := getkw (k_random k) false in
  {| e_dt := getkw (k_dt k) 1;
     e_withcr := getkw (k_withcr k) true;
     e_alnd := w_def (landing_acceleration w);
     e_vapp := w_def (finalapp_vcas w);
     e_cas := getkw (k_cas_const_de k)
                (if random then g_cas d / kts else w_def (descent_const_vcas w) / kts);
     e_mach := getkw (k_mach_const_de k) (if random then g_mach d else w_def (descent_const_mach w));
     e_alt := round_fl (getkw (k_alt_cr k)
                (if random then g_alt d * 1000 / ft else w_def (cruise_alt w) * 1000 / ft));
     e_vsmach := if random then g_vsmach d else w_def (descent_vs_conmach w);
     e_vscas := if random then g_vscas d else w_def (descent_vs_concas w);
     e_vspost := if random then g_vspost d else w_def (descent_vs_post_concas w);
     e_vsfa := w_def (finalapp_vs w);
     e_hcas := w_def (descent_cross_alt_concas w) * 1000 |}.

Section Descent.
Context (p : dparams).
Local Notation "x +: y" := (eadd x y) (at level 50, left associativity).
Local Notation "x *: y" := (emul x y) (at level 40, left associativity).

(** openap/gen.py:328-333: loop variables [t, h, s, v, vs, seg] *)
Record dstate : Type := mkDs {
  ds_t : ext; ds_h : ext; ds_s : ext; ds_v : ext; ds_vs : ext; ds_seg : option seg }.

(** openap/gen.py:316 [vcas_const] *)
Definition e_vcas : ext := Fin (e_cas p) *: Fin kts.
(** openap/gen.py:318 [h_cr] *)
Definition e_hcr : ext := Fin (e_alt p) *: Fin ft.
(** openap/gen.py:322 [h_const_mach] *)
Definition e_hmach : ext := crossover_alt NP e_vcas (Fin (e_mach p)) (Fin 0).

(** openap/gen.py:328-333 *)
Definition descent_init : dstate :=
  mkDs (Fin 0) e_hcr (Fin 0) (mach2tas NP (Fin (e_mach p)) e_hcr (Fin 0)) (Fin 0) None.

(** openap/gen.py:354-356 (and 327: [a = -0.2]): decelerate, but not below the approach CAS *)
Definition decel_to_app (v h : ext) : ext :=
  let v := v +: Fin (-0.2) *: Fin (e_dt p) in
  if eltb (tas2cas NP v h (Fin 0)) (Fin (e_vapp p)) then cas2tas NP (Fin (e_vapp p)) h (Fin 0) else v.

(** openap/gen.py:337-370: body of the loop after the append *)
Definition descent_step (st : dstate) : dstate * bool :=
  let t := ds_t st +: Fin (e_dt p) in
  let s := ds_s st +: ds_v st *: Fin (e_dt p) in
  let h := ds_h st +: ds_vs st *: Fin (e_dt p) in
  let v := ds_v st in
  if eltb t (Fin 60) && e_withcr p then
    (mkDs t h s (mach2tas NP (Fin (e_mach p)) h (Fin 0)) (Fin 0) (Some sCR), false)
  else if egtb h e_hmach then
    (mkDs t h s (mach2tas NP (Fin (e_mach p)) h (Fin 0)) (Fin (e_vsmach p)) (Some sMACH), false)
  else if egtb h (Fin (e_hcas p)) then
    (mkDs t h s (cas2tas NP e_vcas h (Fin 0)) (Fin (e_vscas p)) (Some sCAS), false)
  else if egtb h (Fin 1000 *: Fin ft) then
    (mkDs t h s (decel_to_app v h) (Fin (e_vspost p)) (Some sPOST), false)
  else if egtb h (Fin 0) then
    (mkDs t h s (Fin (e_vapp p)) (Fin (e_vsfa p)) (Some sFA), false)
  else
    let v := v +: Fin (e_alnd p) *: Fin (e_dt p) in
    (mkDs t (Fin 0) s v (Fin 0) (Some sLD), eleb v (Fin 0)).

(** openap/gen.py:336: the appended row *)
Definition descent_row (st : dstate) : row :=
  mkRow (ds_t st) (ds_h st) (ds_s st) (ds_v st) (ds_vs st) (ds_seg st).

(** openap/gen.py:324-372 *)
Definition descent (fuel : nat) : option (list row) := run descent_row descent_step fuel descent_init.
End Descent.

(** Parameters of the cruise loop, openap/gen.py:414-453 *)
Record rparams : Type := mkRp { x_dt : R; x_distance : R; x_alt : R; x_mach : R }.

(** the three uniform draws of the random branch, openap/gen.py:417-443 *)
Record rdraws : Type := mkRd { q_range : R; q_alt : R; q_mach : R }.

(** openap/gen.py:414-453: resolve the cruise parameters.  A given [range_cr] is used as it is
    (lines 418-419, 445-447); the default is multiplied by 1000. *)
Definition cruise_params (w : wrapdata) (k : kwargs) (d : rdraws) : rparams :=
  let random := getkw (k_random k) false in
  {| x_dt := getkw (k_dt k) 1;
     x_distance := getkw (k_range_cr k)
                     (if random then q_range d * 1000 else w_def (cruise_range w) * 1000);
     x_alt := round_fl (getkw (k_alt_cr k)
                (if random then q_alt d * 1000 / ft else w_def (cruise_alt w) * 1000 / ft));
     x_mach := getkw (k_mach_cr k) (if random then q_mach d else w_def (cruise_mach w)) |}.

Section Cruise.
Context (p : rparams).
(** openap/gen.py:454 [h_cr] *)
Definition x_hcr : ext := emul (Fin (x_alt p)) (Fin ft).
(** openap/gen.py:461 [v], constant *)
Definition x_v : ext := mach2tas NP (Fin (x_mach p)) x_hcr (Fin 0).
(** openap/gen.py:459-460, 466-470: loop variables [t, s] *)
Definition cruise_step (st : ext * ext) : ext * ext * bool :=
  let t := eadd (fst st) (Fin (x_dt p)) in
  let s := eadd (snd st) (emul x_v (Fin (x_dt p))) in
  (t, s, egtb s (Fin (x_distance p))).
(** openap/gen.py:465; cruise rows have no [seg] column *)
Definition cruise_row (st : ext * ext) : row := mkRow (fst st) x_hcr (snd st) x_v (Fin 0) None.
(** openap/gen.py:456-472 *)
Definition cruise (fuel : nat) : option (list row) := run cruise_row cruise_step fuel (Fin 0, Fin 0).
End Cruise.

(** openap/gen.py:522-536: shift the time and distance columns of a part *)
Definition shift (t0 s0 : ext) (r : row) : row :=
  mkRow (eadd t0 (r_t r)) (r_h r) (eadd s0 (r_s r)) (r_v r) (r_vs r) (r_seg r).
(** [df.t.iloc[-1]] and [df.s.iloc[-1]], openap/gen.py:525-534 *)
Definition last_row (l : list row) : row := last l (mkRow NaN NaN NaN NaN NaN None).

(** openap/gen.py:520-540: joined columns ([seg] is dropped there; it is kept here unused) *)
Definition join (cl cr de : list row) : list row :=
  let lcl := last_row cl in
  let lcr := last_row cr in
  cl ++ map (shift (r_t lcl) (r_s lcl)) cr ++
  map (shift (eadd (r_t lcl) (r_t lcr)) (eadd (r_s lcl) (r_s lcr))) de.

(** [f(mach_const_cl=x, **kwargs)]: a keyword given twice is a TypeError; otherwise it is set
    (openap/gen.py:516) *)
Definition call_with_mach_cl (k : kwargs) (x : R) : py kwargs :=
  match k_mach_const_cl k with
  | Some _ => inl TypeError
  | None => inr (mkKw (k_dt k) (k_random k) (k_withcr k) (k_cas_const_cl k) (Some x) (k_alt_cr k)
                      (k_cas_const_de k) (k_mach_const_de k) (k_range_cr k) (k_mach_cr k))
  end.
(** openap/gen.py:518, as [call_with_mach_cl] *)
Definition call_with_mach_de (k : kwargs) (x : R) : py kwargs :=
  match k_mach_const_de k with
  | Some _ => inl TypeError
  | None => inr (mkKw (k_dt k) (k_random k) (k_withcr k) (k_cas_const_cl k) (k_mach_const_cl k) (k_alt_cr k)
                      (k_cas_const_de k) (Some x) (k_range_cr k) (k_mach_cr k))
  end.
(** openap/gen.py:513-514: [kwargs["alt_cr"] = df_cr["alt_cr"].iloc[0]] unless given *)
Definition set_alt (k : kwargs) (a : R) : kwargs :=
  match k_alt_cr k with
  | Some _ => k
  | None => mkKw (k_dt k) (k_random k) (k_withcr k) (k_cas_const_cl k) (k_mach_const_cl k) (Some a)
                 (k_cas_const_de k) (k_mach_const_de k) (k_range_cr k) (k_mach_cr k)
  end.

(** openap/gen.py:511-548 [complete]; the outer [option] is [None] when a loop needs more than
    [fuel] iterations *)
Definition complete (w : wrapdata) (k : kwargs) (dr : rdraws) (dc : cdraws) (dd : ddraws)
  (fuel : nat) : option (py (list row)) :=
  let pr := cruise_params w k dr in
  match cruise pr fuel with
  | None => None
  | Some cr =>
      let k := set_alt k (x_alt pr) in
      match call_with_mach_cl k (x_mach pr) with
      | inl e => Some (inl e)
      | inr kc =>
          match climb (climb_params w kc dc) fuel with
          | None => None
          | Some cl =>
              match call_with_mach_de k (x_mach pr) with
              | inl e => Some (inl e)
              | inr kd =>
                  match descent (descent_params w kd dd) fuel with
                  | None => None
                  | Some de => Some (inr (join cl cr de))
                  end
              end
          end
      end
  end.

(** integer columns [(x.h / aero.ft).astype(int)] etc. (openap/gen.py:225-227); [None] stands for a
    non-finite value, for which the conversion is undefined *)
Definition to_int (x : ext) (u : R) : option Z :=
  match x with Fin a => Some (Rtrunc (a / u)) | _ => None end.
(** openap/gen.py:225 *)
Definition altitude (r : row) : option Z := to_int (r_h r) ft.
(** openap/gen.py:226 *)
Definition vertical_rate (r : row) : option Z := to_int (r_vs r) fpm.
(** openap/gen.py:227 *)
Definition groundspeed (r : row) : option Z := to_int (r_v r) kts.
