(** * Model of openap/gen.py, continued: the generator object, its random numbers, noise and the returned columns

    NumPy's [Generator] is abstract: a state [G], a standard uniform draw [next01] and a standard normal draw [gauss].
    [uniform(lo, hi)] is [lo + (hi - lo) * u] and [normal(0, sigma, n)] is [sigma] times [n] draws, in order. *)
From Coq Require Import Reals List Bool ZArith.
From Verif Require Import Num Aero Fuel Gen.
Import ListNotations.
Open Scope R_scope.

(** data frame returned by [climb]: rows and the constant columns (openap/gen.py:213, 224-233); the integer columns are
    [altitude], [vertical_rate] and [groundspeed] of the rows *)
Record climb_df : Type := mkCdf {
  cd_rows : list row; cd_cas : R; cd_mach : R; cd_hcas : R; cd_hmach : ext; cd_alt : R }.
(** data frame returned by [descent] (openap/gen.py:372, 383-396) *)
Record descent_df : Type := mkDdf {
  dd_rows : list row; dd_cas : R; dd_vcas : ext; dd_mach : R; dd_vapp : R; dd_vsmach : R; dd_vscas : R;
  dd_hmach : ext; dd_hcas : R; dd_alt : R }.
(** data frame returned by [cruise] (openap/gen.py:472, 484-490); there is no [seg] column *)
Record cruise_df : Type := mkRdf { rd_rows : list row; rd_alt : R; rd_mach : R }.

Section Rng.
Context {G : Type} (next01 gauss : G -> R * G).

(** [self.rng.uniform(minimum, maximum)], e.g. openap/gen.py:97-100 *)
Definition uniform (v : wvar) (g : G) : R * G :=
  let '(u, g) := next01 g in (w_min v + (w_max v - w_min v) * u, g).
(** [self.rng.normal(0, sigma, n)], openap/gen.py:218-221 *)
Fixpoint normal (sigma : R) (n : nat) (g : G) : list R * G :=
  match n with
  | O => ([], g)
  | S n => let '(z, g) := gauss g in let '(l, g) := normal sigma n g in (sigma * z :: l, g)
  end.

(** openap/gen.py:46-62, 65-73: the attributes of a FlightGenerator *)
Record genobj : Type := mkGen {
  o_wrap : wrapdata; o_sv : R; o_svs : R; o_sh : R; o_ss : R; o_rng : G; o_noise : bool }.
(** openap/gen.py:51-62: after construction; [g] is the state made from the seed *)
Definition gen_init (w : wrapdata) (g : G) : genobj := mkGen w 0 0 0 0 g false.
(** openap/gen.py:64-73 *)
Definition enable_noise (o : genobj) : genobj := mkGen (o_wrap o) 0.5 0.75 7.5 5 (o_rng o) true.
(** the same object with another state of the random generator (openap/gen.py:61) *)
Definition with_rng (o : genobj) (g : G) : genobj :=
  mkGen (o_wrap o) (o_sv o) (o_svs o) (o_sh o) (o_ss o) g (o_noise o).

(** openap/gen.py:95-135: the six draws of [climb]; the argument of [kwargs.get] is evaluated also when the keyword is
    given *)
Definition draw_climb (w : wrapdata) (g : G) : cdraws * G :=
  let '(a, g) := uniform (climb_const_vcas w) g in
  let '(b, g) := uniform (climb_const_mach w) g in
  let '(c, g) := uniform (cruise_alt w) g in
  let '(d, g) := uniform (climb_vs_pre_concas w) g in
  let '(e, g) := uniform (climb_vs_concas w) g in
  let '(f, g) := uniform (climb_vs_conmach w) g in
  (mkCd a b c d e f, g).
(** openap/gen.py:259-300: the six draws of [descent] *)
Definition draw_descent (w : wrapdata) (g : G) : ddraws * G :=
  let '(a, g) := uniform (cruise_alt w) g in
  let '(b, g) := uniform (descent_const_mach w) g in
  let '(c, g) := uniform (descent_const_vcas w) g in
  let '(d, g) := uniform (descent_vs_conmach w) g in
  let '(e, g) := uniform (descent_vs_concas w) g in
  let '(f, g) := uniform (descent_vs_post_concas w) g in
  (mkDd a b c d e f, g).
(** openap/gen.py:417-443: the three draws of [cruise] *)
Definition draw_cruise (w : wrapdata) (g : G) : rdraws * G :=
  let '(a, g) := uniform (cruise_range w) g in
  let '(b, g) := uniform (cruise_alt w) g in
  let '(c, g) := uniform (cruise_mach w) g in
  (mkRd a b c, g).
(** no draws unless [random] (openap/gen.py:94, 137; 258, 302; 416, 444); the numbers in the unused record do not matter *)
Definition if_random {A} (k : kwargs) (draw : G -> A * G) (unused : A) (g : G) : A * G :=
  if getkw (k_random k) false then draw g else (unused, g).

(** adding a list of numbers to a column (openap/gen.py:218-221) *)
Fixpoint add_col (set : row -> R -> row) (l : list row) (z : list R) : list row :=
  match l, z with r :: l, x :: z => set r x :: add_col set l z | _, _ => [] end.
(** openap/gen.py:218 *)
Definition add_h (r : row) (x : R) : row := mkRow (r_t r) (eadd (r_h r) (Fin x)) (r_s r) (r_v r) (r_vs r) (r_seg r).
(** openap/gen.py:219 *)
Definition add_s (r : row) (x : R) : row := mkRow (r_t r) (r_h r) (eadd (r_s r) (Fin x)) (r_v r) (r_vs r) (r_seg r).
(** openap/gen.py:220 *)
Definition add_v (r : row) (x : R) : row := mkRow (r_t r) (r_h r) (r_s r) (eadd (r_v r) (Fin x)) (r_vs r) (r_seg r).
(** openap/gen.py:221 *)
Definition add_vs (r : row) (x : R) : row := mkRow (r_t r) (r_h r) (r_s r) (r_v r) (eadd (r_vs r) (Fin x)) (r_seg r).
(** openap/gen.py:215-222, 374-381, 474-481 *)
Definition add_noise (o : genobj) (l : list row) (g : G) : list row * G :=
  if o_noise o then
    let n := length l in
    let '(z, g) := normal (o_sh o) n g in let l := add_col add_h l z in
    let '(z, g) := normal (o_ss o) n g in let l := add_col add_s l z in
    let '(z, g) := normal (o_sv o) n g in let l := add_col add_v l z in
    let '(z, g) := normal (o_svs o) n g in let l := add_col add_vs l z in
    (l, g)
  else (l, g).

(** openap/gen.py:75-235 [climb]; [None] when the loop needs more than [fuel] iterations *)
Definition climb_m (o : genobj) (k : kwargs) (fuel : nat) : option (climb_df * genobj) :=
  let '(d, g) := if_random k (draw_climb (o_wrap o)) (mkCd 0 0 0 0 0 0) (o_rng o) in
  let p := climb_params (o_wrap o) k d in
  match climb p fuel with
  | None => None
  | Some l =>
      let '(l, g) := add_noise o l g in
      Some (mkCdf l (c_cas p) (c_mach p) (c_hcas p) (c_hmach p) (c_alt p), with_rng o g)
  end.
(** openap/gen.py:237-398 [descent] *)
Definition descent_m (o : genobj) (k : kwargs) (fuel : nat) : option (descent_df * genobj) :=
  let '(d, g) := if_random k (draw_descent (o_wrap o)) (mkDd 0 0 0 0 0 0) (o_rng o) in
  let p := descent_params (o_wrap o) k d in
  match descent p fuel with
  | None => None
  | Some l =>
      let '(l, g) := add_noise o l g in
      Some (mkDdf l (e_cas p) (e_vcas p) (e_mach p) (e_vapp p) (e_vsmach p) (e_vscas p) (e_hmach p) (e_hcas p) (e_alt p),
            with_rng o g)
  end.
(** openap/gen.py:400-492 [cruise] *)
Definition cruise_m (o : genobj) (k : kwargs) (fuel : nat) : option (cruise_df * genobj) :=
  let '(d, g) := if_random k (draw_cruise (o_wrap o)) (mkRd 0 0 0) (o_rng o) in
  let p := cruise_params (o_wrap o) k d in
  match cruise p fuel with
  | None => None
  | Some l =>
      let '(l, g) := add_noise o l g in
      Some (mkRdf l (x_alt p) (x_mach p), with_rng o g)
  end.
(** openap/gen.py:494-548 [complete] *)
Definition complete_m (o : genobj) (k : kwargs) (fuel : nat) : option (py (list row) * genobj) :=
  match cruise_m o k fuel with
  | None => None
  | Some (cr, o) =>
      let k := set_alt k (rd_alt cr) in
      match call_with_mach_cl k (rd_mach cr) with
      | inl e => Some (inl e, o)
      | inr kc =>
          match climb_m o kc fuel with
          | None => None
          | Some (cl, o) =>
              match call_with_mach_de k (rd_mach cr) with
              | inl e => Some (inl e, o)
              | inr kd =>
                  match descent_m o kd fuel with
                  | None => None
                  | Some (de, o) => Some (inr (join (cd_rows cl) (rd_rows cr) (dd_rows de)), o)
                  end
              end
          end
      end
  end.
End Rng.
