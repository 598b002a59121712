(** * Constructors of Thrust, Drag, WRAP, FuelFlow, Emission and FlightGenerator *)
From Coq Require Import String List Bool QArith.
From Verif Require Import Py Str PropPy.
Import ListNotations.
Open Scope string_scope.

(** the keyword arguments that influence construction; [None] = not given *)
(** openap/thrust.py:43 ([force_engine]), openap/drag.py:43, openap/kinematic.py:48, openap/fuel.py:50 ([use_synonym]) *)
Record ckw : Type := mkKwc { kw_syn : option bool; kw_force : option bool }.
Definition get {A} (o : option A) (dflt : A) : A := match o with Some x => x | None => dflt end.

(** propagate an exception *)
Definition bind {A B} (x : py A) (f : A -> py B) : py B := match x with inl e => inl e | inr a => f a end.
Notation "'do' x <- e ; f" := (bind e (fun x => f)) (at level 200, x name, e at level 100, f at level 200).

(** [any(opt.upper() in engine["name"].upper() for opt in eng_options)], openap/thrust.py:55-57 *)
Definition engine_matches (options : list string) (name : string) : bool :=
  existsb (fun opt => contains (upper opt) (upper name)) options.

(** openap/thrust.py:26-63 [Thrust.__init__] up to the numeric part; the numeric part is [thrust_par_of] *)
Record thrust_obj : Type := mkTo { to_ac : acrec; to_eng : engres }.
Definition thrust_new (d : db) (ac : string) (eng : option string) (k : ckw) : py thrust_obj :=
  do a <- aircraft d ac (get (kw_syn k) false);
  let eng := get eng (ac_default a) in
  do e <- engine d (upper eng);
  if negb (get (kw_force k) false) && negb (engine_matches (ac_options a) (er_name e))
  then inl ValueError
  else inr (mkTo a e).

(** membership of a string in a list of strings *)
Definition mem (x : string) (l : list string) : bool := existsb (String.eqb x) l.

(** openap/drag.py:63-64: [s[-8:-4].lower()] of the listed files *)
Definition polar_available (d : db) : list string :=
  map (fun r => lower (slice84 (d_dir d ++ po_code r ++ ".yml"))) (d_polar d).
(** openap/drag.py:51-90 [Drag.load_drag_model] *)
Definition load_drag_model (d : db) (ac : string) (use_synonym : bool) : py porec :=
  do code <- (if mem ac (polar_available d) then inr ac
              else match synonym (d_polsyn d) ac with
                   | Some new_ac => if use_synonym then inr new_ac else inl ValueError
                   | None => inl ValueError
                   end);
  match find (fun r => String.eqb (po_code r) code) (d_polar d) with
  | Some r => inr r
  | None => inl FileNotFoundError
  end.
(** openap/drag.py:26-49 [Drag.__init__] *)
Record drag_obj : Type := mkDo { do_ac : acrec; do_polar : porec }.
Definition drag_new (d : db) (ac : string) (k : ckw) : py drag_obj :=
  let ac := lower ac in
  do a <- aircraft d ac (get (kw_syn k) false);
  do p <- load_drag_model d ac (get (kw_syn k) false);
  inr (mkDo a p).
(** openap/kinematic.py:50-51 *)
Definition wrap_available (d : db) : list string :=
  map (fun r => lower (slice84 (d_dir d ++ wr_code r ++ ".txt"))) (d_wrap d).
(** openap/kinematic.py:39-63 [WRAP.__init__]; here synonyms are used unless switched off *)
Definition wrap_new (d : db) (ac : string) (use_synonym : option bool) : py wrrec :=
  let ac := lower ac in
  do code <- (if mem ac (wrap_available d) then inr ac
              else if negb (get use_synonym true) then inl ValueError
              else match synonym (d_wrapsyn d) ac with
                   | Some new_ac => inr new_ac
                   | None => inl ValueError
                   end);
  match find (fun r => String.eqb (wr_code r) code) (d_wrap d) with
  | Some r => inr r
  | None => inl FileNotFoundError
  end.
(** first component of the fuel flow quadruple: [engine["ff_to"]] *)
Definition ff_take_off (e : engrec) : Q := let '(t, _, _, _) := en_ff e in t.
(** openap/fuel.py:67-91 [_load_fuel_model]: coefficient row and scale factor *)
Definition load_fuel_model (d : db) (ac engine_type : string) (eng : engrec) : py (fmrec * Q) :=
  let code := if mem ac (map (fun r => lower (fm_type r)) (d_fuel d)) then ac else "default" in
  match find (fun r => String.eqb (lower (fm_type r)) code) (d_fuel d) with
  | None => inl IndexError
  | Some m =>
      if String.eqb code "default" then inr (m, ff_take_off eng)
      else if negb (String.eqb engine_type (upper (fm_engine m))) then
        do ref <- engine d (fm_engine m);
        inr (m, (ff_take_off eng / ff_take_off (er_row ref))%Q)
      else inr (m, 1%Q)
  end.
(** openap/fuel.py:22-65 [FuelFlow.__init__] *)
Record fuel_obj : Type := mkFo {
  fo_ac : acrec; fo_eng : engres; fo_thrust : thrust_obj; fo_drag : drag_obj; fo_wrap : wrrec; fo_model : fmrec * Q }.
Definition fuel_new (d : db) (ac : string) (eng : option string) (k : ckw) : py fuel_obj :=
  let lac := lower ac in
  do a <- aircraft d lac (get (kw_syn k) false);
  let eng := get eng (ac_default a) in
  let engine_type := upper eng in
  do e <- engine d eng;
  do t <- thrust_new d ac (Some eng) k;
  do dr <- drag_new d ac k;
  do w <- wrap_new d ac (kw_syn k);
  do m <- load_fuel_model d lac engine_type (er_row e);
  inr (mkFo a e t dr w m).
(** openap/emission.py:18-42 [Emission.__init__]; no check that the engine belongs to the aircraft *)
Record emission_obj : Type := mkEo { eo_ac : acrec; eo_eng : engres }.
Definition emission_new (d : db) (ac : string) (eng : option string) (k : ckw) : py emission_obj :=
  do a <- aircraft d ac (get (kw_syn k) false);
  do e <- engine d (get eng (ac_default a));
  inr (mkEo a e).
(** openap/gen.py:38-53 [FlightGenerator.__init__] *)
Definition gen_new (d : db) (ac : string) (use_synonym : bool) : py (acrec * wrrec) :=
  do a <- aircraft d ac use_synonym;
  do w <- wrap_new d ac (Some use_synonym);
  inr (a, w).

